(** Merging of exchanges: lemmas. *)
From Coq Require Import Ascii String List Bool Arith NArith ZArith Reals Lia Lra Permutation.
From Verif Require Import PyBase PyBaseFacts PyValues AmountModel AmountSpec AmountProofs FlowModel MergeModel MergeSpec.
Import ListNotations.

Lemma key_eqb_spec a b : key_eqb a b = true <-> a = b.
Proof.
  destruct a as [a d], b as [b e]. unfold key_eqb. cbn. rewrite andb_true_iff. split.
  - intros [H1 H2]. apply str_eqb_eq in H1 as ->. destruct d, e; (reflexivity || discriminate).
  - intros E. injection E as -> ->. split; [apply str_eqb_refl|]. now destruct e.
Qed.
Lemma key_eqb_refl a : key_eqb a a = true.
Proof. now apply key_eqb_spec. Qed.
Lemma key_eqb_ne a b : a <> b -> key_eqb a b = false.
Proof. intro H. destruct (key_eqb a b) eqn:E; [|reflexivity]. now apply key_eqb_spec in E. Qed.
Lemma num_in_spec n l : num_in n l = true <-> In n (map x_num l).
Proof.
  unfold num_in. rewrite existsb_exists, in_map_iff. split; intros (x & H1 & H2).
  - apply Nat.eqb_eq in H2. eauto.
  - exists x. split; [exact H2|]. now apply Nat.eqb_eq.
Qed.
Lemma in_group k x l : In x (group k l) <-> In x l /\ x_key x = k.
Proof. unfold group. rewrite filter_In, key_eqb_spec. intuition. Qed.

Lemma keys_of_In l k : In k (keys_of l) <-> exists x, In x l /\ x_key x = k.
Proof.
  induction l as [|y l IH]; cbn.
  - split; [tauto|]. intros (? & [] & _).
  - rewrite filter_In, IH. split.
    + intros [<-|[(x & H1 & H2) _]]; eauto.
    + intros (x & [<-|H1] & H2); [now left|]. destruct (key_eqb (x_key y) k) eqn:E.
      * apply key_eqb_spec in E. now left.
      * right. split; [eauto|reflexivity].
Qed.
Lemma keys_of_NoDup l : NoDup (keys_of l).
Proof.
  induction l as [|y l IH]; cbn; [constructor|]. constructor; [|now apply NoDup_filter].
  rewrite filter_In, key_eqb_refl. intros [_ H]. discriminate H.
Qed.
Lemma double_keys_NoDup l : NoDup (double_keys l).
Proof. apply NoDup_filter, keys_of_NoDup. Qed.
Lemma double_keys_In l k : In k (double_keys l) <-> 1 < List.length (group k l).
Proof.
  unfold double_keys. rewrite filter_In, keys_of_In, Nat.ltb_lt. split; [tauto|]. intro H. split; [|exact H].
  destruct (group k l) as [|x g] eqn:E; [cbn in H; lia|]. exists x. apply in_group. rewrite E. now left.
Qed.
Lemma key_in_spec k l : key_in k l = true <-> In k l.
Proof.
  unfold key_in. rewrite existsb_exists. split; [intros (x & H1 & H2); apply key_eqb_spec in H2; now subst|].
  intro H. exists k. split; [exact H|apply key_eqb_refl].
Qed.

Definition outs_k (k : key) (xs : list out) : list out := filter (fun o => key_eqb k (o_key o)) xs.
Definition linked (l : list mflow) (xs : list out) : Prop :=
  forall o, In o xs -> exists x, In x l /\ x_num x = o_num o /\ x_key x = o_key o.
Lemma num_inj l x y : NoDup (map x_num l) -> In x l -> In y l -> x_num x = x_num y -> x = y.
Proof.
  induction l as [|z l IH]; cbn; [tauto|]. intros N [->|Hx] [->|Hy] E; inversion N; subst; auto.
  - exfalso. apply H1. rewrite E. now apply in_map.
  - exfalso. apply H1. rewrite <- E. now apply in_map.
Qed.

(** what is needed of a merge function *)
Definition good_merge (M : mflow -> list mflow -> result mflow) : Prop :=
  forall x fs y, M x fs = Ok y -> x_num y = x_num x /\ x_key y = x_key x /\
    (Forall (fun z => real_unit (q_unit (am_a (x_amount z)))) (x :: fs) ->
     physical (am_a (x_amount y)) = (physical (am_a (x_amount x)) + fold_right Rplus 0 (map (fun f => physical (am_a (x_amount f))) fs))%R).

Section Groups.
  Context (M : mflow -> list mflow -> result mflow) (HM : good_merge M) (l s : list mflow)
          (Nd : NoDup (map x_num l)) (Sub : incl s l).

  Lemma filter_filter {A} (p q : A -> bool) (xs : list A) : filter p (filter q xs) = filter q (filter p xs).
  Proof.
    induction xs as [|a xs IH]; [reflexivity|]. cbn. destruct (q a) eqn:Q, (p a) eqn:P; cbn; rewrite ?P, ?Q; now rewrite IH.
  Qed.
  Lemma filter_all {A} (p : A -> bool) (xs : list A) : (forall a, In a xs -> p a = true) -> filter p xs = xs.
  Proof.
    induction xs as [|a xs IH]; intro H; [reflexivity|]. cbn. rewrite (H a (or_introl eq_refl)), IH; [reflexivity|].
    intros b Hb. apply H. now right.
  Qed.
  Lemma apply_group_linked k xs ys : linked l xs -> apply_group M (group k s) xs = Ok ys -> linked l ys.
  Proof.
    intros L E. unfold apply_group in E. destruct (group k s) as [|x fs] eqn:G; [injection E as <-; exact L|].
    apply bind_inv in E as (y & Ey & E). injection E as <-. destruct (HM _ _ _ Ey) as (N1 & K1 & _).
    intros o Ho. apply in_map_iff in Ho as (o' & Eo & Ho). apply filter_In in Ho as [Ho _].
    destruct (Nat.eqb (o_num o') (x_num x)) eqn:B; [|subst o'; now apply L].
    subst o. exists x. cbn. split; [|auto]. apply Sub. apply (in_group k). rewrite G. now left.
  Qed.
  Lemma apply_group_other k k' xs ys : linked l xs -> k' <> k -> apply_group M (group k s) xs = Ok ys -> outs_k k' ys = outs_k k' xs.
  Proof.
    intros L D E. unfold apply_group in E. destruct (group k s) as [|x fs] eqn:G; [now injection E as <-|].
    apply bind_inv in E as (y & Ey & E). injection E as <-. destruct (HM _ _ _ Ey) as (N1 & K1 & _).
    assert (Gk : forall z, In z (x :: fs) -> In z l /\ x_key z = k).
    { intros z Hz. rewrite <- G in Hz. apply in_group in Hz as [Hz Ez]. split; [now apply Sub|exact Ez]. }
    unfold outs_k. induction xs as [|o xs IH]; [reflexivity|].
    assert (IH' := IH (fun o' Ho => L o' (or_intror Ho))). clear IH.
    destruct (L o (or_introl eq_refl)) as (z & Hz & Nz & Kz). cbn.
    assert (F : x_key z <> k -> ~ In (x_num z) (map x_num (x :: fs))).
    { intros Dz I. apply in_map_iff in I as (w & Ew & Iw). destruct (Gk w Iw) as [Wl Wk].
      assert (w = z) by (apply (num_inj l); auto). subst w. now elim Dz. }
    destruct (num_in (o_num o) fs) eqn:B; cbn.
    - rewrite IH'. rewrite key_eqb_ne; [reflexivity|]. intros ->. rewrite <- Kz in D.
      apply (F D). rewrite Nz. right. now apply num_in_spec.
    - destruct (Nat.eqb (o_num o) (x_num x)) eqn:C.
      + cbn. rewrite IH', K1, (proj2 (Gk x (or_introl eq_refl))). rewrite (key_eqb_ne k' k D).
        rewrite key_eqb_ne; [reflexivity|]. intros ->. rewrite <- Kz in D. apply (F D). left.
        apply Nat.eqb_eq in C. congruence.
      + now rewrite IH'.
  Qed.
  Lemma NoDup_map_filter {A B} (f : A -> B) (p : A -> bool) (xs : list A) : NoDup (map f xs) -> NoDup (map f (filter p xs)).
  Proof.
    induction xs as [|a xs IH]; intro H; [constructor|]. cbn in H. inversion H; subst. cbn. destruct (p a); [|auto].
    cbn. constructor; [|auto]. intro I. apply H2. apply in_map_iff in I as (b & Eb & I). apply filter_In in I as [I _].
    rewrite <- Eb. now apply in_map.
  Qed.
  Lemma apply_group_same k xs ys x fs :
    group k s = x :: fs -> NoDup (map o_num (outs_k k xs)) -> linked l xs -> NoDup (map x_num (x :: fs)) ->
    (forall n, In n (map o_num (outs_k k xs)) <-> In n (map x_num (x :: fs))) ->
    apply_group M (group k s) xs = Ok ys ->
    exists y, M x fs = Ok y /\ outs_k k ys = [write_out y (Some (am_a (x_amount y)))].
  Proof.
    intros G N L Ns Hn E. unfold apply_group in E. rewrite G in E. apply bind_inv in E as (y & Ey & E).
    injection E as <-. exists y. split; [exact Ey|]. destruct (HM _ _ _ Ey) as (N1 & K1 & _).
    assert (Gx : In x l /\ x_key x = k).
    { assert (I : In x (group k s)) by (rewrite G; now left). apply in_group in I as [I1 I2]. split; [now apply Sub|exact I2]. }
    set (u := fun o => if Nat.eqb (o_num o) (x_num x) then write_out y (Some (am_a (x_amount y))) else o).
    assert (Eq : outs_k k (map u (filter (fun o => negb (num_in (o_num o) fs)) xs)) =
                 map u (filter (fun o => negb (num_in (o_num o) fs)) (outs_k k xs))).
    { unfold outs_k. rewrite (filter_filter (fun o => negb (num_in (o_num o) fs))).
      assert (Hk : forall o, In o (filter (fun o => negb (num_in (o_num o) fs)) xs) -> key_eqb k (o_key (u o)) = key_eqb k (o_key o)).
      { intros o Ho. apply filter_In in Ho as [Ho _]. unfold u. destruct (Nat.eqb (o_num o) (x_num x)) eqn:C; [|reflexivity].
        cbn. apply Nat.eqb_eq in C. destruct (L o Ho) as (z & Hz & Nz & Kz).
        assert (z = x) by (apply (num_inj l); [exact Nd|exact Hz|apply Gx|congruence]). subst z. now rewrite K1, Kz. }
      induction (filter (fun o => negb (num_in (o_num o) fs)) xs) as [|o os IH]; [reflexivity|].
      cbn. rewrite Hk by now left. destruct (key_eqb k (o_key o)); cbn; rewrite IH; auto; intros o' Ho'; apply Hk; now right. }
    rewrite Eq.
    set (os := filter (fun o => negb (num_in (o_num o) fs)) (outs_k k xs)).
    assert (No : NoDup (map o_num os)) by now apply NoDup_map_filter.
    assert (Ho : forall o, In o os -> o_num o = x_num x).
    { intros o I. apply filter_In in I as [I1 I2]. apply negb_true_iff in I2.
      assert (J : In (o_num o) (map x_num (x :: fs))) by (apply Hn; now apply in_map).
      destruct J as [<-|J]; [reflexivity|]. apply num_in_spec in J. congruence. }
    assert (He : exists o, In o os).
    { assert (J : In (x_num x) (map o_num (outs_k k xs))) by (apply Hn; now left).
      apply in_map_iff in J as (o & Eo & I). exists o. apply filter_In. split; [exact I|]. apply negb_true_iff.
      destruct (num_in (o_num o) fs) eqn:B; [|reflexivity]. apply num_in_spec in B. rewrite Eo in B. inversion Ns; contradiction. }
    destruct os as [|o [|o2 os]].
    - destruct He as [? []].
    - cbn. unfold u. rewrite (proj2 (Nat.eqb_eq _ _) (Ho o (or_introl eq_refl))). reflexivity.
    - exfalso. cbn in No. inversion No; subst. apply H1. left.
      rewrite (Ho o (or_introl eq_refl)), (Ho o2 (or_intror (or_introl eq_refl))). reflexivity.
  Qed.

  Lemma apply_groups_linked ks : forall xs ys, linked l xs -> apply_groups M s ks xs = Ok ys -> linked l ys.
  Proof.
    induction ks as [|k ks IH]; intros xs ys L E; cbn in E; [injection E as <-; exact L|].
    apply bind_inv in E as (zs & E1 & E2). apply (IH zs); [|exact E2]. now apply (apply_group_linked k xs).
  Qed.
  Lemma apply_groups_other ks k' : forall xs ys, linked l xs -> ~ In k' ks -> apply_groups M s ks xs = Ok ys -> outs_k k' ys = outs_k k' xs.
  Proof.
    induction ks as [|k ks IH]; intros xs ys L D E; cbn in E; [now injection E as <-|].
    apply bind_inv in E as (zs & E1 & E2). cbn in D.
    rewrite (IH zs ys); [|now apply (apply_group_linked k xs)|tauto|exact E2].
    apply (apply_group_other k); [exact L|intro; subst; tauto|exact E1].
  Qed.
  Lemma apply_groups_same ks k : forall xs ys x fs,
    NoDup ks -> In k ks -> group k s = x :: fs -> NoDup (map o_num (outs_k k xs)) -> linked l xs -> NoDup (map x_num (x :: fs)) ->
    (forall n, In n (map o_num (outs_k k xs)) <-> In n (map x_num (x :: fs))) ->
    apply_groups M s ks xs = Ok ys ->
    exists y, M x fs = Ok y /\ outs_k k ys = [write_out y (Some (am_a (x_amount y)))].
  Proof.
    induction ks as [|k0 ks IH]; intros xs ys x fs Nk I G No L Ns Hn E; [contradiction|].
    cbn in E. apply bind_inv in E as (zs & E1 & E2). inversion Nk; subst.
    assert (Lz : linked l zs) by now apply (apply_group_linked k0 xs).
    destruct I as [<-|I].
    - destruct (apply_group_same _ _ _ _ _ G No L Ns Hn E1) as (y & Ey & Ez). exists y. split; [exact Ey|].
      rewrite (apply_groups_other ks k0 zs ys Lz); assumption.
    - assert (D : k <> k0) by (intros ->; contradiction).
      pose proof (apply_group_other k0 k xs zs L D E1) as Eo.
      apply (IH zs ys x fs); auto; now rewrite Eo.
  Qed.
End Groups.

(** ** totals *)
Local Open Scope R_scope.
Definition phys (x : mflow) : R := physical (am_a (x_amount x)).
Lemma total_before_group k l : total_before k l = fold_right Rplus 0 (map phys (group k l)).
Proof.
  induction l as [|x l IH]; [reflexivity|]. cbn. rewrite IH. destruct (key_eqb k (x_key x)); cbn; [reflexivity|]. apply Rplus_0_l.
Qed.
Lemma total_after_outs k xs : total_after k xs = total_after k (outs_k k xs).
Proof.
  induction xs as [|o xs IH]; [reflexivity|]. cbn. rewrite IH. destruct (key_eqb k (o_key o)) eqn:E; cbn; [now rewrite E|]. apply Rplus_0_l.
Qed.
Lemma count_after_outs k xs : count_after k xs = List.length (outs_k k xs).
Proof. induction xs as [|o xs IH]; [reflexivity|]. cbn. rewrite IH. now destruct (key_eqb k (o_key o)). Qed.
Lemma fold_perm l l' : Permutation l l' -> fold_right Rplus 0 l = fold_right Rplus 0 l'.
Proof. induction 1; cbn; lra. Qed.
Lemma Permutation_filter' {A} (p : A -> bool) l l' : Permutation l l' -> Permutation (filter p l) (filter p l').
Proof.
  induction 1; cbn.
  - constructor.
  - destruct (p x); [now constructor|assumption].
  - destruct (p x), (p y); try constructor; apply Permutation_refl.
  - now apply (perm_trans IHPermutation1).
Qed.
Lemma group_filter_elem k l : (forall x, In x l -> x_key x = k -> x_elem x = true) -> group k (filter is_elem l) = group k l.
Proof.
  unfold group. rewrite filter_filter. intro H. apply filter_all. intros x Hx. apply filter_In in Hx as [Hx Hk].
  apply key_eqb_spec in Hk. now apply H.
Qed.
Lemma group_filter_none k l : (forall x, In x l -> x_key x = k -> x_elem x = false) -> group k (filter is_elem l) = [].
Proof.
  intro H. destruct (group k (filter is_elem l)) as [|x g] eqn:E; [reflexivity|].
  assert (I : In x (group k (filter is_elem l))) by (rewrite E; now left). apply in_group in I as [I K].
  apply filter_In in I as [I1 I2]. unfold is_elem in I2. rewrite (H x I1 K) in I2. discriminate.
Qed.

Lemma merge_totals M (HM : good_merge M) l s (ini : mflow -> option quantity) ys :
  well_formed l -> Permutation s (filter is_elem l) ->
  (forall x, In x l -> ini x = Some (am_a (x_amount x)) \/ In (x_key x) (double_keys s)) ->
  apply_groups M s (double_keys s) (map (fun x => write_out x (ini x)) l) = Ok ys ->
  forall k,
    total_after k ys = total_before k l /\
    ((exists x, In x l /\ x_elem x = true /\ x_key x = k) -> count_after k ys = 1%nat) /\
    ((forall x, In x l -> x_key x = k -> x_elem x = false) -> count_after k ys = List.length (group k l)).
Proof.
  intros (Nd & Ke & Ru) P Hi E k.
  assert (Sub : incl s l) by (intros x Hx; apply (Permutation_in _ P) in Hx; apply filter_In in Hx; tauto).
  set (xs := map (fun x => write_out x (ini x)) l) in *.
  assert (L : linked l xs).
  { intros o Ho. apply in_map_iff in Ho as (x & <- & Hx). exists x. cbn. auto. }
  assert (Ex : outs_k k xs = map (fun x => write_out x (ini x)) (group k l)).
  { unfold xs, outs_k, group. clear. induction l as [|x l IH]; [reflexivity|]. cbn. rewrite IH.
    destruct (key_eqb k (x_key x)); reflexivity. }
  assert (En : map o_num (outs_k k xs) = map x_num (group k l)) by (rewrite Ex, map_map; reflexivity).
  assert (Ng : NoDup (map x_num (group k l))) by now apply NoDup_map_filter.
  assert (Pg : (exists x, In x l /\ x_elem x = true /\ x_key x = k) -> Permutation (group k s) (group k l)).
  { intros (x & Hx & Hxe & Hk). rewrite <- (group_filter_elem k l).
    - now apply Permutation_filter'.
    - intros y Hy Hyk. rewrite <- Hxe. apply Ke; congruence. }
  rewrite total_after_outs, count_after_outs, total_before_group.
  destruct (in_dec (fun a b : key => match bool_dec (key_eqb a b) true with
                              | left e => left (proj1 (key_eqb_spec a b) e)
                              | right n => right (fun e => n (proj2 (key_eqb_spec a b) e)) end) k (double_keys s)) as [D|D].
  - pose proof D as D'. apply double_keys_In in D'. destruct (group k s) as [|x fs] eqn:G; [cbn in D'; lia|].
    assert (Hx : In x l /\ x_elem x = true /\ x_key x = k).
    { assert (I : In x (group k s)) by (rewrite G; now left). apply in_group in I as [I1 I2].
      apply (Permutation_in _ P) in I1. apply filter_In in I1 as [I1 I3]. auto. }
    assert (Pk : Permutation (x :: fs) (group k l)) by (apply Pg; eauto).
    assert (Nx : NoDup (map x_num (x :: fs))) by (apply (Permutation_NoDup (Permutation_sym (Permutation_map x_num Pk))); exact Ng).
    destruct (apply_groups_same M HM l s Nd Sub (double_keys s) k xs ys x fs) as (y & Ey & Eo); auto.
    + apply double_keys_NoDup.
    + now rewrite En.
    + intro n. rewrite En. split; intro I; [apply (Permutation_in _ (Permutation_sym (Permutation_map x_num Pk)))|
                                           apply (Permutation_in _ (Permutation_map x_num Pk))]; exact I.
    + rewrite Eo. cbn. destruct (HM _ _ _ Ey) as (_ & Ky & Ph). rewrite Ky, (proj2 (proj2 Hx)), key_eqb_refl.
      split; [|split; [reflexivity|]].
      * rewrite Ph.
        -- change (physical (am_a (x_amount x)) + fold_right Rplus 0 (map (fun f => physical (am_a (x_amount f))) fs) + 0)
             with (fold_right Rplus 0 (map phys (x :: fs)) + 0). rewrite Rplus_0_r. now apply fold_perm, Permutation_map.
        -- apply Forall_forall. intros z Hz. apply Ru. apply (Permutation_in _ Pk) in Hz. now apply in_group in Hz.
      * intro F. destruct Hx as (H1 & H2 & H3). rewrite (F x H1 H3) in H2. discriminate.
  - rewrite (apply_groups_other M HM l s Nd Sub (double_keys s) k xs ys L D E), Ex.
    split; [|split].
    + assert (Hg : forall x, In x (group k l) -> ini x = Some (am_a (x_amount x)) /\ x_key x = k).
      { intros x Hx. apply in_group in Hx as [Hx Hk]. destruct (Hi x Hx) as [H|H]; [auto|]. rewrite Hk in H. contradiction. }
      clear - Hg. induction (group k l) as [|x g IH]; [reflexivity|]. cbn.
      destruct (Hg x (or_introl eq_refl)) as [Hq Hk]. rewrite Hk, key_eqb_refl, Hq. unfold phys at 1. f_equal.
      apply IH. intros z Hz. apply Hg. now right.
    + intros Hx. rewrite map_length. rewrite double_keys_In in D. rewrite <- (Permutation_length (Pg Hx)).
      destruct Hx as (x & H1 & H2 & H3). assert (I : In x (group k s)).
      { apply in_group. split; [|exact H3]. apply (Permutation_in _ (Permutation_sym P)). apply filter_In. auto. }
      destruct (group k s) as [|a [|b g]]; [contradiction|reflexivity|]. cbn in D. lia.
    + intros _. now rewrite map_length.
Qed.

(** ** the two merge functions *)
Lemma sum_phys a b c : sum_ a (AmountOp b) = Ok c -> real_unit (q_unit (am_a a)) ->
  physical (am_a c) = physical (am_a a) + physical (am_a b) /\ real_unit (q_unit (am_a c)).
Proof.
  intros H R. unfold sum_ in H. apply bind_inv in H as (k & _ & H). apply bind_inv in H as (q & Hq & H). injection H as <-.
  cbn in *. unfold q_add in Hq. apply bind_inv in Hq as (q' & Hq' & E). injection E as <-.
  apply to_unit_ok in Hq' as [[Hp _] Hu]; [|exact R]. split; [|exact R].
  unfold physical in *. cbn. rewrite Hu in Hp. rewrite <- Hp. ring.
Qed.
Lemma merge_ilcd_good : good_merge merge_ilcd.
Proof.
  intros x fs. revert x. induction fs as [|f fs IH]; intros x y E; cbn in E.
  - injection E as <-. repeat split; auto. intros _. cbn. ring.
  - apply bind_inv in E as (sr & _ & E). apply bind_inv in E as (a & Ea & E). apply bind_inv in E as (b & _ & E).
    destruct (IH _ _ E) as (N & K & Ph). cbn in N, K, Ph. split; [exact N|]. split; [exact K|]. intro F.
    inversion F as [|? ? Fx Ff]; subst. inversion Ff as [|? ? Fy Fs]; subst.
    destruct (sum_phys _ _ _ Ea Fx) as [S R]. rewrite Ph by (constructor; [exact R|exact Fs]). rewrite S. cbn. ring.
Qed.
Lemma merge_ecs2_good : good_merge merge_ecs2.
Proof.
  intros x fs. revert x. induction fs as [|f fs IH]; intros x y E; cbn in E.
  - injection E as <-. repeat split; auto. intros _. cbn. ring.
  - apply bind_inv in E as (a & Ea & E).
    destruct (IH _ _ E) as (N & K & Ph). cbn in N, K, Ph. split; [exact N|]. split; [exact K|]. intro F.
    inversion F as [|? ? Fx Ff]; subst. inversion Ff as [|? ? Fy Fs]; subst.
    destruct (sum_phys _ _ _ Ea Fx) as [S R]. rewrite Ph by (constructor; [exact R|exact Fs]). rewrite S. cbn. ring.
Qed.
