(** Facts about converted classifications. *)
From Coq Require Import Ascii String List Bool Arith NArith ZArith Lia.
From Verif Require Import PyBase PyBaseFacts PyValues DotDictModel ClassModel ClassSpec.
Import ListNotations.

Lemma enumerate_length {A} (l : list A) i : length (enumerate i l) = length l.
Proof. revert i; induction l; intros; cbn; auto. Qed.
Lemma enumerate_nth {A} (l : list A) i k : nth_error (enumerate i l) k = option_map (fun x => (i + k, x)) (nth_error l k).
Proof.
  revert i k; induction l as [|x l IH]; intros i [|k]; cbn; auto.
  - now rewrite Nat.add_0_r.
  - rewrite IH. destruct (nth_error l k); cbn; [|reflexivity]. do 2 f_equal. lia.
Qed.
Lemma enumerate_In {A} (l : list A) i p : In p (enumerate i l) -> i <= fst p < i + length l.
Proof.
  intros I. apply In_nth_error in I. destruct I as [k H]. assert (k < length l).
  { rewrite <- (enumerate_length l i). apply nth_error_Some. congruence. }
  rewrite enumerate_nth in H. destruct (nth_error l k); [|discriminate]. cbn in H. injection H as <-. cbn. lia.
Qed.
Lemma mapM_map {A B} (f : A -> result B) (g : A -> B) l : (forall x, In x l -> f x = Ok (g x)) -> mapM f l = Ok (map g l).
Proof.
  induction l as [|x l IH]; intros H; cbn; [reflexivity|]. rewrite H by now left. cbn.
  rewrite IH by (intros; apply H; now right). reflexivity.
Qed.
Definition step (ix : nat * (pystr * pystr)) : class_out :=
  mkClassOut (str_of_N (N.of_nat (fst ix))) (fst (snd ix)) (snd (snd ix)).
Definition steps (e : entry) : list class_out := map step (enumerate 0 (levels e)).
Definition short (e : entry) : Prop := length (split slash (e_class e)) <= 10.
Lemma levels_length e : length (levels e) = length (split slash (e_class e)).
Proof. unfold levels. now rewrite map_length, enumerate_length. Qed.
Lemma put_steps e : short e -> mapM put_class (enumerate 0 (levels e)) = Ok (steps e).
Proof.
  intros S. apply mapM_map. intros p I. apply enumerate_In in I. rewrite levels_length in I. unfold put_class.
  unfold short in S. destruct (Nat.ltb_spec (fst p) 10); [reflexivity|lia].
Qed.
Lemma put_too_long (l : list (pystr * pystr)) : forall i, 10 < i + length l -> i <= 10 -> mapM put_class (enumerate i l) = Err ValueError.
Proof.
  induction l as [|x l IH]; intros i H H0; cbn [length enumerate mapM] in *; [lia|]. unfold put_class at 1. cbn [fst].
  destruct (Nat.ltb_spec i 10); [|reflexivity]. cbn [bind]. now rewrite IH by lia.
Qed.
Lemma steps_path e : path_of (e_class e) (e_id e) (steps e).
Proof.
  exists (split slash (e_class e)), (split dot (e_id e)).
  split; [|split; [|split]].
  - split; [apply split1_join|]. split; [|apply split_nonnil]. apply Forall_forall. intros p I. now apply (split1_nosep _ _ _ I).
  - split; [apply split1_join|]. split; [|apply split_nonnil]. apply Forall_forall. intros p I. now apply (split1_nosep _ _ _ I).
  - unfold steps. now rewrite map_length, enumerate_length, levels_length.
  - intros i n H. unfold steps. rewrite nth_error_map, enumerate_nth. unfold levels.
    rewrite nth_error_map, enumerate_nth, H. cbn. rewrite Nat.add_1_r. reflexivity.
Qed.
Lemma find_mapped m c e : getf (c_id c) m = Some e -> find_levels m c = Some (levels e).
Proof. unfold find_levels. now intros ->. Qed.
Lemma conversion_mapped m k c e : getf (c_id c) m = Some e -> short e -> c_context c = None ->
  class_conversion m k c = Ok (mkFieldOut (lit "ILCD") (steps e)).
Proof.
  intros G S X. unfold class_conversion, get_classification. rewrite (find_mapped _ _ _ G), (put_steps _ S). cbn [bind].
  unfold class_not_converted. rewrite X. reflexivity.
Qed.
Lemma conversion_name m k c f : class_conversion m k c = Ok f -> f_name f = lit "ILCD".
Proof.
  unfold class_conversion. destruct (get_classification m c); [|discriminate]. cbn [bind].
  destruct (class_not_converted k c); [|discriminate]. cbn [bind]. intros H. injection H as <-. reflexivity.
Qed.
Lemma conversion_classes m k c f : class_conversion m k c = Ok f -> get_classification m c = Ok (f_classes f).
Proof.
  unfold class_conversion. destruct (get_classification m c); [|discriminate]. cbn [bind].
  destruct (class_not_converted k c); [|discriminate]. cbn [bind]. intros H. injection H as <-. reflexivity.
Qed.
Lemma pop_none p l : forall b, Forall (fun f => f_name f <> p) l -> pop_first p b l = None.
Proof.
  induction l as [|f l IH]; intros b H; cbn [pop_first]; [reflexivity|]. inversion H; subst.
  destruct (str_eqb (f_name f) p) eqn:E; [apply str_eqb_eq in E; contradiction|]. now apply IH.
Qed.
Lemma organize_none p l : Forall (fun f => f_name f <> p) l -> organize l p = l.
Proof. intros H. unfold organize. now rewrite pop_none. Qed.
Lemma all_ilcd m k cs l : mapM (class_conversion m k) cs = Ok l -> Forall (fun f => f_name f = lit "ILCD") l.
Proof.
  intros H. apply mapM_forall2 in H. induction H; constructor; auto. eapply conversion_name; eauto.
Qed.
Lemma activity_is m cs : activity_classes m cs = mapM (class_conversion m false) (filter is_kept cs).
Proof.
  unfold activity_classes. destruct (mapM _ _) as [l|] eqn:E; cbn [bind]; [|reflexivity]. f_equal. apply organize_none.
  eapply Forall_impl; [|eapply all_ilcd; exact E]. cbv beta. intros f ->. discriminate.
Qed.
(** the last value of the by-product classification *)
Fixpoint last_by_product (b : option pystr) (cs : list class_in) : option pystr :=
  match cs with
  | [] => b
  | c :: cs' => last_by_product (if str_eqb (c_system c) by_product then Some (c_value c) else b) cs'
  end.
Lemma flow_loop_is m cs : forall acc b, flow_loop m acc b cs =
  bind (mapM (class_conversion m true) (filter is_kept cs)) (fun l => Ok (acc ++ l, last_by_product b cs)).
Proof.
  induction cs as [|c cs IH]; intros acc b; cbn [flow_loop filter].
  - cbn. now rewrite app_nil_r.
  - destruct (is_kept c).
    + cbn [mapM]. destruct (class_conversion m true c); cbn [bind]; [|reflexivity]. rewrite IH.
      destruct (mapM _ _); cbn [bind]; [|reflexivity]. now rewrite <- app_assoc.
    + now rewrite IH.
Qed.
Lemma flow_is m cs : flow_classes m cs =
  bind (mapM (class_conversion m true) (filter is_kept cs)) (fun l => Ok (l, last_by_product None cs)).
Proof.
  unfold flow_classes. rewrite flow_loop_is. destruct (mapM _ _) as [l|] eqn:E; cbn [bind fst snd app]; [|reflexivity].
  rewrite organize_none; [reflexivity|]. eapply Forall_impl; [|eapply all_ilcd; exact E]. cbv beta. intros f ->. discriminate.
Qed.
Lemma mapM_err_in {A B} (f : A -> result B) l x : In x l -> (exists e, f x = Err e) -> exists e, mapM f l = Err e.
Proof.
  induction l as [|y l IH]; intros I [e E]; [destruct I|]. cbn [mapM]. destruct I as [->|I].
  - rewrite E. now exists e.
  - destruct (f y); [|now eexists]. cbn [bind]. destruct (IH I (ex_intro _ e E)) as [e' ->]. now exists e'.
Qed.

(** * The shipped table *)
Definition na := lit "#N/A".
Definition pair_entry (p : pystr * pystr) : entry := mkEntry [] (fst p) (snd p).
Definition pair_steps (p : pystr * pystr) : list class_out := steps (pair_entry p).
Lemma steps_pair e : steps e = pair_steps (e_class e, e_id e).
Proof. reflexivity. Qed.
Definition shortb (p : pystr * pystr) : bool := length (split slash (fst p)) <=? 10.
Lemma shipped_short : forallb shortb shipped = true.
Proof. vm_compute. reflexivity. Qed.
Lemma like_short m k e : like_shipped m -> getf k m = Some e -> short e.
Proof.
  intros L G. assert (I : In (k, e) m).
  { clear L. induction m as [|[k' e'] m IH]; cbn [getf] in G; [discriminate|]. destruct (str_eqb k' k) eqn:E.
    - apply str_eqb_eq in E. subst. left. congruence.
    - right. now apply IH. }
  specialize (L _ _ I). pose proof shipped_short as S. rewrite forallb_forall in S. specialize (S _ L).
  apply Nat.leb_le in S. exact S.
Qed.
Definition sane (p : pystr * pystr) : bool := negb (str_eqb (snd p) na).
Definition agree (o o' : class_out) : bool :=
  if str_eqb (o_id o) (o_id o') then (str_eqb (o_level o) (o_level o') && str_eqb (map small (o_text o)) (map small (o_text o')))%bool else true.
Definition table_agrees : bool :=
  let all := flat_map pair_steps (filter sane shipped) in forallb (fun o => forallb (agree o) all) all.
Lemma table_agrees_true : table_agrees = true.
Proof. vm_compute. reflexivity. Qed.
Lemma shipped_agree p p' o o' : In p shipped -> In p' shipped -> snd p <> na -> snd p' <> na ->
  In o (pair_steps p) -> In o' (pair_steps p') -> o_id o = o_id o' -> o_level o = o_level o' /\ same_words (o_text o) (o_text o').
Proof.
  intros P P' N N' O O' E.
  assert (F : forall p, In p shipped -> snd p <> na -> forall o, In o (pair_steps p) -> In o (flat_map pair_steps (filter sane shipped))).
  { intros q Q M x X. apply in_flat_map. exists q. split; [|exact X]. apply filter_In. split; [exact Q|].
    unfold sane. destruct (str_eqb (snd q) na) eqn:Z; [apply str_eqb_eq in Z; contradiction|reflexivity]. }
  pose proof table_agrees_true as T. unfold table_agrees in T. cbv zeta in T. rewrite forallb_forall in T.
  specialize (T o (F _ P N _ O)). rewrite forallb_forall in T. specialize (T o' (F _ P' N' _ O')).
  unfold agree in T. rewrite E, str_eqb_refl in T. apply andb_true_iff in T. destruct T as [T1 T2].
  apply str_eqb_eq in T1, T2. now split.
Qed.
Fixpoint distinctb (l : list pystr) : bool := match l with [] => true | x :: l' => (negb (str_in x l') && distinctb l')%bool end.
Lemma distinctb_spec l : distinctb l = true -> NoDup l.
Proof.
  induction l as [|x l IH]; cbn; intros H; constructor; apply andb_true_iff in H; destruct H as [H1 H2]; auto.
  intros I. apply str_in_In in I. rewrite I in H1. discriminate.
Qed.
Lemma shipped_distinct : forallb (fun p => distinctb (map o_id (pair_steps p))) (filter sane shipped) = true.
Proof. vm_compute. reflexivity. Qed.
Lemma shipped_nodup p : In p shipped -> snd p <> na -> NoDup (map o_id (pair_steps p)).
Proof.
  intros P N. pose proof shipped_distinct as D. rewrite forallb_forall in D. apply distinctb_spec, D, filter_In.
  split; [exact P|]. unfold sane. destruct (str_eqb (snd p) na) eqn:Z; [apply str_eqb_eq in Z; contradiction|reflexivity].
Qed.
(** An identifier without dots is the identifier of all steps. *)
Lemma undotted e o : ~ In (ch ".") (e_id e) -> In o (steps e) -> o_id o = e_id e.
Proof.
  intros N O. assert (S : split dot (e_id e) = [e_id e]).
  { pose proof (split1_join (ch ".") (e_id e)) as J. change [ch "."] with dot in J. pose proof (split_nonnil dot (e_id e)) as Z.
    destruct (split dot (e_id e)) as [|x [|y l]] eqn:E; [contradiction| |].
    - f_equal. exact J.
    - exfalso. apply N. rewrite <- J. rewrite join_cons by discriminate. apply in_or_app. right. now left. }
  unfold steps in O. apply in_map_iff in O. destruct O as ([i [a b]] & <- & O). cbn.
  apply In_nth_error in O. destruct O as [k O]. rewrite enumerate_nth in O. unfold levels in O. rewrite nth_error_map, S in O.
  destruct (nth_error (enumerate 0 (split slash (e_class e))) k) as [[j n]|]; [|discriminate]. cbn in O.
  injection O as _ <- _. rewrite Nat.add_1_r. cbn [firstn]. rewrite firstn_nil. reflexivity.
Qed.
