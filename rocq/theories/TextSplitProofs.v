(** Lemmas for text splitting. *)
From Coq Require Import Ascii String List Bool Arith NArith Lia.
From Verif Require Import PyBase PyBaseFacts Regex TextSplitModel TextSplitSpec.
Import ListNotations.

(** ** Lengths *)
Definition within (limit : nat) (x : pystr) : Prop := length x <= limit.

Lemma optimize_within limit s n : length s <= 2 -> Forall (within limit) n ->
  forall f, within limit f -> Forall (within limit) (optimize limit s f n).
Proof.
  intros Hs. induction 1 as [|x n Hx Hn IH]; intros f Hf; cbn [optimize].
  - constructor; auto. unfold within in *. pose proof (strip_len f); lia.
  - destruct (str_eqb f []); [now apply IH|].
    destruct (Nat.ltb_spec limit (length (f ++ lit "; " ++ x))) as [H|H].
    + constructor; [unfold within in *; pose proof (strip_len f); lia | now apply IH].
    + rewrite !app_length in H. simpl in H.
      destruct (isspace x); [now apply IH|].
      destruct (_ || _); apply IH; unfold within; rewrite !app_length; simpl; lia.
Qed.

Lemma join_app_len sep a b : length (join sep a) <= length (join sep (a ++ b)).
Proof.
  induction a as [|x a IH]; simpl; [lia|].
  destruct a as [|y a].
  - simpl. destruct b; simpl; rewrite ?app_length; lia.
  - simpl in *. rewrite !app_length. lia.
Qed.
Lemma join_len_in sep x l : In x l -> length x <= length (join sep l).
Proof.
  induction l as [|y l IH]; simpl; [tauto|].
  destruct l as [|z l]; intros H.
  - destruct H as [<-|[]]; lia.
  - rewrite !app_length. destruct H as [<-|H]; [lia|]. specialize (IH H). simpl in *. lia.
Qed.
Lemma removelast_last {A} (l : list A) d : l <> [] -> l = removelast l ++ [last l d].
Proof. intros; now apply app_removelast_last. Qed.
Lemma last_In {A} (l : list A) d : l <> [] -> In (last l d) l.
Proof. intros H. rewrite (removelast_last l d H) at 2. apply in_or_app; simpl; auto. Qed.

Lemma slice_len i j (s : pystr) : length (slice i j s) <= j - i.
Proof. unfold slice. rewrite firstn_length. lia. Qed.

Definition good_state limit (st : list pystr * pystr * pystr) : Prop :=
  let '(m, b, s) := st in Forall (within limit) m /\ within limit b /\ length s <= 2.

Lemma slice_step_good limit x st i : good_state limit st -> good_state limit (slice_step limit x st i).
Proof.
  destruct st as [[m b] s]. intros (Hm & Hb & Hs). unfold slice_step.
  set (sl := slice i (i + (limit - 50)) x).
  assert (Hsl : length sl <= limit).
  { unfold sl. pose proof (slice_len i (i + (limit - 50)) x). lia. }
  destruct (Nat.ltb_spec limit (length (sl ++ b))) as [H|H].
  - pose proof (split_nonnil (lit " ") sl) as Hn.
    pose proof (split1_join 32%N sl) as Hj. change [32%N] with (lit " ") in Hj.
    set (c := split (lit " ") sl) in *.
    destruct (removelast c) as [|a0 a] eqn:E.
    + split; [auto|]. split; [unfold within; simpl; lia | simpl; lia].
    + rewrite <- E. repeat split; auto.
      * constructor; [|constructor; auto].
        unfold within. pose proof (join_app_len (lit " ") (removelast c) [last c []]).
        rewrite <- removelast_last in H0 by auto. rewrite Hj in H0. lia.
      * unfold within. pose proof (join_len_in (lit " ") (last c []) c (last_In c [] Hn)).
        rewrite Hj in H0. lia.
  - pose proof (split_nonnil (lit " ") (b ++ sl)) as Hn.
    pose proof (split1_join 32%N (b ++ sl)) as Hj. change [32%N] with (lit " ") in Hj.
    set (c := split (lit " ") (b ++ sl)) in *.
    rewrite app_length in H.
    destruct (removelast c) as [|a0 a] eqn:E.
    + split; [auto|]. split; [unfold within; simpl; lia | simpl; lia].
    + rewrite <- E. repeat split; auto.
      * constructor; auto.
        unfold within. pose proof (join_app_len (lit " ") (removelast c) [last c []]).
        rewrite <- removelast_last in H0 by auto. rewrite Hj, app_length in H0. lia.
      * unfold within. pose proof (join_len_in (lit " ") (last c []) c (last_In c [] Hn)).
        rewrite Hj, app_length in H0. lia.
Qed.

Lemma fold_slice_good limit x l st : good_state limit st -> good_state limit (fold_left (slice_step limit x) l st).
Proof. revert st; induction l as [|i l IH]; intros st H; simpl; auto. apply IH, slice_step_good, H. Qed.

Lemma fold_sentence_err limit n e : fold_left (sentence_step limit) n (Err e) = Err e.
Proof. induction n; simpl; auto. Qed.

Lemma fold_sentence_good limit n : forall m s m' s',
  Forall (within limit) m -> length s <= 2 ->
  fold_left (sentence_step limit) n (Ok (m, s)) = Ok (m', s') ->
  Forall (within limit) m' /\ length s' <= 2.
Proof.
  induction n as [|x n IH]; intros m s m' s' Hm Hs H; simpl in H.
  - injection H; intros <- <-; auto.
  - destruct (Nat.ltb_spec limit (length x)) as [Hx|Hx].
    + destruct (Nat.eqb_spec limit 50); [rewrite fold_sentence_err in H; discriminate|].
      destruct (Nat.ltb_spec limit 50).
      * apply IH in H; auto.
      * pose proof (fold_slice_good limit x (py_range (length x) (limit - 50)) (m, [], lit " ")) as G.
        destruct (fold_left (slice_step limit x) _ _) as [[m1 b1] s1].
        destruct G as (G1 & G2 & G3); [repeat split; simpl; auto; unfold within; simpl; lia|].
        apply IH in H; auto.
    + apply IH in H; auto.
Qed.

Lemma sentences_to_list_within n limit l :
  sentences_to_list n limit = Ok l -> Forall (fun p => length p <= limit) l.
Proof.
  unfold sentences_to_list. destruct n as [|x n]; [discriminate|].
  set (l0 := x :: n). clearbody l0. clear x n.
  destruct (Nat.ltb_spec (fold_right Nat.max 0 (map (@length N) l0)) limit) as [H|H].
  - injection 1; intros <-. apply (optimize_within limit (lit "; ") l0); simpl; auto.
    + apply Forall_forall. intros x Hx. unfold within.
      enough (length x <= fold_right Nat.max 0 (map (@length N) l0)) by lia.
      clear -Hx. induction l0; simpl in *; [tauto|]. destruct Hx as [->|Hx]; [lia|]. specialize (IHl0 Hx). lia.
    + unfold within; simpl; lia.
  - destruct (fold_left (sentence_step limit) l0 (Ok ([], lit "; "))) as [[m s]|e] eqn:E; simpl; [|discriminate].
    injection 1; intros <-.
    apply fold_sentence_good in E as [E1 E2]; simpl; auto.
    apply optimize_within; auto.
    + now apply Forall_rev.
    + unfold within; simpl; lia.
Qed.

Lemma fold_sentence_total limit n st : limit <> 50 ->
  exists r, fold_left (sentence_step limit) n (Ok st) = Ok r.
Proof.
  intros Hl. revert st; induction n as [|x n IH]; intros [m s]; simpl; eauto.
  destruct (limit <? length x); auto.
  destruct (Nat.eqb_spec limit 50); [congruence|].
  destruct (limit <? 50); auto.
  destruct (fold_left (slice_step limit x) _ _) as [[m1 b1] s1]. auto.
Qed.
Lemma sentences_to_list_total n limit : n <> [] -> limit <> 50 ->
  exists l, sentences_to_list n limit = Ok l.
Proof.
  intros Hn Hl. unfold sentences_to_list. destruct n as [|x n]; [congruence|].
  destruct (_ <? _); [eauto|].
  destruct (fold_sentence_total limit (x :: n) ([], lit "; ") Hl) as [[m s] ->]. simpl; eauto.
Qed.

(** ** Content *)
Lemma visible_space c : is_space c = true -> visible c = false.
Proof. unfold visible. now intros ->. Qed.
Lemma ink_app a b : ink (a ++ b) = ink a ++ ink b.
Proof. apply filter_app. Qed.
Lemma ink_strip s : ink (strip s) = ink s.
Proof. apply filter_strip, visible_space. Qed.
Lemma ink_isspace s : isspace s = true -> ink s = [].
Proof. apply filter_isspace, visible_space. Qed.

Lemma optimize_ink limit s n : ink s = [] ->
  forall f, ink (concat (optimize limit s f n)) = ink f ++ ink (concat n).
Proof.
  intros Hs. induction n as [|x n IH]; intros f; cbn [optimize concat].
  - rewrite app_nil_r, ink_strip. simpl. now rewrite app_nil_r.
  - destruct (str_eqb f []) eqn:E.
    + apply str_eqb_eq in E; subst. rewrite IH, ink_app. reflexivity.
    + destruct (limit <? _).
      * simpl. rewrite ink_app, ink_strip, IH, ink_app. reflexivity.
      * destruct (isspace x) eqn:Ex.
        { rewrite IH, ink_app, (ink_isspace _ Ex). reflexivity. }
        destruct (_ || _); rewrite IH, !ink_app, ?Hs; simpl; rewrite <- app_assoc; reflexivity.
Qed.

Lemma sentence_fold_short limit n m s :
  Forall (fun x => length x <= limit) n ->
  fold_left (sentence_step limit) n (Ok (m, s)) = Ok (rev n ++ m, s).
Proof.
  intros H; revert m; induction H as [|x n Hx Hn IH]; intros m; simpl; auto.
  destruct (Nat.ltb_spec limit (length x)); [lia|]. rewrite IH. now rewrite <- app_assoc.
Qed.

Lemma sentences_to_list_ink n limit l :
  Forall (fun x => length x <= limit) n ->
  sentences_to_list n limit = Ok l -> ink (concat l) = ink (concat n).
Proof.
  intros Hn. unfold sentences_to_list. destruct n as [|x n]; [discriminate|].
  set (l0 := x :: n) in *. clearbody l0. clear x n.
  destruct (_ <? _).
  - injection 1; intros <-. rewrite optimize_ink; reflexivity.
  - rewrite sentence_fold_short by auto. simpl. injection 1; intros <-.
    rewrite app_nil_r, rev_involutive. rewrite optimize_ink; reflexivity.
Qed.

(** nothing invented *)
Lemma subseq_refl {A} (l : list A) : subseq l l.
Proof. induction l; constructor; auto. Qed.
Lemma subseq_trans {A} (a b c : list A) : subseq a b -> subseq b c -> subseq a c.
Proof.
  intros H1 H2; revert a H1; induction H2 as [l|x b c H IH|x b c H IH]; intros a H1.
  - inversion H1; constructor.
  - inversion H1; subst; constructor; auto.
  - constructor; auto.
Qed.
Lemma subseq_app {A} (a b c d : list A) : subseq a b -> subseq c d -> subseq (a ++ c) (b ++ d).
Proof.
  induction 1; simpl; intros.
  - induction l; simpl; auto. now apply ss_skip.
  - constructor; auto.
  - apply ss_skip; auto.
Qed.
Lemma subseq_nil_r {A} (l : list A) : subseq l [] -> l = [].
Proof. inversion 1; auto. Qed.
Lemma subseq_app_l {A} (a b : list A) : subseq a (a ++ b).
Proof. rewrite <- (app_nil_r a) at 1. apply subseq_app; [apply subseq_refl | constructor]. Qed.
Lemma subseq_app_r {A} (a b : list A) : subseq b (a ++ b).
Proof. change b with ([] ++ b) at 1. apply subseq_app; [constructor | apply subseq_refl]. Qed.
Lemma subseq_length {A} (a b : list A) : subseq a b -> length a <= length b.
Proof. induction 1; simpl; lia. Qed.

Definition rcat (m : list pystr) : pystr := concat (rev m).
Lemma rcat_cons x m : rcat (x :: m) = rcat m ++ x.
Proof. unfold rcat. simpl. now rewrite concat_app; simpl; rewrite app_nil_r. Qed.

Lemma ink_join_space l : ink (join (lit " ") l) = ink (concat l).
Proof.
  induction l as [|x l IH]; auto.
  destruct l as [|y l]; [simpl; now rewrite app_nil_r|].
  change (join (lit " ") (x :: y :: l)) with (x ++ lit " " ++ join (lit " ") (y :: l)).
  change (concat (x :: y :: l)) with (x ++ concat (y :: l)).
  rewrite !ink_app, IH. reflexivity.
Qed.
Lemma ink_split_space s :
  ink (join (lit " ") (removelast (split (lit " ") s))) ++ ink (last (split (lit " ") s) []) = ink s.
Proof.
  pose proof (split_nonnil (lit " ") s) as Hn.
  pose proof (split1_join 32%N s) as Hj. change [32%N] with (lit " ") in Hj.
  rewrite <- Hj at 3. set (c := split (lit " ") s) in *.
  rewrite (removelast_last c [] Hn) at 3.
  rewrite !ink_join_space, concat_app, ink_app. simpl. now rewrite app_nil_r.
Qed.

(** sum of the slices *)
Lemma slice_step_ink limit x m b s i m' b' s' :
  slice_step limit x (m, b, s) i = (m', b', s') ->
  subseq (ink (rcat m') ++ ink b') (ink (rcat m) ++ ink b ++ ink (slice i (i + (limit - 50)) x))
  /\ (ink s = [] -> ink s' = []).
Proof.
  unfold slice_step. set (sl := slice i (i + (limit - 50)) x).
  destruct (limit <? length (sl ++ b)).
  - pose proof (ink_split_space sl) as Hi.
    destruct (removelast (split (lit " ") sl)) as [|a0 a] eqn:E.
    + intros H; apply pair_equal_spec in H as [H <-]; apply pair_equal_spec in H as [<- <-]. rewrite !rcat_cons, !ink_app, app_nil_r, <- app_assoc.
      split; auto. apply subseq_refl.
    + intros H; apply pair_equal_spec in H as [H <-]; apply pair_equal_spec in H as [<- <-]. rewrite !rcat_cons, !ink_app. split; auto.
      rewrite <- !app_assoc. rewrite Hi. apply subseq_refl.
  - pose proof (ink_split_space (b ++ sl)) as Hi. rewrite ink_app in Hi.
    destruct (removelast (split (lit " ") (b ++ sl))) as [|a0 a] eqn:E.
    + intros H; apply pair_equal_spec in H as [H <-]; apply pair_equal_spec in H as [<- <-]. rewrite !rcat_cons, !ink_app, app_nil_r. split; auto.
      apply subseq_app; [apply subseq_refl|]. apply subseq_app_r.
    + intros H; apply pair_equal_spec in H as [H <-]; apply pair_equal_spec in H as [<- <-]. rewrite !rcat_cons, !ink_app. split; auto.
      rewrite <- !app_assoc. rewrite Hi. apply subseq_refl.
Qed.

Lemma fold_slice_ink limit x l : forall m b s m' b' s',
  fold_left (slice_step limit x) l (m, b, s) = (m', b', s') ->
  subseq (ink (rcat m') ++ ink b')
         (ink (rcat m) ++ ink b ++ ink (concat (map (fun i => slice i (i + (limit - 50)) x) l)))
  /\ (ink s = [] -> ink s' = []).
Proof.
  induction l as [|i l IH]; intros m b s m' b' s' H; cbn [fold_left] in H.
  - injection H; intros <- <- <-. simpl. rewrite app_nil_r. split; auto. apply subseq_refl.
  - destruct (slice_step limit x (m, b, s) i) as [[m1 b1] s1] eqn:E.
    apply slice_step_ink in E as [E1 E2]. apply IH in H as [H1 H2]. split; auto.
    eapply subseq_trans; [exact H1|]. simpl. rewrite ink_app.
    rewrite !app_assoc. apply subseq_app; [|apply subseq_refl].
    rewrite <- !app_assoc. exact E1.
Qed.

Lemma slices_concat k (x : pystr) q : 
  concat (map (fun j => slice (j * k) (j * k + k) x) (seq 0 q)) = firstn (q * k) x.
Proof.
  enough (G : forall q a, concat (map (fun j => slice (j * k) (j * k + k) x) (seq a q)) = firstn (q * k) (skipn (a * k) x)).
  { rewrite G. reflexivity. }
  clear q. induction q as [|q IH]; intros a; simpl; auto.
  rewrite IH. unfold slice. replace (a * k + k - a * k) with k by lia.
  simpl. replace (k + a * k) with (a * k + k) by lia.
  generalize (a * k) as n. intros n. clear.
  rewrite Nat.add_comm.
  assert (E : skipn (k + n) x = skipn k (skipn n x)).
  { revert x; induction n as [|n IH]; intros x; simpl.
    - rewrite Nat.add_0_r; auto.
    - rewrite Nat.add_succ_r. destruct x; [now rewrite !skipn_nil | simpl; auto]. }
  rewrite E. generalize (skipn n x) as y. generalize (q * k) as j. clear. intros j y.
  revert y; induction k as [|k IH]; intros y; simpl; auto.
  destruct y; simpl; [now rewrite ?firstn_nil|]. now rewrite IH.
Qed.

Lemma py_range_slices x limit : 50 < limit ->
  concat (map (fun i => slice i (i + (limit - 50)) x) (py_range (length x) (limit - 50))) = x.
Proof.
  intros Hl. set (k := limit - 50). assert (Hk : 0 < k) by (unfold k; lia). clearbody k.
  unfold py_range. rewrite map_map.
  rewrite slices_concat. apply firstn_all2.
  pose proof (Nat.div_mod (length x + k - 1) k).
  pose proof (Nat.mod_upper_bound (length x + k - 1) k). nia.
Qed.

Lemma sentence_step_ink limit n : forall m s m' s',
  ink s = [] ->
  fold_left (sentence_step limit) n (Ok (m, s)) = Ok (m', s') ->
  subseq (ink (rcat m')) (ink (rcat m) ++ ink (concat n)) /\ ink s' = [].
Proof.
  induction n as [|x n IH]; intros m s m' s' Hs H; simpl in H.
  - injection H; intros <- <-. simpl. rewrite app_nil_r. split; auto. apply subseq_refl.
  - simpl concat. rewrite ink_app. rewrite app_assoc.
    destruct (limit <? length x).
    + destruct (Nat.eqb_spec limit 50); [rewrite fold_sentence_err in H; discriminate|].
      destruct (Nat.ltb_spec limit 50).
      * apply IH in H as [H1 H2]; auto. split; auto.
        eapply subseq_trans; [exact H1|]. apply subseq_app; [|apply subseq_refl]. apply subseq_app_l.
      * destruct (fold_left (slice_step limit x) _ _) as [[m1 b1] s1] eqn:E.
        apply fold_slice_ink in E as [E1 E2].
        rewrite py_range_slices in E1 by lia. simpl in E1.
        apply IH in H as [H1 H2]; auto. split; auto.
        eapply subseq_trans; [exact H1|]. apply subseq_app; [|apply subseq_refl].
        eapply subseq_trans; [apply subseq_app_l|exact E1].
    + apply IH in H as [H1 H2]; auto. split; auto.
      rewrite rcat_cons, ink_app in H1. exact H1.
Qed.

Lemma sentences_to_list_subseq n limit l :
  sentences_to_list n limit = Ok l -> subseq (ink (concat l)) (ink (concat n)).
Proof.
  unfold sentences_to_list. destruct n as [|x n]; [discriminate|].
  set (l0 := x :: n). clearbody l0. clear x n.
  destruct (_ <? _).
  - injection 1; intros <-. rewrite optimize_ink by reflexivity. apply subseq_refl.
  - destruct (fold_left _ _ _) as [[m s]|e] eqn:E; simpl; [|discriminate].
    injection 1; intros <-. apply sentence_step_ink in E as [E1 E2]; auto.
    rewrite optimize_ink by auto. simpl. exact E1.
Qed.

(** ** Systematic loss of the last word of an over-long sentence *)
Lemma last_app_ne {A} (a b : list A) d : b <> [] -> last (a ++ b) d = last b d.
Proof.
  intros Hb. induction a as [|x a IH]; auto.
  simpl app. rewrite <- IH. destruct (a ++ b) eqn:E; auto.
  apply app_eq_nil in E as [_ E]; congruence.
Qed.
Lemma last_skipn {A} n (l : list A) d : n < length l -> last (skipn n l) d = last l d.
Proof.
  intros H. rewrite <- (firstn_skipn n l) at 2. symmetry. apply last_app_ne.
  intros E. apply (f_equal (@length A)) in E. rewrite skipn_length in E. simpl in E. lia.
Qed.
Lemma last_rev_cons {A} (a : list A) x d : last (rev (x :: a)) d = x.
Proof. simpl. apply last_last. Qed.
(** splitting at a space: the last part ends like the whole, if that is not a space *)
Lemma split1_last c : forall s acc d, s <> [] -> last s d <> c ->
  last (last (split_aux [c] 0 acc s) []) d = last s d.
Proof.
  induction s as [|x s IH]; intros acc d Hs Hl; [congruence|].
  cbn [split_aux prefixb length Nat.sub]. rewrite andb_true_r.
  destruct s as [|y s].
  - simpl in Hl. destruct (N.eqb_spec c x); [congruence|]. simpl. apply last_last.
  - assert (E : last (x :: y :: s) d = last (y :: s) d) by reflexivity.
    rewrite E in *.
    destruct (N.eqb_spec c x).
    + assert (E2 : forall z, last (z :: split_aux [c] 0 [] (y :: s)) [] = last (split_aux [c] 0 [] (y :: s)) []).
      { intros z. pose proof (split_aux_nonnil [c] 0 [] (y :: s)). destruct (split_aux [c] 0 [] (y :: s)); [congruence|auto]. }
      rewrite E2. apply IH; auto; discriminate.
    + apply IH; auto; discriminate.
Qed.
Lemma split1_two c : forall s acc, In c s -> removelast (split_aux [c] 0 acc s) <> [].
Proof.
  induction s as [|x s IH]; intros acc H; [destruct H|].
  cbn [split_aux prefixb length Nat.sub]. rewrite andb_true_r.
  destruct (N.eqb_spec c x).
  - pose proof (split_aux_nonnil [c] 0 [] s). simpl. destruct (split_aux [c] 0 [] s); [congruence|discriminate].
  - apply IH. simpl in H; intuition congruence.
Qed.

Lemma ink_last_ne b : visible (last b 32%N) = true -> ink b <> [].
Proof.
  intros H E. destruct b as [|x b]; [vm_compute in H; discriminate|].
  assert (In (last (x :: b) 32%N) (ink (x :: b))).
  { unfold ink. apply filter_In; split; auto. apply last_In; discriminate. }
  rewrite E in H0. destruct H0.
Qed.

Lemma slice_step_last limit x m b s i m' b' s' :
  let sl := slice i (i + (limit - 50)) x in
  slice_step limit x (m, b, s) i = (m', b', s') ->
  In 32%N sl -> visible (last sl 32%N) = true -> ink b' <> [].
Proof.
  intros sl. unfold slice_step. fold sl. intros H Hin Hv.
  assert (Hne : sl <> []) by (intros E; rewrite E in Hin; destruct Hin).
  assert (Hl : last sl 32%N <> 32%N) by (intros E; rewrite E in Hv; vm_compute in Hv; discriminate).
  change (lit " ") with [32%N] in H.
  destruct (limit <? length (sl ++ b)).
  - pose proof (split1_two 32 sl [] Hin) as H2. unfold split in H.
    destruct (removelast (split_aux [32%N] 0 [] sl)); [congruence|].
    apply pair_equal_spec in H as [H <-]; apply pair_equal_spec in H as [<- <-].
    apply ink_last_ne. rewrite split1_last; auto.
  - pose proof (split1_two 32 (b ++ sl) [] (in_or_app _ _ _ (or_intror Hin))) as H2. unfold split in H.
    destruct (removelast (split_aux [32%N] 0 [] (b ++ sl))); [congruence|].
    apply pair_equal_spec in H as [H <-]; apply pair_equal_spec in H as [<- <-].
    apply ink_last_ne. rewrite split1_last; rewrite ?last_app_ne; auto.
    intros E; apply app_eq_nil in E as [_ E]; congruence.
Qed.

Lemma long_sentence_loses x limit l :
  50 < limit -> limit < length x ->
  In 32%N (skipn ((length x - 1) / (limit - 50) * (limit - 50)) x) ->
  visible (last x 32%N) = true ->
  sentences_to_list [x] limit = Ok l ->
  length (ink (concat l)) < length (ink x).
Proof.
  intros Hl Hx Hin Hv. unfold sentences_to_list. cbn [map fold_right].
  destruct (Nat.ltb_spec (Nat.max (length x) 0) limit); [lia|].
  cbn [fold_left sentence_step bind].
  destruct (Nat.ltb_spec limit (length x)); [|lia].
  destruct (Nat.eqb_spec limit 50); [lia|]. destruct (Nat.ltb_spec limit 50); [lia|].
  destruct (fold_left (slice_step limit x) _ _) as [[m1 b1] s1] eqn:E.
  cbn [bind]. injection 1; intros <-.
  pose proof (fold_slice_ink _ _ _ _ _ _ _ _ _ E) as [E1 E2].
  rewrite py_range_slices in E1 by lia. simpl in E1.
  rewrite optimize_ink by (apply E2; reflexivity). change (ink [] ++ ink (concat (rev m1))) with (ink (rcat m1)).
  apply subseq_length in E1. rewrite app_length in E1.
  enough (ink b1 <> []) by (destruct (ink b1); [congruence | simpl in E1; lia]).
  set (k := limit - 50) in *. set (p := (length x - 1) / k) in *.
  assert (Hk : 0 < k) by (unfold k; lia).
  assert (Hq : (length x + k - 1) / k = S p).
  { unfold p. replace (length x + k - 1) with (length x - 1 + 1 * k) by lia.
    rewrite Nat.div_add by lia. lia. }
  unfold py_range in E. rewrite Hq, seq_S, map_app, fold_left_app in E. cbn [map fold_left Nat.add] in E.
  destruct (fold_left (slice_step limit x) (map (fun j => j * k) (seq 0 p)) ([], [], lit " ")) as [[m0 b0] s0].
  assert (Hp : p * k <= length x - 1 < p * k + k).
  { unfold p. pose proof (Nat.div_mod (length x - 1) k). pose proof (Nat.mod_upper_bound (length x - 1) k). nia. }
  assert (Hsl : slice (p * k) (p * k + k) x = skipn (p * k) x).
  { unfold slice. apply firstn_all2. rewrite skipn_length. lia. }
  eapply slice_step_last; [exact E| |]; fold k; rewrite Hsl; auto.
  rewrite last_skipn; auto; lia.
Qed.
