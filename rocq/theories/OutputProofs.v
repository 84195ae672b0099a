(** Lemmas about output names and input lists. *)
From Coq Require Import Ascii String List Bool Arith NArith ZArith Lia.
From Verif Require Import PyBase PyBaseFacts PyValues PyDigits MultiLangModel DotDictModel OutputModel OutputSpec.
Import ListNotations.

(** * Numerals *)
Lemma dval_bound s : Forall isdig s -> (dval s < 10 ^ N.of_nat (length s))%N.
Proof.
  intros F. induction s as [|c s IH] using rev_ind; [reflexivity|].
  apply Forall_app in F. destruct F as [F1 F2]. inversion F2; subst. specialize (IH F1).
  rewrite dval_app. cbn [fold_left]. rewrite app_length. cbn [length]. rewrite Nat.add_1_r, Nnat.Nat2N.inj_succ, N.pow_succ_r'.
  unfold isdig in H1. lia.
Qed.
Lemma numeral_str n : numeral (str_of_N n) n.
Proof.
  split; [apply str_of_N_nonnil|]. split; [apply str_of_N_digits|]. split; [apply str_of_N_val|]. intros Hn H.
  pose proof (str_of_N_digits n) as D. pose proof (str_of_N_val n) as V. pose proof (str_of_N_nonnil n) as NN.
  destruct (str_of_N n) as [|c t] eqn:E; [congruence|]. cbn in H. subst c. inversion D as [|? ? Hd Ht]. clear D.
  assert (V' : dval t = n).
  { revert V. unfold dval. cbn [fold_left]. now change (10 * 0 + (ch "0" - 48))%N with 0%N. }
  destruct t as [|c2 t]; [cbn in V'; congruence|].
  pose proof (dval_bound _ Ht) as B. rewrite V' in B. cbn [length] in B.
  apply (str_of_N_len n (length t)) in B. rewrite E in B. cbn [length] in B. lia.
Qed.
Lemma dval_split a b : dval (a ++ b) = (dval a * 10 ^ N.of_nat (length b) + dval b)%N.
Proof.
  induction b as [|c b IH] using rev_ind; [rewrite app_nil_r; cbn; lia|].
  rewrite app_assoc, !(dval_app _ [c]), app_length. cbn [fold_left length]. rewrite IH.
  rewrite Nat.add_1_r, Nnat.Nat2N.inj_succ, N.pow_succ_r'. lia.
Qed.
Lemma dval_cons c s : dval (c :: s) = ((c - 48) * 10 ^ N.of_nat (length s) + dval s)%N.
Proof. change (c :: s) with ([c] ++ s). rewrite dval_split. f_equal. Qed.
Lemma dval_len_inj s : forall t, Forall isdig s -> Forall isdig t -> length s = length t -> dval s = dval t -> s = t.
Proof.
  induction s as [|c s IH]; intros [|d t] Fs Ft L V; try discriminate; auto.
  inversion Fs; inversion Ft; subst. rewrite !dval_cons in V. injection L as L. rewrite <- L in V.
  pose proof (dval_bound s H2) as B1. pose proof (dval_bound t H6) as B2. rewrite <- L in B2.
  unfold isdig in *. revert V B1 B2. generalize (10 ^ N.of_nat (length s))%N. intros p V B1 B2.
  assert (E : (c - 48 = d - 48)%N) by nia. assert (dval s = dval t) by nia.
  f_equal; [lia|]. now apply IH.
Qed.
Lemma numeral_low s n : numeral s n -> n <> 0%N -> (10 ^ N.of_nat (length s) <= 10 * n)%N.
Proof.
  intros (NN & D & V & H) Hn. specialize (H Hn). destruct s as [|c s]; [congruence|]. cbn in H. inversion D; subst.
  rewrite dval_cons. unfold isdig in H2. change (ch "0") with 48%N in H.
  cbn [length]. rewrite Nnat.Nat2N.inj_succ, N.pow_succ_r'. generalize (10 ^ N.of_nat (length s))%N. intros p. nia.
Qed.
Lemma numeral_unique s t n : n <> 0%N -> numeral s n -> numeral t n -> s = t.
Proof.
  intros Hn Hs Ht. pose proof (numeral_low s n Hs Hn) as L1. pose proof (numeral_low t n Ht Hn) as L2.
  destruct Hs as (_ & D1 & V1 & _), Ht as (_ & D2 & V2 & _).
  pose proof (dval_bound s D1) as B1. pose proof (dval_bound t D2) as B2. rewrite V1 in B1. rewrite V2 in B2.
  assert (Q : forall a b, (10 ^ N.of_nat a <= 10 * n)%N -> (n < 10 ^ N.of_nat b)%N -> a <= b).
  { intros a b Ha Hb. destruct (Nat.le_gt_cases a b) as [|G]; auto. exfalso.
    assert (10 ^ N.of_nat (S b) <= 10 ^ N.of_nat a)%N by (apply N.pow_le_mono_r; lia).
    rewrite Nnat.Nat2N.inj_succ, N.pow_succ_r' in H. lia. }
  apply dval_len_inj; auto; [|congruence]. apply Nat.le_antisymm; eauto.
Qed.

(** * Choosing a free name *)
Definition cand (name : pystr) (k : N) : pystr :=
  if N.eqb k 0 then name else name ++ lit " (" ++ str_of_N k ++ lit ")".
Lemma cand_candidate name k : candidate name k (cand name k).
Proof.
  unfold cand. destruct (N.eqb k 0) eqn:E.
  - apply N.eqb_eq in E. subst. constructor.
  - apply N.eqb_neq in E. constructor; auto. apply numeral_str.
Qed.
Lemma candidate_cand name k s : candidate name k s -> s = cand name k.
Proof.
  destruct 1 as [|k s H N]; [reflexivity|]. unfold cand. apply N.eqb_neq in H. rewrite H. apply N.eqb_neq in H.
  now rewrite (numeral_unique s (str_of_N k) k H N (numeral_str k)).
Qed.
Lemma cand_inj name a b : cand name a = cand name b -> a = b.
Proof.
  unfold cand. destruct (N.eqb a 0) eqn:A, (N.eqb b 0) eqn:B; rewrite ?N.eqb_eq, ?N.eqb_neq in *; subst; auto.
  - intros H. exfalso. rewrite <- (app_nil_r name) in H at 1. apply app_inv_head in H. discriminate.
  - intros H. exfalso. rewrite <- (app_nil_r name) in H at 2. apply app_inv_head in H. discriminate.
  - intros H. do 2 apply app_inv_head in H. apply app_inv_tail in H. now apply str_of_N_inj.
Qed.

Fixpoint upto (n : nat) (k : N) : list N := match n with O => [] | S n' => k :: upto n' (k + 1) end.
Lemma upto_In n : forall k x, In x (upto n k) <-> (k <= x < k + N.of_nat n)%N.
Proof.
  induction n; intros k x; cbn [upto In]; [split; [tauto|lia]|]. rewrite IHn. lia.
Qed.
Lemma upto_len n : forall k, length (upto n k) = n.
Proof. induction n; simpl; auto. Qed.
Lemma upto_nodup n : forall k, NoDup (upto n k).
Proof. induction n; intros; constructor; auto. rewrite upto_In. lia. Qed.
(** Not all of the first |folder|+1 candidates can be taken. *)
Lemma some_free (folder : list pystr) (name ext : pystr) :
  exists k, (k <= N.of_nat (length folder))%N /\ ~ In (cand name k ++ ext) folder.
Proof.
  destruct (existsb (fun k => negb (str_in (cand name k ++ ext) folder)) (upto (S (length folder)) 0)) eqn:E.
  - apply existsb_exists in E. destruct E as (k & I & H). apply upto_In in I. exists k. split; [lia|].
    intros C. apply str_in_In in C. now rewrite C in H.
  - exfalso.
    assert (A : forall k, In k (upto (S (length folder)) 0) -> In (cand name k ++ ext) folder).
    { intros k I. apply str_in_In. destruct (str_in _ _) eqn:SS; auto.
      assert (X : existsb (fun k => negb (str_in (cand name k ++ ext) folder)) (upto (S (length folder)) 0) = true).
      { apply existsb_exists. exists k. split; auto. now rewrite SS. }
      congruence. }
    assert (P : length (map (fun k => cand name k ++ ext) (upto (S (length folder)) 0)) <= length folder).
    { apply NoDup_incl_length.
      - apply FinFun.Injective_map_NoDup; [|apply upto_nodup]. intros a b H. apply app_inv_tail in H. now apply cand_inj in H.
      - intros x Hx. apply in_map_iff in Hx. destruct Hx as (k & <- & I). now apply A. }
    rewrite map_length, upto_len in P. lia.
Qed.
Lemma least_free (folder : list pystr) (name ext : pystr) :
  exists k, (k <= N.of_nat (length folder))%N /\ ~ In (cand name k ++ ext) folder /\
    forall j, (j < k)%N -> In (cand name j ++ ext) folder.
Proof.
  assert (G : forall n, (forall j, (j < N.of_nat n)%N -> In (cand name j ++ ext) folder) \/
                        exists k, (k < N.of_nat n)%N /\ ~ In (cand name k ++ ext) folder /\
                                  forall j, (j < k)%N -> In (cand name j ++ ext) folder).
  { induction n as [|n [H|(k & H)]]; [left; lia| |right; exists k; intuition lia].
    destruct (in_dec str_dec (cand name (N.of_nat n) ++ ext) folder) as [I|I].
    - left. intros j Hj. destruct (N.eq_dec j (N.of_nat n)) as [->|]; auto. apply H. lia.
    - right. exists (N.of_nat n). split; [lia|]. auto. }
  destruct (G (S (length folder))) as [H|(k & L & F & J)].
  - destruct (some_free folder name ext) as (k & L & F). exfalso. apply F, H. lia.
  - exists k. split; [lia|auto].
Qed.

Lemma check_loop_run (folder : list pystr) (name ext : pystr) k :
  ~ In (cand name k ++ ext) folder -> (forall j, (j < k)%N -> In (cand name j ++ ext) folder) ->
  forall n i fuel, (i + N.of_nat n = k)%N -> n < fuel ->
    check_loop fuel folder name ext (i + 1) (cand name i) = Some (cand name k).
Proof.
  intros F J. induction n as [|n IH]; intros i fuel E L; destruct fuel as [|fuel]; try lia; cbn [check_loop].
  - replace i with k by lia. destruct (str_in (cand name k ++ ext) folder) eqn:S; auto.
    apply str_in_In in S. contradiction.
  - assert (I : In (cand name i ++ ext) folder) by (apply J; lia). apply str_in_In in I. rewrite I.
    replace (name ++ lit " (" ++ str_of_N (i + 1) ++ lit ")") with (cand name (i + 1)).
    + apply IH; lia.
    + unfold cand. destruct (N.eqb_spec (i + 1) 0); [lia|reflexivity].
Qed.
Lemma check_name_spec (folder : list pystr) (name ext : pystr) :
  exists r, first_free folder name ext r /\
    forall fuel, length folder < fuel -> check_name_for_existence fuel folder name ext = Some r.
Proof.
  destruct (least_free folder name ext) as (k & L & F & J). exists (cand name k). split.
  - exists k. split; [apply cand_candidate|]. split; [exact F|]. intros j s Hj C.
    apply candidate_cand in C. subst. now apply J.
  - intros fuel Hf. unfold check_name_for_existence.
    pose proof (check_loop_run folder name ext k F J (N.to_nat k) 0 fuel) as R.
    destruct (str_in (name ++ ext) folder) eqn:S.
    + apply R; [rewrite Nnat.N2Nat.id; reflexivity|]. lia.
    + destruct (N.eq_dec k 0) as [->|Hk]; [reflexivity|]. exfalso.
      assert (I : In (cand name 0 ++ ext) folder) by (apply J; lia). change (cand name 0) with name in I.
      apply str_in_In in I. congruence.
Qed.

(** * Slashes *)
Lemma spelled_aux s : forall acc,
  join (lit " per ") (split_aux (lit "/") 0 acc s) = rev acc ++ spelled s.
Proof.
  induction s as [|c s IH]; intros acc.
  - cbn [split_aux join spelled flat_map]. now rewrite app_nil_r.
  - change (lit "/") with [ch "/"] in *. cbn [split_aux prefixb]. rewrite andb_true_r, (N.eqb_sym (ch "/") c).
    unfold spelled. cbn [flat_map]. fold (spelled s). destruct (N.eqb c (ch "/")) eqn:E.
    + cbn [length Nat.sub]. rewrite join_cons by apply split_aux_nonnil. rewrite IH. reflexivity.
    + rewrite IH. cbn [rev]. rewrite <- app_assoc. reflexivity.
Qed.
Lemma spelled_replace s : replace (lit "/") (lit " per ") s = spelled s.
Proof. apply (spelled_aux s []). Qed.
Lemma spelled_no_slash s : ~ In (ch "/") (spelled s).
Proof.
  unfold spelled. rewrite in_flat_map. intros (c & _ & H). destruct (N.eqb c (ch "/")) eqn:E.
  - revert H. apply notin_b. reflexivity.
  - destruct H as [->|[]]. rewrite N.eqb_refl in E. discriminate.
Qed.

(** * Delivering files *)
Lemma yield_from_spec {F} (fs : list F) : forall n i, i + length fs = n ->
  yield_from n i fs = match rev fs with [] => [] | l :: r => map (fun f => (f, false)) (rev r) ++ [(l, true)] end.
Proof.
  induction fs as [|f fs IH]; intros n i E; [reflexivity|]. cbn [yield_from length] in *.
  rewrite IH by lia. cbn [rev]. destruct (rev fs) as [|l r] eqn:R.
  - assert (fs = []) by (rewrite <- (rev_involutive fs), R; reflexivity). subst. cbn [length] in *.
    destruct (Nat.eqb_spec i (i + 1 - 1)); [reflexivity|lia].
  - assert (length fs <> 0). { destruct fs; [discriminate|discriminate]. }
    destruct (Nat.eqb_spec i (n - 1)); [lia|]. cbn [negb app]. rewrite rev_app_distr. reflexivity.
Qed.
Lemma yield_snoc {F} (fs : list F) l : yield_files (fs ++ [l]) = map (fun f => (f, false)) fs ++ [(l, true)].
Proof.
  unfold yield_files. rewrite yield_from_spec by reflexivity. rewrite rev_app_distr. cbn [rev app]. now rewrite rev_involutive.
Qed.

Lemma suffixb_spec e s : suffixb e s = true <-> ends_with e s.
Proof.
  unfold suffixb. rewrite prefixb_spec. split.
  - intros [t H]. exists (rev t). rewrite <- (rev_involutive s), H, rev_app_distr, rev_involutive. reflexivity.
  - intros [b ->]. exists (rev b). now rewrite rev_app_distr.
Qed.
Lemma infixb_spec p s : infixb p s = true <-> exists a b, s = a ++ p ++ b.
Proof.
  induction s as [|c s IH]; cbn [infixb]; rewrite orb_true_iff, prefixb_spec.
  - split; [intros [[t H]|]; [|discriminate]|].
    + exists [], t. exact H.
    + intros (a & b & H). left. exists b. destruct a; [exact H|discriminate].
  - rewrite IH. split.
    + intros [[t H]|(a & b & H)]; [exists [], t; exact H|]. exists (c :: a), b. simpl. now rewrite H.
    + intros (a & b & H). destruct a as [|x a]; [left; exists b; exact H|]. right. injection H as -> ->. eauto.
Qed.

Lemma files_of_extension_In names ext x :
  In x (files_of_extension names ext) <-> In x names /\ exists e, In e ext /\ ends_with e x.
Proof.
  unfold files_of_extension, glob_suffix. rewrite in_flat_map. split.
  - intros (e & He & H). apply filter_In in H. destruct H as [H1 H2]. apply suffixb_spec in H2. eauto.
  - intros (H & e & He & S). exists e. split; auto. apply filter_In. split; auto. now apply suffixb_spec.
Qed.
Lemma NoDup_app_intro {A} (l r : list A) :
  NoDup l -> NoDup r -> (forall x, In x l -> ~ In x r) -> NoDup (l ++ r).
Proof.
  induction 1 as [|x l H N IH]; intros R D; auto. cbn [app]. constructor.
  - rewrite in_app_iff. intros [I|I]; [contradiction|]. now apply (D x (or_introl eq_refl)).
  - apply IH; auto. intros y Hy. apply D. now right.
Qed.
Lemma app_same_len {A} (b b' e e' : list A) : length e' = length e -> b ++ e = b' ++ e' -> b = b' /\ e = e'.
Proof.
  intros L. revert b'. induction b as [|c b IH]; intros [|c' b'] E.
  - split; auto.
  - exfalso. apply (f_equal (@length A)) in E. simpl in E. rewrite app_length in E. lia.
  - exfalso. apply (f_equal (@length A)) in E. simpl in E. rewrite app_length in E. lia.
  - injection E as -> E. destruct (IH b' E). split; congruence.
Qed.
Lemma files_of_extension_NoDup names ext :
  NoDup names -> NoDup ext -> (exists n, Forall (fun e => length e = n) ext) -> NoDup (files_of_extension names ext).
Proof.
  intros N NE [n F]. induction ext as [|e ext IH]; [constructor|]. inversion NE; subst. inversion F; subst.
  unfold files_of_extension. cbn [flat_map]. apply NoDup_app_intro.
  - now apply NoDup_filter.
  - now apply IH.
  - intros x Hx Hy. apply filter_In in Hx. destruct Hx as [_ S]. apply suffixb_spec in S.
    apply (files_of_extension_In names ext x) in Hy. destruct Hy as (_ & e' & I & S').
    rewrite Forall_forall in H4. pose proof (H4 e' I) as L. destruct S as [b ->], S' as [b' E].
    destruct (app_same_len b b' e e' L E) as [_ ->]. contradiction.
Qed.

(** * Archives *)
Lemma hd_split_aux sep s a b : s = a ++ sep ++ b -> sep <> [] ->
  (forall x y z, a = x ++ y :: z -> prefixb sep (y :: z ++ sep ++ b) = false) ->
  forall acc, hd [] (split_aux sep 0 acc s) = rev acc ++ a.
Proof.
  intros -> NE. induction a as [|c a IH]; intros H acc.
  - cbn [app]. rewrite app_nil_r. destruct sep as [|x sep]; [congruence|]. cbn [app split_aux].
    assert (P : prefixb (x :: sep) (x :: sep ++ b) = true) by (apply prefixb_spec; exists b; reflexivity).
    rewrite P. reflexivity.
  - cbn [app split_aux]. rewrite (H [] c a eq_refl). rewrite IH.
    + cbn [rev]. now rewrite <- app_assoc.
    + intros x y z E. apply (H (c :: x) y z). now rewrite E.
Qed.
Lemma proc_last a b : lit "processes/" = a ++ ch "/" :: b -> b = [].
Proof.
  intros H. destruct b as [|c b]; auto. exfalso.
  assert (I : In (ch "/") (removelast (lit "processes/"))).
  { rewrite H. change (ch "/" :: c :: b) with ([ch "/"] ++ c :: b). rewrite app_assoc, removelast_app by discriminate.
    apply in_or_app. left. apply in_or_app. right. now left. }
  revert I. apply notin_b. reflexivity.
Qed.
Lemma before_root root b : plain_root root -> before_processes (root ++ lit "processes/" ++ b) = root.
Proof.
  intros P. unfold before_processes, split. rewrite (hd_split_aux _ _ root b eq_refl); [reflexivity|discriminate|].
  intros x y z E. destruct (prefixb _ _) eqn:Q; auto. exfalso. apply prefixb_spec in Q. destruct Q as [t Q].
  destruct P as [->|(r & c & -> & Hc & N)]; [destruct x; discriminate|]. apply N.
  (* y :: z ends with '/', so "processes/" fits in y :: z *)
  assert (Z : exists w, y :: z = w ++ [ch "/"]).
  { destruct (exists_last (l:= y :: z)) as (w & l & W); [discriminate|]. exists w. rewrite W in E |- *.
    rewrite !app_assoc in E. apply app_inj_tail in E. destruct E as [_ <-]. reflexivity. }
  destruct Z as [w W].
  assert (F : exists u, y :: z = lit "processes/" ++ u).
  { change (y :: z ++ lit "processes/" ++ b) with ((y :: z) ++ lit "processes/" ++ b) in Q. rewrite W in Q |- *.
    destruct (Nat.le_gt_cases (length (lit "processes/")) (length (w ++ [ch "/"]))) as [L|L].
    - exists (skipn (length (lit "processes/")) (w ++ [ch "/"])).
      rewrite <- (firstn_skipn (length (lit "processes/")) (w ++ [ch "/"])) at 1. f_equal.
      apply (f_equal (firstn (length (lit "processes/")))) in Q. rewrite firstn_app in Q.
      replace (length (lit "processes/") - length (w ++ [ch "/"])) with 0 in Q by lia.
      rewrite firstn_O, app_nil_r in Q. rewrite Q. rewrite firstn_app, Nat.sub_diag, firstn_O, app_nil_r, firstn_all. reflexivity.
    - exfalso. assert (PR : exists v, lit "processes/" = w ++ ch "/" :: v).
      { exists (skipn (length (w ++ [ch "/"])) (lit "processes/")).
        apply (f_equal (firstn (length (w ++ [ch "/"])))) in Q.
        rewrite firstn_app, Nat.sub_diag, firstn_O, app_nil_r, firstn_all in Q.
        rewrite firstn_app in Q. replace (length (w ++ [ch "/"]) - length (lit "processes/")) with 0 in Q by lia.
        rewrite firstn_O, app_nil_r in Q.
        transitivity (firstn (length (w ++ [ch "/"])) (lit "processes/") ++ skipn (length (w ++ [ch "/"])) (lit "processes/"));
          [symmetry; apply firstn_skipn|].
        rewrite <- Q at 1. rewrite <- app_assoc. reflexivity. }
      destruct PR as [v V]. pose proof (proc_last _ _ V) as ->. rewrite V in L. lia. }
  destruct F as [u U]. exists x, u. rewrite E, U. reflexivity.
Qed.
Lemma infix_slash s : infixb (lit "/") s = false <-> ~ In (ch "/") s.
Proof.
  split.
  - intros H I. apply in_split in I. destruct I as (a & b & E).
    assert (X : infixb (lit "/") s = true) by (apply infixb_spec; exists a, b; exact E). congruence.
  - intros H. destruct (infixb (lit "/") s) eqn:E; auto. apply infixb_spec in E. destruct E as (a & b & ->).
    exfalso. apply H. apply in_or_app. right. now left.
Qed.
Lemma is_process_spec m : is_process m = true <-> looks_like_process m.
Proof.
  unfold is_process, looks_like_process. rewrite andb_true_iff, orb_true_iff, suffixb_spec, prefixb_spec, infixb_spec. split.
  - intros [[[t ->]|(a & b & ->)] S]; split; auto.
    + exists [], t. auto.
    + exists (a ++ lit "/"), b. split; [now rewrite <- app_assoc|]. right. exists a. reflexivity.
  - intros [S (a & b & -> & [->|[c ->]])]; split; auto.
    + left. now exists b.
    + right. exists c, b. now rewrite <- app_assoc.
Qed.
Lemma process_dir_root root : plain_root root -> process_dir root = root ++ lit "processes/".
Proof.
  intros [->|(r & c & -> & Hc & _)]; [reflexivity|]. unfold process_dir.
  rewrite !rev_app_distr. change (rev (lit "/")) with [ch "/"]. cbn [rev app drop_slashes].
  rewrite N.eqb_refl. destruct (N.eqb c (ch "/")) eqn:E; [apply N.eqb_eq in E; contradiction|].
  cbn [rev]. rewrite rev_involutive.
  assert (NE : r ++ [c] <> []) by (destruct r; discriminate).
  transitivity ((r ++ [c]) ++ lit "/processes/"); [|now rewrite <- !app_assoc].
  destruct (r ++ [c]); [congruence|reflexivity].
Qed.
Lemma members_in_spec d ms b : In b (members_in d ms) <-> In (d ++ b) ms /\ ~ In (ch "/") b /\ b <> [].
Proof.
  induction ms as [|m ms IH]; cbn [members_in]; [simpl; tauto|].
  destruct (prefixb d m) eqn:P.
  - apply prefixb_spec in P. destruct P as [t ->].
    assert (Sk : skipn (length d) (d ++ t) = t) by (rewrite skipn_app, skipn_all, Nat.sub_diag; reflexivity).
    rewrite Sk. cbn [andb]. destruct (infixb (lit "/") t) eqn:I.
    + cbn [negb andb]. rewrite IH. cbn [In]. split; [tauto|]. intros [[H|H] N]; [|tauto].
      apply app_inv_head in H. subst t. exfalso. destruct N as [N _]. apply infix_slash in N. congruence.
    + apply infix_slash in I. cbn [negb andb]. destruct (str_eqb t []) eqn:T.
      * apply str_eqb_eq in T. subst t. cbn [negb]. rewrite IH. cbn [In]. split; [tauto|]. intros [[H|H] N]; [|tauto].
        apply app_inv_head in H. subst b. tauto.
      * apply str_eqb_neq in T. cbn [negb In]. rewrite IH. split.
        -- intros [->|H]; [|tauto]. auto.
        -- intros [[H|H] N]; [|tauto]. apply app_inv_head in H. auto.
  - cbn [andb]. rewrite IH. cbn [In]. split; [tauto|]. intros [[H|H] N]; [|tauto]. exfalso.
    assert (X : prefixb d m = true) by (apply prefixb_spec; eauto). congruence.
Qed.
Lemma members_in_NoDup d ms : NoDup ms -> NoDup (members_in d ms).
Proof.
  induction 1 as [|m ms H N IH]; [constructor|]. cbn [members_in].
  destruct (prefixb d m && _ && _)%bool eqn:P; auto. constructor; auto.
  rewrite members_in_spec. intros [I _]. apply andb_prop in P. destruct P as [P _]. apply andb_prop in P. destruct P as [P _].
  apply prefixb_spec in P. destruct P as [t ->]. rewrite skipn_app, skipn_all, Nat.sub_diag in I. contradiction.
Qed.
Lemma yield_fst {F} (fs : list F) : map fst (yield_files fs) = fs.
Proof.
  destruct fs as [|f fs] using rev_ind; [reflexivity|]. rewrite yield_snoc, map_app, map_map. cbn [map fst].
  now rewrite map_id.
Qed.
Lemma archive_ok root ms :
  plain_root root -> (exists m, In m ms /\ process_of root m) ->
  (forall m, In m ms -> looks_like_process m -> process_of root m) ->
  exists fs, archive_files ms = Ok (yield_files fs) /\
    (forall m, In m fs <-> In m ms /\ process_of root m) /\ (NoDup ms -> NoDup fs).
Proof.
  intros P (m0 & I0 & P0) A. unfold archive_files, extract.
  assert (PL : forall m, process_of root m -> looks_like_process m).
  { intros m (b & -> & _ & [c ->]). split.
    - exists (root ++ lit "processes/" ++ c). now rewrite <- !app_assoc.
    - exists root, (c ++ lit ".xml"). split; auto. destruct P as [->|(r & k & -> & _)]; auto.
      right. exists (r ++ [k]). now rewrite <- app_assoc. }
  destruct (find is_process ms) as [x|] eqn:F.
  2:{ exfalso. eapply find_none in F; eauto. apply PL, is_process_spec in P0. congruence. }
  apply find_some in F. destruct F as [Ix Px]. apply is_process_spec in Px.
  destruct (A x Ix Px) as (b & -> & _). cbn [bind]. rewrite before_root, process_dir_root by exact P.
  set (d := root ++ lit "processes/"). set (xs := files_of_extension (members_in d ms) (skipn 2 ilcd_extensions)).
  exists (map (fun b => d ++ b) xs). split; [|split].
  - f_equal. clear. induction xs as [|l xs IH] using rev_ind; [reflexivity|].
    rewrite map_app. cbn [map]. rewrite !yield_snoc, map_app, !map_map. reflexivity.
  - intros m. rewrite in_map_iff. split.
    + intros (y & <- & H). apply files_of_extension_In in H. destruct H as (H & e & [<-|[]] & E).
      apply members_in_spec in H. destruct H as (H1 & H2 & H3). split; auto. exists y. unfold d. rewrite <- app_assoc. auto.
    + intros (I & y & -> & N & E). exists y. split; [unfold d; now rewrite <- app_assoc|].
      apply files_of_extension_In. split.
      * apply members_in_spec. split; [unfold d; now rewrite <- app_assoc|]. split; auto.
        intros ->. destruct E as [[|] E]; discriminate.
      * exists (lit ".xml"). split; auto. now left.
  - intros N. apply FinFun.Injective_map_NoDup.
    + intros u v H. now apply app_inv_head in H.
    + apply files_of_extension_NoDup.
      * now apply members_in_NoDup.
      * constructor; [intros []|constructor].
      * exists 4. repeat constructor.
Qed.
