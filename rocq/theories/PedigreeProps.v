(** C239-C240: the comparison of pedigree matrix and variance. *)
From Coq Require Import Ascii String List Bool Arith NArith ZArith QArith Qabs Permutation Lia Lqa.
From Verif Require Import PyBase PyBaseFacts PyValues DotDictModel RemapProofs PedigreeModel.
Import ListNotations.
Local Open Scope Q_scope.

(** ** The statements *)
(** The five criteria of EcoSpold2, their attributes and what a score adds to the variance. *)
Inductive criterion := Reliability | Completeness | Temporal | Geographical | Technological.
Definition attribute (c : criterion) : pystr :=
  match c with
  | Reliability => lit "@reliability" | Completeness => lit "@completeness" | Temporal => lit "@temporalCorrelation"
  | Geographical => lit "@geographicalCorrelation" | Technological => lit "@furtherTechnologyCorrelation"
  end.
Inductive adds : criterion -> Z -> Q -> Prop :=
| ad_best c : adds c 1 0
| ad_r2 : adds Reliability 2 (6 # 10000) | ad_r3 : adds Reliability 3 (2 # 1000) | ad_r4 : adds Reliability 4 (8 # 1000) | ad_r5 : adds Reliability 5 (4 # 100)
| ad_c2 : adds Completeness 2 (1 # 10000) | ad_c3 : adds Completeness 3 (6 # 10000) | ad_c4 : adds Completeness 4 (2 # 1000) | ad_c5 : adds Completeness 5 (8 # 1000)
| ad_t2 : adds Temporal 2 (2 # 10000) | ad_t3 : adds Temporal 3 (2 # 1000) | ad_t4 : adds Temporal 4 (8 # 1000) | ad_t5 : adds Temporal 5 (4 # 100)
| ad_g2 : adds Geographical 2 (25 # 1000000) | ad_g3 : adds Geographical 3 (1 # 10000) | ad_g4 : adds Geographical 4 (6 # 10000) | ad_g5 : adds Geographical 5 (2 # 1000)
| ad_f2 : adds Technological 2 (6 # 10000) | ad_f3 : adds Technological 3 (8 # 1000) | ad_f4 : adds Technological 4 (4 # 100) | ad_f5 : adds Technological 5 (12 # 100).
(** a legal attribute and what it adds *)
Definition row (kv : pystr * pystr) (q : Q) : Prop := exists c z, fst kv = attribute c /\ int_of_str (snd kv) = Some z /\ adds c z q.
Definition total (qs : list Q) : Q := fold_right Qplus 0 qs.
(** a distribution with both variances *)
Definition variances (d : list (pystr * pystr)) (a b : Q) : Prop :=
  exists v t, getf (lit "@variance") d = Some v /\ v <> [] /\ getf (lit "@varianceWithPedigreeUncertainty") d = Some t /\
    float_of_str v = Some (Fin a) /\ float_of_str t = Some (Fin b).

(** ** Proofs *)
Definition row_of (c : criterion) : list Q :=
  match c with
  | Reliability => [0; 6 # 10000; 2 # 1000; 8 # 1000; 4 # 100] | Completeness => [0; 1 # 10000; 6 # 10000; 2 # 1000; 8 # 1000]
  | Temporal => [0; 2 # 10000; 2 # 1000; 8 # 1000; 4 # 100] | Geographical => [0; 25 # 1000000; 1 # 10000; 6 # 10000; 2 # 1000]
  | Technological => [0; 6 # 10000; 8 # 1000; 4 # 100; 12 # 100]
  end.
Lemma row_found c : getf (row_name (attribute c)) pedigree_table = Some (row_of c).
Proof. destruct c; vm_compute; reflexivity. Qed.
Lemma row_length c : List.length (row_of c) = 5%nat. Proof. now destruct c. Qed.
Lemma adds_item c z q : adds c z q -> item (row_of c) (z - 1) = Some q.
Proof. intros H. destruct H; try reflexivity. now destruct c. Qed.
Lemma adds_exists c z : (1 <= z <= 5)%Z -> exists q, adds c z q.
Proof.
  intros H. assert (Z : (z = 1 \/ z = 2 \/ z = 3 \/ z = 4 \/ z = 5)%Z) by lia.
  destruct Z as [-> | [-> | [-> | [-> | -> ] ] ] ]; destruct c; eexists; constructor.
Qed.
Lemma adds_range c z q : adds c z q -> (1 <= z <= 5)%Z.
Proof. destruct 1; lia. Qed.
Lemma one_score_row kv q : row kv q -> one_score kv = Ok q.
Proof. intros (c & z & K & I & A). unfold one_score. rewrite K, row_found, I, (adds_item _ _ _ A). reflexivity. Qed.
Lemma all_scores_rows ped qs : Forall2 row ped qs -> forall p, exists q, all_scores p ped = Ok q /\ q == p + total qs.
Proof.
  induction 1 as [|kv q ped qs R F IH]; intros p; cbn [all_scores].
  - exists p. split; [reflexivity|]. cbn. ring.
  - rewrite (one_score_row _ _ R). cbn [bind]. destruct (IH (p + q)) as (x & X & E). exists x. split; [exact X|]. rewrite E. cbn [total fold_right]. fold (total qs). ring.
Qed.
Lemma check_legal d ped qs a b : ped <> [] -> variances d a b -> Forall2 row ped qs ->
  exists r, check d ped = Ok r /\ (r = true <-> 1 # 10000 < Qabs (a + total qs - b)).
Proof.
  intros N (v & t & V & NV & T & FV & FT) F. unfold check. destruct ped as [|kv ped]; [congruence|]. rewrite V. destruct v as [|c v]; [congruence|].
  destruct (all_scores_rows _ _ F 0) as (q & -> & Q). cbn [bind]. unfold to_float. rewrite FV, T. cbn [bind]. rewrite FT. cbn [bind]. eexists. split; [reflexivity|].
  unfold differs. rewrite negb_true_iff. rewrite <- not_true_iff_false, Qle_bool_iff.
  assert (E : a + q - b == a + total qs - b) by (rewrite Q; ring). rewrite E. split; [apply Qnot_le_lt|apply Qlt_not_le].
Qed.

(** ** C239 *)
(** With a legal matrix and both variances the warning is given exactly when what the scores add is off by more than 0.0001. *)
Theorem C239_reported_partial :
  forall d ped qs a b, ped <> [] -> variances d a b -> Forall2 row ped qs ->
    exists r, check d ped = Ok r /\ (r = true <-> 1 # 10000 < Qabs (a + total qs - b)).
Proof. exact check_legal. Qed.
Print Assumptions C239_reported_partial.
(** The order of the attributes plays no part. *)
Theorem C239_order_partial :
  forall d ped ped' qs a b, ped <> [] -> variances d a b -> Forall2 row ped qs -> Permutation ped ped' -> check d ped = check d ped'.
Proof.
  intros d ped ped' qs a b N V F P.
  destruct (Permutation_Forall2 P F) as (qs' & P' & F').
  assert (N' : ped' <> []) by (intros ->; apply N; now apply Permutation_nil, Permutation_sym).
  destruct (check_legal _ _ _ _ _ N V F) as (r & -> & R). destruct (check_legal _ _ _ _ _ N' V F') as (r' & -> & R').
  assert (E : total qs == total qs'). { clear - P'. unfold total. induction P' as [| | |l1 l2 l3 _ I1 _ I2]; cbn [fold_right]; [reflexivity| | |]; [now rewrite IHP'|ring|now rewrite I1]. }
  rewrite E in R. f_equal. destruct r, r'; try reflexivity; [symmetry; apply R', R; reflexivity|apply R, R'; reflexivity].
Qed.
Print Assumptions C239_order_partial.
(** Where a score adds less than the tolerance, a wrong one is not reported: the variance was computed with one of the three best
    scores for the geographical correlation, another one of them is given. *)
Theorem C239_small_refuted :
  forall d ped1 ped2 s z z' qs1 qs2 q q' a b, variances d a b -> Forall2 row ped1 qs1 -> Forall2 row ped2 qs2 -> (1 <= z <= 3)%Z -> (1 <= z' <= 3)%Z -> z <> z' ->
    adds Geographical z q -> adds Geographical z' q' -> a + total (qs1 ++ q :: qs2) == b -> int_of_str s = Some z' ->
    check d (ped1 ++ (attribute Geographical, s) :: ped2) = Ok false /\ ~ q == q'.
Proof.
  intros d ped1 ped2 s z z' qs1 qs2 q q' a b V F1 F2 Z Z' D A A' E S.
  assert (F : Forall2 row (ped1 ++ (attribute Geographical, s) :: ped2) (qs1 ++ q' :: qs2)).
  { apply Forall2_app; [exact F1|]. constructor; [|exact F2]. exists Geographical, z'. auto. }
  assert (N : ped1 ++ (attribute Geographical, s) :: ped2 <> []) by now destruct ped1.
  assert (T : forall x, total (qs1 ++ x :: qs2) == total qs1 + total qs2 + x).
  { intros x. clear. unfold total. rewrite fold_right_app. cbn [fold_right]. generalize (fold_right Qplus 0 qs2). intros y. induction qs1 as [|w l IH]; cbn [fold_right]; [ring|]. rewrite IH. ring. }
  assert (L : Qabs (q' - q) <= 1 # 10000 /\ ~ q == q').
  { inversion A; subst; inversion A'; subst; try lia; (split; [vm_compute; discriminate|intros X; vm_compute in X; discriminate X]). }
  destruct (check_legal _ _ _ _ _ N V F) as (r & -> & R). split; [|tauto]. destruct r; [|reflexivity]. exfalso. destruct R as (R & _). specialize (R eq_refl).
  assert (X : a + total (qs1 ++ q' :: qs2) - b == q' - q) by (rewrite <- E, !T; ring). rewrite X in R. apply Qlt_not_le in R. tauto.
Qed.
Print Assumptions C239_small_refuted.
Example C239_nonvacuous :
  let d := [(lit "@meanValue", lit "1"); (lit "@variance", lit "0.04"); (lit "@varianceWithPedigreeUncertainty", lit "0.0414")] in
  let ped s := [(lit "@reliability", lit "2"); (lit "@completeness", lit "3"); (lit "@temporalCorrelation", s); (lit "@geographicalCorrelation", lit "1"); (lit "@furtherTechnologyCorrelation", lit "1")] in
  check d (ped (lit "2")) = Ok false /\ check d (ped (lit "3")) = Ok true.
Proof. vm_compute. split; reflexivity. Qed.

(** ** C240 *)
Definition known (k : pystr) : Prop := exists row, getf (row_name k) pedigree_table = Some row.
Lemma table_rows k row : getf k pedigree_table = Some row -> List.length row = 5%nat.
Proof.
  assert (F : Forall (fun r => List.length (snd r) = 5%nat) pedigree_table) by (repeat constructor).
  revert F. generalize pedigree_table. intros t F. induction F as [|(k', r) t H F IH]; cbn [getf]; [discriminate|]. destruct (str_eqb k' k); [intros E; injection E as <-; exact H|exact IH].
Qed.
Lemma item_some {A} (l : list A) i : List.length l = 5%nat -> (exists x, item l i = Some x) <-> (-5 <= i <= 4)%Z.
Proof.
  intros L. unfold item. rewrite L. change (Z.of_nat 5) with 5%Z. destruct (Z.ltb_spec i 0).
  - destruct (Z.ltb_spec (i + 5) 0); [split; [intros (? & ?); discriminate|lia]|]. split; [lia|]. intros _. destruct (nth_error l (Z.to_nat (i + 5))) eqn:E; [eauto|]. apply nth_error_None in E. lia.
  - split; [intros (x & X); assert (nth_error l (Z.to_nat i) <> None) by congruence; apply nth_error_Some in H0; lia|]. intros. destruct (nth_error l (Z.to_nat i)) eqn:E; [eauto|]. apply nth_error_None in E. lia.
Qed.
(** an attribute that the comparison can use *)
Definition usable (kv : pystr * pystr) : Prop := known (fst kv) /\ exists z, int_of_str (snd kv) = Some z /\ (-4 <= z <= 5)%Z.
Lemma one_score_usable kv : (exists q, one_score kv = Ok q) <-> usable kv.
Proof.
  unfold one_score, usable, known. split.
  - intros (q & H). destruct (getf (row_name (fst kv)) pedigree_table) as [row|] eqn:K; [|discriminate]. split; [eauto|]. destruct (int_of_str (snd kv)) as [z|]; [|discriminate]. exists z. split; [reflexivity|].
    destruct (item row (z - 1)) eqn:I; [|discriminate]. assert ((-5 <= z - 1 <= 4)%Z); [|lia]. apply (item_some row); [eapply table_rows; eassumption|eauto].
  - intros ((row & K) & z & Z & R). rewrite K, Z. destruct (proj2 (item_some row (z - 1) (table_rows _ _ K)) ltac:(lia)) as (x & ->). eauto.
Qed.
Lemma all_scores_usable ped : forall p, (exists q, all_scores p ped = Ok q) <-> Forall usable ped.
Proof.
  induction ped as [|kv ped IH]; intros p; cbn [all_scores]; [split; [constructor|eauto]|]. split.
  - intros (q & H). destruct (one_score kv) as [x|] eqn:E; [|discriminate]. cbn [bind] in H. constructor; [apply one_score_usable; eauto|]. apply (IH (p + x)). eauto.
  - intros H. inversion H as [|? ? U F]; subst. apply one_score_usable in U as (x & ->). cbn [bind]. now apply IH.
Qed.
(** The comparison ends without error exactly when it does not take place, or the attributes and both variances are usable. *)
Theorem C240_exactly_partial :
  forall d ped, (exists r, check d ped = Ok r) <->
    ped = [] \/ getf (lit "@variance") d = None \/ getf (lit "@variance") d = Some [] \/
    (Forall usable ped /\ exists v t a b, getf (lit "@variance") d = Some v /\ getf (lit "@varianceWithPedigreeUncertainty") d = Some t /\ float_of_str v = Some a /\ float_of_str t = Some b).
Proof.
  intros d ped. unfold check. destruct ped as [|kv ped]; [split; [now left|eauto]|]. destruct (getf (lit "@variance") d) as [[|c v]|] eqn:V; [split; [tauto|eauto]| |split; [tauto|eauto]]. split.
  - intros (r & H). right. right. right. destruct (all_scores 0 (kv :: ped)) as [p|] eqn:P; [|discriminate]. cbn [bind] in H. split; [apply (all_scores_usable _ 0); eauto|]. unfold to_float in H.
    destruct (float_of_str (c :: v)) as [a|] eqn:A; [|discriminate]. cbn [bind] in H. destruct (getf (lit "@varianceWithPedigreeUncertainty") d) as [t|]; [|discriminate]. destruct (float_of_str t) as [b|] eqn:B; [|discriminate].
    exists (c :: v), t, a, b. auto.
  - intros [H|[H|[H|(U & v' & t & a & b & V' & T & A & B)]]]; try discriminate. injection V' as <-. apply (all_scores_usable _ 0) in U as (p & ->). cbn [bind]. unfold to_float. rewrite A, T. cbn [bind]. rewrite B. cbn [bind]. eauto.
Qed.
Print Assumptions C240_exactly_partial.
(** Every legal matrix is usable. *)
Theorem C240_legal_partial : forall ped qs, Forall2 row ped qs -> Forall usable ped.
Proof.
  induction 1 as [|kv q ped qs (c & z & K & I & A) F IH]; constructor; [|exact IH]. split; [exists (row_of c); rewrite K; apply row_found|]. exists z. split; [exact I|]. apply adds_range in A. lia.
Qed.
Print Assumptions C240_legal_partial.
(** A score above five stops the conversion. *)
Theorem C240_six_refuted :
  forall d a b ped1 qs1 c s z ped2, variances d a b -> Forall2 row ped1 qs1 -> int_of_str s = Some z -> (5 < z)%Z ->
    check d (ped1 ++ (attribute c, s) :: ped2) = Err IndexError.
Proof.
  intros d a b ped1 qs1 c s z ped2 (v & t & V & NV & _) F I Z. unfold check. destruct (ped1 ++ (attribute c, s) :: ped2) as [|x l] eqn:E; [now destruct ped1|]. rewrite <- E. clear x l E.
  rewrite V. destruct v; [congruence|]. assert (H : forall p, all_scores p (ped1 ++ (attribute c, s) :: ped2) = Err IndexError); [|now rewrite H].
  induction F as [|kv q ped1 qs1 R F IH]; intros p; cbn [app all_scores].
  - unfold one_score. cbn [fst snd]. rewrite row_found, I. destruct (item (row_of c) (z - 1)) eqn:X; [|reflexivity]. exfalso. assert ((-5 <= z - 1 <= 4)%Z); [|lia]. apply (item_some (row_of c)); [apply row_length|eauto].
  - rewrite (one_score_row _ _ R). cbn [bind]. apply IH.
Qed.
Print Assumptions C240_six_refuted.
(** A score from -4 to 0 is taken for one from 1 to 5. *)
Theorem C240_zero_refuted :
  forall d ped1 c s s' z ped2, int_of_str s = Some z -> (-4 <= z <= 0)%Z -> int_of_str s' = Some (z + 5)%Z ->
    check d (ped1 ++ (attribute c, s) :: ped2) = check d (ped1 ++ (attribute c, s') :: ped2).
Proof.
  intros d ped1 c s s' z ped2 I Z I'. assert (S : one_score (attribute c, s) = one_score (attribute c, s')).
  { unfold one_score. cbn [fst snd]. rewrite row_found, I, I'. unfold item. rewrite row_length. change (Z.of_nat 5) with 5%Z.
    replace (z - 1 <? 0)%Z with true by (symmetry; apply Z.ltb_lt; lia). replace (z - 1 + 5 <? 0)%Z with false by (symmetry; apply Z.ltb_ge; lia). replace (z + 5 - 1 <? 0)%Z with false by (symmetry; apply Z.ltb_ge; lia).
    now replace (z + 5 - 1)%Z with (z - 1 + 5)%Z by lia. }
  assert (H : forall p, all_scores p (ped1 ++ (attribute c, s) :: ped2) = all_scores p (ped1 ++ (attribute c, s') :: ped2)).
  { induction ped1 as [|kv ped1 IH]; intros p; cbn [app all_scores]; [now rewrite S|]. destruct (one_score kv); [apply IH|reflexivity]. }
  unfold check. specialize (H 0). destruct (ped1 ++ (attribute c, s) :: ped2) eqn:E1; [now destruct ped1|]. destruct (ped1 ++ (attribute c, s') :: ped2) eqn:E2; [now destruct ped1|]. rewrite H. reflexivity.
Qed.
Print Assumptions C240_zero_refuted.
Example C240_nonvacuous :
  let d := [(lit "@variance", lit "0.04"); (lit "@varianceWithPedigreeUncertainty", lit "0.08")] in
  check d [(lit "@reliability", lit "5")] = Ok false /\ check d [(lit "@reliability", lit "0")] = Ok false /\ check d [(lit "@reliability", lit "6")] = Err IndexError /\
  check d [(lit "@reliability", lit "n.a.")] = Err ValueError /\ check d [(lit "@sampleSize", lit "1")] = Err KeyError.
Proof. vm_compute. repeat split; reflexivity. Qed.
