(** Merging of exchanges: theorems. *)
From Coq Require Import Ascii String List Bool Arith NArith ZArith Reals Lia Lra Permutation.
From Verif Require Import PyBase PyBaseFacts PyValues AmountModel AmountSpec AmountProofs FlowModel MergeModel MergeSpec MergeProofs.
From Verif Require DotDictProofs.
Import ListNotations.
Local Open Scope R_scope.

(** ** C42: totals are conserved *)
(** Full statement: merging never fails, keeps every total and leaves one exchange per elementary flow and direction. *)
Theorem C42_merge_to_ilcd_partial : forall l ys,
  well_formed l -> merge_to_ilcd l = Ok ys ->
  forall k, total_after k ys = total_before k l /\
    ((exists x, In x l /\ x_elem x = true /\ x_key x = k) -> count_after k ys = 1%nat) /\
    ((forall x, In x l -> x_key x = k -> x_elem x = false) -> count_after k ys = List.length (group k l)).
Proof.
  intros l ys W E. apply (merge_totals merge_ilcd merge_ilcd_good l (filter is_elem l)
    (fun x => if key_in (x_key x) (double_keys (filter is_elem l)) then None else Some (am_a (x_amount x)))).
  - exact W.
  - apply Permutation_refl.
  - intros x _. destruct (key_in (x_key x) (double_keys (filter is_elem l))) eqn:K; [|now left].
    right. now apply key_in_spec.
  - exact E.
Qed.
Print Assumptions C42_merge_to_ilcd_partial.

(** in whatever order the set of exchanges is gone through *)
Theorem C42_merge_to_ecs2_partial : forall s l ys,
  well_formed l -> Permutation s (filter is_elem l) -> merge_to_ecs2 s l = Ok ys ->
  forall k, total_after k ys = total_before k l /\
    ((exists x, In x l /\ x_elem x = true /\ x_key x = k) -> count_after k ys = 1%nat) /\
    ((forall x, In x l -> x_key x = k -> x_elem x = false) -> count_after k ys = List.length (group k l)).
Proof.
  intros s l ys W P E. apply (merge_totals merge_ecs2 merge_ecs2_good l s (fun x => Some (am_a (x_amount x)))).
  - exact W.
  - exact P.
  - intros x _. now left.
  - exact E.
Qed.
Print Assumptions C42_merge_to_ecs2_partial.

(** It does not fail for amounts without uncertainty, in one dimension per flow, when the first exchange has sources or none has. *)
Definition mergeable (l : list mflow) : Prop :=
  forall x y, In x l -> In y l -> x_key x = x_key y ->
    am_unc (x_amount x) = None /\ deqb (u_dim (q_unit (am_a (x_amount y)))) (u_dim (q_unit (am_a (x_amount x)))) = true /\
    (x_sources x = None -> x_sources y = None).
Lemma add_sources_ok m l : exists r, add_sources (Some m) l = Ok (Some r).
Proof. revert m. induction l as [|n l IH]; intro m; cbn; [eauto|]. apply IH. Qed.
Lemma merge_ilcd_ok fs : forall x,
  am_unc (x_amount x) = None ->
  Forall (fun y => deqb (u_dim (q_unit (am_a (x_amount y)))) (u_dim (q_unit (am_a (x_amount x)))) = true /\
                   (x_sources x = None -> x_sources y = None)) fs ->
  exists y, merge_ilcd x fs = Ok y.
Proof.
  induction fs as [|f fs IH]; intros x U F; cbn; [eauto|]. inversion F as [|? ? [D S] Fs]; subst.
  assert (Hs : exists r, merge_sources (x_sources x) (x_sources f) = Ok r /\ (r = None -> x_sources x = None)).
  { unfold merge_sources. destruct (x_sources f) as [lf|] eqn:Ef; [|eauto]. destruct (x_sources x) as [m|] eqn:Ex.
    - destruct (add_sources_ok m lf) as (r & ->). exists (Some r). split; [reflexivity|discriminate].
    - specialize (S eq_refl). discriminate. }
  destruct Hs as (r & -> & Hr). cbn.
  unfold sum_, unc_after. rewrite U. cbn. unfold q_add, to_unit. rewrite D. cbn. unfold calculate_unc. cbn.
  apply IH; [reflexivity|]. cbn. rewrite Forall_forall in *. intros z Hz. destruct (Fs z Hz) as [D2 S2]. split; [exact D2|].
  intro Y. apply S2. auto.
Qed.
Lemma apply_groups_ok M s ks : forall xs,
  (forall k x fs, In k ks -> group k s = x :: fs -> exists y, M x fs = Ok y) -> exists ys, apply_groups M s ks xs = Ok ys.
Proof.
  induction ks as [|k ks IH]; intros xs H; cbn; [eauto|]. unfold apply_group.
  destruct (group k s) as [|x fs] eqn:G.
  - cbn. apply IH. intros k' x fs I. apply H. now right.
  - destruct (H k x fs (or_introl eq_refl) G) as (y & ->). cbn. apply IH. intros k' x' fs' I. apply H. now right.
Qed.
Theorem C42_merge_succeeds_partial : forall l,
  mergeable l -> exists ys, merge_to_ilcd l = Ok ys.
Proof.
  intros l H. apply apply_groups_ok. intros k x fs _ G.
  assert (A : forall z, In z (x :: fs) -> In z l /\ x_key z = k).
  { intros z Hz. rewrite <- G in Hz. apply in_group in Hz as [Hz Hk]. apply filter_In in Hz. tauto. }
  destruct (A x (or_introl eq_refl)) as [Xl Xk]. apply merge_ilcd_ok.
  - apply (H x x); auto.
  - apply Forall_forall. intros z Hz. destruct (A z (or_intror Hz)) as [Zl Zk]. split; apply (H x z); congruence.
Qed.
Print Assumptions C42_merge_succeeds_partial.

(** A first exchange without sources and a second with some stop the conversion. *)
Theorem C42_sources_refuted : forall x y n ns,
  x_elem x = true -> x_elem y = true -> x_key x = x_key y -> x_sources x = None -> x_sources y = Some (n :: ns) ->
  merge_to_ilcd [x; y] = Err TypeError.
Proof.
  intros x y n ns Ex Ey K Sx Sy. unfold merge_to_ilcd.
  assert (F : filter is_elem [x; y] = [x; y]) by (cbn; unfold is_elem; now rewrite Ex, Ey). rewrite F.
  assert (G : group (x_key x) [x; y] = [x; y]) by (cbn; rewrite <- K, key_eqb_refl; reflexivity).
  assert (D : double_keys [x; y] = [x_key x]).
  { unfold double_keys. cbn [keys_of filter]. rewrite <- K, key_eqb_refl. cbn [negb]. cbn [filter]. rewrite G. reflexivity. }
  rewrite D. cbn [apply_groups]. rewrite G. cbn. rewrite Sx, Sy. reflexivity.
Qed.
Print Assumptions C42_sources_refuted.
(** Otherwise the merged exchange has the sources of all, each once. *)
Definition sources_of (x : mflow) : list pystr := match x_sources x with Some l => l | None => [] end.
Lemma add_sources_all l : forall m r, add_sources m l = Ok r ->
  (forall n, In n (match r with Some k => k | None => [] end) <-> In n (match m with Some k => k | None => [] end) \/ In n l) /\
  (NoDup (match m with Some k => k | None => [] end) -> NoDup (match r with Some k => k | None => [] end)).
Proof.
  induction l as [|a l IH]; intros m r; cbn [add_sources].
  - intros [= <-]. split; [cbn [In]; tauto|auto].
  - destruct m as [m|]; [|discriminate]. intros H. apply IH in H. destruct H as [H N]. split.
    + intros n. rewrite H. destruct (str_in a m) eqn:E.
      * apply str_in_In in E. cbn [In]. intuition congruence.
      * rewrite in_app_iff. cbn [In]. intuition congruence.
    + intros D. apply N. destruct (str_in a m) eqn:E; [exact D|]. apply DotDictProofs.NoDup_snoc; [exact D|].
      intros F. apply str_in_In in F. congruence.
Qed.
Theorem C42_sources_kept : forall fs x z, merge_ilcd x fs = Ok z ->
  (forall n, In n (sources_of z) <-> exists y, In y (x :: fs) /\ In n (sources_of y)) /\
  (NoDup (sources_of x) -> NoDup (sources_of z)).
Proof.
  induction fs as [|f fs IH]; intros x z E; cbn [merge_ilcd] in E.
  - injection E as <-. split; [|auto]. intros n. split; [intros H; exists x; split; [now left|exact H]|].
    intros (y & [<- | []] & H). exact H.
  - apply bind_inv in E as (s & Es & E). apply bind_inv in E as (a & _ & E). apply bind_inv in E as (b & _ & E).
    apply IH in E. destruct E as [E N].
    assert (A : (forall n, In n (match s with Some k => k | None => [] end) <-> In n (sources_of x) \/ In n (sources_of f)) /\
                (NoDup (sources_of x) -> NoDup (match s with Some k => k | None => [] end))).
    { unfold merge_sources in Es. unfold sources_of. destruct (x_sources f) as [lf|]; [now apply add_sources_all in Es|].
      injection Es as <-. split; [cbn [In]; tauto|auto]. }
    destruct A as [A B]. split; [|auto]. intros n. rewrite E. cbn [In]. split.
    + intros (y & [<- | Y] & H); [|exists y; tauto]. unfold sources_of in H. cbn [x_sources] in H. apply A in H.
      destruct H as [H | H]; [exists x|exists f]; tauto.
    + intros (y & [<- | [<- | Y]] & H); [| |exists y; tauto];
        (eexists; split; [left; reflexivity|]; unfold sources_of at 1; cbn [x_sources]; apply A; tauto).
Qed.
Print Assumptions C42_sources_kept.

Definition kg : unit_ := {| u_dim := [0;0;1]%Z; u_scale := 1 |}.
Definition ex_m n k m u src : mflow :=
  {| x_num := n; x_key := (lit k, Output); x_elem := true; x_amount := new_amount m kg u; x_sources := src; x_bounds := None |}.
Example C42_nonvacuous :
  let l := [ex_m 1 "co2" 2 None None; ex_m 2 "ch4" 5 None None; ex_m 3 "co2" 3 None None] in
  well_formed l /\ mergeable l /\
  (exists ys, merge_to_ilcd l = Ok ys /\ total_after (lit "co2", Output) ys = 5 /\ count_after (lit "co2", Output) ys = 1%nat).
Proof.
  intro l.
  assert (W : well_formed l).
  { split; [|split].
    - cbn. repeat constructor; cbn; intuition discriminate.
    - intros x y Hx Hy _. cbn in Hx, Hy. intuition subst; reflexivity.
    - intros x Hx. cbn in Hx. unfold real_unit. intuition subst; cbn; lra. }
  assert (Mg : mergeable l).
  { intros x y Hx Hy _. cbn in Hx, Hy. intuition subst; reflexivity. }
  split; [exact W|]. split; [exact Mg|]. destruct (C42_merge_succeeds_partial l Mg) as (ys & E). exists ys. split; [exact E|].
  destruct (C42_merge_to_ilcd_partial l ys W E (lit "co2", Output)) as (T & C & _). split.
  - rewrite T. vm_compute total_before. cbn. unfold physical. cbn. lra.
  - apply C. exists (ex_m 1 "co2" 2 None None). cbn. auto.
Qed.

(** ** C94: the uncertainty of a merged exchange describes its amount *)
(** Full statement: the bounds of a merged exchange enclose its amount. *)
Lemma merge_two x y z : merge_ilcd x [y] = Ok z ->
  exists a b, sum_ (x_amount x) (AmountOp (x_amount y)) = Ok a /\ calculate_unc a = Ok b /\ x_amount z = a /\
    x_bounds z = match b with Some b' => Some b' | None => x_bounds x end.
Proof.
  intro E. cbn in E. apply bind_inv in E as (s & _ & E). apply bind_inv in E as (a & Ea & E). apply bind_inv in E as (b & Eb & E).
  injection E as <-. exists a, b. cbn. auto.
Qed.
Lemma merge_no_unc fs : forall x z, am_unc (x_amount x) = None -> merge_ilcd x fs = Ok z -> x_bounds z = x_bounds x.
Proof.
  induction fs as [|f fs IH]; intros x z U E; cbn in E; [now injection E as <-|].
  apply bind_inv in E as (s & _ & E). apply bind_inv in E as (a & Ea & E). apply bind_inv in E as (b & Eb & E).
  unfold sum_ in Ea. apply bind_inv in Ea as (k & Ek & Ea). apply bind_inv in Ea as (q & _ & Ea). injection Ea as <-.
  unfold unc_after in Ek. rewrite U in Ek.
  assert (k = None) by (destruct (am_unc (x_amount f)); injection Ek as <-; reflexivity). subst k.
  unfold calculate_unc in Eb. cbn in Eb. injection Eb as <-. apply IH in E; [exact E|reflexivity].
Qed.
(** Two distributions that are not both normal: the bounds of the first exchange alone are kept, whatever follows. *)
Theorem C94_stale_bounds_refuted : forall x y fs z k1 k2,
  am_unc (x_amount x) = Some k1 -> am_unc (x_amount y) = Some k2 -> same_kind AddOp k1 k2 = false ->
  merge_ilcd x (y :: fs) = Ok z -> x_bounds z = x_bounds x.
Proof.
  intros x y fs z k1 k2 U1 U2 K E. cbn in E. apply bind_inv in E as (s & _ & E). apply bind_inv in E as (a & Ea & E).
  apply bind_inv in E as (b & Eb & E).
  unfold sum_ in Ea. apply bind_inv in Ea as (k & Ek & Ea). apply bind_inv in Ea as (q & _ & Ea). injection Ea as <-.
  unfold unc_after in Ek. rewrite U1, U2, K in Ek. injection Ek as <-.
  unfold calculate_unc in Eb. cbn in Eb. injection Eb as <-. apply merge_no_unc in E; [exact E|reflexivity].
Qed.
Print Assumptions C94_stale_bounds_refuted.
(** so that the merged amount lies outside as soon as the second amount is large *)
Theorem C94_outside_refuted : forall x y z b k1 k2,
  am_unc (x_amount x) = Some k1 -> am_unc (x_amount y) = Some k2 -> same_kind AddOp k1 k2 = false ->
  q_unit (am_a (x_amount x)) = q_unit (am_a (x_amount y)) -> real_unit (q_unit (am_a (x_amount x))) ->
  x_bounds x = Some b -> b_max b - am_m (x_amount x) < am_m (x_amount y) ->
  merge_ilcd x [y] = Ok z -> x_bounds z = Some b /\ ~ inside b (am_m (x_amount z)).
Proof.
  intros x y z b k1 k2 U1 U2 K Q R B H E. rewrite (C94_stale_bounds_refuted _ _ _ _ _ _ U1 U2 K E). split; [exact B|].
  destruct (merge_two _ _ _ E) as (a & b' & Ea & _ & -> & _). destruct (sum_phys _ _ _ Ea R) as [P _].
  assert (Qa : q_unit (am_a a) = q_unit (am_a (x_amount x))).
  { unfold sum_ in Ea. apply bind_inv in Ea as (k & _ & Ea). apply bind_inv in Ea as (q & Hq & Ea). injection Ea as <-.
    unfold q_add in Hq. apply bind_inv in Hq as (q' & _ & Hq). injection Hq as <-. reflexivity. }
  unfold physical in P. rewrite Qa, <- Q in P. unfold real_unit in R.
  assert (S : am_m a = am_m (x_amount x) + am_m (x_amount y)).
  { unfold am_m. apply (Rmult_eq_reg_r (u_scale (q_unit (am_a (x_amount x))))); [|lra]. rewrite P. ring. }
  unfold inside. rewrite S. lra.
Qed.
Print Assumptions C94_outside_refuted.
(** What is left: a lognormal first exchange, others without uncertainty, amounts that are not negative. *)
Theorem C94_lognormal_partial : forall fs x z v,
  am_unc (x_amount x) = Some (Lognormal v) -> Forall (fun y => am_unc (x_amount y) = None) fs -> fs <> [] ->
  merge_ilcd x fs = Ok z -> 0 <= am_m (x_amount z) -> exists b, x_bounds z = Some b /\ inside b (am_m (x_amount z)).
Proof.
  induction fs as [|f fs IH]; intros x z v U F N E P; [contradiction|]. inversion F as [|? ? Uf Fs]; subst.
  cbn in E. apply bind_inv in E as (s & _ & E). apply bind_inv in E as (a & Ea & E). apply bind_inv in E as (b & Eb & E).
  assert (Ua : am_unc a = Some (Lognormal v)).
  { unfold sum_ in Ea. apply bind_inv in Ea as (k & Ek & Ea). apply bind_inv in Ea as (q & _ & Ea). injection Ea as <-.
    unfold unc_after in Ek. rewrite U, Uf in Ek. injection Ek as <-. reflexivity. }
  destruct fs as [|g fs].
  - cbn in E. injection E as <-. cbn in P |- *. unfold calculate_unc in Eb. rewrite Ua in Eb.
    pose proof Eb as Eb'. cbn in Eb. apply bind_inv in Eb as (q & _ & Eb). injection Eb as <-.
    eexists. split; [reflexivity|]. exact (lognormal_encloses _ _ _ _ Eb' P).
  - refine (IH _ _ v _ Fs _ E P); [exact Ua|discriminate].
Qed.
Print Assumptions C94_lognormal_partial.
(** Two normal distributions: the variances are added, but the interval is widened by a factor that contains the other amount. *)
Theorem C94_normal_factor_refuted : forall x y z v1 v2,
  am_unc (x_amount x) = Some (Normal v1) -> am_unc (x_amount y) = Some (Normal v2) -> am_f (x_amount x) = 1 ->
  merge_ilcd x [y] = Ok z ->
  exists b, x_bounds z = Some b /\
    b_max b - am_m (x_amount z) = 2 * sqrt (v1 + v2) * (1 + am_m (x_amount y)).
Proof.
  intros x y z v1 v2 U1 U2 F E. destruct (merge_two _ _ _ E) as (a & b & Ea & Eb & -> & ->).
  unfold sum_ in Ea. apply bind_inv in Ea as (k & Ek & Ea). apply bind_inv in Ea as (q & _ & Ea). injection Ea as <-.
  unfold unc_after in Ek. rewrite U1, U2 in Ek. cbn in Ek. apply bind_inv in Ek as (k' & Ek' & Ek). injection Ek as <-.
  destruct (Rle_dec v1 0); [discriminate|]. destruct (Rle_dec v2 0); [discriminate|]. injection Ek' as <-.
  unfold calculate_unc in Eb. cbn [am_unc set_a] in Eb. pose proof Eb as Eb'. cbn [calculate] in Eb.
  apply bind_inv in Eb as (t & Et & Eb). injection Eb as <-. apply sqrt_inv in Et as [_ ->].
  eexists. split; [reflexivity|]. unfold am_m. cbn. rewrite F. ring.
Qed.
Print Assumptions C94_normal_factor_refuted.
Example C94_nonvacuous :
  exists z b, merge_ilcd (ex_m 1 "co2" 2 (Some (Lognormal 1)) None) [ex_m 2 "co2" 3 None None] = Ok z /\
    x_bounds z = Some b /\ inside b (am_m (x_amount z)).
Proof.
  destruct (merge_ilcd (ex_m 1 "co2" 2 (Some (Lognormal 1)) None) [ex_m 2 "co2" 3 None None]) as [z|e] eqn:E.
  - exists z. assert (P : am_m (x_amount z) = 5).
    { destruct (merge_two _ _ _ E) as (a & b & Ea & _ & -> & _). cbn in Ea. unfold sum_ in Ea. cbn in Ea. injection Ea as <-. unfold am_m; cbn. field. }
    destruct (C94_lognormal_partial [ex_m 2 "co2" 3 None None] (ex_m 1 "co2" 2 (Some (Lognormal 1)) None) z 1 eq_refl) as (b & B1 & B2).
    + constructor; [reflexivity|constructor].
    + discriminate.
    + exact E.
    + rewrite P. lra.
    + exists b. auto.
  - exfalso. cbn in E. unfold sum_ in E. cbn in E. unfold calculate_unc in E. cbn in E. rewrite sqrt_ok in E by lra. discriminate.
Qed.
