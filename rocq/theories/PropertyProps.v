(** Properties of a flow: theorems. *)
From Coq Require Import Ascii String List Bool Arith NArith ZArith Reals Lia Lra.
From Verif Require Import PyBase PyBaseFacts PyValues DotDictModel DotDictProofs AmountModel AmountSpec AmountProofs CommentSpec CommentProofs
  PropertyModel PropertySpec PropertyProofs.
Import ListNotations.
Local Open Scope R_scope.

(** ** C88: totals of properties *)
(** Full statement: for every flow and property, the property times the amount is the same before and after the conversion. *)
Lemma intermediate_flow t m u k flow : real_table t -> real_unit u -> intermediate_amount t m u k = Ok flow ->
  am_f flow = ratio t u /\ am_m flow = m * ratio t u /\ am_f flow <> 0.
Proof.
  intros Ht Hu H. unfold intermediate_amount in H. rewrite to_ilcd_unit_eq in H. injection H as <-. cbn.
  pose proof (ratio_pos t u Ht Hu). unfold am_m. cbn. repeat split; lra.
Qed.
Lemma elementary_flow t m cf u k flow : real_table t -> real_unit u -> elementary_amount t m cf u k = Ok flow ->
  am_f flow = ratio t u /\ am_m flow = m * cf * ratio t u /\ am_f flow <> 0.
Proof. intros Ht Hu H. exact (intermediate_flow t (m * cf) u k flow Ht Hu H). Qed.

Theorem C88_flow_unit_total_partial : forall t m u k flow props ps name p,
  real_table t -> real_unit u -> intermediate_amount t m u k = Ok flow ->
  get_ilcd_equivalent flow props = Ok ps -> In (name, p) props -> per_flow_unit name p -> p_considered p = true ->
  exists p', In (name, p') (remaining ps) /\ value p' * am_m flow = value p * m.
Proof.
  intros t m u k flow props ps name p Ht Hu Hf H I P Pc. destruct (intermediate_flow _ _ _ _ _ Ht Hu Hf) as (F1 & F2 & F3).
  assert (D : name <> lit "water in wet mass").
  { intros ->. destruct P as [P|(P & _)].
    - cbn [In] in P. repeat destruct P as [P|P]; try discriminate P. exact P.
    - apply infixb_occurs in P. vm_compute in P. discriminate P. }
  destruct (equivalent_In _ _ _ _ _ H I D) as (dry & p' & _ & C & I'). exists p'.
  unfold correct in C. cbn [fst snd] in C. rewrite (per_flow_unit_correction flow name p P) in C.
  apply bind_inv in C as (q & Hq & C). injection C as <-. destruct (correct_flow_unit_value _ _ _ F3 Hq) as [V W].
  split; [apply filter_In; split; [exact I'|cbn; now rewrite W]|]. rewrite V, F2, <- F1. field. exact F3.
Qed.
Print Assumptions C88_flow_unit_total_partial.

Theorem C88_dry_mass_total_partial : forall t m u k flow props ps name p d,
  real_table t -> real_unit u -> intermediate_amount t m u k = Ok flow ->
  get_ilcd_equivalent flow props = Ok ps -> In (name, p) props -> per_dry_mass name p ->
  getf (lit "dry mass") props = Some d -> p_considered p = true ->
  exists p', In (name, p') (remaining ps) /\ value p' * am_m flow = value p * (value d * m).
Proof.
  intros t m u k flow props ps name p d Ht Hu Hf H I P Gd Pc. destruct (intermediate_flow _ _ _ _ _ Ht Hu Hf) as (F1 & F2 & F3).
  assert (D : name <> lit "water in wet mass").
  { intros ->. destruct P as [P|(P & _)].
    - cbn [In] in P. repeat destruct P as [P|P]; try discriminate P. exact P.
    - apply infixb_occurs in P. vm_compute in P. discriminate P. }
  destruct (equivalent_In _ _ _ _ _ H I D) as (dry & p' & Hd & C & I'). exists p'.
  unfold dry_mass in Hd. rewrite Gd in Hd. apply bind_inv in Hd as (d' & Hd' & Hd). injection Hd as <-.
  destruct (correct_flow_unit_value _ _ _ F3 Hd') as [Vd _].
  unfold correct in C. cbn [fst snd] in C. rewrite (per_dry_mass_correction flow name p P) in C.
  apply bind_inv in C as (q & Hq & C). injection C as <-. destruct (correct_dry_mass_value _ _ _ Hq) as (V & W & _).
  split; [apply filter_In; split; [exact I'|cbn; now rewrite W]|]. rewrite V, Vd, F2, <- F1. field. exact F3.
Qed.
Print Assumptions C88_dry_mass_total_partial.

(** A water content is estimated from the wet and the dry mass when there is none. *)
Theorem C88_estimated_water_partial : forall t m u k flow props ps d w,
  real_table t -> real_unit u -> intermediate_amount t m u k = Ok flow ->
  get_ilcd_equivalent flow props = Ok ps ->
  getf (lit "water content") props = None -> getf (lit "dry mass") props = Some d -> getf (lit "wet mass") props = Some w ->
  exists p', In (lit "water content", p') ps /\ value p' * am_m flow = (value w - value d) * m /\ p_considered p' = true /\
             q_unit (am_a (p_amount p')) = {| u_dim := [0;0;1]%Z; u_scale := 1 |}.
Proof.
  intros t m u k flow props ps d w Ht Hu Hf H N Gd Gw. destruct (intermediate_flow _ _ _ _ _ Ht Hu Hf) as (F1 & F2 & F3).
  unfold get_ilcd_equivalent in H. apply bind_inv in H as (dry & Hd & H). apply bind_inv in H as (qs & Hq & H). injection H as <-.
  apply mapM_forall2 in Hq.
  assert (K : forall n, match getf n props with
                        | Some p => exists q, getf n qs = Some q /\ correct flow dry (n, p) = Ok (n, q)
                        | None => getf n qs = None end).
  { intro n. clear - Hq. induction Hq as [|[a p] [b q] l l' C Hq IH]; [reflexivity|].
    assert (b = a) by (unfold correct in C; apply bind_inv in C as (x & _ & C); cbn in C; now injection C as <- <-). subst b.
    cbn [getf]. destruct (str_eqb a n) eqn:E; [|exact IH]. apply str_eqb_eq in E. subst a. exists q. split; [reflexivity|exact C]. }
  pose proof (K (lit "water content")) as K1. rewrite N in K1.
  pose proof (K (lit "dry mass")) as K2. rewrite Gd in K2. destruct K2 as (d' & K2 & C2).
  pose proof (K (lit "wet mass")) as K3. rewrite Gw in K3. destruct K3 as (w' & K3 & C3).
  unfold correct in C2, C3. cbn [fst snd] in C2, C3.
  rewrite (per_flow_unit_correction flow (lit "dry mass") d) in C2 by (left; cbn [In]; auto).
  rewrite (per_flow_unit_correction flow (lit "wet mass") w) in C3 by (left; cbn [In]; auto).
  apply bind_inv in C2 as (d2 & D2 & C2). apply bind_inv in C3 as (w2 & W2 & C3).
  assert (d2 = d') by congruence. assert (w2 = w') by congruence. subst d2 w2.
  destruct (correct_flow_unit_value _ _ _ F3 D2) as [V2 _]. destruct (correct_flow_unit_value _ _ _ F3 W2) as [V3 _].
  exists (estimated w' d'). split; [|split; [|split; reflexivity]].
  - apply drop_double_In; [discriminate|]. unfold add_water. rewrite K1, K2, K3. apply in_app_iff. right. now left.
  - change (value (estimated w' d')) with (value w' - value d'). rewrite V2, V3, F2, <- F1. field. exact F3.
Qed.
Print Assumptions C88_estimated_water_partial.

(** An elementary flow with a mapping factor: the total changes by that factor. *)
Theorem C88_mapping_factor_refuted : forall t m cf u k flow props ps name p,
  real_table t -> real_unit u -> elementary_amount t m cf u k = Ok flow ->
  get_ilcd_equivalent flow props = Ok ps -> In (name, p) props -> per_flow_unit name p -> p_considered p = true ->
  exists p', In (name, p') (remaining ps) /\ value p' * am_m flow = cf * (value p * m).
Proof.
  intros t m cf u k flow props ps name p Ht Hu Hf H I P Pc.
  destruct (C88_flow_unit_total_partial t (m * cf) u k flow props ps name p Ht Hu Hf H I P Pc) as (p' & I' & V).
  exists p'. split; [exact I'|]. rewrite V. ring.
Qed.
Print Assumptions C88_mapping_factor_refuted.

(** A concentration is multiplied by the amount of the flow, so that its total is counted amount times too often. *)
Theorem C88_concentration_refuted : forall t m u k flow props ps name p d,
  real_table t -> real_unit u -> intermediate_amount t m u k = Ok flow ->
  get_ilcd_equivalent flow props = Ok ps -> In (name, p) props ->
  occurs (lit "concentration, ") name -> ~ occurs (lit "content") name ->
  p_denominator p = Some d -> deqb d (u_dim (q_unit (am_a flow))) = true ->
  exists p', In (name, p') ps /\ value p' * am_m flow = Rabs (am_m flow) * (value p * am_m flow).
Proof.
  intros t m u k flow props ps name p d Ht Hu Hf H I O N Pd E.
  assert (D : name <> lit "water in wet mass").
  { intros ->. apply infixb_occurs in O. vm_compute in O. discriminate O. }
  destruct (equivalent_In _ _ _ _ _ H I D) as (dry & p' & Hd & C & I'). exists p'. split; [exact I'|].
  assert (Cr : correction_of flow name p = FlowAmount).
  { apply infixb_occurs in O. apply infixb_false in N. unfold correction_of. rewrite N, O, Pd. cbn [andb]. rewrite E.
    assert (S1 : str_in name flow_unit_names = false).
    { apply str_in_false. intro J. cbn [In flow_unit_names] in J. repeat destruct J as [J|J]; try contradiction; rewrite <- J in O; vm_compute in O; discriminate O. }
    assert (S2 : str_in name dry_mass_names = false).
    { apply str_in_false. intro J. cbn [In dry_mass_names] in J. repeat destruct J as [J|J]; try contradiction; rewrite <- J in O; vm_compute in O; discriminate O. }
    rewrite S1, S2. reflexivity. }
  unfold correct in C. cbn [fst snd] in C. rewrite Cr in C. apply bind_inv in C as (q & Hq & C). injection C as <-.
  destruct (correct_flow_amount_value _ _ _ Hq) as [V _]. rewrite V. ring.
Qed.
Print Assumptions C88_concentration_refuted.

Definition kg_unit : unit_ := {| u_dim := [0;0;1]%Z; u_scale := 1 |}.
Definition tonne : unit_ := {| u_dim := [0;0;1]%Z; u_scale := 1000 |}.
Definition ex_prop v u k : prop := {| p_amount := new_amount v u None; p_unit := k; p_source_mj := false; p_denominator := None; p_considered := true |}.
Definition ex_props := [(lit "dry mass", ex_prop 0.5 kg_unit UKilogram); (lit "water content", ex_prop 0.25 dimensionless UDimensionless)].
Example C88_nonvacuous :
  real_table [kg_unit] /\ real_unit tonne /\
  (exists flow, intermediate_amount [kg_unit] 2 tonne None = Ok flow /\ am_m flow = 2000 /\
   exists ps, get_ilcd_equivalent flow ex_props = Ok ps) /\
  per_flow_unit (lit "dry mass") (ex_prop 0.5 kg_unit UKilogram) /\
  per_dry_mass (lit "water content") (ex_prop 0.25 dimensionless UDimensionless).
Proof.
  assert (T : real_table [kg_unit]) by (constructor; [unfold real_unit; cbn; lra|constructor]).
  assert (U : real_unit tonne) by (unfold real_unit; cbn; lra).
  split; [exact T|]. split; [exact U|]. split; [|split; left; cbn [In]; auto].
  unfold intermediate_amount. rewrite to_ilcd_unit_eq. eexists. split; [reflexivity|].
  assert (R1 : ratio [kg_unit] tonne = 1000) by (unfold ratio; cbn; field). cbn [new_amount am_a q_unit qty am_f am_unc am_m magnitude]. rewrite R1.
  split; [unfold am_m; cbn; lra|]. eexists.
  unfold get_ilcd_equivalent, dry_mass. cbn [ex_props getf]. rewrite str_eqb_refl. unfold correct_flow_unit at 1. cbn [am_f set_a].
  destruct (Req_EM_T (1 * 1000) 1) as [E|E]; [lra|]. unfold divide. cbn [unc_after bind op_a].
  unfold q_div. cbn [magnitude qty]. destruct (Req_EM_T (1 * 1000) 0) as [Z|Z]; [lra|]. cbn [bind].
  cbn [ex_props mapM]. unfold correct at 1. cbn [fst snd]. 
  rewrite (per_flow_unit_correction _ (lit "dry mass")) by (left; cbn [In]; auto).
  unfold correct_flow_unit. cbn [am_f set_a]. destruct (Req_EM_T (1 * 1000) 1) as [E2|E2]; [lra|]. unfold divide. cbn [unc_after bind op_a].
  unfold q_div. cbn [magnitude qty]. destruct (Req_EM_T (1 * 1000) 0) as [Z2|Z2]; [lra|]. cbn [bind].
  unfold correct at 1. cbn [fst snd]. rewrite (per_dry_mass_correction _ (lit "water content")) by (left; cbn [In]; auto).
  cbn [correct_dry_mass multiply unc_after bind]. reflexivity.
Qed.

(** ** C95: which properties are converted *)
Theorem C95_unknown_dropped : forall flow props ps name p',
  get_ilcd_equivalent flow props = Ok ps -> unknown_property name -> ~ In (name, p') (remaining ps).
Proof.
  intros flow props ps name p' H U I. apply filter_In in I as [I Ic]. destruct (equivalent_only _ _ _ _ _ H I) as [(dry & p & _ & _ & C)|E].
  - unfold correct in C. cbn [fst snd] in C. rewrite (unknown_correction flow name p U) in C. cbn in C. injection C as <-. discriminate Ic.
  - destruct U as (_ & U & _). apply U. apply infixb_occurs. rewrite E. vm_compute. reflexivity.
Qed.
Print Assumptions C95_unknown_dropped.
(** Full statement: every property with an ILCD equivalent is converted. Shares of the dry mass are lost without a dry mass. *)
Theorem C95_no_dry_mass_refuted : forall flow props ps name p,
  get_ilcd_equivalent flow props = Ok ps -> per_dry_mass name p -> getf (lit "dry mass") props = None ->
  In (name, p) props -> In (name, dropped p) ps.
Proof.
  intros flow props ps name p H P G I.
  assert (D : name <> lit "water in wet mass").
  { intros ->. destruct P as [P|(P & _)].
    - cbn [In] in P. repeat destruct P as [P|P]; try discriminate P. exact P.
    - apply infixb_occurs in P. vm_compute in P. discriminate P. }
  destruct (equivalent_In _ _ _ _ _ H I D) as (dry & p' & Hd & C & I').
  unfold dry_mass in Hd. rewrite G in Hd. injection Hd as <-.
  unfold correct in C. cbn [fst snd] in C. rewrite (per_dry_mass_correction flow name p P) in C. cbn in C. injection C as <-. exact I'.
Qed.
Print Assumptions C95_no_dry_mass_refuted.
(** The three named contents are multiplied by the dry mass whatever their unit: one given in kg ends up in kg². *)
Theorem C95_dimension_refuted : forall flow props ps name p d,
  get_ilcd_equivalent flow props = Ok ps ->
  In name [lit "water content"; lit "carbon content, fossil"; lit "carbon content, non-fossil"] ->
  getf (lit "dry mass") props = Some d -> In (name, p) props -> NoDup (map fst props) ->
  exists p' d', In (name, p') ps /\ In (lit "dry mass", d') ps /\
    forall i, exponent i (q_unit (am_a (p_amount p'))) =
              (exponent i (q_unit (am_a (p_amount p))) + exponent i (q_unit (am_a (p_amount d'))))%Z.
Proof.
  intros flow props ps name p d H N G I Nd.
  assert (P : per_dry_mass name p) by now left.
  assert (D : name <> lit "water in wet mass").
  { intros ->. cbn [In] in N. repeat destruct N as [N|N]; try discriminate N. exact N. }
  destruct (equivalent_In _ _ _ _ _ H I D) as (dry & p' & Hd & C & I').
  pose proof G as G'. apply getf_In in G'.
  assert (D2 : lit "dry mass" <> lit "water in wet mass") by discriminate.
  destruct (equivalent_In _ _ _ _ _ H G' D2) as (dry2 & d' & Hd2 & C2 & J').
  unfold dry_mass in Hd. rewrite G in Hd. apply bind_inv in Hd as (d1 & Hd1 & Hd). injection Hd as <-.
  unfold correct in C2. cbn [fst snd] in C2. rewrite (per_flow_unit_correction flow (lit "dry mass") d) in C2 by (left; cbn [In]; auto).
  rewrite Hd1 in C2. cbn in C2. assert (E : d1 = d') by congruence. subst d1. clear C2.
  unfold correct in C. cbn [fst snd] in C. rewrite (per_dry_mass_correction flow name p P) in C.
  apply bind_inv in C as (q & Hq & C). injection C as <-. destruct (correct_dry_mass_value _ _ _ Hq) as (_ & _ & U).
  exists q, d'. split; [exact I'|]. split; [exact J'|]. intro i. rewrite U. unfold exponent, q_mul. cbn. now apply nth_dmap2.
Qed.
Print Assumptions C95_dimension_refuted.
(** At most one of 'water content' and 'water in wet mass' is left. *)
Theorem C95_no_double_water : forall flow props ps p,
  get_ilcd_equivalent flow props = Ok ps -> In (lit "water content", p) ps -> ~ In (lit "water in wet mass") (map fst ps).
Proof.
  intros flow props ps p H I J. unfold get_ilcd_equivalent in H. apply bind_inv in H as (dry & _ & H).
  apply bind_inv in H as (qs & _ & H). injection H as <-. pose proof (drop_double_incl _ _ I) as I'.
  unfold drop_double in J. destruct (getf (lit "water content") (add_water qs)) as [w|] eqn:G.
  - apply in_map_iff in J as ([n q] & E & J). apply filter_In in J as [_ J]. cbn in E, J. rewrite E in J. discriminate J.
  - apply (proj1 (getf_None _ _)) in G. apply G. now apply (in_map fst) in I'.
Qed.
Print Assumptions C95_no_double_water.
Example C95_nonvacuous : unknown_property (lit "density") /\ In (lit "water content") (map fst ex_props).
Proof.
  split; [|cbn; auto]. split; [|repeat split; intro H; apply infixb_occurs in H; vm_compute in H; discriminate H].
  cbn [In]. intros H. repeat destruct H as [H|H]; try discriminate H. exact H.
Qed.
