(** Properties of amounts, units and uncertainties (C35-C38, C82, C83). *)
From Coq Require Import Ascii String List Bool ZArith Reals Lra Lia.
From Verif Require Import PyBase AmountModel AmountSpec AmountProofs.
Import ListNotations.
Local Open Scope R_scope.

(** ** C35 *)
(** the bounds are exactly the two-deviation interval of the distribution around the amount *)
Theorem C35_lognormal_interval_partial : forall v m f b x,
  calculate (Lognormal v) m f = Ok (Some b) -> 0 < m -> 0 < x -> (inside b x <-> within_lognormal m v x).
Proof. exact lognormal_inside. Qed.
Print Assumptions C35_lognormal_interval_partial.

Theorem C35_normal_interval_partial : forall v m f b x,
  calculate (Normal v) m f = Ok (Some b) -> 0 <= f -> (inside b x <-> within_normal m (f ^ 2 * v) x).
Proof. exact normal_inside. Qed.
Print Assumptions C35_normal_interval_partial.

(** the bounds written for a flow enclose its amount, unless the amount of a lognormal one is negative *)
Theorem C35_bounds_enclose_partial : forall t m u k y b,
  real_table t -> real_unit u ->
  intermediate_amount t m u (Some k) = Ok y -> calculate_unc y = Ok (Some b) ->
  (forall v, k = Lognormal v -> 0 <= m) ->
  (forall lo hi, k = Triangular lo hi \/ k = Uniform lo hi -> lo <= m <= hi) ->
  inside b (am_m y).
Proof.
  intros t m u k y b Ht Hu Hy Hb Hl Ht2. unfold intermediate_amount in Hy. rewrite to_ilcd_unit_eq in Hy.
  injection Hy as <-. pose proof (ratio_pos t u Ht Hu) as Hr.
  change (calculate k (m * ratio t u) (1 * ratio t u) = Ok (Some b)) in Hb. rewrite Rmult_1_l in Hb.
  change (inside b (m * ratio t u)).
  destruct k as [v|v|lo hi|lo hi|].
  - apply (lognormal_encloses v _ _ _ Hb). specialize (Hl v eq_refl). nra.
  - apply (normal_encloses v _ _ _ Hb). lra.
  - injection Hb as <-. destruct (Ht2 lo hi (or_introl eq_refl)). split; cbn; nra.
  - injection Hb as <-. destruct (Ht2 lo hi (or_intror eq_refl)). split; cbn; nra.
  - discriminate.
Qed.
Print Assumptions C35_bounds_enclose_partial.

Theorem C35_elementary_bounds_partial : forall t m cf u k y b,
  real_table t -> real_unit u ->
  elementary_amount t m cf u (Some k) = Ok y -> calculate_unc y = Ok (Some b) ->
  (exists v, k = Normal v) \/ (exists v, k = Lognormal v /\ 0 <= m * cf) ->
  inside b (am_m y).
Proof.
  intros t m cf u k y b Ht Hu Hy Hb Hk. apply (C35_bounds_enclose_partial t (m * cf) u k y b Ht Hu Hy Hb).
  - intros v ->. destruct Hk as [(v' & E)|(v' & E & H)]; [discriminate | exact H].
  - intros lo hi [-> | ->]; destruct Hk as [(v' & E)|(v' & E & H)]; discriminate.
Qed.
Print Assumptions C35_elementary_bounds_partial.

(** a negative lognormal amount lies strictly between a maximum that is too small and a minimum that is too large *)
Theorem C35_negative_lognormal_refuted : forall t m u v y b,
  real_table t -> real_unit u -> 0 < v -> m < 0 ->
  intermediate_amount t m u (Some (Lognormal v)) = Ok y -> calculate_unc y = Ok (Some b) ->
  b_max b < am_m y < b_min b.
Proof.
  intros t m u v y b Ht Hu Hv Hm Hy Hb. unfold intermediate_amount in Hy. rewrite to_ilcd_unit_eq in Hy.
  injection Hy as <-. pose proof (ratio_pos t u Ht Hu) as Hr.
  change (calculate (Lognormal v) (m * ratio t u) (1 * ratio t u) = Ok (Some b)) in Hb.
  change (b_max b < m * ratio t u < b_min b).
  apply (lognormal_negative v _ _ _ Hb Hv). nra.
Qed.
Print Assumptions C35_negative_lognormal_refuted.

(** bounds are always found for the four convertible kinds *)
Theorem C35_bounds_exist : forall k m f,
  k <> OtherKind -> (forall v, k = Lognormal v \/ k = Normal v -> 0 <= v) -> exists b, calculate k m f = Ok (Some b).
Proof.
  intros [v|v|lo hi|lo hi|] m f Hk Hv; cbn [calculate]; try (eexists; reflexivity).
  - rewrite sqrt_ok by (apply (Hv v); left; reflexivity). eexists. reflexivity.
  - rewrite sqrt_ok by (apply (Hv v); right; reflexivity). eexists. reflexivity.
  - destruct Hk. reflexivity.
Qed.
Print Assumptions C35_bounds_exist.

Example C35_nonvacuous : exists b, calculate (Normal 4) 10 1 = Ok (Some b) /\ b_min b = 6 /\ b_max b = 14.
Proof.
  cbn [calculate]. rewrite sqrt_ok by lra. eexists. split; [reflexivity|]. cbn.
  replace (sqrt 4) with 2 by (symmetry; rewrite <- (sqrt_square 2); [f_equal; lra | lra]). split; lra.
Qed.

(** ** C36 *)
Theorem C36_variance_round_trip : forall k m f m' f' b r,
  calculate k m f = Ok (Some b) -> reread k b = Some r ->
  match k with
  | Lognormal v => exists mu, calculate_back r m' f' = Ok (WLognormal m' mu v) /\ (0 < m' -> exp mu = m')
  | Normal v => calculate_back r m' f' = Ok (WNormal m' (v * (f * f') ^ 2))
  | Triangular lo hi => calculate_back r m' f' = Ok (WTriangular (lo * f * f') m' (hi * f * f'))
  | Uniform lo hi => calculate_back r m' f' = Ok (WUniform (lo * f * f') (hi * f * f'))
  | OtherKind => False
  end.
Proof.
  intros [v|v|lo hi|lo hi|] m f m' f' b r H R.
  - exact (back_lognormal v m f m' f' b r H R).
  - exact (back_normal v m f m' f' b r H R).
  - injection H as <-. injection R as <-. reflexivity.
  - injection H as <-. injection R as <-. reflexivity.
  - discriminate.
Qed.
Print Assumptions C36_variance_round_trip.

Example C36_nonvacuous : exists b r, calculate (Lognormal 1) 5 1 = Ok (Some b) /\ reread (Lognormal 1) b = Some r.
Proof. cbn [calculate]. rewrite sqrt_ok by lra. eexists. eexists. split; reflexivity. Qed.

(** ** C37 *)
(** any sequence of products, quotients and changes to reference units: the physical value and the dimension are those of
    the operations, the unit conversions change neither, and the factor is the ratio of the magnitudes *)
Theorem C37_physical_quantity_partial : forall t ss m u k y,
  real_table t -> Forall real_step ss -> real_unit u ->
  do_steps t ss (new_amount m u k) = Ok y ->
  physical (am_a y) = physical_effect ss (physical (qty m u)) /\
  (forall i, exponent i (q_unit (am_a y)) = dim_effect i ss (exponent i u)) /\
  am_m y = am_f y * m /\ am_orig y = qty m u.
Proof.
  intros t ss m u k y Ht Hs Hu H.
  destruct (do_steps_ok t ss (new_amount m u k) y Ht Hs Hu H) as (A1 & A2 & A3 & A4 & A5).
  split; [exact A4|]. split; [exact A5|]. split; [|exact A1]. apply A3. cbn. ring.
Qed.
Print Assumptions C37_physical_quantity_partial.

(** the change to the reference unit alone never fails, keeps the quantity and ends in a unit of the table when the
    dimension has one *)
Theorem C37_reference_unit : forall t x, real_table t -> real_unit (q_unit (am_a x)) ->
  exists y, to_ilcd_unit t x = Ok y /\ same_physical (am_a y) (am_a x) /\ am_unc y = am_unc x /\
    ((exists v, In v t /\ same_dim v (q_unit (am_a x))) ->
     In (q_unit (am_a y)) t) /\
    ((forall v, In v t -> ~ same_dim v (q_unit (am_a x))) -> u_scale (q_unit (am_a y)) = 1).
Proof.
  intros t x Ht Hx. rewrite to_ilcd_unit_eq. eexists. split; [reflexivity|].
  pose proof (reference_unit_real t (q_unit (am_a x)) Ht) as Hr. unfold real_unit in Hr.
  split; [split|].
  - unfold physical, am_m, ratio, set_a, qty. cbn [am_a magnitude q_unit]. field. lra.
  - intros i. unfold exponent. cbn [am_a set_a qty q_unit]. symmetry. revert i. apply deqb_spec, reference_unit_dim.
  - split; [reflexivity|]. cbn [am_a set_a qty q_unit]. unfold reference_unit. split.
    + intros (v & Hv & Hd). destruct (find _ t) as [w|] eqn:E.
      * exact (proj1 (find_some _ _ E)).
      * exfalso. pose proof (find_none _ _ E v Hv) as N. cbn in N.
        assert (D : deqb (u_dim v) (u_dim (q_unit (am_a x))) = true) by (apply deqb_spec; exact Hd).
        rewrite D in N. discriminate.
    + intros N. destruct (find _ t) as [w|] eqn:E; [|reflexivity].
      exfalso. apply find_some in E. destruct E as [E1 E2]. apply (N w E1).
      intros i. revert i. apply deqb_spec, E2.
Qed.
Print Assumptions C37_reference_unit.

(** after a sum the recorded factor is not the ratio of the magnitudes *)
Theorem C37_sum_factor_refuted : forall m u k q y, m <> 1 -> m <> 0 -> magnitude q <> 0 -> u_scale u <> 0 -> q_unit q = u ->
  sum_ (new_amount m u k) (QuantityOp q) = Ok y -> am_m y <> am_f y * m.
Proof.
  intros m u k q y H1 H0 Hq Hu Eq H. unfold sum_ in H. cbn [unc_after bind] in H.
  apply bind_inv in H. destruct H as (q' & Hq' & H). injection H as <-.
  unfold q_add in Hq'. apply bind_inv in Hq'. destruct Hq' as (q2 & Hq2 & Hq3). injection Hq3 as <-.
  unfold to_unit in Hq2. destruct (deqb _ _); [|discriminate]. injection Hq2 as <-.
  unfold am_m. cbn. rewrite Eq. unfold Rdiv. rewrite Rinv_r by exact Hu.
  intros E. assert (E2 : magnitude q * (1 - m) = 0) by lra.
  apply Rmult_integral in E2. destruct E2; lra.
Qed.
Print Assumptions C37_sum_factor_refuted.

(** [to] keeps the quantity but not the factor *)
Theorem C37_to_keeps_quantity : forall x u y, real_unit u -> to_ x u = Ok y ->
  same_physical (am_a y) (am_a x) /\ am_f y = am_f x.
Proof.
  intros x u y Hu H. unfold to_ in H. apply bind_inv in H. destruct H as (q & Hq & H). injection H as <-.
  split; [exact (proj1 (to_unit_ok _ _ _ Hu Hq)) | reflexivity].
Qed.
Print Assumptions C37_to_keeps_quantity.

Theorem C37_to_factor_refuted : forall m u v k y, real_unit v -> u_scale u <> u_scale v -> m <> 0 ->
  to_ (new_amount m u k) v = Ok y -> am_m y <> am_f y * m.
Proof.
  intros m u v k y Hv Hs Hm H. unfold to_ in H. apply bind_inv in H. destruct H as (q & Hq & H). injection H as <-.
  unfold to_unit in Hq. destruct (deqb _ _); [|discriminate]. injection Hq as <-. unfold am_m. cbn.
  intros E. apply Hs. unfold real_unit in Hv.
  assert (E2 : u_scale u / u_scale v = 1).
  { apply (Rmult_eq_reg_l m); [lra | exact Hm]. }
  apply (Rmult_eq_reg_r (/ u_scale v)); [|apply Rinv_neq_0_compat; lra].
  rewrite Rinv_r by lra. exact E2.
Qed.
Print Assumptions C37_to_factor_refuted.

(** what the operations do with two uncertainties: variances add when both are of the kind that the operation keeps,
    otherwise the uncertainty is dropped; a plain quantity leaves it *)
Theorem C37_uncertainty_of_operations : forall op x o k,
  unc_after op x o = Ok k ->
  match o with
  | QuantityOp _ => k = am_unc x
  | AmountOp y =>
      match am_unc x, am_unc y with
      | Some (Lognormal v1), Some (Lognormal v2) => k = (match op with AddOp => None | _ => Some (Lognormal (v1 + v2)) end)
      | Some (Normal v1), Some (Normal v2) => k = (match op with AddOp => Some (Normal (v1 + v2)) | _ => None end)
      | Some _, Some _ => k = None
      | k', None => k = k'
      | None, _ => k = None
      end
  end.
Proof.
  intros op x [y|q] k H; cbn [unc_after] in H; [|injection H as <-; reflexivity].
  destruct (am_unc x) as [[v|v|lo hi|lo hi|]|], (am_unc y) as [[v'|v'|lo' hi'|lo' hi'|]|];
    try (injection H as <-; reflexivity);
    destruct op; cbn [same_kind] in H; try (injection H as <-; reflexivity);
    cbn [combine] in H;
    repeat (match type of H with context [if ?c then _ else _] => destruct c; try discriminate end);
    cbn [bind] in H; injection H as <-; reflexivity.
Qed.
Print Assumptions C37_uncertainty_of_operations.

Example C37_nonvacuous :
  exists y, do_steps ilcd_units [SMul (QuantityOp (qty 2 dimensionless)); SIlcd]
              (new_amount 3 {| u_dim := [0;0;1]%Z; u_scale := 1000 |} None) = Ok y /\ am_m y = 6000.
Proof.
  cbn [do_steps do_step multiply unc_after bind]. rewrite to_ilcd_unit_eq. eexists. split; [reflexivity|].
  unfold am_m, ratio. cbn. field.
Qed.

(** ** C38 *)
Theorem C38_intermediate_scaled_partial : forall t m u k x y b b',
  real_table t -> real_unit u ->
  intermediate_amount t m u (Some k) = Ok y -> x = new_amount m u (Some k) ->
  calculate_unc x = Ok (Some b) -> calculate_unc y = Ok (Some b') ->
  exists c, 0 < c /\ am_m y = c * am_m x /\ scaled_bounds c b b'.
Proof.
  intros t m u k x y b b' Ht Hu Hy -> Hb Hb'. unfold intermediate_amount in Hy. rewrite to_ilcd_unit_eq in Hy.
  injection Hy as <-. exists (ratio t u). pose proof (ratio_pos t u Ht Hu) as Hr. split; [exact Hr|].
  change (calculate k (m * ratio t u) (1 * ratio t u) = Ok (Some b')) in Hb'.
  change (calculate k m 1 = Ok (Some b)) in Hb. rewrite Rmult_1_l, (Rmult_comm m) in Hb'.
  split; [cbn; unfold am_m; cbn; ring | exact (calculate_scaled _ _ _ _ _ Hb Hb')].
Qed.
Print Assumptions C38_intermediate_scaled_partial.

(** elementary flows: a mapping factor of 1, or a lognormal distribution *)
Theorem C38_elementary_scaled_partial : forall t m cf u k x y b b',
  real_table t -> real_unit u ->
  elementary_amount t m cf u (Some k) = Ok y -> x = new_amount m u (Some k) ->
  calculate_unc x = Ok (Some b) -> calculate_unc y = Ok (Some b') ->
  cf = 1 \/ (exists v, k = Lognormal v) ->
  exists c, am_m y = c * am_m x /\ c = cf * ratio t u /\ scaled_bounds c b b'.
Proof.
  intros t m cf u k x y b b' Ht Hu Hy -> Hb Hb' Hc. unfold elementary_amount in Hy. rewrite to_ilcd_unit_eq in Hy.
  injection Hy as <-. exists (cf * ratio t u).
  change (calculate k (m * cf * ratio t u) (1 * ratio t u) = Ok (Some b')) in Hb'.
  change (calculate k m 1 = Ok (Some b)) in Hb.
  split; [cbn; unfold am_m; cbn; ring|]. split; [reflexivity|].
  destruct Hc as [-> | (v & ->)].
  - apply (calculate_scaled k m _ _ _ Hb). rewrite <- Hb'. f_equal; ring.
  - apply calculate_lognormal in Hb, Hb'. destruct Hb as [_ ->], Hb' as [_ ->]. split; cbn; [unfold Rdiv|]; ring.
Qed.
Print Assumptions C38_elementary_scaled_partial.

(** with another factor the bounds of a uniform or triangular distribution keep the old scale *)
Theorem C38_mapping_factor_refuted : forall t m cf u lo hi x y b b',
  real_table t -> real_unit u -> cf <> 1 -> lo <> 0 ->
  elementary_amount t m cf u (Some (Uniform lo hi)) = Ok y -> x = new_amount m u (Some (Uniform lo hi)) ->
  calculate_unc x = Ok (Some b) -> calculate_unc y = Ok (Some b') ->
  am_m y = cf * ratio t u * am_m x /\ b_min b' = ratio t u * b_min b /\ b_min b' <> cf * ratio t u * b_min b.
Proof.
  intros t m cf u lo hi x y b b' Ht Hu Hc Hl Hy -> Hb Hb'. unfold elementary_amount in Hy. rewrite to_ilcd_unit_eq in Hy.
  injection Hy as <-. pose proof (ratio_pos t u Ht Hu) as Hr.
  injection Hb as <-. injection Hb' as <-. cbn. unfold am_m. cbn. change (q_unit _) with u.
  split; [ring|]. split; [ring|]. intros E.
  assert (E2 : lo * ratio t u * (1 - cf) = 0) by lra.
  apply Rmult_integral in E2. destruct E2 as [E2|E2]; [|lra].
  apply Rmult_integral in E2. destruct E2; lra.
Qed.
Print Assumptions C38_mapping_factor_refuted.

(** the bounds then need not enclose the amount *)
Theorem C38_amount_outside_refuted : forall t m cf u lo hi y b,
  real_table t -> real_unit u -> 0 < m -> lo <= m <= hi -> hi < m * cf ->
  elementary_amount t m cf u (Some (Uniform lo hi)) = Ok y -> calculate_unc y = Ok (Some b) -> b_max b < am_m y.
Proof.
  intros t m cf u lo hi y b Ht Hu Hm Hlo Hhi Hy Hb. unfold elementary_amount in Hy. rewrite to_ilcd_unit_eq in Hy.
  injection Hy as <-. injection Hb as <-. pose proof (ratio_pos t u Ht Hu) as Hr.
  unfold am_m. cbn. change (q_unit _) with u. nra.
Qed.
Print Assumptions C38_amount_outside_refuted.

Example C38_nonvacuous :
  exists y, elementary_amount ilcd_units 2 3 {| u_dim := [0;0;1]%Z; u_scale := 1 |} (Some (Uniform 1 3)) = Ok y
            /\ am_m y = 6 /\ exists b, calculate_unc y = Ok (Some b) /\ b_max b = 3.
Proof.
  unfold elementary_amount. rewrite to_ilcd_unit_eq. eexists. split; [reflexivity|].
  unfold am_m, ratio. cbn. split; [field|]. eexists. split; [reflexivity|]. cbn. field.
Qed.

(** ** C82 *)
Theorem C82_uncertainty_scaled_partial : forall r m c w,
  0 < c -> (match r with RLognormal s => 1 <= s | RNormal s => 0 <= s | _ => True end) ->
  calculate_back r (m * c) c = Ok w -> written_interval w = scaled c (read_interval r m).
Proof. exact back_scaled. Qed.
Print Assumptions C82_uncertainty_scaled_partial.

(** the factor used is the one of the amount *)
Theorem C82_factor_of_amount : forall m cf u, magnitude (fst (back_amount m cf u)) = m * snd (back_amount m cf u).
Proof. intros m cf u. cbn. ring. Qed.
Print Assumptions C82_factor_of_amount.

(** a deviation below 1 is read as its inverse *)
Theorem C82_small_deviation_refuted : forall s m, 0 < s -> s < 1 -> 0 < m ->
  exists w, calculate_back (RLognormal s) m 1 = Ok w /\ written_interval w = (m * s, m / s).
Proof.
  intros s m Hs H1 Hm. cbn [calculate_back]. rewrite sqrt_ok by lra. cbn [bind].
  assert (Hq : 0 < sqrt s) by (apply sqrt_lt_R0, Hs). rewrite log_ok by exact Hq. cbn [bind].
  eexists. split; [reflexivity|]. cbn [written_interval].
  assert (Hl : ln (sqrt s) <= 0).
  { rewrite <- ln_1. apply ln_le_iff; [exact Hq | lra|]. rewrite <- sqrt_1. apply sqrt_le_1_alt. lra. }
  assert (E : sqrt (ln (sqrt s) ^ 2) = - ln (sqrt s)).
  { replace (ln (sqrt s) ^ 2) with ((- ln (sqrt s)) * (- ln (sqrt s))) by ring. apply sqrt_square. lra. }
  rewrite E.
  assert (E2 : exp (2 * - ln (sqrt s)) = / s).
  { replace (2 * - ln (sqrt s)) with (- (2 * ln (sqrt s))) by ring. rewrite exp_Ropp, <- exp_sq, exp_ln by exact Hq.
    rewrite sqrt_sqrt' by lra. reflexivity. }
  rewrite E2. f_equal. unfold Rdiv. rewrite Rinv_inv. reflexivity.
Qed.
Print Assumptions C82_small_deviation_refuted.

(** a lognormal deviation of 0 or less stops the conversion *)
Theorem C82_no_deviation_refuted : forall s m f, s <= 0 -> calculate_back (RLognormal s) m f = Err ValueError.
Proof.
  intros s m f Hs. cbn [calculate_back]. unfold sqrt_. destruct (Rlt_dec s 0) as [H|H]; [reflexivity|]. cbn [bind].
  unfold log_. destruct (Rle_dec (sqrt s) 0) as [H2|H2]; [reflexivity|].
  exfalso. apply H2. assert (s = 0) as -> by lra. rewrite sqrt_0. lra.
Qed.
Print Assumptions C82_no_deviation_refuted.

Example C82_nonvacuous : exists w, calculate_back (RNormal 4) (10 * 2) 2 = Ok w /\ written_interval w = (12, 28).
Proof.
  eexists. split; [reflexivity|]. cbn [written_interval].
  replace ((4 * 2 / 2) ^ 2) with (4 * 4) by field. rewrite sqrt_square by lra. f_equal; lra.
Qed.

(** ** C83 *)
(** to ILCD and back: the physical quantity is the same for every dimension whose reference units agree *)
Theorem C83_amount_round_trip_partial : forall r e m u k y,
  In r unit_rows -> r_ecs2 r = Some e -> e = r_ilcd r -> deqb (u_dim u) (r_dim r) = true ->
  intermediate_amount ilcd_units m u k = Ok y ->
  same_physical (fst (back_amount (am_m y) 1 {| u_dim := r_dim r; u_scale := e |})) (qty m u).
Proof.
  intros r e m u k y Hr He Ee Hu Hy.
  destruct (intermediate_row r m u k Hr Hu) as (y' & Hy' & Ha & _ & _).
  rewrite Hy in Hy'. injection Hy' as <-. pose proof (unit_rows_real r Hr) as Hp. subst e. split.
  - unfold physical, am_m. rewrite Ha. cbn. field. lra.
  - intros i. unfold exponent. cbn [fst back_amount q_mul qty q_unit u_dim dimensionless].
    rewrite nth_dmap2 by reflexivity. rewrite deqb_spec in Hu. rewrite Hu. destruct i; cbn; reflexivity.
Qed.
Print Assumptions C83_amount_round_trip_partial.

(** which are all those that have an EcoSpold2 unit but two *)
Theorem C83_rows_that_agree : forall r e, In r unit_rows -> r_ecs2 r = Some e ->
  r_name r <> "EUR2000"%string -> r_name r <> "kg*a"%string -> e = r_ilcd r.
Proof.
  intros r e Hr He H1 H2. cbn [unit_rows In] in Hr.
  repeat (destruct Hr as [<- | Hr]; [cbn in *; first [congruence | injection He as <-; reflexivity]|]).
  destruct Hr.
Qed.
Print Assumptions C83_rows_that_agree.

(** mass times time comes back 365.25 times too small, and money 1.11 times *)
Theorem C83_mass_time_and_money_refuted : forall r e m u k y,
  In r unit_rows -> r_ecs2 r = Some e -> r_name r = "kg*a"%string \/ r_name r = "EUR2000"%string ->
  deqb (u_dim u) (r_dim r) = true -> intermediate_amount ilcd_units m u k = Ok y ->
  physical (qty m u) =
  (if String.eqb (r_name r) "kg*a" then 365.25 else 1.11) *
  physical (fst (back_amount (am_m y) 1 {| u_dim := r_dim r; u_scale := e |})).
Proof.
  intros r e m u k y Hr He Hn Hu Hy.
  destruct (intermediate_row r m u k Hr Hu) as (y' & Hy' & Ha & _ & _).
  rewrite Hy in Hy'. injection Hy' as <-. unfold physical, am_m. rewrite Ha. clear Hy Ha Hu.
  cbn [unit_rows In] in Hr.
  repeat (destruct Hr as [<- | Hr];
    [cbn in *; try (destruct Hn as [Hn|Hn]; discriminate Hn);
     injection He as <-; unfold year, day; field; lra|]).
  destruct Hr.
Qed.
Print Assumptions C83_mass_time_and_money_refuted.

(** amounts of substance, items times time and volume times length have no EcoSpold2 unit *)
Theorem C83_rows_without_unit_refuted : forall r, In r unit_rows ->
  (r_ecs2 r = None <-> r_name r = "Items*a" \/ r_name r = "mol" \/ r_name r = "m3*km")%string.
Proof.
  intros r Hr. cbn [unit_rows In] in Hr.
  repeat (destruct Hr as [<- | Hr]; [cbn; split; intros H; [|destruct H as [H|[H|H]]]; first [discriminate | reflexivity | auto]|]).
  destruct Hr.
Qed.
Print Assumptions C83_rows_without_unit_refuted.

Example C83_nonvacuous : exists y,
  intermediate_amount ilcd_units 5 {| u_dim := [0;0;1]%Z; u_scale := 1000 |} None = Ok y /\ am_m y = 5000.
Proof.
  unfold intermediate_amount. rewrite to_ilcd_unit_eq. eexists. split; [reflexivity|]. unfold am_m, ratio. cbn. field.
Qed.
