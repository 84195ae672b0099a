From Coq Require Import List Bool ZArith Reals Lra Lia.
From Verif Require Import PyBase AmountModel AmountSpec.
Import ListNotations.
Local Open Scope R_scope.

(** ** dimensions *)
Lemma nth_map0 : forall (f : Z -> Z) l i, f 0%Z = 0%Z -> nth i (map f l) 0%Z = f (nth i l 0%Z).
Proof. intros f l i H. rewrite <- H at 1. apply map_nth. Qed.

Lemma nth_dmap2 : forall f a b i, f 0%Z 0%Z = 0%Z ->
  nth i (dmap2 f a b) 0%Z = f (nth i a 0%Z) (nth i b 0%Z).
Proof.
  intros f a. induction a as [|x a IH]; intros b i H.
  - cbn [dmap2]. rewrite nth_map0 by exact H. destruct i; reflexivity.
  - destruct b as [|y b].
    + cbn [dmap2]. rewrite (nth_map0 (fun z => f z 0%Z)) by exact H. destruct i; reflexivity.
    + destruct i; [reflexivity | cbn [dmap2 nth]; apply IH, H].
Qed.

Lemma forallb_zero : forall l, forallb (Z.eqb 0) l = true <-> forall i, nth i l 0%Z = 0%Z.
Proof.
  induction l as [|x l IH]; split.
  - intros _ [|i]; reflexivity.
  - reflexivity.
  - cbn [forallb]. intros H. apply andb_prop in H. destruct H as [H1 H2].
    apply Z.eqb_eq in H1. intros [|i]; [cbn; lia | apply IH, H2].
  - intros H. cbn [forallb]. apply andb_true_intro. split.
    + apply Z.eqb_eq. symmetry. exact (H 0%nat).
    + apply IH. intros i. exact (H (S i)).
Qed.

Lemma deqb_spec : forall a b, deqb a b = true <-> forall i, nth i a 0%Z = nth i b 0%Z.
Proof.
  induction a as [|x a IH]; intros b.
  - cbn [deqb]. rewrite forallb_zero. split; intros H i; specialize (H i); destruct i; cbn in *; lia.
  - destruct b as [|y b].
    + change (deqb (x :: a) []) with (forallb (Z.eqb 0) (x :: a)).
      rewrite forallb_zero. split; intros H i; specialize (H i); destruct i; cbn in *; lia.
    + cbn [deqb]. rewrite andb_true_iff, Z.eqb_eq, IH. split.
      * intros [H1 H2] [|i]; [exact H1 | exact (H2 i)].
      * intros H. split; [exact (H 0%nat) | intros i; exact (H (S i))].
Qed.

Lemma deqb_refl : forall a, deqb a a = true.
Proof. intros a. apply deqb_spec. reflexivity. Qed.

(** ** quantities *)
Lemma to_unit_ok : forall q u q', real_unit u -> to_unit q u = Ok q' -> same_physical q' q /\ q_unit q' = u.
Proof.
  intros q u q' Hu H. unfold to_unit in H. destruct (deqb _ _) eqn:E; [|discriminate].
  injection H as <-. split; [split|reflexivity].
  - unfold physical, qty. cbn. unfold real_unit in Hu. field. lra.
  - intros i. unfold exponent. cbn. symmetry. revert i. apply deqb_spec, E.
Qed.

Lemma reference_unit_dim : forall t u, deqb (u_dim u) (u_dim (reference_unit t u)) = true.
Proof.
  intros t u. unfold reference_unit. destruct (find _ t) as [v|] eqn:E.
  - apply find_some in E. destruct E as [_ E]. apply deqb_spec. intros i. symmetry. revert i. apply deqb_spec, E.
  - apply deqb_refl.
Qed.

Lemma reference_unit_real : forall t u, real_table t -> real_unit (reference_unit t u).
Proof.
  intros t u H. unfold reference_unit. destruct (find _ t) as [v|] eqn:E.
  - apply find_some in E. unfold real_table in H. rewrite Forall_forall in H. apply H, (proj1 E).
  - unfold real_unit. cbn. lra.
Qed.

Definition ratio (t : list unit_) (u : unit_) : R := u_scale u / u_scale (reference_unit t u).

Lemma to_ilcd_unit_eq : forall t x,
  to_ilcd_unit t x =
  Ok (set_a x (qty (am_m x * ratio t (q_unit (am_a x))) (reference_unit t (q_unit (am_a x))))
              (am_f x * ratio t (q_unit (am_a x))) (am_unc x)).
Proof.
  intros t x. unfold to_ilcd_unit, to_unit. cbn [q_unit qty].
  rewrite reference_unit_dim. cbn [bind magnitude qty]. unfold ratio, am_m. rewrite Rmult_1_l. reflexivity.
Qed.

Lemma ratio_pos : forall t u, real_table t -> real_unit u -> 0 < ratio t u.
Proof.
  intros t u Ht Hu. unfold ratio. apply Rdiv_lt_0_compat; [exact Hu | apply reference_unit_real, Ht].
Qed.

(** ** steps *)
Lemma bind_inv : forall A B (r : result A) (f : A -> result B) y, bind r f = Ok y -> exists x, r = Ok x /\ f x = Ok y.
Proof. intros A B [x|e] f y H; [exists x; split; [reflexivity | exact H] | discriminate]. Qed.

Lemma do_step_ok : forall t s x y, real_table t -> real_step s -> real_unit (q_unit (am_a x)) ->
  do_step t s x = Ok y ->
  am_orig y = am_orig x /\ real_unit (q_unit (am_a y)) /\
  (forall m0, am_m x = am_f x * m0 -> am_m y = am_f y * m0) /\
  physical (am_a y) = physical_effect [s] (physical (am_a x)) /\
  forall i, exponent i (q_unit (am_a y)) = dim_effect i [s] (exponent i (q_unit (am_a x))).
Proof.
  intros t s x y Ht Hs Hx H. destruct s as [o|o|]; cbn [do_step real_step] in *.
  - unfold multiply in H. apply bind_inv in H. destruct H as (k & _ & H). injection H as <-.
    split; [reflexivity|]. split; [unfold real_unit in *; cbn; apply Rmult_lt_0_compat; assumption|].
    split; [|split].
    + intros m0 E. unfold am_m in *. cbn. rewrite E. ring.
    + cbn. unfold physical. cbn. ring.
    + intros i. unfold exponent. cbn. apply nth_dmap2. reflexivity.
  - unfold divide in H. apply bind_inv in H. destruct H as (k & _ & H).
    apply bind_inv in H. destruct H as (q & Hq & H). injection H as <-.
    unfold q_div in Hq. destruct (Req_EM_T _ 0) as [_|N]; [discriminate|]. injection Hq as <-.
    split; [reflexivity|]. split; [unfold real_unit in *; cbn; apply Rdiv_lt_0_compat; assumption|].
    split; [|split].
    + intros m0 E. unfold am_m in *. cbn. rewrite E. field. exact N.
    + cbn. unfold physical. cbn. unfold real_unit in Hs. field. split; [lra | exact N].
    + intros i. unfold exponent. cbn. apply nth_dmap2. reflexivity.
  - rewrite to_ilcd_unit_eq in H. injection H as <-.
    split; [reflexivity|]. split; [cbn; apply reference_unit_real, Ht|].
    split; [|split].
    + intros m0 E. unfold am_m in *. cbn. rewrite E. ring.
    + cbn. unfold physical, am_m, ratio. cbn. pose proof (reference_unit_real t (q_unit (am_a x)) Ht) as Hr.
      unfold real_unit in Hr. field. lra.
    + intros i. unfold exponent. cbn. symmetry. revert i. apply deqb_spec, reference_unit_dim.
Qed.

Lemma do_steps_ok : forall t ss x y, real_table t -> Forall real_step ss -> real_unit (q_unit (am_a x)) ->
  do_steps t ss x = Ok y ->
  am_orig y = am_orig x /\ real_unit (q_unit (am_a y)) /\
  (forall m0, am_m x = am_f x * m0 -> am_m y = am_f y * m0) /\
  physical (am_a y) = physical_effect ss (physical (am_a x)) /\
  forall i, exponent i (q_unit (am_a y)) = dim_effect i ss (exponent i (q_unit (am_a x))).
Proof.
  intros t ss. induction ss as [|s ss IH]; intros x y Ht Hs Hx H.
  - injection H as <-. repeat split; auto.
  - cbn [do_steps] in H. apply bind_inv in H. destruct H as (z & H1 & H2).
    inversion Hs as [|? ? Hs1 Hs2]; subst.
    destruct (do_step_ok _ _ _ _ Ht Hs1 Hx H1) as (A1 & A2 & A3 & A4 & A5).
    destruct (IH _ _ Ht Hs2 A2 H2) as (B1 & B2 & B3 & B4 & B5).
    split; [congruence|]. split; [exact B2|]. split; [auto|]. split.
    + rewrite B4, A4. destruct s; reflexivity.
    + intros i. rewrite B5, A5. destruct s; reflexivity.
Qed.

(** ** uncertainty *)
Lemma sqrt_inv : forall v s, sqrt_ v = Ok s -> 0 <= v /\ s = sqrt v.
Proof. intros v s. unfold sqrt_. destruct (Rlt_dec v 0); [discriminate|]. intros H. injection H as <-. split; [lra|reflexivity]. Qed.
Lemma sqrt_ok : forall v, 0 <= v -> sqrt_ v = Ok (sqrt v).
Proof. intros v H. unfold sqrt_. destruct (Rlt_dec v 0); [lra|reflexivity]. Qed.

Lemma exp_sq : forall s, exp s ^ 2 = exp (2 * s).
Proof. intros s. replace (2 * s) with (s + s) by ring. rewrite exp_plus. cbn. ring. Qed.
Lemma std_ge_1 : forall v, 1 <= exp (2 * sqrt v).
Proof.
  intros v. rewrite <- exp_0. pose proof (sqrt_pos v) as H. destruct H as [H|H].
  - left. apply exp_increasing. lra.
  - right. rewrite <- H. f_equal. ring.
Qed.

Lemma calculate_lognormal : forall v m f b, calculate (Lognormal v) m f = Ok (Some b) ->
  0 <= v /\ b = {| b_min := m / exp (2 * sqrt v); b_max := m * exp (2 * sqrt v); b_std95 := Some (exp (2 * sqrt v)) |}.
Proof.
  intros v m f b H. cbn [calculate] in H. apply bind_inv in H. destruct H as (s & Hs & H).
  apply sqrt_inv in Hs. destruct Hs as [Hv ->]. rewrite exp_sq in H. injection H as <-. split; [exact Hv | reflexivity].
Qed.
Lemma calculate_normal : forall v m f b, calculate (Normal v) m f = Ok (Some b) ->
  0 <= v /\ b = {| b_min := m - 2 * sqrt v * f; b_max := m + 2 * sqrt v * f; b_std95 := Some (2 * sqrt v * f) |}.
Proof.
  intros v m f b H. cbn [calculate] in H. apply bind_inv in H. destruct H as (s & Hs & H).
  apply sqrt_inv in Hs. destruct Hs as [Hv ->]. injection H as <-. split; [exact Hv | reflexivity].
Qed.

Lemma ln_le_iff : forall x y, 0 < x -> 0 < y -> (ln x <= ln y <-> x <= y).
Proof.
  intros x y Hx Hy. split; intros [H|H].
  - left. apply ln_lt_inv; assumption.
  - right. apply ln_inv; assumption.
  - left. apply ln_increasing; assumption.
  - right. rewrite H. reflexivity.
Qed.

Lemma Rabs_le_inv : forall x a, Rabs x <= a -> - a <= x <= a.
Proof. intros x a H. unfold Rabs in H. destruct (Rcase_abs x); lra. Qed.

Lemma lognormal_inside : forall v m f b x, calculate (Lognormal v) m f = Ok (Some b) -> 0 < m -> 0 < x ->
  (inside b x <-> within_lognormal m v x).
Proof.
  intros v m f b x H Hm Hx. apply calculate_lognormal in H. destruct H as [Hv ->].
  unfold inside, within_lognormal. cbn. set (e := exp (2 * sqrt v)).
  assert (He : 0 < e) by apply exp_pos. assert (L : ln e = 2 * sqrt v) by apply ln_exp.
  rewrite <- (ln_le_iff (m / e) x); [|apply Rdiv_lt_0_compat; assumption | assumption].
  rewrite <- (ln_le_iff x (m * e)); [|assumption | apply Rmult_lt_0_compat; assumption].
  unfold Rdiv. rewrite !ln_mult; [| assumption | assumption | assumption | apply Rinv_0_lt_compat; assumption].
  rewrite ln_Rinv by assumption. rewrite L.
  split.
  - intros [A B]. apply Rabs_le. lra.
  - intros A. assert (A' := Rabs_le_inv _ _ A). lra.
Qed.

Lemma normal_inside : forall v m f b x, calculate (Normal v) m f = Ok (Some b) -> 0 <= f ->
  (inside b x <-> within_normal m (f ^ 2 * v) x).
Proof.
  intros v m f b x H Hf. apply calculate_normal in H. destruct H as [Hv ->].
  unfold inside, within_normal. cbn.
  replace (f * (f * 1)) with (f * f) by ring.
  rewrite sqrt_mult; [|nra|exact Hv]. rewrite sqrt_square by exact Hf.
  split.
  - intros [A B]. apply Rabs_le. lra.
  - intros A. assert (A' := Rabs_le_inv _ _ A). lra.
Qed.

Lemma lognormal_encloses : forall v m f b, calculate (Lognormal v) m f = Ok (Some b) -> 0 <= m -> inside b m.
Proof.
  intros v m f b H Hm. apply calculate_lognormal in H. destruct H as [Hv ->]. unfold inside. cbn.
  pose proof (std_ge_1 v) as H1. set (e := exp (2 * sqrt v)) in *. split.
  - apply (Rmult_le_reg_r e); [lra|]. unfold Rdiv. rewrite Rmult_assoc, Rinv_l by lra. nra.
  - nra.
Qed.
Lemma normal_encloses : forall v m f b, calculate (Normal v) m f = Ok (Some b) -> 0 <= f -> inside b m.
Proof.
  intros v m f b H Hf. apply calculate_normal in H. destruct H as [Hv ->]. unfold inside. cbn.
  pose proof (sqrt_pos v). split; nra.
Qed.

Lemma lognormal_negative : forall v m f b, calculate (Lognormal v) m f = Ok (Some b) -> 0 < v -> m < 0 ->
  b_max b < m < b_min b.
Proof.
  intros v m f b H Hv Hm. apply calculate_lognormal in H. destruct H as [_ ->]. cbn.
  assert (H1 : 1 < exp (2 * sqrt v)).
  { rewrite <- exp_0 at 1. apply exp_increasing. pose proof (sqrt_lt_R0 v Hv). lra. }
  set (e := exp (2 * sqrt v)) in *. split.
  - nra.
  - apply (Rmult_lt_reg_r e); [lra|]. unfold Rdiv. rewrite Rmult_assoc, Rinv_l by lra. nra.
Qed.
Lemma normal_negative : forall v m f b, calculate (Normal v) m f = Ok (Some b) -> 0 < v -> f < 0 ->
  b_max b < m < b_min b.
Proof.
  intros v m f b H Hv Hf. apply calculate_normal in H. destruct H as [_ ->]. cbn.
  pose proof (sqrt_lt_R0 v Hv). split; nra.
Qed.

(** ** round trip *)
Lemma log_ok : forall x, 0 < x -> log_ x = Ok (ln x).
Proof. intros x H. unfold log_. destruct (Rle_dec x 0); [lra|reflexivity]. Qed.

Lemma sqrt_sqrt' : forall v, 0 <= v -> sqrt v ^ 2 = v.
Proof. intros v H. cbn. rewrite Rmult_1_r. apply sqrt_sqrt, H. Qed.

Lemma sqrt_exp2 : forall s, sqrt (exp (2 * s)) = exp s.
Proof.
  intros s. rewrite <- exp_sq. cbn. rewrite Rmult_1_r. apply sqrt_square. left. apply exp_pos.
Qed.

Lemma back_lognormal : forall v m f m' f' b r, calculate (Lognormal v) m f = Ok (Some b) ->
  reread (Lognormal v) b = Some r ->
  exists mu, calculate_back r m' f' = Ok (WLognormal m' mu v) /\ (0 < m' -> exp mu = m').
Proof.
  intros v m f m' f' b r H R. apply calculate_lognormal in H. destruct H as [Hv ->].
  injection R as <-. cbn [calculate_back].
  rewrite sqrt_ok by (left; apply exp_pos). cbn [bind]. rewrite sqrt_exp2, log_ok by apply exp_pos.
  cbn [bind]. rewrite ln_exp, sqrt_sqrt' by exact Hv.
  eexists. split; [reflexivity|]. intros Hm. destruct (Rlt_dec 0 m'); [apply exp_ln; exact Hm | lra].
Qed.
Lemma back_normal : forall v m f m' f' b r, calculate (Normal v) m f = Ok (Some b) ->
  reread (Normal v) b = Some r -> calculate_back r m' f' = Ok (WNormal m' (v * (f * f') ^ 2)).
Proof.
  intros v m f m' f' b r H R. apply calculate_normal in H. destruct H as [Hv ->].
  injection R as <-. cbn [calculate_back]. do 2 f_equal.
  rewrite <- (sqrt_sqrt' v Hv) at 2. field.
Qed.

(** ** scaling *)
Lemma sqrt_pow2' : forall x, 0 <= x -> sqrt (x * (x * 1)) = x.
Proof. intros x H. rewrite Rmult_1_r. apply sqrt_square, H. Qed.

Lemma back_scaled : forall r m c w,
  0 < c -> (match r with RLognormal s => 1 <= s | RNormal s => 0 <= s | _ => True end) ->
  calculate_back r (m * c) c = Ok w -> written_interval w = scaled c (read_interval r m).
Proof.
  intros r m c w Hc Hr H. destruct r as [s|s|lo hi|lo hi]; cbn [calculate_back] in H.
  - rewrite sqrt_ok in H by lra. cbn [bind] in H.
    rewrite log_ok in H by (apply sqrt_lt_R0; lra). injection H as <-.
    cbn [written_interval read_interval]. unfold scaled. cbn [fst snd].
    assert (Hl : 0 <= ln (sqrt s)).
    { rewrite <- ln_1. apply ln_le_iff; [lra | apply sqrt_lt_R0; lra |].
      rewrite <- sqrt_1. apply sqrt_le_1_alt, Hr. }
    rewrite (sqrt_pow2' _ Hl).
    assert (E : exp (2 * ln (sqrt s)) = s).
    { rewrite <- exp_sq, exp_ln by (apply sqrt_lt_R0; lra). apply sqrt_sqrt'. lra. }
    rewrite E. f_equal; field; lra.
  - injection H as <-. cbn [written_interval read_interval]. unfold scaled. cbn [fst snd].
    assert (Hs : 0 <= s * c / 2) by nra. rewrite (sqrt_pow2' _ Hs). f_equal; field.
  - injection H as <-. cbn. unfold scaled. cbn. f_equal; ring.
  - injection H as <-. cbn. unfold scaled. cbn. f_equal; ring.
Qed.

Definition interval (b : bounds) : R * R := (b_min b, b_max b).

Lemma calculate_scaled : forall k m c b b',
  calculate k m 1 = Ok (Some b) -> calculate k (c * m) c = Ok (Some b') -> scaled_bounds c b b'.
Proof.
  intros k m c b b' H H'. destruct k as [v|v|lo hi|lo hi|].
  - apply calculate_lognormal in H, H'. destruct H as [_ ->], H' as [_ ->]. split; cbn; [unfold Rdiv|]; ring.
  - apply calculate_normal in H, H'. destruct H as [_ ->], H' as [_ ->]. split; cbn; ring.
  - injection H as <-. injection H' as <-. split; cbn; ring.
  - injection H as <-. injection H' as <-. split; cbn; ring.
  - discriminate.
Qed.

(** ** the table of reference units *)
Lemma year_pos : 0 < year.
Proof. unfold year, day. lra. Qed.
Lemma unit_rows_real : forall r, In r unit_rows -> 0 < r_ilcd r.
Proof.
  pose proof year_pos. intros r Hr. cbn [unit_rows In] in Hr. unfold day in *.
  repeat (destruct Hr as [<- | Hr]; [cbn; unfold day; lra|]). destruct Hr.
Qed.
Lemma ilcd_units_real : real_table ilcd_units.
Proof.
  unfold real_table, ilcd_units. rewrite Forall_map. apply Forall_forall. intros r Hr. apply unit_rows_real, Hr.
Qed.

(** every row is found by its own dimension *)
Lemma row_found : forall r u, In r unit_rows -> deqb (u_dim u) (r_dim r) = true ->
  reference_unit ilcd_units u = row_unit r.
Proof.
  intros r u Hr Hu. unfold reference_unit.
  assert (E : forall v, deqb (u_dim v) (u_dim u) = deqb (u_dim v) (r_dim r)).
  { intros v. apply eq_true_iff_eq. rewrite !deqb_spec. rewrite deqb_spec in Hu. split; intros H i.
    - rewrite H. apply Hu.
    - rewrite H. symmetry. apply Hu. }
  assert (F : find (fun v => deqb (u_dim v) (u_dim u)) ilcd_units = find (fun v => deqb (u_dim v) (r_dim r)) ilcd_units).
  { induction ilcd_units as [|v l IH]; [reflexivity|]. cbn [find]. rewrite E, IH. reflexivity. }
  rewrite F. clear - Hr. cbn [unit_rows In] in Hr.
  repeat (destruct Hr as [<- | Hr]; [reflexivity|]). destruct Hr.
Qed.

Lemma intermediate_row : forall r m u k, In r unit_rows -> deqb (u_dim u) (r_dim r) = true ->
  exists y, intermediate_amount ilcd_units m u k = Ok y /\ am_a y = qty (m * (u_scale u / r_ilcd r)) (row_unit r)
            /\ am_f y = u_scale u / r_ilcd r /\ am_unc y = k.
Proof.
  intros r m u k Hr Hu. unfold intermediate_amount. rewrite to_ilcd_unit_eq.
  unfold ratio. change (q_unit (am_a (new_amount m u k))) with u. rewrite (row_found r u Hr Hu).
  eexists. split; [reflexivity|]. split; [reflexivity|]. split; [|reflexivity].
  cbn. ring.
Qed.
