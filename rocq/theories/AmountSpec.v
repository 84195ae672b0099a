(** What a user expects of amounts and uncertainties, independent of the model. *)
From Coq Require Import List ZArith Reals.
From Verif Require Import PyBase AmountModel.
Import ListNotations.
Local Open Scope R_scope.

(** value in base units and dimension *)
Definition physical (q : quantity) : R := magnitude q * u_scale (q_unit q).
Definition exponent (i : nat) (u : unit_) : Z := nth i (u_dim u) 0%Z.
Definition same_dim (u v : unit_) : Prop := forall i, exponent i u = exponent i v.
Definition same_physical (p q : quantity) : Prop := physical p = physical q /\ same_dim (q_unit p) (q_unit q).

(** units have a positive scale *)
Definition real_unit (u : unit_) : Prop := 0 < u_scale u.

(** [x] lies in the interval *)
Definition inside (b : bounds) (x : R) : Prop := b_min b <= x <= b_max b.
Definition real_table (t : list unit_) : Prop := Forall real_unit t.

(** a lognormal distribution with geometric mean [m] and log-variance [v]: two deviations around the mean *)
Definition within_lognormal (m v x : R) : Prop := Rabs (ln x - ln m) <= 2 * sqrt v.
Definition within_normal (m v x : R) : Prop := Rabs (x - m) <= 2 * sqrt v.

(** the effect of a sequence of operations on the physical value *)
Fixpoint physical_effect (ss : list step) (p : R) : R :=
  match ss with
  | [] => p
  | SMul o :: ss' => physical_effect ss' (p * physical (op_a o))
  | SDiv o :: ss' => physical_effect ss' (p / physical (op_a o))
  | SIlcd :: ss' => physical_effect ss' p
  end.
Fixpoint dim_effect (i : nat) (ss : list step) (d : Z) : Z :=
  match ss with
  | [] => d
  | SMul o :: ss' => dim_effect i ss' (d + exponent i (q_unit (op_a o)))%Z
  | SDiv o :: ss' => dim_effect i ss' (d - exponent i (q_unit (op_a o)))%Z
  | SIlcd :: ss' => dim_effect i ss' d
  end.
Definition real_step (s : step) : Prop :=
  match s with SMul o | SDiv o => real_unit (q_unit (op_a o)) | SIlcd => True end.

(** the 95 % interval of a distribution read from ILCD (around [m]) and of one written to EcoSpold2 *)
Definition read_interval (k : read_unc) (m : R) : R * R :=
  match k with
  | RLognormal s => (m / s, m * s)
  | RNormal s => (m - s, m + s)
  | RTriangular lo hi | RUniform lo hi => (lo, hi)
  end.
Definition written_interval (w : written_unc) : R * R :=
  match w with
  | WLognormal mean _ v => (mean / exp (2 * sqrt v), mean * exp (2 * sqrt v))
  | WNormal mean v => (mean - 2 * sqrt v, mean + 2 * sqrt v)
  | WTriangular lo _ hi | WUniform lo hi => (lo, hi)
  end.
Definition scaled (c : R) (i : R * R) : R * R := (c * fst i, c * snd i).
Definition scaled_bounds (c : R) (b b' : bounds) : Prop := b_min b' = c * b_min b /\ b_max b' = c * b_max b.
