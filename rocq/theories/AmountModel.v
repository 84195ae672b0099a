(** Amounts, units and uncertainties.
    ECS2_to_ILCD1_conversion.py 65-230, 385-525, 978-990, 1304-1321; ILCD1_to_ECS2_conversion.py 61-260, 393-400, 613-690.
    Floats are modelled by real numbers (no rounding, no infinities); pint quantities by a magnitude, a dimension and
    the scale of the unit (units with an offset, such as degrees Celsius, are not modelled). *)
From Coq Require Import Ascii String List Bool Arith NArith ZArith Reals.
From Verif Require Import PyBase PyValues.
Import ListNotations.
Local Open Scope R_scope.

(** ** pint *)
(** exponents of the base dimensions; missing ones are 0 *)
Definition dim := list Z.
Fixpoint dmap2 (f : Z -> Z -> Z) (a b : dim) : dim :=
  match a, b with
  | [], _ => map (f 0%Z) b
  | _, [] => map (fun x => f x 0%Z) a
  | x :: a', y :: b' => f x y :: dmap2 f a' b'
  end.
Fixpoint deqb (a b : dim) : bool :=
  match a, b with
  | [], _ => forallb (Z.eqb 0) b
  | _, [] => forallb (Z.eqb 0) a
  | x :: a', y :: b' => (Z.eqb x y && deqb a' b')%bool
  end.
Record unit_ := { u_dim : dim; u_scale : R }.
Record quantity := { magnitude : R; q_unit : unit_ }.
Definition qty (m : R) (u : unit_) : quantity := {| magnitude := m; q_unit := u |}.
Definition dimensionless : unit_ := {| u_dim := []; u_scale := 1 |}.

(** [q.to(u)]: DimensionalityError for another dimension *)
Definition to_unit (q : quantity) (u : unit_) : result quantity :=
  if deqb (u_dim (q_unit q)) (u_dim u)
  then Ok (qty (magnitude q * (u_scale (q_unit q) / u_scale u)) u)
  else Err OtherError.
Definition q_mul (p q : quantity) : quantity :=
  qty (magnitude p * magnitude q)
      {| u_dim := dmap2 Z.add (u_dim (q_unit p)) (u_dim (q_unit q)); u_scale := u_scale (q_unit p) * u_scale (q_unit q) |}.
Definition q_div (p q : quantity) : result quantity :=
  if Req_EM_T (magnitude q) 0 then Err ZeroDivisionError
  else Ok (qty (magnitude p / magnitude q)
      {| u_dim := dmap2 Z.sub (u_dim (q_unit p)) (u_dim (q_unit q)); u_scale := u_scale (q_unit p) / u_scale (q_unit q) |}).
(** [p + q]: the result has the unit of [p] *)
Definition q_add (p q : quantity) : result quantity :=
  bind (to_unit q (q_unit p)) (fun q' => Ok (qty (magnitude p + magnitude q') (q_unit p))).
(** [q.to_base_units()] *)
Definition base_unit (u : unit_) : unit_ := {| u_dim := u_dim u; u_scale := 1 |}.

(** ** ECS2_to_ILCD1_conversion.py 65-163: uncertainty *)
(** lines 104-121; the other kinds are kept as text only (96-98) *)
Inductive unc :=
| Lognormal (var : R)
| Normal (var : R)
| Triangular (lo hi : R)
| Uniform (lo hi : R)
| OtherKind.

(** what the exchange gets (165-182); the standard deviation only for the first two kinds *)
Record bounds := { b_min : R; b_max : R; b_std95 : option R }.

(** lines 145-163; [math.sqrt] of a negative number raises ValueError *)
Definition sqrt_ (x : R) : result R := if Rlt_dec x 0 then Err ValueError else Ok (sqrt x).
Definition calculate (k : unc) (m f : R) : result (option bounds) :=
  match k with
  | Lognormal var => bind (sqrt_ var) (fun s =>
      let std95 := exp s ^ 2 in Ok (Some {| b_min := m / std95; b_max := m * std95; b_std95 := Some std95 |}))
  | Normal var => bind (sqrt_ var) (fun s =>
      let std95 := 2 * s * f in Ok (Some {| b_min := m - std95; b_max := m + std95; b_std95 := Some std95 |}))
  | Triangular lo hi | Uniform lo hi => Ok (Some {| b_min := lo * f; b_max := hi * f; b_std95 := None |})
  | OtherKind => Ok None
  end.

(** lines 123-143: two independent distributions are combined by openturns; the parameters are then the sum of the variances.
    [math.log(abs(m))] needs a magnitude that is not 0, openturns needs positive deviations. *)
Inductive operation := Mult | Div | AddOp.
Definition combine (op : operation) (k1 : unc) (m1 : R) (k2 : unc) (m2 : R) : result unc :=
  match k1, k2 with
  | Lognormal v1, Lognormal v2 =>
      if Req_EM_T m1 0 then Err ValueError else if Req_EM_T m2 0 then Err ValueError else
      if Rle_dec v1 0 then Err OtherError else if Rle_dec v2 0 then Err OtherError else Ok (Lognormal (v1 + v2))
  | Normal v1, Normal v2 =>
      if Rle_dec v1 0 then Err OtherError else if Rle_dec v2 0 then Err OtherError else Ok (Normal (v1 + v2))
  | _, _ => Err OtherError
  end.

(** ** lines 195-230, 385-525: amounts *)
(** [orig]: the magnitude and unit of [self.o] *)
Record amount := { am_a : quantity; am_f : R; am_unc : option unc; am_orig : quantity }.
Definition set_a (x : amount) (q : quantity) (f : R) (u : option unc) : amount :=
  {| am_a := q; am_f := f; am_unc := u; am_orig := am_orig x |}.
Definition am_m (x : amount) : R := magnitude (am_a x).
(** 199-206 *)
Definition new_amount (m : R) (u : unit_) (k : option unc) : amount :=
  {| am_a := qty m u; am_f := 1; am_unc := k; am_orig := qty m u |}.

(** an operand: another amount or a plain quantity *)
Inductive operand := AmountOp (x : amount) | QuantityOp (q : quantity).
Definition op_a (o : operand) : quantity := match o with AmountOp x => am_a x | QuantityOp q => q end.
(** lines 420-426, 432-438, 444-450: the uncertainty after an operation; both lognormal for products, both normal for sums *)
Definition same_kind (op : operation) (k1 k2 : unc) : bool :=
  match op, k1, k2 with
  | (Mult | Div), Lognormal _, Lognormal _ => true
  | AddOp, Normal _, Normal _ => true
  | _, _, _ => false
  end.
Definition unc_after (op : operation) (x : amount) (o : operand) : result (option unc) :=
  match o with
  | QuantityOp _ => Ok (am_unc x)
  | AmountOp y =>
      match am_unc x, am_unc y with
      | Some k1, Some k2 =>
          if same_kind op k1 k2
          then bind (combine op k1 (am_m x) k2 (am_m y)) (fun k => Ok (Some k))
          else Ok None
      | k, _ => Ok k
      end
  end.
(** 419-429, 431-441, 443-453 *)
Definition multiply (x : amount) (o : operand) : result amount :=
  bind (unc_after Mult x o) (fun k => Ok (set_a x (q_mul (am_a x) (op_a o)) (am_f x * magnitude (op_a o)) k)).
Definition divide (x : amount) (o : operand) : result amount :=
  bind (unc_after Div x o) (fun k =>
  bind (q_div (am_a x) (op_a o)) (fun q => Ok (set_a x q (am_f x / magnitude (op_a o)) k))).
Definition sum_ (x : amount) (o : operand) : result amount :=
  bind (unc_after AddOp x o) (fun k =>
  bind (q_add (am_a x) (op_a o)) (fun q => Ok (set_a x q (am_f x + magnitude (op_a o)) k))).
(** 455-459 *)
Definition calculate_unc (x : amount) : result (option bounds) :=
  match am_unc x with Some k => calculate k (am_m x) (am_f x) | None => Ok None end.
(** 224-226: the factor is not touched *)
Definition to_ (x : amount) (u : unit_) : result amount :=
  bind (to_unit (am_a x) u) (fun q => Ok (set_a x q (am_f x) (am_unc x))).
(** 512-524; [table]: units.py 138-157 with the dimension as key *)
Definition reference_unit (table : list unit_) (u : unit_) : unit_ :=
  match find (fun v => deqb (u_dim v) (u_dim u)) table with Some v => v | None => base_unit u end.
Definition to_ilcd_unit (table : list unit_) (x : amount) : result amount :=
  let u := reference_unit table (q_unit (am_a x)) in
  bind (to_unit (qty 1 (q_unit (am_a x))) u) (fun one =>
  bind (to_unit (am_a x) u) (fun q => Ok (set_a x q (am_f x * magnitude one) (am_unc x)))).

(** operations of a flow conversion, in any order *)
Inductive step := SMul (o : operand) | SDiv (o : operand) | SIlcd.
Definition do_step (table : list unit_) (s : step) (x : amount) : result amount :=
  match s with SMul o => multiply x o | SDiv o => divide x o | SIlcd => to_ilcd_unit table x end.
Fixpoint do_steps (table : list unit_) (ss : list step) (x : amount) : result amount :=
  match ss with [] => Ok x | s :: ss' => bind (do_step table s x) (do_steps table ss') end.

(** ** flows *)
(** 978-990: an intermediate flow *)
Definition intermediate_amount (table : list unit_) (m : R) (u : unit_) (k : option unc) : result amount :=
  to_ilcd_unit table (new_amount m u k).
(** 1314-1321: an elementary flow; the amount is multiplied by the factor of the mapping file and has the unit of the target *)
Definition elementary_amount (table : list unit_) (m cf : R) (target : unit_) (k : option unc) : result amount :=
  to_ilcd_unit table (new_amount (m * cf) target k).

(** ** ILCD1_to_ECS2_conversion.py 61-173 *)
(** what is read from an ILCD exchange: 94-111 *)
Inductive read_unc :=
| RLognormal (std95 : R)
| RNormal (std95 : R)
| RTriangular (lo hi : R)
| RUniform (lo hi : R).
(** what is written: 131-165 (the basic variance, when it was noted, replaces [variance] only) *)
Inductive written_unc :=
| WLognormal (mean mu var : R)
| WNormal (mean var : R)
| WTriangular (lo mode hi : R)
| WUniform (lo hi : R).
(** [math.log] of a number that is not positive raises ValueError *)
Definition log_ (x : R) : result R := if Rle_dec x 0 then Err ValueError else Ok (ln x).
Definition calculate_back (k : read_unc) (m f : R) : result written_unc :=
  match k with
  | RLognormal std95 => bind (sqrt_ std95) (fun s => bind (log_ s) (fun l =>
      Ok (WLognormal m (if Rlt_dec 0 m then ln m else 0) (l ^ 2))))
  | RNormal std95 => Ok (WNormal m ((std95 * f / 2) ^ 2))
  | RTriangular lo hi => Ok (WTriangular (lo * f) m (hi * f))
  | RUniform lo hi => Ok (WUniform (lo * f) (hi * f))
  end.
(** 399 with 198-199 (a dimensionless quantity) and 643-646: an elementary flow; 687-688: an intermediate flow, with cf = 1.
    [multiply] (254-256) does not touch the uncertainty. *)
Definition back_amount (m cf : R) (target : unit_) : quantity * R :=
  (q_mul (qty m dimensionless) (qty cf target), 1 * cf).
(** what an ILCD reader finds for an exchange written by [calculate]: 94-111 *)
Definition reread (k : unc) (b : bounds) : option read_unc :=
  match k, b_std95 b with
  | Lognormal _, Some s => Some (RLognormal s)
  | Normal _, Some s => Some (RNormal s)
  | Triangular _ _, _ => Some (RTriangular (b_min b) (b_max b))
  | Uniform _ _, _ => Some (RUniform (b_min b) (b_max b))
  | _, _ => None
  end.

(** ** units.py 138-157, 162-178, 392-415: reference units of both formats *)
(** dimension: items, length, mass, time, substance, currency; scales in item, m, kg, s, mol, EUR2005
    (pint: a year is 365.25 days). The keys of [pint_to_ilcd_def] are name-based identifiers of the dimensions;
    [r_ecs2] is the unit found for the flow property of the dimension, if there is one. *)
Record unit_row := { r_name : string; r_dim : dim; r_ilcd : R; r_ecs2 : option R }.
Definition day : R := 86400.
Definition year : R := 365.25 * day.
Definition unit_rows : list unit_row :=
  [ {| r_name := "Items*a"; r_dim := [1;0;0;1]%Z; r_ilcd := year; r_ecs2 := None |}
  ; {| r_name := "Item(s)"; r_dim := [1]%Z; r_ilcd := 1; r_ecs2 := Some 1 |}
  ; {| r_name := "MJ"; r_dim := [0;2;1;-2]%Z; r_ilcd := 1000000; r_ecs2 := Some 1000000 |}
  ; {| r_name := "m3"; r_dim := [0;3]%Z; r_ilcd := 1; r_ecs2 := Some 1 |}
  ; {| r_name := "t*km"; r_dim := [0;1;1]%Z; r_ilcd := 1000 * 1000; r_ecs2 := Some (1000 * 1000) |}
  ; {| r_name := "m"; r_dim := [0;1]%Z; r_ilcd := 1; r_ecs2 := Some 1 |}
  ; {| r_name := "Items*km"; r_dim := [1;1]%Z; r_ilcd := 1000; r_ecs2 := Some 1000 |}
  ; {| r_name := "kBq"; r_dim := [0;0;0;-1]%Z; r_ilcd := 1000; r_ecs2 := Some 1000 |}
  ; {| r_name := "m2"; r_dim := [0;2]%Z; r_ilcd := 1; r_ecs2 := Some 1 |}
  ; {| r_name := "m2*a"; r_dim := [0;2;0;1]%Z; r_ilcd := year; r_ecs2 := Some year |}
  ; {| r_name := "m3*a"; r_dim := [0;3;0;1]%Z; r_ilcd := year; r_ecs2 := Some year |}
  ; {| r_name := "kg"; r_dim := [0;0;1]%Z; r_ilcd := 1; r_ecs2 := Some 1 |}
  ; {| r_name := "d"; r_dim := [0;0;0;1]%Z; r_ilcd := day; r_ecs2 := Some day |}
  ; {| r_name := "m*a"; r_dim := [0;1;0;1]%Z; r_ilcd := year; r_ecs2 := Some year |}
  ; {| r_name := "mol"; r_dim := [0;0;0;0;1]%Z; r_ilcd := 1; r_ecs2 := None |}
  ; {| r_name := "m3*km"; r_dim := [0;4]%Z; r_ilcd := 1000; r_ecs2 := None |}
  ; {| r_name := "EUR2000"; r_dim := [0;0;0;0;0;1]%Z; r_ilcd := 1.11; r_ecs2 := Some 1 |}
  ; {| r_name := "kg*a"; r_dim := [0;0;1;1]%Z; r_ilcd := year; r_ecs2 := Some day |} ].
Definition row_unit (r : unit_row) : unit_ := {| u_dim := r_dim r; u_scale := r_ilcd r |}.
Definition ilcd_units : list unit_ := map row_unit unit_rows.
