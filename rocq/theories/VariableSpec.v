(** Variables and formulas: what is promised. *)
From Coq Require Import Ascii String List Bool Arith NArith ZArith.
From Verif Require Import PyBase PyValues DotDictModel CommentSpec VariableModel.
Import ListNotations.

Definition letter (c : N) : Prop := ((65 <= c <= 90) \/ (97 <= c <= 122))%N.
(** A variable name as users choose them: it starts with a letter and uses none of the patterns the converter makes names of. *)
Definition own_name (s : pystr) : Prop :=
  (exists c t, s = c :: t /\ letter c) /\ ~ occurs (lit "__from") s /\ ~ occurs (lit "Eq_") s /\ ~ (exists t, s = t ++ lit "__uc").
(** names the converter takes for those of formulas without a variable *)
Definition equation_like (s : pystr) : Prop :=
  exists p a b d q, s = p ++ lit "Eq_" ++ a :: b :: ch "_" :: d :: q /\ (97 <= a <= 122)%N /\ (97 <= b <= 122)%N /\ (48 <= d <= 57)%N.
Definition given_names {V} (l : list (raw V)) : list pystr :=
  flat_map (fun x => match r_name x with Some t => [t] | None => [] end) l.
Definition kinds : list pystr := [lit "flow"; lit "property"; lit "parameter"; lit "production_volume"].
Definition well_named {V} (l : list (raw V)) : Prop :=
  Forall own_name (given_names l) /\ NoDup (given_names l) /\ Forall (fun x => In (r_type x) kinds) l.
(** One factor for each conversion, under a name that starts with two underscores. *)
Definition factors_agree {V} (W : world V) (l : list (raw V)) (k : pystr -> V) : Prop :=
  (forall x, In x l -> r_f x = k (r_conv x) /\ exists t, r_conv x = lit "__" ++ t) /\
  (forall a b c v, w_conv W a b = Ok (c, v) -> v = k c /\ exists t, c = lit "__" ++ t).
(** The variable of a name. *)
Definition has_value {V} (vars : list (variable V)) (name : pystr) (v : V) : Prop :=
  exists u, In u vars /\ v_name u = name /\ v_value u = v /\ forall u', In u' vars -> v_name u' = name -> u' = u.
Definition is_flow {V} (x : raw V) : Prop := r_type x = lit "flow".
(** the amount has another unit in the result *)
Definition changed {V} (W : world V) (x : raw V) : bool := negb (w_one W (r_f x)).

(** ** formulas *)
(** A call [UnitConversion(x, 'a', 'b')] as users write it. *)
Record conv_call := { c_arg : pystr; c_from : pystr; c_to : pystr }.
Definition call_args (c : conv_call) : pystr := c_arg c ++ lit ", '" ++ c_from c ++ lit "', '" ++ c_to c ++ lit "'".
Definition call_text (c : conv_call) : pystr := lit "UnitConversion(" ++ call_args c ++ lit ")".
(** texts and calls in turn *)
Fixpoint conv_formula (image : conv_call -> pystr) (l : list (pystr * conv_call)) (tail : pystr) : pystr :=
  match l with [] => tail | (p, c) :: l' => p ++ image c ++ conv_formula image l' tail end.
(** an argument without brackets, quotes and separators *)
Definition simple (s : pystr) : Prop :=
  ~ In (ch "(") s /\ ~ In (ch ")") s /\ ~ In (ch "'") s /\ ~ occurs (lit ", ") s /\ ~ occurs (lit "UnitConversion") s.
Definition simple_call (c : conv_call) : Prop := simple (c_arg c) /\ simple (c_from c) /\ simple (c_to c).
(** [name] is the variable of the factor between the units of the call *)
Definition call_factor {V} (W : world V) (c : conv_call) (name : pystr) (v : V) : Prop :=
  exists a b, w_unit W (c_from c) = Ok a /\ w_unit W (c_to c) = Ok b /\ w_conv W a b = Ok (name, v).
(** the argument in the result: numbers in the way Python writes them, anything else in brackets *)
Definition call_value {V} (W : world V) (c : conv_call) : pystr :=
  match w_float W (replace (lit "_") [] (replace (lit ",") (lit ".") (c_arg c))) with
  | Some t => t
  | None => lit "(" ++ c_arg c ++ lit ")"
  end.

(** A reference to another exchange: its amount or its production volume. *)
Record ref_call := { f_id : pystr; f_volume : bool }.
Definition ref_arg (c : ref_call) : pystr := f_id c ++ (if f_volume c then lit "', 'ProductionVolume" else []).
Definition ref_text (c : ref_call) : pystr := lit "Ref('" ++ ref_arg c ++ lit "')".
Fixpoint ref_formula (image : ref_call -> pystr) (l : list (pystr * ref_call)) (tail : pystr) : pystr :=
  match l with [] => tail | (p, c) :: l' => p ++ image c ++ ref_formula image l' tail end.
Definition plain_id (s : pystr) : Prop := ~ In (ch "'") s /\ ~ In (ch "(") s /\ ~ In (ch ")") s /\ ~ In 10%N s.
(** amounts are written as numbers *)
Definition shows_numbers {V} (show : V -> pystr) : Prop :=
  forall v, (exists c u, show v = c :: u /\ ~ In c (lit "Ref('")) /\ ~ In (ch "R") (show v).
(** what a reference stands for; a missing production volume is written as "None" *)
Definition ref_number {V} (show : V -> pystr) (excs : list (pystr * (V * option V))) (c : ref_call) (t : pystr) : Prop :=
  exists v pv, getf (f_id c) excs = Some (v, pv) /\
               t = if f_volume c then match pv with Some x => show x | None => lit "None" end else show v.

(** a formula without anything to correct *)
Definition plain_formula (t : pystr) : Prop :=
  ~ occurs (lit "UnitConversion") t /\ ~ occurs (lit "Ref('") t /\ ~ In (ch "%") t /\
  ~ exists a b p q, t = p ++ [a; ch ","; b] ++ q /\ (48 <= a <= 57)%N /\ (48 <= b <= 57)%N.
(** A reading of formulas: brackets, products and factors mean what they say. *)
Record reading {V} (mul : V -> V -> V) (reads : pystr -> V -> Prop) : Prop :=
  { rd_product : forall t n a b, reads t a -> reads n b -> reads (lit "(" ++ t ++ lit ")*" ++ n) (mul a b);
    rd_function : forall t a b, reads t a -> reads t b -> a = b }.
