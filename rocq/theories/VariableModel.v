(** Variables and formulas of the ECS2 to ILCD conversion.
    ECS2_to_ILCD1_conversion.py 232-370, 385-413, 461-505, 567-577, 1925-1938, 2061-2086.
    Comments and uncertainties of the variables are left out, names and formulas are plain texts, values are of any type [V]. *)
From Coq Require Import Ascii String List Bool Arith NArith ZArith.
From Verif Require Import PyBase PyValues DotDictModel.
Import ListNotations.

(** what is taken from pint and from Python's floats:
    [w_unit]: unit_name_correction (526-560), ValueError for an unknown unit;
    [w_conv a b]: [from_single_init(1, a).to(b)]: its get_conversion_str and its magnitude;
    [w_float]: [str(float(x))], [None] when [float] raises ValueError;
    [w_show]: [str] of an amount; [w_one]: comparison with 1 *)
Record world (V : Type) := { w_unit : pystr -> result pystr; w_conv : pystr -> pystr -> result (pystr * V);
                             w_float : pystr -> option pystr; w_show : V -> pystr; w_one : V -> bool }.
Arguments w_unit {V}. Arguments w_conv {V}. Arguments w_float {V}. Arguments w_show {V}. Arguments w_one {V}.

(** ** formulas *)
Definition uc_word : pystr := lit "UnitConversion".
(** 248-265: the arguments of the calls; [n] and [m] are kept reversed *)
Record scan := { s_b : Z; s_i : bool; s_n : pystr; s_m : pystr; s_f : list pystr }.
Definition scan0 : scan := {| s_b := 0; s_i := false; s_n := []; s_m := []; s_f := [] |}.
Definition scan_step (s : scan) (l : N) : scan :=
  let n := l :: s_n s in
  let s1 :=
    if (N.eqb l (ch "(") && s_i s)%bool then {| s_b := s_b s + 1; s_i := s_i s; s_n := n; s_m := l :: s_m s; s_f := s_f s |}
    else if (N.eqb l (ch ")") && s_i s)%bool then
      let m := l :: s_m s in
      if Z.eqb (s_b s - 1) 0
      then {| s_b := 0; s_i := false; s_n := n; s_m := []; s_f := s_f s ++ [removelast (tl (rev m))] |}
      else {| s_b := s_b s - 1; s_i := s_i s; s_n := n; s_m := m; s_f := s_f s |}
    else if s_i s then {| s_b := s_b s; s_i := s_i s; s_n := n; s_m := l :: s_m s; s_f := s_f s |}
    else {| s_b := s_b s; s_i := s_i s; s_n := n; s_m := s_m s; s_f := s_f s |} in
  if prefixb (rev uc_word) n then {| s_b := s_b s1; s_i := true; s_n := s_n s1; s_m := s_m s1; s_f := s_f s1 |} else s1.
Definition calls (x : pystr) : list pystr := s_f (fold_left scan_step x scan0).

(** a written variable *)
Record variable (V : Type) := { v_name : pystr; v_formula : option pystr; v_value : V }.
Arguments v_name {V}. Arguments v_formula {V}. Arguments v_value {V}. Arguments Build_variable {V}.
(** [_all_variable_names] and the variables written so far *)
Record vstate (V : Type) := { vs_names : list pystr; vs_vars : list (variable V) }.
Arguments vs_names {V}. Arguments vs_vars {V}. Arguments Build_vstate {V}.

(** 333-350 for a variable without a formula *)
Definition create_plain {V} (st : vstate V) (name : pystr) (v : V) : vstate V :=
  if str_in name (vs_names st) then st
  else {| vs_names := vs_names st ++ [name]; vs_vars := vs_vars st ++ [{| v_name := name; v_formula := None; v_value := v |}] |}.

(** 270-288: one call; the state and the formula *)
Definition correct_call {V} (W : world V) (elem : pystr) (sm : vstate V * pystr) : result (vstate V * pystr) :=
  match split (lit ", ") (replace (lit "'") [] elem) with
  | [] => Err IndexError
  | p0 :: ps =>
      bind (mapM (w_unit W) ps) (fun us =>
      match us with
      | a :: b :: _ =>
          bind (w_conv W a b) (fun cv =>
          let text := match w_float W (replace (lit "_") [] (replace (lit ",") (lit ".") p0)) with
                      | Some t => t
                      | None => lit "(" ++ p0 ++ lit ")"
                      end in
          Ok (create_plain (fst sm) (fst cv) (snd cv),
              replace (uc_word ++ lit "(" ++ elem ++ lit ")") (lit "(" ++ text ++ lit "*" ++ fst cv ++ lit ")") (snd sm)))
      | _ => Err IndexError
      end)
  end.
Fixpoint correct_calls {V} (W : world V) (es : list pystr) (sm : vstate V * pystr) : result (vstate V * pystr) :=
  match es with [] => Ok sm | e :: es' => bind (correct_call W e sm) (correct_calls W es') end.
(** 246-291; the conversion variable is always written, since [_cv] is always true (line 364 passes [convert_unit] as [com]) *)
Definition correct_unit_conversion {V} (W : world V) (st : vstate V) (math : pystr) : result (vstate V * pystr) :=
  if infixb uc_word math then correct_calls W (calls math) (st, math) else Ok (st, math).

(** 296: [re.findall(r"Ref\('(.*?)'\)", math)] *)
Fixpoint cut_ref (s : pystr) : option (pystr * pystr) :=
  if prefixb (lit "')") s then Some ([], skipn 2 s)
  else match s with
       | [] => None
       | c :: s' => if N.eqb c 10 then None
                    else match cut_ref s' with Some (e, r) => Some (c :: e, r) | None => None end
       end.
Fixpoint find_refs (fuel : nat) (s : pystr) : list pystr :=
  match fuel, s with
  | O, _ | _, [] => []
  | S k, _ :: s' =>
      if prefixb (lit "Ref('") s
      then match cut_ref (skipn 5 s) with
           | Some (e, r) => e :: find_refs k r
           | None => find_refs k s'
           end
      else find_refs k s'
  end.
(** 297-306: [last] is the value of an earlier round, if there was one. The pattern made from [elem] is taken literally
    (identifiers and words have no special characters). *)
Definition ref_value {V} (show : V -> pystr) (excs : list (pystr * (V * option V))) (last : option pystr) (elem : pystr) : result pystr :=
  match split (lit "'") elem with
  | [] => Err IndexError
  | k :: ps =>
      match getf k excs with
      | None => Err KeyError
      | Some e =>
          match ps with
          | [] => Ok (show (fst e))
          | [_] => Err IndexError
          | _ :: w :: _ =>
              if str_eqb w (lit "ProductionVolume") then Ok (match snd e with Some v => show v | None => lit "None" end)
              else match last with Some v => Ok v | None => Err UnboundLocalError end
          end
      end
  end.
Fixpoint correct_refs {V} (show : V -> pystr) (excs : list (pystr * (V * option V))) (last : option pystr) (es : list pystr) (math : pystr)
  : result pystr :=
  match es with
  | [] => Ok math
  | e :: es' => bind (ref_value show excs last e) (fun v =>
                correct_refs show excs (Some v) es' (replace (lit "Ref('" ++ e ++ lit "')") v math))
  end.
Definition correct_ref {V} (show : V -> pystr) (excs : list (pystr * (V * option V))) (math : pystr) : result pystr :=
  correct_refs show excs None (find_refs (List.length math) math) math.

(** 311-320 *)
Definition is_digit (c : N) : bool := (48 <=? c)%N && (c <=? 57)%N.
Fixpoint digit_comma_digit (s : pystr) : bool :=
  match s with
  | a :: ((b :: c :: _) as s') => (is_digit a && N.eqb b (ch ",") && is_digit c) || digit_comma_digit s'
  | _ => false
  end.
Definition correct_other (math : pystr) : pystr :=
  let m1 := if infixb (lit "%") math then replace (lit "%") (lit "/ 100") math else math in
  if digit_comma_digit m1 then replace (lit ",") (lit ".") m1 else m1.

(** 322-331: an empty formula is as good as none *)
Definition math_text (o : option pystr) : option pystr :=
  match o with
  | Some t => match strip t with [] => None | t' => Some t' end
  | None => None
  end.
(** 333-350; nothing happens when the name is taken. The variable itself is assigned by the caller. *)
Definition create {V} (W : world V) (excs : list (pystr * (V * option V))) (st : vstate V) (name : pystr) (math : option pystr) (v : V)
  : result (vstate V) :=
  if str_in name (vs_names st) then Ok st
  else
    let st1 := {| vs_names := vs_names st ++ [name]; vs_vars := vs_vars st |} in
    match math with
    | None => Ok {| vs_names := vs_names st1; vs_vars := vs_vars st1 ++ [{| v_name := name; v_formula := None; v_value := v |}] |}
    | Some t =>
        bind (correct_unit_conversion W st1 t) (fun sm =>
        bind (correct_ref (w_show W) excs (snd sm)) (fun m =>
        Ok {| vs_names := vs_names (fst sm);
              vs_vars := vs_vars (fst sm) ++ [{| v_name := name; v_formula := Some (correct_other m); v_value := v |}] |}))
    end.

(** ** amounts *)
(** 385-413: [r_conv] is get_conversion_str (576-577), "__a_to_b__"; [r_o] the original magnitude, [r_m] the final one, [r_f] the factor *)
Record raw (V : Type) := { r_name : option pystr; r_math : option pystr; r_type : pystr; r_o : V; r_m : V; r_f : V; r_conv : pystr }.
Arguments r_name {V}. Arguments r_math {V}. Arguments r_type {V}. Arguments r_o {V}. Arguments r_m {V}. Arguments r_f {V}. Arguments r_conv {V}.
(** the variable of an amount: name and formula *)
Definition truthy (o : option pystr) : bool := match o with Some (_ :: _) => true | _ => false end.
Definition eq_name (kind : pystr) (n : nat) : pystr := lit "Eq_" ++ kind ++ lit "_" ++ str_of_N (N.of_nat n).
Definition var_of {V} (n : nat) (x : raw V) : option (pystr * option pystr) :=
  if truthy (r_name x) || truthy (r_math x)
  then Some (match r_name x with Some t => t | None => eq_name (firstn 2 (r_type x)) n end, math_text (r_math x))
  else None.
(** the amounts with their variables and the counter after them *)
Fixpoint number_vars {V} (n : nat) (l : list (raw V)) : list (raw V * option (pystr * option pystr)) * nat :=
  match l with
  | [] => ([], n)
  | x :: l' => let v := var_of n x in
               let (r, n') := number_vars (match v with Some _ => S n | None => n end) l' in ((x, v) :: r, n')
  end.

(** 468: [re.search(r'Eq_[a-z]{2}_[0-9]+', name)] *)
Definition is_lower (c : N) : bool := (97 <=? c)%N && (c <=? 122)%N.
Fixpoint equation_only (s : pystr) : bool :=
  (prefixb (lit "Eq_") s &&
   match skipn 3 s with
   | a :: b :: u :: d :: _ => is_lower a && is_lower b && N.eqb u (ch "_") && is_digit d
   | _ => false
   end) || match s with [] => false | _ :: s' => equation_only s' end.
(** 353-364 *)
Definition converted_name (conv name : pystr) : pystr :=
  let t := name ++ lit "__from_" ++ skipn 2 conv in
  if Nat.leb (List.length t) 50 then t else hd [] (split (lit "__from") t) ++ lit "__uc".
Definition converted_math (conv : pystr) (math : option pystr) : option pystr :=
  match math with
  | Some t => math_text (Some (lit "(" ++ t ++ lit ")*" ++ conv))
  | None => None
  end.
(** 461-505: the new state, the counter and the name of the variable of the amount *)
Definition construct {V} (W : world V) (excs : list (pystr * (V * option V))) (st : vstate V) (n : nat)
  (x : raw V) (v : option (pystr * option pystr)) : result (vstate V * nat * option pystr) :=
  if (negb (w_one W (r_f x)) && str_eqb (r_type x) (lit "flow"))%bool then
    bind (match v with
          | Some (name, math) => if equation_only name then Ok st else create W excs st name math (r_o x)
          | None => Ok st
          end) (fun st1 =>
    let c := match v with
             | Some (name, math) => (converted_name (r_conv x) name, converted_math (r_conv x) math)
             | None => (eq_name (lit "uv") n, math_text (Some (w_show W (r_o x) ++ lit "*" ++ r_conv x)))
             end in
    bind (create W excs st1 (fst c) (snd c) (r_m x)) (fun st2 =>
    Ok (create_plain st2 (r_conv x) (r_f x), S n, Some (fst c))))
  else
    match v with
    | Some (name, math) => bind (create W excs st name math (r_o x)) (fun st1 => Ok (st1, n, Some name))
    | None => Ok (st, n, None)
    end.
Fixpoint constructs {V} (W : world V) (excs : list (pystr * (V * option V))) (st : vstate V) (n : nat)
  (l : list (raw V * option (pystr * option pystr))) : result (vstate V * list (raw V * option pystr)) :=
  match l with
  | [] => Ok (st, [])
  | (x, v) :: l' =>
      bind (construct W excs st n x v) (fun r =>
      match r with (st1, n1, name) =>
        bind (constructs W excs st1 n1 l') (fun q => Ok (fst q, (x, name) :: snd q))
      end)
  end.
(** 2061-2064, 2078-2084: the variables of a document and, for each amount, the variable its exchange refers to *)
Definition document {V} (W : world V) (excs : list (pystr * (V * option V))) (l : list (raw V)) : result (list (variable V) * list (raw V * option pystr)) :=
  let (ls, n) := number_vars 1 l in
  bind (constructs W excs {| vs_names := []; vs_vars := [] |} n ls) (fun q => Ok (vs_vars (fst q), snd q)).
