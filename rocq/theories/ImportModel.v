(** ILCD to EcoSpold2: variables and parameters (ILCD1_to_ECS2_conversion.py 263-367, 410-412, 742-747,
    1057-1059, 1495). *)
From Coq Require Import Ascii String List Bool Arith NArith ZArith.
From Verif Require Import PyBase DotDictModel.
Import ListNotations.

Section Import.
  (** the values of variables: kept as they are, except for their uncertainty *)
  Context (V : Type).

  (** a variableParameter of the ILCD process *)
  Record ilcd_var := IlcdVar { x_name : pystr; x_value : V; x_formula : option pystr }.
  (** a [ILCD1ToECS2VariableConversion]: [iv_src] is [__x] *)
  Record ivar := IVar { iv_src : ilcd_var; iv_name : pystr; iv_formula : option pystr }.

  (** [re.search(r'^[A-Za-z]{1}', name)] *)
  Definition ascii_letter (c : N) : bool := ((65 <=? c) && (c <=? 90) || (97 <=? c) && (c <=? 122))%N.
  Definition letter_first (s : pystr) : bool := match s with c :: _ => ascii_letter c | [] => false end.
  Definition ecs2_name (n : pystr) : pystr := if letter_first n then n else lit "uc" ++ n.

  (** [_available_variables] (name to "used" and variable) and [_non_conform_variables], as
      insertion-ordered dictionaries *)
  Record vstate := VState { avail : list (pystr * (bool * ivar)); nonconf : list (pystr * pystr) }.
  Definition no_vars : vstate := VState [] [].

  (** 278-304 [__init__]; an empty formula is no formula *)
  Definition make_var (x : ilcd_var) : ivar :=
    IVar x (ecs2_name (x_name x)) (match x_formula x with Some [] => None | f => f end).
  Definition register (st : vstate) (x : ilcd_var) : vstate :=
    VState (putf (x_name x) (false, make_var x) (avail st))
           (if letter_first (x_name x) then nonconf st
            else putf (x_name x) (lit "uc" ++ x_name x) (nonconf st)).

  (** 310-316 [change_formula]; [factor] is text. An absent or empty formula is left alone. *)
  Definition fix_names (nc : list (pystr * pystr)) (f : pystr) : pystr :=
    fold_left (fun f nc => if infixb (fst nc) f then replace (fst nc) (snd nc) f else f) nc f.
  Definition one_text := lit "1.0".
  Definition change_formula (st : vstate) (factor : pystr) (v : ivar) : ivar :=
    match iv_formula v with
    | None | Some [] => v
    | Some f =>
        let f' := fix_names (nonconf st) f in
        IVar (iv_src v) (iv_name v)
             (Some (if str_eqb factor one_text then f' else lit "(" ++ f' ++ lit ")*" ++ factor))
    end.

  (** 347-363 [get_variable]: the new state and the variable the exchange refers to. The copy made for a
      factor registers itself under the old name; the entry "_original" refers to the same object, whose
      later changes are not followed there (it is never read again unless a variable has that name). *)
  Definition get_variable (st : vstate) (name factor : pystr) : result (vstate * ivar) :=
    match getf name (avail st) with
    | None => Err KeyError
    | Some (_, self) =>
        let self' := change_formula st one_text self in
        let st1 := VState (putf name (true, self') (avail st)) (nonconf st) in
        if str_eqb factor one_text then Ok (st1, self')
        else
          let st2 := register st1 (iv_src self) in
          let n_self := IVar (iv_src self) (ecs2_name (x_name (iv_src self))) (Some name) in
          let n_self' := change_formula st2 factor n_self in
          let a2 := putf (x_name (iv_src self)) (false, n_self') (avail st2) in
          match getf name a2 with
          | None => Err KeyError
          | Some (_, r) =>
              Ok (VState (putf (name ++ lit "_original") (true, n_self') (putf name (false, r) a2)) (nonconf st2), r)
          end
    end.
  (** 366-367 [reset_variable] *)
  Definition reset_variable (st : vstate) (name : pystr) : result vstate :=
    match getf name (avail st) with
    | None => Err KeyError
    | Some (_, v) => Ok (VState (putf name (false, v) (avail st)) (nonconf st))
    end.

  (** An exchange: the variable it refers to and its factor (410-412), and what becomes of it: it is
      converted, it is left out because its flow or unit has no counterpart (1057-1059), or its flow data
      set is not found (1061-1062, where the variable is not given back). The name and formula written for
      it (742-747). *)
  Inductive fate := Converted | Unmapped | FileMissing.
  Record iexchange := IExchange { e_var : option (pystr * pystr); e_fate : fate }.
  Definition written := option (pystr * option pystr).
  Definition import_exchange (st : vstate) (e : iexchange) : result (vstate * written) :=
    match e_var e with
    | None => Ok (st, None)
    | Some (n, f) =>
        bind (get_variable st n f) (fun '(st', v) =>
        match e_fate e with
        | Converted => Ok (st', Some (iv_name v, match iv_formula v with Some [] => None | g => g end))
        | Unmapped => bind (reset_variable st' (x_name (iv_src v))) (fun st'' => Ok (st'', None))
        | FileMissing => Ok (st', None)
        end)
    end.
  Fixpoint import_exchanges (st : vstate) (l : list iexchange) : result (vstate * list written) :=
    match l with
    | [] => Ok (st, [])
    | e :: l' => bind (import_exchange st e) (fun '(st', w) =>
                 bind (import_exchanges st' l') (fun '(st'', ws) => Ok (st'', w :: ws)))
    end.

  (** 319-344 [create_parameters]: name, variable name, value and formula of the parameters *)
  Record parameter := Param { p_name : pystr; p_variable : pystr; p_value : V; p_formula : option pystr }.
  Definition create_parameters (st : vstate) : list parameter :=
    map (fun kv => let '(k, (_, v)) := kv in
           let v' := change_formula st one_text v in
           Param k (iv_name v) (x_value (iv_src v)) (match iv_formula v' with Some [] => None | g => g end))
        (filter (fun kv => negb (fst (snd kv))) (avail st)).

  (** A process: its variables, then its exchanges, then what is left over (1495). *)
  Definition import_process (vars : list ilcd_var) (l : list iexchange) : result (list written * list parameter) :=
    bind (import_exchanges (fold_left register vars no_vars) l) (fun '(st, ws) => Ok (ws, create_parameters st)).
End Import.
Arguments IlcdVar {V}. Arguments IVar {V}. Arguments VState {V}. Arguments no_vars {V}. Arguments avail {V}. Arguments nonconf {V}.
Arguments x_name {V}. Arguments x_value {V}. Arguments x_formula {V}. Arguments iv_src {V}. Arguments iv_name {V}. Arguments iv_formula {V}.
Arguments register {V}. Arguments make_var {V}. Arguments change_formula {V}. Arguments get_variable {V}. Arguments reset_variable {V}.
Arguments import_exchange {V}. Arguments import_exchanges {V}. Arguments create_parameters {V}. Arguments import_process {V}.
Arguments Param {V}. Arguments p_name {V}. Arguments p_variable {V}. Arguments p_value {V}. Arguments p_formula {V}.
