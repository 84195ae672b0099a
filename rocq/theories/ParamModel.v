(** Parameters of an EcoSpold2 activity as variables of the ILCD process, and as parameters again (ECS2_to_ILCD1_conversion.py 322-350, 377-413, 461-505,
    561-565, 599-634; ILCD1_to_ECS2_conversion.py 263-345). *)
From Coq Require Import Ascii String List Bool Arith NArith ZArith.
From Verif Require Import PyBase PyValues ValidatorsModel MultiLangModel DotDictModel SchemaModel SchemaTables VariableModel ImportModel CommentModel ProseModel.
Import ListNotations.
Local Open Scope string_scope.
Local Open Scope list_scope.

Section Param.
  Context {V : Type} (E : env).

  (** a parameter of the activity without uncertainty; [q_unit] is its unit as the unit library writes it (561-563), empty for a parameter without unit *)
  Record eparam := EParam { q_id : pystr; q_names : list speech; q_variable : option pystr; q_formula : option pystr; q_value : V; q_unit : pystr; q_comments : list speech }.
  (** a variableParameter of the ILCD process: name, formula, value and the comment as written *)
  Record pvar := PVar { v_name : pystr; v_formula : option pystr; v_value : V; v_comment : list speech }.

  (** ** To ILCD *)
  (** 561-563 [__str_unit]: the unit as the library prints it, without blanks, slashes, stars and points *)
  Definition str_unit (u : pystr) : pystr :=
    replace (lit ".") (lit "_") (replace (lit "*") (lit "_times_") (replace (lit "**") [] (replace (lit "/") (lit "_per_") (replace (lit " ") [] u)))).
  (** ILCD1_structure.py: class of the name and of the comment of a variable *)
  Definition vname_class : vc := CLim (LMax 50) (Some sep_default).
  Definition vcomment_class : vc := CLang KMulti (Some Languages) (Range_ 1 500).
  (** 386-388, 396-399: the option, and a name or a formula, make a variable *)
  Definition becomes (on : bool) (p : eparam) : bool := on && (truthy (q_variable p) || truthy (q_formula p)).
  Definition given_name (k : nat) (p : eparam) : pystr := match q_variable p with Some v => v | None => eq_name (lit "pa") k end.
  (** the correction of a formula (C92): what the other parts of the data set make of it *)
  Context (fixed : pystr -> result pystr).
  Definition corrected (o : option pystr) : result (option pystr) :=
    match math_text o with None => Ok None | Some f => bind (fixed f) (fun g => Ok (Some g)) end.
  (** 497-498 the unit in brackets, before the comments of the parameter, which were numbered from [n] on (611-613) *)
  Definition remarks (n : Z) (p : eparam) : list pyval :=
    entry_at (-1) (english (lit "[" ++ str_unit (q_unit p) ++ lit "]")) :: numbered n (q_comments p).
  (** 332-350 [create] *)
  Definition create_var (n : Z) (k : nat) (p : eparam) : result pvar :=
    bind (text_out E vname_class [given_name k p]) (fun name =>
    bind (corrected (q_formula p)) (fun f =>
    bind (field_out E vcomment_class (remarks n p)) (fun c =>
    Ok (PVar (concat name) f (q_value p) (flat_map speech_of c))))).
  (** the parameters in their order, as the last to be made variables; [taken]: names of variables made before *)
  Fixpoint send (on : bool) (n : Z) (k : nat) (taken : list pystr) (ps : list eparam) : result (list pvar) :=
    match ps with
    | [] => Ok []
    | p :: ps' =>
        let n' := (n + Z.of_nat (length (q_comments p)))%Z in
        if negb (becomes on p) then send on n' k taken ps'
        else if str_in (given_name k p) taken then send on n' (S k) taken ps'
        else bind (create_var n k p) (fun v => bind (send on n' (S k) (given_name k p :: taken) ps') (fun vs => Ok (v :: vs)))
    end.

  (** ** To EcoSpold2 *)
  (** the end of a line *)
  Definition nl : pystr := [10%N].
  (** The search for an opening bracket, any text and a closing bracket (293-294), on one line: what is before the first opening bracket, between it and the last closing one, and behind *)
  Fixpoint last_close (s : pystr) : option (pystr * pystr) :=
    match s with
    | [] => None
    | c :: s' => match last_close s' with
                 | Some (b, a) => Some (c :: b, a)
                 | None => if N.eqb c 93 then Some ([], s') else None
                 end
    end.
  Fixpoint bracket (s : pystr) : option (pystr * pystr * pystr) :=
    match s with
    | [] => None
    | c :: s' => if N.eqb c 91 then match last_close s' with Some (b, a) => Some ([], b, a) | None => None end
                 else match bracket s' with Some (p, b, a) => Some (c :: p, b, a) | None => None end
    end.
  Fixpoint first_unit (ls : list pystr) : option pystr :=
    match ls with [] => None | l :: ls' => match bracket l with Some (_, b, _) => Some b | None => first_unit ls' end end.
  Definition unit_in (t : pystr) : option pystr := first_unit (split nl t).
  Definition unmark (l : pystr) : pystr := match bracket l with Some (p, _, a) => p ++ a | None => l end.
  Definition without_marks (t : pystr) : pystr := strip (join nl (map unmark (split nl t))).
  (** 293-300: the unit is the one of the last text with brackets; the texts are numbered from [n] on *)
  Fixpoint read_remarks (n : Z) (rows : list speech) : option pystr * list pyval :=
    match rows with
    | [] => (None, [])
    | s :: rows' =>
        let r := read_remarks (n + 1) rows' in
        match unit_in (snd s) with
        | Some u => (match fst r with Some x => Some x | None => Some u end, entry_at n (fst s, without_marks (snd s)) :: snd r)
        | None => (fst r, entry_at n s :: snd r)
        end
    end.
  (** ECS2_structure.py: classes of a parameter; [long]: the limit of comments (32000) *)
  Context (long : nat).
  Definition pname_class : vc := CLang KFirst None (Lim_ 80).
  Definition punit_class : vc := CLang KMulti None (Unique_ 40).
  (** the identifier made of a name *)
  Context (identify : pystr -> pystr).
  Record rparam := RParam { r_id : pystr; r_names : list speech; r_variable : list pystr; r_formula : option pystr; r_value : V; r_unit : list speech; r_comments : list speech }.
  (** 319-340: the parameter for one variable, [nc] being the names that do not begin with a letter (286-288) *)
  Definition make_param (nc : list (pystr * pystr)) (n : Z) (v : pvar) : result rparam :=
    let r := read_remarks n (v_comment v) in
    bind (spoken_out E pname_class [entry_at 0 (english (v_name v))]) (fun names =>
    bind (text_out E CVariableName [ecs2_name (v_name v)]) (fun var =>
    bind (match fst r with None => Ok [] | Some u => spoken_out E punit_class [entry_at 0 (english u)] end) (fun unit_ =>
    bind (match snd r with [] => Ok [] | l => spoken_out E (long_class long) [VList l] end) (fun comments =>
    Ok (RParam (identify (v_name v)) names var (match v_formula v with None | Some [] => None | Some f => Some (fix_names nc f) end) (v_value v) unit_ comments))))).
  (** 278-304 for all variables, then 319-344 for those no exchange used. The variables have different names (C39). *)
  Definition odd_names (vs : list pvar) : list (pystr * pystr) :=
    flat_map (fun v => if letter_first (v_name v) then [] else [(v_name v, lit "uc" ++ v_name v)]) vs.
  Fixpoint make_params (nc : list (pystr * pystr)) (used : pystr -> bool) (n : Z) (vs : list pvar) : result (list rparam) :=
    match vs with
    | [] => Ok []
    | v :: vs' =>
        let n' := (n + Z.of_nat (length (v_comment v)))%Z in
        if used (v_name v) then make_params nc used n' vs'
        else bind (make_param nc n v) (fun r => bind (make_params nc used n' vs') (fun rs => Ok (r :: rs)))
    end.
  (** there and back; [others]: names of the other variables that do not begin with a letter *)
  Definition trip (on : bool) (n m : Z) (k : nat) (taken : list pystr) (others : list (pystr * pystr)) (used : pystr -> bool) (ps : list eparam) : result (list rparam) :=
    bind (send on n k taken ps) (fun vs => make_params (others ++ odd_names vs) used m vs).
End Param.
Arguments EParam {V} _ _ _ _ _ _ _.
Arguments eparam : clear implicits.
Arguments pvar : clear implicits.
Arguments rparam : clear implicits.
