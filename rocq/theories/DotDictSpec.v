(** Vocabulary used to state what a user relies on in the schema-driven structure. *)
From Coq Require Import Ascii String List Bool Arith NArith ZArith Sorting.Sorted Sorting.Permutation.
From Verif Require Import PyBase PyValues ValidatorsModel DotDictModel.
Import ListNotations.

Section Spec.
  Context (U : universe).
  Notation dd := (dd U). Notation held := (held U). Notation arg := (arg U). Notation doc := (doc U).

  (** [part d x]: [x] is [d] or a structure stored (at any depth) in [d]. *)
  Inductive part : dd -> dd -> Prop :=
  | part_self d : part d d
  | part_in d k l y x : In (k, HL U l) (flds U d) -> In y l -> part y x -> part d x.

  (** The structures occurring in a right-hand side. *)
  Fixpoint structs (a : arg) : list dd :=
    match a with
    | AStruct _ d => [d]
    | ADict _ l => flat_map (fun kv => structs (snd kv)) l
    | AList _ l => flat_map structs l
    | _ => []
    end.
  Definition op_structs (o : op U) : list dd :=
    match o with OSet _ _ _ a => structs a | ORead _ _ _ => [] end.

  (** Every structure a program can build: fresh instances, instances built from a value, and
      whatever assignments and reads (failing or not) make of them. *)
  Inductive produced : dd -> Prop :=
  | produced_new c : produced (DD U c [])
  | produced_from c a d : (forall x, In x (structs a) -> produced x) -> build U c a = Ok d -> produced d
  | produced_exec o d d' e : produced d -> (forall x, In x (op_structs o) -> produced x) ->
      exec U o d = (d', e) -> produced d'.

  (** the row of a field *)
  Definition row (c : nat) (k : pystr) (f : field (vclass U)) : Prop := getf k (valid U c) = Some f.
  Definition in_schema (c : nat) (k : pystr) : Prop := In k (map fst (valid U c)).

  (** [added v vs st]: [st] is what a validator of class [v] holds after being given [vs] one by one,
      the first one successfully. *)
  Definition added (v : vclass U) (vs : list pyval) (st : option (vstate U)) : Prop :=
    exists a rest, vs = a :: rest /\ snd (vadd U v None a) = None /\
      st = fold_left (fun s x => fst (vadd U v s x)) rest (fst (vadd U v None a)).

  (** one value at most *)
  Definition single (h : held) : Prop :=
    match h with
    | HV _ v st => exists a, added v [a] st
    | HL _ l => length l <= 1
    end.

  (** ways of writing the field name [k] in an assignment *)
  Definition names (key k : pystr) : Prop :=
    key = ch "@" :: k \/ key = ch "#" :: k \/
    (key = k /\ k <> [] /\ forall r, k <> ch "@" :: r /\ k <> ch "#" :: r).

  (** a validator keeps its content when it rejects a value *)
  Definition rejects_cleanly (v : vclass U) : Prop :=
    forall vs st x st' e, added v vs st -> vadd U v st x = (st', Some e) -> st' = st.

  (** completeness of a structure *)
  Definition complete (d : dd) : Prop :=
    forall x k f, part d x -> In (k, f) (valid U (cls U x)) -> f_mandatory f = true ->
      In k (map fst (flds U x)).
  Definition ends_well (d : dd) : Prop :=
    forall x k v st, part d x -> In (k, HV U v st) (flds U x) -> exists o, vend U v st = Ok o.
  Definition ordered (d : dd) : Prop :=
    forall x k, part d x -> In k (map fst (flds U x)) -> exists o, order_of U (cls U x) k = Some o.

  (** document names of the fields of a class *)
  Definition label (k : pystr) (f : field (vclass U)) : pystr :=
    let q := match f_xml_nms f with Some n => n ++ lit ":" ++ k | None => k end in
    match f_xml_type f with
    | None => q
    | Some t => if str_eqb t (lit "attribute") then lit "@" ++ q
                else if str_eqb t (lit "text") then lit "#" ++ q
                else replace (lit "nms:") [] t ++ lit ":" ++ q
    end.
  Definition distinct_labels (c : nat) : Prop :=
    NoDup (map (fun kf => label (fst kf) (snd kf)) (valid U c)).

  (** the document of a stored value *)
  Definition shows (h : held) (v : doc) : Prop :=
    match h with
    | HV _ c st => exists o, vend U c st = Ok o /\ v = DLeaf U o
    | HL _ l => exists ds, Forall2 (fun x y => get_dict U x = Ok y) l ds /\ v = DList U ds
    end.
  Definition as_text (f : field (vclass U)) (v : doc) : doc :=
    match f_xml_type f with
    | Some t => if str_eqb t (lit "text") then DStr U v else v
    | None => v
    end.
  Definition order_is (c : nat) (o : Z) (k : pystr) : bool :=
    match order_of U c k with Some o' => Z.eqb o' o | None => false end.
  Definition order_le (c : nat) (a b : pystr) : Prop :=
    exists x y, order_of U c a = Some x /\ order_of U c b = Some y /\ (x <= y)%Z.
End Spec.
