(** The schema-driven structure: src/Lavoisier/data_structures/main.py 41-147 (class [DotDict]).
    Everything is parametric in the validator classes and in the schemas ([VALID] tables).
    Python classes are identified by numbers.  Structures are values: two Python names for one
    DotDict instance (aliasing) are represented by the path that leads to it from the root. *)
From Coq Require Import Ascii String List Bool Arith NArith ZArith.
From Verif Require Import PyBase PyValues ValidatorsModel.
Import ListNotations.

(** One row of a [VALID] table. 'order' may be missing ([None]); 'unique' defaults to False. *)
Inductive ftype (V : Type) := TVal (v : V) | TSub (c : nat).
Arguments TVal {V} v.
Arguments TSub {V} c.
Record field (V : Type) := {
  f_type : ftype V; f_mandatory : bool; f_unique : bool; f_order : option Z;
  f_xml_type : option pystr; f_xml_nms : option pystr }.
Arguments f_type {V}. Arguments f_mandatory {V}. Arguments f_unique {V}.
Arguments f_order {V}. Arguments f_xml_type {V}. Arguments f_xml_nms {V}.

(** The validator classes (with their [add] and [end]) and the schema of every class. *)
Record universe := {
  vclass : Type; vstate : Type; vout : Type;
  vadd : vclass -> option vstate -> pyval -> upd vstate;
  vend : vclass -> option vstate -> result vout;
  valid : nat -> list (pystr * field vclass) }.

(** Python [dict] with string keys: lookup, assignment (position kept when the key exists). *)
Section Assoc.
  Context {A : Type}.
  Fixpoint getf (k : pystr) (l : list (pystr * A)) : option A :=
    match l with
    | [] => None
    | (k', a) :: l' => if str_eqb k' k then Some a else getf k l'
    end.
  Fixpoint putf (k : pystr) (a : A) (l : list (pystr * A)) : list (pystr * A) :=
    match l with
    | [] => [(k, a)]
    | (k', b) :: l' => if str_eqb k' k then (k', a) :: l' else (k', b) :: putf k a l'
    end.
End Assoc.

(** [mapM] written so that recursion through it is accepted. *)
Section MapR.
  Context {A B : Type} (f : A -> result B).
  Fixpoint mapR (l : list A) : result (list B) :=
    match l with
    | [] => Ok []
    | x :: l' => bind (f x) (fun y => bind (mapR l') (fun ys => Ok (y :: ys)))
    end.
End MapR.

Section Structure.
  Context (U : universe).

  (** An instance: its class and the underlying dict. A stored value is a validator instance or
      a list of structures ([__setitem__] 77-82 and [__getitem__] 116-117 store nothing else). *)
  Inductive dd := DD (c : nat) (fs : list (pystr * held))
  with held := HV (v : vclass U) (st : option (vstate U)) | HL (l : list dd).

  Definition cls (d : dd) : nat := match d with DD c _ => c end.
  Definition flds (d : dd) : list (pystr * held) := match d with DD _ fs => fs end.

  (** Right-hand sides of assignments. *)
  Inductive scalar := SBool (b : bool) | SInt (z : Z) | SFloat (f : pyfloat) | SStr (s : pystr)
                    | STuple (l : list pyval) | SObj.
  Inductive arg :=
  | ANone
  | AScalar (s : scalar)
  | ADict (l : list (pystr * arg))        (* a plain dict *)
  | AList (l : list arg)
  | AStruct (d : dd).                     (* an instance of some DotDict class *)

  Definition scalar_pyval (s : scalar) : pyval :=
    match s with
    | SBool b => VBool b | SInt z => VInt z | SFloat f => VFloat f | SStr s => VStr s
    | STuple l => VTuple l | SObj => VObj
    end.
  (** The value a validator receives (line 78: a structure is turned into the dict of its stored
      objects). *)
  Fixpoint arg_pyval (a : arg) : pyval :=
    match a with
    | ANone => VNone
    | AScalar s => scalar_pyval s
    | ADict l => VDict (map (fun kv => (fst kv, arg_pyval (snd kv))) l)
    | AList l => VList (map arg_pyval l)
    | AStruct d => VDict (map (fun kh => (fst kh, match snd kh with
                                                  | HV _ _ => VObj
                                                  | HL l => VList (map (fun _ => VObj) l)
                                                  end)) (flds d))
    end.

  Definition outcome : Type := (dd * option exn)%type.

  (** Python truth value of a stored object (line 73). *)
  Definition truthy (h : held) : bool :=
    match h with HV _ _ => true | HL [] => false | HL _ => true end.

  Section Assign.
    Context (build : nat -> arg -> result dd).

    (** 72-82, one turn of the loop, for the field [k] with row [f] *)
    Definition set_one (k : pystr) (f : field (vclass U)) (d : dd) (a : arg) : outcome :=
      match getf k (flds d) with
      | Some h =>
          if truthy h && f_unique f then (d, Some ValueError)
          else match f_type f, h with
               | TVal _, HV v st =>
                   let '(st', e) := vadd U v st (arg_pyval a) in
                   (DD (cls d) (putf k (HV v st') (flds d)), e)
               | TVal _, HL _ => (d, Some AttributeError)
               | TSub c, HL l =>
                   match build c a with
                   | Ok x => (DD (cls d) (putf k (HL (l ++ [x])) (flds d)), None)
                   | Err e => (d, Some e)
                   end
               | TSub _, HV _ _ => (d, Some TypeError)
               end
      | None =>
          match f_type f with
          | TVal v =>
              match vadd U v None (arg_pyval a) with
              | (st', None) => (DD (cls d) (putf k (HV v st') (flds d)), None)
              | (_, Some e) => (d, Some e)
              end
          | TSub c =>
              match build c a with
              | Ok x => (DD (cls d) (putf k (HL [x]) (flds d)), None)
              | Err e => (d, Some e)
              end
          end
      end.

    Fixpoint set_many (k : pystr) (f : field (vclass U)) (d : dd) (l : list arg) {struct l} : outcome :=
      match l with
      | [] => (d, None)
      | a :: l' => match set_one k f d a with
                   | (d', None) => set_many k f d' l'
                   | (d', Some e) => (d', Some e)
                   end
      end.

    (** line 65 *)
    Definition bare (k : pystr) : option pystr :=
      match k with
      | [] => None
      | x :: k' => Some (if (N.eqb x (ch "@") || N.eqb x (ch "#"))%bool then k' else k)
      end.

    (** 63-84 [__setitem__] = [__setattr__] *)
    Definition set_item_with (d : dd) (key : pystr) (a : arg) : outcome :=
      match bare key with
      | None => (d, Some IndexError)
      | Some k =>
          match getf k (valid U (cls d)) with
          | None => (d, Some AttributeError)
          | Some f => match a with
                      | AList l => set_many k f d l
                      | _ => set_one k f d a
                      end
          end
      end.
  End Assign.

  (** 43-61 [__new__] and [__init__]: [T(value)].  A value that already is a DotDict is returned
      as it is, whatever its class. *)
  Fixpoint build (c : nat) (a : arg) {struct a} : result dd :=
    match a with
    | ANone => Ok (DD c [])
    | AStruct d => Ok d
    | ADict l =>
        (fix go (d : dd) (l : list (pystr * arg)) {struct l} : result dd :=
           match l with
           | [] => Ok d
           | (k, x) :: l' => match set_item_with build d k x with
                             | (d', None) => go d' l'
                             | (_, Some e) => Err e
                             end
           end) (DD c []) l
    | AScalar _ | AList _ => Err TypeError
    end.

  Definition set_item : dd -> pystr -> arg -> outcome := set_item_with build.

  (** 107-120 [__getitem__] = [__getattr__]: returns the structure after the read (an absent unique
      structure is created) and the child.  The special key '__name__' returns a bare object:
      not a structure, reported here as an error. *)
  Definition get_item (d : dd) (k : pystr) : dd * result dd :=
    if str_eqb k (lit "__name__") then (d, Err TypeError) else
    match getf k (valid U (cls d)) with
    | None => (d, Err KeyError)
    | Some f =>
        match getf k (flds d) with
        | Some (HV _ _) => (d, Err KeyError)
        | Some (HL l) =>
            if f_unique f
            then match l with [] => (d, Err IndexError) | x :: _ => (d, Ok x) end
            else (d, Err KeyError)
        | None =>
            match f_type f with
            | TVal _ => (d, Err KeyError)
            | TSub c => if f_unique f
                        then (DD (cls d) (putf k (HL [DD c []]) (flds d)), Ok (DD c []))
                        else (d, Err KeyError)
            end
        end
    end.

  (** 96-105 [get] *)
  Inductive got := Default | GVal (o : vout U) | GList (l : list dd).
  Definition get (d : dd) (k : pystr) : result got :=
    match getf k (flds d) with
    | None => Ok Default
    | Some (HV v st) => bind (vend U v st) (fun o => Ok (GVal o))
    | Some (HL l) => Ok (GList l)
    end.

  (** 86-94 [get_class] *)
  Definition get_class (d : dd) (k : pystr) : result nat :=
    match getf k (valid U (cls d)) with
    | None => Err KeyError
    | Some f => match f_type f with
                | TSub c => if f_unique f then Err KeyError else Ok c
                | TVal _ => Err KeyError
                end
    end.

  (** Programs on a root structure: [root.a.b.key = value] and [root.a.b.key], where a path step is
      an attribute read ([Attr], runs [__getitem__]) or [.get(k)[i]] ([Elem]). *)
  Inductive step := Attr (k : pystr) | Elem (k : pystr) (i : nat).
  Fixpoint put_nth {A} (i : nat) (x : A) (l : list A) : list A :=
    match l, i with
    | [], _ => []
    | _ :: l', O => x :: l'
    | y :: l', S i' => y :: put_nth i' x l'
    end.
  Definition put_child (d : dd) (k : pystr) (i : nat) (x : dd) : dd :=
    match getf k (flds d) with
    | Some (HL l) => DD (cls d) (putf k (HL (put_nth i x l)) (flds d))
    | _ => d
    end.
  Definition enter (d : dd) (s : step) : dd * result (pystr * nat * dd) :=
    match s with
    | Attr k => match get_item d k with
                | (d', Ok x) => (d', Ok (k, 0%nat, x))
                | (d', Err e) => (d', Err e)
                end
    | Elem k i => match get d k with
                  | Ok (GList l) => match nth_error l i with
                                    | Some x => (d, Ok (k, i, x))
                                    | None => (d, Err IndexError)
                                    end
                  | Ok _ => (d, Err TypeError)
                  | Err e => (d, Err e)
                  end
    end.
  Fixpoint at_path (p : list step) (f : dd -> outcome) (d : dd) : outcome :=
    match p with
    | [] => f d
    | s :: p' =>
        match enter d s with
        | (d', Ok (k, i, x)) => let '(x', e) := at_path p' f x in (put_child d' k i x', e)
        | (d', Err e) => (d', Some e)
        end
    end.
  Inductive op := OSet (p : list step) (k : pystr) (a : arg) | ORead (p : list step) (k : pystr).
  Definition read_only (k : pystr) (d : dd) : outcome :=
    match get_item d k with (d', Ok _) => (d', None) | (d', Err e) => (d', Some e) end.
  Definition exec (o : op) (d : dd) : outcome :=
    match o with
    | OSet p k a => at_path p (fun x => set_item x k a) d
    | ORead p k => at_path p (read_only k) d
    end.

  (** The produced document: validator output, node (ordered dict), list, or [str(v)]. *)
  Inductive doc := DLeaf (o : vout U) | DNode (l : list (pystr * doc)) | DList (l : list doc) | DStr (d : doc).

  (** 129-132 [get_name] *)
  Definition attribute_ : pystr := lit "attribute".
  Definition text_ : pystr := lit "text".
  Definition get_name (k : pystr) (f : field (vclass U)) : pystr :=
    let k1 := match f_xml_nms f with None => k | Some n => n ++ (lit ":" ++ k) end in
    match f_xml_type f with
    | None => k1
    | Some t =>
        (if str_eqb t attribute_ then lit "@"
         else if str_eqb t (lit "nms:common") then lit "common:"
         else if str_eqb t text_ then lit "#"
         else replace (lit "nms:") [] t ++ lit ":") ++ k1
    end.

  Definition has_field (k : pystr) (fs : list (pystr * held)) : bool :=
    match getf k fs with Some _ => true | None => false end.
  Definition mandatory_present (c : nat) (fs : list (pystr * held)) : bool :=
    forallb (fun kf => negb (f_mandatory (snd kf)) || has_field (fst kf) fs) (valid U c).

  Definition order_of (c : nat) (k : pystr) : option Z :=
    match getf k (valid U c) with Some f => f_order f | None => None end.
  Definition order_leb (a b : Z * (pystr * doc)) : bool := Z.leb (fst a) (fst b).
  (** the sort key of an item; KeyError when the row has no 'order' *)
  Definition with_order (c : nat) (kv : pystr * doc) : result (Z * (pystr * doc)) :=
    match order_of c (fst kv) with Some o => Ok (o, kv) | None => Err KeyError end.
  Definition rename (c : nat) (kv : pystr * doc) : pystr * doc :=
    match getf (fst kv) (valid U c) with
    | None => kv
    | Some f => (get_name (fst kv) f,
                 match f_xml_type f with
                 | Some t => if str_eqb t text_ then DStr (snd kv) else snd kv
                 | None => snd kv
                 end)
    end.
  (** a dict comprehension: later entries overwrite earlier ones with the same key *)
  Definition to_dict {A} (l : list (pystr * A)) : list (pystr * A) :=
    fold_left (fun acc kv => putf (fst kv) (snd kv) acc) l [].

  (** 122-145 [get_dict] *)
  Fixpoint get_dict (d : dd) : result doc :=
    match d with
    | DD c fs =>
        if mandatory_present c fs
        then
          bind (mapR (fun kh : pystr * held =>
                  match kh with
                  | (k, HV v st) => bind (vend U v st) (fun o => Ok (k, DLeaf o))
                  | (k, HL l) => bind (mapR get_dict l) (fun ds => Ok (k, DList ds))
                  end) fs) (fun items =>
          bind (mapR (with_order c) items) (fun keyed =>
          Ok (DNode (to_dict (map (rename c) (map snd (isort order_leb keyed)))))))
        else Err AttributeError
    end.
End Structure.
