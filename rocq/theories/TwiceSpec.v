(** Values that fit the class of their field; single-valued fields reached through single-valued structures;
    parts of a document that occur together. *)
From Coq Require Import Ascii String List Bool Arith NArith ZArith.
From Verif Require Import PyBase PyValues MultiLangModel DotDictModel DotDictSpec XmlModel XmlSpec TwiceModel.
Import ListNotations.

Section Spec.
  Context (U : universe).

  (** What is stored under a field is of the type the field declares. *)
  Definition typed (f : field (vclass U)) (h : held U) : Prop :=
    match f_type f, h with
    | TVal v, HV _ v' _ => v' = v
    | TSub c, HL _ l => l <> [] /\ forall y, In y l -> cls U y = c
    | _, _ => False
    end.
  Definition well_classed (d : dd U) : Prop :=
    forall x k h, part U d x -> In (k, h) (flds U x) -> exists f, row U (cls U x) k f /\ typed f h.

  (** The structures in a value have the class of the field they are meant for. *)
  Inductive suits : ftype (vclass U) -> arg U -> Prop :=
  | suits_val v a : suits (TVal v) a
  | suits_none c : suits (TSub c) (ANone U)
  | suits_scalar c s : suits (TSub c) (AScalar U s)
  | suits_struct c d : cls U d = c -> well_classed d -> suits (TSub c) (AStruct U d)
  | suits_dict c l :
      (forall key x k f, In (key, x) l -> names key k -> row U c k f -> suits (f_type f) x) -> suits (TSub c) (ADict U l)
  | suits_list t l : (forall x, In x l -> suits t x) -> suits t (AList U l).

  Definition step_name (s : step) : pystr := match s with Attr k => k | DotDictModel.Elem k _ => k end.
  (** [leads c p c']: from a structure of class [c] the fields [p] lead to one of class [c']. *)
  Inductive leads : nat -> list pystr -> nat -> Prop :=
  | leads_here c : leads c [] c
  | leads_on c s f c1 p c' : row U c s f -> f_type f = TSub c1 -> leads c1 p c' -> leads c (s :: p) c'.
  (** ... through single-valued fields; Python keeps the name '__name__' for itself. *)
  Inductive leads_one : nat -> list pystr -> nat -> Prop :=
  | one_here c : leads_one c [] c
  | one_on c s f c1 p c' : row U c s f -> f_type f = TSub c1 -> f_unique f = true -> s <> lit "__name__" ->
      leads_one c1 p c' -> leads_one c (s :: p) c'.
  (** The program [o], run on a structure of class [c], assigns values that suit their fields. *)
  Definition suitable (c : nat) (o : op U) : Prop :=
    match o with
    | OSet _ p key a => forall c' k f, leads c (map step_name p) c' -> names key k -> row U c' k f -> suits (f_type f) a
    | ORead _ _ _ => True
    end.
  Definition field_name (key : pystr) : Prop := exists k, names key k.

  (** What is stored under the field [k] of the structure reached by [p]. *)
  Inductive holds : list pystr -> pystr -> dd U -> held U -> Prop :=
  | holds_here k d h : getf k (flds U d) = Some h -> holds [] k d h
  | holds_below s p k d x l h : getf s (flds U d) = Some (HL U (x :: l)) -> holds p k x h -> holds (s :: p) k d h.

  (** [apart o p k]: [o] assigns neither the field [k] under [p], nor a structure on the way to it, nor anything
      inside it. *)
  Definition apart (o : op U) (p : list pystr) (k : pystr) : Prop :=
    match o with
    | OSet _ p' key a =>
        (forall r, map step_name p' <> p ++ k :: r) /\ forall k' r, names key k' -> map step_name p' ++ k' :: r <> p ++ [k]
    | ORead _ p' k' => forall r, map step_name p' ++ [k'] <> p ++ k :: r
    end.

  (** A structure made of several structures, of the classes [roots]. *)
  Definition well_made (roots : list (pystr * nat)) (s : whole U) : Prop :=
    forall r d, getf r s = Some d -> well_classed d /\ getf r roots = Some (cls U d).
  Definition act_suits (roots : list (pystr * nat)) (a : act U) : Prop :=
    forall c, getf (fst a) roots = Some c -> suitable c (snd a).
  (** The place is a single-valued field, reached through single-valued fields, of a structure of class [c]. *)
  Definition single (roots : list (pystr * nat)) (t : place) (c : nat) : Prop :=
    names (p_field t) (p_field t) /\
    exists c0 f, getf (p_root t) roots = Some c0 /\ leads_one c0 (p_path t) c /\ row U c (p_field t) f /\ f_unique f = true.
  Definition act_apart (a : act U) (t : place) : Prop := fst a <> p_root t \/ apart (snd a) (p_path t) (p_field t).
End Spec.

(** [given e p]: the document [e] has an element, or an attribute, at the path [p]. *)
Inductive given : elem -> pystr -> Prop :=
| given_self e n : name_of (etag e) n -> given e (lit "/" ++ n)
| given_attribute e n a v : name_of (etag e) n -> In (a, v) (eattrib e) -> given e (lit "/" ++ n ++ lit "/@" ++ a)
| given_kid t a x l es n k p : name_of t n -> In k es -> given k p -> given (Elem t a x l es) (lit "/" ++ n ++ p).
(** Two different elements of the document have something at [p] and at [q]. *)
Inductive both : elem -> pystr -> pystr -> Prop :=
| both_kids t a x l es es1 k1 es2 k2 es3 n p q :
    name_of t n -> es = es1 ++ k1 :: es2 ++ k2 :: es3 -> given k1 p -> given k2 q ->
    both (Elem t a x l es) (lit "/" ++ n ++ p) (lit "/" ++ n ++ q)
| both_below t a x l es n k p q :
    name_of t n -> In k es -> both k p q -> both (Elem t a x l es) (lit "/" ++ n ++ p) (lit "/" ++ n ++ q)
| both_sym e p q : both e q p -> both e p q.
