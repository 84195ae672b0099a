(** Contacts and sources of EcoSpold2 data sets. *)
From Coq Require Import Ascii String List Bool Arith NArith ZArith.
From Verif Require Import PyBase PyValues XmlModel XmlSpec HandleSpec XmlProps AsideSpec.
Import ListNotations.
Local Open Scope string_scope.
Local Open Scope list_scope.

(** an attribute that may be missing *)
Definition maybe_attribute (e : elem) (n : string) (o : option pystr) : Prop :=
  match o with Some s => attribute e n s | None => forall s, ~ attribute e n s end.
(** an element that names a person: identifier, name, and maybe an email address *)
Definition names_person (e : elem) (kid kname kemail : string) (i n : pystr) (mail : option pystr) : Prop :=
  record_element e /\ attribute e kid i /\ attribute e kname n /\ maybe_attribute e kemail mail.
(** a text as XML keeps it: blank ones are none *)
Definition said (o : option pystr) (s : pystr) : Prop := blank o /\ s = [] \/ ~ blank o /\ o = Some s.
(** [v] is the last value that [l] sets for [k] *)
Definition finally {A} (l : list (pystr * A)) (k : pystr) (v : A) : Prop :=
  exists a b, l = a ++ (k, v) :: b /\ ~ In k (map fst b).
(** an element with a source: identifier, and maybe author, year, and pages *)
Definition names_source (e : elem) (kid kauthor kyear : string) (i : pystr) (author year : option pystr) : Prop :=
  record_element e /\ attribute e kid i /\ i <> [] /\ maybe_attribute e kauthor author /\ maybe_attribute e kyear year.
