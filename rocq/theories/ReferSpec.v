(** References to other data sets, as they occur in ILCD files. *)
From Coq Require Import Ascii String List Bool Arith NArith ZArith.
From Verif Require Import PyBase XmlModel XmlSpec HandleSpec XmlProps.
Import ListNotations.

(** [e] refers to the data set [i], [ds] are its short descriptions: none, or one for each language. *)
Definition reference (e : elem) (i : pystr) (ds : list elem) : Prop :=
  Forall proper (ekids e) /\ distinct_attributes (eattrib e) /\
  (exists k, In (k, i) (eattrib e) /\ name_of k (lit "refObjectId")) /\ i <> [] /\
  named_kids (lit "shortDescription") (ekids e) ds.
(** a text with a language: <shortDescription xml:lang="en">s</shortDescription> *)
Definition in_language (d : elem) (s : pystr) : Prop :=
  (exists l, language_text d l) /\ (etext d = Some s /\ ~ blank (Some s) \/ blank (etext d) /\ s = []).
(** The reference has at most one description, and that one has a language: [s] is its text. *)
Definition described (ds : list elem) (s : pystr) : Prop :=
  ds = [] /\ s = [] \/ exists d, ds = [d] /\ in_language d s.
(** Other descriptions that the ILCD schema allows: in several languages, or without a language (English). *)
Definition otherwise_described (ds : list elem) : Prop :=
  2 <= length ds \/ exists d s, ds = [d] /\ plain_text d s.
