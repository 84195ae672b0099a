(** Elements as they occur in data sets. *)
From Coq Require Import Ascii String List Bool Arith NArith ZArith.
From Verif Require Import PyBase XmlModel XmlSpec.
Import ListNotations.

(** no text, or white space only *)
Definition blank (t : option pystr) : Prop := match t with None => True | Some s => Forall (fun c => is_space c = true) s end.
(** <a>text</a> *)
Definition plain_text (e : elem) (s : pystr) : Prop :=
  eattrib e = [] /\ ekids e = [] /\ etext e = Some s /\ ~ blank (Some s).
(** <a xml:lang="en">text</a>, the text may be missing.  ElementTree writes the attribute with the
    namespace of the prefix xml. *)
Definition xml_lang : pystr := lit "{http://www.w3.org/XML/1998/namespace}lang".
Definition language_text (e : elem) (l : pystr) : Prop := eattrib e = [(xml_lang, l)] /\ ekids e = [].
(** <a/>, <a></a> *)
Definition empty_element (e : elem) : Prop := eattrib e = [] /\ ekids e = [] /\ blank (etext e).

(** [part e p f]: [f] is an element of the data set [e], at the path [p]. *)
Inductive part : elem -> pystr -> elem -> Prop :=
| part_self e n : name_of (etag e) n -> part e (lit "/" ++ n) e
| part_kid t a x l es n k p f : name_of t n -> In k es -> part k p f -> part (Elem t a x l es) (lit "/" ++ n ++ p) f.
