(** Vocabulary for the texts of an ILCD process, independent of the conversions. *)
From Coq Require Import Ascii String List Bool Arith NArith ZArith Sorted Permutation.
From Verif Require Import PyBase PyValues ValidatorsModel MultiLangModel MultiLangSpec DotDictModel ProseModel.
Import ListNotations.
Local Open Scope string_scope.
Local Open Scope list_scope.

(** an element with the attribute xml:lang and a text *)
Definition element (s : speech) : out := {| o_index := None; o_lang := Some (fst s); o_text := snd s |}.
(** one text per language, in the order of the language codes *)
Definition alphabetical (rows : list speech) : Prop := StronglySorted str_lt (map fst rows).
(** A field of the file has one element per language, in any order; [rows]: the texts in the order of the language codes. *)
Definition states (d : ilcd) (f : ifield) (rows : list speech) : Prop :=
  exists l, d_texts d f = map element l /\ Permutation l rows /\ alphabetical rows /\ Forall (fun s => visible_text (snd s)) rows.
(** a line in front of the English text, or instead of a missing one; everything else is as it was *)
Definition line_added (h : pystr) (rows rows' : list speech) : Prop :=
  alphabetical rows' /\
  forall k t, In (k, t) rows' <->
    (k <> lit "en" /\ In (k, t) rows) \/
    (k = lit "en" /\ ((exists u, In (k, u) rows /\ t = h ++ newline ++ u) \/ (t = h /\ ~ In k (map fst rows)))).
(** a field with at most one text, in English *)
Definition says (d : ilcd) (f : ifield) (o : option pystr) : Prop :=
  d_texts d f = map element (optional english o) /\ forall t, o = Some t -> visible_text t.
(** a text under a heading; none stands for no text *)
Definition under (h : pystr) (o : option pystr) : list pystr := optional (fun t => h ++ t) o.
Definition unless_said_none (o : option pystr) : option pystr := match o with Some t => if str_eqb t (lit "none") then None else Some t | None => None end.
