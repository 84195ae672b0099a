(** Vocabulary for the texts of an activity, independent of the conversion. *)
From Coq Require Import Ascii String List Bool Arith NArith ZArith.
From Verif Require Import PyBase PyValues ValidatorsModel MultiLangSpec DotDictModel TablesModel CommentModel CommentSpec CommentProps ProseModel.
Import ListNotations.
Local Open Scope string_scope.
Local Open Scope list_scope.

(** A comment is a list of numbered texts.  A reader of the comment sees one text per language: the texts of the language in the order of their numbers,
    one below the other; texts with the same number are separated by semicolons. *)
Definition reads (c : list triple) (rows : list speech) : Prop :=
  exists v, visible_of c v /\ language_rows (Some (lit "; ")) v rows.
(** no text is longer than the limit, unless limits are switched off *)
Definition within (ignore : bool) (long : nat) (rows : list speech) : Prop := forall k t, In (k, t) rows -> ignore = true \/ length t <= long.
(** all numbers of a comment are above [j], or below *)
Definition above (j : Z) (c : list triple) : Prop := forall i k u, In (i, k, u) c -> (j < i)%Z.
Definition below (j : Z) (c : list triple) : Prop := forall i k u, In (i, k, u) c -> (i < j)%Z.

(** a line in front of the text of one language, and a line behind it *)
Definition put_before (k h : pystr) (rows : list speech) : list speech :=
  map (fun kt => if str_eqb (fst kt) k then (fst kt, h ++ newline ++ snd kt) else kt) rows.
Definition put_after (k h : pystr) (rows : list speech) : list speech :=
  map (fun kt => if str_eqb (fst kt) k then (fst kt, snd kt ++ newline ++ h) else kt) rows.

(** a change of the English text *)
Definition at_en (g : pystr -> pystr) (rows : list speech) : list speech := map (fun kt => if str_eqb (fst kt) (lit "en") then (fst kt, g (snd kt)) else kt) rows.
(** a value, or what stands in for it *)
Definition kept_or {A} (o : option A) (d : A) : option A := match o with Some x => Some x | None => Some d end.

(** the facts kept in the general comment; an inheritance depth of 0 is not written *)
Definition facts_of (a : activity) : activity_facts :=
  {| a_link := f_link a; a_subtype := f_subtype a;
     a_inherit := match f_inherit a with Some x => if str_eqb x (lit "0") then None else Some x | None => None end; a_parent := f_parent a |}.
Definition tech_marks : list pystr := [lit "Activity Start: "; lit "Activity End: "; lit "Technology Level: "].
Definition scenario_line (s : pystr) : pystr := lit "Macroeconomic Scenario: " ++ s.
Definition usual_line : pystr := scenario_line (lit "Business-as-Usual").

(** what a trip does to the extrapolations and to the sampling procedure *)
Definition wrapped (t : pystr) : pystr :=
  lit "Deviations from LCI Method Principles: " ++ newline ++ lit "Data Treatment and Extrapolations Principles: " ++ t.
Definition followed (t : pystr) : pystr := t ++ newline ++ lit "Modelling Constants: ".
