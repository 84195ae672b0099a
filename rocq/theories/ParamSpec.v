(** Vocabulary for parameters that go to ILCD and come back, independent of the conversion. *)
From Coq Require Import Ascii String List Bool Arith NArith ZArith Sorted.
From Verif Require Import PyBase PyValues ValidatorsModel MultiLangSpec ProseModel RegainSpec ParamModel.
Import ListNotations.
Local Open Scope string_scope.
Local Open Scope list_scope.

(** a text without opening bracket, a text of one line, a name that begins with a Latin letter *)
Definition bracketless (t : pystr) : Prop := ~ In 91%N t.
Definition one_line (t : pystr) : Prop := ~ In 10%N t.
Definition latin (s : pystr) : Prop := exists c r, s = c :: r /\ (65 <= c <= 90 \/ 97 <= c <= 122)%N.

(** parameters with names of their own: all have one, they differ, and no other variable has them *)
Definition named_apart {V} (taken : list pystr) (used : pystr -> bool) (ps : list (eparam V)) : Prop :=
  exists names, Forall2 (fun p x => q_variable p = Some x /\ x <> []) ps names /\ NoDup names /\
    (forall x, In x names -> ~ In x taken /\ used x = false).

(** the visible comments of a parameter, one per language, in the order of the codes *)
Definition comments_are {V} (p : eparam V) (rows : list speech) : Prop :=
  NoDup (map fst (q_comments p)) /\ alphabetical rows /\ forall k t, In (k, t) rows <-> In (k, t) (q_comments p) /\ visible_text t.
(** comments that do not look like units: no brackets, and no blanks around the English one *)
Definition plain_comments {V} (p : eparam V) : Prop :=
  forall k t, In (k, t) (q_comments p) -> bracketless t /\ (k = lit "en" -> strip t = t).
(** there is room for the comments, with the line [u] before the English one, unless limits are switched off *)
Definition room {V} (ignore : bool) (long : nat) (u : pystr) (p : eparam V) : Prop :=
  ignore = true \/ (length u + 2 <= 500 /\
    forall k t, In (k, t) (q_comments p) -> length t <= long /\ length t + (if str_eqb k (lit "en") then length u + 3 else 0) <= 500).
Definition unit_room (ignore : bool) (u : pystr) : Prop := ignore = true \/ length u <= 40.
