(** What the theorems about variables read from ILCD mean. *)
From Coq Require Import Ascii String List Bool Arith NArith ZArith.
From Verif Require Import PyBase.
Import ListNotations.

(** EcoSpold2 variable names start with a letter *)
Definition starts_with_letter (s : pystr) : Prop :=
  exists c r, s = c :: r /\ ((65 <= c <= 90)%N \/ (97 <= c <= 122)%N).
(** the EcoSpold2 name of an ILCD variable *)
Definition new_name (n m : pystr) : Prop :=
  (starts_with_letter n -> m = n) /\ (~ starts_with_letter n -> m = lit "uc" ++ n).
(** no variable is named like another one followed by "_original" *)
Definition no_original (names : list pystr) : Prop := forall n, In n names -> ~ In (n ++ lit "_original") names.
(** a formula with every variable name that needs it replaced once, one name after the other *)
Definition renamed (names : list pystr) (f : pystr) : pystr := fold_left (fun f n => replace n (lit "uc" ++ n) f) names f.
