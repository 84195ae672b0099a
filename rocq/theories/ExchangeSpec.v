(** What the theorems about converted exchanges, referenced files and sources mean. *)
From Coq Require Import Ascii String List Bool Arith NArith ZArith.
From Verif Require Import PyBase PyValues ValidatorsModel.
Import ListNotations.

(** pairwise different identifiers: a list of (exchange, id) where no exchange is repeated *)
Definition distinct_ids (l : list (nat * pystr)) : Prop := NoDup (map fst l) /\ NoDup (map snd l).

(** a hash without collisions *)
Definition injective (hash : pystr -> pystr) : Prop := forall a b, hash a = hash b -> a = b.

(** the documented codes of the groups *)
Definition legal_input (elementary : bool) (z : Z) : Prop := if elementary then z = 4%Z else In z [1; 2; 3; 5]%Z.
Definition legal_output (elementary : bool) (z : Z) : Prop := if elementary then z = 4%Z else In z [0; 2; 3; 5]%Z.
Definition flow_kinds : list pystr := [lit "Elementary flow"; lit "Product flow"; lit "Waste flow"; lit "Other flow"].

(** a text contains another *)
Definition contains (p s : pystr) : Prop := exists a b, s = a ++ p ++ b.
(** the last part of an address *)
Definition last_part (s n : pystr) : Prop := ~ In 47%N n /\ (s = n \/ exists a, s = a ++ 47%N :: n).

(** years and citations *)
Definition is_year (y : pystr) : Prop := length y = 4 /\ Forall (fun c => is_udigit c = true) y.
Definition one_line (s : pystr) : Prop := ~ In 10%N s.
(** a year in brackets, or after a comma or space and before a closing bracket, ... *)
Definition year_mark (s : pystr) : Prop :=
  exists p o y k r, s = p ++ o :: y ++ k :: r /\ In o [32; 40; 91; 44]%N /\ is_year y /\ In k [41; 93]%N.
(** ... followed by a page *)
Definition page_mark (s : pystr) : Prop :=
  exists p o y k r, s = p ++ o :: y ++ k :: lit " p. " ++ r /\ In o [32; 40; 91; 44]%N /\ is_year y /\ In k [41; 93]%N.
(** no white space at the ends *)
Definition trimmed (s : pystr) : Prop := strip s = s.
