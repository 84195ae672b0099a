(** Vocabulary for output names and input lists. *)
From Coq Require Import Ascii String List Bool Arith NArith ZArith.
From Verif Require Import PyBase PyDigits.
Import ListNotations.

(** [s] is the usual decimal numeral of [n]. *)
Definition numeral (s : pystr) (n : N) : Prop :=
  s <> [] /\ Forall isdig s /\ dval s = n /\ (n <> 0%N -> hd 0%N s <> ch "0").
(** The k-th name tried for an output: "name", "name (1)", "name (2)", ... *)
Inductive candidate (name : pystr) : N -> pystr -> Prop :=
| cand_plain : candidate name 0 name
| cand_number k s : k <> 0%N -> numeral s k -> candidate name k (name ++ lit " (" ++ s ++ lit ")").
(** The first free candidate. *)
Definition first_free (folder : list pystr) (name ext r : pystr) : Prop :=
  exists k, candidate name k r /\ ~ In (r ++ ext) folder /\
    forall j s, (j < k)%N -> candidate name j s -> In (s ++ ext) folder.

(** [s] with every slash spelled " per " *)
Definition spelled (s : pystr) : pystr :=
  flat_map (fun c => if N.eqb c (ch "/") then lit " per " else [c]) s.

(** [s] ends with [e] *)
Definition ends_with (e s : pystr) : Prop := exists b, s = b ++ e.

(** A process file in the folder "processes" at the root of the archive or in one folder [root]. *)
Definition process_of (root m : pystr) : Prop :=
  exists b, m = root ++ lit "processes/" ++ b /\ ~ In (ch "/") b /\ ends_with (lit ".xml") b.
(** The root is the archive itself or a folder "r/", whose name does not contain "processes/". *)
Definition plain_root (root : pystr) : Prop :=
  root = [] \/ exists r c, root = r ++ [c] ++ lit "/" /\ c <> ch "/" /\
                           ~ exists a b, root = a ++ lit "processes/" ++ b.
(** Something that looks like a process: an XML file with a folder "processes" on its path. *)
Definition looks_like_process (m : pystr) : Prop :=
  ends_with (lit ".xml") m /\
  exists a b, m = a ++ lit "processes/" ++ b /\ (a = [] \/ ends_with (lit "/") a).
