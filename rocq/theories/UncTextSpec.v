(** Vocabulary for uncertainty information kept in comments. *)
From Coq Require Import Ascii String List Bool Arith NArith ZArith Sorted.
From Verif Require Import PyBase PyValues MultiLangSpec DotDictModel CommentSpec UncTextModel.
Import ListNotations.

(** The other texts of the comment: their indexes are outside 800..899 *)
Definition outside (a : triple) : Prop := (fst (fst a) < 800 \/ 899 < fst (fst a))%Z.
(** A text that cannot be mistaken for one of the lines written *)
Definition plain (s : pystr) : Prop :=
  ~ occurs (lit "Uncertainty Comment:") s /\ ~ occurs (lit "Pedigree: (") s /\
  ~ occurs (lit "Basic Variance: ") s /\ ~ occurs (lit "Not Converted: ") s.
(** [L]: everything given to the comment, the texts [U] of the uncertainty among other plain texts *)
Definition among (U L : list triple) : Prop :=
  exists O1 O2, L = O1 ++ U ++ O2 /\ Forall outside (O1 ++ O2) /\ Forall (fun a => plain (snd a)) (O1 ++ O2).

(** Comments of a language, in order *)
Inductive in_language (k : pystr) : list (pystr * pystr) -> list pystr -> Prop :=
| il_nil : in_language k [] []
| il_same t l r : in_language k l r -> in_language k ((k, t) :: l) (t :: r)
| il_other k' t l r : k' <> k -> in_language k l r -> in_language k ((k', t) :: l) r.

Definition score (s : pystr) : Prop := exists c, s = [c] /\ (48 <= c <= 57)%N.
(** Digits with at most one dot *)
Definition decimal (s : pystr) : Prop :=
  exists a b, Forall (fun c => (48 <= c <= 57)%N) (a ++ b) /\ a ++ b <> [] /\ (s = a /\ b = [] \/ s = a ++ [46%N] ++ b).

(** Distributions without a counterpart in ILCD and their parameters *)
Inductive unsupported : pystr -> list pystr -> Prop :=
| un_beta : unsupported (lit "beta") [lit "minValue"; lit "mostLikelyValue"; lit "maxValue"]
| un_gamma : unsupported (lit "gamma") [lit "shape"; lit "scale"; lit "minValue"]
| un_binomial : unsupported (lit "binomial") [lit "n"; lit "p"]
| un_undefined : unsupported (lit "undefined") [lit "minValue"; lit "standardDeviation95"; lit "maxValue"].
(** Text of a number: no comma, equals sign or white space *)
Definition number_text (s : pystr) : Prop := s <> [] /\ forall c, In c s -> c <> 44%N /\ c <> 61%N /\ c <> 10%N /\ is_space c = false.
(** Printing a number and reading it again gives the number *)
Definition prints {V} (fv : pystr -> option V) (fl : pystr -> option pystr) : Prop :=
  forall x y, fl x = Some y -> number_text y /\ fv y = fv x.
