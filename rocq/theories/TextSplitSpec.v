(** Specification vocabulary for text splitting. *)
From Coq Require Import List Bool NArith.
From Verif Require Import PyBase.
Import ListNotations.

(** Visible characters: everything except white space and the separator ';'. *)
Definition visible (c : N) : bool := negb (is_space c) && negb (N.eqb c 59).
Definition ink (s : pystr) : pystr := filter visible s.

(** Subsequence: what remains after deleting some elements, order kept. *)
Inductive subseq {A} : list A -> list A -> Prop :=
| ss_nil l : subseq [] l
| ss_keep x a b : subseq a b -> subseq (x :: a) (x :: b)
| ss_skip x a b : subseq a b -> subseq a (x :: b).

(** Characters that are neither white space nor sentence punctuation (. ; ! ? and double quotes):
    what the sentence splitter must preserve. *)
Definition letter (c : N) : bool :=
  visible c && negb (existsb (N.eqb c) [46; 33; 63; 34; 8221]%N).
Definition letters (s : pystr) : pystr := filter letter s.
