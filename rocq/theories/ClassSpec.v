(** Classes, independently of the conversion. *)
From Coq Require Import Ascii String List Bool Arith NArith ZArith.
From Verif Require Import PyBase ClassModel.
Import ListNotations.

(** [parts sep s l]: the pieces of [s] between the characters [sep]. *)
Definition parts (sep : N) (s : pystr) (l : list pystr) : Prop := join [sep] l = s /\ Forall (fun p => ~ In sep p) l /\ l <> [].
(** The converted classes are the steps of the path of the class, from the top, numbered from 0, each with the
    identifier of the path up to it. *)
Definition path_of (cls id : pystr) (out : list class_out) : Prop :=
  exists names comps, parts (ch "/") cls names /\ parts (ch ".") id comps /\ length out = length names /\
    forall i n, nth_error names i = Some n ->
      nth_error out i = Some (mkClassOut (str_of_N (N.of_nat i)) (join (lit ".") (firstn (S i) comps)) n).
(** equal but for capitals (letters A-Z) *)
Definition small (c : N) : N := if (65 <=? c)%N && (c <=? 90)%N then (c + 32)%N else c.
Definition same_words (a b : pystr) : Prop := map small a = map small b.
(** what the comment should say about the tags *)
Definition listing (ts : list pystr) : option pystr :=
  match ts with [] => None | _ => Some (lit "Tag " ++ join (lit "; ") ts) end.
Definition letters (t : pystr) : list pystr := map (fun c => [c]) t.
