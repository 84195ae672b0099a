(** Vocabulary for texts with variables. *)
From Coq Require Import Ascii String List Bool Arith NArith ZArith.
From Verif Require Import PyBase.
Import ListNotations.

(** A text is made of plain pieces and names between double braces. *)
Inductive piece := Plain (s : pystr) | Name (n : pystr).
Definition written (p : piece) : pystr := match p with Plain s => s | Name n => lit "{{" ++ n ++ lit "}}" end.
Definition template (ps : list piece) : pystr := concat (map written ps).
Definition no_brace (s : pystr) : Prop := ~ In 123%N s /\ ~ In 125%N s.
Definition clean (p : piece) : Prop := match p with Plain s => no_brace s | Name n => no_brace n end.
(** The first value given to a name. *)
Inductive first_value : list (pystr * pystr) -> pystr -> pystr -> Prop :=
| fv_here n v l : first_value ((n, v) :: l) n v
| fv_later n v m w l : m <> n -> first_value l n v -> first_value ((m, w) :: l) n v.
(** All names replaced at the same time: a name with a value by its value, other names stay. *)
Inductive filled (env : list (pystr * pystr)) : list piece -> pystr -> Prop :=
| f_nil : filled env [] []
| f_plain s ps t : filled env ps t -> filled env (Plain s :: ps) (s ++ t)
| f_value n v ps t : first_value env n v -> filled env ps t -> filled env (Name n :: ps) (v ++ t)
| f_name n ps t : ~ In n (map fst env) -> filled env ps t -> filled env (Name n :: ps) (lit "{{" ++ n ++ lit "}}" ++ t).

(** Characters whose code has two digits and does not begin with 1, or has three digits and begins with 1:
    all of ASCII from the space on, and the Latin characters up to 199. *)
Definition coded (c : N) : Prop := (20 <= c <= 199)%N.
(** 36 characters of the shape of an identifier, with letters or digits in its groups *)
Definition word_char (c : N) : Prop := (48 <= c <= 57 \/ 65 <= c <= 90 \/ 97 <= c <= 122)%N.
Definition id_text (w : pystr) : Prop :=
  exists a b c d e, w = a ++ lit "-" ++ b ++ lit "-" ++ c ++ lit "-" ++ d ++ lit "-" ++ e /\
    length a = 8 /\ length b = 4 /\ length c = 4 /\ length d = 4 /\ length e = 12 /\
    Forall word_char (a ++ b ++ c ++ d ++ e).
