(** Texts with variables and identifiers made from texts.
    ECS2TTextAndImage: ECS2_to_ILCD1_conversion.py 2114-2157; get_text_uuid: formats/helpers.py 119-125. *)
From Coq Require Import Ascii String List Bool Arith NArith ZArith.
From Verif Require Import PyBase PyValues Regex MultiLangSpec.
Import ListNotations.

(** ** Variables of a text (2128-2138) *)
(** language, name and text of a [variable] element *)
Definition tvar : Type := (pystr * pystr * pystr)%type.
Definition t_lang (v : tvar) : pystr := fst (fst v).
Definition t_name (v : tvar) : pystr := snd (fst v).
Definition t_text (v : tvar) : pystr := snd v.
(** 2136: "{{"+name+"}}" *)
Definition placeholder (n : pystr) : pystr := lit "{{" ++ n ++ lit "}}".
(** 2135-2136: one [replace] for each variable, in document order *)
Definition substitute (vars : list tvar) (t : pystr) : pystr :=
  fold_left (fun t v => replace (placeholder (t_name v)) (t_text v) t) vars t.
(** 2129-2137: the texts in order; index and language are kept *)
Definition process_texts (vars : list tvar) (ts : list triple) : list triple :=
  map (fun t => (fst t, substitute vars (snd t))) ts.

(** ** Identifiers of texts (helpers.py 119-125) *)
(** [A-z0-9]: the letters and the six characters between Z and a *)
Definition id_char (c : N) : bool := (between 65 122 c || is_digit c)%bool.
Definition dash_at (i : nat) : bool := existsb (Nat.eqb i) [8; 13; 18; 23].
(** groups of 8, 4, 4, 4 and 12 characters separated by hyphens *)
Definition id_shape (w : pystr) : bool :=
  (Nat.eqb (length w) 36 &&
   forallb (fun ic => if dash_at (fst ic) then N.eqb (snd ic) 45 else id_char (snd ic)) (combine (seq 0 36) w))%bool.
(** [re.search]: the first place at which the pattern fits; its length is fixed *)
Fixpoint first_id (s : pystr) : option pystr :=
  if id_shape (firstn 36 s) then Some (firstn 36 s) else match s with [] => None | _ :: s' => first_id s' end.
(** 124: the decimal codes of the characters, one after the other, read as one number; Python's limit on the length of
    numerals (4300 digits) is left out *)
Definition codes (s : pystr) : pystr := concat (map str_of_N s).
(** [random_id]: the identifier made by the random generator after seeding *)
Definition get_text_uuid (random_id : Z -> pystr) (s : pystr) : result pystr :=
  match first_id s with
  | Some w => Ok w
  | None => match int_of_str (codes s) with Some z => Ok (random_id z) | None => Err ValueError end
  end.
