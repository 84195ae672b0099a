(** Vocabulary for the identifier conversion and the list normalisation. *)
From Coq Require Import Ascii String List Bool Arith NArith ZArith.
From Verif Require Import PyBase PyValues ValidatorsSpec MultiLangModel UtilsModel.
Import ListNotations.

(** a function whose values are bytes *)
Definition byte_valued (aes : list N -> list N -> N) : Prop := forall k r, (aes k r < 256)%N.

(** hexadecimal digits of either case, and lower-casing *)
Definition anyhex (c : N) : Prop := (48 <= c <= 57 \/ 97 <= c <= 102 \/ 65 <= c <= 70)%N.
Definition lower (c : N) : N := if (N.leb 65 c && N.leb c 70)%bool then (c + 32)%N else c.
Definition anyuuid (s : pystr) : Prop :=
  exists a b c d e,
    s = a ++ lit "-" ++ b ++ lit "-" ++ c ++ lit "-" ++ d ++ lit "-" ++ e /\
    Forall anyhex (a ++ b ++ c ++ d ++ e) /\
    length a = 8 /\ length b = 4 /\ length c = 4 /\ length d = 4 /\ length e = 12.
(** version digit and variant digit of an identifier *)
Definition version_digit (s : pystr) : option N := nth_error s 14.
Definition variant_digit (s : pystr) : option N := nth_error s 19.
(** lower case everywhere but on the version and variant digits *)
Definition lowered (s : pystr) : pystr :=
  map lower (firstn 14 s) ++ firstn 1 (skipn 14 s) ++ map lower (firstn 4 (skipn 15 s))
    ++ firstn 1 (skipn 19 s) ++ map lower (skipn 20 s).

(** members of a normalised list *)
Definition is_dict (v : pyval) : Prop := exists kv d, v = VDict (kv :: d).
Definition has_text_value (v : pyval) : Prop := exists d t, v = VDict d /\ lookup ktext d = Some t /\ truth t = true.
