(** Vocabulary for reviews and time periods. *)
From Coq Require Import Ascii String List Bool Arith NArith ZArith.
From Verif Require Import PyBase MultiLangSpec.
Import ListNotations.

Definition digit (c : N) : Prop := (48 <= c <= 57)%N.
Definition numeral (s : pystr) : Prop := s <> [] /\ Forall digit s.
(** the dates written in reviews: digits, hyphens, spaces *)
Definition dateish (s : pystr) : Prop := s <> [] /\ Forall (fun c => digit c \/ c = 45%N \/ c = 32%N) s.

(** ** the calendar *)
Definition day : Type := (Z * Z * Z)%type.
Definition is_leap (y : Z) : Prop := (Z.divide 4 y /\ ~ Z.divide 100 y) \/ Z.divide 400 y.
Inductive days_in : Z -> Z -> Z -> Prop :=
| d31 y m : In m [1; 3; 5; 7; 8; 10; 12]%Z -> days_in y m 31
| d30 y m : In m [4; 6; 9; 11]%Z -> days_in y m 30
| d29 y : is_leap y -> days_in y 2 29
| d28 y : ~ is_leap y -> days_in y 2 28.
Definition real_day (a : day) : Prop :=
  let '(y, m, d) := a in (1 <= y <= 9999)%Z /\ (1 <= d)%Z /\ exists n, days_in y m n /\ (d <= n)%Z.
Definition day_le (a b : day) : Prop :=
  let '(y, m, d) := a in let '(y', m', d') := b in
  (y < y' \/ (y = y' /\ (m < m' \/ (m = m' /\ d <= d'))))%Z.

(** ** texts of dates: yyyy-mm-dd, and times of day *)
Definition dig (n : Z) : N := Z.to_N (48 + n mod 10).
Definition pad2 (n : Z) : pystr := [dig (n / 10); dig n].
Definition pad4 (n : Z) : pystr := [dig (n / 1000); dig (n / 100); dig (n / 10); dig n].
Definition date_text (a : day) : pystr :=
  let '(y, m, d) := a in pad4 y ++ lit "-" ++ pad2 m ++ lit "-" ++ pad2 d.
Definition clock_text (h m s : Z) : pystr := lit "T" ++ pad2 h ++ lit ":" ++ pad2 m ++ lit ":" ++ pad2 s.
Definition is_clock (h m s : Z) : Prop := (0 <= h < 24 /\ 0 <= m < 60 /\ 0 <= s < 60)%Z.
