(** Vocabulary for facts kept inside comments: texts seen as lines, independent of the search functions. *)
From Coq Require Import Ascii String List Bool Arith NArith ZArith.
From Verif Require Import PyBase PyValues MultiLangSpec CommentModel TablesModel DotDictModel.
Import ListNotations.

Definition occurs (m s : pystr) : Prop := exists a b, s = a ++ m ++ b.
Definition one_line (s : pystr) : Prop := ~ In 10%N s.
(** the lines, each ended by a line feed *)
Definition closed_lines (ls : list pystr) : pystr := concat (map (fun l => l ++ newline) ls).

(** every mark looked for in a field *)
Definition general_marks : list pystr :=
  [lit "Activity Linkable Id: "; lit "Activity Subtype: "; lit "Inheritance: "; lit "Parent Id: "; lit "Tag: "].
Definition plain (marks : list pystr) (s : pystr) : Prop := forall m, In m marks -> ~ occurs m s.

(** the value a field ends with: that of the last assignment *)
Definition slot_eq_dec (a b : slot) : {a = b} + {a <> b}. Proof. decide equality. Defined.
Fixpoint assigned (x : slot) (n : notes) : option (option pystr) :=
  match n with
  | [] => None
  | (y, v) :: n' => match assigned x n' with
                    | Some w => Some w
                    | None => if slot_eq_dec y x then Some v else None
                    end
  end.

(** a UUID as written by uuid: 8-4-4-4-12 lower case hexadecimal digits *)
Definition hex_char (c : N) : Prop := ((97 <= c <= 102) \/ (48 <= c <= 57))%N.
Definition hex_group (n : nat) (s : pystr) : Prop := length s = n /\ Forall hex_char s.
Definition is_uuid (s : pystr) : Prop :=
  exists a b c d e, s = a ++ lit "-" ++ b ++ lit "-" ++ c ++ lit "-" ++ d ++ lit "-" ++ e /\
    hex_group 8 a /\ hex_group 4 b /\ hex_group 4 c /\ hex_group 4 d /\ hex_group 12 e.

(** code tables *)
Definition round_trips (t u : table) : Prop := forall x v, getf x t = Some v -> getf v u = Some x.

(** A field of a class takes a value on its first assignment. *)
From Verif Require Import ValidatorsModel SchemaModel.
Definition takes (E : env) (valid : list (pystr * DotDictModel.field vc)) (name : pystr) (v : pyval) : Prop :=
  exists f c st, getf name valid = Some f /\ f_type f = TVal c /\ add_ E c None v = (Some st, None).
Definition refuses (E : env) (valid : list (pystr * DotDictModel.field vc)) (name : pystr) (v : pyval) : Prop :=
  exists f c e, getf name valid = Some f /\ f_type f = TVal c /\ add_ E c None v = (None, Some e).
