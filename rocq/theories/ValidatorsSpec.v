(** Specification vocabulary for the scalar validators. *)
From Coq Require Import Ascii String List Bool Arith NArith ZArith QArith.
From Verif Require Import PyBase PyValues.
Import ListNotations.

(** The strings a value offers to a list enumeration. *)
Inductive offers : pyval -> list pystr -> Prop :=
| offers_str s : offers (VStr s) [s]
| offers_list l ss : Forall2 (fun v s => v = VStr s) l ss -> offers (VList l) ss
| offers_tuple l ss : Forall2 (fun v s => v = VStr s) l ss -> offers (VTuple l) ss.

(** What a history of assignments offered and that was entirely inside the enumeration. *)
Inductive accepted (enum : list pystr) : list pyval -> list pystr -> Prop :=
| acc_nil : accepted enum [] []
| acc_yes v vs ss acc :
    offers v ss -> Forall (fun s => In s enum) ss -> accepted enum vs acc ->
    accepted enum (v :: vs) (ss ++ acc)
| acc_no v vs acc :
    (forall ss, offers v ss -> ~ Forall (fun s => In s enum) ss) -> accepted enum vs acc ->
    accepted enum (v :: vs) acc.

(** [FirstOcc l r]: [r] is [l] without the repetitions, in order of first occurrence. *)
Inductive FirstOcc {A} : list A -> list A -> Prop :=
| fo_nil : FirstOcc [] []
| fo_new l r x : FirstOcc l r -> ~ In x l -> FirstOcc (l ++ [x]) (r ++ [x])
| fo_old l r x : FirstOcc l r -> In x l -> FirstOcc (l ++ [x]) r.

(** The texts among a history of values. *)
Definition texts (vs : list pyval) : list pystr :=
  flat_map (fun v => match v with VStr s => [s] | _ => [] end) vs.

(** Lower-case 8-4-4-4-12 hexadecimal text. *)
Definition hexchar (c : N) : Prop := (48 <= c <= 57 \/ 97 <= c <= 102)%N.
Definition hexblock (n : nat) (s : pystr) : Prop := length s = n /\ Forall hexchar s.
Definition is_uuid (s : pystr) : Prop :=
  exists a b c d e,
    s = a ++ lit "-" ++ b ++ lit "-" ++ c ++ lit "-" ++ d ++ lit "-" ++ e /\
    hexblock 8 a /\ hexblock 4 b /\ hexblock 4 c /\ hexblock 4 d /\ hexblock 12 e.

Definition starts_with (P : pystr -> Prop) (s : pystr) : Prop := exists p t, s = p ++ t /\ P p.
Definition digits (n : nat) (s : pystr) : Prop := length s = n /\ Forall (fun c => is_udigit c = true) s.
