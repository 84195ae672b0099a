(** Python base vocabulary used by all models: strings as code-point lists,
    the string methods the code base relies on, exceptions as values. *)
From Coq Require Import Ascii String List Bool Arith NArith ZArith Lia.
Import ListNotations.

Definition pystr := list N.

(** String literals of the source are written as Coq strings and converted. *)
Definition ch (a : ascii) : N := N_of_ascii a.
Fixpoint lit (s : string) : pystr :=
  match s with
  | EmptyString => []
  | String a s' => N_of_ascii a :: lit s'
  end.
Arguments lit s%string_scope.

Fixpoint str_eqb (a b : pystr) : bool :=
  match a, b with
  | [], [] => true
  | x :: a', y :: b' => N.eqb x y && str_eqb a' b'
  | _, _ => false
  end.

Definition str_in (x : pystr) (l : list pystr) : bool := existsb (str_eqb x) l.

(** Python 3 [str.isspace] code points. *)
Definition is_space (c : N) : bool :=
  ((9 <=? c) && (c <=? 13) || (28 <=? c) && (c <=? 32) || (c =? 133) || (c =? 160)
   || (c =? 5760) || (8192 <=? c) && (c <=? 8202) || (c =? 8232) || (c =? 8233)
   || (c =? 8239) || (c =? 8287) || (c =? 12288))%N.

(** [s.isspace()]: non-empty and all white space. *)
Definition isspace (s : pystr) : bool :=
  match s with [] => false | _ => forallb is_space s end.

Fixpoint lstrip (s : pystr) : pystr :=
  match s with
  | [] => []
  | c :: s' => if is_space c then lstrip s' else s
  end.
Definition rstrip (s : pystr) : pystr := rev (lstrip (rev s)).
(** [s.strip()] *)
Definition strip (s : pystr) : pystr := rstrip (lstrip s).

Fixpoint prefixb (p s : pystr) : bool :=
  match p, s with
  | [], _ => true
  | x :: p', y :: s' => N.eqb x y && prefixb p' s'
  | _ :: _, [] => false
  end.
(** [s.endswith(p)] *)
Definition suffixb (p s : pystr) : bool := prefixb (rev p) (rev s).

(** [p in s] for strings *)
Fixpoint infixb (p s : pystr) : bool :=
  prefixb p s || match s with [] => false | _ :: s' => infixb p s' end.

(** [s.split(sep)] for a non-empty separator: left to right, non overlapping. *)
Fixpoint split_aux (sep : pystr) (skip : nat) (acc : pystr) (s : pystr) : list pystr :=
  match s with
  | [] => [rev acc]
  | c :: s' =>
      match skip with
      | S k => split_aux sep k acc s'
      | O => if prefixb sep s
             then rev acc :: split_aux sep (length sep - 1) [] s'
             else split_aux sep O (c :: acc) s'
      end
  end.
Definition split (sep s : pystr) : list pystr := split_aux sep O [] s.

(** [sep.join(l)] *)
Fixpoint join (sep : pystr) (l : list pystr) : pystr :=
  match l with
  | [] => []
  | [x] => x
  | x :: l' => x ++ sep ++ join sep l'
  end.

(** [s.replace(old, new)] for non-empty [old]. *)
Definition replace (old new s : pystr) : pystr := join new (split old s).

(** [s[i:j]] for non-negative indexes *)
Definition slice (i j : nat) (s : pystr) : pystr := firstn (j - i) (skipn i s).

(** [str.__lt__]/[<=] : lexicographic on code points. *)
Fixpoint str_leb (a b : pystr) : bool :=
  match a, b with
  | [], _ => true
  | _ :: _, [] => false
  | x :: a', y :: b' => if N.eqb x y then str_leb a' b' else N.ltb x y
  end.

(** Decimal rendering [str(n)] of integers. *)
Definition digit (n : N) : N := (48 + n)%N.
Fixpoint dec_aux (fuel : nat) (n : N) (acc : pystr) : pystr :=
  match fuel with
  | O => acc
  | S f => if (n <? 10)%N then digit n :: acc
           else dec_aux f (n / 10)%N (digit (n mod 10)%N :: acc)
  end.
Definition str_of_N (n : N) : pystr := dec_aux (S (N.to_nat (N.size n))) n [].
Definition str_of_Z (z : Z) : pystr :=
  match z with
  | Zneg p => 45%N :: str_of_N (Npos p)
  | _ => str_of_N (Z.to_N z)
  end.

(** Exceptions. *)
Inductive exn :=
| TypeError | ValueError | KeyError | AttributeError | IndexError
| UnboundLocalError | FileNotFoundError | NotImplementedErr | ZeroDivisionError
| OtherError.

Inductive result (A : Type) :=
| Ok (a : A)
| Err (e : exn).
Arguments Ok {A} a.
Arguments Err {A} e.

Definition bind {A B} (r : result A) (f : A -> result B) : result B :=
  match r with Ok a => f a | Err e => Err e end.
Definition is_ok {A} (r : result A) : bool := match r with Ok _ => true | Err _ => false end.

Declare Scope res_scope.
Delimit Scope res_scope with res.
Notation "'let!' x ':=' r 'in' k" := (bind r (fun x => k))
  (at level 200, x pattern, r at level 100, k at level 200, right associativity) : res_scope.

(** Map with early exit on the first error. *)
Fixpoint mapM {A B} (f : A -> result B) (l : list A) : result (list B) :=
  match l with
  | [] => Ok []
  | x :: l' => bind (f x) (fun y => bind (mapM f l') (fun ys => Ok (y :: ys)))
  end.

(** Stable insertion sort by a boolean "less or equal" on keys (Python's [sorted] is stable;
    only the resulting list is observable). *)
Section Sort.
  Context {A : Type} (leb : A -> A -> bool).
  Fixpoint insert (x : A) (l : list A) : list A :=
    match l with
    | [] => [x]
    | y :: l' => if leb x y then x :: l else y :: insert x l'
    end.
  Fixpoint isort (l : list A) : list A :=
    match l with
    | [] => []
    | x :: l' => insert x (isort l')
    end.
End Sort.
