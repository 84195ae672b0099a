(** Merging of exchanges: what is promised. *)
From Coq Require Import Ascii String List Bool Arith NArith ZArith Reals.
From Verif Require Import PyBase PyValues AmountModel AmountSpec FlowModel MergeModel.
Import ListNotations.
Local Open Scope R_scope.

(** Total of a flow in one direction, in base units. *)
Fixpoint total_before (k : key) (l : list mflow) : R :=
  match l with
  | [] => 0
  | x :: l' => (if key_eqb k (x_key x) then physical (am_a (x_amount x)) else 0) + total_before k l'
  end.
Fixpoint total_after (k : key) (l : list out) : R :=
  match l with
  | [] => 0
  | o :: l' => (if key_eqb k (o_key o) then match o_qty o with Some q => physical q | None => 0 end else 0) + total_after k l'
  end.
Fixpoint count_after (k : key) (l : list out) : nat :=
  match l with
  | [] => 0
  | o :: l' => ((if key_eqb k (o_key o) then 1 else 0) + count_after k l')%nat
  end.
(** Numbers are distinct, and no other exchange has the flow of an elementary one. *)
Definition well_formed (l : list mflow) : Prop :=
  NoDup (map x_num l) /\
  (forall x y, In x l -> In y l -> x_key x = x_key y -> x_elem x = x_elem y) /\
  (forall x, In x l -> real_unit (q_unit (am_a (x_amount x)))).
