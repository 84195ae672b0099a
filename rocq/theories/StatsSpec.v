(** What the statistics of a conversion should say, in terms of the data set and of what is written. *)
From Coq Require Import Ascii String List Bool Arith NArith ZArith.
From Verif Require Import PyBase StatsModel.
Import ListNotations.
Local Open Scope string_scope.
Local Open Scope list_scope.

Definition tally {A} (p : A -> bool) (l : list A) : Z := Z.of_nat (length (filter p l)).
Definition product (p : piece) : bool := match p with Product _ _ => true | _ => false end.
Definition nature (p : piece) : bool := match p with Nature _ _ => true | _ => false end.
Definition found (p : piece) : bool := match p with Nature m _ => m | _ => false end.
Definition parameter (p : piece) : bool := match p with Setting _ => true | _ => false end.
Definition with_volume (p : piece) : bool := match p with Product _ (Some _) => true | _ => false end.

(** the amounts of a data set, and the exchanges that are written *)
Definition amounts (f : list piece) : list amount := flat_map (fun p => match p with Product a v => a :: match v with Some x => [x] | None => [] end | Nature _ a => [a] | Setting a => [a] end) f.
Definition exchanged (f : list piece) : list amount := flat_map (fun p => match p with Product a _ => [a] | Nature true a => [a] | _ => [] end) f.
(** an amount has a variable when it has a name or a formula that is not empty *)
Definition has_text (o : option pystr) : Prop := exists t, o = Some t /\ t <> [].
Definition varies (a : amount) : Prop := has_text (s_name a) \/ has_text (s_math a).
(** variable names of their own *)
Definition names_apart (f : list piece) : Prop :=
  exists names, map s_name (amounts f) = map Some names /\ NoDup names /\ ~ In [] names.
(** field by field *)
Definition adds (c d : counts) : counts :=
  Counts (d_product c + d_product d) (t_product c + t_product d) (d_nature c + d_nature d) (t_nature c + t_nature d) (d_unc c + d_unc d) (t_unc c + t_unc d)
         (d_var c + d_var d) (t_var c + t_var d) (d_volume c + d_volume d) (t_volume c + t_volume d) (d_par c + d_par d) (t_par c + t_par d).
Definition total (l : list counts) : counts := fold_right adds (Counts 0 0 0 0 0 0 0 0 0 0 0 0) l.
(** how many amounts satisfy [P]: [n] *)
Inductive count {A} (P : A -> Prop) : list A -> Z -> Prop :=
| CountNil : count P [] 0
| CountYes x l n : P x -> count P l n -> count P (x :: l) (1 + n)
| CountNo x l n : ~ P x -> count P l n -> count P (x :: l) n.
(** the distribution is one of ILCD; there is a distribution *)
Definition known (a : amount) : Prop := s_unc a = Some true.
Definition uncertain (a : amount) : Prop := s_unc a <> None.
