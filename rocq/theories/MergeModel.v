(** Merging of exchanges of one elementary flow (option sum_same_elementary_amounts).
    ECS2_to_ILCD1_conversion.py 2066-2111, ILCD1_to_ECS2_conversion.py 239-248, 1499-1532.
    Comments, variables and allocation of the exchanges are left out. *)
From Coq Require Import Ascii String List Bool Arith NArith ZArith Reals.
From Verif Require Import PyBase PyValues AmountModel FlowModel.
Import ListNotations.

(** an exchange: its number (ILCD) or id (EcoSpold2), the identifier of its flow and its direction, whether the flow is elementary,
    its amount, the sources (a missing list is [None]) and the bounds written so far *)
Definition key : Type := pystr * direction.
Definition dir_eqb (a b : direction) : bool := match a, b with Input, Input | Output, Output => true | _, _ => false end.
Definition key_eqb (a b : key) : bool := str_eqb (fst a) (fst b) && dir_eqb (snd a) (snd b).
Record mflow := { x_num : nat; x_key : key; x_elem : bool; x_amount : amount;
                  x_sources : option (list pystr); x_bounds : option bounds }.
(** the written exchange; [o_qty]: mean and resulting amount, in the unit of the flow *)
Record out := { o_num : nat; o_key : key; o_qty : option quantity; o_sources : option (list pystr); o_bounds : option bounds }.
Definition write_out (x : mflow) (q : option quantity) : out :=
  {| o_num := x_num x; o_key := x_key x; o_qty := q; o_sources := x_sources x; o_bounds := x_bounds x |}.

(** 2068-2071: a dictionary of lists, in the order of the first use of each key *)
Definition key_in (k : key) (l : list key) : bool := existsb (key_eqb k) l.
Fixpoint keys_of (l : list mflow) : list key :=
  match l with [] => [] | x :: l' => x_key x :: filter (fun k => negb (key_eqb (x_key x) k)) (keys_of l') end.
Definition group (k : key) (l : list mflow) : list mflow := filter (fun x => key_eqb k (x_key x)) l.
(** 2072: the keys of the groups with more than one member *)
Definition double_keys (s : list mflow) : list key := filter (fun k => Nat.ltb 1 (List.length (group k s))) (keys_of s).

(** 2090-2093: sources of [f] that the first exchange lacks are added to it *)
Fixpoint add_sources (mine : option (list pystr)) (l : list pystr) : result (option (list pystr)) :=
  match l with
  | [] => Ok mine
  | n :: l' => match mine with
               | None => Err TypeError
               | Some m => add_sources (Some (if str_in n m then m else m ++ [n])) l'
               end
  end.
Definition merge_sources (mine other : option (list pystr)) : result (option (list pystr)) :=
  match other with None => Ok mine | Some l => add_sources mine l end.
(** 2089-2100; bounds are written again only while there is an uncertainty *)
Fixpoint merge_ilcd (x : mflow) (fs : list mflow) : result mflow :=
  match fs with
  | [] => Ok x
  | f :: fs' =>
      bind (merge_sources (x_sources x) (x_sources f)) (fun s =>
      bind (sum_ (x_amount x) (AmountOp (x_amount f))) (fun a =>
      bind (calculate_unc a) (fun b =>
      merge_ilcd {| x_num := x_num x; x_key := x_key x; x_elem := x_elem x; x_amount := a; x_sources := s;
                    x_bounds := match b with Some b' => Some b' | None => x_bounds x end |} fs')))
  end.
(** ILCD1_to_ECS2 239-248, 1506-1507: only the amounts are added *)
Fixpoint merge_ecs2 (x : mflow) (fs : list mflow) : result mflow :=
  match fs with
  | [] => Ok x
  | f :: fs' =>
      bind (sum_ (x_amount x) (AmountOp (x_amount f))) (fun a =>
      merge_ecs2 {| x_num := x_num x; x_key := x_key x; x_elem := x_elem x; x_amount := a; x_sources := x_sources x;
                    x_bounds := x_bounds x |} fs')
  end.

(** 2102-2111: the first exchange gets the total, the others are taken from the list *)
Definition num_in (n : nat) (l : list mflow) : bool := existsb (fun x => Nat.eqb n (x_num x)) l.
Definition apply_group (M : mflow -> list mflow -> result mflow) (g : list mflow) (xs : list out) : result (list out) :=
  match g with
  | [] => Ok xs
  | x :: fs =>
      bind (M x fs) (fun y =>
      Ok (map (fun o => if Nat.eqb (o_num o) (x_num x) then write_out y (Some (am_a (x_amount y))) else o)
              (filter (fun o => negb (num_in (o_num o) fs)) xs)))
  end.
Fixpoint apply_groups (M : mflow -> list mflow -> result mflow) (s : list mflow) (ks : list key) (xs : list out) : result (list out) :=
  match ks with
  | [] => Ok xs
  | k :: ks' => bind (apply_group M (group k s) xs) (apply_groups M s ks')
  end.
(** ECS2 to ILCD: amounts of exchanges to be merged are not written first (2074-2086) *)
Definition is_elem (x : mflow) : bool := x_elem x.
Definition merge_to_ilcd (l : list mflow) : result (list out) :=
  let s := filter is_elem l in
  apply_groups merge_ilcd s (double_keys s)
    (map (fun x => write_out x (if key_in (x_key x) (double_keys s) then None else Some (am_a (x_amount x)))) l).
(** ILCD to ECS2: [s] is the set of elementary exchanges in the order in which Python goes through it *)
Definition merge_to_ecs2 (s l : list mflow) : result (list out) :=
  apply_groups merge_ecs2 s (double_keys s) (map (fun x => write_out x (Some (am_a (x_amount x)))) l).
