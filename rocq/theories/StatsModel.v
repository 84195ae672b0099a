(** The statistics written to the log at the end of a conversion from EcoSpold2 to ILCD (ECS2_to_ILCD1_conversion.py 69, 160-184, 333-350, 390-399, 498-505, 631, 955-957,
    1109, 1132, 1179, 1281-1284, 1890-1923, 1978-2000, 2161-2162, 2302-2345; converter.py 259-266). *)
From Coq Require Import Ascii String List Bool Arith NArith ZArith.
From Verif Require Import PyBase VariableModel.
Import ListNotations.
Local Open Scope string_scope.
Local Open Scope list_scope.

(** An amount whose unit is the one of ILCD: its variable name, its formula, and its uncertainty; [Some true] is a distribution ILCD knows, [Some false] one
    that goes to the comment (168-170). *)
Record amount := Amount { s_name : option pystr; s_math : option pystr; s_unc : option bool }.
(** What is counted in a data set: exchanges with a product and their production volume, exchanges with the environment, with or without a counterpart in ILCD,
    and parameters. Properties, sources, contacts, reviews and classifications are left out. *)
Inductive piece :=
| Product (a : amount) (volume : option amount)
| Nature (mapped : bool) (a : amount)
| Setting (a : amount).

(** the class attributes [statistics] and [.._stat]: what was converted, and what was found *)
Record counts := Counts {
  d_product : Z; t_product : Z; d_nature : Z; t_nature : Z; d_unc : Z; t_unc : Z; d_var : Z; t_var : Z; d_volume : Z; t_volume : Z; d_par : Z; t_par : Z }.
Definition zero : counts := Counts 0 0 0 0 0 0 0 0 0 0 0 0.
Definition one_if (b : bool) : Z := if b then 1%Z else 0%Z.

(** 2304-2309, 2329, 2343: a name or a formula *)
Definition has_variable (a : amount) : bool := truthy (s_name a) || truthy (s_math a).
Definition has_unc (a : amount) : bool := match s_unc a with Some _ => true | None => false end.
Definition known_unc (a : amount) : bool := match s_unc a with Some b => b | None => false end.
(** [o] as an amount that may be absent *)
Definition of_volume (f : amount -> bool) (o : option amount) : bool := match o with Some a => f a | None => false end.

(** what a handler adds to the counters when an element is read *)
Definition read_piece (p : piece) (c : counts) : counts :=
  match p with
  | Product a v =>
      {| d_product := d_product c + 1; t_product := t_product c + 1; d_nature := d_nature c; t_nature := t_nature c;
         d_unc := d_unc c + one_if (known_unc a); t_unc := t_unc c + one_if (has_unc a) + one_if (of_volume has_unc v);
         d_var := d_var c; t_var := t_var c + one_if (has_variable a) + one_if (of_volume has_variable v);
         d_volume := d_volume c + one_if (of_volume (fun _ => true) v); t_volume := t_volume c + one_if (of_volume (fun _ => true) v);
         d_par := d_par c; t_par := t_par c |}
  | Nature m a =>
      {| d_product := d_product c; t_product := t_product c; d_nature := d_nature c + one_if m; t_nature := t_nature c + 1;
         d_unc := d_unc c + (if m then one_if (known_unc a) else 0); t_unc := t_unc c + one_if (has_unc a);
         d_var := d_var c; t_var := t_var c + one_if (has_variable a); d_volume := d_volume c; t_volume := t_volume c; d_par := d_par c; t_par := t_par c |}
  | Setting a =>
      {| d_product := d_product c; t_product := t_product c; d_nature := d_nature c; t_nature := t_nature c;
         d_unc := d_unc c; t_unc := t_unc c + one_if (has_unc a);
         d_var := d_var c; t_var := t_var c + one_if (has_variable a); d_volume := d_volume c; t_volume := t_volume c; d_par := d_par c + 1; t_par := t_par c + 1 |}
  end%Z.
(** [_all_amounts], with the two letters of the kind (397-398) *)
Definition amounts_of (p : piece) : list (pystr * amount) :=
  match p with
  | Product a v => (lit "fl", a) :: match v with Some x => [(lit "pr", x)] | None => [] end
  | Nature _ a => [(lit "fl", a)]
  | Setting a => [(lit "pa", a)]
  end.
(** the variable of an amount (391-399): its name, numbered from [k] on if it has none *)
Definition label (k : nat) (x : pystr * amount) : pystr := match s_name (snd x) with Some v => v | None => eq_name (fst x) k end.
Fixpoint labelled (on : bool) (k : nat) (l : list (pystr * amount)) : list (pystr * amount) :=
  match l with
  | [] => []
  | x :: l' => if on && has_variable (snd x) then (label k x, snd x) :: labelled on (S k) l' else labelled on k l'
  end.
(** 333-350, 498-505: a variable is written unless its name is taken; its uncertainty is uncounted and counted again when it is written. The amount counts as
    converted in any case. *)
Fixpoint construct_all (taken : list pystr) (l : list (pystr * amount)) (c : counts) : list (pystr * amount) * counts :=
  match l with
  | [] => ([], c)
  | x :: l' =>
      let new := negb (str_in (fst x) taken) in
      let c' := {| d_product := d_product c; t_product := t_product c; d_nature := d_nature c; t_nature := t_nature c;
                   d_unc := (if new then if has_unc (snd x) then d_unc c - 1 + one_if (known_unc (snd x)) else d_unc c else d_unc c)%Z; t_unc := t_unc c;
                   d_var := (d_var c + 1)%Z; t_var := t_var c; d_volume := d_volume c; t_volume := t_volume c; d_par := d_par c; t_par := t_par c |} in
      let r := construct_all (if new then fst x :: taken else taken) l' c' in
      ((if new then [x] else []) ++ fst r, snd r)
  end.
(** one file: its elements, then its variables (2061-2063) *)
Definition one_file (on : bool) (f : list piece) (c : counts) : list (pystr * amount) * counts :=
  construct_all [] (labelled on 1 (flat_map amounts_of f)) (fold_left (fun c p => read_piece p c) f c).

(** converter.py 259-266: in file mode the statistics are written and set to zero after each file, otherwise after the last one *)
Fixpoint run (on each : bool) (fs : list (list piece)) (c : counts) : list counts :=
  match fs with
  | [] => []
  | f :: fs' => let c' := snd (one_file on f c) in
                match fs' with
                | [] => [c']
                | _ => if each then c' :: run on each fs' zero else run on each fs' c'
                end
  end.

(** 1978-2000: a line of the log *)
Definition line (what : string) (d t : Z) : pystr := lit what ++ lit ": " ++ str_of_Z d ++ lit "/" ++ str_of_Z t.
Definition log_of (c : counts) : list pystr :=
  [line "Intermediate Flow" (d_product c) (t_product c); line "Elementary Flow" (d_nature c) (t_nature c); line "Uncertainty" (d_unc c) (t_unc c);
   line "Variable" (d_var c) (t_var c); line "ProductionVolume" (d_volume c) (t_volume c); line "Parameter" (d_par c) (t_par c)].
