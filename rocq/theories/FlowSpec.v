(** Exchanges: what is promised, without the functions of the model. *)
From Coq Require Import Ascii String List Bool Arith NArith ZArith.
From Verif Require Import PyBase PyValues FlowModel.
Import ListNotations.

(** The exchange is an output of group 0, a reference product. *)
Definition reference_product (x : flow_in) : Prop := fi_dir x = Output /\ fi_group x = lit "0".
Fixpoint last_text (l : list flow_in) (d : option pystr) : option pystr :=
  match l with
  | [] => d
  | x :: l' => last_text l' (match fi_dir x with Output => if str_eqb (fi_group x) (lit "0") then Some (fi_text x) else d | Input => d end)
  end.
Fixpoint count_refs (l : list flow_in) : nat :=
  match l with
  | [] => 0
  | x :: l' => match fi_dir x with
               | Output => if str_eqb (fi_group x) (lit "0") then S (count_refs l') else count_refs l'
               | Input => count_refs l'
               end
  end.

(** The groups of the EcoSpold2 schema, of intermediate and of elementary exchanges. *)
Definition legal_group (x : flow_in) : Prop :=
  match fi_dir x with
  | Input => In (fi_group x) [lit "1"; lit "2"; lit "3"; lit "5"; lit "4"]
  | Output => In (fi_group x) [lit "0"; lit "2"; lit "3"; lit "5"; lit "4"]
  end.

(** [eqb] decides equality of property lists. *)
Definition decides {P} (eqb : P -> P -> bool) : Prop := forall a b, eqb a b = true <-> a = b.

(** Every use of a flow designates a file that holds its properties. *)
Definition well_referenced {P} (d : folder P) (uses : list (pystr * P)) (vs : list nat) : Prop :=
  List.length vs = List.length uses /\
  forall i fid fp v, nth_error uses i = Some (fid, fp) -> nth_error vs i = Some v -> file_content (fid, v) d = Some fp.
(** Two uses of one flow have one version exactly when they have the same properties. *)
Definition versions_identify {P} (uses : list (pystr * P)) (vs : list nat) : Prop :=
  forall i j fid fp fq v w,
    nth_error uses i = Some (fid, fp) -> nth_error uses j = Some (fid, fq) ->
    nth_error vs i = Some v -> nth_error vs j = Some w -> (v = w <-> fp = fq).

(** The schema of EcoSpold2 names this attribute of an exchange. *)
Definition schema_attribute := lit "@specificAllocationPropertyId".
Definition schema_flow (x : alloc_flow) : Prop := forall k v, In (k, v) (af_attrs x) -> k <> lit "@specificAllocationProperty".
(** The property by which the source allocates the exchange. *)
Definition source_property (master : option pystr) (x : alloc_flow) : option pystr :=
  match find (fun kv => str_eqb (fst kv) schema_attribute) (af_attrs x) with
  | Some kv => Some (snd kv)
  | None => master
  end.

(** The flow property that the energy basis asks for. *)
Inductive energy_basis := Undefined | Net | Gross.
Definition basis_text (b : energy_basis) : pystr :=
  match b with Undefined => lit "undefined" | Net => lit "net calorific value" | Gross => lit "gross calorific value" end.
Definition expected_property (b : option energy_basis) : pystr :=
  match b with Some Gross => lit "Gross calorific value" | _ => lit "Net calorific value" end.

(** Every data set that is referred to is written. *)
Definition complete_output (refs files : list pystr) : Prop := forall x, In x refs <-> In x files.
