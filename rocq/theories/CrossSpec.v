(** Exchanges that go to ILCD and come back. *)
From Coq Require Import Ascii String List Bool Arith NArith ZArith.
From Verif Require Import PyBase PyValues DotDictModel XmlModel XmlSpec XmlProps HandleSpec AsideSpec InflowSpec ValidatorsSpec ExchangeModel FlowModel OutflowProofs InflowModel CrossModel.
Import ListNotations.
Local Open Scope string_scope.
Local Open Scope list_scope.

(** <inputGroup>g</inputGroup>, or <outputGroup>g</outputGroup> *)
Definition exchange_group (x : elem) (d : direction) (g : pystr) : Prop :=
  record_element x /\
  match d with
  | Input => child_text x "inputGroup" g
  | Output => named_kids (lit "inputGroup") (ekids x) [] /\ child_text x "outputGroup" g
  end.
(** The group that an exchange comes back with; [by_] is the by-product class, which only products have. *)
Inductive comes_back : direction -> pystr -> option pystr -> group_field -> Z -> Prop :=
(* elementary exchanges *)
| back_resource : comes_back Input (lit "4") None InputGroup 4
| back_emission : comes_back Output (lit "4") None OutputGroup 4
(* all inputs of products are inputs from technosphere *)
| back_input g by_ : In g (map lit ["1"; "2"; "3"; "5"]) -> comes_back Input g by_ InputGroup 5
| back_reference by_ : comes_back Output (lit "0") by_ OutputGroup 0
(* without a class: by-products, wastes, stock additions *)
| back_byproduct : comes_back Output (lit "2") None OutputGroup 2
| back_treatment : comes_back Output (lit "3") None OutputGroup 3
| back_stock : comes_back Output (lit "5") None OutputGroup 2
(* with a class *)
| back_waste g : In g (map lit ["2"; "3"; "5"]) -> comes_back Output g (Some (lit "Waste")) OutputGroup 3
| back_product g c : In g (map lit ["2"; "3"; "5"]) -> c <> lit "Waste" -> comes_back Output g (Some c) OutputGroup 2.
(** the groups that EcoSpold2 has: those of elementary exchanges, and those of products *)
Definition allowed_group (d : direction) (g : pystr) (by_ : option pystr) : Prop :=
  match d with
  | Input => In g (map lit ["1"; "2"; "3"; "5"]) \/ g = lit "4" /\ by_ = None
  | Output => In g (map lit ["0"; "2"; "3"; "5"]) \/ g = lit "4" /\ by_ = None
  end.
(** the number of a group, as a text *)
Definition group_number (z : Z) (g : pystr) : Prop := str_of_Z z = g.
Definition field_direction (f : group_field) : direction := match f with InputGroup => Input | OutputGroup => Output end.

(** The other parts of a process have other names. *)
Definition other_names (names : list string) (d : list (pystr * pyval)) : Prop :=
  Forall (fun kv => OutflowModel.is_child (fst kv) = true -> ~ In (bare_key (fst kv)) (map lit names)) d /\ good (VDict d) = true.
Record parts_ok (ns : pystr) (p : parts) : Prop := Parts_ok {
  ok_space : getf (lit "@xmlns") (head p) = Some (VStr ns);
  ok_head : other_names ["processInformation"; "exchanges"] (head p);
  ok_middle : other_names ["processInformation"; "exchanges"] (middle p);
  ok_info : other_names ["quantitativeReference"] (info_head p) /\ other_names ["quantitativeReference"] (info_tail p);
  ok_quant : other_names ["referenceToReferenceFlow"] (quant_head p) /\ other_names ["referenceToReferenceFlow"] (quant_tail p) }.
(** The fields that an uncertainty sets. *)
Definition uncertainty_of_exchange : list string := ["minimumAmount"; "maximumAmount"; "uncertaintyDistributionType"; "relativeStandardDeviation95In"].
Section Numbers.
  Context {num : Type} (to_num : pyval -> result num) (show : pyval -> pystr) (more : pyval -> result unit).
  (** the amount [a], as it is written, is read as [q] *)
  Definition read_as (a : pyval) (q : num) : Prop :=
    (exists f, a = VFloat f) /\ ~ blank (Some (show a)) /\ to_num (VStr (show a)) = Ok q.
  Definition well_sent (s : sent) : Prop :=
    s_id s <> [] /\ ~ blank (Some (s_name s)) /\ (exists q, read_as (s_amount s) q) /\
    Forall (fun kv => In (fst kv) (map lit uncertainty_of_exchange) /\ good (snd kv) = true) (s_uncertainty s) /\
    forallb good (s_sources s) = true /\ Forall (fun ls => ~ blank (Some (snd ls))) (s_comments s).
End Numbers.
(** The folder has the file of a flow: no other name could be taken for it. *)
Definition ends_in_digit (v : pystr) : Prop := exists u c, v = u ++ [c] /\ (48 <= c <= 57)%N.
Definition version_ok (v : pystr) : Prop := ends_in_digit v /\ ~ In (ch "/") v.
(** every file of the folder is the one of a flow that was written *)
Definition names_written (d : files) (l : list sent) : Prop := forall n, In n (map fst d) -> exists s, In s l /\ n = flow_file_name s.
(** The folder for flows after the exchanges [l]; a flow that is made here has an identifier that no copied flow has. *)
Record folder_for (d : files) (l : list sent) : Prop := Folder_for {
  in_names : names_written d l;
  in_once : NoDup (map fst d);
  in_ids : Forall (fun s => is_uuid (s_id s) /\ version_ok (s_version s)) l;
  in_apart : forall a b, In a l -> In b l -> s_id a = s_id b -> s_own a = s_own b }.
(** [s] is on the way for the exchange [x] of EcoSpold2, as far as direction and group are concerned *)
Definition sent_for (x : elem) (s : sent) : Prop := exists d, elem2dict x = VDict d /\ direction_of d = Ok (s_flow s).
(** the groups that are written again *)
Definition kept_group (d : direction) (g : pystr) (by_ : option pystr) : Prop :=
  match d with
  | Input => g = lit "5" \/ g = lit "4" /\ by_ = None
  | Output => g = lit "0" \/ g = lit "4" /\ by_ = None \/ g = lit "2" /\ by_ <> Some (lit "Waste") \/
              g = lit "3" /\ (by_ = None \/ by_ = Some (lit "Waste"))
  end.
(** <elementaryExchange elementaryExchangeId="i" amount="a"> *)
Definition elementary_exchange (x : elem) (i a : pystr) : Prop :=
  record_element x /\ attribute x "elementaryExchangeId" i /\ attribute x "amount" a.
Section Leaving.
  Context {num : Type} (to_num : pyval -> result num) (one : num) (mul : num -> num -> num).
  Context (scale : pystr -> option num) (outward : list (pystr * target)) (as_value : num -> pyval) (version_of : pystr -> result pystr).
  (** the factor of a row of the mapping, which is one if the row has none *)
  Definition row_factor (t : target) (f : num) : Prop :=
    if str_in (t_factor t) [[]; lit "n/a"] then f = one else to_num (VStr (t_factor t)) = Ok f.
  (** the exchange [x] is sent as [r], on the way to ILCD *)
  Definition leaves (x : elem) (r : result (option sent)) : Prop :=
    exists d, elem2dict x = VDict d /\ sent_elementary num to_num one mul scale outward as_value version_of d = r.
End Leaving.
