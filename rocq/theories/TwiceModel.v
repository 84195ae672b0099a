(** The structure of an ILCD process during a conversion from EcoSpold2, and which of its single-valued fields
    each handler assigns: data_structures/ILCD1_structure.py 484-511 and 536-556, ECS2_to_ILCD1_conversion.py
    2173-2486, converter.py 244-250. *)
From Coq Require Import Ascii String List Bool Arith NArith ZArith.
From Verif Require Import PyBase PyValues MultiLangModel DotDictModel SchemaModel SchemaTables.
Import ListNotations.
Local Open Scope string_scope.
Local Open Scope list_scope.

(** A program stops at its first error. *)
Section Programs.
  Context (U : universe).
  Fixpoint runs (os : list (op U)) (d : dd U) : outcome U :=
    match os with
    | [] => (d, None)
    | o :: os' => match exec U o d with (d', None) => runs os' d' | (d', Some e) => (d', Some e) end
    end.

  (** ILCD1Structure: an ordinary object whose attributes are DotDict instances; its attributes are read only. *)
  Definition whole : Type := list (pystr * dd U).
  Definition act : Type := (pystr * op U)%type.
  Definition do_act (a : act) (s : whole) : whole * option exn :=
    match getf (fst a) s with
    | None => (s, Some AttributeError)
    | Some d => let '(d', e) := exec U (snd a) d in (putf (fst a) d' s, e)
    end.
  Fixpoint do_acts (l : list act) (s : whole) : whole * option exn :=
    match l with
    | [] => (s, None)
    | a :: l' => match do_act a s with (s', None) => do_acts l' s' | (s', Some e) => (s', Some e) end
    end.
  Definition new_whole (roots : list (pystr * nat)) : whole := map (fun rc => (fst rc, DD U (snd rc) [])) roots.
End Programs.

(** ILCD1_structure.py 489-498 *)
Definition ilcd_roots : list (pystr * nat) :=
  [(lit "dataSetInformation", ILCD1_DataSetInformation);
   (lit "quantitativeReference", ILCD1_QuantitativeReference);
   (lit "time", ILCD1_Time);
   (lit "technology", ILCD1_Technology);
   (lit "geography", ILCD1_Geography);
   (lit "modellingAndValidation", ILCD1_ModellingAndValidation);
   (lit "administrativeInformation", ILCD1_AdministrativeInformation);
   (lit "mathematicalRelations", ILCD1_MathematicalRelations);
   (lit "exchanges", ILCD1_Exchanges)].
(** 547-551 *)
Definition olca_roots : list (pystr * nat) :=
  putf (lit "time") ILCD1_OLCATime (putf (lit "mathematicalRelations") ILCD1_OLCAMathematicalRelations
    (putf (lit "exchanges") ILCD1_OLCAExchanges ilcd_roots)).

(** A field of the structure: the attribute of the structure, the attributes to follow, the field. *)
Record place := { p_root : pystr; p_path : list pystr; p_field : pystr }.
Definition at_place (r : string) (p : list string) (f : string) : place :=
  {| p_root := lit r; p_path := map lit p; p_field := lit f |}.
Definition publication (f : string) : place := at_place "administrativeInformation" ["publicationAndOwnership"] f.

(** The single-valued fields that the handler of a path assigns whatever its value; a handler may assign others
    as well. *)
Definition assign_table : list (string * list place) :=
  [("/ecoSpold/activityDataset/activityDescription/activity/@id", [at_place "dataSetInformation" [] "UUID"]);
   ("/ecoSpold/activityDataset/activityDescription/activity/@type",
    [at_place "modellingAndValidation" ["LCIMethodAndAllocation"] "typeOfDataSet"]);
   ("/ecoSpold/activityDataset/activityDescription/geography/shortname",
    [at_place "geography" ["locationOfOperationSupplyOrProduction"] "location"]);
   ("/ecoSpold/activityDataset/activityDescription/timePeriod/@startDate", [at_place "time" [] "referenceYear"]);
   ("/ecoSpold/activityDataset/activityDescription/timePeriod/@endDate", [at_place "time" [] "dataSetValidUntil"]);
   ("/ecoSpold/activityDataset/modellingAndValidation/representativeness/@percent",
    [at_place "modellingAndValidation" ["dataSourcesTreatmentAndRepresentativeness"] "percentageSupplyOrProductionCovered"]);
   ("/ecoSpold/activityDataset/modellingAndValidation/representativeness/systemModelName",
    [at_place "modellingAndValidation" ["LCIMethodAndAllocation"] "LCIMethodPrinciple"]);
   ("/ecoSpold/activityDataset/administrativeInformation/dataEntryBy",
    [at_place "administrativeInformation" ["dataEntryBy"] "referenceToPersonOrEntityEnteringTheData"]);
   ("/ecoSpold/activityDataset/administrativeInformation/dataGeneratorAndPublication", [publication "referenceToOwnershipOfDataSet"]);
   ("/ecoSpold/activityDataset/administrativeInformation/dataGeneratorAndPublication/@dataPublishedIn",
    [publication "workflowAndPublicationStatus"]);
   ("/ecoSpold/activityDataset/administrativeInformation/dataGeneratorAndPublication/@isCopyrightProtected", [publication "copyright"]);
   ("/ecoSpold/activityDataset/administrativeInformation/fileAttributes", [publication "dataSetVersion"])].
(** 2483-2485: child data sets too *)
Definition assigns : list (pystr * list place) :=
  map (fun kt => (lit (fst kt), snd kt)) assign_table ++
  map (fun kt => (replace (lit "activityDataset") (lit "childActivityDataset") (lit (fst kt)), snd kt)) assign_table.
Definition places (k : pystr) : list place := match getf k assigns with Some l => l | None => [] end.

Section Conversion.
  Context (U : universe).
  Definition set_place (t : place) (a : arg U) : act U := (p_root t, OSet U (map Attr (p_path t)) (p_field t) a).
  (** The handler of the path [k] performs the acts [l] (besides what it does to other objects): the assignments
      of the table are among them, with some value that is not an empty list. *)
  Definition handles (k : pystr) (l : list (act U)) : Prop :=
    forall t, In t (places k) -> exists a, a <> AList U [] /\ In (set_place t a) l.
  (** converter.py 247-250: the reports are handled in order and no handler raises an exception; [fine] restricts
      what the handler of a path may do. *)
  Inductive converts (fine : pystr -> act U -> Prop) : list (pystr * pyval) -> whole U -> whole U -> Prop :=
  | converts_end s : converts fine [] s s
  | converts_report k x r l s s' s'' :
      handles k l -> Forall (fine k) l -> do_acts U l s = (s', None) -> converts fine r s' s'' ->
      converts fine ((k, x) :: r) s s''.
End Conversion.
