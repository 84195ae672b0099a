(** ILCD to EcoSpold2: attributes of the activity, the entry of the activity index and what must be present before the
    output can be written.
    ILCD1_to_ECS2_conversion.py 1393-1441 (defaults), 1451-1497 (end), 1543-1564 (comment), 1635-1645 (geography), 1647-1938 (mapping);
    ECS2_structure.py 504-750 (tables); main.py 63-86 (assignment), 122-127 (mandatory attributes). *)

From Coq Require Import Ascii String List Bool Arith NArith ZArith.
From Verif Require Import PyBase PyValues Regex ValidatorsModel.
Import ListNotations.

(** ** Attributes *)
(** object and attribute *)
Definition key : Type := (pystr * pystr)%type.
Definition key_eqb (a b : key) : bool := (str_eqb (fst a) (fst b) && str_eqb (snd a) (snd b))%bool.
Definition store := list (key * pystr).
Fixpoint get (k : key) (st : store) : option pystr :=
  match st with [] => None | (k', v) :: st' => if key_eqb k k' then Some v else get k st' end.
Definition put (k : key) (v : pystr) (st : store) : store := (k, v) :: st.

Definition activity (a : pystr) : key := (lit "activity", a).
Definition index (a : pystr) : key := (lit "activityIndexEntry", a).
Definition name_master (a : pystr) : key := (lit "activityNameMaster", a).
Definition geo_master (a : pystr) : key := (lit "geographyMaster", a).
Definition geography (a : pystr) : key := (lit "geography", a).
Definition technology (a : pystr) : key := (lit "technology", a).
Definition period (a : pystr) : key := (lit "timePeriod", a).
Definition scenario (a : pystr) : key := (lit "macroEconomicScenario", a).
Definition repr (a : pystr) : key := (lit "representativeness", a).
Definition entry_by (a : pystr) : key := (lit "dataEntryBy", a).
Definition generator (a : pystr) : key := (lit "dataGeneratorAndPublication", a).
Definition file (a : pystr) : key := (lit "fileAttributes", a).
Definition flow_data (a : pystr) : key := (lit "flowData", a).

(** 'unique': True in ECS2_structure.py, for the attributes used here *)
Definition unique_keys : list key :=
  [activity (lit "id"); activity (lit "type"); geography (lit "geographyId"); period (lit "startDate"); period (lit "endDate");
   index (lit "id"); index (lit "geographyId"); index (lit "startDate"); index (lit "endDate"); index (lit "systemModelId");
   repr (lit "systemModelId"); generator (lit "isCopyrightProtected"); scenario (lit "macroEconomicScenarioId");
   file (lit "fileGenerator"); file (lit "fileTimestamp"); file (lit "contextId")].
Definition is_unique (k : key) : bool := existsb (key_eqb k) unique_keys.
(** main.py 63-86; the validators of the values are not part of this model (see Validators) *)
Definition assign (st : store) (kv : key * pystr) : result store :=
  if (is_unique (fst kv) && match get (fst kv) st with Some _ => true | None => false end)%bool
  then Err ValueError else Ok (put (fst kv) (snd kv) st).
Fixpoint assign_all (st : store) (l : list (key * pystr)) : result store :=
  match l with [] => Ok st | kv :: l' => bind (assign st kv) (fun st' => assign_all st' l') end.

(** 'mandatory': True in ECS2_structure.py 504-514, 568-735, 814-821; the index entry and the name are written with the user master data only
    (ECS2_structure.py 887-890) *)
Definition index_keys : list key :=
  map index [lit "id"; lit "activityNameId"; lit "geographyId"; lit "startDate"; lit "endDate"; lit "specialActivityType"; lit "systemModelId"]
  ++ [name_master (lit "id"); name_master (lit "name")].
Definition mandatory_keys (user : bool) : list key :=
  (if user then index_keys else []) ++
  [activity (lit "id"); activity (lit "activityNameId"); activity (lit "inheritanceDepth"); activity (lit "type");
   activity (lit "specialActivityType"); activity (lit "energyValues"); activity (lit "activityName");
   geography (lit "geographyId"); geography (lit "shortname");
   technology (lit "technologyLevel");
   period (lit "startDate"); period (lit "endDate"); period (lit "isDataValidForEntirePeriod");
   scenario (lit "macroEconomicScenarioId"); scenario (lit "name");
   repr (lit "systemModelId"); repr (lit "systemModelName");
   entry_by (lit "personId"); entry_by (lit "personName"); entry_by (lit "personEmail");
   generator (lit "personId"); generator (lit "personName"); generator (lit "personEmail"); generator (lit "isCopyrightProtected");
   file (lit "majorRelease"); file (lit "minorRelease"); file (lit "majorRevision"); file (lit "minorRevision");
   file (lit "fileGenerator"); file (lit "fileTimestamp"); file (lit "contextId");
   flow_data (lit "intermediateExchange")].
(** main.py 122-127, ECS2_structure.py 877-892: writing fails when a mandatory attribute is missing *)
Definition written_out (user : bool) (st : store) : result store :=
  if forallb (fun k => match get k st with Some _ => true | None => false end) (mandatory_keys user)
  then Ok st else Err AttributeError.

(** ** Elements of an ILCD process, in document order *)
Inductive element :=
| EUuid (x : pystr)            (* dataSetInformation/UUID *)
| EBaseName (x : pystr)        (* name/baseName *)
| ENamePart (x : pystr)        (* name/treatmentStandardsRoutes, mixAndLocationTypes, functionalUnitFlowProperties *)
| ELink (x : pystr)            (* an "Activity Linkable Id:" line of generalComment *)
| ESubtype (x : pystr)         (* an "Activity Subtype:" line of generalComment, its code *)
| EYear (x : pystr)            (* time/referenceYear *)
| EUntil (x : pystr)           (* time/dataSetValidUntil *)
| ELocation (x : pystr)        (* geography/locationOfOperationSupplyOrProduction/@location *)
| EType (x : pystr)            (* LCIMethodAndAllocation/typeOfDataSet, its code *)
| EEntryBy (id name : pystr)   (* dataEntryBy/referenceToPersonOrEntityEnteringTheData with an identifier *)
| EGenerator (id name : pystr) (* dataGenerator/referenceToPersonOrEntityGeneratingTheDataSet with an identifier *)
| ECopyright (x : pystr)       (* publicationAndOwnership/copyright *)
| EVersion (major minor : pystr) (* publicationAndOwnership/dataSetVersion, its first two numbers *)
| EProduct (x : pystr)         (* exchanges/exchange of a product or waste flow *)
| EOther.                      (* any element that sets none of these attributes *)

(** [cid]: uuid_from_uuid, [nid]: uuid_from_string, [table]: ilcd1_to_ecs2_geographies.json *)
Record world := { cid : pystr -> pystr; nid : pystr -> pystr; table : pystr -> option pystr }.

(** 1678-1687 and 1635-1645; [or]: an empty identifier counts as none in the first, not in the second *)
Definition location_assignments (w : world) (x : pystr) : list (key * pystr) :=
  (geography (lit "shortname"), x) ::
  (geography (lit "geographyId"), match table w x with Some (c :: g) => c :: g | _ => nid w x end) ::
  match table w x with
  | None => [(geo_master (lit "id"), nid w x); (geo_master (lit "shortname"), x); (index (lit "geographyId"), nid w x)]
  | Some g => [(index (lit "geographyId"), g)]
  end.
Definition assignments (w : world) (e : element) : list (key * pystr) :=
  match e with
  | EUuid x => [(activity (lit "id"), cid w x); (index (lit "id"), cid w x)]
  | EBaseName x => [(activity (lit "activityName"), x); (activity (lit "activityNameId"), nid w x);
                    (index (lit "activityNameId"), nid w x); (name_master (lit "id"), nid w x); (name_master (lit "name"), x)]
  | ENamePart x => [(activity (lit "activityName"), x); (name_master (lit "name"), x)]
  | ELink x => [(activity (lit "activityNameId"), x); (index (lit "activityNameId"), x); (name_master (lit "id"), x)]
  | ESubtype x => [(activity (lit "specialActivityType"), x); (index (lit "specialActivityType"), x); (activity (lit "specialActivityType"), x)]
  | EYear x => [(period (lit "startDate"), x ++ lit "-01-01"); (index (lit "startDate"), x ++ lit "-01-01")]
  | EUntil x => [(period (lit "endDate"), x ++ lit "-12-31"); (index (lit "endDate"), x ++ lit "-12-31")]
  | ELocation x => location_assignments w x
  | EType x => [(activity (lit "type"), x)]
  | EEntryBy i n => [(entry_by (lit "personId"), cid w i); (entry_by (lit "personName"), n); (entry_by (lit "personEmail"), [])]
  | EGenerator i n => [(generator (lit "personId"), cid w i); (generator (lit "personName"), n); (generator (lit "personEmail"), [])]
  | ECopyright x => [(generator (lit "isCopyrightProtected"), x)]
  | EVersion a b => [(file (lit "majorRelease"), a); (file (lit "minorRelease"), lit "0"); (file (lit "majorRevision"), lit "0");
                     (file (lit "minorRevision"), b)]
  | EProduct x => [(flow_data (lit "intermediateExchange"), x)]
  | EOther => []
  end.
(** 1393-1441 [default]; attributes that are not mandatory are left out *)
Definition default_assignments (now : pystr) : list (key * pystr) :=
  [(scenario (lit "macroEconomicScenarioId"), lit "d9f57f0a-a01f-42eb-a57b-8f18d6635801"); (scenario (lit "name"), lit "Business-as-Usual");
   (activity (lit "inheritanceDepth"), lit "0"); (period (lit "isDataValidForEntirePeriod"), lit "1");
   (activity (lit "specialActivityType"), lit "0"); (technology (lit "technologyLevel"), lit "3");
   (file (lit "fileGenerator"), lit "Lavoisier version"); (file (lit "fileTimestamp"), now);
   (file (lit "majorRelease"), lit "1"); (file (lit "minorRelease"), lit "0"); (file (lit "majorRevision"), lit "0"); (file (lit "minorRevision"), lit "0");
   (file (lit "contextId"), lit "de659012-50c4-4e96-b54a-fc781bf987ab"); (index (lit "specialActivityType"), lit "0")].
(** 1451-1497 [reset_conversion]: identifier and name of the system model, energy values (a value found in a comment is kept
    by the code; here it is assigned again) *)
Definition end_assignments (model name energy : pystr) : list (key * pystr) :=
  [(repr (lit "systemModelId"), model); (repr (lit "systemModelName"), name); (index (lit "systemModelId"), model); (activity (lit "energyValues"), energy)].
Definition all_assignments (w : world) (now model name energy : pystr) (els : list element) : list (key * pystr) :=
  default_assignments now ++ flat_map (assignments w) els ++ end_assignments model name energy.
Definition convert (w : world) (now model name energy : pystr) (els : list element) : result store :=
  assign_all [] (all_assignments w now model name energy els).

