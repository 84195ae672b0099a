(** Data without an ILCD counterpart, which the conversion from EcoSpold2 sets aside in an instance of
    ECS2ToILCD1DataNotConverted: ECS2_to_ILCD1_conversion.py 636-642 (parameters), 711-769 (properties), 1054-1071,
    1137-1143, 1230-1238 and 1332-1335 (exchanges), 1788-1792 (reviews), 2173-2481 (the handlers). *)
From Coq Require Import Ascii String List Bool Arith NArith ZArith.
From Verif Require Import PyBase PyValues MultiLangModel DotDictModel SchemaModel SchemaTables XmlModel UtilsModel HandleModel
  ClassModel.
Import ListNotations.
Local Open Scope string_scope.
Local Open Scope list_scope.

(** Steps on the structure of data set aside: [note.f = v], reading [note.f], an exception raised while
    the value is computed. *)
Inductive jot := JSet (f : pystr) (v : pyval) | JGet (f : pystr) | JRaise (e : exn).

Section Notes.
  Context (E : env).
  Notation U := (lavoisier E).

  (** A value read from XML as the right-hand side of an assignment. *)
  Fixpoint arg_of (v : pyval) : arg U :=
    match v with
    | VNone => ANone U
    | VBool b => AScalar U (SBool b)
    | VInt z => AScalar U (SInt z)
    | VFloat f => AScalar U (SFloat f)
    | VStr s => AScalar U (SStr s)
    | VList l => AList U (map arg_of l)
    | VTuple l => AScalar U (STuple l)
    | VDict d => ADict U (map (fun kv => (fst kv, arg_of (snd kv))) d)
    | VObj => AScalar U SObj
    end.
  Definition do_jot (j : jot) (d : dd U) : outcome U :=
    match j with
    | JSet f v => set_item U d f (arg_of v)
    | JGet f => match get_item U d f with (d', Ok _) => (d', None) | (d', Err e) => (d', Some e) end
    | JRaise e => (d, Some e)
    end.
  Fixpoint jots (l : list jot) (d : dd U) : outcome U :=
    match l with
    | [] => (d, None)
    | j :: l' => match do_jot j d with (d', None) => jots l' d' | o => o end
    end.
End Notes.

Definition at_ (n : string) : pystr := lit "@" ++ lit n.
(** [if x.get('@n'): note.n = x['@n']] *)
Definition flag (x : list (pystr * pyval)) (n : string) : list jot :=
  match getf (at_ n) x with Some v => if truth v then [JSet (lit n) v] else [] | None => [] end.
Definition flags (x : list (pystr * pyval)) (l : list string) : list jot := flat_map (flag x) l.

(** formats/helpers.py 78-87 [ILCD1Helper.return_text] *)
Definition return_text (v : pyval) : result pyval :=
  match v with
  | VStr _ => Ok v
  | VDict _ => text_item v
  | VList [] => Err IndexError
  | VList (y :: _) => text_item y
  | _ => Err ValueError
  end.
Definition jot_of (f : string) (r : result pyval) : jot := match r with Ok v => JSet (lit f) v | Err e => JRaise e end.
(** 1057-1058; a missing tag is an empty dict *)
Definition tag_jots (x : list (pystr * pyval)) : list jot :=
  match ensure_list (match getf (lit "tag") x with Some v => v | None => VDict [] end) false with
  | Ok l => map (fun t => jot_of "tag" (return_text t)) l
  | Err e => [JRaise e]
  end.
(** 1068-1069: the attribute is read, not set *)
Definition context_jot (x : list (pystr * pyval)) : list jot :=
  match getf (at_ "specificAllocationPropertyContextId") x with
  | Some v => if truth v then [JGet (lit "specificAllocationPropertyContextId")] else []
  | None => []
  end.
(** 1070-1071: [for t in x.get('transferCoefficient', [])]; one element is a dict, a loop over it runs over
    its keys *)
Definition coefficient_jots (x : list (pystr * pyval)) : list jot :=
  match getf (lit "transferCoefficient") x with
  | None => []
  | Some v => match iterate v with
              | Ok l => map (JSet (lit "transferCoefficient")) l
              | Err e => [JRaise e]
              end
  end.
(** 1054-1071 *)
Definition flow_jots (id fid : pyval) (x : list (pystr * pyval)) : list jot :=
  [JSet (lit "id") id; JSet (lit "fId") fid] ++ tag_jots x ++
  flags x ["unitContextId"; "isCalculatedAmount"; "sourceIdOverwrittenByChild"; "specificAllocationPropertyIdOverwrittenByChild"] ++
  context_jot x ++ coefficient_jots x.
(** 1230-1238 *)
Definition intermediate_jots (id fid : pyval) (x : list (pystr * pyval)) : list jot :=
  flow_jots id fid x ++ flags x ["activityLinkIdOverwrittenByChild"; "intermediateExchangeContextId"; "activityLinkContextId"].
(** 1332-1335 *)
Definition elementary_jots (id fid : pyval) (x : list (pystr * pyval)) : list jot :=
  flow_jots id fid x ++ flags x ["elementaryExchangeContextId"].
(** 1137-1143 *)
Definition volume_jots (x : list (pystr * pyval)) : list jot :=
  flags x ["productionVolumeSourceIdOverwrittenByChild"; "productionVolumeSourceContextId"].
(** 636-642 *)
Definition parameter_jots (x : list (pystr * pyval)) : list jot :=
  flags x ["isCalculatedAmount"; "parameterContextId"; "unitContextId"].
(** 711-731 and 757-769; [known]: the property has an ILCD counterpart *)
Definition item (x : list (pystr * pyval)) (k : pystr) : result pyval :=
  match getf k x with Some v => Ok v | None => Err KeyError end.
Definition given (x : list (pystr * pyval)) (k : pystr) : bool :=
  match getf k x with Some v => truth v | None => false end.
Definition property_jots (known : bool) (x : list (pystr * pyval)) : list jot :=
  (let has_unit := (given x (at_ "unitId") && given x (lit "unitName"))%bool in
   if (known && has_unit)%bool then []
   else jot_of "amount" (item x (at_ "amount")) ::
        (if (negb known && has_unit)%bool then [jot_of "unitId" (item x (at_ "unitId"))] else [])) ++
  flags x ["propertyContextId"; "isDefiningValue"; "isCalculatedAmount"; "unitContextId"; "sourceIdOverwrittenByChild"; "sourceContextId"].

(** [a + b] of texts; anything else raises TypeError *)
Definition plus (a b : pyval) : result pyval :=
  match a, b with VStr s, VStr t => Ok (VStr (s ++ t)) | _, _ => Err TypeError end.
Fixpoint plus_all (a : pyval) (l : list (result pyval)) : result pyval :=
  match l with
  | [] => Ok a
  | r :: l' => bind r (fun b => bind (plus a b) (fun c => plus_all c l'))
  end.
Definition text_of (s : string) : result pyval := Ok (VStr (lit s)).
(** x["@id"]+"/"+x["@n"] *)
Definition joined (x : list (pystr * pyval)) (id n : string) : result pyval :=
  bind (item x (at_ id)) (fun a => plus_all a [text_of "/"; item x (at_ n)]).
Definition joined_if (c : bool) (x : list (pystr * pyval)) (f id n : string) : list jot :=
  if c then [jot_of f (joined x id n)] else [].
(** 2381-2382 *)
Definition entry_by_jots (x : list (pystr * pyval)) : list jot :=
  joined_if (given x (at_ "personContextId")) x "dataEntryBy_personContextId" "personId" "personContextId".
(** 2404-2449 *)
Definition generator_jots (x : list (pystr * pyval)) : list jot :=
  joined_if (given x (at_ "personContextId")) x "dataGeneratorAndPublication_personContextId" "personId" "personContextId" ++
  joined_if (given x (at_ "publishedSourceIdOverwrittenByChild") && given x (at_ "personId")) x
    "publishedSourceIdOverwrittenByChild" "personId" "publishedSourceIdOverwrittenByChild" ++
  joined_if (given x (at_ "publishedSourceContextId")) x "publishedSourceContextId" "personId" "publishedSourceContextId" ++
  joined_if (given x (at_ "companyIdOverwrittenByChild") && given x (at_ "companyId")) x
    "companyIdOverwrittenByChild" "companyId" "companyIdOverwrittenByChild" ++
  joined_if (given x (at_ "companyContextId")) x "companyContextId" "companyId" "companyContextId".

(** [x.get(k, d)] *)
Definition get_or (x : list (pystr * pyval)) (n d : string) : result pyval :=
  Ok (match getf (at_ n) x with Some v => v | None => VStr (lit d) end).
Definition bar : result pyval := text_of "|".
Section Shown.
  (** [str] of a list of values, as in an f-string *)
  Context (show : list pyval -> pystr).
  Definition shown (v : pyval) : result pyval := bind (iterate v) (fun l => Ok (VStr (show l))).
  (** 2462-2472 *)
  Definition file_jots (x : list (pystr * pyval)) : list jot :=
    [jot_of "version" (bind (get_or x "majorRelease" "-") (fun a => plus_all a
       [bar; get_or x "minorRelease" "-"; bar; get_or x "majorRevision" "-"; bar; get_or x "minorRevision" "-"]));
     jot_of "fileInfo" (bind (shown (match getf (lit "contextName") x with Some v => v | None => VList [] end)) (fun a => plus_all a
       [bar; get_or x "internalSchemaVersion" "-"; bar; get_or x "defaultLanguage" "en"; bar; get_or x "creationTimestamp" "-";
        bar; get_or x "lastEditTimestamp" "-"; bar; get_or x "fileGenerator" "-"; bar; get_or x "fileTimestamp" "-";
        bar; get_or x "contextId" "-"]))].
  (** 2474-2481; the last [x.get] has no default *)
  Definition context_jots (x : list (pystr * pyval)) : list jot :=
    [jot_of "requiredContext" (bind (item x (lit "requiredContextName")) (fun v => bind (shown v) (fun a => plus_all a
       [bar; item x (at_ "majorRelease"); bar; item x (at_ "minorRelease"); bar; get_or x "majorRevision" "-";
        bar; get_or x "minorRevision" "-"; bar; item x (at_ "requiredContextId");
        bar; Ok (match getf (at_ "requiredContextFileLocation") x with Some v => v | None => VNone end)])))].
End Shown.
(** 1788-1792; [version]: 1794-1799 *)
Definition review_jots (x : list (pystr * pyval)) : list jot :=
  [jot_of "review"
     (bind (item x (at_ "reviewedMajorRelease")) (fun a => bind (plus_all a
        [text_of "."; item x (at_ "reviewedMajorRevision"); text_of "."; item x (at_ "reviewedMinorRelease");
         text_of "."; item x (at_ "reviewedMinorRevision")]) (fun version =>
      bind (item x (at_ "reviewerId")) (fun i => bind (item x (at_ "reviewDate")) (fun t =>
      Ok (VDict [(at_ "reviewerId", i); (at_ "reviewDate", t); (at_ "version", version)]))))))].

(** The handlers that set something aside, by path; exchanges and parameters have a structure of their own,
    which is thrown away with them. *)
Inductive keeping :=
| KNote (f : string)               (** note.f = x *)
| KText (f : string)               (** note.f = ILCD1Helper.return_text(x) *)
| KEntryBy | KGenerator | KFile | KContext | KReview
| KIntermediate | KElementary | KParameter.
Definition keeping_table : list (string * keeping) :=
  [("/ecoSpold/activityDataset/activityDescription/activity/@activityNameId", KNote "activityNameId");
   ("/ecoSpold/activityDataset/activityDescription/activity/@activityNameContextId", KNote "activityNameContextId");
   ("/ecoSpold/activityDataset/activityDescription/activity/@parentActivityId", KNote "parentActivityId");
   ("/ecoSpold/activityDataset/activityDescription/activity/@parentActivityContextId", KNote "parentActivityContextId");
   ("/ecoSpold/activityDataset/activityDescription/activity/@inheritanceDepth", KNote "inheritanceDepth");
   ("/ecoSpold/activityDataset/activityDescription/activity/@specialActivityType", KNote "specialActivityType");
   ("/ecoSpold/activityDataset/activityDescription/activity/@masterAllocationPropertyId", KNote "masterAllocationPropertyId");
   ("/ecoSpold/activityDataset/activityDescription/activity/@masterAllocationPropertyIdOverwrittenByChild",
    KNote "masterAllocationPropertyIdOverwrittenByChild");
   ("/ecoSpold/activityDataset/activityDescription/activity/@masterAllocationPropertyContextId",
    KNote "masterAllocationPropertyContextId");
   ("/ecoSpold/activityDataset/activityDescription/activity/tag", KNote "tag");
   ("/ecoSpold/activityDataset/activityDescription/geography/@geographyId", KNote "geographyId");
   ("/ecoSpold/activityDataset/activityDescription/geography/@geographyContextId", KNote "geographyContextId");
   ("/ecoSpold/activityDataset/activityDescription/technology/@technologyLevel", KNote "technologyLevel");
   ("/ecoSpold/activityDataset/activityDescription/timePeriod/@isDataValidForEntirePeriod", KNote "isDataValidForEntirePeriod");
   ("/ecoSpold/activityDataset/activityDescription/macroEconomicScenario/@macroEconomicScenarioId",
    KNote "macroEconomicScenarioId");
   ("/ecoSpold/activityDataset/activityDescription/macroEconomicScenario/@macroEconomicScenarioContextId",
    KNote "macroEconomicScenarioContextId");
   ("/ecoSpold/activityDataset/activityDescription/macroEconomicScenario/name", KText "macroEconomicScenario_name");
   ("/ecoSpold/activityDataset/activityDescription/macroEconomicScenario/comment", KNote "macroEconomicScenario_comment");
   ("/ecoSpold/activityDataset/flowData/intermediateExchange", KIntermediate);
   ("/ecoSpold/activityDataset/flowData/elementaryExchange", KElementary);
   ("/ecoSpold/activityDataset/flowData/parameter", KParameter);
   ("/ecoSpold/activityDataset/modellingAndValidation/representativeness/@systemModelId", KNote "systemModelId");
   ("/ecoSpold/activityDataset/modellingAndValidation/representativeness/@systemModelContextId", KNote "systemModelContextId");
   ("/ecoSpold/activityDataset/modellingAndValidation/review", KReview);
   ("/ecoSpold/activityDataset/administrativeInformation/dataEntryBy", KEntryBy);
   ("/ecoSpold/activityDataset/administrativeInformation/dataGeneratorAndPublication", KGenerator);
   ("/ecoSpold/activityDataset/administrativeInformation/fileAttributes", KFile);
   ("/ecoSpold/activityDataset/administrativeInformation/fileAttributes/requiredContext", KContext)].
(** 2483-2485: child data sets too *)
Definition keepings : list (pystr * keeping) :=
  map (fun kh => (lit (fst kh), snd kh)) keeping_table ++
  map (fun kh => (replace (lit "activityDataset") (lit "childActivityDataset") (lit (fst kh)), snd kh)) keeping_table.

Section Run.
  Context (E : env) (show : list pyval -> pystr).
  Notation U := (lavoisier E).
  Notation Flow := ILCD1_ECS2ToILCD1DataNotConverted_Flow.
  Notation Property := ILCD1_ECS2ToILCD1DataNotConverted_Flow_Property.
  Notation Volume := ILCD1_ECS2ToILCD1DataNotConverted_Flow_ProductionVolume.
  Notation Parameter_ := ILCD1_ECS2ToILCD1DataNotConverted_Parameter.

  (** the error of steps on a new structure *)
  Definition fresh (c : nat) (l : list jot) : option exn := snd (jots E l (DD U c [])).
  Definition dict (v : pyval) : list (pystr * pyval) := match v with VDict d => d | _ => [] end.
  Definition item_or_none (x : list (pystr * pyval)) (k : pystr) : pyval := match getf k x with Some v => v | None => VNone end.
  (** One turn of the loop over the reports, as far as the data set aside are concerned. *)
  Definition keep (h : keeping) (x : pyval) (d : dd U) : outcome U :=
    match h with
    | KNote f => jots E [JSet (lit f) x] d
    | KText f => jots E [jot_of f (return_text x)] d
    | KEntryBy => jots E (entry_by_jots (dict x)) d
    | KGenerator => jots E (generator_jots (dict x)) d
    | KFile => jots E (file_jots show (dict x)) d
    | KContext => jots E (context_jots show (dict x)) d
    | KReview => jots E (review_jots (dict x)) d
    | KIntermediate =>
        (d, fresh Flow (intermediate_jots (item_or_none (dict x) (at_ "id"))
                          (item_or_none (dict x) (at_ "intermediateExchangeId")) (dict x)))
    | KElementary =>
        (d, fresh Flow (elementary_jots (item_or_none (dict x) (at_ "id"))
                          (item_or_none (dict x) (at_ "elementaryExchangeId")) (dict x)))
    | KParameter => (d, fresh Parameter_ (parameter_jots (dict x)))
    end.
  (** converter.py 247-250.  [rest]: everything else a handler does with its value *)
  Fixpoint set_aside (rest : pystr -> pyval -> result unit) (reports : list (pystr * pyval)) (d : dd U) : result (dd U) :=
    match reports with
    | [] => Ok d
    | (k, x) :: r =>
        bind (rest k x) (fun _ =>
        match getf k keepings with
        | None => set_aside rest r d
        | Some h => match keep h x d with (d', None) => set_aside rest r d' | (_, Some e) => Err e end
        end)
    end.
  Definition note0 : dd U := DD U ILCD1_ECS2ToILCD1DataNotConverted [].
End Run.
