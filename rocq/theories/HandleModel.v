(** What the handlers of the two mappings need of the value the reader reports:
    ILCD1_to_ECS2_conversion.py 1646-1937, ECS2_to_ILCD1_conversion.py 2173-2486, converter.py 244-250. *)
From Coq Require Import Ascii String List Bool Arith NArith ZArith.
From Verif Require Import PyBase PyValues MultiLangModel DotDictModel XmlModel KeysModel.
Import ListNotations.
Local Open Scope string_scope.
Local Open Scope list_scope.

(** How a handler begins with its value [x]. *)
Inductive use :=
| UText      (** ILCD1Helper.text_add_index(x, ...) or ILCD1Helper.return_text(x) *)
| UIndex     (** x['#text'] *)
| UNote      (** x is stored in a field of type Str *)
| UConcat    (** x + '-01-01' *)
| USplit     (** x.split('.') or x.replace('-', '') *)
| ULookup    (** table.get(x) *)
| UValue (e : exn)  (** x is stored in a field for numbers, dates or booleans, which raises [e] for a dict *)
| UItems     (** ECS2TTextAndImage(x, ...): x.items() *)
| UAny       (** x is put in a list or not used *)
| UParts.    (** attributes or children of x are looked up: not described here *)

(** [x['#text']] *)
Definition text_item (x : pyval) : result pyval :=
  match x with
  | VDict d => match getf ktext d with Some v => Ok v | None => Err KeyError end
  | _ => Err TypeError
  end.
Definition is_str (e : exn) (x : pyval) : result unit := match x with VStr _ => Ok tt | _ => Err e end.
(** formats/helpers.py 44-50 and 79-87; conversions 1630-1633 [ensure_dict] *)
Definition read_text (x : pyval) : result unit :=
  match x with VStr _ => Ok tt | _ => bind (text_item x) (is_str TypeError) end.
(** The part of a handler that depends on the form of its value only. *)
Definition demand (u : use) (x : pyval) : result unit :=
  match u with
  | UText => read_text x
  | UIndex => bind (text_item x) (is_str TypeError)
  | UNote | UConcat | ULookup => is_str TypeError x
  | USplit => is_str AttributeError x
  | UValue e => is_str e x
  | UItems => match x with VDict _ => Ok tt | _ => Err AttributeError end
  | UAny | UParts => Ok tt
  end.

(** The handlers, in the order of the source.  References, reviews, variables and exchanges look up parts
    of the value and are described in other files. *)
Definition ilcd_table : list (string * use) :=
  [("/processDataSet/processInformation/dataSetInformation/UUID", USplit);
   ("/processDataSet/processInformation/dataSetInformation/name/baseName", UIndex);
   ("/processDataSet/processInformation/dataSetInformation/name/treatmentStandardsRoutes", UText);
   ("/processDataSet/processInformation/dataSetInformation/name/mixAndLocationTypes", UText);
   ("/processDataSet/processInformation/dataSetInformation/name/functionalUnitFlowProperties", UText);
   ("/processDataSet/processInformation/dataSetInformation/identifierOfSubDataSet", UNote);
   ("/processDataSet/processInformation/dataSetInformation/synonyms", UIndex);
   ("/processDataSet/processInformation/dataSetInformation/complementingProcesses", UAny);
   ("/processDataSet/processInformation/dataSetInformation/classificationInformation/classification", UAny);
   ("/processDataSet/processInformation/dataSetInformation/generalComment", UText);
   ("/processDataSet/processInformation/dataSetInformation/referenceToExternalDocumentation", UParts);
   ("/processDataSet/processInformation/quantitativeReference/referenceToReferenceFlow", UAny);
   ("/processDataSet/processInformation/quantitativeReference/functionalUnitOrOther", UAny);
   ("/processDataSet/processInformation/quantitativeReference/type", UNote);
   ("/processDataSet/processInformation/time/referenceYear", UConcat);
   ("/processDataSet/processInformation/time/dataSetValidUntil", UConcat);
   ("/processDataSet/processInformation/time/timeRepresentativenessDescription", UText);
   ("/processDataSet/processInformation/geography/locationOfOperationSupplyOrProduction/descriptionOfRestrictions", UText);
   ("/processDataSet/processInformation/geography/locationOfOperationSupplyOrProduction/@location", ULookup);
   ("/processDataSet/processInformation/geography/locationOfOperationSupplyOrProduction/@latituteAndLongitude", UNote);
   ("/processDataSet/processInformation/geography/subLocationOfOperationSupplyOrProduction/descriptionOfRestrictions", UText);
   ("/processDataSet/processInformation/geography/subLocationOfOperationSupplyOrProduction", UAny);
   ("/processDataSet/processInformation/technology/technologyDescriptionAndIncludedProcesses", UText);
   ("/processDataSet/processInformation/technology/referenceToIncludedProcesses", UAny);
   ("/processDataSet/processInformation/technology/technologyApplicability", UText);
   ("/processDataSet/processInformation/technology/referenceToTechnologyPictogramme", UParts);
   ("/processDataSet/processInformation/technology/referenceToTechnologyFlowDiagrammOrPicture", UParts);
   ("/processDataSet/processInformation/mathematicalRelations/modelDescription", UText);
   ("/processDataSet/processInformation/mathematicalRelations/variableParameter", UParts);
   ("/processDataSet/modellingAndValidation/LCIMethodAndAllocation/typeOfDataSet", ULookup);
   ("/processDataSet/modellingAndValidation/LCIMethodAndAllocation/LCIMethodPrinciple", UNote);
   ("/processDataSet/modellingAndValidation/LCIMethodAndAllocation/deviationsFromLCIMethodPrinciple", UIndex);
   ("/processDataSet/modellingAndValidation/LCIMethodAndAllocation/LCIMethodApproaches", ULookup);
   ("/processDataSet/modellingAndValidation/LCIMethodAndAllocation/deviationsFromLCIMethodApproaches", UText);
   ("/processDataSet/modellingAndValidation/LCIMethodAndAllocation/modellingConstants", UText);
   ("/processDataSet/modellingAndValidation/LCIMethodAndAllocation/deviationsFromModellingConstants", UText);
   ("/processDataSet/modellingAndValidation/LCIMethodAndAllocation/referenceToLCAMethodDetails", UAny);
   ("/processDataSet/modellingAndValidation/dataSourcesTreatmentAndRepresentativeness/dataCutOffAndCompletenessPrinciples", UText);
   ("/processDataSet/modellingAndValidation/dataSourcesTreatmentAndRepresentativeness/deviationsFromCutOffAndCompletenessPrinciples", UIndex);
   ("/processDataSet/modellingAndValidation/dataSourcesTreatmentAndRepresentativeness/dataSelectionAndCombinationPrinciples", UText);
   ("/processDataSet/modellingAndValidation/dataSourcesTreatmentAndRepresentativeness/deviationsFromSelectionAndCombinationPrinciples", UIndex);
   ("/processDataSet/modellingAndValidation/dataSourcesTreatmentAndRepresentativeness/dataTreatmentAndExtrapolationsPrinciples", UText);
   ("/processDataSet/modellingAndValidation/dataSourcesTreatmentAndRepresentativeness/deviationsFromTreatmentAndExtrapolationPrinciples", UIndex);
   ("/processDataSet/modellingAndValidation/dataSourcesTreatmentAndRepresentativeness/referenceToDataHandlingPrinciples", UAny);
   ("/processDataSet/modellingAndValidation/dataSourcesTreatmentAndRepresentativeness/referenceToDataSource", UAny);
   ("/processDataSet/modellingAndValidation/dataSourcesTreatmentAndRepresentativeness/percentageSupplyOrProductionCovered", UValue TypeError);
   ("/processDataSet/modellingAndValidation/dataSourcesTreatmentAndRepresentativeness/annualSupplyOrProductionVolume", UAny);
   ("/processDataSet/modellingAndValidation/dataSourcesTreatmentAndRepresentativeness/samplingProcedure", UText);
   ("/processDataSet/modellingAndValidation/dataSourcesTreatmentAndRepresentativeness/dataCollectionPeriod", UText);
   ("/processDataSet/modellingAndValidation/dataSourcesTreatmentAndRepresentativeness/uncertaintyAdjustments", UText);
   ("/processDataSet/modellingAndValidation/dataSourcesTreatmentAndRepresentativeness/useAdviceForDataSet", UText);
   ("/processDataSet/modellingAndValidation/completeness", UAny);
   ("/processDataSet/modellingAndValidation/validation/review", UParts);
   ("/processDataSet/modellingAndValidation/complianceDeclarations/compliance", UAny);
   ("/processDataSet/administrativeInformation/commissionerAndGoal/project", UText);
   ("/processDataSet/administrativeInformation/commissionerAndGoal/intendedApplications", UText);
   ("/processDataSet/administrativeInformation/dataGenerator/referenceToPersonOrEntityGeneratingTheDataSet", UParts);
   ("/processDataSet/administrativeInformation/dataEntryBy/timeStamp", UValue TypeError);
   ("/processDataSet/administrativeInformation/dataEntryBy/referenceToDataSetFormat", UAny);
   ("/processDataSet/administrativeInformation/dataEntryBy/referenceToConvertedOriginalDataSetFrom", UAny);
   ("/processDataSet/administrativeInformation/dataEntryBy/referenceToPersonOrEntityEnteringTheData", UParts);
   ("/processDataSet/administrativeInformation/dataEntryBy/referenceToDataSetUseApproval", UAny);
   ("/processDataSet/administrativeInformation/publicationAndOwnership/dateOfLastRevision", UNote);
   ("/processDataSet/administrativeInformation/publicationAndOwnership/dataSetVersion", USplit);
   ("/processDataSet/administrativeInformation/publicationAndOwnership/referenceToPrecedingDataSetVersion", UAny);
   ("/processDataSet/administrativeInformation/publicationAndOwnership/permanentDataSetURI", UNote);
   ("/processDataSet/administrativeInformation/publicationAndOwnership/workflowAndPublication", ULookup);
   ("/processDataSet/administrativeInformation/publicationAndOwnership/referenceToUnchangedRepublication", UParts);
   ("/processDataSet/administrativeInformation/publicationAndOwnership/referenceToRegistrationAuthority", UAny);
   ("/processDataSet/administrativeInformation/publicationAndOwnership/registrationNumber", UIndex);
   ("/processDataSet/administrativeInformation/publicationAndOwnership/referenceToOwnershipOfDataSet", UAny);
   ("/processDataSet/administrativeInformation/publicationAndOwnership/copyright", UValue ValueError);
   ("/processDataSet/administrativeInformation/publicationAndOwnership/referenceToEntitiesWithExclusiveAccess", UParts);
   ("/processDataSet/administrativeInformation/publicationAndOwnership/licenseType", ULookup);
   ("/processDataSet/administrativeInformation/publicationAndOwnership/accessRestrictions", UIndex);
   ("/processDataSet/exchanges/exchange", UParts)].
Definition ecs_table : list (string * use) :=
  [("/ecoSpold/activityDataset/activityDescription/activity/@id", UParts);
   ("/ecoSpold/activityDataset/activityDescription/activity/@activityNameId", UParts);
   ("/ecoSpold/activityDataset/activityDescription/activity/@activityNameContextId", UParts);
   ("/ecoSpold/activityDataset/activityDescription/activity/@parentActivityId", UParts);
   ("/ecoSpold/activityDataset/activityDescription/activity/@parentActivityContextId", UParts);
   ("/ecoSpold/activityDataset/activityDescription/activity/@inheritanceDepth", UParts);
   ("/ecoSpold/activityDataset/activityDescription/activity/@type", UParts);
   ("/ecoSpold/activityDataset/activityDescription/activity/@specialActivityType", UParts);
   ("/ecoSpold/activityDataset/activityDescription/activity/@energyValues", UParts);
   ("/ecoSpold/activityDataset/activityDescription/activity/@masterAllocationPropertyId", UParts);
   ("/ecoSpold/activityDataset/activityDescription/activity/@masterAllocationPropertyIdOverwrittenByChild", UParts);
   ("/ecoSpold/activityDataset/activityDescription/activity/@masterAllocationPropertyContextId", UParts);
   ("/ecoSpold/activityDataset/activityDescription/activity/@datasetIcon", UParts);
   ("/ecoSpold/activityDataset/activityDescription/activity/activityName", UText);
   ("/ecoSpold/activityDataset/activityDescription/activity/synonym", UText);
   ("/ecoSpold/activityDataset/activityDescription/activity/includedActivitiesStart", UText);
   ("/ecoSpold/activityDataset/activityDescription/activity/includedActivitiesEnd", UText);
   ("/ecoSpold/activityDataset/activityDescription/activity/allocationComment", UItems);
   ("/ecoSpold/activityDataset/activityDescription/activity/generalComment", UItems);
   ("/ecoSpold/activityDataset/activityDescription/activity/tag", UAny);
   ("/ecoSpold/activityDataset/activityDescription/classification", UParts);
   ("/ecoSpold/activityDataset/activityDescription/geography/@geographyId", UParts);
   ("/ecoSpold/activityDataset/activityDescription/geography/@geographyContextId", UParts);
   ("/ecoSpold/activityDataset/activityDescription/geography/shortname", UText);
   ("/ecoSpold/activityDataset/activityDescription/geography/comment", UItems);
   ("/ecoSpold/activityDataset/activityDescription/technology/@technologyLevel", UParts);
   ("/ecoSpold/activityDataset/activityDescription/technology/comment", UItems);
   ("/ecoSpold/activityDataset/activityDescription/timePeriod/@startDate", UParts);
   ("/ecoSpold/activityDataset/activityDescription/timePeriod/@endDate", UParts);
   ("/ecoSpold/activityDataset/activityDescription/timePeriod/@isDataValidForEntirePeriod", UParts);
   ("/ecoSpold/activityDataset/activityDescription/timePeriod/comment", UItems);
   ("/ecoSpold/activityDataset/activityDescription/macroEconomicScenario/@macroEconomicScenarioId", UParts);
   ("/ecoSpold/activityDataset/activityDescription/macroEconomicScenario/@macroEconomicScenarioContextId", UParts);
   ("/ecoSpold/activityDataset/activityDescription/macroEconomicScenario/name", UText);
   ("/ecoSpold/activityDataset/activityDescription/macroEconomicScenario/comment", UText);
   ("/ecoSpold/activityDataset/flowData/intermediateExchange", UParts);
   ("/ecoSpold/activityDataset/flowData/intermediateExchange/@sourceId", UParts);
   ("/ecoSpold/activityDataset/flowData/intermediateExchange/@productionVolumeSourceId", UParts);
   ("/ecoSpold/activityDataset/flowData/intermediateExchange/property/@sourceId", UParts);
   ("/ecoSpold/activityDataset/flowData/intermediateExchange/uncertainty", UAny);
   ("/ecoSpold/activityDataset/flowData/intermediateExchange/productionVolumeUncertainty", UAny);
   ("/ecoSpold/activityDataset/flowData/intermediateExchange/property/uncertainty", UAny);
   ("/ecoSpold/activityDataset/flowData/intermediateExchange/classification", UAny);
   ("/ecoSpold/activityDataset/flowData/intermediateExchange/property", UParts);
   ("/ecoSpold/activityDataset/flowData/elementaryExchange", UParts);
   ("/ecoSpold/activityDataset/flowData/elementaryExchange/@sourceId", UParts);
   ("/ecoSpold/activityDataset/flowData/elementaryExchange/property/@sourceId", UParts);
   ("/ecoSpold/activityDataset/flowData/elementaryExchange/uncertainty", UAny);
   ("/ecoSpold/activityDataset/flowData/elementaryExchange/property/uncertainty", UAny);
   ("/ecoSpold/activityDataset/flowData/elementaryExchange/property", UParts);
   ("/ecoSpold/activityDataset/flowData/parameter", UParts);
   ("/ecoSpold/activityDataset/flowData/parameter/uncertainty", UAny);
   ("/ecoSpold/activityDataset/modellingAndValidation/representativeness/@percent", UParts);
   ("/ecoSpold/activityDataset/modellingAndValidation/representativeness/@systemModelId", UParts);
   ("/ecoSpold/activityDataset/modellingAndValidation/representativeness/@systemModelContextId", UParts);
   ("/ecoSpold/activityDataset/modellingAndValidation/representativeness/systemModelName", UText);
   ("/ecoSpold/activityDataset/modellingAndValidation/representativeness/samplingProcedure", UText);
   ("/ecoSpold/activityDataset/modellingAndValidation/representativeness/extrapolations", UText);
   ("/ecoSpold/activityDataset/modellingAndValidation/review", UParts);
   ("/ecoSpold/activityDataset/administrativeInformation/dataEntryBy", UParts);
   ("/ecoSpold/activityDataset/administrativeInformation/dataGeneratorAndPublication", UParts);
   ("/ecoSpold/activityDataset/administrativeInformation/dataGeneratorAndPublication/@dataPublishedIn", UParts);
   ("/ecoSpold/activityDataset/administrativeInformation/dataGeneratorAndPublication/@isCopyrightProtected", UParts);
   ("/ecoSpold/activityDataset/administrativeInformation/dataGeneratorAndPublication/@accessRestrictedTo", UParts);
   ("/ecoSpold/activityDataset/administrativeInformation/fileAttributes", UParts);
   ("/ecoSpold/activityDataset/administrativeInformation/fileAttributes/requiredContext", UParts)].
Definition with_text (t : list (string * use)) : list (pystr * use) := map (fun ku => (lit (fst ku), snd ku)) t.
Definition ilcd_uses : list (pystr * use) := with_text ilcd_table.
(** lines 2483-2485: the same handlers for child data sets *)
Definition ecs_uses : list (pystr * use) :=
  with_text ecs_table ++
  map (fun ku => (replace (lit "activityDataset") (lit "childActivityDataset") (fst ku), snd ku)) (with_text ecs_table).

(** converter.py 247-250: the handlers are called in the order of the reports; an exception ends the
    conversion.  [rest]: what the handler of a path does after its first step with a value. *)
Fixpoint run (uses : list (pystr * use)) (rest : pystr -> pyval -> result unit) (reports : list (pystr * pyval))
  : result unit :=
  match reports with
  | [] => Ok tt
  | (k, x) :: r =>
      match getf k uses with
      | None => Err KeyError
      | Some u => bind (demand u x) (fun _ => bind (rest k x) (fun _ => run uses rest r))
      end
  end.
