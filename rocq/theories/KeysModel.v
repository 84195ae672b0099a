(** Which parts of a data set the mappings ask the XML reader for.
    ILCD1_to_ECS2_conversion.py 1646-1940, ECS2_to_ILCD1_conversion.py 2173-2486 and
    ILCD1_to_ILCD1_conversion.py 437-459 [mapping]: the keys of the dictionary that each returns; the
    converter passes them to the reader (converter.py 247) and calls the function stored under a reported
    path (converter.py 250).  The functions themselves are modelled elsewhere or not at all.
    ILCD1_structure.py 484-556 and ECS2_structure.py 825-892 [get_dict]: which elements and attributes a
    data set of each format can have, from the [VALID] tables. *)
From Coq Require Import Ascii String List Bool Arith NArith ZArith.
From Verif Require Import PyBase PyValues MultiLangModel DotDictModel SchemaModel SchemaTables.
Import ListNotations.
Local Open Scope string_scope.

(** ILCD1_to_ECS2_conversion.py 1647-1940, in order *)
Definition ilcd_keys : list pystr := map lit
  ["/processDataSet/processInformation/dataSetInformation/UUID";
   "/processDataSet/processInformation/dataSetInformation/name/baseName";
   "/processDataSet/processInformation/dataSetInformation/name/treatmentStandardsRoutes";
   "/processDataSet/processInformation/dataSetInformation/name/mixAndLocationTypes";
   "/processDataSet/processInformation/dataSetInformation/name/functionalUnitFlowProperties";
   "/processDataSet/processInformation/dataSetInformation/identifierOfSubDataSet";
   "/processDataSet/processInformation/dataSetInformation/synonyms";
   "/processDataSet/processInformation/dataSetInformation/complementingProcesses";
   "/processDataSet/processInformation/dataSetInformation/classificationInformation/classification";
   "/processDataSet/processInformation/dataSetInformation/generalComment";
   "/processDataSet/processInformation/dataSetInformation/referenceToExternalDocumentation";
   "/processDataSet/processInformation/quantitativeReference/referenceToReferenceFlow";
   "/processDataSet/processInformation/quantitativeReference/functionalUnitOrOther";
   "/processDataSet/processInformation/quantitativeReference/type";
   "/processDataSet/processInformation/time/referenceYear";
   "/processDataSet/processInformation/time/dataSetValidUntil";
   "/processDataSet/processInformation/time/timeRepresentativenessDescription";
   "/processDataSet/processInformation/geography/locationOfOperationSupplyOrProduction/descriptionOfRestrictions";
   "/processDataSet/processInformation/geography/locationOfOperationSupplyOrProduction/@location";
   "/processDataSet/processInformation/geography/locationOfOperationSupplyOrProduction/@latituteAndLongitude";
   "/processDataSet/processInformation/geography/subLocationOfOperationSupplyOrProduction/descriptionOfRestrictions";
   "/processDataSet/processInformation/geography/subLocationOfOperationSupplyOrProduction";
   "/processDataSet/processInformation/technology/technologyDescriptionAndIncludedProcesses";
   "/processDataSet/processInformation/technology/referenceToIncludedProcesses";
   "/processDataSet/processInformation/technology/technologyApplicability";
   "/processDataSet/processInformation/technology/referenceToTechnologyPictogramme";
   "/processDataSet/processInformation/technology/referenceToTechnologyFlowDiagrammOrPicture";
   "/processDataSet/processInformation/mathematicalRelations/modelDescription";
   "/processDataSet/processInformation/mathematicalRelations/variableParameter";
   "/processDataSet/modellingAndValidation/LCIMethodAndAllocation/typeOfDataSet";
   "/processDataSet/modellingAndValidation/LCIMethodAndAllocation/LCIMethodPrinciple";
   "/processDataSet/modellingAndValidation/LCIMethodAndAllocation/deviationsFromLCIMethodPrinciple";
   "/processDataSet/modellingAndValidation/LCIMethodAndAllocation/LCIMethodApproaches";
   "/processDataSet/modellingAndValidation/LCIMethodAndAllocation/deviationsFromLCIMethodApproaches";
   "/processDataSet/modellingAndValidation/LCIMethodAndAllocation/modellingConstants";
   "/processDataSet/modellingAndValidation/LCIMethodAndAllocation/deviationsFromModellingConstants";
   "/processDataSet/modellingAndValidation/LCIMethodAndAllocation/referenceToLCAMethodDetails";
   "/processDataSet/modellingAndValidation/dataSourcesTreatmentAndRepresentativeness/dataCutOffAndCompletenessPrinciples";
   "/processDataSet/modellingAndValidation/dataSourcesTreatmentAndRepresentativeness/deviationsFromCutOffAndCompletenessPrinciples";
   "/processDataSet/modellingAndValidation/dataSourcesTreatmentAndRepresentativeness/dataSelectionAndCombinationPrinciples";
   "/processDataSet/modellingAndValidation/dataSourcesTreatmentAndRepresentativeness/deviationsFromSelectionAndCombinationPrinciples";
   "/processDataSet/modellingAndValidation/dataSourcesTreatmentAndRepresentativeness/dataTreatmentAndExtrapolationsPrinciples";
   "/processDataSet/modellingAndValidation/dataSourcesTreatmentAndRepresentativeness/deviationsFromTreatmentAndExtrapolationPrinciples";
   "/processDataSet/modellingAndValidation/dataSourcesTreatmentAndRepresentativeness/referenceToDataHandlingPrinciples";
   "/processDataSet/modellingAndValidation/dataSourcesTreatmentAndRepresentativeness/referenceToDataSource";
   "/processDataSet/modellingAndValidation/dataSourcesTreatmentAndRepresentativeness/percentageSupplyOrProductionCovered";
   "/processDataSet/modellingAndValidation/dataSourcesTreatmentAndRepresentativeness/annualSupplyOrProductionVolume";
   "/processDataSet/modellingAndValidation/dataSourcesTreatmentAndRepresentativeness/samplingProcedure";
   "/processDataSet/modellingAndValidation/dataSourcesTreatmentAndRepresentativeness/dataCollectionPeriod";
   "/processDataSet/modellingAndValidation/dataSourcesTreatmentAndRepresentativeness/uncertaintyAdjustments";
   "/processDataSet/modellingAndValidation/dataSourcesTreatmentAndRepresentativeness/useAdviceForDataSet";
   "/processDataSet/modellingAndValidation/completeness";
   "/processDataSet/modellingAndValidation/validation/review";
   "/processDataSet/modellingAndValidation/complianceDeclarations/compliance";
   "/processDataSet/administrativeInformation/commissionerAndGoal/project";
   "/processDataSet/administrativeInformation/commissionerAndGoal/intendedApplications";
   "/processDataSet/administrativeInformation/dataGenerator/referenceToPersonOrEntityGeneratingTheDataSet";
   "/processDataSet/administrativeInformation/dataEntryBy/timeStamp";
   "/processDataSet/administrativeInformation/dataEntryBy/referenceToDataSetFormat";
   "/processDataSet/administrativeInformation/dataEntryBy/referenceToConvertedOriginalDataSetFrom";
   "/processDataSet/administrativeInformation/dataEntryBy/referenceToPersonOrEntityEnteringTheData";
   "/processDataSet/administrativeInformation/dataEntryBy/referenceToDataSetUseApproval";
   "/processDataSet/administrativeInformation/publicationAndOwnership/dateOfLastRevision";
   "/processDataSet/administrativeInformation/publicationAndOwnership/dataSetVersion";
   "/processDataSet/administrativeInformation/publicationAndOwnership/referenceToPrecedingDataSetVersion";
   "/processDataSet/administrativeInformation/publicationAndOwnership/permanentDataSetURI";
   "/processDataSet/administrativeInformation/publicationAndOwnership/workflowAndPublication";
   "/processDataSet/administrativeInformation/publicationAndOwnership/referenceToUnchangedRepublication";
   "/processDataSet/administrativeInformation/publicationAndOwnership/referenceToRegistrationAuthority";
   "/processDataSet/administrativeInformation/publicationAndOwnership/registrationNumber";
   "/processDataSet/administrativeInformation/publicationAndOwnership/referenceToOwnershipOfDataSet";
   "/processDataSet/administrativeInformation/publicationAndOwnership/copyright";
   "/processDataSet/administrativeInformation/publicationAndOwnership/referenceToEntitiesWithExclusiveAccess";
   "/processDataSet/administrativeInformation/publicationAndOwnership/licenseType";
   "/processDataSet/administrativeInformation/publicationAndOwnership/accessRestrictions";
   "/processDataSet/exchanges/exchange"].

(** ECS2_to_ILCD1_conversion.py 2174-2481, in order *)
Definition ecs_base_keys : list pystr := map lit
  ["/ecoSpold/activityDataset/activityDescription/activity/@id";
   "/ecoSpold/activityDataset/activityDescription/activity/@activityNameId";
   "/ecoSpold/activityDataset/activityDescription/activity/@activityNameContextId";
   "/ecoSpold/activityDataset/activityDescription/activity/@parentActivityId";
   "/ecoSpold/activityDataset/activityDescription/activity/@parentActivityContextId";
   "/ecoSpold/activityDataset/activityDescription/activity/@inheritanceDepth";
   "/ecoSpold/activityDataset/activityDescription/activity/@type";
   "/ecoSpold/activityDataset/activityDescription/activity/@specialActivityType";
   "/ecoSpold/activityDataset/activityDescription/activity/@energyValues";
   "/ecoSpold/activityDataset/activityDescription/activity/@masterAllocationPropertyId";
   "/ecoSpold/activityDataset/activityDescription/activity/@masterAllocationPropertyIdOverwrittenByChild";
   "/ecoSpold/activityDataset/activityDescription/activity/@masterAllocationPropertyContextId";
   "/ecoSpold/activityDataset/activityDescription/activity/@datasetIcon";
   "/ecoSpold/activityDataset/activityDescription/activity/activityName";
   "/ecoSpold/activityDataset/activityDescription/activity/synonym";
   "/ecoSpold/activityDataset/activityDescription/activity/includedActivitiesStart";
   "/ecoSpold/activityDataset/activityDescription/activity/includedActivitiesEnd";
   "/ecoSpold/activityDataset/activityDescription/activity/allocationComment";
   "/ecoSpold/activityDataset/activityDescription/activity/generalComment";
   "/ecoSpold/activityDataset/activityDescription/activity/tag";
   "/ecoSpold/activityDataset/activityDescription/classification";
   "/ecoSpold/activityDataset/activityDescription/geography/@geographyId";
   "/ecoSpold/activityDataset/activityDescription/geography/@geographyContextId";
   "/ecoSpold/activityDataset/activityDescription/geography/shortname";
   "/ecoSpold/activityDataset/activityDescription/geography/comment";
   "/ecoSpold/activityDataset/activityDescription/technology/@technologyLevel";
   "/ecoSpold/activityDataset/activityDescription/technology/comment";
   "/ecoSpold/activityDataset/activityDescription/timePeriod/@startDate";
   "/ecoSpold/activityDataset/activityDescription/timePeriod/@endDate";
   "/ecoSpold/activityDataset/activityDescription/timePeriod/@isDataValidForEntirePeriod";
   "/ecoSpold/activityDataset/activityDescription/timePeriod/comment";
   "/ecoSpold/activityDataset/activityDescription/macroEconomicScenario/@macroEconomicScenarioId";
   "/ecoSpold/activityDataset/activityDescription/macroEconomicScenario/@macroEconomicScenarioContextId";
   "/ecoSpold/activityDataset/activityDescription/macroEconomicScenario/name";
   "/ecoSpold/activityDataset/activityDescription/macroEconomicScenario/comment";
   "/ecoSpold/activityDataset/flowData/intermediateExchange";
   "/ecoSpold/activityDataset/flowData/intermediateExchange/@sourceId";
   "/ecoSpold/activityDataset/flowData/intermediateExchange/@productionVolumeSourceId";
   "/ecoSpold/activityDataset/flowData/intermediateExchange/property/@sourceId";
   "/ecoSpold/activityDataset/flowData/intermediateExchange/uncertainty";
   "/ecoSpold/activityDataset/flowData/intermediateExchange/productionVolumeUncertainty";
   "/ecoSpold/activityDataset/flowData/intermediateExchange/property/uncertainty";
   "/ecoSpold/activityDataset/flowData/intermediateExchange/classification";
   "/ecoSpold/activityDataset/flowData/intermediateExchange/property";
   "/ecoSpold/activityDataset/flowData/elementaryExchange";
   "/ecoSpold/activityDataset/flowData/elementaryExchange/@sourceId";
   "/ecoSpold/activityDataset/flowData/elementaryExchange/property/@sourceId";
   "/ecoSpold/activityDataset/flowData/elementaryExchange/uncertainty";
   "/ecoSpold/activityDataset/flowData/elementaryExchange/property/uncertainty";
   "/ecoSpold/activityDataset/flowData/elementaryExchange/property";
   "/ecoSpold/activityDataset/flowData/parameter";
   "/ecoSpold/activityDataset/flowData/parameter/uncertainty";
   "/ecoSpold/activityDataset/modellingAndValidation/representativeness/@percent";
   "/ecoSpold/activityDataset/modellingAndValidation/representativeness/@systemModelId";
   "/ecoSpold/activityDataset/modellingAndValidation/representativeness/@systemModelContextId";
   "/ecoSpold/activityDataset/modellingAndValidation/representativeness/systemModelName";
   "/ecoSpold/activityDataset/modellingAndValidation/representativeness/samplingProcedure";
   "/ecoSpold/activityDataset/modellingAndValidation/representativeness/extrapolations";
   "/ecoSpold/activityDataset/modellingAndValidation/review";
   "/ecoSpold/activityDataset/administrativeInformation/dataEntryBy";
   "/ecoSpold/activityDataset/administrativeInformation/dataGeneratorAndPublication";
   "/ecoSpold/activityDataset/administrativeInformation/dataGeneratorAndPublication/@dataPublishedIn";
   "/ecoSpold/activityDataset/administrativeInformation/dataGeneratorAndPublication/@isCopyrightProtected";
   "/ecoSpold/activityDataset/administrativeInformation/dataGeneratorAndPublication/@accessRestrictedTo";
   "/ecoSpold/activityDataset/administrativeInformation/fileAttributes";
   "/ecoSpold/activityDataset/administrativeInformation/fileAttributes/requiredContext"].

(** lines 2483-2485: the same keys for child data sets.  [k.replace(a, b)] replaces every occurrence. *)
Definition ecs_keys : list pystr :=
  ecs_base_keys ++ map (replace (lit "activityDataset") (lit "childActivityDataset")) ecs_base_keys.

(** ILCD1_to_ILCD1_conversion.py 438-456, in order *)
Definition remap_keys : list pystr := map lit
  ["/processDataSet/processInformation/dataSetInformation";
   "/processDataSet/processInformation/quantitativeReference";
   "/processDataSet/processInformation/time";
   "/processDataSet/processInformation/technology";
   "/processDataSet/processInformation/geography";
   "/processDataSet/processInformation/mathematicalRelations";
   "/processDataSet/modellingAndValidation";
   "/processDataSet/administrativeInformation";
   "/processDataSet/exchanges/exchange"].

(** The elements and attributes a data set can have: names of attributes and, for every child element,
    its name and its own shape.  How often an element may occur is not part of it. *)
Inductive shape := Shape (attrs : list pystr) (kids : list (pystr * shape)).
Definition s_attrs (s : shape) := match s with Shape a _ => a end.
Definition s_kids (s : shape) := match s with Shape _ k => k end.

(** data_structures/main.py 129-132 [get_name]: a row with xml_type "attribute" is written as an attribute
    (in a namespace if xml_nms is given, which then is not part of the plain names), one with
    "text" as the text of the element, any other as an element. *)
Definition is_kind (k : string) (f : field vc) : bool :=
  match f_xml_type f with Some x => str_eqb x (lit k) | None => false end.
Definition plain_attrs (rows : list (pystr * field vc)) : list pystr :=
  flat_map (fun kf => if (is_kind "attribute" (snd kf) && match f_xml_nms (snd kf) with None => true | _ => false end)%bool
                      then [fst kf] else []) rows.
Definition is_element (f : field vc) : bool := negb (is_kind "attribute" f || is_kind "text" f).
(** What an element with a plain value (text) can carry: MultiLangModel: index, name; the language is
    in the xml namespace. *)
Definition leaf : shape := Shape [lit "index"; lit "name"] [].
Fixpoint unfold (fuel c : nat) : shape :=
  Shape (plain_attrs (schema c))
    (flat_map (fun kf => if is_element (snd kf)
                         then [(fst kf, match f_type (snd kf) with
                                        | TVal _ => leaf
                                        | TSub c' => match fuel with S f => unfold f c' | O => leaf end
                                        end)]
                         else []) (schema c)).
(** A class only uses classes defined before it, so its own number is enough fuel. *)
Definition class_shape (c : nat) : shape := unfold c c.

(** ILCD1_structure.py 513-534 [ILCD1Structure.get_dict] *)
Definition ilcd_process (time relations exchanges : nat) : shape :=
  Shape [] [(lit "processDataSet",
    Shape (map lit ["version"; "locations"; "metaDataOnly"])
      [(lit "processInformation", Shape []
         [(lit "dataSetInformation", class_shape ILCD1_DataSetInformation);
          (lit "quantitativeReference", class_shape ILCD1_QuantitativeReference);
          (lit "time", class_shape time);
          (lit "geography", class_shape ILCD1_Geography);
          (lit "technology", class_shape ILCD1_Technology);
          (lit "mathematicalRelations", class_shape relations)]);
       (lit "modellingAndValidation", class_shape ILCD1_ModellingAndValidation);
       (lit "administrativeInformation", class_shape ILCD1_AdministrativeInformation);
       (lit "exchanges", class_shape exchanges)])].
(** lines 489-499 and 547-551: the classes of the two structures *)
Definition ilcd_shape : shape := ilcd_process ILCD1_Time ILCD1_MathematicalRelations ILCD1_Exchanges.
Definition olca_shape : shape := ilcd_process ILCD1_OLCATime ILCD1_OLCAMathematicalRelations ILCD1_OLCAExchanges.

(** ECS2_structure.py 877-891 [ECS2Structure.get_dict]; a child data set read by the tool has the same
    content under another name. *)
Definition ecs_activity : shape :=
  Shape [] [(lit "activityDescription", class_shape ECS2_ActivityDescription);
            (lit "flowData", class_shape ECS2_FlowData);
            (lit "modellingAndValidation", class_shape ECS2_ModellingAndValidation);
            (lit "administrativeInformation", class_shape ECS2_AdministrativeInformation)].
Definition ecs_shape : shape :=
  Shape [] [(lit "ecoSpold", Shape []
    [(lit "activityDataset", ecs_activity); (lit "childActivityDataset", ecs_activity);
     (lit "usedUserMasterData", class_shape ECS2_ECS2UsedUserMasterData)])].
