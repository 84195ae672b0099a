(** The schemas ([VALID] tables) of ECS2_structure.py and ILCD1_structure.py and the enumerations of
    validators/enumerations.py, transcribed row by row.  Dict unions ("A.VALID | {...}") are written
    out.  Every class has a number; [schema] gives its table. *)
From Coq Require Import Ascii String List Bool Arith NArith ZArith.
From Verif Require Import PyBase PyValues Regex ValidatorsModel MultiLangModel DotDictModel SchemaModel.
Import ListNotations.
Local Open Scope string_scope.

Definition lim32000 : nat := Z.to_nat 32000.

(** validators/enumerations.py *)
(** enumerations.py 14-28 *)
Definition Languages : list pystr := map lit
  ["aa"; "ab"; "ae"; "af"; "ak"; "am"; "an"; "ar"; "as"; "av"; "ay"; "az"; "ba"; "be"; "bg"; "bh";
   "bi"; "bm"; "bn"; "bo"; "br"; "bs"; "ca"; "ce"; "ch"; "co"; "cr"; "cs"; "cu"; "cv"; "cy"; "da";
   "de"; "dv"; "dz"; "ee"; "el"; "en"; "eo"; "es"; "et"; "eu"; "fa"; "ff"; "fi"; "fj"; "fo"; "fr";
   "fy"; "ga"; "gd"; "gl"; "gn"; "gu"; "gv"; "ha"; "he"; "hi"; "ho"; "hr"; "ht"; "hu"; "hy"; "hz";
   "ia"; "id"; "ie"; "ig"; "ii"; "ik"; "io"; "is"; "it"; "iu"; "ja"; "jv"; "ka"; "kg"; "ki"; "kj";
   "kk"; "kl"; "km"; "kn"; "ko"; "kr"; "ks"; "ku"; "kv"; "kw"; "ky"; "la"; "lb"; "lg"; "li"; "ln";
   "lo"; "lt"; "lu"; "lv"; "mg"; "mh"; "mi"; "mk"; "ml"; "mn"; "mo"; "mr"; "ms"; "mt"; "my"; "na";
   "nb"; "nd"; "ne"; "ng"; "nl"; "nn"; "no"; "nr"; "nv"; "ny"; "oc"; "oj"; "om"; "or"; "os"; "pa";
   "pi"; "pl"; "ps"; "pt"; "qu"; "rm"; "rn"; "ro"; "ru"; "rw"; "sa"; "sc"; "sd"; "se"; "sg"; "si";
   "sk"; "sl"; "sm"; "sn"; "so"; "sq"; "sr"; "ss"; "st"; "su"; "sv"; "sw"; "ta"; "te"; "tg"; "th";
   "ti"; "tk"; "tl"; "tn"; "to"; "tr"; "ts"; "tt"; "tw"; "ty"; "ug"; "uk"; "ur"; "uz"; "ve"; "vi";
   "vo"; "wa"; "wo"; "xh"; "yi"; "yo"; "za"; "zh"; "zu"].
(** enumerations.py 30-39 *)
Definition GlobalReferenceTypeValues : list pystr := map lit
  ["source data set";
   "process data set";
   "flow data set";
   "flow property data set";
   "unit group data set";
   "contact data set";
   "LCIA method data set";
   "other external file"].
(** enumerations.py 41-46 *)
Definition TypeOfQuantitativeReferenceValues : list pystr := map lit
  ["Reference flow(s)";
   "Functional unit";
   "Other parameter";
   "Production period"].
(** enumerations.py 48-54 *)
Definition UncertaintyDistributionTypeValues : list pystr := map lit
  ["undefined";
   "log-normal";
   "normal";
   "triangular";
   "uniform"].
(** enumerations.py 56-62 *)
Definition TypeOfProcessValues : list pystr := map lit
  ["Unit process, single operation";
   "Unit process, black box";
   "LCI result";
   "Partly terminated system";
   "Avoided product system"].
(** enumerations.py 64-70 *)
Definition LCIMethodPrincipleValues : list pystr := map lit
  ["Attributional";
   "Consequential";
   "Consequential with attributional components";
   "Not applicable";
   "Other"].
(** enumerations.py 72-96 *)
Definition LCIMethodApproachesValues : list pystr := map lit
  ["Allocation - market value";
   "Allocation - gross calorific value";
   "Allocation - net calorific value";
   "Allocation - exergetic content";
   "Allocation - element content";
   "Allocation - mass";
   "Allocation - volume";
   "Allocation - ability to bear";
   "Allocation - marginal causality";
   "Allocation - physical causality";
   "Allocation - 100% to main function";
   "Allocation - other explicit assignment";
   "Allocation - equal distribution";
   "Substitution - BAT";
   "Substitution - average, market price correction";
   "Substitution - average, technical properties correction";
   "Allocation - recycled content";
   "Substitution - recycling potential";
   "Substitution - average, no correction";
   "Substitution - specific";
   "Consequential effects - other";
   "Not applicable";
   "Other"].
(** enumerations.py 98-103 *)
Definition CompletenessValues : list pystr := map lit
  ["All relevant flows quantified";
   "Relevant flows missing";
   "Topic not relevant";
   "No statement"].
(** enumerations.py 105-124 *)
Definition CompletenessTypeValues : list pystr := map lit
  ["Climate change";
   "Ozone depletion";
   "Summer smog";
   "Eutrophication";
   "Acidification";
   "Human toxicity";
   "Freshwater ecotoxicity";
   "Seawater eco-toxicity";
   "Terrestric eco-toxicity";
   "Radioactivity";
   "Land use";
   "Non-renewable material resource depletion";
   "Renewable material resource consumption";
   "Non-renewable primary energy depletion";
   "Renewable primary energy consumption";
   "Particulate matter/respiratory inorganics";
   "Species depletion";
   "Noise"].
(** enumerations.py 126-136 *)
Definition ScopeOfReviewValues : list pystr := map lit
  ["Raw data";
   "Unit process(es), single operation";
   "Unit process(es), black box";
   "LCI results or Partly terminated system";
   "LCIA results";
   "Documentation";
   "Life cycle inventory methods";
   "LCIA results calculation";
   "Goal and scope definition"].
(** enumerations.py 138-151 *)
Definition MethodOfReviewValues : list pystr := map lit
  ["Validation of data sources";
   "Sample tests on calculations";
   "Energy balance";
   "Element balance";
   "Cross-check with other source";
   "Cross-check with other data set";
   "Expert judgement";
   "Mass balance";
   "Compliance with legal limits";
   "Compliance with ISO 14040 to 14044";
   "Documentation";
   "Evidence collection by means of plant visits and/or interviews"].
(** enumerations.py 153-161 *)
Definition DataQualityIndicatorValues : list pystr := map lit
  ["Technological representativeness";
   "Time representativeness";
   "Geographical representativeness";
   "Completeness";
   "Precision";
   "Methodological appropriateness and consistency";
   "Overall quality"].
(** enumerations.py 163-171 *)
Definition QualityValues : list pystr := map lit
  ["Very good";
   "Good";
   "Fair";
   "Poor";
   "Very poor";
   "Not evaluated / unknown";
   "Not applicable"].
(** enumerations.py 173-180 *)
Definition TypeOfReviewValues : list pystr := map lit
  ["Dependent internal review";
   "Independent internal review";
   "Independent external review";
   "Accredited third party review";
   "Independent review panel";
   "Not reviewed"].
(** enumerations.py 182-186 *)
Definition ComplianceValues : list pystr := map lit
  ["Fully compliant";
   "Not compliant";
   "Not defined"].
(** enumerations.py 188-197 *)
Definition WorkflowAndPublicationStatusValues : list pystr := map lit
  ["Working draft";
   "Final draft for internal review";
   "Final draft for external review";
   "Data set finalised; unpublished";
   "Under revision";
   "Withdrawn";
   "Data set finalised; subsystems published";
   "Data set finalised; entirely published"].
(** enumerations.py 199-205 *)
Definition LicenseTypeValues : list pystr := map lit
  ["Free of charge for all users and uses";
   "Free of charge for some user types or use types";
   "Free of charge for members only";
   "License fee";
   "Other"].
(** enumerations.py 207-211 *)
Definition ExchangeFunctionTypeValues : list pystr := map lit
  ["General reminder flow";
   "Allocation reminder flow";
   "System expansion reminder flow"].
(** enumerations.py 213-216 *)
Definition ExchangeDirectionValues : list pystr := map lit
  ["Input";
   "Output"].
(** enumerations.py 218-223 *)
Definition DataSourceTypeValues : list pystr := map lit
  ["Primary";
   "> 90% primary";
   "Mixed primary / secondary";
   "Secondary"].
(** enumerations.py 225-230 *)
Definition DataDerivationTypeStatusValues : list pystr := map lit
  ["Measured";
   "Calculated";
   "Estimated";
   "Unknown derivation"].

(** One row: name, type, mandatory, unique, order, xml_type, xml_nms. *)
Definition r (k : string) (t : ftype vc) (m u : bool) (o : option Z) (x n : option string)
  : pystr * field vc :=
  (lit k, {| f_type := t; f_mandatory := m; f_unique := u; f_order := o;
             f_xml_type := option_map lit x; f_xml_nms := option_map lit n |}).
Definition at_ : option string := Some "attribute".
Definition cm_ : option string := Some "nms:common".
Definition tx_ : option string := Some "text".
Definition ol_ : option string := Some "olca".

Definition ECS2_Lognormal : nat := 0.
Definition ECS2_Normal : nat := 1.
Definition ECS2_Triangular : nat := 2.
Definition ECS2_Uniform : nat := 3.
Definition ECS2_Beta : nat := 4.
Definition ECS2_Gamma : nat := 5.
Definition ECS2_Binomial : nat := 6.
Definition ECS2_Undefined : nat := 7.
Definition ECS2_PedigreeMatrix : nat := 8.
Definition ECS2_ECS2Uncertainty : nat := 9.
Definition ECS2_ECS2Source : nat := 10.
Definition ECS2_ECS2QuantitativeReference : nat := 11.
Definition ECS2_ECS2QuantitativeReferenceWithUnit : nat := 12.
Definition ECS2_ECS2TextAndImage : nat := 13.
Definition ECS2_ECS2Classification : nat := 14.
Definition ECS2_ECS2Property : nat := 15.
Definition ECS2_ActivityNameMaster : nat := 16.
Definition ECS2_CSClassificationValue : nat := 17.
Definition ECS2_ClassificationSystemMaster : nat := 18.
Definition ECS2_CompanyMaster : nat := 19.
Definition ECS2_CSubcompartmentMaster : nat := 20.
Definition ECS2_CompartmentMaster : nat := 21.
Definition ECS2_EMCompartment : nat := 22.
Definition ECS2_ElementaryMaster : nat := 23.
Definition ECS2_GeographyMaster : nat := 24.
Definition ECS2_IntermediateMaster : nat := 25.
Definition ECS2_LanguageMaster : nat := 26.
Definition ECS2_MacroEconomicScenarioMaster : nat := 27.
Definition ECS2_ParameterMaster : nat := 28.
Definition ECS2_PersonMaster : nat := 29.
Definition ECS2_PropertyMaster : nat := 30.
Definition ECS2_SourceMaster : nat := 31.
Definition ECS2_SystemModelMaster : nat := 32.
Definition ECS2_TagMaster : nat := 33.
Definition ECS2_UnitMaster : nat := 34.
Definition ECS2_ActivityIndexEntryMaster : nat := 35.
Definition ECS2_ECS2UsedUserMasterData : nat := 36.
Definition ECS2_CETransferCoefficient : nat := 37.
Definition ECS2_ECS2CustomExchange : nat := 38.
Definition ECS2_Activity : nat := 39.
Definition ECS2_Geography : nat := 40.
Definition ECS2_Technology : nat := 41.
Definition ECS2_TimePeriod : nat := 42.
Definition ECS2_MacroEconomicScenario : nat := 43.
Definition ECS2_ActivityDescription : nat := 44.
Definition ECS2_Representativeness : nat := 45.
Definition ECS2_Review : nat := 46.
Definition ECS2_ModellingAndValidation : nat := 47.
Definition ECS2_DataEntryBy : nat := 48.
Definition ECS2_DataGeneratorAndPublication : nat := 49.
Definition ECS2_RequiredContextReference : nat := 50.
Definition ECS2_FileAttributes : nat := 51.
Definition ECS2_AdministrativeInformation : nat := 52.
Definition ECS2_IntermediateExchange : nat := 53.
Definition ECS2_Compartment : nat := 54.
Definition ECS2_ElementaryExchange : nat := 55.
Definition ECS2_Parameter : nat := 56.
Definition ECS2_ImpactIndicator : nat := 57.
Definition ECS2_FlowData : nat := 58.
Definition ECS2_ILCD1ToECS2DataNotConverted : nat := 59.
Definition ILCD1_ILCD1Reference : nat := 60.
Definition ILCD1_ILCD1Classification_Class : nat := 61.
Definition ILCD1_ILCD1Classification : nat := 62.
Definition ILCD1_ILCD1FlowProperty : nat := 63.
Definition ILCD1_Name : nat := 64.
Definition ILCD1_ComplementingProcesses : nat := 65.
Definition ILCD1_ClassificationInformation : nat := 66.
Definition ILCD1_DataSetInformation : nat := 67.
Definition ILCD1_QuantitativeReference : nat := 68.
Definition ILCD1_Time : nat := 69.
Definition ILCD1_OLCATime : nat := 70.
Definition ILCD1_LocationOfOperationSupplyOrProduction : nat := 71.
Definition ILCD1_SubLocationOfOperationSupplyOrProduction : nat := 72.
Definition ILCD1_Geography : nat := 73.
Definition ILCD1_Technology : nat := 74.
Definition ILCD1_VariableParameter : nat := 75.
Definition ILCD1_OLCAVariableParameter : nat := 76.
Definition ILCD1_MathematicalRelations : nat := 77.
Definition ILCD1_OLCAMathematicalRelations : nat := 78.
Definition ILCD1_LCIMethodAndAllocation : nat := 79.
Definition ILCD1_DataSourcesTreatmentAndRepresentativeness : nat := 80.
Definition ILCD1_CompletenessElementaryFlows : nat := 81.
Definition ILCD1_Completeness : nat := 82.
Definition ILCD1_Method : nat := 83.
Definition ILCD1_Scope : nat := 84.
Definition ILCD1_DataQualityIndicator : nat := 85.
Definition ILCD1_DataQualityIndicators : nat := 86.
Definition ILCD1_Review : nat := 87.
Definition ILCD1_Validation : nat := 88.
Definition ILCD1_Compliance : nat := 89.
Definition ILCD1_ComplianceDeclarations : nat := 90.
Definition ILCD1_ModellingAndValidation : nat := 91.
Definition ILCD1_CommissionerAndGoal : nat := 92.
Definition ILCD1_DataGenerator : nat := 93.
Definition ILCD1_DataEntryBy : nat := 94.
Definition ILCD1_PublicationAndOwnership : nat := 95.
Definition ILCD1_AdministrativeInformation : nat := 96.
Definition ILCD1_Allocation : nat := 97.
Definition ILCD1_Allocations : nat := 98.
Definition ILCD1_ReferencesToDataSource : nat := 99.
Definition ILCD1_Exchange : nat := 100.
Definition ILCD1_OLCAExchange : nat := 101.
Definition ILCD1_Exchanges : nat := 102.
Definition ILCD1_OLCAExchanges : nat := 103.
Definition ILCD1_ECS2ToILCD1DataNotConverted_Flow_Property : nat := 104.
Definition ILCD1_ECS2ToILCD1DataNotConverted_Flow_ProductionVolume : nat := 105.
Definition ILCD1_ECS2ToILCD1DataNotConverted_Flow : nat := 106.
Definition ILCD1_ECS2ToILCD1DataNotConverted_Parameter : nat := 107.
Definition ILCD1_ECS2ToILCD1DataNotConverted : nat := 108.

(** ECS2_structure.py 71-76 *)
Definition ECS2_Lognormal_VALID : list (pystr * field vc) :=
  [r "meanValue" (TVal CReal) true true (Some 0%Z) at_ None;
   r "mu" (TVal CReal) true true (Some 0%Z) at_ None;
   r "variance" (TVal CReal) false true (Some 0%Z) at_ None;
   r "varianceWithPedigreeUncertainty" (TVal CReal) true true (Some 0%Z) at_ None].

(** ECS2_structure.py 80-84 *)
Definition ECS2_Normal_VALID : list (pystr * field vc) :=
  [r "meanValue" (TVal CReal) true false (Some 0%Z) at_ None;
   r "variance" (TVal CReal) false false (Some 0%Z) at_ None;
   r "varianceWithPedigreeUncertainty" (TVal CReal) true false (Some 0%Z) at_ None].

(** ECS2_structure.py 88-92 *)
Definition ECS2_Triangular_VALID : list (pystr * field vc) :=
  [r "minValue" (TVal CReal) true true (Some 0%Z) at_ None;
   r "mostLikelyValue" (TVal CReal) true true (Some 0%Z) at_ None;
   r "maxValue" (TVal CReal) true true (Some 0%Z) at_ None].

(** ECS2_structure.py 96-99 *)
Definition ECS2_Uniform_VALID : list (pystr * field vc) :=
  [r "minValue" (TVal CReal) true true (Some 0%Z) at_ None;
   r "maxValue" (TVal CReal) true true (Some 0%Z) at_ None].

(** ECS2_structure.py 103-107 *)
Definition ECS2_Beta_VALID : list (pystr * field vc) :=
  [r "minValue" (TVal CReal) true true (Some 0%Z) at_ None;
   r "mostLikelyValue" (TVal CReal) true true (Some 0%Z) at_ None;
   r "maxValue" (TVal CReal) true true (Some 0%Z) at_ None].

(** ECS2_structure.py 111-115 *)
Definition ECS2_Gamma_VALID : list (pystr * field vc) :=
  [r "shape" (TVal CReal) true true (Some 0%Z) at_ None;
   r "scale" (TVal CReal) true true (Some 0%Z) at_ None;
   r "minValue" (TVal CReal) true true (Some 0%Z) at_ None].

(** ECS2_structure.py 119-122 *)
Definition ECS2_Binomial_VALID : list (pystr * field vc) :=
  [r "n" (TVal CInt) true true (Some 0%Z) at_ None;
   r "p" (TVal CReal) true true (Some 0%Z) at_ None].

(** ECS2_structure.py 126-130 *)
Definition ECS2_Undefined_VALID : list (pystr * field vc) :=
  [r "minValue" (TVal CReal) true true (Some 0%Z) at_ None;
   r "maxValue" (TVal CReal) true true (Some 0%Z) at_ None;
   r "standardDeviation95" (TVal CReal) true true (Some 0%Z) at_ None].

(** ECS2_structure.py 134-140 *)
Definition ECS2_PedigreeMatrix_VALID : list (pystr * field vc) :=
  [r "reliability" (TVal (CColl (zrange 1 6) false)) true true (Some 0%Z) at_ None;
   r "completeness" (TVal (CColl (zrange 1 6) false)) true true (Some 0%Z) at_ None;
   r "temporalCorrelation" (TVal (CColl (zrange 1 6) false)) true true (Some 0%Z) at_ None;
   r "geographicalCorrelation" (TVal (CColl (zrange 1 6) false)) true true (Some 0%Z) at_ None;
   r "furtherTechnologyCorrelation" (TVal (CColl (zrange 1 6) false)) true true (Some 0%Z) at_ None].

(** ECS2_structure.py 144-155 *)
Definition ECS2_ECS2Uncertainty_VALID : list (pystr * field vc) :=
  [r "lognormal" (TSub ECS2_Lognormal) false true (Some 1%Z) None None;
   r "normal" (TSub ECS2_Normal) false true (Some 2%Z) None None;
   r "triangular" (TSub ECS2_Triangular) false true (Some 3%Z) None None;
   r "uniform" (TSub ECS2_Uniform) false true (Some 4%Z) None None;
   r "beta" (TSub ECS2_Beta) false true (Some 5%Z) None None;
   r "gamma" (TSub ECS2_Gamma) false true (Some 6%Z) None None;
   r "binomial" (TSub ECS2_Binomial) false true (Some 7%Z) None None;
   r "undefined" (TSub ECS2_Undefined) false true (Some 8%Z) None None;
   r "pedigreeMatrix" (TSub ECS2_PedigreeMatrix) false true (Some 9%Z) None None;
   r "comment" (TVal (CLang KMulti None (Lim_ lim32000))) false false (Some 10%Z) None None].

(** ECS2_structure.py 161-167 *)
Definition ECS2_ECS2Source_VALID : list (pystr * field vc) :=
  [r "sourceId" (TVal (CPat uuid_re)) false false (Some 0%Z) at_ None;
   r "sourceIdOverwrittenByChild" (TVal (CBool true)) false true (Some 0%Z) at_ None;
   r "sourceContextId" (TVal (CPat uuid_re)) false true (Some 0%Z) at_ None;
   r "sourceYear" (TVal (CLim (LMax 30) None)) false false (Some 0%Z) at_ None;
   r "sourceFirstAuthor" (TVal (CLim (LMax 40) None)) false false (Some 0%Z) at_ None].

(** ECS2_structure.py 181-187 *)
Definition ECS2_ECS2QuantitativeReference_VALID : list (pystr * field vc) :=
  [r "sourceId" (TVal (CPat uuid_re)) false false (Some 0%Z) at_ None;
   r "sourceIdOverwrittenByChild" (TVal (CBool true)) false true (Some 0%Z) at_ None;
   r "sourceContextId" (TVal (CPat uuid_re)) false true (Some 0%Z) at_ None;
   r "sourceYear" (TVal (CLim (LMax 30) None)) false false (Some 0%Z) at_ None;
   r "sourceFirstAuthor" (TVal (CLim (LMax 40) None)) false false (Some 0%Z) at_ None;
   r "amount" (TVal CReal) true false (Some 0%Z) at_ None;
   r "mathematicalRelation" (TVal (CLim (LMax lim32000) (Some sep_default))) false true (Some 0%Z) at_ None;
   r "isCalculatedAmount" (TVal (CBool true)) false true (Some 0%Z) at_ None;
   r "comment" (TVal (CLang KMulti None (Lim_ lim32000))) false false (Some 3%Z) None None;
   r "uncertainty" (TSub ECS2_ECS2Uncertainty) false true (Some 4%Z) None None].

(** ECS2_structure.py 201-207 *)
Definition ECS2_ECS2QuantitativeReferenceWithUnit_VALID : list (pystr * field vc) :=
  [r "sourceId" (TVal (CPat uuid_re)) false false (Some 0%Z) at_ None;
   r "sourceIdOverwrittenByChild" (TVal (CBool true)) false true (Some 0%Z) at_ None;
   r "sourceContextId" (TVal (CPat uuid_re)) false true (Some 0%Z) at_ None;
   r "sourceYear" (TVal (CLim (LMax 30) None)) false false (Some 0%Z) at_ None;
   r "sourceFirstAuthor" (TVal (CLim (LMax 40) None)) false false (Some 0%Z) at_ None;
   r "amount" (TVal CReal) true false (Some 0%Z) at_ None;
   r "mathematicalRelation" (TVal (CLim (LMax lim32000) (Some sep_default))) false true (Some 0%Z) at_ None;
   r "isCalculatedAmount" (TVal (CBool true)) false true (Some 0%Z) at_ None;
   r "comment" (TVal (CLang KMulti None (Lim_ lim32000))) false false (Some 3%Z) None None;
   r "uncertainty" (TSub ECS2_ECS2Uncertainty) false true (Some 4%Z) None None;
   r "variableName" (TVal CVariableName) false true (Some 0%Z) at_ None;
   r "unitId" (TVal (CPat uuid_re)) false false (Some 0%Z) at_ None;
   r "unitContextId" (TVal (CPat uuid_re)) false true (Some 0%Z) at_ None;
   r "name" (TVal (CLang KFirst None (Lim_ 80))) true false (Some 1%Z) None None;
   r "unitName" (TVal (CLang KMulti None (Unique_ 40))) true false (Some 2%Z) None None].

(** ECS2_structure.py 229-233 *)
Definition ECS2_ECS2TextAndImage_VALID : list (pystr * field vc) :=
  [r "text" (TVal (CLang KIndexedMulti None (Lim_ lim32000))) false false (Some 1%Z) None None;
   r "imageUrl" (TVal (CIndexed Str_)) false false (Some 2%Z) None None;
   r "variable" (TVal (CNamed (Lim_ lim32000))) false false (Some 3%Z) None None].

(** ECS2_structure.py 239-244 *)
Definition ECS2_ECS2Classification_VALID : list (pystr * field vc) :=
  [r "classificationId" (TVal (CPat uuid_re)) true true (Some 0%Z) at_ None;
   r "classificationContextId" (TVal (CPat uuid_re)) false true (Some 0%Z) at_ None;
   r "classificationSystem" (TVal (CLang KMulti None (Lim_ 255))) true false (Some 1%Z) None None;
   r "classificationValue" (TVal (CLang KLast None (Lim_ 120))) true false (Some 2%Z) None None].

(** ECS2_structure.py 250-254 *)
Definition ECS2_ECS2Property_VALID : list (pystr * field vc) :=
  [r "sourceId" (TVal (CPat uuid_re)) false false (Some 0%Z) at_ None;
   r "sourceIdOverwrittenByChild" (TVal (CBool true)) false true (Some 0%Z) at_ None;
   r "sourceContextId" (TVal (CPat uuid_re)) false true (Some 0%Z) at_ None;
   r "sourceYear" (TVal (CLim (LMax 30) None)) false false (Some 0%Z) at_ None;
   r "sourceFirstAuthor" (TVal (CLim (LMax 40) None)) false false (Some 0%Z) at_ None;
   r "amount" (TVal CReal) true false (Some 0%Z) at_ None;
   r "mathematicalRelation" (TVal (CLim (LMax lim32000) (Some sep_default))) false true (Some 0%Z) at_ None;
   r "isCalculatedAmount" (TVal (CBool true)) false true (Some 0%Z) at_ None;
   r "comment" (TVal (CLang KMulti None (Lim_ lim32000))) false false (Some 4%Z) None None;
   r "uncertainty" (TSub ECS2_ECS2Uncertainty) false true (Some 3%Z) None None;
   r "variableName" (TVal CVariableName) false true (Some 0%Z) at_ None;
   r "unitId" (TVal (CPat uuid_re)) false false (Some 0%Z) at_ None;
   r "unitContextId" (TVal (CPat uuid_re)) false true (Some 0%Z) at_ None;
   r "name" (TVal (CLang KFirst None (Lim_ 80))) true false (Some 1%Z) None None;
   r "unitName" (TVal (CLang KMulti None (Unique_ 40))) false false (Some 2%Z) None None;
   r "propertyId" (TVal (CPat uuid_re)) true true (Some 0%Z) at_ None;
   r "propertyContextId" (TVal (CPat uuid_re)) false true (Some 0%Z) at_ None;
   r "isDefiningValue" (TVal (CBool true)) false true (Some 0%Z) at_ None].

(** ECS2_structure.py 263-266 *)
Definition ECS2_ActivityNameMaster_VALID : list (pystr * field vc) :=
  [r "id" (TVal (CPat uuid_re)) true false (Some 0%Z) at_ None;
   r "name" (TVal (CLang KMulti None (Lim_ 120))) true false (Some 1%Z) None None].

(** ECS2_structure.py 272-276 *)
Definition ECS2_CSClassificationValue_VALID : list (pystr * field vc) :=
  [r "id" (TVal (CPat uuid_re)) true true (Some 0%Z) at_ None;
   r "name" (TVal (CLang KLast None (Lim_ 120))) true false (Some 1%Z) None None;
   r "comment" (TVal (CLang KMulti None (Lim_ lim32000))) false false (Some 2%Z) None None].

(** ECS2_structure.py 280-286 *)
Definition ECS2_ClassificationSystemMaster_VALID : list (pystr * field vc) :=
  [r "id" (TVal (CPat uuid_re)) true true (Some 0%Z) at_ None;
   r "type" (TVal (CColl (zrange 1 4) false)) true true (Some 0%Z) at_ None;
   r "name" (TVal (CLang KMulti None (Lim_ 255))) true false (Some 1%Z) None None;
   r "comment" (TVal (CLang KMulti None (Lim_ lim32000))) false false (Some 2%Z) None None;
   r "classificationValue" (TSub ECS2_CSClassificationValue) true false (Some 3%Z) None None].

(** ECS2_structure.py 292-298 *)
Definition ECS2_CompanyMaster_VALID : list (pystr * field vc) :=
  [r "id" (TVal (CPat uuid_re)) true true (Some 0%Z) at_ None;
   r "code" (TVal (CLim (LMax 7) None)) true true (Some 0%Z) at_ None;
   r "website" (TVal (CLim (LMax 255) (Some sep_default))) false true (Some 0%Z) at_ None;
   r "name" (TVal (CLang KMulti None (Lim_ 255))) false false (Some 1%Z) None None;
   r "comment" (TVal (CLang KMulti None (Lim_ lim32000))) false false (Some 2%Z) None None].

(** ECS2_structure.py 304-308 *)
Definition ECS2_CSubcompartmentMaster_VALID : list (pystr * field vc) :=
  [r "id" (TVal (CPat uuid_re)) true true (Some 0%Z) at_ None;
   r "name" (TVal (CLang KMulti None (Lim_ 40))) true false (Some 1%Z) None None;
   r "comment" (TVal (CLang KMulti None (Lim_ lim32000))) false false (Some 2%Z) None None].

(** ECS2_structure.py 312-317 *)
Definition ECS2_CompartmentMaster_VALID : list (pystr * field vc) :=
  [r "id" (TVal (CPat uuid_re)) true true (Some 0%Z) at_ None;
   r "name" (TVal (CLang KMulti None (Lim_ 40))) true false (Some 1%Z) None None;
   r "comment" (TVal (CLang KMulti None (Lim_ lim32000))) false false (Some 2%Z) None None;
   r "subcompartment" (TSub ECS2_CSubcompartmentMaster) true false (Some 3%Z) None None].

(** ECS2_structure.py 323-328 *)
Definition ECS2_EMCompartment_VALID : list (pystr * field vc) :=
  [r "subcompartmentId" (TVal (CPat uuid_re)) true true (Some 0%Z) at_ None;
   r "subcompartmentContextId" (TVal (CPat uuid_re)) false true (Some 0%Z) at_ None;
   r "compartment" (TVal (CLang KMulti None (Lim_ 40))) true false (Some 1%Z) None None;
   r "subcompartment" (TVal (CLang KMulti None (Lim_ 40))) true false (Some 2%Z) None None].

(** ECS2_structure.py 332-346 *)
Definition ECS2_ElementaryMaster_VALID : list (pystr * field vc) :=
  [r "id" (TVal (CPat uuid_re)) true true (Some 0%Z) at_ None;
   r "unitId" (TVal (CPat uuid_re)) true true (Some 0%Z) at_ None;
   r "unitContextId" (TVal (CPat uuid_re)) false true (Some 0%Z) at_ None;
   r "formula" (TVal (CLim (LMax 40) (Some sep_default))) false true (Some 0%Z) at_ None;
   r "casNumber" (TVal (CPat cas_re)) false true (Some 0%Z) at_ None;
   r "defaultVariableName" (TVal CVariableName) false true (Some 0%Z) at_ None;
   r "name" (TVal (CLang KMulti None (Lim_ 120))) true false (Some 1%Z) None None;
   r "unitName" (TVal (CLang KMulti None (Lim_ 40))) true false (Some 2%Z) None None;
   r "compartment" (TSub ECS2_EMCompartment) true false (Some 3%Z) None None;
   r "comment" (TVal (CLang KMulti None (Lim_ lim32000))) false false (Some 4%Z) None None;
   r "synonym" (TVal (CLang KNlr None (Lim_ 80))) false false (Some 5%Z) None None;
   r "property" (TSub ECS2_ECS2Property) false false (Some 6%Z) None None;
   r "productInformation" (TSub ECS2_ECS2TextAndImage) false true (Some 7%Z) None None].

(** ECS2_structure.py 352-365 *)
Definition ECS2_GeographyMaster_VALID : list (pystr * field vc) :=
  [r "id" (TVal (CPat uuid_re)) true true (Some 0%Z) at_ None;
   r "longitude" (TVal CReal) false true (Some 0%Z) at_ None;
   r "latitude" (TVal CReal) false true (Some 0%Z) at_ None;
   r "ISOTwoLetterCode" (TVal (CLim (LMax 2) None)) false true (Some 0%Z) at_ None;
   r "ISOThreeLetterCode" (TVal (CLim (LMax 3) None)) false true (Some 0%Z) at_ None;
   r "uNCode" (TVal CInt) false true (Some 0%Z) at_ None;
   r "uNRegionCode" (TVal CInt) false true (Some 0%Z) at_ None;
   r "uNSubregionCode" (TVal CInt) false true (Some 0%Z) at_ None;
   r "name" (TVal (CLang KMulti None (Lim_ 255))) true false (Some 1%Z) None None;
   r "shortname" (TVal (CLang KMulti None (Lim_ 40))) true false (Some 2%Z) None None;
   r "comment" (TSub ECS2_ECS2TextAndImage) false true (Some 3%Z) None None].

(** ECS2_structure.py 371-384 *)
Definition ECS2_IntermediateMaster_VALID : list (pystr * field vc) :=
  [r "id" (TVal (CPat uuid_re)) true true (Some 0%Z) at_ None;
   r "unitId" (TVal (CPat uuid_re)) true true (Some 0%Z) at_ None;
   r "unitContextId" (TVal (CPat uuid_re)) false true (Some 0%Z) at_ None;
   r "casNumber" (TVal (CPat cas_re)) false true (Some 0%Z) at_ None;
   r "defaultVariableName" (TVal CVariableName) false true (Some 0%Z) at_ None;
   r "name" (TVal (CLang KMulti None (Lim_ 120))) true false (Some 1%Z) None None;
   r "unitName" (TVal (CLang KMulti None (Lim_ 40))) true false (Some 2%Z) None None;
   r "classification" (TSub ECS2_ECS2Classification) false false (Some 3%Z) None None;
   r "comment" (TVal (CLang KMulti None (Lim_ lim32000))) false false (Some 4%Z) None None;
   r "synonym" (TVal (CLang KNlr None (Lim_ 80))) false false (Some 5%Z) None None;
   r "property" (TSub ECS2_ECS2Property) false false (Some 6%Z) None None;
   r "productInformation" (TSub ECS2_ECS2TextAndImage) false true (Some 7%Z) None None].

(** ECS2_structure.py 390-393 *)
Definition ECS2_LanguageMaster_VALID : list (pystr * field vc) :=
  [r "code" (TVal (CLim (LRange 2 5) None)) true true (Some 0%Z) at_ None;
   r "comment" (TVal (CLang KMulti None (Lim_ lim32000))) false false (Some 2%Z) None None].

(** ECS2_structure.py 399-403 *)
Definition ECS2_MacroEconomicScenarioMaster_VALID : list (pystr * field vc) :=
  [r "id" (TVal (CPat uuid_re)) true true (Some 0%Z) at_ None;
   r "name" (TVal (CLang KMulti None (Lim_ 80))) true false (Some 1%Z) None None;
   r "comment" (TVal (CLang KMulti None (Lim_ lim32000))) false false (Some 2%Z) None None].

(** ECS2_structure.py 409-417 *)
Definition ECS2_ParameterMaster_VALID : list (pystr * field vc) :=
  [r "id" (TVal (CPat uuid_re)) true true (Some 0%Z) at_ None;
   r "defaultVariableName" (TVal CVariableName) false true (Some 0%Z) at_ None;
   r "unitId" (TVal (CPat uuid_re)) false true (Some 0%Z) at_ None;
   r "unitContextId" (TVal (CPat uuid_re)) false true (Some 0%Z) at_ None;
   r "name" (TVal (CLang KMulti None (Lim_ 80))) true false (Some 1%Z) None None;
   r "unitName" (TVal (CLang KMulti None (Lim_ 40))) false false (Some 2%Z) None None;
   r "comment" (TVal (CLang KMulti None (Lim_ lim32000))) false false (Some 3%Z) None None].

(** ECS2_structure.py 423-433 *)
Definition ECS2_PersonMaster_VALID : list (pystr * field vc) :=
  [r "id" (TVal (CPat uuid_re)) true true (Some 0%Z) at_ None;
   r "name" (TVal (CLim (LMax 40) (Some sep_default))) true true (Some 0%Z) at_ None;
   r "address" (TVal (CLim (LMax 255) (Some sep_default))) false true (Some 0%Z) at_ None;
   r "telephone" (TVal (CLim (LMax 40) (Some sep_default))) false true (Some 0%Z) at_ None;
   r "telefax" (TVal (CLim (LMax 40) (Some sep_default))) false true (Some 0%Z) at_ None;
   r "email" (TVal (CLim (LMax 80) (Some sep_default))) true true (Some 0%Z) at_ None;
   r "companyId" (TVal (CPat uuid_re)) false true (Some 0%Z) at_ None;
   r "companyContextId" (TVal (CPat uuid_re)) false true (Some 0%Z) at_ None;
   r "companyName" (TVal (CLang KMulti None (Lim_ 255))) false false (Some 1%Z) None None].

(** ECS2_structure.py 439-447 *)
Definition ECS2_PropertyMaster_VALID : list (pystr * field vc) :=
  [r "id" (TVal (CPat uuid_re)) true true (Some 0%Z) at_ None;
   r "defaultVariableName" (TVal CVariableName) false true (Some 0%Z) at_ None;
   r "unitId" (TVal (CPat uuid_re)) false true (Some 0%Z) at_ None;
   r "unitContextId" (TVal (CPat uuid_re)) false true (Some 0%Z) at_ None;
   r "name" (TVal (CLang KMulti None (Lim_ 80))) true false (Some 1%Z) None None;
   r "unitName" (TVal (CLang KMulti None (Lim_ 40))) false false (Some 2%Z) None None;
   r "comment" (TVal (CLang KMulti None (Lim_ lim32000))) false false (Some 3%Z) None None].

(** ECS2_structure.py 453-470 *)
Definition ECS2_SourceMaster_VALID : list (pystr * field vc) :=
  [r "id" (TVal (CPat uuid_re)) true true (Some 0%Z) at_ None;
   r "sourceType" (TVal (CColl (zrange 0 8) false)) true true (Some 0%Z) at_ None;
   r "year" (TVal (CLim (LMax 30) (Some sep_default))) false true (Some 0%Z) at_ None;
   r "volumeNo" (TVal CInt) false true (Some 0%Z) at_ None;
   r "firstAuthor" (TVal (CLim (LMax 40) (Some sep_default))) true true (Some 0%Z) at_ None;
   r "additionalAuthors" (TVal (CLim (LMax 255) (Some sep_default))) false true (Some 0%Z) at_ None;
   r "title" (TVal (CLim (LMax 255) (Some sep_default))) true true (Some 0%Z) at_ None;
   r "shortName" (TVal (CLim (LMax 80) (Some sep_default))) false true (Some 0%Z) at_ None;
   r "pageNumbers" (TVal (CLim (LMax 30) (Some sep_default))) false true (Some 0%Z) at_ None;
   r "nameOfEditors" (TVal (CLim (LMax 255) (Some sep_default))) false true (Some 0%Z) at_ None;
   r "titleOfAnthology" (TVal (CLim (LMax 255) (Some sep_default))) false true (Some 0%Z) at_ None;
   r "placeOfPublications" (TVal (CLim (LMax lim32000) (Some sep_default))) false true (Some 0%Z) at_ None;
   r "publisher" (TVal (CLim (LMax 40) (Some sep_default))) false true (Some 0%Z) at_ None;
   r "journal" (TVal (CLim (LMax 40) (Some sep_default))) false true (Some 0%Z) at_ None;
   r "issueNo" (TVal (CLim (LMax 40) (Some sep_default))) false true (Some 0%Z) at_ None;
   r "comment" (TVal (CLang KMulti None (Lim_ lim32000))) false false (Some 1%Z) None None].

(** ECS2_structure.py 476-481 *)
Definition ECS2_SystemModelMaster_VALID : list (pystr * field vc) :=
  [r "id" (TVal (CPat uuid_re)) true true (Some 0%Z) at_ None;
   r "name" (TVal (CLang KMulti None (Lim_ 120))) true false (Some 1%Z) None None;
   r "shortname" (TVal (CLang KMulti None (Lim_ 20))) true false (Some 2%Z) None None;
   r "comment" (TVal (CLang KMulti None (Lim_ lim32000))) false false (Some 3%Z) None None].

(** ECS2_structure.py 487-490 *)
Definition ECS2_TagMaster_VALID : list (pystr * field vc) :=
  [r "name" (TVal (CLim (LMax 40) (Some sep_default))) true true (Some 0%Z) at_ None;
   r "comment" (TVal (CLang KMulti None (Lim_ lim32000))) false false (Some 1%Z) None None].

(** ECS2_structure.py 496-500 *)
Definition ECS2_UnitMaster_VALID : list (pystr * field vc) :=
  [r "id" (TVal (CPat uuid_re)) true true (Some 0%Z) at_ None;
   r "name" (TVal (CLang KMulti None (Lim_ 40))) true false (Some 1%Z) None None;
   r "comment" (TVal (CLang KMulti None (Lim_ lim32000))) false false (Some 2%Z) None None].

(** ECS2_structure.py 506-514 *)
Definition ECS2_ActivityIndexEntryMaster_VALID : list (pystr * field vc) :=
  [r "id" (TVal (CPat uuid_re)) true true (Some 0%Z) at_ None;
   r "activityNameId" (TVal (CPat uuid_re)) true false (Some 0%Z) at_ None;
   r "geographyId" (TVal (CPat uuid_re)) true true (Some 0%Z) at_ None;
   r "startDate" (TVal (CDate DayOnly)) true true (Some 0%Z) at_ None;
   r "endDate" (TVal (CDate DayOnly)) true true (Some 0%Z) at_ None;
   r "specialActivityType" (TVal (CColl (zrange 0 11) false)) true false (Some 0%Z) at_ None;
   r "systemModelId" (TVal (CPat uuid_re)) true true (Some 0%Z) at_ None].

(** ECS2_structure.py 520-539 *)
Definition ECS2_ECS2UsedUserMasterData_VALID : list (pystr * field vc) :=
  [r "activityName" (TSub ECS2_ActivityNameMaster) false false (Some 0%Z) None None;
   r "language" (TSub ECS2_LanguageMaster) false false (Some 1%Z) None None;
   r "geography" (TSub ECS2_GeographyMaster) false false (Some 2%Z) None None;
   r "systemModel" (TSub ECS2_SystemModelMaster) false false (Some 3%Z) None None;
   r "tag" (TSub ECS2_TagMaster) false false (Some 4%Z) None None;
   r "macroEconomicScenario" (TSub ECS2_MacroEconomicScenarioMaster) false false (Some 5%Z) None None;
   r "compartment" (TSub ECS2_CompartmentMaster) false false (Some 6%Z) None None;
   r "classificationSystem" (TSub ECS2_ClassificationSystemMaster) false false (Some 7%Z) None None;
   r "company" (TSub ECS2_CompanyMaster) false false (Some 8%Z) None None;
   r "person" (TSub ECS2_PersonMaster) false false (Some 9%Z) None None;
   r "source" (TSub ECS2_SourceMaster) false false (Some 10%Z) None None;
   r "units" (TSub ECS2_UnitMaster) false false (Some 11%Z) None None;
   r "parameter" (TSub ECS2_ParameterMaster) false false (Some 12%Z) None None;
   r "property" (TSub ECS2_PropertyMaster) false false (Some 13%Z) None None;
   r "elementaryExchange" (TSub ECS2_ElementaryMaster) false false (Some 14%Z) None None;
   r "intermediateExchange" (TSub ECS2_IntermediateMaster) false false (Some 15%Z) None None;
   r "activityIndexEntry" (TSub ECS2_ActivityIndexEntryMaster) false true (Some 16%Z) None None].

(** ECS2_structure.py 545-547 *)
Definition ECS2_CETransferCoefficient_VALID : list (pystr * field vc) :=
  [r "sourceId" (TVal (CPat uuid_re)) false false (Some 0%Z) at_ None;
   r "sourceIdOverwrittenByChild" (TVal (CBool true)) false true (Some 0%Z) at_ None;
   r "sourceContextId" (TVal (CPat uuid_re)) false true (Some 0%Z) at_ None;
   r "sourceYear" (TVal (CLim (LMax 30) None)) false false (Some 0%Z) at_ None;
   r "sourceFirstAuthor" (TVal (CLim (LMax 40) None)) false false (Some 0%Z) at_ None;
   r "amount" (TVal CReal) true false (Some 0%Z) at_ None;
   r "mathematicalRelation" (TVal (CLim (LMax lim32000) (Some sep_default))) false true (Some 0%Z) at_ None;
   r "isCalculatedAmount" (TVal (CBool true)) false true (Some 0%Z) at_ None;
   r "comment" (TVal (CLang KMulti None (Lim_ lim32000))) false false (Some 3%Z) None None;
   r "uncertainty" (TSub ECS2_ECS2Uncertainty) false true (Some 4%Z) None None;
   r "exchangeId" (TVal (CPat uuid_re)) true true (Some 0%Z) at_ None].

(** ECS2_structure.py 553-564 *)
Definition ECS2_ECS2CustomExchange_VALID : list (pystr * field vc) :=
  [r "sourceId" (TVal (CPat uuid_re)) false false (Some 0%Z) at_ None;
   r "sourceIdOverwrittenByChild" (TVal (CBool true)) false true (Some 0%Z) at_ None;
   r "sourceContextId" (TVal (CPat uuid_re)) false true (Some 0%Z) at_ None;
   r "sourceYear" (TVal (CLim (LMax 30) None)) false false (Some 0%Z) at_ None;
   r "sourceFirstAuthor" (TVal (CLim (LMax 40) None)) false false (Some 0%Z) at_ None;
   r "amount" (TVal CReal) true false (Some 0%Z) at_ None;
   r "mathematicalRelation" (TVal (CLim (LMax lim32000) (Some sep_default))) false true (Some 0%Z) at_ None;
   r "isCalculatedAmount" (TVal (CBool true)) false true (Some 0%Z) at_ None;
   r "comment" (TVal (CLang KMulti None (Lim_ lim32000))) false false (Some 3%Z) None None;
   r "uncertainty" (TSub ECS2_ECS2Uncertainty) false true (Some 4%Z) None None;
   r "variableName" (TVal CVariableName) false true (Some 0%Z) at_ None;
   r "unitId" (TVal (CPat uuid_re)) false false (Some 0%Z) at_ None;
   r "unitContextId" (TVal (CPat uuid_re)) false true (Some 0%Z) at_ None;
   r "name" (TVal (CLang KFirst None (Lim_ 80))) true false (Some 1%Z) None None;
   r "unitName" (TVal (CLang KMulti None (Unique_ 40))) true false (Some 2%Z) None None;
   r "id" (TVal (CPat uuid_re)) true false (Some 0%Z) at_ None;
   r "casNumber" (TVal (CPat cas_re)) false true (Some 0%Z) at_ None;
   r "pageNumbers" (TVal (CLim (LMax 30) (Some sep_default))) false true (Some 0%Z) at_ None;
   r "specificAllocationPropertyId" (TVal (CPat uuid_re)) false true (Some 0%Z) at_ None;
   r "specificAllocationPropertyIdOverwrittenByChild" (TVal (CBool true)) false true (Some 0%Z) at_ None;
   r "specificAllocationPropertyContextId" (TVal (CPat uuid_re)) false true (Some 0%Z) at_ None;
   r "synonym" (TVal (CLang KNlr None (Lim_ 80))) false false (Some 5%Z) None None;
   r "property" (TSub ECS2_ECS2Property) false false (Some 6%Z) None None;
   r "transferCoefficient" (TSub ECS2_CETransferCoefficient) false false (Some 7%Z) None None;
   r "tag" (TVal (CLim (LMax 40) (Some sep_default))) false false (Some 8%Z) None None].

(** ECS2_structure.py 570-591 *)
Definition ECS2_Activity_VALID : list (pystr * field vc) :=
  [r "id" (TVal (CPat uuid_re)) true true (Some 0%Z) at_ None;
   r "activityNameId" (TVal (CPat uuid_re)) true false (Some 0%Z) at_ None;
   r "activityNameContextId" (TVal (CPat uuid_re)) false true (Some 0%Z) at_ None;
   r "parentActivityId" (TVal (CPat uuid_re)) false true (Some 0%Z) at_ None;
   r "parentActivityContextId" (TVal (CPat uuid_re)) false true (Some 0%Z) at_ None;
   r "inheritanceDepth" (TVal (CColl (zrange (-1) 4) true)) true false (Some 0%Z) at_ None;
   r "type" (TVal (CColl (zrange 1 4) false)) true true (Some 0%Z) at_ None;
   r "specialActivityType" (TVal (CColl (zrange 0 11) false)) true false (Some 0%Z) at_ None;
   r "energyValues" (TVal (CColl (zrange 0 3) false)) true false (Some 0%Z) at_ None;
   r "masterAllocationPropertyId" (TVal (CPat uuid_re)) false true (Some 0%Z) at_ None;
   r "masterAllocationPropertyIdOverwrittenByChild" (TVal (CBool true)) false true (Some 0%Z) at_ None;
   r "masterAllocationPropertyContextId" (TVal (CPat uuid_re)) false true (Some 0%Z) at_ None;
   r "datasetIcon" (TVal CStr) false true (Some 0%Z) at_ None;
   r "activityName" (TVal (CLang KFirst None (Lim_ 120))) true false (Some 1%Z) None None;
   r "synonym" (TVal (CLang KNlr None (Lim_ 80))) false false (Some 2%Z) None None;
   r "includedActivitiesStart" (TVal (CLang KMulti None (Lim_ lim32000))) false false (Some 3%Z) None None;
   r "includedActivitiesEnd" (TVal (CLang KMulti None (Lim_ lim32000))) false false (Some 4%Z) None None;
   r "allocationComment" (TSub ECS2_ECS2TextAndImage) false true (Some 5%Z) None None;
   r "generalComment" (TSub ECS2_ECS2TextAndImage) false true (Some 6%Z) None None;
   r "tag" (TVal (CLim (LMax 40) (Some sep_default))) false false (Some 7%Z) None None].

(** ECS2_structure.py 595-600 *)
Definition ECS2_Geography_VALID : list (pystr * field vc) :=
  [r "geographyId" (TVal (CPat uuid_re)) true true (Some 0%Z) at_ None;
   r "geographyContextId" (TVal (CPat uuid_re)) false true (Some 0%Z) at_ None;
   r "shortname" (TVal (CLang KMulti None (Lim_ 40))) true false (Some 1%Z) None None;
   r "comment" (TSub ECS2_ECS2TextAndImage) false true (Some 2%Z) None None].

(** ECS2_structure.py 604-607 *)
Definition ECS2_Technology_VALID : list (pystr * field vc) :=
  [r "technologyLevel" (TVal (CColl (zrange 0 6) false)) true false (Some 0%Z) at_ None;
   r "comment" (TSub ECS2_ECS2TextAndImage) false true (Some 1%Z) None None].

(** ECS2_structure.py 611-616 *)
Definition ECS2_TimePeriod_VALID : list (pystr * field vc) :=
  [r "startDate" (TVal (CDate DayOnly)) true true (Some 0%Z) at_ None;
   r "endDate" (TVal (CDate DayOnly)) true true (Some 0%Z) at_ None;
   r "isDataValidForEntirePeriod" (TVal (CBool true)) true false (Some 0%Z) at_ None;
   r "comment" (TSub ECS2_ECS2TextAndImage) false true (Some 1%Z) None None].

(** ECS2_structure.py 620-625 *)
Definition ECS2_MacroEconomicScenario_VALID : list (pystr * field vc) :=
  [r "macroEconomicScenarioId" (TVal (CPat uuid_re)) true true (Some 0%Z) at_ None;
   r "macroEconomicScenarioContextId" (TVal (CPat uuid_re)) false true (Some 0%Z) at_ None;
   r "name" (TVal (CLang KMulti None (Lim_ 80))) true false (Some 1%Z) None None;
   r "comment" (TVal (CLang KMulti None (Lim_ lim32000))) false false (Some 2%Z) None None].

(** ECS2_structure.py 629-636 *)
Definition ECS2_ActivityDescription_VALID : list (pystr * field vc) :=
  [r "activity" (TSub ECS2_Activity) true true (Some 1%Z) None None;
   r "classification" (TSub ECS2_ECS2Classification) false false (Some 2%Z) None None;
   r "geography" (TSub ECS2_Geography) true true (Some 3%Z) None None;
   r "technology" (TSub ECS2_Technology) true true (Some 4%Z) None None;
   r "timePeriod" (TSub ECS2_TimePeriod) true true (Some 5%Z) None None;
   r "macroEconomicScenario" (TSub ECS2_MacroEconomicScenario) true true (Some 6%Z) None None].

(** ECS2_structure.py 642-649 *)
Definition ECS2_Representativeness_VALID : list (pystr * field vc) :=
  [r "percent" (TVal CPercent) false true (Some 0%Z) at_ None;
   r "systemModelId" (TVal (CPat uuid_re)) true true (Some 0%Z) at_ None;
   r "systemModelContextId" (TVal (CPat uuid_re)) false true (Some 0%Z) at_ None;
   r "systemModelName" (TVal (CLang KMulti None (Lim_ 120))) true false (Some 1%Z) None None;
   r "samplingProcedure" (TVal (CLang KMulti None (Lim_ lim32000))) false false (Some 2%Z) None None;
   r "extrapolations" (TVal (CLang KMulti None (Lim_ lim32000))) false false (Some 3%Z) None None].

(** ECS2_structure.py 653-665 *)
Definition ECS2_Review_VALID : list (pystr * field vc) :=
  [r "reviewerId" (TVal (CPat uuid_re)) true false (Some 0%Z) at_ None;
   r "reviewerContextId" (TVal (CPat uuid_re)) false true (Some 0%Z) at_ None;
   r "reviewerName" (TVal (CLim (LMax 40) (Some sep_review))) true false (Some 0%Z) at_ None;
   r "reviewerEmail" (TVal (CLim (LMax 80) None)) true false (Some 0%Z) at_ None;
   r "reviewDate" (TVal (CDate DayOnly)) true false (Some 0%Z) at_ None;
   r "reviewedMajorRelease" (TVal CInt) true false (Some 0%Z) at_ None;
   r "reviewedMinorRelease" (TVal CInt) true false (Some 0%Z) at_ None;
   r "reviewedMajorRevision" (TVal CInt) true false (Some 0%Z) at_ None;
   r "reviewedMinorRevision" (TVal CInt) true false (Some 0%Z) at_ None;
   r "details" (TSub ECS2_ECS2TextAndImage) false true (Some 1%Z) None None;
   r "otherDetails" (TVal (CLang KMulti None (Lim_ lim32000))) false false (Some 2%Z) None None].

(** ECS2_structure.py 669-672 *)
Definition ECS2_ModellingAndValidation_VALID : list (pystr * field vc) :=
  [r "representativeness" (TSub ECS2_Representativeness) false true (Some 1%Z) None None;
   r "review" (TSub ECS2_Review) false false (Some 2%Z) None None].

(** ECS2_structure.py 678-684 *)
Definition ECS2_DataEntryBy_VALID : list (pystr * field vc) :=
  [r "personId" (TVal (CPat uuid_re)) true false (Some 0%Z) at_ None;
   r "personContextId" (TVal (CPat uuid_re)) false true (Some 0%Z) at_ None;
   r "isActiveAuthor" (TVal (CBool true)) false false (Some 0%Z) at_ None;
   r "personName" (TVal (CLim (LMax 40) None)) true false (Some 0%Z) at_ None;
   r "personEmail" (TVal (CLim (LMax 80) None)) true false (Some 0%Z) at_ None].

(** ECS2_structure.py 688-706 *)
Definition ECS2_DataGeneratorAndPublication_VALID : list (pystr * field vc) :=
  [r "personId" (TVal (CPat uuid_re)) true false (Some 0%Z) at_ None;
   r "personContextId" (TVal (CPat uuid_re)) false true (Some 0%Z) at_ None;
   r "personName" (TVal (CLim (LMax 40) None)) true false (Some 0%Z) at_ None;
   r "personEmail" (TVal (CLim (LMax 80) None)) true false (Some 0%Z) at_ None;
   r "dataPublishedIn" (TVal (CColl (zrange 0 2) false)) false true (Some 0%Z) at_ None;
   r "publishedSourceId" (TVal (CPat uuid_re)) false false (Some 0%Z) at_ None;
   r "publishedSourceIdOverwrittenByChild" (TVal (CBool true)) false true (Some 0%Z) at_ None;
   r "publishedSourceContextId" (TVal (CPat uuid_re)) false true (Some 0%Z) at_ None;
   r "publishedSourceYear" (TVal (CLim (LMax 30) (Some sep_default))) false false (Some 0%Z) at_ None;
   r "publishedSourceFirstAuthor" (TVal (CLim (LMax 40) (Some sep_default))) false false (Some 0%Z) at_ None;
   r "isCopyrightProtected" (TVal (CBool true)) true true (Some 0%Z) at_ None;
   r "pageNumbers" (TVal (CLim (LMax 30) (Some sep_default))) false true (Some 0%Z) at_ None;
   r "accessRestrictedTo" (TVal (CColl (zrange 0 3) false)) false false (Some 0%Z) at_ None;
   r "companyId" (TVal (CPat uuid_re)) false false (Some 0%Z) at_ None;
   r "companyIdOverwrittenByChild" (TVal (CBool true)) false true (Some 0%Z) at_ None;
   r "companyContextId" (TVal (CPat uuid_re)) false true (Some 0%Z) at_ None;
   r "companyCode" (TVal (CLim (LMax 7) None)) false false (Some 0%Z) at_ None].

(** ECS2_structure.py 710-718 *)
Definition ECS2_RequiredContextReference_VALID : list (pystr * field vc) :=
  [r "majorRelease" (TVal CInt) true false (Some 0%Z) at_ None;
   r "minorRelease" (TVal CInt) true false (Some 0%Z) at_ None;
   r "majorRevision" (TVal CInt) false false (Some 0%Z) at_ None;
   r "minorRevision" (TVal CInt) false false (Some 0%Z) at_ None;
   r "requiredContextId" (TVal (CPat uuid_re)) true true (Some 0%Z) at_ None;
   r "requiredContextFileLocation" (TVal CStr) false true (Some 0%Z) at_ None;
   r "requiredContextName" (TVal (CLang KMulti None (Lim_ 80))) true false (Some 1%Z) None None].

(** ECS2_structure.py 722-736 *)
Definition ECS2_FileAttributes_VALID : list (pystr * field vc) :=
  [r "majorRelease" (TVal CInt) true false (Some 0%Z) at_ None;
   r "minorRelease" (TVal CInt) true false (Some 0%Z) at_ None;
   r "majorRevision" (TVal CInt) true false (Some 0%Z) at_ None;
   r "minorRevision" (TVal CInt) true false (Some 0%Z) at_ None;
   r "internalSchemaVersion" (TVal (CLim (LMax 80) (Some sep_default))) false true (Some 0%Z) at_ None;
   r "defaultLanguage" (TVal (CLim (LRange 2 5) None)) false true (Some 0%Z) at_ None;
   r "creationTimestamp" (TVal (CDate Seconds)) false false (Some 0%Z) at_ None;
   r "lastEditTimestamp" (TVal (CDate Seconds)) false true (Some 0%Z) at_ None;
   r "fileGenerator" (TVal (CLim (LMax 255) (Some sep_default))) true true (Some 0%Z) at_ None;
   r "fileTimestamp" (TVal (CDate Seconds)) true true (Some 0%Z) at_ None;
   r "contextId" (TVal (CPat uuid_re)) true true (Some 0%Z) at_ None;
   r "contextName" (TVal (CLang KMulti None (Lim_ 80))) false false (Some 1%Z) None None;
   r "requiredContext" (TSub ECS2_RequiredContextReference) false false (Some 2%Z) None None].

(** ECS2_structure.py 740-744 *)
Definition ECS2_AdministrativeInformation_VALID : list (pystr * field vc) :=
  [r "dataEntryBy" (TSub ECS2_DataEntryBy) true true (Some 1%Z) None None;
   r "dataGeneratorAndPublication" (TSub ECS2_DataGeneratorAndPublication) true true (Some 2%Z) None None;
   r "fileAttributes" (TSub ECS2_FileAttributes) true true (Some 3%Z) None None].

(** ECS2_structure.py 750-769 *)
Definition ECS2_IntermediateExchange_VALID : list (pystr * field vc) :=
  [r "sourceId" (TVal (CPat uuid_re)) false false (Some 0%Z) at_ None;
   r "sourceIdOverwrittenByChild" (TVal (CBool true)) false true (Some 0%Z) at_ None;
   r "sourceContextId" (TVal (CPat uuid_re)) false true (Some 0%Z) at_ None;
   r "sourceYear" (TVal (CLim (LMax 30) None)) false false (Some 0%Z) at_ None;
   r "sourceFirstAuthor" (TVal (CLim (LMax 40) None)) false false (Some 0%Z) at_ None;
   r "amount" (TVal CReal) true false (Some 0%Z) at_ None;
   r "mathematicalRelation" (TVal (CLim (LMax lim32000) (Some sep_default))) false true (Some 0%Z) at_ None;
   r "isCalculatedAmount" (TVal (CBool true)) false true (Some 0%Z) at_ None;
   r "comment" (TVal (CLang KMulti None (Lim_ lim32000))) false false (Some 3%Z) None None;
   r "uncertainty" (TSub ECS2_ECS2Uncertainty) false true (Some 4%Z) None None;
   r "variableName" (TVal CVariableName) false true (Some 0%Z) at_ None;
   r "unitId" (TVal (CPat uuid_re)) false false (Some 0%Z) at_ None;
   r "unitContextId" (TVal (CPat uuid_re)) false true (Some 0%Z) at_ None;
   r "name" (TVal (CLang KFirst None (Lim_ 80))) true false (Some 1%Z) None None;
   r "unitName" (TVal (CLang KMulti None (Unique_ 40))) true false (Some 2%Z) None None;
   r "id" (TVal (CPat uuid_re)) true false (Some 0%Z) at_ None;
   r "casNumber" (TVal (CPat cas_re)) false true (Some 0%Z) at_ None;
   r "pageNumbers" (TVal (CLim (LMax 30) (Some sep_default))) false true (Some 0%Z) at_ None;
   r "specificAllocationPropertyId" (TVal (CPat uuid_re)) false true (Some 0%Z) at_ None;
   r "specificAllocationPropertyIdOverwrittenByChild" (TVal (CBool true)) false true (Some 0%Z) at_ None;
   r "specificAllocationPropertyContextId" (TVal (CPat uuid_re)) false true (Some 0%Z) at_ None;
   r "synonym" (TVal (CLang KNlr None (Lim_ 80))) false false (Some 5%Z) None None;
   r "property" (TSub ECS2_ECS2Property) false false (Some 6%Z) None None;
   r "transferCoefficient" (TSub ECS2_CETransferCoefficient) false false (Some 7%Z) None None;
   r "tag" (TVal (CLim (LMax 40) (Some sep_default))) false false (Some 8%Z) None None;
   r "intermediateExchangeId" (TVal (CPat uuid_re)) true true (Some 0%Z) at_ None;
   r "intermediateExchangeContextId" (TVal (CPat uuid_re)) false true (Some 0%Z) at_ None;
   r "activityLinkId" (TVal (CPat uuid_re)) false true (Some 0%Z) at_ None;
   r "activityLinkIdOverwrittenByChild" (TVal (CBool true)) false true (Some 0%Z) at_ None;
   r "activityLinkContextId" (TVal (CPat uuid_re)) false true (Some 0%Z) at_ None;
   r "productionVolumeAmount" (TVal CReal) false true (Some 0%Z) at_ None;
   r "productionVolumeVariableName" (TVal CVariableName) false true (Some 0%Z) at_ None;
   r "productionVolumeMathematicalRelation" (TVal (CLim (LMax lim32000) (Some sep_default))) false true (Some 0%Z) at_ None;
   r "productionVolumeSourceId" (TVal (CPat uuid_re)) false true (Some 0%Z) at_ None;
   r "productionVolumeSourceIdOverwrittenByChild" (TVal (CBool true)) false true (Some 0%Z) at_ None;
   r "productionVolumeSourceContextId" (TVal (CPat uuid_re)) false true (Some 0%Z) at_ None;
   r "productionVolumeSourceYear" (TVal (CLim (LMax 30) (Some sep_default))) false true (Some 0%Z) at_ None;
   r "productionVolumeSourceFirstAuthor" (TVal (CLim (LMax 40) (Some sep_default))) false true (Some 0%Z) at_ None;
   r "productionVolumeComment" (TVal (CLang KMulti None (Lim_ lim32000))) false false (Some 9%Z) None None;
   r "productionVolumeUncertainty" (TSub ECS2_ECS2Uncertainty) false true (Some 10%Z) None None;
   r "classification" (TSub ECS2_ECS2Classification) false false (Some 11%Z) None None;
   r "inputGroup" (TVal (CColl ([1; 2; 3; 5]%Z) false)) false true (Some 12%Z) None None;
   r "outputGroup" (TVal (CColl ([0; 2; 3; 5]%Z) false)) false false (Some 13%Z) None None].

(** ECS2_structure.py 773-778 *)
Definition ECS2_Compartment_VALID : list (pystr * field vc) :=
  [r "subcompartmentId" (TVal (CPat uuid_re)) true true (Some 0%Z) at_ None;
   r "subcompartmentContextId" (TVal (CPat uuid_re)) false true (Some 0%Z) at_ None;
   r "compartment" (TVal (CLang KMulti None (Lim_ 40))) true false (Some 1%Z) None None;
   r "subcompartment" (TVal (CLang KMulti None (Lim_ 40))) true false (Some 2%Z) None None].

(** ECS2_structure.py 782-789 *)
Definition ECS2_ElementaryExchange_VALID : list (pystr * field vc) :=
  [r "sourceId" (TVal (CPat uuid_re)) false false (Some 0%Z) at_ None;
   r "sourceIdOverwrittenByChild" (TVal (CBool true)) false true (Some 0%Z) at_ None;
   r "sourceContextId" (TVal (CPat uuid_re)) false true (Some 0%Z) at_ None;
   r "sourceYear" (TVal (CLim (LMax 30) None)) false false (Some 0%Z) at_ None;
   r "sourceFirstAuthor" (TVal (CLim (LMax 40) None)) false false (Some 0%Z) at_ None;
   r "amount" (TVal CReal) true false (Some 0%Z) at_ None;
   r "mathematicalRelation" (TVal (CLim (LMax lim32000) (Some sep_default))) false true (Some 0%Z) at_ None;
   r "isCalculatedAmount" (TVal (CBool true)) false true (Some 0%Z) at_ None;
   r "comment" (TVal (CLang KMulti None (Lim_ lim32000))) false false (Some 3%Z) None None;
   r "uncertainty" (TSub ECS2_ECS2Uncertainty) false true (Some 4%Z) None None;
   r "variableName" (TVal CVariableName) false true (Some 0%Z) at_ None;
   r "unitId" (TVal (CPat uuid_re)) false false (Some 0%Z) at_ None;
   r "unitContextId" (TVal (CPat uuid_re)) false true (Some 0%Z) at_ None;
   r "name" (TVal (CLang KFirst None (Lim_ 80))) true false (Some 1%Z) None None;
   r "unitName" (TVal (CLang KMulti None (Unique_ 40))) true false (Some 2%Z) None None;
   r "id" (TVal (CPat uuid_re)) true false (Some 0%Z) at_ None;
   r "casNumber" (TVal (CPat cas_re)) false true (Some 0%Z) at_ None;
   r "pageNumbers" (TVal (CLim (LMax 30) (Some sep_default))) false true (Some 0%Z) at_ None;
   r "specificAllocationPropertyId" (TVal (CPat uuid_re)) false true (Some 0%Z) at_ None;
   r "specificAllocationPropertyIdOverwrittenByChild" (TVal (CBool true)) false true (Some 0%Z) at_ None;
   r "specificAllocationPropertyContextId" (TVal (CPat uuid_re)) false true (Some 0%Z) at_ None;
   r "synonym" (TVal (CLang KNlr None (Lim_ 80))) false false (Some 5%Z) None None;
   r "property" (TSub ECS2_ECS2Property) false false (Some 6%Z) None None;
   r "transferCoefficient" (TSub ECS2_CETransferCoefficient) false false (Some 7%Z) None None;
   r "tag" (TVal (CLim (LMax 40) (Some sep_default))) false false (Some 8%Z) None None;
   r "elementaryExchangeId" (TVal (CPat uuid_re)) true true (Some 0%Z) at_ None;
   r "elementaryExchangeContextId" (TVal (CPat uuid_re)) false true (Some 0%Z) at_ None;
   r "formula" (TVal (CLim (LMax 40) (Some sep_default))) false true (Some 0%Z) at_ None;
   r "compartment" (TSub ECS2_Compartment) true true (Some 9%Z) None None;
   r "inputGroup" (TVal (CColl ([4]%Z) false)) false false (Some 10%Z) None None;
   r "outputGroup" (TVal (CColl ([4]%Z) false)) false false (Some 11%Z) None None].

(** ECS2_structure.py 793-796 *)
Definition ECS2_Parameter_VALID : list (pystr * field vc) :=
  [r "amount" (TVal CReal) true false (Some 0%Z) at_ None;
   r "mathematicalRelation" (TVal (CLim (LMax lim32000) (Some sep_default))) false true (Some 0%Z) at_ None;
   r "isCalculatedAmount" (TVal (CBool true)) false true (Some 0%Z) at_ None;
   r "comment" (TVal (CLang KMulti None (Lim_ lim32000))) false false (Some 4%Z) None None;
   r "uncertainty" (TSub ECS2_ECS2Uncertainty) false true (Some 3%Z) None None;
   r "variableName" (TVal CVariableName) false true (Some 0%Z) at_ None;
   r "unitId" (TVal (CPat uuid_re)) false false (Some 0%Z) at_ None;
   r "unitContextId" (TVal (CPat uuid_re)) false true (Some 0%Z) at_ None;
   r "name" (TVal (CLang KFirst None (Lim_ 80))) true false (Some 1%Z) None None;
   r "unitName" (TVal (CLang KMulti None (Unique_ 40))) false false (Some 2%Z) None None;
   r "parameterId" (TVal (CPat uuid_re)) true true (Some 0%Z) at_ None;
   r "parameterContextId" (TVal (CPat uuid_re)) false true (Some 0%Z) at_ None].

(** ECS2_structure.py 800-812 *)
Definition ECS2_ImpactIndicator_VALID : list (pystr * field vc) :=
  [r "impactIndicatorId" (TVal (CPat uuid_re)) true true (Some 0%Z) at_ None;
   r "impactIndicatorContextId" (TVal (CPat uuid_re)) false true (Some 0%Z) at_ None;
   r "impactMethodId" (TVal (CPat uuid_re)) true true (Some 0%Z) at_ None;
   r "impactMethodContextId" (TVal (CPat uuid_re)) false true (Some 0%Z) at_ None;
   r "impactCategoryId" (TVal (CPat uuid_re)) true true (Some 0%Z) at_ None;
   r "impactCategoryContextId" (TVal (CPat uuid_re)) false true (Some 0%Z) at_ None;
   r "amount" (TVal CReal) true true (Some 0%Z) at_ None;
   r "impactMethodName" (TVal (CLang KMulti None (Lim_ 120))) true false (Some 1%Z) None None;
   r "impactCategoryName" (TVal (CLang KMulti None (Lim_ 120))) true false (Some 2%Z) None None;
   r "name" (TVal (CLang KMulti None (Lim_ 120))) true false (Some 3%Z) None None;
   r "unitName" (TVal (CLang KMulti None (Lim_ 40))) true false (Some 4%Z) None None].

(** ECS2_structure.py 816-821 *)
Definition ECS2_FlowData_VALID : list (pystr * field vc) :=
  [r "intermediateExchange" (TSub ECS2_IntermediateExchange) true false (Some 1%Z) None None;
   r "elementaryExchange" (TSub ECS2_ElementaryExchange) false false (Some 2%Z) None None;
   r "parameter" (TSub ECS2_Parameter) false false (Some 3%Z) None None;
   r "impactIndicator" (TSub ECS2_ImpactIndicator) false false (Some 4%Z) None None].

(** ECS2_structure.py 910-937 *)
Definition ECS2_ILCD1ToECS2DataNotConverted_VALID : list (pystr * field vc) :=
  [r "identifierOfSubDataSet" (TVal CStr) false false None None None;
   r "complementingProcesses" (TVal CAnyList) false false None None None;
   r "functionalUnitOrOther" (TVal CAnyList) false false None None None;
   r "type" (TVal CStr) false false None None None;
   r "latitudeAndLongitude" (TVal CStr) false false None None None;
   r "subLocationOfOperationSupplyOrProduction" (TVal CAnyList) false false None None None;
   r "referenceToIncludedProcesses" (TVal CAnyList) false false None None None;
   r "LCIMethodPrinciple" (TVal CStr) false false None None None;
   r "referenceToLCAMethodDetails" (TVal CAnyList) false false None None None;
   r "referenceToDataHandlingPrinciples" (TVal CAnyList) false false None None None;
   r "referenceToDataSource" (TVal CAnyList) false false None None None;
   r "annualSupplyOrProductionVolume" (TVal CAnyList) false false None None None;
   r "completeness" (TVal CAnyList) false false None None None;
   r "compliance" (TVal CAnyList) false false None None None;
   r "commissionerAndGoal" (TVal CAnyList) false false None None None;
   r "timeStamp" (TVal CStr) false false None None None;
   r "referenceToDataSetFormat" (TVal CAnyList) false false None None None;
   r "referenceToConvertedOriginalDataSetFrom" (TVal CAnyList) false false None None None;
   r "referenceToDataSetUseApproval" (TVal CAnyList) false false None None None;
   r "dateOfLastRevision" (TVal CStr) false false None None None;
   r "referenceToPrecedingDataSetVersion" (TVal CAnyList) false false None None None;
   r "permanentDataSetURI" (TVal CStr) false false None None None;
   r "referenceToRegistrationAuthority" (TVal CAnyList) false false None None None;
   r "registrationNumber" (TVal CStr) false false None None None;
   r "referenceToOwnershipOfDataSet" (TVal CAnyList) false false None None None;
   r "accessRestrictions" (TVal CStr) false false None None None].

(** ILCD1_structure.py 63-70 *)
Definition ILCD1_ILCD1Reference_VALID : list (pystr * field vc) :=
  [r "type" (TVal (CEnum GlobalReferenceTypeValues)) true true (Some 0%Z) at_ None;
   r "refObjectId" (TVal (CPat uuid_re)) false true (Some 0%Z) at_ None;
   r "version" (TVal (CPat version_re)) false true (Some 0%Z) at_ None;
   r "uri" (TVal CStr) false true (Some 0%Z) at_ None;
   r "subReference" (TVal (CLim (LRange 1 500) (Some sep_default))) false false (Some 1%Z) cm_ None;
   r "shortDescription" (TVal (CLang KMulti (Some Languages) (Lim_ 1000))) false false (Some 2%Z) cm_ None].

(** ILCD1_structure.py 76-80 *)
Definition ILCD1_ILCD1Classification_Class_VALID : list (pystr * field vc) :=
  [r "level" (TVal (CLimInt true 1)) true true (Some 0%Z) at_ None;
   r "classId" (TVal CStr) true true (Some 0%Z) at_ None;
   r "text" (TVal (CLim (LRange 1 500) (Some sep_default))) true false (Some 0%Z) tx_ None].

(** ILCD1_structure.py 82-86 *)
Definition ILCD1_ILCD1Classification_VALID : list (pystr * field vc) :=
  [r "name" (TVal CStr) false true (Some 0%Z) at_ None;
   r "classes" (TVal CStr) false true (Some 0%Z) at_ None;
   r "class" (TSub ILCD1_ILCD1Classification_Class) true false (Some 1%Z) cm_ None].

(** ILCD1_structure.py 90-100 *)
Definition ILCD1_ILCD1FlowProperty_VALID : list (pystr * field vc) :=
  [r "dataSetInternalID" (TVal (CLimInt false 6)) true true (Some 0%Z) at_ None;
   r "referenceToFlowPropertyDataSet" (TSub ILCD1_ILCD1Reference) true true (Some 1%Z) None None;
   r "meanValue" (TVal CReal) true true (Some 2%Z) None None;
   r "minimumValue" (TVal CReal) false true (Some 3%Z) None None;
   r "maximumValue" (TVal CReal) false true (Some 4%Z) None None;
   r "uncertaintyDistributionType" (TVal (CEnum UncertaintyDistributionTypeValues)) false true (Some 5%Z) None None;
   r "relativeStandardDeviation95In" (TVal CReal) false true (Some 6%Z) None None;
   r "dataDerivationTypeStatus" (TVal (CEnum DataDerivationTypeStatusValues)) false true (Some 7%Z) None None;
   r "generalComment" (TVal (CLang KMulti (Some Languages) (Range_ 1 500))) false false (Some 16%Z) None None].

(** ILCD1_structure.py 108-113 *)
Definition ILCD1_Name_VALID : list (pystr * field vc) :=
  [r "baseName" (TVal (CLang KMulti (Some Languages) (Range_ 1 500))) true false (Some 1%Z) None None;
   r "treatmentStandardsRoutes" (TVal (CLang KMulti (Some Languages) (Range_ 1 500))) false false (Some 2%Z) None None;
   r "mixAndLocationTypes" (TVal (CLang KMulti (Some Languages) (Range_ 1 500))) false false (Some 3%Z) None None;
   r "functionalUnitFlowProperties" (TVal (CLang KMulti (Some Languages) (Range_ 1 500))) false false (Some 4%Z) None None].

(** ILCD1_structure.py 117-119 *)
Definition ILCD1_ComplementingProcesses_VALID : list (pystr * field vc) :=
  [r "referenceToComplementingProcess" (TSub ILCD1_ILCD1Reference) true false (Some 1%Z) None None].

(** ILCD1_structure.py 123-125 *)
Definition ILCD1_ClassificationInformation_VALID : list (pystr * field vc) :=
  [r "classification" (TSub ILCD1_ILCD1Classification) false false (Some 1%Z) cm_ None].

(** ILCD1_structure.py 129-138 *)
Definition ILCD1_DataSetInformation_VALID : list (pystr * field vc) :=
  [r "UUID" (TVal (CPat uuid_re)) true true (Some 1%Z) cm_ None;
   r "name" (TSub ILCD1_Name) false true (Some 2%Z) None None;
   r "identifierOfSubDataSet" (TVal (CLim (LRange 1 500) (Some sep_default))) false true (Some 3%Z) None None;
   r "synonyms" (TVal (CLang KMulti (Some Languages) Unlimited_)) false false (Some 4%Z) cm_ None;
   r "complementingProcesses" (TSub ILCD1_ComplementingProcesses) false true (Some 5%Z) None None;
   r "classificationInformation" (TSub ILCD1_ClassificationInformation) false true (Some 6%Z) None None;
   r "generalComment" (TVal (CLang KMulti (Some Languages) Unlimited_)) false false (Some 7%Z) cm_ None;
   r "referenceToExternalDocumentation" (TSub ILCD1_ILCD1Reference) false false (Some 8%Z) None None].

(** ILCD1_structure.py 144-148 *)
Definition ILCD1_QuantitativeReference_VALID : list (pystr * field vc) :=
  [r "type" (TVal (CEnum TypeOfQuantitativeReferenceValues)) true true (Some 0%Z) at_ None;
   r "referenceToReferenceFlow" (TVal (CLimIntList 6)) false false (Some 1%Z) None None;
   r "functionalUnitOrOther" (TVal (CLang KMulti (Some Languages) (Range_ 1 500))) false false (Some 2%Z) None None].

(** ILCD1_structure.py 154-158 *)
Definition ILCD1_Time_VALID : list (pystr * field vc) :=
  [r "referenceYear" (TVal (CLimInt true 4)) false true (Some 1%Z) cm_ None;
   r "dataSetValidUntil" (TVal (CLimInt true 4)) false true (Some 2%Z) cm_ None;
   r "timeRepresentativenessDescription" (TVal (CLang KMulti (Some Languages) Unlimited_)) false false (Some 3%Z) cm_ None].

(** ILCD1_structure.py 162-165 *)
Definition ILCD1_OLCATime_VALID : list (pystr * field vc) :=
  [r "referenceYear" (TVal (CLimInt true 4)) false true (Some 1%Z) cm_ None;
   r "dataSetValidUntil" (TVal (CLimInt true 4)) false true (Some 2%Z) cm_ None;
   r "timeRepresentativenessDescription" (TVal (CLang KMulti (Some Languages) Unlimited_)) false false (Some 3%Z) cm_ None;
   r "startDate" (TVal CInt) false true (Some 0%Z) at_ ol_;
   r "endDate" (TVal CInt) false true (Some 0%Z) at_ ol_].

(** ILCD1_structure.py 171-175 *)
Definition ILCD1_LocationOfOperationSupplyOrProduction_VALID : list (pystr * field vc) :=
  [r "location" (TVal (CLim (LMax 500) (Some sep_default))) true true (Some 0%Z) at_ None;
   r "latitudeAndLongitude" (TVal (CPat gis_re)) false true (Some 0%Z) at_ None;
   r "descriptionOfRestrictions" (TVal (CLang KMulti (Some Languages) Unlimited_)) false false (Some 1%Z) None None].

(** ILCD1_structure.py 179-183 *)
Definition ILCD1_SubLocationOfOperationSupplyOrProduction_VALID : list (pystr * field vc) :=
  [r "subLocation" (TVal (CLim (LRange 1 500) (Some sep_default))) false true (Some 0%Z) at_ None;
   r "latitudeAndLongitude" (TVal (CPat gis_re)) false true (Some 0%Z) at_ None;
   r "descriptionOfRestrictions" (TVal (CLang KMulti (Some Languages) Unlimited_)) false false (Some 1%Z) None None].

(** ILCD1_structure.py 187-190 *)
Definition ILCD1_Geography_VALID : list (pystr * field vc) :=
  [r "locationOfOperationSupplyOrProduction" (TSub ILCD1_LocationOfOperationSupplyOrProduction) false true (Some 1%Z) None None;
   r "subLocationOfOperationSupplyOrProduction" (TSub ILCD1_SubLocationOfOperationSupplyOrProduction) false false (Some 2%Z) None None].

(** ILCD1_structure.py 196-202 *)
Definition ILCD1_Technology_VALID : list (pystr * field vc) :=
  [r "technologyDescriptionAndIncludedProcesses" (TVal (CLang KMulti (Some Languages) Unlimited_)) false false (Some 1%Z) None None;
   r "referenceToIncludedProcesses" (TSub ILCD1_ILCD1Reference) false false (Some 2%Z) None None;
   r "technologicalApplicability" (TVal (CLang KMulti (Some Languages) Unlimited_)) false false (Some 3%Z) None None;
   r "referenceToTechnologyPictogramme" (TSub ILCD1_ILCD1Reference) false true (Some 4%Z) None None;
   r "referenceToTechnologyFlowDiagrammOrPicture" (TSub ILCD1_ILCD1Reference) false false (Some 5%Z) None None].

(** ILCD1_structure.py 208-217 *)
Definition ILCD1_VariableParameter_VALID : list (pystr * field vc) :=
  [r "name" (TVal (CLim (LMax 50) (Some sep_default))) true true (Some 0%Z) at_ None;
   r "formula" (TVal CStr) false true (Some 1%Z) None None;
   r "meanValue" (TVal CReal) false true (Some 2%Z) None None;
   r "minimumValue" (TVal CReal) false true (Some 3%Z) None None;
   r "maximumValue" (TVal CReal) false true (Some 4%Z) None None;
   r "uncertaintyDistributionType" (TVal (CEnum UncertaintyDistributionTypeValues)) false true (Some 5%Z) None None;
   r "relativeStandardDeviation95In" (TVal CReal) false true (Some 6%Z) None None;
   r "comment" (TVal (CLang KMulti (Some Languages) (Range_ 1 500))) false false (Some 7%Z) None None].

(** ILCD1_structure.py 221-223 *)
Definition ILCD1_OLCAVariableParameter_VALID : list (pystr * field vc) :=
  [r "name" (TVal (CLim (LMax 50) (Some sep_default))) true true (Some 0%Z) at_ None;
   r "formula" (TVal CStr) false true (Some 1%Z) None None;
   r "meanValue" (TVal CReal) false true (Some 2%Z) None None;
   r "minimumValue" (TVal CReal) false true (Some 3%Z) None None;
   r "maximumValue" (TVal CReal) false true (Some 4%Z) None None;
   r "uncertaintyDistributionType" (TVal (CEnum UncertaintyDistributionTypeValues)) false true (Some 5%Z) None None;
   r "relativeStandardDeviation95In" (TVal CReal) false true (Some 6%Z) None None;
   r "comment" (TVal (CLang KMulti (Some Languages) (Range_ 1 500))) false false (Some 7%Z) None None;
   r "scope" (TVal (CLim (LRange 1 500) (Some sep_default))) false true (Some 0%Z) at_ ol_].

(** ILCD1_structure.py 227-230 *)
Definition ILCD1_MathematicalRelations_VALID : list (pystr * field vc) :=
  [r "modelDescription" (TVal (CLang KMulti (Some Languages) Unlimited_)) false false (Some 1%Z) None None;
   r "variableParameter" (TSub ILCD1_VariableParameter) false false (Some 2%Z) None None].

(** ILCD1_structure.py 234-236 *)
Definition ILCD1_OLCAMathematicalRelations_VALID : list (pystr * field vc) :=
  [r "modelDescription" (TVal (CLang KMulti (Some Languages) Unlimited_)) false false (Some 1%Z) None None;
   r "variableParameter" (TSub ILCD1_OLCAVariableParameter) false false (Some 2%Z) None None].

(** ILCD1_structure.py 242-251 *)
Definition ILCD1_LCIMethodAndAllocation_VALID : list (pystr * field vc) :=
  [r "typeOfDataSet" (TVal (CEnum TypeOfProcessValues)) false true (Some 1%Z) None None;
   r "LCIMethodPrinciple" (TVal (CEnum LCIMethodPrincipleValues)) false true (Some 2%Z) None None;
   r "deviationsFromLCIMethodPrinciple" (TVal (CLang KMulti (Some Languages) Unlimited_)) false false (Some 3%Z) None None;
   r "LCIMethodApproaches" (TVal (CEnumList LCIMethodApproachesValues)) false false (Some 4%Z) None None;
   r "deviationsFromLCIMethodApproaches" (TVal (CLang KMulti (Some Languages) Unlimited_)) false false (Some 5%Z) None None;
   r "modellingConstants" (TVal (CLang KMulti (Some Languages) Unlimited_)) false false (Some 6%Z) None None;
   r "deviationsFromModellingConstants" (TVal (CLang KMulti (Some Languages) Unlimited_)) false false (Some 7%Z) None None;
   r "referenceToLCAMethodDetails" (TSub ILCD1_ILCD1Reference) false false (Some 8%Z) None None].

(** ILCD1_structure.py 255-270 *)
Definition ILCD1_DataSourcesTreatmentAndRepresentativeness_VALID : list (pystr * field vc) :=
  [r "dataCutOffAndCompletenessPrinciples" (TVal (CLang KMulti (Some Languages) Unlimited_)) false false (Some 1%Z) None None;
   r "deviationsFromCutOffAndCompletenessPrinciples" (TVal (CLang KMulti (Some Languages) Unlimited_)) false false (Some 2%Z) None None;
   r "dataSelectionAndCombinationPrinciples" (TVal (CLang KMulti (Some Languages) Unlimited_)) false false (Some 3%Z) None None;
   r "deviationsFromSelectionAndCombinationPrinciples" (TVal (CLang KMulti (Some Languages) Unlimited_)) false false (Some 4%Z) None None;
   r "dataTreatmentAndExtrapolationsPrinciples" (TVal (CLang KMulti (Some Languages) Unlimited_)) false false (Some 5%Z) None None;
   r "deviationsFromTreatmentAndExtrapolationPrinciples" (TVal (CLang KMulti (Some Languages) Unlimited_)) false false (Some 6%Z) None None;
   r "referenceToDataHandlingPrinciples" (TSub ILCD1_ILCD1Reference) false false (Some 7%Z) None None;
   r "referenceToDataSource" (TSub ILCD1_ILCD1Reference) false false (Some 8%Z) None None;
   r "percentageSupplyOrProductionCovered" (TVal CReal) false true (Some 9%Z) None None;
   r "annualSupplyOrProductionVolume" (TVal (CLang KMulti (Some Languages) (Range_ 1 500))) false false (Some 10%Z) None None;
   r "samplingProcedure" (TVal (CLang KMulti (Some Languages) Unlimited_)) false false (Some 11%Z) None None;
   r "dataCollectionPeriod" (TVal (CLang KMulti (Some Languages) (Range_ 1 500))) false false (Some 12%Z) None None;
   r "uncertaintyAdjustments" (TVal (CLang KMulti (Some Languages) Unlimited_)) false false (Some 13%Z) None None;
   r "useAdviceForDataSet" (TVal (CLang KMulti (Some Languages) Unlimited_)) false false (Some 14%Z) None None].

(** ILCD1_structure.py 274-277 *)
Definition ILCD1_CompletenessElementaryFlows_VALID : list (pystr * field vc) :=
  [r "type" (TVal (CEnum CompletenessTypeValues)) true true (Some 0%Z) at_ None;
   r "value" (TVal (CEnum CompletenessValues)) true true (Some 0%Z) at_ None].

(** ILCD1_structure.py 281-286 *)
Definition ILCD1_Completeness_VALID : list (pystr * field vc) :=
  [r "completenessProductModel" (TVal (CEnumList CompletenessValues)) false false (Some 1%Z) None None;
   r "referenceToSupportedImpactAssessmentMethods" (TSub ILCD1_ILCD1Reference) false false (Some 2%Z) None None;
   r "completenessElementaryFlows" (TSub ILCD1_CompletenessElementaryFlows) false false (Some 3%Z) None None;
   r "completenessOtherProblemField" (TVal (CLang KMulti (Some Languages) Unlimited_)) false false (Some 4%Z) None None].

(** ILCD1_structure.py 290-292 *)
Definition ILCD1_Method_VALID : list (pystr * field vc) :=
  [r "name" (TVal (CEnum MethodOfReviewValues)) true true (Some 0%Z) at_ None].

(** ILCD1_structure.py 296-299 *)
Definition ILCD1_Scope_VALID : list (pystr * field vc) :=
  [r "name" (TVal (CEnum ScopeOfReviewValues)) true true (Some 0%Z) at_ None;
   r "method" (TSub ILCD1_Method) false false (Some 1%Z) cm_ None].

(** ILCD1_structure.py 303-306 *)
Definition ILCD1_DataQualityIndicator_VALID : list (pystr * field vc) :=
  [r "name" (TVal (CEnum DataQualityIndicatorValues)) true true (Some 0%Z) at_ None;
   r "value" (TVal (CEnum QualityValues)) true true (Some 0%Z) at_ None].

(** ILCD1_structure.py 310-312 *)
Definition ILCD1_DataQualityIndicators_VALID : list (pystr * field vc) :=
  [r "dataQualityIndicator" (TSub ILCD1_DataQualityIndicator) true false (Some 1%Z) cm_ None].

(** ILCD1_structure.py 316-324 *)
Definition ILCD1_Review_VALID : list (pystr * field vc) :=
  [r "type" (TVal (CEnum TypeOfReviewValues)) false true (Some 0%Z) at_ None;
   r "scope" (TSub ILCD1_Scope) false false (Some 1%Z) cm_ None;
   r "dataQualityIndicators" (TSub ILCD1_DataQualityIndicators) false true (Some 2%Z) cm_ None;
   r "reviewDetails" (TVal (CLang KMulti (Some Languages) Unlimited_)) false false (Some 3%Z) cm_ None;
   r "referenceToNameOfReviewerAndInstitution" (TSub ILCD1_ILCD1Reference) false false (Some 4%Z) cm_ None;
   r "otherReviewDetails" (TVal (CLang KMulti (Some Languages) Unlimited_)) false false (Some 5%Z) cm_ None;
   r "referenceToCompleteReviewReport" (TSub ILCD1_ILCD1Reference) false true (Some 6%Z) cm_ None].

(** ILCD1_structure.py 328-330 *)
Definition ILCD1_Validation_VALID : list (pystr * field vc) :=
  [r "review" (TSub ILCD1_Review) false false (Some 1%Z) None None].

(** ILCD1_structure.py 334-342 *)
Definition ILCD1_Compliance_VALID : list (pystr * field vc) :=
  [r "referenceToComplianceSystem" (TSub ILCD1_ILCD1Reference) true true (Some 1%Z) cm_ None;
   r "approvalOfOverallCompliance" (TVal (CEnum ComplianceValues)) false true (Some 2%Z) cm_ None;
   r "nomenclatureCompliance" (TVal (CEnum ComplianceValues)) false true (Some 3%Z) cm_ None;
   r "methodologicalCompliance" (TVal (CEnum ComplianceValues)) false true (Some 4%Z) cm_ None;
   r "reviewCompliance" (TVal (CEnum ComplianceValues)) false true (Some 5%Z) cm_ None;
   r "documentationCompliance" (TVal (CEnum ComplianceValues)) false true (Some 6%Z) cm_ None;
   r "qualityCompliance" (TVal (CEnum ComplianceValues)) false true (Some 7%Z) cm_ None].

(** ILCD1_structure.py 346-348 *)
Definition ILCD1_ComplianceDeclarations_VALID : list (pystr * field vc) :=
  [r "compliance" (TSub ILCD1_Compliance) true false (Some 1%Z) None None].

(** ILCD1_structure.py 352-358 *)
Definition ILCD1_ModellingAndValidation_VALID : list (pystr * field vc) :=
  [r "LCIMethodAndAllocation" (TSub ILCD1_LCIMethodAndAllocation) false true (Some 1%Z) None None;
   r "dataSourcesTreatmentAndRepresentativeness" (TSub ILCD1_DataSourcesTreatmentAndRepresentativeness) false true (Some 2%Z) None None;
   r "completeness" (TSub ILCD1_Completeness) false true (Some 3%Z) None None;
   r "validation" (TSub ILCD1_Validation) false true (Some 4%Z) None None;
   r "complianceDeclarations" (TSub ILCD1_ComplianceDeclarations) false true (Some 5%Z) None None].

(** ILCD1_structure.py 364-368 *)
Definition ILCD1_CommissionerAndGoal_VALID : list (pystr * field vc) :=
  [r "referenceToCommissioner" (TSub ILCD1_ILCD1Reference) false false (Some 1%Z) cm_ None;
   r "project" (TVal (CLang KMulti (Some Languages) (Range_ 1 500))) false false (Some 2%Z) cm_ None;
   r "intendedApplications" (TVal (CLang KMulti (Some Languages) Unlimited_)) false false (Some 3%Z) cm_ None].

(** ILCD1_structure.py 372-374 *)
Definition ILCD1_DataGenerator_VALID : list (pystr * field vc) :=
  [r "referenceToPersonOrEntityGeneratingTheDataSet" (TSub ILCD1_ILCD1Reference) false false (Some 1%Z) cm_ None].

(** ILCD1_structure.py 378-384 *)
Definition ILCD1_DataEntryBy_VALID : list (pystr * field vc) :=
  [r "timeStamp" (TVal (CDate Iso)) false true (Some 1%Z) cm_ None;
   r "referenceToDataSetFormat" (TSub ILCD1_ILCD1Reference) false false (Some 2%Z) cm_ None;
   r "referenceToConvertedOriginalDataSetFrom" (TSub ILCD1_ILCD1Reference) false true (Some 3%Z) cm_ None;
   r "referenceToPersonOrEntityEnteringTheData" (TSub ILCD1_ILCD1Reference) false true (Some 4%Z) cm_ None;
   r "referenceToDataSetUseApproval" (TSub ILCD1_ILCD1Reference) false false (Some 5%Z) cm_ None].

(** ILCD1_structure.py 388-402 *)
Definition ILCD1_PublicationAndOwnership_VALID : list (pystr * field vc) :=
  [r "dateOfLastRevision" (TVal CReviewDate) false false (Some 1%Z) cm_ None;
   r "dataSetVersion" (TVal (CPat version_re)) true true (Some 2%Z) cm_ None;
   r "referenceToPrecedingDataSetVersion" (TSub ILCD1_ILCD1Reference) false false (Some 3%Z) cm_ None;
   r "permanentDataSetURI" (TVal CStr) false true (Some 4%Z) cm_ None;
   r "workflowAndPublicationStatus" (TVal (CEnum WorkflowAndPublicationStatusValues)) false true (Some 5%Z) cm_ None;
   r "referenceToUnchangedRepublication" (TSub ILCD1_ILCD1Reference) false true (Some 6%Z) cm_ None;
   r "referenceToRegistrationAuthority" (TSub ILCD1_ILCD1Reference) false true (Some 7%Z) cm_ None;
   r "registrationNumber" (TVal (CLim (LRange 1 500) (Some sep_default))) false true (Some 8%Z) cm_ None;
   r "referenceToOwnershipOfDataSet" (TSub ILCD1_ILCD1Reference) false true (Some 9%Z) cm_ None;
   r "copyright" (TVal (CBool false)) false true (Some 10%Z) cm_ None;
   r "referenceToEntitiesWithExclusiveAccess" (TSub ILCD1_ILCD1Reference) false false (Some 11%Z) cm_ None;
   r "licenseType" (TVal (CEnum LicenseTypeValues)) false false (Some 12%Z) cm_ None;
   r "accessRestrictions" (TVal (CLang KMulti (Some Languages) Unlimited_)) false false (Some 13%Z) cm_ None].

(** ILCD1_structure.py 406-411 *)
Definition ILCD1_AdministrativeInformation_VALID : list (pystr * field vc) :=
  [r "commissionerAndGoal" (TSub ILCD1_CommissionerAndGoal) false true (Some 1%Z) cm_ None;
   r "dataGenerator" (TSub ILCD1_DataGenerator) false true (Some 2%Z) None None;
   r "dataEntryBy" (TSub ILCD1_DataEntryBy) false true (Some 3%Z) None None;
   r "publicationAndOwnership" (TSub ILCD1_PublicationAndOwnership) false true (Some 4%Z) None None].

(** ILCD1_structure.py 417-420 *)
Definition ILCD1_Allocation_VALID : list (pystr * field vc) :=
  [r "internalReferenceToCoProduct" (TVal (CLimInt false 6)) true true (Some 0%Z) at_ None;
   r "allocatedFraction" (TVal CReal) true true (Some 0%Z) at_ None].

(** ILCD1_structure.py 424-426 *)
Definition ILCD1_Allocations_VALID : list (pystr * field vc) :=
  [r "allocation" (TSub ILCD1_Allocation) true false (Some 1%Z) None None].

(** ILCD1_structure.py 430-432 *)
Definition ILCD1_ReferencesToDataSource_VALID : list (pystr * field vc) :=
  [r "referenceToDataSource" (TSub ILCD1_ILCD1Reference) false false (Some 1%Z) None None].

(** ILCD1_structure.py 436-454 *)
Definition ILCD1_Exchange_VALID : list (pystr * field vc) :=
  [r "dataSetInternalID" (TVal (CLimInt false 6)) true true (Some 0%Z) at_ None;
   r "referenceToFlowDataSet" (TSub ILCD1_ILCD1Reference) true true (Some 1%Z) None None;
   r "location" (TVal (CLim (LRange 1 500) (Some sep_default))) false true (Some 2%Z) None None;
   r "functionType" (TVal (CEnum ExchangeFunctionTypeValues)) false true (Some 3%Z) None None;
   r "exchangeDirection" (TVal (CEnum ExchangeDirectionValues)) false true (Some 4%Z) None None;
   r "referenceToVariable" (TVal CStr) false true (Some 5%Z) None None;
   r "meanAmount" (TVal CReal) true false (Some 6%Z) None None;
   r "resultingAmount" (TVal CReal) false false (Some 7%Z) None None;
   r "minimumAmount" (TVal CReal) false false (Some 8%Z) None None;
   r "maximumAmount" (TVal CReal) false false (Some 9%Z) None None;
   r "uncertaintyDistributionType" (TVal (CEnum UncertaintyDistributionTypeValues)) false false (Some 10%Z) None None;
   r "relativeStandardDeviation95In" (TVal CReal) false false (Some 11%Z) None None;
   r "allocations" (TSub ILCD1_Allocations) false true (Some 12%Z) None None;
   r "dataSourceType" (TVal (CEnum DataSourceTypeValues)) false true (Some 13%Z) None None;
   r "dataDerivationTypeStatus" (TVal (CEnum DataDerivationTypeStatusValues)) false true (Some 14%Z) None None;
   r "referencesToDataSource" (TSub ILCD1_ReferencesToDataSource) false true (Some 15%Z) None None;
   r "generalComment" (TVal (CLang KMulti (Some Languages) (Range_ 1 500))) false false (Some 16%Z) None None].

(** ILCD1_structure.py 458-468 *)
Definition ILCD1_OLCAExchange_VALID : list (pystr * field vc) :=
  [r "dataSetInternalID" (TVal (CLimInt false 6)) true true (Some 0%Z) at_ None;
   r "referenceToFlowDataSet" (TSub ILCD1_ILCD1Reference) true true (Some 1%Z) None None;
   r "location" (TVal (CLim (LRange 1 500) (Some sep_default))) false true (Some 2%Z) None None;
   r "functionType" (TVal (CEnum ExchangeFunctionTypeValues)) false true (Some 3%Z) None None;
   r "exchangeDirection" (TVal (CEnum ExchangeDirectionValues)) false true (Some 4%Z) None None;
   r "referenceToVariable" (TVal CStr) false true (Some 5%Z) None None;
   r "meanAmount" (TVal CReal) true false (Some 6%Z) None None;
   r "resultingAmount" (TVal CReal) false false (Some 7%Z) None None;
   r "minimumAmount" (TVal CReal) false false (Some 8%Z) None None;
   r "maximumAmount" (TVal CReal) false false (Some 9%Z) None None;
   r "uncertaintyDistributionType" (TVal (CEnum UncertaintyDistributionTypeValues)) false false (Some 10%Z) None None;
   r "relativeStandardDeviation95In" (TVal CReal) false false (Some 11%Z) None None;
   r "allocations" (TSub ILCD1_Allocations) false true (Some 12%Z) None None;
   r "dataSourceType" (TVal (CEnum DataSourceTypeValues)) false true (Some 13%Z) None None;
   r "dataDerivationTypeStatus" (TVal (CEnum DataDerivationTypeStatusValues)) false true (Some 14%Z) None None;
   r "referencesToDataSource" (TSub ILCD1_ReferencesToDataSource) false true (Some 15%Z) None None;
   r "generalComment" (TVal (CLang KMulti (Some Languages) (Range_ 1 500))) false false (Some 16%Z) None None;
   r "formula" (TVal (CLim (LRange 1 500) (Some sep_default))) false true (Some 0%Z) at_ ol_;
   r "unitId" (TVal (CPat uuid_re)) false true (Some 0%Z) at_ ol_;
   r "propertyId" (TVal (CPat uuid_re)) false true (Some 0%Z) at_ ol_;
   r "amount" (TVal CReal) false true (Some 0%Z) at_ ol_;
   r "pedigreeUncertainty" (TVal (CLim (LRange 1 500) (Some sep_default))) false true (Some 0%Z) at_ ol_;
   r "baseUncertainty" (TVal (CLim (LRange 1 500) (Some sep_default))) false true (Some 0%Z) at_ ol_;
   r "mostLikelyValue" (TVal CReal) false true (Some 0%Z) at_ ol_;
   r "avoidedProduct" (TVal (CBool false)) false true (Some 0%Z) at_ ol_;
   r "defaultProvider" (TVal (CPat uuid_re)) false true (Some 0%Z) at_ ol_].

(** ILCD1_structure.py 472-474 *)
Definition ILCD1_Exchanges_VALID : list (pystr * field vc) :=
  [r "exchange" (TSub ILCD1_Exchange) false false (Some 1%Z) None None].

(** ILCD1_structure.py 478-480 *)
Definition ILCD1_OLCAExchanges_VALID : list (pystr * field vc) :=
  [r "exchange" (TSub ILCD1_OLCAExchange) false false (Some 1%Z) None None].

(** ILCD1_structure.py 580-592 *)
Definition ILCD1_ECS2ToILCD1DataNotConverted_Flow_Property_VALID : list (pystr * field vc) :=
  [r "id" (TVal CStr) true false None None None;
   r "amount" (TVal CReal) false false None None None;
   r "unitId" (TVal CStr) false false None None None;
   r "variableName" (TVal CStr) false false None None None;
   r "mathematicalRelation" (TVal CStr) false false None None None;
   r "propertyContextId" (TVal CStr) false false None None None;
   r "isDefiningValue" (TVal (CBool false)) false false None None None;
   r "isCalculatedAmount" (TVal (CBool false)) false false None None None;
   r "unitContextId" (TVal CStr) false false None None None;
   r "sourceIdOverwrittenByChild" (TVal CStr) false false None None None;
   r "sourceContextId" (TVal CStr) false false None None None].

(** ILCD1_structure.py 596-599 *)
Definition ILCD1_ECS2ToILCD1DataNotConverted_Flow_ProductionVolume_VALID : list (pystr * field vc) :=
  [r "productionVolumeSourceIdOverwrittenByChild" (TVal CStr) false false None None None;
   r "productionVolumeSourceContextId" (TVal CStr) false false None None None].

(** ILCD1_structure.py 601-619 *)
Definition ILCD1_ECS2ToILCD1DataNotConverted_Flow_VALID : list (pystr * field vc) :=
  [r "id" (TVal CStr) true false None None None;
   r "classification" (TVal CAnyList) false false None None None;
   r "fId" (TVal CStr) false false None None None;
   r "tag" (TVal CAnyList) false false None None None;
   r "unitContextId" (TVal CStr) false false None None None;
   r "isCalculatedAmount" (TVal (CBool false)) false false None None None;
   r "sourceIdOverwrittenByChild" (TVal (CBool false)) false false None None None;
   r "specificAllocationPropertyIdOverwrittenByChild" (TVal CStr) false false None None None;
   r "specificAllocationPropertyContextId" (TVal CStr) false false None None None;
   r "transferCoefficient" (TVal CAnyList) false false None None None;
   r "properties" (TSub ILCD1_ECS2ToILCD1DataNotConverted_Flow_Property) true false None None None;
   r "uncertainty" (TVal CAnyList) false false None None None;
   r "productionVolume" (TSub ILCD1_ECS2ToILCD1DataNotConverted_Flow_ProductionVolume) true false None None None;
   r "activityLinkIdOverwrittenByChild" (TVal (CBool false)) false false None None None;
   r "intermediateExchangeContextId" (TVal CStr) false false None None None;
   r "elementaryExchangeContextId" (TVal CStr) false false None None None;
   r "activityLinkContextId" (TVal CStr) false false None None None].

(** ILCD1_structure.py 623-628 *)
Definition ILCD1_ECS2ToILCD1DataNotConverted_Parameter_VALID : list (pystr * field vc) :=
  [r "amount" (TVal CReal) false false None None None;
   r "parameterContextId" (TVal CStr) false false None None None;
   r "isCalculatedAmount" (TVal (CBool false)) false false None None None;
   r "unitContextId" (TVal CStr) false false None None None].

(** ILCD1_structure.py 630-664 *)
Definition ILCD1_ECS2ToILCD1DataNotConverted_VALID : list (pystr * field vc) :=
  [r "activityNameId" (TVal CStr) true false None None None;
   r "activityNameContextId" (TVal CStr) false false None None None;
   r "parentActivityId" (TVal CStr) false false None None None;
   r "parentActivityContextId" (TVal CStr) false false None None None;
   r "inheritanceDepth" (TVal CStr) false false None None None;
   r "specialActivityType" (TVal CStr) true false None None None;
   r "masterAllocationPropertyId" (TVal CStr) true false None None None;
   r "masterAllocationPropertyIdOverwrittenByChild" (TVal CStr) false false None None None;
   r "masterAllocationPropertyContextId" (TVal CStr) false false None None None;
   r "tag" (TVal CAnyList) false false None None None;
   r "geographyId" (TVal CStr) true false None None None;
   r "geographyContextId" (TVal CStr) false false None None None;
   r "technologyLevel" (TVal CStr) false false None None None;
   r "isDataValidForEntirePeriod" (TVal (CBool false)) true false None None None;
   r "macroEconomicScenarioId" (TVal CStr) true false None None None;
   r "macroEconomicScenarioContextId" (TVal CStr) false false None None None;
   r "macroEconomicScenario_name" (TVal CStr) true false None None None;
   r "macroEconomicScenario_comment" (TVal CAnyList) false false None None None;
   r "classificationContext" (TVal CAnyList) false false None None None;
   r "systemModelId" (TVal CStr) true false None None None;
   r "systemModelContextId" (TVal CStr) false false None None None;
   r "review" (TVal CAnyList) false false None None None;
   r "dataEntryBy_personContextId" (TVal CStr) false false None None None;
   r "dataGeneratorAndPublication_personContextId" (TVal CAnyList) false false None None None;
   r "publishedSourceIdOverwrittenByChild" (TVal CAnyList) false false None None None;
   r "publishedSourceContextId" (TVal CAnyList) false false None None None;
   r "companyIdOverwrittenByChild" (TVal CAnyList) false false None None None;
   r "companyContextId" (TVal CAnyList) false false None None None;
   r "version" (TVal CStr) true false None None None;
   r "fileInfo" (TVal CStr) true false None None None;
   r "requiredContext" (TVal CAnyList) true false None None None;
   r "flows" (TSub ILCD1_ECS2ToILCD1DataNotConverted_Flow) true false None None None;
   r "parameter" (TSub ILCD1_ECS2ToILCD1DataNotConverted_Parameter) true false None None None].

Definition tables : list (list (pystr * field vc)) :=
  [ECS2_Lognormal_VALID;
   ECS2_Normal_VALID;
   ECS2_Triangular_VALID;
   ECS2_Uniform_VALID;
   ECS2_Beta_VALID;
   ECS2_Gamma_VALID;
   ECS2_Binomial_VALID;
   ECS2_Undefined_VALID;
   ECS2_PedigreeMatrix_VALID;
   ECS2_ECS2Uncertainty_VALID;
   ECS2_ECS2Source_VALID;
   ECS2_ECS2QuantitativeReference_VALID;
   ECS2_ECS2QuantitativeReferenceWithUnit_VALID;
   ECS2_ECS2TextAndImage_VALID;
   ECS2_ECS2Classification_VALID;
   ECS2_ECS2Property_VALID;
   ECS2_ActivityNameMaster_VALID;
   ECS2_CSClassificationValue_VALID;
   ECS2_ClassificationSystemMaster_VALID;
   ECS2_CompanyMaster_VALID;
   ECS2_CSubcompartmentMaster_VALID;
   ECS2_CompartmentMaster_VALID;
   ECS2_EMCompartment_VALID;
   ECS2_ElementaryMaster_VALID;
   ECS2_GeographyMaster_VALID;
   ECS2_IntermediateMaster_VALID;
   ECS2_LanguageMaster_VALID;
   ECS2_MacroEconomicScenarioMaster_VALID;
   ECS2_ParameterMaster_VALID;
   ECS2_PersonMaster_VALID;
   ECS2_PropertyMaster_VALID;
   ECS2_SourceMaster_VALID;
   ECS2_SystemModelMaster_VALID;
   ECS2_TagMaster_VALID;
   ECS2_UnitMaster_VALID;
   ECS2_ActivityIndexEntryMaster_VALID;
   ECS2_ECS2UsedUserMasterData_VALID;
   ECS2_CETransferCoefficient_VALID;
   ECS2_ECS2CustomExchange_VALID;
   ECS2_Activity_VALID;
   ECS2_Geography_VALID;
   ECS2_Technology_VALID;
   ECS2_TimePeriod_VALID;
   ECS2_MacroEconomicScenario_VALID;
   ECS2_ActivityDescription_VALID;
   ECS2_Representativeness_VALID;
   ECS2_Review_VALID;
   ECS2_ModellingAndValidation_VALID;
   ECS2_DataEntryBy_VALID;
   ECS2_DataGeneratorAndPublication_VALID;
   ECS2_RequiredContextReference_VALID;
   ECS2_FileAttributes_VALID;
   ECS2_AdministrativeInformation_VALID;
   ECS2_IntermediateExchange_VALID;
   ECS2_Compartment_VALID;
   ECS2_ElementaryExchange_VALID;
   ECS2_Parameter_VALID;
   ECS2_ImpactIndicator_VALID;
   ECS2_FlowData_VALID;
   ECS2_ILCD1ToECS2DataNotConverted_VALID;
   ILCD1_ILCD1Reference_VALID;
   ILCD1_ILCD1Classification_Class_VALID;
   ILCD1_ILCD1Classification_VALID;
   ILCD1_ILCD1FlowProperty_VALID;
   ILCD1_Name_VALID;
   ILCD1_ComplementingProcesses_VALID;
   ILCD1_ClassificationInformation_VALID;
   ILCD1_DataSetInformation_VALID;
   ILCD1_QuantitativeReference_VALID;
   ILCD1_Time_VALID;
   ILCD1_OLCATime_VALID;
   ILCD1_LocationOfOperationSupplyOrProduction_VALID;
   ILCD1_SubLocationOfOperationSupplyOrProduction_VALID;
   ILCD1_Geography_VALID;
   ILCD1_Technology_VALID;
   ILCD1_VariableParameter_VALID;
   ILCD1_OLCAVariableParameter_VALID;
   ILCD1_MathematicalRelations_VALID;
   ILCD1_OLCAMathematicalRelations_VALID;
   ILCD1_LCIMethodAndAllocation_VALID;
   ILCD1_DataSourcesTreatmentAndRepresentativeness_VALID;
   ILCD1_CompletenessElementaryFlows_VALID;
   ILCD1_Completeness_VALID;
   ILCD1_Method_VALID;
   ILCD1_Scope_VALID;
   ILCD1_DataQualityIndicator_VALID;
   ILCD1_DataQualityIndicators_VALID;
   ILCD1_Review_VALID;
   ILCD1_Validation_VALID;
   ILCD1_Compliance_VALID;
   ILCD1_ComplianceDeclarations_VALID;
   ILCD1_ModellingAndValidation_VALID;
   ILCD1_CommissionerAndGoal_VALID;
   ILCD1_DataGenerator_VALID;
   ILCD1_DataEntryBy_VALID;
   ILCD1_PublicationAndOwnership_VALID;
   ILCD1_AdministrativeInformation_VALID;
   ILCD1_Allocation_VALID;
   ILCD1_Allocations_VALID;
   ILCD1_ReferencesToDataSource_VALID;
   ILCD1_Exchange_VALID;
   ILCD1_OLCAExchange_VALID;
   ILCD1_Exchanges_VALID;
   ILCD1_OLCAExchanges_VALID;
   ILCD1_ECS2ToILCD1DataNotConverted_Flow_Property_VALID;
   ILCD1_ECS2ToILCD1DataNotConverted_Flow_ProductionVolume_VALID;
   ILCD1_ECS2ToILCD1DataNotConverted_Flow_VALID;
   ILCD1_ECS2ToILCD1DataNotConverted_Parameter_VALID;
   ILCD1_ECS2ToILCD1DataNotConverted_VALID].
Definition schema (c : nat) : list (pystr * field vc) := nth c tables [].

(** The structures of Lavoisier. *)
Definition lavoisier (E : env) : universe := structure_universe E schema.
