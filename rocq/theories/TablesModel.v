(** conversions/data.py: the code tables.  A table is a Python dict with text keys, written in order. *)
From Coq Require Import Ascii String List Bool Arith NArith ZArith.
From Verif Require Import PyBase PyValues DotDictModel.
Import ListNotations.
Definition table := list (pystr * pystr).
(** [{v: k for k, v in d.items()}]: a later entry overwrites an earlier one *)
Definition invert (d : table) : table := fold_left (fun acc kv => putf (snd kv) (fst kv) acc) d [].

(** lines 9-13; the value of '0' is None: no entry here, so reading it gives [None] as well *)
Definition child_type : table :=
  [(lit "-1", lit "child from: ");
   (lit "1", lit "geography child from: ");
   (lit "2", lit "technological child from: ");
   (lit "3", lit "macroeconomic child from: ")].
(** line 15 *)
Definition child_type_ : table := invert child_type.
(** lines 17-18 *)
Definition type_process : table :=
  [(lit "1", lit "Unit process, black box");
   (lit "2", lit "LCI result")].
(** lines 20-24 *)
Definition type_process_ : table :=
  [(lit "Unit process, single operation", lit "1");
   (lit "Unit process, black box", lit "1");
   (lit "LCI result", lit "2");
   (lit "Partly terminated system", lit "1");
   (lit "Avoided product system", lit "1")].
(** lines 26-36 *)
Definition special_activity : table :=
  [(lit "0", lit "ordinary transforming activity");
   (lit "1", lit "market activity");
   (lit "2", lit "IO activity");
   (lit "3", lit "residual activity");
   (lit "4", lit "production mix");
   (lit "5", lit "import activity");
   (lit "6", lit "supply mix");
   (lit "7", lit "export activity");
   (lit "8", lit "re-Export activity");
   (lit "9", lit "correction activity");
   (lit "10", lit "market group")].
(** line 38 *)
Definition special_activity_ : table := invert special_activity.
(** lines 40-42 *)
Definition energy : table :=
  [(lit "0", lit "undefined");
   (lit "1", lit "net calorific value");
   (lit "2", lit "gross calorific value")].
(** line 44 *)
Definition energy_ : table := invert energy.
(** lines 46-51 *)
Definition tech : table :=
  [(lit "0", lit "Undefined");
   (lit "1", lit "New");
   (lit "2", lit "Modern");
   (lit "3", lit "Current");
   (lit "4", lit "Old");
   (lit "5", lit "Outdated")].
(** line 53 *)
Definition tech_ : table := invert tech.
(** lines 55-56 *)
Definition time_period : table :=
  [(lit "true", lit "Data is valid for the entire period.");
   (lit "false", lit "Data is not valid for the entire period.")].
(** line 58 *)
Definition time_period_ : table := invert time_period.
(** lines 60-64 *)
Definition inputGroup_type : table :=
  [(lit "1", lit "Materials/Fuels");
   (lit "2", lit "Electricity/Heat");
   (lit "3", lit "Services");
   (lit "4", lit "From Environment");
   (lit "5", lit "From Technosphere (unspecified)")].
(** lines 66-70 *)
Definition outputGroup_type : table :=
  [(lit "0", lit "Reference Product");
   (lit "2", lit "By-product;");
   (lit "3", lit "Material for Treatment");
   (lit "4", lit "To Environment");
   (lit "5", lit "Stock Additions")].
(** lines 72-82 *)
Definition system_model : table :=
  [(lit "Undefined", lit "Not applicable");
   (lit "Allocation, ecoinvent default", lit "Attributional");
   (lit "Allocation, manually linked", lit "Attributional");
   (lit "Allocation by dry mass", lit "Attributional");
   (lit "Allocation at the point of substitution", lit "Attributional");
   (lit "Allocation, legacy", lit "Attributional");
   (lit "Allocation by carbon", lit "Attributional");
   (lit "Allocation by revenue", lit "Attributional");
   (lit "Allocation, cut-off by classification", lit "Attributional");
   (lit "Substitution, consequential, long-term", lit "Consequential");
   (lit "Substitution, constrained by-products", lit "Consequential")].
(** lines 84-94 *)
Definition system_model_2 : table :=
  [(lit "Undefined", lit "Not applicable");
   (lit "Allocation, ecoinvent default", lit "Substitution - average, market price correction");
   (lit "Allocation, manually linked", lit "Allocation - other explicit assignment");
   (lit "Allocation by dry mass", lit "Allocation - mass");
   (lit "Allocation at the point of substitution", lit "Substitution - average, market price correction");
   (lit "Allocation, legacy", lit "Allocation - other explicit assignment");
   (lit "Allocation by carbon", lit "Allocation - element content");
   (lit "Allocation by revenue", lit "Allocation - market value");
   (lit "Allocation, cut-off by classification", lit "Allocation - 100% to main function");
   (lit "Substitution, consequential, long-term", lit "Substitution - specific");
   (lit "Substitution, constrained by-products", lit "Substitution - specific")].
(** lines 96-108 *)
Definition system_model_1_ : table :=
  [(lit "Allocation, ecoinvent default", lit "06590a66-662a-4885-8494-ad0cf410f956");
   (lit "Allocation, manually linked", lit "ba1ff5c1-9a0b-41ce-a5f8-fc2ff3163405");
   (lit "Allocation by dry mass", lit "a253b4b8-5257-4c53-be06-d5b4d78ea407");
   (lit "Allocation at the point of substitution", lit "06590a66-662a-4885-8494-ad0cf410f956");
   (lit "Allocation, legacy", lit "4352935f-32fb-41a5-ad98-bec679e527ca");
   (lit "Allocation, cut-off by classification", lit "290c1f85-4cc4-4fa1-b0c8-2cb7f4276dce");
   (lit "Substitution, consequential, long-term", lit "dd7f13f5-0658-489c-a19c-f2ff8a00bdd9");
   (lit "Undefined", lit "8b738ea0-f89e-4627-8679-433616064e82");
   (lit "Allocation by carbon", lit "3e629972-8eb8-4fc9-a303-addbde01cf74");
   (lit "Substitution, constrained by-products", lit "91800971-8f93-41e6-a3fd-f7a65283aa20");
   (lit "Allocation by revenue", lit "709a9344-2acf-4fc9-9cd3-ef9b4d41ec46")].
(** lines 110-134 *)
Definition system_model_2_ : table :=
  [(lit "Allocation - market value", lit "Allocation by revenue");
   (lit "Allocation - gross calorific value", lit "Undefined");
   (lit "Allocation - net calorific value", lit "Undefined");
   (lit "Allocation - exergetic content", lit "Undefined");
   (lit "Allocation - element content", lit "Undefined");
   (lit "Allocation - mass", lit "Allocation by dry mass");
   (lit "Allocation - volume", lit "Undefined");
   (lit "Allocation - ability to bear", lit "Allocation by revenue");
   (lit "Allocation - marginal causality", lit "Undefined");
   (lit "Allocation - physical causality", lit "Undefined");
   (lit "Allocation - 100% to main function", lit "Allocation, cut-off by classification");
   (lit "Allocation - other explicit assignment", lit "Allocation, manually linked");
   (lit "Allocation - equal distribution", lit "Allocation, manually linked");
   (lit "Substitution - BAT", lit "Undefined");
   (lit "Substitution - average, market price correction", lit "Allocation at the point of substitution");
   (lit "Substitution - average, technical properties correction", lit "Substitution, constrained by-products");
   (lit "Allocation - recycled content", lit "Undefined");
   (lit "Substitution - recycling potential", lit "Undefined");
   (lit "Substitution - average, no correction", lit "Substitution, constrained by-products");
   (lit "Substitution - specific", lit "Substitution, constrained by-products");
   (lit "Consequential effects - other", lit "Substitution, consequential, long-term");
   (lit "Not applicable", lit "Undefined");
   (lit "Other", lit "Undefined")].
(** lines 136-138 *)
Definition status_publication : table :=
  [(lit "0", lit "Data set finalised; unpublished");
   (lit "1", lit "Data set finalised; subsystems published");
   (lit "2", lit "Data set finalised; entirely published")].
(** lines 140-149 *)
Definition status_publication_ : table :=
  [(lit "Working draft", lit "0");
   (lit "Final draft for internal review", lit "0");
   (lit "Final draft for external review", lit "0");
   (lit "Data set finalised; unpublished", lit "0");
   (lit "Under revision", lit "0");
   (lit "Withdrawn", lit "0");
   (lit "Data set finalised; subsystems published", lit "1");
   (lit "Data set finalised; entirely published", lit "2")].
(** lines 151-154 *)
Definition restrictions : table :=
  [(lit "0", lit "Free of charge for all users and uses");
   (lit "1", lit "License fee");
   (lit "2", lit "Other");
   (lit "3", lit "Other")].
(** lines 156-162 *)
Definition restrictions_ : table :=
  [(lit "Free of charge for all users and uses", lit "0");
   (lit "Free of charge for some user types or use types", lit "1");
   (lit "Free of charge for members only", lit "1");
   (lit "License fee", lit "1");
   (lit "Other", lit "1")].
(** lines 164-167 *)
Definition access : table :=
  [(lit "0", lit "Public");
   (lit "1", lit "Licensees");
   (lit "2", lit "Results only");
   (lit "3", lit "Restricted to ")].
(** line 169 *)
Definition access_ : table := invert access.
(** lines 171-200 *)
Definition compartment_conversion : table :=
  [(lit "emission/air/indoor", lit "Emissions/Emissions to air/Emissions to air, indoor");
   (lit "emission/air/lower stratosphere and upper troposphere", lit "Emissions/Emissions to air/Emissions to lower stratosphere and upper troposphere");
   (lit "emission/air/non urban or from high stack", lit "Emissions/Emissions to air/Emissions to non-urban air or from high stacks");
   (lit "emission/air/unspecified", lit "Emissions/Emissions to air/Emissions to air, unspecified");
   (lit "emission/air/unspecified long term", lit "Emissions/Emissions to air/Emissions to air, unspecified (long-term)");
   (lit "emission/air/urban/close to ground", lit "Emissions/Emissions to air/Emissions to urban air close to ground");
   (lit "emission/soil/agricultural", lit "Emissions/Emissions to soil/Emissions to agricultural soil");
   (lit "emission/soil/non agricultural", lit "Emissions/Emissions to soil/Emissions to non-agricultural soil");
   (lit "emission/soil/unspecified", lit "Emissions/Emissions to soil/Emissions to soil, unspecified");
   (lit "emission/water/fresh water", lit "Emissions/Emissions to water/Emissions to fresh water");
   (lit "emission/water/sea water", lit "Emissions/Emissions to water/Emissions to sea water");
   (lit "emission/water/unspecified", lit "Emissions/Emissions to water/Emissions to water, unspecified");
   (lit "emission/water/unspecified long term", lit "Emissions/Emissions to water/Emissions to water, unspecified (long-term)");
   (lit "land use/occupation", lit "Land use/Land occupation");
   (lit "land use/transformation", lit "Land use/Land transformation");
   (lit "resource/air/renewable/element", lit "Resources/Resources from air/Renewable element resources from air");
   (lit "resource/air/renewable/energy", lit "Resources/Resources from air/Renewable energy resources from air");
   (lit "resource/air/renewable/material", lit "Resources/Resources from air/Renewable material resources from air");
   (lit "resource/biosphere/renewable/energy", lit "Resources/Resources from biosphere/Renewable energy resources from biosphere");
   (lit "resource/biosphere/renewable/material", lit "Resources/Resources from biosphere/Renewable material resources from biosphere");
   (lit "resource/ground/non renewable/element", lit "Resources/Resources from ground/Non-renewable element resources from ground");
   (lit "resource/ground/non renewable/energy", lit "Resources/Resources from ground/Non-renewable energy resources from ground");
   (lit "resource/ground/non renewable/material", lit "Resources/Resources from ground/Non-renewable material resources from ground");
   (lit "resource/ground/renewable/element", lit "Resources/Resources from ground/Renewable element resources from ground");
   (lit "resource/water/non renewable/element", lit "Resources/Resources from water/Non-renewable element resources from water");
   (lit "resource/water/non renewable/material", lit "Resources/Resources from water/Non-renewable material resources from water");
   (lit "resource/water/renewable/energy", lit "Resources/Resources from water/Renewable energy resources from water");
   (lit "resource/water/renewable/material", lit "Resources/Resources from water/Renewable material resources from water")].
