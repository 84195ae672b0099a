(** Classifications of activities and products, EcoSpold2 to ILCD:
    ECS2_to_ILCD1_conversion.py 1240-1254, 1653-1722, 2050-2052, 2251-2254; Mappings/ecs2_to_ilcd1_classes.json. *)
From Coq Require Import Ascii String List Bool Arith NArith ZArith.
From Verif Require Import PyBase PyValues DotDictModel.
Import ListNotations.
Local Open Scope string_scope.
Local Open Scope list_scope.

(** An entry of the mapping, found by the identifier of the classification (1684): classificationValueName,
    ILCD_Class and ILCD_Class_id. *)
Record entry := mkEntry { e_value : pystr; e_class : pystr; e_id : pystr }.
Definition mapping := list (pystr * entry).
(** A classification of the data set, after ILCD1Helper.return_text (1670-1672): system, value, identifier and
    optional context. *)
Record class_in := mkClassIn { c_system : pystr; c_value : pystr; c_id : pystr; c_context : option pystr }.
(** A <class level classId>text</class> of the converted classification. *)
Record class_out := mkClassOut { o_level : pystr; o_id : pystr; o_text : pystr }.
(** A converted classification: attribute name and classes.  The texts are assumed to respect the limit of
    500 characters (see C01, C08). *)
Record field_out := mkFieldOut { f_name : pystr; f_classes : list class_out }.

Definition slash := lit "/".
Definition dot := lit ".".
(** enumerate *)
Fixpoint enumerate {A} (i : nat) (l : list A) : list (nat * A) :=
  match l with [] => [] | x :: l' => (i, x) :: enumerate (S i) l' end.
(** 1689, 1691: [('.'.join(str(id).split('.')[:i+1]), l) for i, l in enumerate(class.split('/'))] *)
Definition levels (e : entry) : list (pystr * pystr) :=
  map (fun il => (join dot (firstn (fst il + 1) (split dot (e_id e))), snd il)) (enumerate 0 (split slash (e_class e))).
Definition null_uuid := lit "NULL_UUID".
Definition colons (s : pystr) : pystr := replace (lit ": ") (lit ":") s.
(** 1683-1691; None is [False] *)
Definition find_levels (m : mapping) (c : class_in) : option (list (pystr * pystr)) :=
  match getf (c_id c) m with
  | Some e => Some (levels e)
  | None => match getf null_uuid m with
            | Some e => if str_eqb (colons (c_value c)) (colons (e_value e)) then Some (levels e) else None
            | None => None
            end
  end.
(** level is an Int1 (ILCD1_structure.py 77, ILCD1_validators.py 21): one digit. *)
Definition put_class (ix : nat * (pystr * pystr)) : result class_out :=
  if (fst ix <? 10)%nat then Ok (mkClassOut (str_of_N (N.of_nat (fst ix))) (fst (snd ix)) (snd (snd ix))) else Err ValueError.
(** 1693-1707; [levels] is never empty, so [if lvl] is a test for False. *)
Definition get_classification (m : mapping) (c : class_in) : result (list class_out) :=
  match find_levels m c with
  | Some lvl => mapM put_class (enumerate 0 lvl)
  | None => Ok [mkClassOut (lit "0") (lit "0") (c_value c)]
  end.
(** 1717-1722: setting a field that the structure does not have raises AttributeError; only the structure
    of flows has 'classification' (ILCD1_structure.py 573-662). *)
Definition class_not_converted (known : bool) (c : class_in) : result unit :=
  match c_context c with
  | None | Some [] => Ok tt
  | Some _ => if known then Ok tt else Err AttributeError
  end.
(** 1662-1681 *)
Definition class_conversion (m : mapping) (known : bool) (c : class_in) : result field_out :=
  bind (get_classification m c) (fun cs =>
  bind (class_not_converted known c) (fun _ => Ok (mkFieldOut (lit "ILCD") cs))).
(** 1709-1715 *)
Fixpoint pop_first (priority : pystr) (before : list field_out) (l : list field_out) : option (list field_out) :=
  match l with
  | [] => None
  | c :: l' => if str_eqb (f_name c) priority then Some (c :: rev before ++ l') else pop_first priority (c :: before) l'
  end.
Definition organize (l : list field_out) (priority : pystr) : list field_out :=
  match pop_first priority [] l with Some l' => l' | None => l end.
Definition isic := lit "ISIC rev.4 ecoinvent".
Definition cpc := lit "CPC".
Definition by_product := lit "By-product classification".
Definition is_kept (c : class_in) : bool := str_in (c_system c) [isic; cpc].
(** Classifications of the activity: 2251-2254 for each, then 2050-2052. *)
Definition activity_classes (m : mapping) (cs : list class_in) : result (list field_out) :=
  bind (mapM (class_conversion m false) (filter is_kept cs)) (fun l => Ok (organize l isic)).
(** Classifications of an intermediate exchange (1240-1254); the second component is [_by_prod_class]. *)
Fixpoint flow_loop (m : mapping) (acc : list field_out) (b : option pystr) (cs : list class_in) : result (list field_out * option pystr) :=
  match cs with
  | [] => Ok (acc, b)
  | c :: cs' =>
      let b' := if str_eqb (c_system c) by_product then Some (c_value c) else b in
      if is_kept c then bind (class_conversion m true c) (fun f => flow_loop m (acc ++ [f]) b' cs')
      else flow_loop m acc b' cs'
  end.
Definition flow_classes (m : mapping) (cs : list class_in) : result (list field_out * option pystr) :=
  bind (flow_loop m [] None cs) (fun lb => Ok (organize (fst lb) cpc, snd lb)).

(** ILCD_Class and ILCD_Class_id of the 5391 entries of ecs2_to_ilcd1_classes.json, each pair once. *)
Definition shipped_pairs : list (string * string) :=
  [("Energy carriers and technologies", "1");
   ("Energy carriers and technologies/Energetic raw materials", "1.1");
   ("Energy carriers and technologies/Electricity", "1.2");
   ("Energy carriers and technologies/Heat and steam", "1.3");
   ("Energy carriers and technologies/Mechanical energy", "1.4");
   ("Energy carriers and technologies/Crude oil based fuels", "1.7");
   ("Energy carriers and technologies/Natural gas based fuels", "1.8");
   ("Energy carriers and technologies/Nuclear fuels", "1.9");
   ("Energy carriers and technologies/Other non-renewable fuels", "1.10");
   ("Energy carriers and technologies/Renewable fuels", "1.11");
   ("Materials production", "2");
   ("Materials production/Non-energetic raw materials", "2.1");
   ("Materials production/Metals and semimetals", "2.2");
   ("Materials production/Organic chemicals", "2.3");
   ("Materials production/Inorganic chemicals", "2.4");
   ("Materials production/Glass and ceramics", "2.5");
   ("Materials production/Other mineralic materials", "2.6");
   ("Materials production/Plastics", "2.7");
   ("Materials production/Paper and cardboards", "2.8");
   ("Materials production/Water", "2.9");
   ("Materials production/Agricultural production means", "2.10");
   ("Materials production/Food and renewable raw materials", "2.11");
   ("Materials production/Wood", "2.12");
   ("Materials production/Other materials", "2.13");
   ("Systems", "3");
   ("Systems/Packaging", "3.1");
   ("Systems/Electrics and electronics", "3.2");
   ("Systems/Vehicles", "3.3");
   ("Systems/Other machines", "3.4");
   ("Systems/Construction", "3.5");
   ("Systems/White goods", "3.6");
   ("Systems/Textiles, furnitures and other interiors", "3.7");
   ("Systems/Unspecific parts", "3.8");
   ("Systems/Paints and chemical preparations", "3.9");
   ("Systems/Other systems", "3.10");
   ("End-of-life treatment", "4");
   ("End-of-life treatment/Reuse or further use", "4.1");
   ("End-of-life treatment/Material recycling", "4.2");
   ("End-of-life treatment/Energy recycling", "4.4");
   ("End-of-life treatment/Landfilling", "4.5");
   ("End-of-life treatment/Waste collection", "4.6");
   ("End-of-life treatment/Waste water treatment", "4.7");
   ("End-of-life treatment/Other end-of-life services", "4.9");
   ("Transport services", "5");
   ("Transport services/Road", "5.1");
   ("Transport services/Rail", "5.2");
   ("Transport services/Water", "5.3");
   ("Transport services/Air", "5.4");
   ("Transport services/Other transport", "5.5");
   ("Other Services", "6");
   ("Other Services/Cleaning", "6.1");
   ("Other Services/Storage", "6.2");
   ("Other Services/Health, social services, beauty and wellness", "6.3");
   ("Other Services/Repair and maintenance", "6.4");
   ("Other Services/Sale and whole sale", "6.5");
   ("Other Services/Communication and information services", "6.6");
   ("Other services/Communication and information services", "6.6");
   ("Other Services/Financial, legal, and insurance", "6.7");
   ("Other services/Financial, legal, and insurance", "6.7");
   ("Other Services/Administration and government", "6.8");
   ("Other Services/Defence", "6.9");
   ("Other Services/Lodging and gastronomy", "6.10");
   ("Other services/Lodging and gastronomy", "6.10");
   ("Other Services/Education", "6.11");
   ("Other services/Education", "6.11");
   ("Other Services/Research and development", "6.12");
   ("Other Services/Entertainment", "6.13");
   ("Other services/Entertainment", "6.13");
   ("Other Services/Renting", "6.14");
   ("Other Services/Engineering and consulting", "6.15");
   ("Other Services/Other services", "6.16");
   ("Other services/Other services", "6.16");
   ("Use and Consumption", "7");
   ("Use and consumption/Other use and consumption", "7.3");
   ("Energy carriers and technologies/Crude oil-based fuels", "#N/A");
   ("Energy carriers and technologies/Hard coal-based fuels", "#N/A");
   ("Energy carriers and technologies/Liquid fuels", "#N/A");
   ("Energy carriers and technologies/Natural gas-based fuels", "#N/A");
   ("Energy carriers and technologies/Oil and gas extraction", "#N/A");
   ("Materials production/Electrics and electronics", "#N/A");
   ("Materials production/Textiles, furnitures and other interiors", "#N/A");
   ("Materials production/Textiles, furnitures, and other interiors", "#N/A");
   ("Other Services/Agricultural production means", "#N/A");
   ("Other Services/Beauty and wellness", "#N/A");
   ("Other Services/Office and administration", "#N/A");
   ("Other Services/Sale and wholesale", "#N/A");
   ("Systems/Air", "#N/A");
   ("Systems/Furnitures and other interiors", "#N/A");
   ("Systems/Rail", "#N/A");
   ("Systems/Transport services", "#N/A");
   ("Wastes", "#N/A");
   ("Wastes/Construction waste", "#N/A");
   ("Wastes/Other waste", "#N/A");
   ("Wastes/Post consumer waste", "#N/A");
   ("Wastes/Production residues", "#N/A")].
Definition shipped : list (pystr * pystr) := map (fun p => (lit (fst p), lit (snd p))) shipped_pairs.
(** A mapping all of whose entries have a pair of the shipped one. *)
Definition like_shipped (m : mapping) : Prop := forall k e, In (k, e) m -> In (e_class e, e_id e) shipped.

(** Tags in the comment of an exchange (946-948); the argument is x.get('tag').  A text is a list of its
    letters; joining anything but texts raises TypeError. *)
Definition iterate (v : pyval) : result (list pyval) :=
  match v with
  | VStr s => Ok (map (fun c => VStr [c]) s)
  | VList l | VTuple l => Ok l
  | VDict d => Ok (map (fun kv => VStr (fst kv)) d)
  | _ => Err TypeError
  end.
Definition truthy (v : pyval) : bool :=
  match v with VNone | VBool false | VStr [] | VList [] | VTuple [] | VDict [] => false | _ => true end.
Definition as_str (v : pyval) : result pystr := match v with VStr s => Ok s | _ => Err TypeError end.
Definition tag_comment (x : option pyval) : result (option pystr) :=
  match x with
  | None => Ok None
  | Some v => if truthy v then bind (iterate v) (fun l => bind (mapM as_str l) (fun ts => Ok (Some (lit "Tag " ++ join (lit "; ") ts))))
              else Ok None
  end.
