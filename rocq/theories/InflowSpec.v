(** Exchanges and flow data sets as they occur in ILCD files. *)
From Coq Require Import Ascii String List Bool Arith NArith ZArith.
From Verif Require Import PyBase PyValues DotDictModel XmlModel XmlSpec HandleSpec XmlProps AsideSpec ReferSpec InflowModel.
Import ListNotations.
Local Open Scope string_scope.
Local Open Scope list_scope.

(** the elements of a document at the path [p], in the order of the document *)
Definition occurring (doc : elem) (p : pystr) (l : list elem) : Prop :=
  exists cs, closes [] doc cs /\ l = map snd (filter (fun c => str_eqb (fst c) p) cs).
Definition child (e : elem) (n : string) (k : elem) : Prop := named_kids (lit n) (ekids e) [k].
Definition child_text (e : elem) (n : string) (s : pystr) : Prop := exists k, child e n k /\ plain_text k s.
(** a text, in English unless another language is given *)
Definition spoken (k : elem) (ls : pystr * pystr) : Prop :=
  plain_text k (snd ls) /\ fst ls = lit "en" \/
  language_text k (fst ls) /\ etext k = Some (snd ls) /\ ~ blank (Some (snd ls)).
Definition comments_of (e : elem) (l : list (pystr * pystr)) : Prop :=
  exists ks, named_kids (lit "generalComment") (ekids e) ks /\ Forall2 spoken ks l.

(** <exchange ...><referenceToFlowDataSet refObjectId="i">...</exchange> *)
Definition refers_to (x : elem) (i : pystr) : Prop :=
  record_element x /\ exists r ds, child x "referenceToFlowDataSet" r /\ reference r i ds.
(** <allocations><allocation internalReferenceToCoProduct="c" allocatedFraction="q"/>...</allocations> *)
Definition allocation_of (a : elem) (c q : pystr) : Prop :=
  record_element a /\ attribute a "internalReferenceToCoProduct" c /\ attribute a "allocatedFraction" q.
Definition allocates (x : elem) (l : list elem) : Prop :=
  record_element x /\
  exists a, child x "allocations" a /\ Forall proper (ekids a) /\ distinct_attributes (eattrib a) /\
            named_kids (lit "allocation") (ekids a) l.

(** The parts of a flow data set. *)
Definition at_type : pystr := lit "/flowDataSet/modellingAndValidation/LCIMethod/typeOfDataSet".
Definition at_name : pystr := lit "/flowDataSet/flowInformation/dataSetInformation/name/baseName".
Definition at_cas : pystr := lit "/flowDataSet/flowInformation/dataSetInformation/CASNumber".
Definition at_formula : pystr := lit "/flowDataSet/flowInformation/dataSetInformation/sumFormula".
Definition at_reference : pystr := lit "/flowDataSet/flowInformation/quantitativeReference/referenceToReferenceFlowProperty".
Definition at_property : pystr := lit "/flowDataSet/flowProperties/flowProperty".
Definition one_text (doc : elem) (p s : pystr) : Prop := exists k, occurring doc p [k] /\ plain_text k s.
Definition elementary_flow (doc : elem) : Prop := proper doc /\ one_text doc at_type (lit "Elementary flow").
(** product, waste and other flows *)
Definition product_flow (doc : elem) : Prop := proper doc /\ exists s, one_text doc at_type s /\ s <> lit "Elementary flow".
(** The number of the reference property. *)
Definition reference_number (doc : elem) (m : pystr) : Prop := one_text doc at_reference m.
(** <flowProperty dataSetInternalID="n"><referenceToFlowPropertyDataSet refObjectId="i">...: [ds] are the descriptions *)
Definition flow_property (p : elem) (n i : pystr) (ds : list elem) : Prop :=
  record_element p /\ attribute p "dataSetInternalID" n /\
  exists r, child p "referenceToFlowPropertyDataSet" r /\ reference r i ds.
(** A property with one description, which has a language, and a mean value. *)
Record pdata := PData { pd_number : pystr; pd_id : pystr; pd_name : pystr; pd_value : pystr; pd_comments : list (pystr * pystr) }.
Definition property_is (p : elem) (d : pdata) : Prop :=
  (exists s, flow_property p (pd_number d) (pd_id d) [s] /\ in_language s (pd_name d)) /\
  child_text p "meanValue" (pd_value d) /\ comments_of p (pd_comments d).
(** The ways of describing that are not read: none, in several languages, or without a language. *)
Definition differently_described (ds : list elem) : Prop := ds = [] \/ otherwise_described ds.

(** What the mapping of elementary flows says of a flow that has no counterpart. *)
Definition no_target (s : pystr) : Prop := In s (map lit ["NO_MATCH_MAPPING"; "NO MATCH"; "NO_FLOW_MATCH_MANUAL"; "NO_MAPPING"]).

(** the names of a flow *)
Definition named (doc : elem) (ls : list (pystr * pystr)) : Prop := exists ks, occurring doc at_name ks /\ Forall2 spoken ks ls.
Definition note_of (ls : pystr * pystr) : note := (VStr (fst ls), snd ls).

Section Numbers.
  Context {num : Type} (to_num : pyval -> result num) (more : pyval -> result unit).
  (** an allocation to the product called [fst nv], with the fraction [snd nv]; [refs] are the names of the exchanges *)
  Definition allocated (refs : list (pystr * pystr)) (a : elem) (nv : pystr * num) : Prop :=
    exists c q, allocation_of a c q /\ getf c refs = Some (fst nv) /\ to_num (VStr q) = Ok (snd nv).
  (** ILCD knows no names for allocations; EcoSpold2 does *)
  Definition allocation_name (nv : pystr * num) : pystr * num := (lit "allocation for " ++ fst nv, snd nv).
  (** a property whose value is the number [snd da] *)
  Definition readable (p : elem) (da : pdata * num) : Prop :=
    property_is p (fst da) /\ more (elem2dict p) = Ok tt /\ to_num (VStr (pd_value (fst da))) = Ok (snd da).
  (** the reference property, and the others *)
  Definition numbered (m : pystr) (da : pdata * num) : bool := str_eqb (pd_number (fst da)) m.
  Definition others (m : pystr) (das : list (pdata * num)) : list (pdata * num) := filter (fun da => negb (numbered m da)) das.
  Definition names (das : list (pdata * num)) : list pystr := map (fun da => pd_name (fst da)) das.
  (** A known property as it is, and as the property of EcoSpold2 that the table gives. *)
  Definition as_read (da : pdata * num) : list (wprop num) :=
    match getf (pd_id (fst da)) fp_table with
    | None => []
    | Some row => [WProp (pd_id (fst da)) (pd_name (fst da)) (f_uid row) (f_unit row) (snd da) (map note_of (pd_comments (fst da)))]
    end.
  Definition as_converted (change : num -> num) (da : pdata * num) : list (wprop num) :=
    match getf (pd_id (fst da)) fp_table with
    | None => []
    | Some row => [WProp (f_pid row) (f_pname row) (f_uid row) (f_unit row) (change (snd da)) (map note_of (pd_comments (fst da)))]
    end.
  Definition called_content (n : pystr) : Prop := exists a b, n = a ++ lit " content" ++ b.
  (** A content of a flow in kilograms or cubic metres is the mass per mass or volume, if EcoSpold2 has such a property;
      else it is a content of the dry mass. *)
  Definition as_content (kg m3 : bool) (change : num -> num) (da : pdata * num) : list (wprop num) :=
    match getf (pd_id (fst da)) fp_table with
    | None => []
    | Some row =>
        match (if kg then f_mass row else None), (if m3 then f_volume row else None) with
        | Some (i, n), _ => [WProp i n (lit "83ecd334-1b5b-4784-8938-6a0d0a9d8954") (lit "kg/kg") (snd da) (map note_of (pd_comments (fst da)))]
        | None, Some (i, n) => [WProp i n (lit "cacb6d36-694d-4e4f-9e79-6c9c73146839") (lit "kg/m3") (snd da) (map note_of (pd_comments (fst da)))]
        | None, None => as_converted change da
        end
    end.
  Definition by_name (kg m3 : bool) (change : num -> num) (da : pdata * num) : list (wprop num) :=
    if infixb (lit " content") (pd_name (fst da)) then as_content kg m3 change da else as_converted (fun a => a) da.
  Definition kilograms (pid name : string) (a : num) : wprop num :=
    WProp (lit pid) (lit name) (lit "487df68b-4994-4027-8fdc-a4dc298257b7") (lit "kg") a [].
  Definition masses (one rest water : num) : list (wprop num) :=
    [kilograms "67f102e2-9cb6-4d20-aa16-bf74d8a03326" "wet mass" one;
     kilograms "3a0af1d6-04c3-41c6-a3da-92c4f61e0eaa" "dry mass" rest;
     kilograms "6d9e1462-80e3-4f10-b3f4-71febd6f1168" "water in wet mass" water].
End Numbers.
