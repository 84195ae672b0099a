(** ILCD to EcoSpold2: contacts and sources referred to by a process
    (ILCD1_to_ECS2_conversion.py 782-798, 838-919, 922-990, 1688-1692, 1740-1747, 1855-1860, 1870-1875, 1900-1924). *)
From Coq Require Import Ascii String List Bool Arith NArith ZArith.
From Verif Require Import PyBase PyValues MultiLangModel DotDictModel XmlModel KeysModel HandleModel ExchangeModel.
Import ListNotations.
Local Open Scope string_scope.
Local Open Scope list_scope.

Definition kref : pystr := lit "@refObjectId".
Definition kshort : pystr := lit "shortDescription".

(** 790-798 [__init__] of all references: the identifier, if it is not empty, and what is stored as the
    short description.  A value without attributes and children is a text, which has no [get]. *)
Definition ref_init (x : pyval) : result (option pystr * pyval) :=
  match x with
  | VDict d =>
      Ok (match getf kref d with Some (VStr (c :: s)) => Some (c :: s) | _ => None end,
          match getf kshort d with Some v => v | None => VDict [] end)
  | _ => Err AttributeError
  end.

(** ** Contacts *)
(** 1858-1860, 1873-1875, 1922-1923: the names of the fields of the target *)
Record contact_fields := ContactFields { cf_id : pystr; cf_name : pystr; cf_email : option pystr }.
Definition person : contact_fields := ContactFields (lit "personId") (lit "personName") (Some (lit "personEmail")).
Definition company : contact_fields := ContactFields (lit "companyId") (lit "companyCode") None.

(** [self.shortDescription.get('#text', '')] *)
Definition text_get (v : pyval) : result pyval :=
  match v with
  | VDict d => Ok (match getf ktext d with Some t => t | None => VStr [] end)
  | _ => Err AttributeError
  end.
(** 930-941: the fields set from the reference alone.  [cid]: [uuid_from_uuid] with the key of this conversion. *)
Definition contact_init (cid : pystr -> pystr) (cf : contact_fields) (x : pyval)
  : result (option pystr * list (pystr * pyval)) :=
  bind (ref_init x) (fun r =>
  match fst r with
  | None => Ok (None, [])
  | Some i =>
      bind (text_get (snd r)) (fun n =>
      Ok (Some i, [(cf_id cf, VStr (cid i)); (cf_name cf, n)] ++
                  match cf_email cf with Some f => [(f, VStr [])] | None => [] end))
  end).

(** 962-968: the information taken from the contact file *)
Record contact_info := ContactInfo { ci_name : option pyval; ci_short : option pyval; ci_email : option pyval }.
Definition kname : pystr := lit "/contactDataSet/contactInformation/dataSetInformation/name".
Definition ksname : pystr := lit "/contactDataSet/contactInformation/dataSetInformation/shortName".
Definition kemail : pystr := lit "/contactDataSet/contactInformation/dataSetInformation/email".
Definition contact_keys : list pystr := [kname; ksname; kemail].
Definition contact_step (i : contact_info) (kt : pystr * pyval) : result contact_info :=
  if str_eqb (fst kt) kname then
    bind (text_item (snd kt)) (fun v => Ok (ContactInfo (Some v) (ci_short i) (ci_email i)))
  else if str_eqb (fst kt) ksname then
    bind (text_item (snd kt)) (fun v => Ok (ContactInfo (ci_name i) (Some v) (ci_email i)))
  else
    Ok (ContactInfo (ci_name i) (ci_short i)
          (Some (match snd kt with VDict _ => VStr [] | t => t end))).
Fixpoint contact_steps (i : contact_info) (l : list (pystr * pyval)) : result contact_info :=
  match l with [] => Ok i | kt :: r => bind (contact_step i kt) (fun i' => contact_steps i' r) end.

(** The entry offered to the user master data (943-956). *)
Record master_contact := MasterContact { mc_id : pystr; mc_name : pyval; mc_email : pyval }.
Definition str_or (v : option pyval) : pyval := match v with Some t => t | None => VStr [] end.
(** 958-983 [get_contact].  [file]: the contact data set, if its file was found (792-793). *)
Definition get_contact (cid : pystr -> pystr) (cf : contact_fields) (x : pyval) (file : option elem)
  : result (list (pystr * pyval) * option master_contact) :=
  bind (contact_init cid cf x) (fun r =>
  match fst r, file with
  | Some i, Some doc =>
      bind (contact_steps (ContactInfo None None None) (read contact_keys doc)) (fun info =>
      let set := snd r ++ [(cf_id cf, VStr (cid i))] ++
                 match cf_email cf with Some f => [(f, str_or (ci_email info))] | None => [] end in
      match ci_name info with
      | None => Err KeyError
      | Some n => Ok (set, Some (MasterContact (cid i) n (str_or (ci_email info))))
      end)
  | _, _ => Ok (snd r, None)
  end).

(** ** Sources *)
Inductive source_kind := KImage | KIcon | KRegular.
Definition kind_eqb (a b : source_kind) : bool :=
  match a, b with KImage, KImage | KIcon, KIcon | KRegular, KRegular => true | _, _ => false end.
(** [x.get("shortDescription", {'#text': ''})['#text']]: the default has a text. *)
Definition short_text (x : pyval) : result pystr :=
  match x with
  | VDict d =>
      match getf kshort d with
      | None => Ok []
      | Some v => bind (text_item v) (fun t => match t with VStr s => Ok s | _ => Err AttributeError end)
      end
  | _ => Err AttributeError
  end.
(** 850-859 *)
Definition kind_of (uri_source : bool) (s : pystr) : source_kind :=
  if prefixb (lit "Image URL from ") s then KImage
  else if str_eqb s (lit "Dataset Icon") then KIcon
  else if uri_source then KImage
  else KRegular.
(** 846-860: [fields] are the keys of the dictionary of targets; a kind without a target is a KeyError. *)
Definition source_init (fields : list source_kind) (uri_source : bool) (x : pyval) : result (option pystr * source_kind) :=
  bind (ref_init x) (fun r =>
  bind (short_text x) (fun s =>
  let k := kind_of uri_source s in
  if existsb (kind_eqb k) fields then Ok (fst r, k) else Err KeyError)).

(** 874-889: what is read from the source file *)
Definition kuri : pystr := lit "/sourceDataSet/sourceInformation/dataSetInformation/referenceToDigitalFile/@uri".
Definition kcitation : pystr := lit "/sourceDataSet/sourceInformation/dataSetInformation/sourceCitation".
Definition ksource : pystr := lit "/sourceDataSet/sourceInformation/dataSetInformation/shortName".
Definition source_keys : list pystr := [kcitation; ksource].
Record source_info := SourceInfo { si_citation : option pyval; si_name : option pyval }.
Definition source_step (i : source_info) (kt : pystr * pyval) : result source_info :=
  if str_eqb (fst kt) kcitation then Ok (SourceInfo (Some (snd kt)) (si_name i))
  else bind (text_item (snd kt)) (fun v => Ok (SourceInfo (si_citation i) (Some v))).
Fixpoint source_steps (i : source_info) (l : list (pystr * pyval)) : result source_info :=
  match l with [] => Ok i | kt :: r => bind (source_step i kt) (fun i' => source_steps i' r) end.
(** 893: [info.get('citation', info['name'])]; the name is looked up in any case. *)
Definition citation_of (i : source_info) : result (pystr * pystr) :=
  match si_name i with
  | None => Err KeyError
  | Some n =>
      match match si_citation i with Some c => c | None => n end, n with
      | VStr t, VStr s => Ok (t, s)
      | VStr _, _ => Err AttributeError
      | _, _ => Err TypeError
      end
  end.
(** What the conversion of a source reference comes to. *)
Inductive source_result :=
| SNothing                          (** no file or no identifier *)
| SImages (kind : source_kind) (uris : list pyval)
| SCited (id_ : pystr) (c : cited).
(** 872-919 [get_source] *)
Definition get_source (cid : pystr -> pystr) (fields : list source_kind) (uri_source : bool) (x : pyval)
  (file : option elem) : result source_result :=
  bind (source_init fields uri_source x) (fun r =>
  match fst r, file with
  | Some i, Some doc =>
      match snd r with
      | KRegular =>
          bind (source_steps (SourceInfo None None) (read source_keys doc)) (fun info =>
          bind (citation_of info) (fun tn =>
          bind (read_citation (fst tn) (snd tn)) (fun c => Ok (SCited (cid i) c))))
      | k => Ok (SImages k (map snd (read [kuri] doc)))
      end
  | _, _ => Ok SNothing
  end).

(** ** The handlers of references *)
Inductive referring := RContact (cf : contact_fields) | RSource (fields : list source_kind) (uri_source : bool).
Definition kgenerator : pystr := lit "/processDataSet/administrativeInformation/dataGenerator/referenceToPersonOrEntityGeneratingTheDataSet".
Definition kentering : pystr := lit "/processDataSet/administrativeInformation/dataEntryBy/referenceToPersonOrEntityEnteringTheData".
Definition kexclusive : pystr := lit "/processDataSet/administrativeInformation/publicationAndOwnership/referenceToEntitiesWithExclusiveAccess".
Definition kdocument : pystr := lit "/processDataSet/processInformation/dataSetInformation/referenceToExternalDocumentation".
Definition kpicto : pystr := lit "/processDataSet/processInformation/technology/referenceToTechnologyPictogramme".
Definition kdiagram : pystr := lit "/processDataSet/processInformation/technology/referenceToTechnologyFlowDiagrammOrPicture".
Definition krepublication : pystr := lit "/processDataSet/administrativeInformation/publicationAndOwnership/referenceToUnchangedRepublication".
Definition referring_of : list (pystr * referring) :=
  [(kdocument, RSource [KImage; KIcon] false);
   (kpicto, RSource [KImage] true);
   (kdiagram, RSource [KImage] true);
   (kgenerator, RContact person);
   (kentering, RContact person);
   (krepublication, RSource [KRegular] false);
   (kexclusive, RContact company)].
(** [files]: the data sets found for a reference (802-830, C97). *)
Definition refer (cid : pystr -> pystr) (files : pyval -> option elem) (r : referring) (x : pyval) : result unit :=
  match r with
  | RContact cf => bind (get_contact cid cf x (files x)) (fun _ => Ok tt)
  | RSource fs u => bind (get_source cid fs u x (files x)) (fun _ => Ok tt)
  end.
