(** EcoSpold2 to ILCD: the data sets of contacts and sources that a process refers to
    (ECS2_to_ILCD1_conversion.py 582-588, 968-973, 1419-1508, 1577-1625, 1772-1782, 2029-2039, 2141-2151, 2217-2227, 2368-2443). *)
From Coq Require Import Ascii String List Bool Arith NArith ZArith.
From Verif Require Import PyBase PyValues MultiLangModel DotDictModel XmlModel UtilsModel TemplateModel HandleModel ExchangeModel AsideModel OutflowModel.
Import ListNotations.
Local Open Scope string_scope.
Local Open Scope list_scope.

Inductive data_type := TContact | TSource.
Definition same_type (a b : data_type) : bool := match a, b with TContact, TContact | TSource, TSource => true | _, _ => false end.
(** 1396-1402 *)
Definition type_name (t : data_type) : pystr := match t with TContact => lit "contact" | TSource => lit "source" end.
Definition folder_name (t : data_type) : pystr := match t with TContact => lit "contacts" | TSource => lit "sources" end.

(** ** The data sets *)
(** 1429-1430 *)
Definition check (info : list (pystr * pyval)) (field name : string) (f : pyval -> pyval) : list (pystr * pyval) :=
  match getf (lit name) info with Some v => [(lit field, f v)] | None => [] end.
(** 1472-1478, 1496-1502 *)
Definition class_of (v : pyval) : pyval :=
  VDict [(lit "common:classification",
          VDict [(lit "@name", VStr (lit "ILCD")); (lit "@classes", VStr (lit "ILCDClassification.xml"));
                 (lit "common:class", VDict [(lit "@level", VInt 0); (ktext, v)])])].
Section Structures.
  (** [str] of other values, and the time *)
  Context (show : pyval -> pystr) (now : pystr).
  Definition structure (t : data_type) (uuid version : pystr) (res : list (pystr * pyval)) : pyval :=
    VDict [(type_name t ++ lit "DataSet",
            VDict (sub_dict (type_name t ++ lit "Information") (sub_dict (lit "dataSetInformation") (update res))
                     (base_structure (type_name t) uuid version now)))].
  (** 1465-1487 *)
  Definition source_structure (uuid version : pystr) (info : list (pystr * pyval)) : result pyval :=
    bind (item info (lit "reference")) (fun r =>
    Ok (structure TSource uuid version
          ([(lit "common:shortName", english_text r)] ++
           check info "classificationInformation" "classification" class_of ++
           check info "sourceCitation" "complete_reference" (fun x => x) ++
           check info "sourceDescriptionOrComment" "link" english_text ++
           check info "referenceToDigitalFile" "link" (fun x => VDict [(lit "@uri", x)])))).
  (** 1489-1508 *)
  Definition contact_structure (uuid version : pystr) (info : list (pystr * pyval)) : result pyval :=
    bind (item info (lit "name")) (fun n =>
    Ok (structure TContact uuid version
          ([(lit "common:name", english_text n)] ++
           check info "classificationInformation" "classification" class_of ++
           check info "email" "email" (fun x => x) ++
           check info "contactDescriptionOrComment" "active" (fun x => VStr (lit "Active author?: " ++ str_of show x))))).
  (** A reference on its way: type, identifier, description, and what is known of the data set. *)
  Record request := Request { q_type : data_type; q_id : pystr; q_desc : pystr; q_info : list (pystr * pyval) }.
  (** 1577: the default *)
  Definition first_version : pystr := lit "01.00.000".
  Definition data_structure (q : request) : result pyval :=
    match q_type q with
    | TContact => contact_structure (q_id q) first_version (q_info q)
    | TSource => source_structure (q_id q) first_version (q_info q)
    end.
  (** The files written, by type and identifier (1404-1409, 1458-1463: their names are the identifiers; the lists of identifiers are
      emptied at the end of a conversion, 1893-1899). *)
  Definition store := list (data_type * pystr * pyval).
  Definition stored (t : data_type) (id : pystr) (st : store) : bool :=
    existsb (fun f => (same_type (fst (fst f)) t && str_eqb (snd (fst f)) id)%bool) st.
  (** 1615-1625 *)
  Definition make_dataset (st : store) (q : request) : result store :=
    if stored (q_type q) (q_id q) st then Ok st
    else bind (data_structure q) (fun v => Ok (st ++ [(q_type q, q_id q, v)])).
  Fixpoint make_all (st : store) (qs : list request) : result store :=
    match qs with [] => Ok st | q :: qs' => bind (make_dataset st q) (fun st' => make_all st' qs') end.
End Structures.
(** the entries of the folder for a type *)
Definition folder_of (t : data_type) (st : store) : folder :=
  map (fun f => (snd (fst f) ++ lit ".xml", File)) (filter (fun f => same_type (fst (fst f)) t) st).
(** 1585-1599: the reference in the process, without its description *)
Definition reference_of (q : request) : reference :=
  Reference (Some (lit "../" ++ folder_name (q_type q) ++ lit "/" ++ q_id q)) (Some (q_id q)) (Some first_version).
Definition reference_dict (q : request) : pyval := ref_dict (type_name (q_type q)) (folder_name (q_type q)) (q_id q) first_version (q_desc q).

(** ** Who asks for data sets *)
(** attributes are texts (C25) *)
Definition attr_opt (x : list (pystr * pyval)) (k : pystr) : option pystr := match getf k x with Some (VStr s) => Some s | _ => None end.
Definition attr_item (x : list (pystr * pyval)) (n : string) : result pystr :=
  bind (item x (at_ n)) (fun v => match v with VStr s => Ok s | _ => Err TypeError end).
(** [x.get('@n', None)] *)
Definition attr_none (x : list (pystr * pyval)) (n : string) : pyval := match getf (at_ n) x with Some v => v | None => VNone end.
Section Requests.
  (** [uuid_from_uuid] with the key of this conversion; the generator of identifiers (C115) *)
  Context (uid : pystr -> result pystr) (random_id : Z -> pystr).
  Definition contact_request (i n : pystr) (more : list (pystr * pyval)) (class : string) : result request :=
    bind (uid i) (fun id => Ok (Request TContact id n ([(lit "name", VStr n)] ++ more ++ [(lit "classification", VStr (lit class))]))).
  (** a person, by the names of the attributes *)
  Definition person_request (x : list (pystr * pyval)) (kid kname kemail : string) (more : list (pystr * pyval)) : result request :=
    bind (attr_item x kid) (fun i => bind (attr_item x kname) (fun n =>
    contact_request i n ([(lit "email", attr_none x kemail)] ++ more) "Persons")).
  (** 2368-2381: dataEntryBy *)
  Definition entering (x : list (pystr * pyval)) : result request :=
    person_request x "personId" "personName" "personEmail" [(lit "active", attr_none x "isActiveAuthor")].
  (** 1772-1782: review *)
  Definition reviewing (x : list (pystr * pyval)) : result request :=
    person_request x "reviewerId" "reviewerName" "reviewerEmail" [].
  Definition source_request (i ref : pystr) (info : list (pystr * pyval)) : result request :=
    bind (uid i) (fun id => Ok (Request TSource id ref ([(lit "reference", VStr ref)] ++ info ++
                                  [(lit "classification", VStr (lit "Publications and communications"))]))).
  (** 2382-2443: dataGeneratorAndPublication; the generator is asked for a second time as the owner *)
  Definition generating (x : list (pystr * pyval)) : result request :=
    person_request x "personId" "personName" "personEmail" [].
  Definition publishing (x : list (pystr * pyval)) : result (list request) :=
    if given x (at_ "publishedSourceId") then
      bind (attr_item x "publishedSourceId") (fun i =>
      let ref := source_short_ref (attr_opt x (at_ "publishedSourceFirstAuthor")) (attr_opt x (at_ "publishedSourceYear"))
                                  (attr_opt x (lit "pageNumbers")) in
      bind (source_request i ref [(lit "complete_reference", VStr ref)]) (fun q => Ok [q]))
    else Ok [].
  Definition owning (x : list (pystr * pyval)) : result (list request) :=
    if given x (at_ "companyId") then
      bind (attr_item x "companyId") (fun i =>
      let n := match attr_opt x (at_ "companyCode") with Some c => c | None => lit "Company" end in
      bind (contact_request i n [] "Organisations") (fun q => Ok [q]))
    else Ok [].
  Definition generator_requests (x : list (pystr * pyval)) : result (list request) :=
    bind (generating x) (fun g => bind (publishing x) (fun p => bind (owning x) (fun o => Ok ([g; g] ++ p ++ o)))).
  (** 968-973, 582-588: the source of an exchange *)
  Definition citing (x : list (pystr * pyval)) : result (list request) :=
    if given x (at_ "sourceId") then
      bind (attr_item x "sourceId") (fun i =>
      bind (source_request i (source_short_ref (attr_opt x (at_ "sourceFirstAuthor")) (attr_opt x (at_ "sourceYear")) (attr_opt x (at_ "pageNumbers"))) [])
           (fun q => Ok [q]))
    else Ok [].
  (** 2141-2151, 2217-2227: images and the icon; [what] is the name in the data set *)
  Definition picture (desc what link : pystr) : result request :=
    bind (get_text_uuid random_id link) (fun id =>
    Ok (Request TSource id desc [(lit "reference", VStr what); (lit "link", VStr link); (lit "classification", VStr (lit "Images"))])).
  Definition image (field link : pystr) : result request := picture (lit "Image URL from " ++ field) (lit "Image URL") link.
  Definition icon (link : pystr) : result request := picture (lit "Dataset Icon") (lit "Dataset Icon") link.
  (** 2029-2039: every process refers to the database; [db]: [uuid_from_string] of its name *)
  Definition original (db : pystr) : request :=
    Request TSource db (lit "ecoinvent Database") [(lit "reference", VStr (lit "ecoinvent Database")); (lit "classification", VStr (lit "Databases"))].
End Requests.
