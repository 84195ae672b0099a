(** EcoSpold2 to ILCD and back: the exchanges of a process
    (ECS2_to_ILCD1_conversion.py 924-990, 992-1022, 1241-1252, 1265-1326, 1337-1372, 1577-1614, 2063-2084; ILCD1_structure.py 434-454;
    ILCD1_to_ECS2_conversion.py 393-424, 705-740, 787-835, 985-1062, 1693-1695, 1932-1937). *)
From Coq Require Import Ascii String List Bool Arith NArith ZArith QArith.
From Verif Require Import PyBase PyValues MultiLangModel DotDictModel XmlModel UtilsModel ConverterModel FlowModel ExchangeModel AsideModel OutflowModel InflowModel.
Import ListNotations.
Local Open Scope string_scope.
Local Open Scope list_scope.

(** ** From EcoSpold2 *)
(** 993-994; a group is a text, the text of the functional unit (1018, C89) is left out *)
Definition group_text (v : pyval) (d : direction) : result flow_in :=
  match v with VStr s => Ok {| fi_dir := d; fi_group := s; fi_text := [] |} | _ => Err TypeError end.
Definition direction_of (x : list (pystr * pyval)) : result flow_in :=
  if given x (lit "inputGroup") then bind (AsideModel.item x (lit "inputGroup")) (fun v => group_text v Input)
  else bind (AsideModel.item x (lit "outputGroup")) (fun v => group_text v Output).
Definition direction_name (d : direction) : pystr := match d with Input => lit "Input" | Output => lit "Output" end.

(** the reference to a flow data set (1585-1602, 1604-1613, 1632-1634) *)
Definition flow_ref (id version uri name : pystr) : pyval :=
  VDict [(lit "@type", VStr (lit "flow data set")); (lit "@refObjectId", VStr id); (lit "@version", VStr version); (lit "@uri", VStr uri);
         (lit "common:shortDescription", VList [VDict [(lit "@xml:lang", VStr (lit "en")); (ktext, VStr name)]])].
(** An exchange on its way.  [s_by]: by-product class; [s_own]: the flow data set is made here, so that its version is in its address (1609-1613,
    1633-1634; a copied one has it only in the attribute, 1605-1609 with [add] zero); [s_uncertainty]: the fields that the uncertainty sets (C41). *)
Record sent := Sent { s_flow : flow_in; s_by : option pystr; s_own : bool; s_id : pystr; s_version : pystr; s_name : pystr; s_amount : pyval;
                      s_variable : option pystr; s_uncertainty : list (pystr * pyval); s_sources : list pyval;
                      s_comments : list (pystr * pystr) }.
Definition flow_uri (s : sent) : pystr := uri_of (lit "flows") (s_id s) (if s_own s then Some (s_version s) else None).
(** the file of the flow data set, in its folder (1456-1461; 1372 with utils.py 85-89) *)
Definition flow_file_name (s : sent) : pystr := s_id s ++ (if s_own s then lit "_" ++ s_version s else []) ++ lit ".xml".
(** 2076-2084 and ILCD1_structure.py 434-454, in the order of the fields; allocations are never written (C87) *)
Definition exchange_dict (n : nat) (s : sent) : pyval :=
  VDict ([(kinternal, VInt (Z.of_nat n));
          (krefflow, VList [flow_ref (s_id s) (s_version s) (flow_uri s) (s_name s)]);
          (lit "exchangeDirection", VStr (direction_name (fi_dir (s_flow s))))] ++
         match s_variable s with Some v => [(lit "referenceToVariable", VStr v)] | None => [] end ++
         [(lit "meanAmount", match s_variable s with Some _ => VFloat (Fin (Qmake 1 1)) | None => s_amount s end);
          (lit "resultingAmount", s_amount s)] ++
         s_uncertainty s ++
         match s_sources s with [] => [] | l => [(lit "referencesToDataSource", VDict [(lit "referenceToDataSource", VList l)])] end ++
         match s_comments s with
         | [] => []
         | l => [(lit "generalComment", VList (map (fun ls : pystr * pystr => VDict [(lit "@xml:lang", VStr (fst ls)); (ktext, VStr (snd ls))]) l))]
         end).
Fixpoint exchange_dicts (st : numbering) (l : list sent) : list pyval * numbering :=
  match l with
  | [] => ([], st)
  | s :: l' => let (n, st1) := number_flow st (s_flow s) in
               let (ds, st2) := exchange_dicts st1 l' in (exchange_dict n s :: ds, st2)
  end.
(** the process; [head] to [middle] are the parts that are not about exchanges, in their order *)
Record parts := Parts { head : list (pystr * pyval); info_head : list (pystr * pyval); quant_head : list (pystr * pyval);
                        quant_tail : list (pystr * pyval); info_tail : list (pystr * pyval); middle : list (pystr * pyval) }.
Definition process_entries (p : parts) (refs : list nat) (exchanges : list pyval) : list (pystr * pyval) :=
  head p ++
  [(lit "processInformation",
    VDict (info_head p ++
           [(lit "quantitativeReference",
             VDict (quant_head p ++ [(lit "referenceToReferenceFlow", VList (map (fun n => VInt (Z.of_nat n)) refs))] ++ quant_tail p))] ++
           info_tail p))] ++
  middle p ++
  [(lit "exchanges", VDict [(lit "exchange", VList exchanges)])].
Definition process_dict (p : parts) (l : list sent) : pyval :=
  let (ds, st) := exchange_dicts numbering0 l in VDict [(lit "processDataSet", VDict (process_entries p (n_refs st) ds))].

(** ** Elementary exchanges *)
Section Elementary.
  Context (num : Type) (to_num : pyval -> result num) (one : num) (mul : num -> num -> num).
  (** 512-524: the factor from a unit to the unit that ILCD has for its dimension; [None]: pint knows no such unit *)
  Context (scale : pystr -> option num).
  (** the mapping of elementary flows: identifier and row *)
  Context (mapping : list (pystr * target)).
  (** 1303 *)
  Definition not_mapped : list string := ["NO_MATCH_MAPPING"; "NO MATCH"].
  (** 1309-1310 *)
  Definition factor_out (t : target) : result num :=
    if str_in (t_factor t) [[]; lit "n/a"] then Ok one else to_num (VStr (t_factor t)).
  (** 1299-1326: the row and the amount; [None]: the exchange is left out of the ILCD data set *)
  Definition elementary_out (x : list (pystr * pyval)) : result (option (target * num)) :=
    bind (AsideModel.item x (AsideModel.at_ "elementaryExchangeId")) (fun i =>
    match i with
    | VStr fid =>
        match getf fid mapping with
        | None => Ok None
        | Some t =>
            if str_in (t_map t) (map lit not_mapped) then Ok None
            else bind (factor_out t) (fun f =>
                 bind (AsideModel.item x (AsideModel.at_ "amount")) (fun v => bind (to_num v) (fun a =>
                 match scale (t_unit t) with
                 | None => Err OtherError
                 | Some k => Ok (Some (t, mul (mul a f) k))
                 end)))
        end
    | _ => Ok None
    end).
  (** 1337-1372: [as_value] makes the value of the field from the number, [version_of] is the version in the file that is copied *)
  Definition sent_elementary (as_value : num -> pyval) (version_of : pystr -> result pystr) (x : list (pystr * pyval)) : result (option sent) :=
    bind (elementary_out x) (fun r =>
    match r with
    | None => Ok None
    | Some (t, a) =>
        bind (direction_of x) (fun f => bind (bind (version_of (t_id t)) (fun v => new_version v 0)) (fun v =>
        Ok (Some (Sent f None false (t_id t) v (t_name t) (as_value a) None [] [] []))))
    end).
End Elementary.

(** ** To EcoSpold2 *)
Definition kreference : pystr := lit "/processDataSet/processInformation/quantitativeReference/referenceToReferenceFlow".
Definition kexchange : pystr := lit "/processDataSet/exchanges/exchange".
(** the files of the folder for flows *)
Definition files := list (pystr * elem).
Definition text_or_none (v : result pyval) : option pystr := match v with Ok (VStr s) => Some s | _ => None end.
(** 803-835 with the reference of the exchange *)
Definition find_flow (d : files) (x : pyval) : option elem :=
  match sub_item krefflow x with
  | Err _ => None
  | Ok r =>
      match get_file (Some (map (fun nf => (fst nf, File)) d))
                     (Reference (text_or_none (sub_item (lit "@uri") r)) (text_or_none (sub_item kobject r)) (text_or_none (sub_item (lit "@version") r))) with
      | None => None
      | Some n => getf n d
      end
  end.
Section Back.
  Context (num : Type) (to_num : pyval -> result num) (one zero : num) (mul sub div : num -> num -> num) (is_zero : num -> bool).
  Context (more : pyval -> result unit) (language : pyval) (D : Type) (same_dim : D -> D -> bool) (dim : pystr -> option D).
  Context (mapping : list (pystr * target)) (compartments : list pystr) (master : list (pystr * list (pystr * md_row))) (use_master : bool).
  Context (cid : pystr -> pystr) (prints_kg prints_m3 : pystr -> bool) (refs : list (pystr * pystr)).
  Record arrived := Arrived { a_written : written num; a_field : group_field; a_group : Z; a_amount : num }.
  (** one exchange: the data of C140-C148, the group (C44) and the amount (640-642, 687, 720: multiplied by the factor of the mapping).
      [numbers]: the reference flows read so far.  A type is a text. *)
  Definition arrive (numbers : list pyval) (x : pyval) (file : option elem) : result (option arrived) :=
    bind (convert_exchange num to_num one zero sub div is_zero more language D same_dim dim mapping compartments master use_master cid prints_kg prints_m3 refs x file) (fun o =>
    match o, file with
    | Written w, Some doc =>
        bind (exchange_init num to_num more language refs x) (fun e =>
        bind (info_steps no_info (read flow_keys doc)) (fun i =>
        match x_direction e, i_type i with
        | VStr dir, Some (VStr kind) =>
            bind (set_group (existsb (same (x_number e)) numbers) dir kind) (fun fg =>
            Ok (Some (Arrived w (fst fg) (snd fg) (mul (x_amount e) (w_factor w)))))
        | _, _ => Err TypeError
        end))
    | _, _ => Ok None
    end).
  (** 1693-1695, 1932-1937: the reports of the reader, in the order of the document *)
  Fixpoint arrive_all (d : files) (numbers : list pyval) (l : list (pystr * pyval)) : result (list (option arrived)) :=
    match l with
    | [] => Ok []
    | (k, v) :: l' =>
        if str_eqb k kreference then arrive_all d (numbers ++ [v]) l'
        else bind (arrive numbers v (find_flow d v)) (fun a => bind (arrive_all d numbers l') (fun r => Ok (a :: r)))
    end.
  Definition arrivals (d : files) (doc : elem) : result (list (option arrived)) := arrive_all d [] (read [kreference; kexchange] doc).
End Back.
Arguments Arrived {num}. Arguments a_written {num}. Arguments a_field {num}. Arguments a_group {num}. Arguments a_amount {num}.
