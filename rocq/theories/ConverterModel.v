(** converter.py, conversions/factories.py, data_structures/factories.py, formats/configurations.py:
    options, requests and the information read before a conversion. *)
From Coq Require Import Ascii String List Bool Arith NArith ZArith QArith.
From Verif Require Import PyBase PyValues MultiLangModel DotDictModel XmlModel OutputModel.
Import ListNotations.
Local Close Scope Q_scope.

(** * converter.py 158-169: options *)
(** [value in (True, False)]: Python compares with ==, so 1, 0, 1.0 and 0.0 are in. *)
Definition in_true_false (v : pyval) : bool :=
  match v with
  | VBool _ => true
  | VInt z => (Z.eqb z 0 || Z.eqb z 1)%bool
  | VFloat (Fin q) => (Qeq_bool q 0 || Qeq_bool q 1)%bool
  | _ => false
  end.
(** The attributes of a converter that matter here; [c_options] is [None] until line 159. *)
Record converter := { c_options : option (list pystr); c_attrs : list (pystr * pyval) }.
Definition always_boolean : list pystr := [lit "quiet"; lit "convert_additional_fields"].
(** lines 165-169 for a key other than '_options' *)
Definition set_attr (key : pystr) (v : pyval) (c : converter) : converter * option exn :=
  match c_options c with
  | Some opts =>
      if ((str_in key opts || str_in key always_boolean) && negb (in_true_false v))%bool
      then (c, Some TypeError)
      else ({| c_options := c_options c; c_attrs := putf key v (c_attrs c) |}, None)
  | None => ({| c_options := c_options c; c_attrs := putf key v (c_attrs c) |}, None)
  end.
(** assigning '_options' itself *)
Definition set_options (l : option (list pystr)) (c : converter) : converter :=
  {| c_options := l; c_attrs := c_attrs c |}.
(** lines 158-163: [opts] are the option names with their defaults, in order *)
Fixpoint start_configurations (opts : list (pystr * pyval)) (c : converter) : converter * option exn :=
  match opts with
  | [] => (c, None)
  | (name, v) :: rest =>
      let c := set_options (option_map (fun l => l ++ [name]) (c_options c)) c in
      match set_attr name v c with
      | (c', None) => start_configurations rest c'
      | (c', Some e) => (c', Some e)
      end
  end.
(** lines 59-66: the end of [__init__] *)
Definition new_converter (opts : list (pystr * pyval)) : converter * option exn :=
  let c0 := {| c_options := None; c_attrs := [] |} in
  let c1 := fst (set_attr (lit "convert_additional_fields") (VBool false) c0) in
  let c2 := fst (set_attr (lit "quiet") (VBool true) c1) in
  start_configurations opts (set_options (Some []) c2).

(** configurations.py 52, 66-69, 89-93, 100-105: the options of the formats with their defaults *)
Definition input_options (fmt : pystr) : list (pystr * pyval) :=
  if str_eqb fmt (lit "EcoSpold2")
  then [(lit "convert_properties", VBool true); (lit "convert_system_review", VBool true)] else [].
Definition output_options (fmt : pystr) : list (pystr * pyval) :=
  if str_eqb fmt (lit "EcoSpold2")
  then [(lit "ignore_string_length_restrictions", VBool true); (lit "sum_same_elementary_amounts", VBool false);
        (lit "convert_user_data", VBool true); (lit "use_master_data_properties", VBool true)]
  else [(lit "ignore_string_length_restrictions", VBool true); (lit "sum_same_elementary_amounts", VBool false);
        (lit "convert_parameterization", VBool true)].

(** * converter.py 442-475 [get_converter] and 392-415 *)
Definition formats : list pystr := [lit "EcoSpold2"; lit "ILCD1"; lit "OLCAILCD1"].
(** [VALID['ef_type']] *)
Definition flow_lists : list (pystr * list pystr) :=
  [(lit "EcoSpold2", [lit "ecoinvent3.7"]); (lit "ILCD1", [lit "EF3.0"]); (lit "OLCAILCD1", [lit "EF3.0"])].
Definition item (i : nat) (l : list pyval) : result pyval :=
  match nth_error l i with Some v => Ok v | None => Err IndexError end.
(** [VALID['ef_type'][x]]: lists and dictionaries are not hashable *)
Definition lists_of (x : pyval) : result (list pystr) :=
  match x with
  | VStr s => match getf s flow_lists with Some l => Ok l | None => Err KeyError end
  | VList _ | VDict _ => Err TypeError
  | _ => Err KeyError
  end.
(** [input_[0] != output[0]] *)
Fixpoint check_all (same : bool) (l : list (pyval * list pystr)) : result unit :=
  match l with
  | [] => Ok tt
  | (x, n) :: rest =>
      match x with
      | VStr s => if (negb (str_in s n) && negb same)%bool then Err AttributeError else check_all same rest
      | _ => Err TypeError
      end
  end.
Definition same_str (a b : pyval) : bool :=
  match a, b with VStr s, VStr t => str_eqb s t | _, _ => false end.
(** What the paths are: does [path] exist, is it a folder, does its name have one of the input
    format's endings; is [save_path] a folder. *)
Record paths := { p_exists : bool; p_is_dir : bool; p_name : pystr; save_is_dir : bool }.
Definition extensions_of (fmt : pystr) : list pystr :=
  if str_eqb fmt (lit "EcoSpold2") then ecs2_extensions else ilcd_extensions.
(** the request: the two tuples *)
Definition get_converter (inp out : list pyval) (p : paths) : result (pystr * pystr) :=
  bind (item 0 inp) (fun i0 => bind (item 0 out) (fun o0 =>
  bind (item 1 inp) (fun i1 => bind (lists_of i0) (fun li =>
  bind (item 1 out) (fun o1 => bind (lists_of o0) (fun lo =>
  bind (check_all (same_str i0 o0) [(i0, formats); (o0, formats); (i1, li); (o1, lo)]) (fun _ =>
  if negb (p_exists p) then Err OtherError
  else if negb (save_is_dir p) then Err OtherError
  else match i0, o0 with
       | VStr a, VStr b =>
           (* Converter.__init__ -> input_manager(path): abstractions.py 48-63, 71-79 *)
           bind (if p_is_dir p then Ok tt else verify_file (extensions_of a) (p_name p)) (fun _ => Ok (a, b))
       | _, _ => Err TypeError
       end))))))).

(** * conversions/factories.py 46-80 *)
Definition version := list pystr.
Definition default_mappings : list ((pystr * pystr) * (pystr * list (option version))) :=
  [((lit "EcoSpold2", lit "ILCD1"), (lit "ECS2ToILCD1FieldMapping", [None; Some [lit "1"; lit "0"]; Some [lit "2"; lit "0"]]));
   ((lit "ILCD1", lit "EcoSpold2"), (lit "ILCD1ToECS2FieldMapping", [None; Some [lit "1"; lit "1"]]));
   ((lit "OLCAILCD1", lit "OLCAILCD1"), (lit "ILCD1ToILCD1FieldMapping", [None; Some [lit "1"; lit "1"]]))].
Fixpoint version_eqb (a b : version) : bool :=
  match a, b with
  | [], [] => true
  | x :: a', y :: b' => (str_eqb x y && version_eqb a' b')%bool
  | _, _ => false
  end.
Definition oversion_eqb (a b : option version) : bool :=
  match a, b with None, None => true | Some x, Some y => version_eqb x y | _, _ => false end.
Definition pair_eqb (a b : pystr * pystr) : bool := (str_eqb (fst a) (fst b) && str_eqb (snd a) (snd b))%bool.
(** lines 68-80 with the default configuration *)
Definition get_mapping (names : pystr * pystr) (v : option version) : result pystr :=
  match find (fun r => pair_eqb (fst r) names) default_mappings with
  | None => Err ValueError
  | Some (_, (cls, vs)) => if existsb (oversion_eqb v) vs then Ok cls else Err KeyError
  end.
(** data_structures/factories.py with configurations.py 87, 98, 109: [output_structure] is never None,
    so the table of the factory is not used; the default output version is None *)
Definition get_structure (out : pystr) (v : option version) : result pystr :=
  let '(cls, vs) := if str_eqb out (lit "ILCD1") then (lit "ILCD1Structure", [None; Some [lit "1"; lit "1"]])
                    else if str_eqb out (lit "OLCAILCD1") then (lit "OLCAILCD1Structure", [None; Some [lit "1"; lit "1"]])
                    else (lit "ECS2Structure", [None; Some [lit "2"; lit "0"]]) in
  if existsb (oversion_eqb v) vs then Ok cls else Err KeyError.

(** * converter.py 193-204 and configurations.py 47-51, 58-65: what is read before the conversion *)
Inductive ikey := KFilename | KVersion | KMapping (name : pystr) (is_list : bool).
Definition ikey_eqb (a b : ikey) : bool :=
  match a, b with
  | KFilename, KFilename | KVersion, KVersion => true
  | KMapping n l, KMapping m k => (str_eqb n m && Bool.eqb l k)%bool
  | _, _ => false
  end.
(** values collected: [IList] for the keys marked 'list' *)
Inductive ival := IOne (v : pyval) | IList (l : list pyval).
Definition itable := list (pystr * (ikey * (pyval -> result pyval))).
(** [x['k']] *)
Definition sub_item (k : pystr) (v : pyval) : result pyval :=
  match v with
  | VDict d => match getf k d with Some x => Ok x | None => Err KeyError end
  | _ => Err TypeError
  end.
(** [tuple(x.split('.'))[:2]] *)
Definition version_value (v : pyval) : result pyval :=
  match v with
  | VStr s => Ok (VTuple (firstn 2 (map VStr (split (lit ".") s))))
  | _ => Err AttributeError
  end.
Definition text_or_str (v : pyval) : result pyval :=
  match v with VStr _ => Ok v | _ => sub_item ktext v end.
Definition ecs2_initial_info : itable :=
  [(lit "/ecoSpold/activityDataset/activityDescription/activity/activityName", (KFilename, text_or_str));
   (lit "/ecoSpold/childActivityDataset/activityDescription/activity/activityName", (KFilename, sub_item ktext));
   (lit "/ecoSpold/activityDataset/administrativeInformation/fileAttributes/@defaultLanguage",
      (KMapping (lit "_default_language") false, fun x => Ok x));
   (lit "/ecoSpold/activityDataset/administrativeInformation/fileAttributes/@internalSchemaVersion", (KVersion, version_value));
   (lit "/ecoSpold/childActivityDataset/administrativeInformation/fileAttributes/@defaultLanguage",
      (KMapping (lit "_default_language") false, fun x => Ok x));
   (lit "/ecoSpold/childActivityDataset/administrativeInformation/fileAttributes/@internalSchemaVersion", (KVersion, version_value))].
Definition exchange_reference (x : pyval) : result pyval :=
  bind (sub_item (lit "@dataSetInternalID") x) (fun i =>
  bind (sub_item (lit "referenceToFlowDataSet") x) (fun r =>
  bind (sub_item (lit "shortDescription") r) (fun s =>
  bind (sub_item ktext s) (fun t => Ok (VTuple [i; t]))))).
Definition ilcd_initial_info : itable :=
  [(lit "/processDataSet/processInformation/dataSetInformation/name/baseName", (KFilename, sub_item ktext));
   (lit "/processDataSet/@version", (KVersion, version_value));
   (lit "/processDataSet/exchanges/exchange", (KMapping (lit "_flow_internal_refs") true, exchange_reference))].

Fixpoint geti (k : ikey) (d : list (ikey * ival)) : option ival :=
  match d with [] => None | (k', v) :: d' => if ikey_eqb k k' then Some v else geti k d' end.
Fixpoint puti (k : ikey) (v : ival) (d : list (ikey * ival)) : list (ikey * ival) :=
  match d with
  | [] => [(k, v)]
  | (k', w) :: d' => if ikey_eqb k k' then (k', v) :: d' else (k', w) :: puti k v d'
  end.
Definition is_list_key (k : ikey) : bool := match k with KMapping _ b => b | _ => false end.
(** lines 197-202, one report *)
Definition info_step (tbl : itable) (d : list (ikey * ival)) (pt : pystr * pyval) : result (list (ikey * ival)) :=
  match getf (fst pt) tbl with
  | None => Err KeyError
  | Some (k, f) =>
      match geti k d with
      | None => bind (f (snd pt)) (fun v => Ok (puti k (if is_list_key k then IList [v] else IOne v) d))
      | Some (IList l) => if is_list_key k then bind (f (snd pt)) (fun v => Ok (puti k (IList (l ++ [v])) d)) else Ok d
      | Some (IOne _) => Ok d
      end
  end.
Fixpoint info_steps (tbl : itable) (d : list (ikey * ival)) (l : list (pystr * pyval)) : result (list (ikey * ival)) :=
  match l with [] => Ok d | pt :: l' => bind (info_step tbl d pt) (fun d' => info_steps tbl d' l') end.
Record finfo := { i_version : option ival; i_filename : option ival; i_mapping : list (pystr * ival) }.
Fixpoint mapping_entries (d : list (ikey * ival)) : list (pystr * ival) :=
  match d with
  | [] => []
  | (KMapping n _, v) :: d' => (n, v) :: mapping_entries d'
  | _ :: d' => mapping_entries d'
  end.
Definition file_information (tbl : itable) (e : elem) : result finfo :=
  bind (info_steps tbl [] (read (map fst tbl) e)) (fun d =>
  Ok {| i_version := geti KVersion d; i_filename := geti KFilename d; i_mapping := mapping_entries d |}).
