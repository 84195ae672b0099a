(** ILCD to ILCD (ILCD1_to_ILCD1_conversion.py 47-343, 403-435): exchanges are moved to the flows of a
    mapping, everything else is copied.  Floats are real numbers; texts that [float] reads are given as
    numbers already.  Reading the unit files ([get_unit], 265-321) is in the second part. *)
From Coq Require Import Ascii String List Bool Arith NArith ZArith Reals.
From Verif Require Import PyBase PyValues MultiLangModel DotDictModel XmlModel.
Import ListNotations.
Local Open Scope R_scope.

(** ** amounts *)
Record distribution := Dist { d_type : pystr; d_rsd : option R; d_min : option R; d_max : option R }.
(** the fields of an exchange that are used; [x_descr]: the descriptions (language and text) of the flow *)
Record exch := Exch {
  x_flow : pystr; x_uri : option pystr; x_version : option pystr; x_descr : list (pystr * pystr);
  x_resulting : option R; x_mean : option R; x_amount : option R; x_unit : option pystr; x_property : option pystr;
  x_dist : option distribution; x_var : option pystr }.
(** a variable of the process *)
Record mvar := MVar { v_name : pystr; v_mean : R; v_formula : option pystr; v_dist : option distribution }.
(** the result of [get_unit]: names and factors *)
Record units := Units { u_main : list (pystr * R); u_sec : list (pystr * R); u_olca : list (pystr * R) }.
(** a row of the mapping; an empty or "n/a" factor is 1 (91) *)
Record row := Row { r_type : pystr; r_target : pystr; r_name : pystr; r_factor : R; r_source_unit : pystr; r_target_unit : pystr }.

Definition need {A} (o : option A) : result A := match o with Some a => Ok a | None => Err KeyError end.
(** 234-250 [get_unc] *)
Definition get_unc (d : distribution) (m f : R) : result distribution :=
  if str_eqb (d_type d) (lit "lognormal") then Ok d
  else if str_eqb (d_type d) (lit "normal") then
    bind (need (d_rsd d)) (fun s => let std95 := s / 2 * f in Ok (Dist (d_type d) (Some std95) (Some (m - std95)) (Some (m + std95))))
  else if (str_eqb (d_type d) (lit "triangular") || str_eqb (d_type d) (lit "uniform"))%bool then
    bind (need (d_min d)) (fun a => bind (need (d_max d)) (fun b => Ok (Dist (d_type d) (d_rsd d) (Some (a * f)) (Some (b * f)))))
  else if str_eqb (d_type d) (lit "undefined") then
    bind (need (d_rsd d)) (fun s => let std95 := s * f in
    bind (need (d_min d)) (fun a => bind (need (d_max d)) (fun b =>
      let a' := (a + b) * f / 2 - std95 in
      Ok (Dist (d_type d) (Some std95) (Some a') (Some ((a' + b) * f / 2 + std95))))))
  else Ok d.
Definition get_unc_opt (o : option distribution) (m f : R) : result (option distribution) :=
  match o with None => Ok None | Some d => bind (get_unc d m f) (fun d' => Ok (Some d')) end.

(** [[(i, v) for i, v in enumerate(vars) if v['@name'] == n][0]] with the change of that variable in place *)
Fixpoint change_first (n : pystr) (g : mvar -> result mvar) (l : list mvar) : result (list mvar) :=
  match l with
  | [] => Err IndexError
  | v :: l' => if str_eqb (v_name v) n then bind (g v) (fun v' => Ok (v' :: l'))
               else bind (change_first n g l') (fun l'' => Ok (v :: l''))
  end.
(** 215-216, 227-228 *)
Definition plain_name (n : pystr) : pystr := replace (lit "temp_olca_param") (lit "p_") n.
Definition conv_name (u n : pystr) : pystr := lit "__" ++ u ++ lit "_to_" ++ n ++ lit "__".
(** 204-232 [get_var]: the new table and the new name *)
Definition get_var (vars : list mvar) (n u nu : pystr) (factor amount : R) : result (list mvar * pystr) :=
  let n' := plain_name n ++ lit "_from_" ++ u ++ lit "_to_" ++ nu in
  bind (change_first n (fun v =>
          bind (need (v_formula v)) (fun f =>
          bind (get_unc_opt (v_dist v) amount factor) (fun d =>
          Ok (MVar n' amount (Some (lit "(" ++ f ++ lit ")*" ++ conv_name u nu)) d))))
        (vars ++ [MVar (conv_name u nu) factor None None]))
       (fun vars' => Ok (vars', n')).
(** [conversion=False] *)
Definition rename_var (vars : list mvar) (n : pystr) : result (list mvar * pystr) :=
  bind (change_first n (fun v => Ok (MVar (plain_name n) (v_mean v) (v_formula v) (v_dist v))) vars)
       (fun vars' => Ok (vars', plain_name n)).
Definition var_opt (o : option pystr) (vars : list mvar) (g : pystr -> result (list mvar * pystr)) : result (list mvar * option pystr) :=
  match o with
  | None | Some [] => Ok (vars, o)
  | Some n => bind (g n) (fun '(vs, n') => Ok (vs, Some n'))
  end.

(** 89 [shortDescription | {...}]: a dictionary when there is one description *)
Definition set_descr (l : list (pystr * pystr)) (t : pystr) : result (list (pystr * pystr)) :=
  match l with [] => Err KeyError | [(lang, _)] => Ok [(lang, t)] | _ => Err TypeError end.

(** 73-79 amount, unit and main unit *)
Definition fix_bq (u : pystr) : pystr := replace (lit "kBq") (lit "kbq") u.
Definition first_unit (l : list (pystr * R)) : result (pystr * R) := match l with u :: _ => Ok u | [] => Err IndexError end.
Definition base_amount (us : units) (x : exch) : result (R * pystr * pystr) :=
  match u_olca us with
  | (n, f) :: _ => bind (need (x_amount x)) (fun a => bind (first_unit (u_main us)) (fun m => Ok (a * f, fix_bq n, fix_bq (fst m))))
  | [] => bind (need (x_resulting x)) (fun a => bind (first_unit (u_main us)) (fun m => Ok (a, fix_bq (fst m), fix_bq (fst m))))
  end.

(** the tables of units.py 709-748: flow property and unit group of a unit *)
Definition fp_table := list (pystr * (pystr * pystr)).
(** units.py 709-727 (the third component, a description, is not used) *)
Definition ilcd_unit_to_fp : fp_table :=
  [(lit "EUR", (lit "67b63204-ef91-44b2-a927-2f4ead1fae17", lit "03cc996d-7177-4738-aa32-1572a5172ccc"));
   (lit "mol", (lit "341fd786-b2ad-4552-a762-5eafcab45dee", lit "f170abd3-f010-45f4-8e7c-9871a5c0421b"));
   (lit "m*a", (lit "e07b4169-bd86-4337-8fa6-1f76916475bf", lit "b4cac580-5ce8-11df-a08a-0800200c9a66"));
   (lit "d", (lit "c0447923-0e60-4b3c-97c2-a86dddd9eea5", lit "af638906-3ec7-4314-8de7-f76039f2dd01"));
   (lit "Items*km", (lit "1cc347a0-3bd1-46db-a308-2707c68d2351", lit "5454b231-270e-45e6-89b2-7f4f3e482245"));
   (lit "m", (lit "838aaa23-0117-11db-92e3-0800200c9a66", lit "838aaa22-0117-11db-92e3-0800200c9a66"));
   (lit "t*km", (lit "838aaa20-0117-11db-92e3-0800200c9a66", lit "838aaa21-0117-11db-92e3-0800200c9a66"));
   (lit "kg", (lit "93a60a56-a3c8-11da-a746-0800200b9a66", lit "93a60a57-a4c8-11da-a746-0800200c9a66"));
   (lit "m3*a", (lit "441238a3-ba09-46ec-b35b-c30cfba746d1", lit "93a60a57-a3c8-23da-a746-0800200c9a66"));
   (lit "m2*a", (lit "93a60a56-a3c8-21da-a746-0800200c9a66", lit "93a60a57-a3c8-20da-a746-0800200c9a66"));
   (lit "m2", (lit "93a60a56-a3c8-19da-a746-0800200c9a66", lit "93a60a57-a3c8-18da-a746-0800200c9a66"));
   (lit "kbq", (lit "93a60a56-a3c8-17da-a746-0800200c9a66", lit "93a60a57-a3c8-16da-a746-0800200c9a66"));
   (lit "m3", (lit "93a60a56-a3c8-22da-a746-0800200c9a66", lit "93a60a57-a3c8-12da-a746-0800200c9a66"));
   (lit "mj", (lit "93a60a56-a3c8-11da-a746-0800200c9a66", lit "93a60a57-a3c8-11da-a746-0800200c9a66"));
   (lit "kg*a", (lit "b3f0f892-c5a3-4c66-a432-c09e3d1e9bd6", lit "59f191d6-5dd3-4553-af88-1a32accfe308"));
   (lit "Item(s)", (lit "01846770-4cfe-4a25-8ad9-919d8d378345", lit "5beb6eed-33a9-47b8-9ede-1dfe8f679159"))].
(** units.py 730-748 (the third component, a description, is not used) *)
Definition olcailcd_unit_to_fp : fp_table :=
  [(lit "EUR", (lit "fdfecf14-ff8a-4e17-b2b2-f938c4b5cc27", lit "03cc996d-7177-4738-aa32-1572a5172ccc"));
   (lit "m*a", (lit "e07b4169-bd86-4337-8fa6-1f76916475bf", lit "b4cac580-5ce8-11df-a08a-0800200c9a66"));
   (lit "d", (lit "c0447923-0e60-4b3c-97c2-a86dddd9eea5", lit "af638906-3ec7-4314-8de7-f76039f2dd01"));
   (lit "Items*km", (lit "0ddc622a-bc4a-4cf8-a551-9e112864b77f", lit "5454b231-270e-45e6-89b2-7f4f3e482245"));
   (lit "m", (lit "838aaa23-0117-11db-92e3-0800200c9a66", lit "838aaa22-0117-11db-92e3-0800200c9a66"));
   (lit "t*km", (lit "838aaa20-0117-11db-92e3-0800200c9a66", lit "838aaa21-0117-11db-92e3-0800200c9a66"));
   (lit "kg", (lit "93a60a56-a3c8-11da-a746-0800200b9a66", lit "93a60a57-a4c8-11da-a746-0800200c9a66"));
   (lit "m3*a", (lit "441238a3-ba09-46ec-b35b-c30cfba746d1", lit "93a60a57-a3c8-23da-a746-0800200c9a66"));
   (lit "m2*a", (lit "93a60a56-a3c8-21da-a746-0800200c9a66", lit "93a60a57-a3c8-20da-a746-0800200c9a66"));
   (lit "m2", (lit "93a60a56-a3c8-19da-a746-0800200c9a66", lit "93a60a57-a3c8-18da-a746-0800200c9a66"));
   (lit "kbq", (lit "93a60a56-a3c8-17da-a746-0800200c9a66", lit "93a60a57-a3c8-16da-a746-0800200c9a66"));
   (lit "m3", (lit "93a60a56-a3c8-22da-a746-0800200c9a66", lit "93a60a57-a3c8-12da-a746-0800200c9a66"));
   (lit "mj", (lit "f6811440-ee37-11de-8a39-0800200c9a66", lit "93a60a57-a3c8-11da-a746-0800200c9a66"));
   (lit "kg*a", (lit "4e10f566-0358-489a-8e3a-d687b66c50e6", lit "59f191d6-5dd3-4553-af88-1a32accfe308"));
   (lit "Item(s)", (lit "01846770-4cfe-4a25-8ad9-919d8d378345", lit "5beb6eed-33a9-47b8-9ede-1dfe8f679159"))].
Definition lookup_fp (t : fp_table) (u : pystr) : result (pystr * pystr) := need (getf u t).

(** [str.lower]; unit names are ASCII *)
Definition lower_ascii (c : N) : N := if ((65 <=? c) && (c <=? 90))%N then (c + 32)%N else c.

(** a file that is copied to the output: its folder and name *)
Definition saved := (pystr * pystr)%type.
Definition xml (id_ : pystr) : pystr := id_ ++ lit ".xml".

(** 252-263 [get_uri] for flows: the first of the three places that is a file *)
Definition flow_places (x : exch) : list pystr :=
  (match x_uri x with Some (c :: u) => [replace (lit "../") [] (c :: u)] | _ => [] end)
  ++ [lit "flows/" ++ xml (x_flow x)]
  ++ [lit "flows/" ++ x_flow x ++ lit "_" ++ (match x_version x with Some v => v | None => [] end) ++ lit ".xml"].
Definition get_uri (is_file : pystr -> bool) (x : exch) : result pystr :=
  match find is_file (flow_places x) with Some u => Ok u | None => Err OtherError end.
(** the last part of a path *)
Definition base_name (p : pystr) : pystr := last (split (lit "/") p) [].

Section Remap.
  Context (fp olca_fp : fp_table) (mapping : list (pystr * row)) (is_file : pystr -> bool).
  (** the files of Lavoisier_Default_Files: kind and name (338-343) *)
  Context (default_file : pystr -> pystr -> bool).
  Definition save_original (kind dir id_ : pystr) : result saved :=
    if default_file kind (xml id_) then Ok (dir, xml id_) else Err FileNotFoundError.

  Record output := Out { o_exch : exch; o_vars : list mvar; o_saved : list saved }.

  Definition with_amount (x : exch) (a : R) (d : option distribution) (v : option pystr) (olca : option (R * (pystr * pystr))) : exch :=
    Exch (x_flow x) (x_uri x) (x_version x) (x_descr x) (Some a) (x_mean x)
         (match olca with Some (b, _) => Some b | None => x_amount x end)
         (match olca with Some (_, (_, ug)) => Some ug | None => x_unit x end)
         (match olca with Some (_, (p, _)) => Some p | None => x_property x end) d v.
  (** 86-89 *)
  Definition with_flow (x : exch) (r : row) (descr : list (pystr * pystr)) : exch :=
    Exch (r_target r) (Some (lit "../flows/" ++ xml (r_target r))) None descr
         (x_resulting x) (x_mean x) (x_amount x) (x_unit x) (x_property x) (x_dist x) (x_var x).

  (** 120-130, 133-143 *)
  Definition converted (x : exch) (vars : list mvar) (unit nunit : pystr) (amount factor : R) : result (exch * list mvar) :=
    bind (match x_amount x with
          | Some _ => bind (lookup_fp olca_fp nunit) (fun i => Ok (Some (amount * factor, i)))
          | None => Ok None end) (fun olca =>
    bind (get_unc_opt (x_dist x) (amount * factor) factor) (fun d =>
    bind (var_opt (x_var x) vars (fun n => get_var vars n unit nunit factor amount)) (fun '(vs, v) =>
    Ok (with_amount x (amount * factor) d v olca, vs)))).

  (** 62-201 [__init__] *)
  Definition no_match : list pystr := [lit "NO_MATCH_MAPPING"; lit "NO MATCH"].
  Definition remap (us : units) (vars : list mvar) (x : exch) : result output :=
    bind (get_uri is_file x) (fun uri =>
    bind (base_amount us x) (fun '(amount, unit, main_unit) =>
    let original := (lit "flows", base_name uri) in
    match getf (x_flow x) mapping with
    | Some r =>
        if str_in (r_type r) no_match then Ok (Out x vars [original])
        else
          bind (save_original (lit "elementary flow") (lit "flows") (r_target r)) (fun s1 =>
          bind (set_descr (x_descr x) (r_name r)) (fun descr =>
          let nx := with_flow x r descr in
          bind (lookup_fp fp (r_target_unit r)) (fun info =>
          bind (save_original (lit "flow property") (lit "flowproperties") (fst info)) (fun s2 =>
          bind (save_original (lit "unit group") (lit "unitgroups") (snd info)) (fun s3 =>
          let cf := r_factor r in
          if str_eqb (r_target_unit r) unit then
            bind (var_opt (x_var nx) vars (rename_var vars)) (fun '(vs, v) =>
            Ok (Out (with_amount nx amount (x_dist nx) v None) vs [s1; s2; s3]))
          else if str_eqb (r_source_unit r) unit then
            bind (converted nx vars unit (r_target_unit r) amount cf) (fun '(nx', vs) => Ok (Out nx' vs [s1; s2; s3]))
          else match getf (r_source_unit r) (u_sec us) with
          | Some g => bind (converted nx vars unit (r_target_unit r) amount (cf * g)) (fun '(nx', vs) => Ok (Out nx' vs [s1; s2; s3]))
          | None => Ok (Out nx vars [s1; s2; s3; original])
          end)))))
    | None =>
        bind (var_opt (x_var x) vars (rename_var vars)) (fun '(vs, v) =>
        let mu := if (str_eqb main_unit (lit "EUR") || infixb (lit "Item") main_unit)%bool then main_unit else map lower_ascii main_unit in
        bind (lookup_fp olca_fp mu) (fun info =>
        bind (save_original (lit "flow property") (lit "flowproperties") (fst info)) (fun s1 =>
        bind (save_original (lit "unit group") (lit "unitgroups") (snd info)) (fun s2 =>
        Ok (Out (with_amount x amount (x_dist x) v (match x_amount x with Some _ => Some (amount, info) | None => None end)) vs
                [s1; s2; original])))))
    end)).

  (** 410-414, 455-456: the exchanges of a process, with the table of variables *)
  Fixpoint remap_all (vars : list mvar) (l : list (units * exch)) : result (list exch * list mvar * list saved) :=
    match l with
    | [] => Ok ([], vars, [])
    | (us, x) :: l' => bind (remap us vars x) (fun o =>
                       bind (remap_all (o_vars o) l') (fun '(xs, vs, ss) => Ok (o_exch o :: xs, vs, o_saved o ++ ss)))
    end.
End Remap.

(** ** 265-321 [get_unit] *)
(** How a data set file names its own namespace: by a prefix, as the default namespace, or not at all.
    xmltodict keeps prefixes in the keys, so 266-270 yield the prefix, "@xmlns" or an IndexError; a key made
    with "@xmlns" is never there. *)
Inductive ns := NsPrefix | NsDefault | NsNone.
Record unit_entry := UnitEntry { ue_id : pystr; ue_name : pystr; ue_factor : R; ue_olca : option pystr }.
Record unit_group := UnitGroup { ug_ns : ns; ug_ref : pystr; ug_units : list unit_entry }.
(** a flow property of the flow: internal number, mean value, namespace of its data set, and the unit group,
    absent when one of the two files is not found *)
Record fprop := FProp { p_id : pystr; p_mean : R; p_ns : ns; p_group : option unit_group }.
Record flow_file := FlowFile { f_ns : ns; f_main : pystr; f_props : list fprop }.

Inductive role := RMain | RSec | ROlca.
(** 301-306, for a list of units. The units found before an error stay in the list. *)
Fixpoint scan_units (olca : option pystr) (kind : role) (mean : R) (ref : pystr) (l : list unit_entry)
  : list (role * (pystr * R)) * bool :=
  match l with
  | [] => ([], true)
  | e :: l' =>
      match olca, ue_olca e with
      | Some _, None => ([], false)
      | _, _ =>
          let o := match olca, ue_olca e with
                   | Some i, Some j => if str_eqb j i then [(ROlca, (ue_name e, ue_factor e))] else []
                   | _, _ => [] end in
          let m := if str_eqb (ue_id e) ref then [(kind, (ue_name e, mean))] else [] in
          let '(r, ok) := scan_units olca kind mean ref l' in (o ++ m ++ r, ok)
      end
  end.
(** 295-312. A single unit is a dictionary: the loop of 301 then fails on its keys (its first key is the text
    "@dataSetInternalID"), and only the second branch reads it. *)
Definition group_units (olca : option pystr) (kind : role) (mean : R) (g : unit_group) : result (list (role * (pystr * R))) :=
  match ug_ns g, ug_units g with
  | NsNone, _ => Err IndexError
  | _, [] => Err KeyError
  | NsPrefix, [_] => Err KeyError
  | NsPrefix, l => let '(r, ok) := scan_units olca kind mean (ug_ref g) l in if ok then Ok r else Err KeyError
  | NsDefault, [e] => Ok (if str_eqb (ue_id e) (ug_ref g) then [(kind, (ue_name e, mean))] else [])
  | NsDefault, _ => Err TypeError
  end.
Fixpoint prop_units (olca : option pystr) (main : pystr) (found : list (role * (pystr * R))) (l : list fprop) : result (list (role * (pystr * R))) :=
  match l with
  | [] => Ok found
  | p :: l' =>
      match p_ns p, p_group p with
      | NsNone, _ => Err IndexError
      | _, None => Err OtherError
      | _, Some g =>
          bind (group_units olca (if str_eqb (p_id p) main then RMain else RSec) (p_mean p) g) (fun r =>
          match found ++ r with [] => Err OtherError | f => prop_units olca main f l' end)
      end
  end.
Definition of_role (k : role) (l : list (role * (pystr * R))) : list (pystr * R) :=
  flat_map (fun e => match k, fst e with RMain, RMain | RSec, RSec | ROlca, ROlca => [snd e] | _, _ => [] end) l.
Definition get_unit (olca : option pystr) (f : flow_file) : result units :=
  match f_ns f with
  | NsPrefix =>
      bind (prop_units (match olca with Some [] => None | o => o end) (f_main f) [] (f_props f)) (fun l =>
      Ok (Units (of_role RMain l) (of_role RSec l) (of_role ROlca l)))
  | NsDefault => Err KeyError
  | NsNone => Err IndexError
  end.

(** ** 423-435 [place_index]; [i] is always 0 *)
Fixpoint place_index (v : pyval) : result pyval :=
  match v with
  | VDict d =>
      if has_key klang d then Ok (VDict (putf kindex (VInt 1) d))
      else bind ((fix go (d : list (pystr * pyval)) : result (list (pystr * pyval)) :=
                    match d with
                    | [] => Ok []
                    | (k, w) :: d' =>
                        bind (match w with
                              | VDict _ => place_index w
                              | VList l => bind ((fix each (l : list pyval) : result (list pyval) :=
                                                    match l with
                                                    | [] => Ok []
                                                    | f :: l' => bind (place_index f) (fun f' => bind (each l') (fun l'' => Ok (f' :: l'')))
                                                    end) l) (fun l' => Ok (VList l'))
                              | _ => Ok w
                              end) (fun w' => bind (go d') (fun d'' => Ok ((k, w') :: d'')))
                    end) d) (fun d' => Ok (VDict d'))
  | VStr _ => Err AttributeError
  | _ => Err OtherError
  end.
