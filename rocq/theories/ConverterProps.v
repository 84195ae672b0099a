(** Properties C31, C32, C69 and C70: options, requests, mappings and file information. *)
From Coq Require Import Ascii String List Bool Arith NArith ZArith QArith Lia.
From Verif Require Import PyBase PyBaseFacts PyValues MultiLangModel DotDictModel DotDictProofs XmlModel XmlSpec XmlProofs
  OutputModel OutputSpec OutputProofs ConverterModel ConverterSpec ConverterProofs.
Import ListNotations.
Local Close Scope Q_scope.

(** ** C31 *)
Theorem C31_options_hold_booleans_partial :
  forall opts c0 l, Forall (fun kv => boolean_like (snd kv)) opts -> new_converter opts = (c0, None) ->
    let c := assignments l c0 in
    forall k, In k (map fst opts) \/ k = lit "quiet" \/ k = lit "convert_additional_fields" ->
      (exists v, getf k (c_attrs c) = Some v /\ boolean_like v) /\
      (forall v, boolean_like v -> getf k (c_attrs (fst (set_attr k v c))) = Some v /\ snd (set_attr k v c) = None) /\
      (forall v, ~ boolean_like v -> set_attr k v c = (c, Some TypeError)) /\
      (forall k' v, k' <> k -> getf k (c_attrs (fst (set_attr k' v c))) = getf k (c_attrs c)).
Proof.
  intros opts c0 l F N c k H. destruct (new_converter_ok opts F) as (c1 & E & B & O).
  rewrite N in E. inversion E; subst c1.
  assert (G : guarded c k).
  { exists (map fst opts). unfold c. rewrite assignments_options. split; [exact O|].
    destruct H as [H|[->| ->]]; [now left|right; now left|right; right; now left]. }
  assert (B' : holds_booleans c) by (now apply assignments_holds).
  split; [now apply B'|]. split; [|split].
  - intros v Hv. destruct (set_attr_spec k v c) as [(_ & X & _)|(_ & ->)]; [contradiction|].
    split; [apply getf_putf|reflexivity].
  - intros v Hv. destruct (set_attr_spec k v c) as [(_ & _ & E')|(X & _)]; [exact E'|]. exfalso. auto.
  - intros k' v D. destruct (set_attr_spec k' v c) as [(_ & _ & ->)|(_ & ->)]; [reflexivity|].
    cbn [fst c_attrs]. apply getf_putf_ne. congruence.
Qed.
Print Assumptions C31_options_hold_booleans_partial.

(** A number equal to a truth value is stored although it is not a boolean; and replacing the list of
    options lifts the guard. *)
Theorem C31_options_hold_booleans_refuted :
  exists c0, new_converter (output_options (lit "ILCD1")) = (c0, None) /\
    getf (lit "quiet") (c_attrs (assignments [(lit "quiet", VInt 1)] c0)) = Some (VInt 1) /\
    getf (lit "quiet") (c_attrs (assignments [(lit "quiet", VFloat (Fin 0))] c0)) = Some (VFloat (Fin 0)) /\
    getf (lit "convert_parameterization")
      (c_attrs (assignments [(lit "convert_parameterization", VStr (lit "no"))] (set_options (Some []) c0)))
      = Some (VStr (lit "no")).
Proof. eexists. split; [reflexivity|]. repeat split. Qed.
Print Assumptions C31_options_hold_booleans_refuted.
Example C31_nonvacuous :
  exists c0, new_converter (input_options (lit "EcoSpold2") ++ output_options (lit "ILCD1")) = (c0, None) /\
    set_attr (lit "convert_properties") (VStr (lit "yes")) c0 = (c0, Some TypeError) /\
    getf (lit "convert_properties") (c_attrs (assignments [(lit "convert_properties", VBool false)] c0)) = Some (VBool false).
Proof. eexists. split; [reflexivity|]. split; reflexivity. Qed.
(** the options of all formats start as booleans *)
Example C31_defaults : forall f, Forall (fun kv => boolean_like (snd kv)) (input_options f ++ output_options f).
Proof.
  intros f. apply Forall_app. unfold input_options, output_options. destruct (str_eqb f (lit "EcoSpold2")); split; repeat constructor.
Qed.

(** ** C32 *)
Theorem C32_request_accepted_exactly :
  forall inp out p a b,
    get_converter inp out p = Ok (a, b) <->
    exists fa fb, nth_error inp 0 = Some (VStr a) /\ nth_error inp 1 = Some (VStr fa) /\
      nth_error out 0 = Some (VStr b) /\ nth_error out 1 = Some (VStr fb) /\
      supported a /\ supported b /\ (a = b \/ flow_list_of a fa /\ flow_list_of b fb) /\
      usable_input a p /\ save_is_dir p = true.
Proof.
  intros inp out p a b. unfold get_converter, item. split.
  - intros H. destruct (nth_error inp 0) as [i0|]; [|discriminate]. cbn [bind] in H.
    destruct (nth_error out 0) as [o0|]; [|discriminate]. cbn [bind] in H.
    destruct (nth_error inp 1) as [i1|]; [|discriminate]. cbn [bind] in H.
    destruct (lists_of i0) as [li|] eqn:LI; [|discriminate]. cbn [bind] in H.
    destruct (nth_error out 1) as [o1|]; [|discriminate]. cbn [bind] in H.
    destruct (lists_of o0) as [lo|] eqn:LO; [|discriminate]. cbn [bind] in H.
    destruct (check_all _ _) eqn:C in H; [|discriminate]. cbn [bind] in H.
    destruct (p_exists p) eqn:PE; [|discriminate]. destruct (save_is_dir p) eqn:SD; [|discriminate]. cbn [negb] in H.
    destruct i0 as [| | | |x| | | |]; try discriminate. destruct o0 as [| | | |y| | | |]; try discriminate.
    destruct (if p_is_dir p then _ else _) as [[]|] eqn:V in H; [|discriminate]. cbn [bind] in H. inversion H; subst x y.
    cbn [lists_of] in LI, LO. destruct (getf a flow_lists) as [la|] eqn:GA; [|discriminate].
    destruct (getf b flow_lists) as [lb|] eqn:GB; [|discriminate]. inversion LI; subst la. inversion LO; subst lb.
    destruct (flow_lists_spec a li GA) as [SA FA]. destruct (flow_lists_spec b lo GB) as [SB FB].
    cbn [check_all] in C. apply formats_supported in SA as SA'. apply formats_supported in SB as SB'. rewrite SA', SB' in C.
    cbn [negb andb] in C. destruct i1 as [| | | |fa| | | |]; try discriminate.
    destruct (negb (str_in fa li) && negb (same_str (VStr a) (VStr b)))%bool eqn:C1 in C; [discriminate|].
    destruct o1 as [| | | |fb| | | |]; try discriminate.
    destruct (negb (str_in fb lo) && negb (same_str (VStr a) (VStr b)))%bool eqn:C2 in C; [discriminate|].
    exists fa, fb. do 6 (split; [auto|]). split; [|split; [apply usable_spec; auto|reflexivity]].
    cbn [same_str] in C1, C2. destruct (str_eqb a b) eqn:AB; [left; now apply str_eqb_eq|]. right.
    rewrite andb_true_r in C1, C2. apply negb_false_iff in C1. apply negb_false_iff in C2. split; [now apply FA|now apply FB].
  - intros (fa & fb & -> & -> & -> & -> & SA & SB & L & U & SD). cbn [bind].
    destruct (supported_lists a SA) as [li GA]. destruct (supported_lists b SB) as [lo GB].
    cbn [lists_of]. rewrite GA, GB. cbn [bind]. destruct (flow_lists_spec a li GA) as [_ FA]. destruct (flow_lists_spec b lo GB) as [_ FB].
    cbn [check_all same_str]. rewrite (proj2 (formats_supported a) SA), (proj2 (formats_supported b) SB). cbn [negb andb].
    assert (C1 : (negb (str_in fa li) && negb (str_eqb a b))%bool = false).
    { destruct L as [->|[L1 _]]; [rewrite str_eqb_refl, andb_false_r; reflexivity|]. rewrite (proj2 (FA fa) L1). reflexivity. }
    assert (C2 : (negb (str_in fb lo) && negb (str_eqb a b))%bool = false).
    { destruct L as [->|[_ L2]]; [rewrite str_eqb_refl, andb_false_r; reflexivity|]. rewrite (proj2 (FB fb) L2). reflexivity. }
    rewrite C1, C2. cbn [bind]. apply usable_spec in U; auto. destruct U as [PE V]. rewrite PE, SD. cbn [negb]. rewrite V. reflexivity.
Qed.
Print Assumptions C32_request_accepted_exactly.
Example C32_nonvacuous :
  let p := {| p_exists := true; p_is_dir := false; p_name := lit "x.spold"; save_is_dir := true |} in
  get_converter [VStr (lit "EcoSpold2"); VStr (lit "ecoinvent3.7")] [VStr (lit "ILCD1"); VStr (lit "EF3.0")] p
    = Ok (lit "EcoSpold2", lit "ILCD1") /\
  get_converter [VStr (lit "EcoSpold2"); VStr (lit "EF3.0")] [VStr (lit "ILCD1"); VStr (lit "EF3.0")] p = Err AttributeError /\
  get_converter [VStr (lit "EcoSpold1"); VStr (lit "EF3.0")] [VStr (lit "ILCD1"); VStr (lit "EF3.0")] p = Err KeyError.
Proof. repeat split. Qed.

(** ** C69: an accepted request has a conversion *)
Theorem C69_conversions_available_partial :
  forall a b v cls,
    get_mapping (a, b) v = Ok cls <->
    (a = lit "EcoSpold2" /\ b = lit "ILCD1" /\ cls = lit "ECS2ToILCD1FieldMapping" /\
       (v = None \/ v = Some [lit "1"; lit "0"] \/ v = Some [lit "2"; lit "0"])) \/
    (a = lit "ILCD1" /\ b = lit "EcoSpold2" /\ cls = lit "ILCD1ToECS2FieldMapping" /\ (v = None \/ v = Some [lit "1"; lit "1"])) \/
    (a = lit "OLCAILCD1" /\ b = lit "OLCAILCD1" /\ cls = lit "ILCD1ToILCD1FieldMapping" /\ (v = None \/ v = Some [lit "1"; lit "1"])).
Proof.
  assert (VE : forall x y, version_eqb x y = true <-> x = y).
  { induction x as [|s x IH]; intros [|t y]; cbn [version_eqb]; try (split; [discriminate|discriminate]); [tauto|].
    rewrite andb_true_iff, str_eqb_eq, IH. split; [intros [-> ->]; auto|]. intros E; inversion E; auto. }
  assert (OE : forall x y, oversion_eqb x y = true <-> x = y).
  { intros [x|] [y|]; cbn [oversion_eqb]; try (split; [discriminate|discriminate]); [|tauto].
    rewrite VE. split; [intros ->; auto|]. intros E; inversion E; auto. }
  assert (PE : forall x y, pair_eqb x y = true <-> x = y).
  { intros [x1 x2] [y1 y2]. unfold pair_eqb. cbn [fst snd]. rewrite andb_true_iff, !str_eqb_eq. split; [intros [-> ->]; auto|].
    intros E; inversion E; auto. }
  intros a b v cls. unfold get_mapping. split.
  - destruct (find _ default_mappings) as [[nm [c vs]]|] eqn:F; [|discriminate].
    apply find_some in F. destruct F as [I E]. cbn [fst] in E. apply PE in E. subst nm.
    destruct (existsb (oversion_eqb v) vs) eqn:X; [|discriminate]. intros H. inversion H; subst c.
    apply existsb_exists in X. destruct X as (w & W & E). apply OE in E. subst w.
    destruct I as [I|[I|[I|[]]]]; inversion I; subst; cbn [In] in W; [left|right; left|right; right].
    + destruct W as [<-|[<-|[<-|[]]]]; auto 10.
    + destruct W as [<-|[<-|[]]]; auto 10.
    + destruct W as [<-|[<-|[]]]; auto 10.
  - intros [(-> & -> & -> & [->|[->| ->]])|[(-> & -> & -> & [->| ->])|(-> & -> & -> & [->| ->])]]; reflexivity.
Qed.
Print Assumptions C69_conversions_available_partial.

(** Requests for the other pairs of formats are accepted, and no version can be converted. *)
Theorem C69_conversions_available_refuted :
  forall a b, supported a -> supported b ->
    (a, b) <> (lit "EcoSpold2", lit "ILCD1") -> (a, b) <> (lit "ILCD1", lit "EcoSpold2") ->
    (a, b) <> (lit "OLCAILCD1", lit "OLCAILCD1") ->
    (exists fa fb p, get_converter [VStr a; VStr fa] [VStr b; VStr fb] p = Ok (a, b)) /\
    forall v, get_mapping (a, b) v = Err ValueError.
Proof.
  intros a b SA SB N1 N2 N3. split.
  - assert (L : forall x, supported x -> exists f, flow_list_of x f).
    { intros x [->|[->| ->]]; eexists; unfold flow_list_of; [left|right|right]; auto. }
    destruct (L a SA) as [fa FA], (L b SB) as [fb FB].
    exists fa, fb, {| p_exists := true; p_is_dir := true; p_name := []; save_is_dir := true |}.
    apply C32_request_accepted_exactly. exists fa, fb. do 4 (split; [reflexivity|]). split; [exact SA|]. split; [exact SB|].
    split; [right; auto|]. split; [|reflexivity]. split; [reflexivity|]. left. reflexivity.
  - intros v. destruct SA as [->|[->| ->]], SB as [->|[->| ->]]; try (exfalso; congruence); reflexivity.
Qed.
Print Assumptions C69_conversions_available_refuted.
Example C69_nonvacuous :
  get_mapping (lit "EcoSpold2", lit "OLCAILCD1") (Some [lit "2"; lit "0"]) = Err ValueError /\
  get_mapping (lit "EcoSpold2", lit "ILCD1") (Some [lit "2"; lit "0"]) = Ok (lit "ECS2ToILCD1FieldMapping").
Proof. split; reflexivity. Qed.

(** ** C70: information read before a conversion *)
(** The version and the name are those of the first element reported for them; a collected key has
    every report, in document order. *)
Theorem C70_information_is_the_documents :
  forall tbl e i, file_information tbl e = Ok i ->
    (exists v, found tbl KVersion (read (map fst tbl) e) v /\ i_version i = option_map IOne v) /\
    (exists v, found tbl KFilename (read (map fst tbl) e) v /\ i_filename i = option_map IOne v).
Proof.
  intros tbl e i H. unfold file_information in H. destruct (info_steps _ _ _) as [d|] eqn:E; [|discriminate].
  cbn [bind] in H. inversion H; subst. cbn [i_version i_filename].
  assert (S : shaped []) by (intros k v G; discriminate).
  split; [exact (info_steps_one tbl KVersion eq_refl _ [] d S E)|exact (info_steps_one tbl KFilename eq_refl _ [] d S E)].
Qed.
Print Assumptions C70_information_is_the_documents.

(** What is handed to the mapping: every report of a collected key, in document order, or the first
    report of a single one. *)
Theorem C70_references_are_the_documents :
  forall tbl e i n b, file_information tbl e = Ok i ->
    (forall p f b', getf p tbl = Some (KMapping n b', f) -> b' = b) ->
    (b = true -> exists vs, all_found tbl (KMapping n true) (read (map fst tbl) e) vs /\
       getf n (i_mapping i) = match vs with [] => None | _ => Some (IList vs) end) /\
    (b = false -> exists v, found tbl (KMapping n false) (read (map fst tbl) e) v /\
       getf n (i_mapping i) = option_map IOne v).
Proof.
  intros tbl e i n b H U. unfold file_information in H. destruct (info_steps _ _ _) as [d|] eqn:E; [|discriminate].
  cbn [bind] in H. inversion H; subst. cbn [i_mapping].
  assert (S : shaped []) by (intros k v G; discriminate).
  rewrite (mapping_entries_get n b).
  - split; intros ->.
    + exact (info_steps_list tbl (KMapping n true) eq_refl _ [] d S E).
    + exact (info_steps_one tbl (KMapping n false) eq_refl _ [] d S E).
  - intros b' I. destruct (info_steps_keys _ _ _ _ E _ I) as [[]|(p & f & G)]. eauto.
Qed.
Print Assumptions C70_references_are_the_documents.

Theorem C70_information_readable_partial :
  forall tbl e, (forall p t, In (p, t) (read (map fst tbl) e) -> exists k f v, getf p tbl = Some (k, f) /\ f t = Ok v) ->
    exists i, file_information tbl e = Ok i.
Proof.
  intros tbl e H. destruct (info_steps_ok tbl _ [] H) as [d E]. unfold file_information. rewrite E. cbn [bind]. eauto.
Qed.
Print Assumptions C70_information_readable_partial.

(** A process whose base name has no language, or a flow described in two languages, cannot be read. *)
Definition base_name (attrs : list (pystr * pystr)) : elem :=
  Elem (lit "processDataSet") [(lit "version", lit "1.1")] None None
   [Elem (lit "processInformation") [] None None
     [Elem (lit "dataSetInformation") [] None None
       [Elem (lit "name") [] None None [Elem (lit "baseName") attrs (Some (lit "Steel")) None []]]]].
Definition short_desc (l : list elem) : elem :=
  Elem (lit "processDataSet") [(lit "version", lit "1.1")] None None
   [Elem (lit "exchanges") [] None None
     [Elem (lit "exchange") [(lit "dataSetInternalID", lit "0")] None None
       [Elem (lit "referenceToFlowDataSet") [] None None l]]].
Definition desc_in (lang text : pystr) : elem :=
  Elem (lit "shortDescription") [(lit "{x}lang", lang)] (Some text) None [].
Theorem C70_information_readable_refuted :
  file_information ilcd_initial_info (base_name []) = Err TypeError /\
  file_information ilcd_initial_info (short_desc [desc_in (lit "en") (lit "coal"); desc_in (lit "de") (lit "Kohle")]) = Err TypeError.
Proof. split; reflexivity. Qed.
Print Assumptions C70_information_readable_refuted.
Example C70_nonvacuous :
  file_information ilcd_initial_info (base_name [(lit "{x}lang", lit "en")])
  = Ok {| i_version := Some (IOne (VTuple [VStr (lit "1"); VStr (lit "1")]));
          i_filename := Some (IOne (VStr (lit "Steel"))); i_mapping := [] |} /\
  file_information ilcd_initial_info (short_desc [desc_in (lit "en") (lit "coal")])
  = Ok {| i_version := Some (IOne (VTuple [VStr (lit "1"); VStr (lit "1")])); i_filename := None;
          i_mapping := [(lit "_flow_internal_refs", IList [VTuple [VStr (lit "0"); VStr (lit "coal")]])] |}.
Proof. split; reflexivity. Qed.
