(** C133-C135: data without a place in ILCD, which the conversion from EcoSpold2 sets aside. *)
From Coq Require Import Ascii String List Bool Arith NArith ZArith Lia.
From Verif Require Import PyBase PyBaseFacts PyValues MultiLangModel ValidatorsModel DotDictModel DotDictProofs SchemaModel SchemaTables
  XmlModel XmlSpec XmlProofs XmlProps KeysModel KeysSpec KeysProofs UtilsModel HandleModel HandleSpec HandleProofs HandleProps ClassModel
  DotDictProps ReferProofs AsideModel AsideSpec AsideProofs.
Import ListNotations.
Local Open Scope string_scope.
Local Open Scope list_scope.

(** A path in the activity data set, or in a child data set. *)
Definition both (k : string) : list pystr := [lit k; for_child (lit k)].
Definition intermediate_paths := both "/ecoSpold/activityDataset/flowData/intermediateExchange".
Definition elementary_paths := both "/ecoSpold/activityDataset/flowData/elementaryExchange".
Definition parameter_paths := both "/ecoSpold/activityDataset/flowData/parameter".
Definition review_paths := both "/ecoSpold/activityDataset/modellingAndValidation/review".
Definition entry_paths := both "/ecoSpold/activityDataset/administrativeInformation/dataEntryBy".
Definition generator_paths := both "/ecoSpold/activityDataset/administrativeInformation/dataGeneratorAndPublication".
Definition file_paths := both "/ecoSpold/activityDataset/administrativeInformation/fileAttributes".
Definition context_paths := both "/ecoSpold/activityDataset/administrativeInformation/fileAttributes/requiredContext".
Definition scenario_paths := both "/ecoSpold/activityDataset/activityDescription/macroEconomicScenario/name".
Definition period_paths := both "/ecoSpold/activityDataset/activityDescription/timePeriod/@isDataValidForEntirePeriod".

(** The conversion of the data set [doc] raises an exception, whatever else is done with the values. *)
Definition fails (E : env) (show : list pyval -> pystr) (doc : elem) : Prop :=
  forall rest, exists e, set_aside E show rest (read ecs_keys doc) (note0 E) = Err e.
(** What has been set aside at some moment of a conversion. *)
Definition reached (E : env) (show : list pyval -> pystr) (d : dd (lavoisier E)) : Prop :=
  exists rest reports, set_aside E show rest reports (note0 E) = Ok d.
Lemma reached_good E show d : reached E show d -> good E d.
Proof. intros (rest & r & H). exact (set_aside_good E show rest r _ d (note0_good E) H). Qed.
Lemma aside_asked : forallb (fun kh => str_in (fst kh) ecs_keys) keepings = true.
Proof. vm_compute. reflexivity. Qed.
Lemma part_fails E show doc k h f : proper doc -> part doc k f -> getf k keepings = Some h ->
  (forall d, good E d -> exists e, snd (keep E show h (elem2dict f) d) = Some e) -> fails E show doc.
Proof.
  intros P F K S rest. apply (set_aside_stops E show rest k h (elem2dict f) _ K S); [|apply note0_good].
  apply part_read; [exact P|exact F|]. apply HandleProofs.In_getf in K. pose proof aside_asked as A. rewrite forallb_forall in A.
  apply str_in_In. exact (A _ K).
Qed.
Ltac paths I := repeat (destruct I as [<-|I]; [vm_compute; reflexivity|]); destruct I.

(** * C133: contexts and inheritance marks of exchanges *)
(** An exchange with an identifier and the identifier of its flow passes, exactly if the property used for an
    allocation is not taken from another context. *)
Theorem C133_exchanges_partial :
  forall E show e d, exchange e -> (exists s, attribute e "id" s) ->
    ((exists s, attribute e "intermediateExchangeId" s) ->
     (snd (keep E show KIntermediate (elem2dict e) d) = None <-> ~ allocation_context e)) /\
    ((exists s, attribute e "elementaryExchangeId" s) ->
     (snd (keep E show KElementary (elem2dict e) d) = None <-> ~ allocation_context e)).
Proof.
  intros E show e d X I. pose proof X as (R & B & _). destruct (record_dict e R) as [x Q]. rewrite Q. cbn [keep dict snd].
  assert (T : forall n, (exists s, attribute e n s) -> exists s, item_or_none x (at_ n) = VStr s).
  { intros n [s A]. unfold item_or_none. rewrite (proj2 (record_attr e x n R Q (VStr s)) (ex_intro _ s (conj eq_refl A))). now exists s. }
  split; intros F; unfold fresh, intermediate_jots, elementary_jots; split.
  - intros H A. destruct (flow_stops E (item_or_none x (at_ "id")) (item_or_none x (at_ "intermediateExchangeId")) e x
      (flags x ["activityLinkIdOverwrittenByChild"; "intermediateExchangeContextId"; "activityLinkContextId"]) R Q A) as [y Y]. congruence.
  - intros N. apply (flow_fine E _ _ e x _ _ (T _ I) (T _ F) X Q N B). vm_compute. reflexivity.
  - intros H A. destruct (flow_stops E (item_or_none x (at_ "id")) (item_or_none x (at_ "elementaryExchangeId")) e x
      (flags x ["elementaryExchangeContextId"]) R Q A) as [y Y]. congruence.
  - intros N. apply (flow_fine E _ _ e x _ _ (T _ I) (T _ F) X Q N B). vm_compute. reflexivity.
Qed.
Print Assumptions C133_exchanges_partial.
(** Any data set with such an exchange cannot be converted. *)
Theorem C133_allocation_context_stops_refuted :
  forall E show doc k f, proper doc -> In k (intermediate_paths ++ elementary_paths) -> part doc k f ->
    record_element f -> allocation_context f -> fails E show doc.
Proof.
  intros E show doc k f P I F R A. destruct (record_dict f R) as [x Q].
  assert (K : exists h, getf k keepings = Some h /\ (h = KIntermediate \/ h = KElementary)).
  { repeat (destruct I as [<-|I]; [eexists; split; [vm_compute; reflexivity|tauto]|]). destruct I. }
  destruct K as (h & K & H). apply (part_fails E show doc k h f P F K). intros d _. rewrite Q.
  destruct H as [->| ->]; cbn [keep dict snd]; unfold fresh, intermediate_jots, elementary_jots.
  - exact (flow_stops E _ _ f x _ R Q A).
  - exact (flow_stops E _ _ f x _ R Q A).
Qed.
Print Assumptions C133_allocation_context_stops_refuted.
(** Parameters, properties of exchanges and production volumes always pass. *)
Theorem C133_parameters :
  forall E show e d, parameter e -> snd (keep E show KParameter (elem2dict e) d) = None.
Proof.
  intros E show e d (R & B). destruct (record_dict e R) as [x Q]. rewrite Q. cbn [keep dict snd]. unfold fresh.
  destruct (jots_fine E (parameter_jots x) (DD _ Param []) (new_okd E Param)) as (d' & -> & _); [|reflexivity].
  apply (flags_fine E Param e x _ _ R Q B). vm_compute. reflexivity.
Qed.
Print Assumptions C133_parameters.
Theorem C133_volumes :
  forall E e, record_element e -> fresh E Volume (volume_jots (dict (elem2dict e))) = None.
Proof.
  intros E e R. destruct (record_dict e R) as [x Q]. rewrite Q. cbn [dict]. unfold fresh.
  destruct (jots_fine E (volume_jots x) (DD _ Volume []) (new_okd E Volume)) as (d' & -> & _); [|reflexivity].
  apply (flags_fine E Volume e x [] _ R Q); [intros n s []|vm_compute; reflexivity].
Qed.
Print Assumptions C133_volumes.
Theorem C133_properties :
  forall E known e, property e -> fresh E Property (property_jots known (dict (elem2dict e))) = None.
Proof.
  intros E known e (R & B & s & f & A & S). destruct (record_dict e R) as [x Q]. rewrite Q. cbn [dict]. unfold fresh.
  destruct (jots_fine E (property_jots known x) (DD _ Property []) (new_okd E Property)) as (d' & -> & _); [|reflexivity].
  cbn [cls]. unfold property_jots. apply Forall_app. split; [|apply (flags_fine E Property e x _ _ R Q B); vm_compute; reflexivity].
  cbv zeta. destruct (given x (at_ "unitId")) eqn:G, (given x (lit "unitName")), known; cbn [andb negb]; try constructor; try constructor;
    try (unfold item; rewrite (proj2 (record_attr e x _ R Q (VStr s)) (ex_intro _ s (conj eq_refl A))); cbn [jot_of];
         apply real_fine with (x := f); [vm_compute; reflexivity|exact S]);
    try constructor.
  apply jot_of_fine; [vm_compute; reflexivity|]. apply (item_strv e x _ R Q). now apply given_attr with (d := x).
Qed.
Print Assumptions C133_properties.
(** What is set aside of a property: its amount, unless the property has a counterpart and a unit, and then the unit, if it has no
    counterpart but a unit. *)
Definition has_unit (e : elem) : Prop :=
  (exists u, attribute e "unitId" u /\ u <> []) /\ exists k l, named_kids (lit "unitName") (ekids e) [k] /\ language_text k l.
Definition has_no_unit (e : elem) : Prop := (forall u, attribute e "unitId" u -> u = []) \/ named_kids (lit "unitName") (ekids e) [].
Lemma unit_given e x : record_element e -> elem2dict e = VDict x ->
  (has_unit e -> (given x (at_ "unitId") && given x (lit "unitName"))%bool = true) /\ (has_no_unit e -> (given x (at_ "unitId") && given x (lit "unitName"))%bool = false).
Proof.
  intros R Q. assert (X : xml_name (lit "unitName")) by (repeat split; try discriminate; vm_compute; intuition discriminate).
  destruct (kids_read e x "unitName" R Q X) as (ks & K & _ & G). split.
  - intros [(u & A & N) (k & l & K' & L)]. rewrite <- (named_one _ _ _ _ K' K) in G. unfold given. rewrite G, (proj2 (record_attr e x _ R Q (VStr u)) (ex_intro _ u (conj eq_refl A))).
    destruct (read_language k l L) as [t ->]. destruct u; [congruence|reflexivity].
  - intros [N|K'].
    + assert (E : given x (at_ "unitId") = false); [|now rewrite E]. unfold given. destruct (getf (at_ "unitId") x) as [v|] eqn:V; [|reflexivity].
      apply (record_attr e x _ R Q) in V. destruct V as (s & -> & A). now rewrite (N s A).
    + rewrite <- (named_one _ _ _ _ K' K) in G. unfold given at 2. rewrite G. apply andb_false_r.
Qed.
Theorem C133_amounts_set_aside :
  forall known e s, property e -> attribute e "amount" s ->
    let js := property_jots known (dict (elem2dict e)) in
    (known = false \/ has_no_unit e -> In (JSet (lit "amount") (VStr s)) js) /\
    (known = true /\ has_unit e -> forall v, ~ In (JSet (lit "amount") v) js) /\
    (known = false -> has_unit e -> forall u, attribute e "unitId" u -> In (JSet (lit "unitId") (VStr u)) js).
Proof.
  intros known e s (R & _) A. destruct (record_dict e R) as [x Q]. rewrite Q. cbn [dict]. cbv zeta.
  assert (I : forall n t, attribute e n t -> item x (at_ n) = Ok (VStr t)).
  { intros n t H. unfold item. now rewrite (proj2 (record_attr e x n R Q (VStr t)) (ex_intro _ t (conj eq_refl H))). }
  destruct (unit_given e x R Q) as [U1 U2]. unfold property_jots. rewrite (I _ _ A). cbn [jot_of]. split; [|split].
  - intros H. apply in_or_app. left. destruct H as [->|H]; [cbn [andb negb]; now left|]. rewrite (U2 H), andb_false_r. now left.
  - intros [-> H] v J. rewrite (U1 H) in J. cbn [andb app] in J. unfold flags, flag in J. apply in_flat_map in J. destruct J as (n & J & V).
    repeat (destruct J as [<-|J]; [destruct (getf _ x) as [w|]; [|contradiction]; destruct (truth w); [|contradiction]; destruct V as [V|[]]; vm_compute in V; discriminate|]). destruct J.
  - intros -> H u B. apply in_or_app. left. rewrite (U1 H). cbn [andb negb]. right. left. now rewrite (I _ _ B).
Qed.
Print Assumptions C133_amounts_set_aside.

Definition elem_ (t : string) (a : list (string * string)) (ks : list elem) : elem :=
  Elem (lit t) (map (fun kv => (lit (fst kv), lit (snd kv))) a) None None ks.
Definition txt (t s : string) : elem := Elem (lit t) [] (Some (lit s)) None [].
Definition activity (t : string) (e : elem) : elem :=
  elem_ "ecoSpold" [] [elem_ "activityDataset" [] [elem_ t [] [e]]].
Definition sample_exchange (a : list (string * string)) : elem :=
  elem_ "intermediateExchange" ([("id", "i1"); ("intermediateExchangeId", "f1"); ("isCalculatedAmount", "true"); ("unitContextId", "c")] ++ a)
    [txt "tag" "goods"; elem_ "transferCoefficient" [("exchangeId", "i2"); ("amount", "0.5")] []].
Definition recordb (e : elem) : bool :=
  (forallb properb (ekids e) && forallb (fun kv => name_ok (fst kv)) (eattrib e) && distinctb (map fst (eattrib e)) &&
   negb (Nat.eqb (length (eattrib e)) 0))%bool.
Lemma recordb_sound e : recordb e = true -> record_element e.
Proof.
  unfold recordb. rewrite !andb_true_iff, negb_true_iff. intros [[[P N] D] L]. split; [|split].
  - apply Forall_forall. rewrite forallb_forall in P. intros k I. now apply properb_sound, P.
  - exists (map fst (eattrib e)). split; [|now apply distinctb_spec].
    rewrite forallb_forall in N. clear D L P. induction (eattrib e) as [|kv a IH]; cbn [map]; constructor.
    + apply name_ok_spec. apply N. now left.
    + apply IH. intros x I. apply N. now right.
  - intros Q. rewrite Q in L. discriminate L.
Qed.
Lemma attr_given e n s : name_ok (lit n) = true -> In (lit n, s) (eattrib e) -> attribute e n s.
Proof. intros N I. exists (lit n). split; [exact I|]. now apply name_ok_spec. Qed.
Lemma attr_found e n s : recordb e = true -> attribute e n s -> In (lit n, s) (eattrib e).
Proof.
  unfold recordb. rewrite !andb_true_iff. intros [[[_ N] _] _] (k & I & K). rewrite forallb_forall in N.
  destruct (name_ok_spec _ (N _ I)) as [_ M]. cbn [fst] in M.
  assert (k = lit n) as <- by now rewrite <- (name_local _ _ M), (name_local _ _ K). exact I.
Qed.
Ltac given_ := eexists; apply attr_given; [vm_compute; reflexivity|cbn; tauto].
Ltac bools := let n := fresh in let s := fresh in let I := fresh in let A := fresh in intros n s I A; apply attr_found in A; [|vm_compute; reflexivity];
  repeat (destruct I as [<-|I]; [repeat (destruct A as [A|A]; [try discriminate A; injection A as <-; cbn; tauto|]); destruct A|]); destruct I.
Lemma sample_is_exchange a : recordb (sample_exchange a) = true -> 
  forallb (fun ns => negb (str_in (lit (fst ns)) (map lit ["isCalculatedAmount"; "sourceIdOverwrittenByChild"; "activityLinkIdOverwrittenByChild"]))) a = true ->
  exchange (sample_exchange a).
Proof.
  intros R N. split; [now apply recordb_sound|]. split.
  - intros n s I A. apply (attr_found _ _ _ R) in A. unfold sample_exchange in A. cbn [elem_ eattrib] in A. rewrite map_app in A.
    apply in_app_or in A. destruct A as [A|A].
    + cbn [map fst snd] in A. repeat (destruct I as [<-|I]; [repeat (destruct A as [A|A]; [try discriminate A; injection A as <-; cbn; tauto|]); destruct A|]). destruct I.
    + exfalso. apply in_map_iff in A. destruct A as ([m t] & Q & J). cbn [fst snd] in Q.
      rewrite forallb_forall in N. specialize (N _ J). cbn [fst] in N. apply negb_true_iff in N.
      assert (Y : str_in (lit m) (map lit ["isCalculatedAmount"; "sourceIdOverwrittenByChild"; "activityLinkIdOverwrittenByChild"]) = true).
      { apply str_in_In. replace (lit m) with (lit n) by congruence. now apply in_map. }
      congruence.
  - exists [txt "tag" "goods"]. split.
    + apply nk_take; [now apply name_ok_spec|]. apply nk_skip; [|constructor]. intros [_ [H|[ns H]]]; vm_compute in H; discriminate H.
    + constructor; [|constructor]. exists (lit "goods"). repeat split. intros B. inversion B as [|? ? C _]. vm_compute in C. discriminate C.
Qed.
Definition empty_show (l : list pyval) : pystr := [].
Example C133_nonvacuous :
  (exchange (sample_exchange []) /\ ~ allocation_context (sample_exchange []) /\
   fresh sample_env Flow (intermediate_jots (VStr (lit "i1")) (VStr (lit "f1")) (dict (elem2dict (sample_exchange [])))) = None) /\
  (let e := sample_exchange [("specificAllocationPropertyContextId", "c2")] in let doc := activity "flowData" e in
   exchange e /\ allocation_context e /\ proper doc /\
   (exists k, In k intermediate_paths /\ part doc k e) /\ fails sample_env empty_show doc) /\
  (exists e, parameter e) /\ exists e, property e.
Proof.
  split; [split; [|split]|split; [|split]].
  - apply sample_is_exchange; vm_compute; reflexivity.
  - intros (s & A & _). apply attr_found in A; [|vm_compute; reflexivity].
    repeat (destruct A as [A|A]; [discriminate A|]). destruct A.
  - vm_compute. reflexivity.
  - cbv zeta. set (e := sample_exchange _). set (doc := activity _ e).
    assert (X : exchange e) by (apply sample_is_exchange; vm_compute; reflexivity).
    assert (A : allocation_context e). { exists (lit "c2"). split; [|discriminate]. apply attr_given; [vm_compute; reflexivity|]. cbn. tauto. }
    assert (P : proper doc) by (apply properb_sound; vm_compute; reflexivity).
    assert (F : part doc (lit "/ecoSpold/activityDataset/flowData/intermediateExchange") e).
    { apply (at_place_part [0; 0; 0]%nat); vm_compute; reflexivity. }
    split; [exact X|]. split; [exact A|]. split; [exact P|]. split.
    + eexists. split; [|exact F]. now left.
    + apply (C133_allocation_context_stops_refuted sample_env empty_show doc _ e P) with (2 := F); [now left|exact (proj1 X)|exact A].
  - exists (elem_ "parameter" [("parameterId", "p"); ("isCalculatedAmount", "0")] []). split; [apply recordb_sound; vm_compute; reflexivity|bools].
  - exists (elem_ "property" [("propertyId", "p"); ("isCalculatedAmount", "0"); ("amount", "2.5")] []).
    split; [apply recordb_sound; vm_compute; reflexivity|]. split; [bools|].
    eexists (lit "2.5"), _. split; [apply attr_given; [vm_compute; reflexivity|cbn; tauto]|vm_compute; reflexivity].
Qed.
Example C133_amounts_nonvacuous :
  let e := elem_ "property" [("propertyId", "p1"); ("amount", "2")] [] in
  let f := elem_ "property" [("propertyId", "p1"); ("amount", "2"); ("unitId", "u1")]
                 [Elem (lit "unitName") [(xml_lang, lit "en")] (Some (lit "kg")) None []] in
  property e /\ has_no_unit e /\ has_unit f /\ property_jots true (dict (elem2dict e)) = [JSet (lit "amount") (VStr (lit "2"))] /\
  property_jots true (dict (elem2dict f)) = [] /\
  property_jots false (dict (elem2dict f)) = [JSet (lit "amount") (VStr (lit "2")); JSet (lit "unitId") (VStr (lit "u1"))].
Proof.
  cbv zeta. split; [|split; [|split; [|repeat split; vm_compute; reflexivity]]].
  - split; [now apply recordb_sound|]. split; [bools|]. exists (lit "2"). eexists. split; [|vm_compute; reflexivity]. apply attr_given; [vm_compute; reflexivity|right; now left].
  - right. constructor.
  - split.
    + exists (lit "u1"). split; [apply attr_given; [vm_compute; reflexivity|right; right; now left]|discriminate].
    + exists (Elem (lit "unitName") [(xml_lang, lit "en")] (Some (lit "kg")) None []), (lit "en"). split; [|split; reflexivity]. apply nk_take; [now apply name_ok_spec|constructor].
Qed.

(** * C134: administrative data *)
(** Who entered the data, the file and its versions, reviews: always pass. *)
Theorem C134_entry_file_review :
  forall E show e d, reached E show d ->
    (by_person e -> snd (keep E show KEntryBy (elem2dict e) d) = None) /\
    (record_element e -> snd (keep E show KFile (elem2dict e) d) = None) /\
    (review_element e -> snd (keep E show KReview (elem2dict e) d) = None).
Proof.
  intros E show e d G. apply reached_good in G. split; [|split]; intros H.
  - destruct (record_dict e (proj1 H)) as [x Q]. rewrite Q. cbn [keep dict]. apply fine_passes; [exact G|]. now apply entry_by_fine with (e := e).
  - destruct (record_dict e H) as [x Q]. rewrite Q. cbn [keep dict]. apply fine_passes; [exact G|]. now apply file_fine with (e := e).
  - destruct (record_dict e (proj1 H)) as [x Q]. rewrite Q. cbn [keep dict]. apply fine_passes; [exact G|]. now apply review_fine with (e := e).
Qed.
Print Assumptions C134_entry_file_review.
(** Who generated the data passes exactly if the company is not given by its context alone. *)
Theorem C134_generator_partial :
  forall E show e d, reached E show d -> by_person e ->
    (snd (keep E show KGenerator (elem2dict e) d) = None <-> ~ company_context_only e).
Proof.
  intros E show e d G H. apply reached_good in G. destruct (record_dict e (proj1 H)) as [x Q]. rewrite Q. cbn [keep dict]. split.
  - intros N C. destruct (generator_stops E e x d (proj1 H) Q C (proj1 G) (proj2 G)) as [y Y]. congruence.
  - intros N. apply fine_passes; [exact G|]. now apply generator_fine with (e := e).
Qed.
Print Assumptions C134_generator_partial.
Theorem C134_company_context_stops_refuted :
  forall E show doc k f, proper doc -> In k generator_paths -> part doc k f ->
    record_element f -> company_context_only f -> fails E show doc.
Proof.
  intros E show doc k f P I F R A. destruct (record_dict f R) as [x Q].
  assert (K : getf k keepings = Some KGenerator) by paths I.
  apply (part_fails E show doc k _ f P F K). intros d [O C]. rewrite Q. exact (generator_stops E f x d R Q A O C).
Qed.
Print Assumptions C134_company_context_stops_refuted.
(** Required contexts pass exactly if they say where the file is. *)
Theorem C134_context_partial :
  forall E show e d, reached E show d -> required_context e ->
    (snd (keep E show KContext (elem2dict e) d) = None <-> exists s, attribute e "requiredContextFileLocation" s).
Proof.
  intros E show e d G H. apply reached_good in G. pose proof (proj1 H) as R. destruct (record_dict e R) as [x Q]. rewrite Q. cbn [keep dict]. split.
  - intros N. destruct (getf (at_ "requiredContextFileLocation") x) as [v|] eqn:V.
    + apply (record_attr e x _ R Q) in V. destruct V as (s & _ & A). now exists s.
    + exfalso. pose proof (proj1 (record_none e x _ R Q) V) as V'. destruct (context_stops E show e x d R Q V') as [y Y]. congruence.
  - intros L. apply fine_passes; [exact G|]. now apply context_fine_ with (e := e).
Qed.
Print Assumptions C134_context_partial.
Theorem C134_context_stops_refuted :
  forall E show doc k f, proper doc -> In k context_paths -> part doc k f ->
    record_element f -> (forall s, ~ attribute f "requiredContextFileLocation" s) -> fails E show doc.
Proof.
  intros E show doc k f P I F R A. destruct (record_dict f R) as [x Q].
  assert (K : getf k keepings = Some KContext) by paths I.
  apply (part_fails E show doc k _ f P F K). intros d _. rewrite Q. exact (context_stops E show f x d R Q A).
Qed.
Print Assumptions C134_context_stops_refuted.
Definition sample_generator (a : list (string * string)) : elem :=
  elem_ "dataGeneratorAndPublication" ([("personId", "p1"); ("personContextId", "c1"); ("isCopyrightProtected", "true")] ++ a) [].
Definition sample_context (a : list (string * string)) : elem :=
  elem_ "requiredContext" ([("majorRelease", "1"); ("minorRelease", "0"); ("requiredContextId", "c1")] ++ a) [txt "requiredContextName" "ecoinvent"].
Ltac absent := let s := fresh in let A := fresh in intros s A; apply attr_found in A; [|vm_compute; reflexivity];
  repeat (destruct A as [A|A]; [discriminate A|]); destruct A.
Example C134_nonvacuous :
  (exists e, by_person e /\ ~ company_context_only e) /\
  (exists e doc, company_context_only e /\ fails sample_env empty_show doc /\
     part doc (lit "/ecoSpold/activityDataset/administrativeInformation/dataGeneratorAndPublication") e) /\
  (exists e, required_context e /\ exists s, attribute e "requiredContextFileLocation" s) /\
  (exists e doc, required_context e /\ fails sample_env empty_show doc /\
     part doc (lit "/ecoSpold/activityDataset/administrativeInformation/fileAttributes/requiredContext") e) /\
  (exists e, review_element e) /\ reached sample_env empty_show (note0 sample_env).
Proof.
  assert (RC : forall a, recordb (sample_context a) = true -> required_context (sample_context a)).
  { intros a R. split; [now apply recordb_sound|]. split; [|split; [given_|split; [given_|given_]]].
    exists [txt "requiredContextName" "ecoinvent"]. split; [|discriminate]. apply nk_take; [now apply name_ok_spec|constructor]. }
  split; [|split; [|split; [|split; [|split]]]].
  - exists (sample_generator []). split.
    + split; [apply recordb_sound; vm_compute; reflexivity|given_].
    + intros [(s & A & _) _]. revert s A. absent.
  - exists (sample_generator [("companyContextId", "c2")]), (activity "administrativeInformation" (sample_generator [("companyContextId", "c2")])).
    assert (C : company_context_only (sample_generator [("companyContextId", "c2")])).
    { split; [|absent]. exists (lit "c2"). split; [|discriminate]. apply attr_given; [vm_compute; reflexivity|cbn; tauto]. }
    assert (F : part (activity "administrativeInformation" (sample_generator [("companyContextId", "c2")]))
       (lit "/ecoSpold/activityDataset/administrativeInformation/dataGeneratorAndPublication") (sample_generator [("companyContextId", "c2")])).
    { apply (at_place_part [0; 0; 0]%nat); vm_compute; reflexivity. }
    split; [exact C|]. split; [|exact F]. eapply C134_company_context_stops_refuted; [| |exact F| |exact C].
    + apply properb_sound; vm_compute; reflexivity.
    + now left.
    + apply recordb_sound; vm_compute; reflexivity.
  - exists (sample_context [("requiredContextFileLocation", "x")]). split; [apply RC; vm_compute; reflexivity|given_].
  - set (doc := activity "administrativeInformation" (elem_ "fileAttributes" [] [sample_context []])). exists (sample_context []), doc.
    assert (F : part doc (lit "/ecoSpold/activityDataset/administrativeInformation/fileAttributes/requiredContext") (sample_context [])).
    { apply (at_place_part [0; 0; 0; 0]%nat); vm_compute; reflexivity. }
    split; [apply RC; vm_compute; reflexivity|]. split; [|exact F]. eapply C134_context_stops_refuted; [| |exact F| |absent].
    + apply properb_sound; vm_compute; reflexivity.
    + now left.
    + apply recordb_sound; vm_compute; reflexivity.
  - exists (elem_ "review" [("reviewedMajorRelease", "1"); ("reviewedMajorRevision", "0"); ("reviewedMinorRelease", "1"); ("reviewedMinorRevision", "2");
                             ("reviewerId", "p"); ("reviewDate", "2020-01-01")] []). split; [apply recordb_sound; vm_compute; reflexivity|].
    intros n I. repeat (destruct I as [<-|I]; [given_|]). destruct I.
  - exists (fun _ _ => Ok tt), []. reflexivity.
Qed.

(** * C135: what is kept *)
(** attributes of an activity data set that are kept under their own names *)
Definition kept_attributes : list (string * string) :=
  [("activity", "activityNameId"); ("activity", "activityNameContextId"); ("activity", "parentActivityId");
   ("activity", "parentActivityContextId"); ("activity", "inheritanceDepth"); ("activity", "specialActivityType");
   ("activity", "masterAllocationPropertyId"); ("activity", "masterAllocationPropertyIdOverwrittenByChild");
   ("activity", "masterAllocationPropertyContextId"); ("geography", "geographyId"); ("geography", "geographyContextId");
   ("technology", "technologyLevel"); ("macroEconomicScenario", "macroEconomicScenarioId");
   ("macroEconomicScenario", "macroEconomicScenarioContextId")].
Definition attribute_path (pn : string * string) : pystr :=
  lit "/ecoSpold/activityDataset/activityDescription/" ++ lit (fst pn) ++ lit "/@" ++ lit (snd pn).
Definition kept_ok (pn : string * string) : bool :=
  (match getf (attribute_path pn) keepings with Some (KNote g) => String.eqb g (snd pn) | _ => false end &&
   match getf (for_child (attribute_path pn)) keepings with Some (KNote g) => String.eqb g (snd pn) | _ => false end &&
   apart (lit (snd pn)) &&
   match getf (lit (snd pn)) (schema Aside) with Some w => match f_type w with TVal CStr => true | _ => false end | None => false end &&
   takes_text Aside (lit (snd pn)) &&
   forallb (fun kh => (negb (writes (lit (snd pn)) (snd kh)) || str_in (fst kh) [attribute_path pn; for_child (attribute_path pn)])%bool) keepings)%bool.
Lemma all_kept_ok : forallb kept_ok kept_attributes = true.
Proof. vm_compute. reflexivity. Qed.
Lemma kept_facts pn : In pn kept_attributes ->
  (forall k, k = attribute_path pn \/ k = for_child (attribute_path pn) -> getf k keepings = Some (KNote (snd pn))) /\
  apart (lit (snd pn)) = true /\ takes_text Aside (lit (snd pn)) = true /\
  (forall w v, getf (lit (snd pn)) (schema Aside) = Some w -> f_type w = TVal v -> v = CStr) /\
  (forall k h, getf k keepings = Some h -> k <> attribute_path pn -> k <> for_child (attribute_path pn) -> writes (lit (snd pn)) h = false).
Proof.
  intros I. pose proof all_kept_ok as C. rewrite forallb_forall in C. specialize (C pn I). unfold kept_ok in C.
  apply andb_true_iff in C. destruct C as [C C6]. apply andb_true_iff in C. destruct C as [C C5]. apply andb_true_iff in C. destruct C as [C C4].
  apply andb_true_iff in C. destruct C as [C C3]. apply andb_true_iff in C. destruct C as [C1 C2].
  split; [|split; [exact C3|split; [exact C5|split]]].
  - intros k [->| ->].
    + destruct (getf (attribute_path pn) keepings) as [[g|g| | | | | | | |]|]; try discriminate C1. apply String.eqb_eq in C1. now subst.
    + destruct (getf (for_child (attribute_path pn)) keepings) as [[g|g| | | | | | | |]|]; try discriminate C2. apply String.eqb_eq in C2. now subst.
  - intros w v G T. rewrite G, T in C4. destruct v; try discriminate C4. reflexivity.
  - intros k h G N1 N2. apply HandleProofs.In_getf in G. rewrite forallb_forall in C6. specialize (C6 _ G). cbv beta in C6.
    apply orb_true_iff in C6. destruct C6 as [C6|C6]; [now apply negb_true_iff in C6|]. apply str_in_In in C6.
    destruct C6 as [C6|[C6|[]]]; exfalso; [apply N1|apply N2]; symmetry; exact C6.
Qed.
Lemma note_text E show f s d0 : good E d0 -> takes_text Aside (lit f) = true ->
  (forall w v, getf (lit f) (schema Aside) = Some w -> f_type w = TVal v -> v = CStr) ->
  exists d1, keep E show (KNote f) (VStr s) d0 = (d1, None) /\ getf (lit f) (flds _ d1) = Some (HV (lavoisier E) CStr (Some (ST s))).
Proof.
  intros [O C] T V. destruct (set_fine E d0 (lit f) (VStr s) O) as (st & v & w & Hs & R & Tw & st0 & Hst); [rewrite C; now apply text_fine|].
  rewrite C in R. pose proof (V w v R Tw) as ->. exists (DD _ (cls _ d0) (putf (lit f) (HV (lavoisier E) CStr st) (flds _ d0))).
  split; [unfold keep; cbn [jots]; now rewrite Hs|]. cbn [flds]. rewrite getf_putf. now rewrite Hst.
Qed.
(** The last value reported is the one that is kept. *)
Theorem C135_attributes_kept :
  forall E show rest pre post pn k s d, In pn kept_attributes -> k = attribute_path pn \/ k = for_child (attribute_path pn) ->
    (forall k' x, In (k', x) post -> k' <> attribute_path pn /\ k' <> for_child (attribute_path pn)) ->
    set_aside E show rest (pre ++ (k, VStr s) :: post) (note0 E) = Ok d ->
    get _ d (lit (snd pn)) = Ok (GVal (lavoisier E) (OText s)).
Proof.
  intros E show rest pre post pn k s d I K N H. destruct (kept_facts pn I) as (G & A & T & V & W). specialize (G k K).
  rewrite set_aside_app in H. destruct (set_aside E show rest pre (note0 E)) as [d0|] eqn:H0; [|discriminate H].
  pose proof (set_aside_good E show rest pre _ d0 (note0_good E) H0) as G0.
  assert (H' : bind (rest k (VStr s)) (fun _ => match getf k keepings with
     | None => set_aside E show rest post d0
     | Some h => match keep E show h (VStr s) d0 with (d', None) => set_aside E show rest post d' | (_, Some e) => Err e end end) = Ok d) by exact H.
  clear H. destruct (rest k (VStr s)) as [[]|]; [|discriminate H']. cbn [bind] in H'. rewrite G in H'.
  pose proof (keep_good E show (KNote (snd pn)) (VStr s) d0 (keepings_known _ _ G) G0) as G1.
  destruct (note_text E show (snd pn) s d0 G0 T V) as (d1 & Hk & S1). rewrite Hk in H', G1. cbn [fst] in G1.
  assert (S : getf (lit (snd pn)) (flds _ d) = getf (lit (snd pn)) (flds _ d1)).
  { apply (set_aside_away E show (lit (snd pn)) rest post A) with (d := d1); [|exact G1|exact H'].
    intros k' x h I' Gk. destruct (N k' x I') as [N1 N2]. now apply (W k'). }
  unfold get. rewrite S, S1. reflexivity.
Qed.
Print Assumptions C135_attributes_kept.
(** Several transfer coefficients of an exchange are kept; of a single one only the names of its attributes
    are, whatever its values. *)
Definition coefficients (e : elem) (ts : list elem) : Prop := record_element e /\ named_kids (lit "transferCoefficient") (ekids e) ts.
Theorem C135_coefficients_kept_partial :
  forall e t1 t2 ts, coefficients e (t1 :: t2 :: ts) ->
    coefficient_jots (dict (elem2dict e)) = map (fun t => JSet (lit "transferCoefficient") (elem2dict t)) (t1 :: t2 :: ts).
Proof.
  intros e t1 t2 ts [R K]. destruct (record_dict e R) as [d Q]. rewrite Q. cbn [dict]. assert (X : xml_name (lit "transferCoefficient")) by xname.
  destruct (kids_read e d "transferCoefficient" R Q X) as (ks & K' & _ & G). rewrite <- (named_one _ _ _ _ K K') in G. unfold coefficient_jots. rewrite G.
  cbn [iterate]. now rewrite map_map.
Qed.
Print Assumptions C135_coefficients_kept_partial.
Theorem C135_single_coefficient_lost_refuted :
  forall e e' t t', coefficients e [t] -> coefficients e' [t'] -> record_element t -> record_element t' ->
    map fst (content (elem2dict t)) = map fst (content (elem2dict t')) ->
    coefficient_jots (dict (elem2dict e)) = coefficient_jots (dict (elem2dict e')).
Proof.
  assert (H : forall e t, coefficients e [t] -> record_element t -> coefficient_jots (dict (elem2dict e)) =
     map (fun k => JSet (lit "transferCoefficient") (VStr k)) (map fst (content (elem2dict t)))).
  { intros e t [R K] Rt. destruct (record_dict e R) as [d Q]. destruct (record_dict t Rt) as [x Qt]. rewrite Q, Qt. cbn [dict content].
    assert (X : xml_name (lit "transferCoefficient")) by xname.
    destruct (kids_read e d "transferCoefficient" R Q X) as (ks & K' & _ & G). rewrite <- (named_one _ _ _ _ K K') in G. unfold coefficient_jots.
    rewrite G, Qt. cbn [iterate]. now rewrite !map_map. }
  intros e e' t t' C C' R R' S. now rewrite (H e t C R), (H e' t' C' R'), S.
Qed.
Print Assumptions C135_single_coefficient_lost_refuted.

(** A data set without the cases of C133 and C134: everything passes. *)
Definition orderly (doc : elem) : Prop :=
  (forall k f, part doc k f ->
     (In k intermediate_paths -> exchange f /\ ~ allocation_context f /\ (exists s, attribute f "id" s) /\ exists s, attribute f "intermediateExchangeId" s) /\
     (In k elementary_paths -> exchange f /\ ~ allocation_context f /\ (exists s, attribute f "id" s) /\ exists s, attribute f "elementaryExchangeId" s) /\
     (In k parameter_paths -> parameter f) /\ (In k review_paths -> review_element f) /\ (In k entry_paths -> by_person f) /\
     (In k generator_paths -> by_person f /\ ~ company_context_only f) /\ (In k file_paths -> record_element f) /\
     (In k context_paths -> required_context f /\ exists s, attribute f "requiredContextFileLocation" s) /\
     (In k scenario_paths -> (exists s, plain_text f s) \/ exists l, language_text f l)) /\
  (forall p f n s, part doc p f -> In (n, s) (eattrib f) -> In (p ++ lit "/@" ++ n) period_paths -> yes_or_no s).
Definition place (k : pystr) (h : keeping) : bool :=
  match h with
  | KNote f => if existsb (N.eqb (ch "@")) k then (takes_text Aside (lit f) || takes_bool Aside (lit f) && str_in k period_paths)%bool
               else takes_any Aside (lit f)
  | KText f => (str_in k scenario_paths && takes_text Aside (lit f))%bool
  | KEntryBy => str_in k entry_paths
  | KGenerator => str_in k generator_paths
  | KFile => str_in k file_paths
  | KContext => str_in k context_paths
  | KReview => str_in k review_paths
  | KIntermediate => str_in k intermediate_paths
  | KElementary => str_in k elementary_paths
  | KParameter => str_in k parameter_paths
  end.
Lemma places k h : getf k keepings = Some h -> place k h = true.
Proof.
  intros G. apply HandleProofs.In_getf in G. assert (C : forallb (fun kh => place (fst kh) (snd kh)) keepings = true) by (vm_compute; reflexivity).
  rewrite forallb_forall in C. exact (C _ G).
Qed.
Definition at_marked (k : pystr) (h : keeping) : bool := match h with KNote _ => true | _ => negb (existsb (N.eqb (ch "@")) k) end.
Lemma places_marked k h : getf k keepings = Some h -> at_marked k h = true.
Proof.
  intros G. apply HandleProofs.In_getf in G. assert (C : forallb (fun kh => at_marked (fst kh) (snd kh)) keepings = true) by (vm_compute; reflexivity).
  rewrite forallb_forall in C. exact (C _ G).
Qed.
(** Element names do not contain '@'. *)
Definition no_at (e : elem) : Prop := forall k f, part e k f -> ~ In (ch "@") k.
Lemma orderly_passes E show doc rest : proper doc -> no_at doc -> orderly doc -> (forall k x, In (k, x) (read ecs_keys doc) -> rest k x = Ok tt) ->
  forall d0, good E d0 -> exists d, set_aside E show rest (read ecs_keys doc) d0 = Ok d.
Proof.
  intros P A [O B] R. apply set_aside_passes; [exact R|]. intros k x h d I K G.
  pose proof (places k h K) as Pl. pose proof (places_marked k h K) as M.
  destruct (read_reported ecs_keys doc k x P I) as [(f & F & ->)|(p & f & m & s & -> & F & J & ->)].
  - destruct (O k f F) as (O1 & O2 & O3 & O4 & O5 & O6 & O7 & O8 & O9). destruct h; cbn [place] in Pl.
    + assert (Q : existsb (N.eqb (ch "@")) k = false).
      { destruct (existsb _ k) eqn:Q; [|reflexivity]. apply existsb_exists in Q. destruct Q as (c & Ic & Qc). apply N.eqb_eq in Qc. subst c. destruct (A k f F Ic). }
      rewrite Q in Pl. cbn [keep]. apply fine_passes; [exact G|]. constructor; [|constructor]. apply any_fine; [exact Pl|].
      apply elem2dict_not_list. clear -P F. induction F as [e n N|t a y l es n k0 p f N Ik Hp IH]; [exact P|]. apply IH. inversion P as [? ? ? ? ? ? ? ? Fk]; subst.
      rewrite Forall_forall in Fk. now apply Fk.
    + apply andb_true_iff in Pl. destruct Pl as [Pl T]. apply str_in_In in Pl. cbn [keep]. apply fine_passes; [exact G|]. constructor; [|constructor].
      apply jot_of_fine; [exact T|]. destruct (O9 Pl) as [[s S]|[l S]]; [rewrite (read_plain _ _ S)|destruct (read_language _ _ S) as [s ->]]; now eexists.
    + apply str_in_In in Pl. specialize (O5 Pl). destruct (record_dict f (proj1 O5)) as [y Q]. rewrite Q. cbn [keep dict]. apply fine_passes; [exact G|]. now apply entry_by_fine with (e := f).
    + apply str_in_In in Pl. destruct (O6 Pl) as [O6' N]. destruct (record_dict f (proj1 O6')) as [y Q]. rewrite Q. cbn [keep dict]. apply fine_passes; [exact G|]. now apply generator_fine with (e := f).
    + apply str_in_In in Pl. specialize (O7 Pl). destruct (record_dict f O7) as [y Q]. rewrite Q. cbn [keep dict]. apply fine_passes; [exact G|]. now apply file_fine with (e := f).
    + apply str_in_In in Pl. destruct (O8 Pl) as [O8' L]. destruct (record_dict f (proj1 O8')) as [y Q]. rewrite Q. cbn [keep dict]. apply fine_passes; [exact G|]. now apply context_fine_ with (e := f).
    + apply str_in_In in Pl. specialize (O4 Pl). destruct (record_dict f (proj1 O4)) as [y Q]. rewrite Q. cbn [keep dict]. apply fine_passes; [exact G|]. now apply review_fine with (e := f).
    + apply str_in_In in Pl. destruct (O1 Pl) as (X & N & I1 & I2). now apply (C133_exchanges_partial E show f d X I1).
    + apply str_in_In in Pl. destruct (O2 Pl) as (X & N & I1 & I2). now apply (C133_exchanges_partial E show f d X I1).
    + apply str_in_In in Pl. apply C133_parameters. now apply O3.
  - assert (Q : existsb (N.eqb (ch "@")) (p ++ lit "/@" ++ m) = true).
    { apply existsb_exists. exists (ch "@"). split; [|reflexivity]. apply in_or_app. right. right. now left. }
    destruct h; unfold at_marked in M; rewrite ?Q in M; try discriminate M. cbn [place] in Pl. rewrite Q in Pl.
    cbn [keep]. apply fine_passes; [exact G|]. constructor; [|constructor]. apply orb_true_iff in Pl. destruct Pl as [Pl|Pl]; [now apply text_fine|].
    apply andb_true_iff in Pl. destruct Pl as [T Pl]. apply str_in_In in Pl. apply bool_fine; [exact T|]. exact (B p f m s F J Pl).
Qed.
Theorem C135_documents_partial :
  forall E show doc rest, proper doc -> no_at doc -> orderly doc -> (forall k x, In (k, x) (read ecs_keys doc) -> rest k x = Ok tt) ->
    exists d, set_aside E show rest (read ecs_keys doc) (note0 E) = Ok d.
Proof. intros E show doc rest P A O R. apply orderly_passes; auto. apply note0_good. Qed.
Print Assumptions C135_documents_partial.
Definition one_coefficient (amount : string) : elem :=
  elem_ "intermediateExchange" [("id", "i1")] [elem_ "transferCoefficient" [("exchangeId", "i2"); ("amount", amount)] []].
Definition sample_activity : elem := activity "activityDescription" (elem_ "activity" [("activityNameId", "n1"); ("specialActivityType", "0")] []).
Example C135_nonvacuous :
  match set_aside sample_env empty_show (fun _ _ => Ok tt) (read ecs_keys sample_activity) (note0 sample_env) with
  | Ok d => match get _ d (lit "activityNameId") with Ok (GVal _ (OText s)) => str_eqb s (lit "n1") | _ => false end
  | Err _ => false
  end = true /\
  (coefficients (one_coefficient "0.5") [elem_ "transferCoefficient" [("exchangeId", "i2"); ("amount", "0.5")] []] /\
   coefficient_jots (dict (elem2dict (one_coefficient "0.5"))) = coefficient_jots (dict (elem2dict (one_coefficient "99")))) /\
  orderly sample_activity.
Proof.
  split; [|split].
  - vmr.
  - split; [|vm_compute; reflexivity]. split; [apply recordb_sound; vm_compute; reflexivity|]. apply nk_take; [now apply name_ok_spec|constructor].
  - assert (X : forall k f, part sample_activity k f -> In k [lit "/ecoSpold"; lit "/ecoSpold/activityDataset"; lit "/ecoSpold/activityDataset/activityDescription";
       lit "/ecoSpold/activityDataset/activityDescription/activity"]).
    { assert (Y : forall e k f, properb e = true -> part e k f -> exists w, at_place e w = Some (k, f)).
      { intros e k f Pe F. induction F as [e n N|t a y l es n kk p f N Ik Hp IH].
        - exists []. cbn. destruct e as [t a y l es]. cbn [properb etag] in *. apply andb_true_iff in Pe. destruct Pe as [Pe _].
          destruct (name_ok_spec _ Pe) as [_ M]. now rewrite <- (name_local _ _ M), (name_local _ _ N).
        - cbn [properb] in Pe. apply andb_true_iff in Pe. destruct Pe as [Nt Fk]. destruct (name_ok_spec _ Nt) as [_ M].
          rewrite forallb_forall in Fk. destruct (IH (Fk _ Ik)) as [w W]. destruct (In_nth_error _ _ Ik) as [i Hi]. exists (i :: w).
          cbn [at_place ekids etag]. rewrite Hi, W. cbn [option_map fst snd]. now rewrite <- (name_local _ _ M), (name_local _ _ N). }
      intros k f F. apply Y in F; [|vm_compute; reflexivity]. destruct F as [w W].
      destruct w as [|[|i] w]; [vm_compute in W; injection W as <- _; vm_compute; tauto| |destruct i; discriminate W].
      destruct w as [|[|i] w]; [vm_compute in W; injection W as <- _; vm_compute; tauto| |destruct i; discriminate W].
      destruct w as [|[|i] w]; [vm_compute in W; injection W as <- _; vm_compute; tauto| |destruct i; discriminate W].
      destruct w as [|i w]; [vm_compute in W; injection W as <- _; vm_compute; tauto|destruct i; discriminate W]. }
    split.
    + intros k f F. specialize (X k f F).
      assert (Z : forall l, forallb (fun q => negb (str_in q l)) [lit "/ecoSpold"; lit "/ecoSpold/activityDataset"; lit "/ecoSpold/activityDataset/activityDescription";
         lit "/ecoSpold/activityDataset/activityDescription/activity"] = true -> ~ In k l).
      { intros l H J. rewrite forallb_forall in H. specialize (H k X). apply negb_true_iff in H. apply str_in_In in J. congruence. }
      do 8 (split; [intros J; exfalso; revert J; apply Z; vm_compute; reflexivity|]). intros J; exfalso; revert J; apply Z; vm_compute; reflexivity.
    + intros p f n s F I J. specialize (X p f F). exfalso.
      repeat (destruct X as [<-|X]; [repeat (destruct J as [J|J]; [vm_compute in J; discriminate J|]); destruct J|]). destruct X.
Qed.
