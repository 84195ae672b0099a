(** C122, C123: elements of a data set that stop a conversion. *)
From Coq Require Import Ascii String List Bool Arith NArith ZArith Lia.
From Verif Require Import PyBase PyBaseFacts PyValues MultiLangModel DotDictModel XmlModel XmlSpec XmlProofs KeysModel
  KeysSpec KeysProofs HandleModel HandleSpec HandleProofs.
Import ListNotations.
Local Open Scope string_scope.
Local Open Scope list_scope.

(** The conversion of a data set raises an exception, whatever the handlers do with the values they accept. *)
Definition stops (uses : list (pystr * use)) (keys : list pystr) (doc : elem) : Prop :=
  forall rest, exists e, run uses rest (read keys doc) = Err e.
(** The handler of the path accepts the form of the element. *)
Definition accepts (uses : list (pystr * use)) (k : pystr) (f : elem) : Prop :=
  exists u, In (k, u) uses /\ demand u (elem2dict f) = Ok tt.

(** Handlers that do not look up parts of their value (references, reviews, variables, exchanges do). *)
Definition by_parts (uses : list (pystr * use)) (k : pystr) : Prop := In (k, UParts) uses.
Definition check (uses : list (pystr * use)) (ok : pystr -> use -> bool) : bool :=
  forallb (fun ku => ok (fst ku) (snd ku)) uses.
Lemma check_spec uses ok : check uses ok = true -> forall k u, In (k, u) uses -> ok k u = true.
Proof. unfold check. rewrite forallb_forall. intros H k u I. exact (H (k, u) I). Qed.
Lemma some_use (uses : list (pystr * use)) k : In k (map fst uses) -> exists u, In (k, u) uses.
Proof. intros I. apply in_map_iff in I. destruct I as ([k' u] & E & I). cbn in E. subst. now exists u. Qed.
Lemma one_use (uses : list (pystr * use)) k u u' : NoDup (map fst uses) -> In (k, u) uses -> In (k, u') uses -> u = u'.
Proof. intros D A B. apply (getf_In _ _ _ D) in A, B. congruence. Qed.

(** * C122: texts *)
(** Fields whose text is only found beside a language (x['#text']); the registration number has no
    language in ILCD. *)
Definition needs_language : list pystr := map lit
  ["/processDataSet/processInformation/dataSetInformation/name/baseName";
   "/processDataSet/processInformation/dataSetInformation/synonyms";
   "/processDataSet/modellingAndValidation/LCIMethodAndAllocation/deviationsFromLCIMethodPrinciple";
   "/processDataSet/modellingAndValidation/dataSourcesTreatmentAndRepresentativeness/deviationsFromCutOffAndCompletenessPrinciples";
   "/processDataSet/modellingAndValidation/dataSourcesTreatmentAndRepresentativeness/deviationsFromSelectionAndCombinationPrinciples";
   "/processDataSet/modellingAndValidation/dataSourcesTreatmentAndRepresentativeness/deviationsFromTreatmentAndExtrapolationPrinciples";
   "/processDataSet/administrativeInformation/publicationAndOwnership/registrationNumber";
   "/processDataSet/administrativeInformation/publicationAndOwnership/accessRestrictions"].
Definition use_is_index (u : use) : bool := match u with UIndex => true | _ => false end.
Definition is_parts (u : use) : bool := match u with UParts => true | _ => false end.
Lemma index_keys : check ilcd_uses (fun k u => Bool.eqb (use_is_index u) (str_in k needs_language)) = true.
Proof. vm_compute. reflexivity. Qed.
Lemma ilcd_no_items : check ilcd_uses (fun k u => match u with UItems => false | _ => true end) = true.
Proof. vm_compute. reflexivity. Qed.
(** An ILCD element with a text and no attributes is accepted by its handler exactly if it is not one of
    these eight. *)
Theorem C122_plain_texts_partial :
  forall k f s, In k ilcd_keys -> ~ by_parts ilcd_uses k -> plain_text f s ->
    (accepts ilcd_uses k f <-> ~ In k needs_language).
Proof.
  intros k f s I P T. rewrite <- ilcd_table_keys in I. destruct (some_use _ _ I) as [u U].
  pose proof (check_spec _ _ index_keys k u U) as X. pose proof (check_spec _ _ ilcd_no_items k u U) as Y.
  cbv beta in X, Y. apply eqb_prop in X. unfold accepts. rewrite (read_plain _ _ T). split.
  - intros (u' & U' & D) N. assert (u' = u) by (apply (one_use _ _ _ _ ilcd_distinct U' U)). subst u'.
    apply str_in_In in N. rewrite N in X. destruct u; discriminate.
  - intros N. exists u. split; [exact U|]. destruct u; try reflexivity; try discriminate.
    destruct N. apply str_in_In. now rewrite <- X.
Qed.
Print Assumptions C122_plain_texts_partial.
(** With one of the eight a whole data set is not converted. *)
Theorem C122_plain_text_stops_refuted :
  forall doc k f s, In k needs_language -> proper doc -> part doc k f -> plain_text f s -> stops ilcd_uses ilcd_keys doc.
Proof.
  intros doc k f s N P F T rest.
  assert (I : In k ilcd_keys).
  { assert (E : forallb (fun k => str_in k ilcd_keys) needs_language = true) by (vm_compute; reflexivity).
    rewrite forallb_forall in E. now apply str_in_In, E. }
  pose proof I as J. rewrite <- ilcd_table_keys in J. destruct (some_use _ _ J) as [u U].
  pose proof (check_spec _ _ index_keys k u U) as X. cbv beta in X. apply eqb_prop in X.
  apply str_in_In in N. rewrite N in X. destruct u; try discriminate.
  apply (run_stops _ rest k UIndex (VStr s) _ TypeError (getf_In _ _ _ ilcd_distinct U) eq_refl).
  rewrite <- (read_plain _ _ T). now apply part_read.
Qed.
Print Assumptions C122_plain_text_stops_refuted.
(** With a language, all texts are accepted, even empty ones: fields with texts are those that are not
    codes, numbers, dates or identifiers. *)
Definition ilcd_codes : list pystr := map lit
  ["/processDataSet/processInformation/dataSetInformation/UUID";
   "/processDataSet/processInformation/dataSetInformation/identifierOfSubDataSet";
   "/processDataSet/processInformation/quantitativeReference/type";
   "/processDataSet/processInformation/time/referenceYear";
   "/processDataSet/processInformation/time/dataSetValidUntil";
   "/processDataSet/processInformation/geography/locationOfOperationSupplyOrProduction/@location";
   "/processDataSet/processInformation/geography/locationOfOperationSupplyOrProduction/@latituteAndLongitude";
   "/processDataSet/modellingAndValidation/LCIMethodAndAllocation/typeOfDataSet";
   "/processDataSet/modellingAndValidation/LCIMethodAndAllocation/LCIMethodPrinciple";
   "/processDataSet/modellingAndValidation/LCIMethodAndAllocation/LCIMethodApproaches";
   "/processDataSet/modellingAndValidation/dataSourcesTreatmentAndRepresentativeness/percentageSupplyOrProductionCovered";
   "/processDataSet/administrativeInformation/dataEntryBy/timeStamp";
   "/processDataSet/administrativeInformation/publicationAndOwnership/dateOfLastRevision";
   "/processDataSet/administrativeInformation/publicationAndOwnership/dataSetVersion";
   "/processDataSet/administrativeInformation/publicationAndOwnership/permanentDataSetURI";
   "/processDataSet/administrativeInformation/publicationAndOwnership/workflowAndPublication";
   "/processDataSet/administrativeInformation/publicationAndOwnership/copyright";
   "/processDataSet/administrativeInformation/publicationAndOwnership/licenseType"].
Lemma code_keys : check ilcd_uses (fun k u => match u with
  | UNote | UConcat | USplit | ULookup | UValue _ | UItems => str_in k ilcd_codes | _ => true end) = true.
Proof. vm_compute. reflexivity. Qed.
Lemma demand_language u l s :
  match u with UNote | UConcat | USplit | ULookup | UValue _ => False | _ => True end ->
  demand u (VDict [(klang, VStr l); (ktext, VStr s)]) = Ok tt.
Proof. destruct u; cbn; try contradiction; intros _; reflexivity. Qed.
Theorem C122_texts_with_language :
  forall k f l, In k ilcd_keys -> ~ In k ilcd_codes -> language_text f l -> accepts ilcd_uses k f.
Proof.
  intros k f l I N T. rewrite <- ilcd_table_keys in I. destruct (some_use _ _ I) as [u U]. exists u. split; [exact U|].
  destruct (read_language _ _ T) as [s ->]. apply demand_language.
  pose proof (check_spec _ _ code_keys k u U) as X. cbv beta in X. destruct u; trivial; apply N, str_in_In, X.
Qed.
Print Assumptions C122_texts_with_language.
(** EcoSpold2 texts are accepted with and without a language. *)
Definition ecs_texts : list pystr := map lit
  ["/ecoSpold/activityDataset/activityDescription/activity/activityName";
   "/ecoSpold/activityDataset/activityDescription/activity/synonym";
   "/ecoSpold/activityDataset/activityDescription/activity/includedActivitiesStart";
   "/ecoSpold/activityDataset/activityDescription/activity/includedActivitiesEnd";
   "/ecoSpold/activityDataset/activityDescription/geography/shortname";
   "/ecoSpold/activityDataset/activityDescription/macroEconomicScenario/name";
   "/ecoSpold/activityDataset/activityDescription/macroEconomicScenario/comment";
   "/ecoSpold/activityDataset/modellingAndValidation/representativeness/systemModelName";
   "/ecoSpold/activityDataset/modellingAndValidation/representativeness/samplingProcedure";
   "/ecoSpold/activityDataset/modellingAndValidation/representativeness/extrapolations"].
Definition for_child (k : pystr) : pystr := replace (lit "activityDataset") (lit "childActivityDataset") k.
Definition all_texts : list pystr := ecs_texts ++ map for_child ecs_texts.
Lemma ecs_text_keys : check ecs_uses (fun k u => Bool.eqb (match u with UText => true | _ => false end) (str_in k all_texts)) = true.
Proof. vm_compute. reflexivity. Qed.
Lemma ecs_texts_asked : forallb (fun k => str_in k ecs_keys) all_texts = true.
Proof. vm_compute. reflexivity. Qed.
Lemma ecs_text_use k : In k all_texts -> In (k, UText) ecs_uses.
Proof.
  intros N. pose proof ecs_texts_asked as A. rewrite forallb_forall in A. specialize (A k N). apply str_in_In in A.
  rewrite <- ecs_table_keys in A. destruct (some_use _ _ A) as [u U].
  pose proof (check_spec _ _ ecs_text_keys k u U) as X. cbv beta in X. apply eqb_prop in X. apply str_in_In in N.
  rewrite N in X. destruct u; try discriminate. exact U.
Qed.
Theorem C122_ecs_texts :
  forall k f, In k all_texts -> (exists s, plain_text f s) \/ (exists l, language_text f l) -> accepts ecs_uses k f.
Proof.
  intros k f N T. exists UText. split; [now apply ecs_text_use|]. destruct T as [[s T]|[l T]].
  - now rewrite (read_plain _ _ T).
  - destruct (read_language _ _ T) as [s ->]. reflexivity.
Qed.
Print Assumptions C122_ecs_texts.

(** * C123: empty elements *)
Definition may_be_empty : list pystr := map lit
  ["/processDataSet/processInformation/dataSetInformation/complementingProcesses";
   "/processDataSet/processInformation/dataSetInformation/classificationInformation/classification";
   "/processDataSet/processInformation/quantitativeReference/referenceToReferenceFlow";
   "/processDataSet/processInformation/quantitativeReference/functionalUnitOrOther";
   "/processDataSet/processInformation/geography/subLocationOfOperationSupplyOrProduction";
   "/processDataSet/processInformation/technology/referenceToIncludedProcesses";
   "/processDataSet/modellingAndValidation/LCIMethodAndAllocation/referenceToLCAMethodDetails";
   "/processDataSet/modellingAndValidation/dataSourcesTreatmentAndRepresentativeness/referenceToDataHandlingPrinciples";
   "/processDataSet/modellingAndValidation/dataSourcesTreatmentAndRepresentativeness/referenceToDataSource";
   "/processDataSet/modellingAndValidation/dataSourcesTreatmentAndRepresentativeness/annualSupplyOrProductionVolume";
   "/processDataSet/modellingAndValidation/completeness";
   "/processDataSet/modellingAndValidation/complianceDeclarations/compliance";
   "/processDataSet/administrativeInformation/dataEntryBy/referenceToDataSetFormat";
   "/processDataSet/administrativeInformation/dataEntryBy/referenceToConvertedOriginalDataSetFrom";
   "/processDataSet/administrativeInformation/dataEntryBy/referenceToDataSetUseApproval";
   "/processDataSet/administrativeInformation/publicationAndOwnership/referenceToPrecedingDataSetVersion";
   "/processDataSet/administrativeInformation/publicationAndOwnership/referenceToRegistrationAuthority";
   "/processDataSet/administrativeInformation/publicationAndOwnership/referenceToOwnershipOfDataSet"].
Definition any_or_parts (u : use) : bool := match u with UAny | UParts | UItems => true | _ => false end.
Lemma demand_empty u : demand u (VDict []) = Ok tt <-> any_or_parts u = true.
Proof. destruct u; cbn; split; intros; try reflexivity; try discriminate. Qed.
Lemma demand_empty_err u : any_or_parts u = false -> exists e, demand u (VDict []) = Err e.
Proof. destruct u; cbn; intros; try discriminate; now eexists. Qed.
Lemma empty_keys : check ilcd_uses (fun k u => match u with UParts => true | _ => Bool.eqb (any_or_parts u) (str_in k may_be_empty) end) = true.
Proof. vm_compute. reflexivity. Qed.
(** An empty element is accepted exactly in fields whose content is not used anyway. *)
Theorem C123_empty_accepted_partial :
  forall k f, In k ilcd_keys -> ~ by_parts ilcd_uses k -> empty_element f ->
    (accepts ilcd_uses k f <-> In k may_be_empty).
Proof.
  intros k f I P T. rewrite <- ilcd_table_keys in I. destruct (some_use _ _ I) as [u U].
  pose proof (check_spec _ _ empty_keys k u U) as X. cbv beta in X.
  assert (Y : any_or_parts u = str_in k may_be_empty).
  { destruct u; try (apply eqb_prop, X). now destruct P. }
  unfold accepts. rewrite (read_empty _ T), <- str_in_In, <- Y, <- demand_empty. split.
  - intros (u' & U' & D). now rewrite <- (one_use _ _ _ _ ilcd_distinct U' U).
  - intros D. now exists u.
Qed.
Print Assumptions C123_empty_accepted_partial.
(** In any other field an empty element ends the conversion, though it says nothing. *)
Theorem C123_empty_stops_refuted :
  forall doc k f, In k ilcd_keys -> ~ by_parts ilcd_uses k -> ~ In k may_be_empty ->
    proper doc -> part doc k f -> empty_element f -> stops ilcd_uses ilcd_keys doc.
Proof.
  intros doc k f I P N D F T rest. pose proof I as J. rewrite <- ilcd_table_keys in J. destruct (some_use _ _ J) as [u U].
  pose proof (check_spec _ _ empty_keys k u U) as X. cbv beta in X.
  assert (Y : any_or_parts u = false).
  { destruct (str_in k may_be_empty) eqn:Q; [apply str_in_In in Q; contradiction|].
    destruct u; try (apply eqb_prop, X). now destruct P. }
  destruct (demand_empty_err u Y) as [e E].
  apply (run_stops _ rest k u (VDict []) _ e (getf_In _ _ _ ilcd_distinct U) E).
  rewrite <- (read_empty _ T). now apply part_read.
Qed.
Print Assumptions C123_empty_stops_refuted.
Theorem C123_ecs_empty_stops_refuted :
  forall doc k f, In k all_texts -> proper doc -> part doc k f -> empty_element f -> stops ecs_uses ecs_keys doc.
Proof.
  intros doc k f N D F T rest.
  apply (run_stops _ rest k UText (VDict []) _ KeyError (getf_In _ _ _ ecs_distinct (ecs_text_use k N)) eq_refl).
  rewrite <- (read_empty _ T). apply part_read; [exact D|exact F|].
  pose proof ecs_texts_asked as A. rewrite forallb_forall in A. now apply str_in_In, A.
Qed.
Print Assumptions C123_ecs_empty_stops_refuted.
(** Comments with texts, images and variables may be empty. *)
Definition ecs_comments : list pystr := map lit
  ["/ecoSpold/activityDataset/activityDescription/activity/allocationComment";
   "/ecoSpold/activityDataset/activityDescription/activity/generalComment";
   "/ecoSpold/activityDataset/activityDescription/geography/comment";
   "/ecoSpold/activityDataset/activityDescription/technology/comment";
   "/ecoSpold/activityDataset/activityDescription/timePeriod/comment"].
Theorem C123_ecs_comments_may_be_empty :
  forall k f, In k (ecs_comments ++ map for_child ecs_comments) -> empty_element f -> accepts ecs_uses k f.
Proof.
  intros k f N T.
  assert (E : forallb (fun k => existsb (fun ku => (str_eqb (fst ku) k && match snd ku with UItems => true | _ => false end)%bool) ecs_uses)
                      (ecs_comments ++ map for_child ecs_comments) = true) by (vm_compute; reflexivity).
  rewrite forallb_forall in E. specialize (E k N). apply existsb_exists in E. destruct E as ([k' u] & U & B).
  cbn in B. apply andb_true_iff in B. destruct B as [B1 B2]. apply str_eqb_eq in B1. subst k'. exists u. split; [exact U|].
  rewrite (read_empty _ T). now destruct u.
Qed.
Print Assumptions C123_ecs_comments_may_be_empty.

(** * Examples *)
Definition process_with (f : elem) : elem :=
  Elem (lit "{http://lca.jrc.it/ILCD/Process}processDataSet") [] None None
    [Elem (lit "administrativeInformation") [] None None
      [Elem (lit "publicationAndOwnership") [] None None [f]]].
Definition number_elem : elem := Elem (lit "{http://lca.jrc.it/ILCD/Common}registrationNumber") [] (Some (lit "4711")) None [].
Definition address_elem : elem := Elem (lit "{http://lca.jrc.it/ILCD/Common}permanentDataSetURI") [] None None [].
Lemma in_process f n : name_of (etag f) n ->
  part (process_with f) (lit "/processDataSet/administrativeInformation/publicationAndOwnership/" ++ n) f.
Proof.
  intros N. unfold process_with.
  eapply (part_kid _ _ _ _ _ (lit "processDataSet") _ (lit "/administrativeInformation/publicationAndOwnership/" ++ n)); [|left; reflexivity|].
  { split; [cbn; intuition discriminate|]. right. now exists (lit "http://lca.jrc.it/ILCD/Process"). }
  eapply (part_kid _ _ _ _ _ (lit "administrativeInformation") _ (lit "/publicationAndOwnership/" ++ n)); [|left; reflexivity|].
  { split; [cbn; intuition discriminate|]. now left. }
  eapply (part_kid _ _ _ _ _ (lit "publicationAndOwnership") _ (lit "/" ++ n)); [|left; reflexivity|].
  { split; [cbn; intuition discriminate|]. now left. }
  now apply part_self.
Qed.
Lemma process_proper f n : name_of (etag f) n -> xml_name n -> ekids f = [] -> proper (process_with f).
Proof.
  assert (X : forall s, s <> [] -> ~ In (ch "/") s -> hd (ch "a") s <> ch "@" -> hd (ch "a") s <> ch "#" -> xml_name s).
  { intros s A B C D. split; [exact A|]. split; [exact B|]. split; intros r ->; [now apply C|now apply D]. }
  intros N M K. unfold process_with.
  apply (proper_elem _ _ _ _ _ (lit "processDataSet")).
  { split; [cbn; intuition discriminate|]. right. now exists (lit "http://lca.jrc.it/ILCD/Process"). }
  { apply X; cbn; intuition discriminate. }
  constructor; [|constructor]. apply (proper_elem _ _ _ _ _ (lit "administrativeInformation")).
  { split; [cbn; intuition discriminate|]. now left. } { apply X; cbn; intuition discriminate. }
  constructor; [|constructor]. apply (proper_elem _ _ _ _ _ (lit "publicationAndOwnership")).
  { split; [cbn; intuition discriminate|]. now left. } { apply X; cbn; intuition discriminate. }
  constructor; [|constructor]. destruct f as [t a x l ks]. cbn in K. subst. now apply (proper_elem _ _ _ _ _ n).
Qed.
Example C122_nonvacuous : stops ilcd_uses ilcd_keys (process_with number_elem)
  /\ plain_text number_elem (lit "4711")
  /\ accepts ilcd_uses (lit "/processDataSet/processInformation/dataSetInformation/generalComment") number_elem.
Proof.
  assert (T : plain_text number_elem (lit "4711")).
  { repeat split. cbn. intros B. inversion B as [|? ? H]; subst. discriminate. }
  assert (N : name_of (etag number_elem) (lit "registrationNumber")).
  { split; [cbn; intuition discriminate|]. right. now exists (lit "http://lca.jrc.it/ILCD/Common"). }
  repeat split.
  - apply (C122_plain_text_stops_refuted _ (lit "/processDataSet/administrativeInformation/publicationAndOwnership/registrationNumber")
      number_elem (lit "4711")); [apply str_in_In; vm_compute; reflexivity| |exact (in_process _ _ N)|exact T].
    apply (process_proper _ _ N); [|reflexivity]. split; [discriminate|]. split; [cbn; intuition discriminate|].
    split; intros r; discriminate.
  - apply T.
  - exists UText. split; [|reflexivity]. apply In_getf. vm_compute. reflexivity.
Qed.
Example C123_nonvacuous : stops ilcd_uses ilcd_keys (process_with address_elem) /\ empty_element address_elem.
Proof.
  assert (N : name_of (etag address_elem) (lit "permanentDataSetURI")).
  { split; [cbn; intuition discriminate|]. right. now exists (lit "http://lca.jrc.it/ILCD/Common"). }
  split; [|repeat split].
  apply (C123_empty_stops_refuted _ (lit "/processDataSet/administrativeInformation/publicationAndOwnership/permanentDataSetURI") address_elem).
  - apply str_in_In. vm_compute. reflexivity.
  - intros P. apply (getf_In _ _ _ ilcd_distinct) in P. vm_compute in P. discriminate.
  - intros I. apply str_in_In in I. vm_compute in I. discriminate.
  - apply (process_proper _ _ N); [|reflexivity]. split; [discriminate|]. split; [cbn; intuition discriminate|].
    split; intros r; discriminate.
  - exact (in_process _ _ N).
  - repeat split.
Qed.
