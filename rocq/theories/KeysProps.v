(** C81, C119-C121: which parts of a data set reach the conversion. *)
From Coq Require Import Ascii String List Bool Arith NArith ZArith Lia.
From Verif Require Import PyBase PyBaseFacts PyValues MultiLangModel DotDictModel SchemaModel SchemaTables
  XmlModel XmlSpec XmlProofs ConverterModel KeysModel KeysSpec KeysProofs.
Import ListNotations.
Local Open Scope string_scope.
Local Open Scope list_scope.

(** A handler is stored under a path; it can run if some data set of the format makes the reader report
    that path. *)
Definition can_run (top : shape) (keys : list pystr) (k : pystr) : Prop :=
  exists e v, document top e /\ In (k, v) (read keys e).
Definition ilcd_format (top : shape) : Prop := top = ilcd_shape \/ top = olca_shape.

(** * C81: ILCD data sets *)
(** ILCD1_to_ECS2_conversion.py: "type" is an attribute, the other three names are misspelt. *)
Definition dead_keys : list pystr := map lit
  ["/processDataSet/processInformation/quantitativeReference/type";
   "/processDataSet/processInformation/geography/locationOfOperationSupplyOrProduction/@latituteAndLongitude";
   "/processDataSet/processInformation/technology/technologyApplicability";
   "/processDataSet/administrativeInformation/publicationAndOwnership/workflowAndPublication"].
(** The fields these handlers are meant for, and the commissioner, whose handler is commented out
    (lines 1848-1850). *)
Definition lost_fields : list pystr := map lit
  ["/processDataSet/processInformation/quantitativeReference/@type";
   "/processDataSet/processInformation/geography/locationOfOperationSupplyOrProduction/@latitudeAndLongitude";
   "/processDataSet/processInformation/technology/technologicalApplicability";
   "/processDataSet/administrativeInformation/publicationAndOwnership/workflowAndPublicationStatus";
   "/processDataSet/administrativeInformation/commissionerAndGoal/referenceToCommissioner"].

Lemma ilcd_names : names_ok ilcd_shape = true /\ names_ok olca_shape = true /\ no_brace ilcd_keys = true.
Proof. repeat split; vm_compute; reflexivity. Qed.
Lemma ilcd_facts top : ilcd_format top -> names_ok top = true /\ s_attrs top = [].
Proof.
  destruct ilcd_names as (A & B & _). intros [->| ->]; (split; [assumption|vm_compute; reflexivity]).
Qed.
Lemma dec_spec keys dead top : forallb (fun k => Bool.eqb (routeb top k) (negb (str_in k dead))) keys = true ->
  forall k, In k keys /\ route top k <-> In k keys /\ ~ In k dead.
Proof.
  rewrite forallb_forall. intros H k. split; intros [I J]; (split; [exact I|]); apply H, eqb_prop in I.
  - intros D. apply routeb_spec in J. apply str_in_In in D. rewrite J, D in I. discriminate.
  - apply routeb_spec. rewrite I. destruct (str_in k dead) eqn:D; [|reflexivity]. apply str_in_In in D. contradiction.
Qed.
Lemma dec_spec_all keys top : forallb (routeb top) keys = true -> forall k, In k keys /\ route top k <-> In k keys.
Proof.
  rewrite forallb_forall. intros H k. split; [now intros [I _]|]. intros I. split; [exact I|]. now apply routeb_spec, H.
Qed.
(** A handler of the ILCD mapping can run exactly if it is not one of these four. *)
Theorem C81_handlers_can_run_partial :
  forall top k, ilcd_format top -> (can_run top ilcd_keys k <-> In k ilcd_keys /\ ~ In k dead_keys).
Proof.
  intros top k F. unfold can_run. destruct (ilcd_facts top F) as [N A].
  rewrite (reachable ilcd_keys top N A (no_brace_spec _ (proj2 (proj2 ilcd_names)))). apply dec_spec.
  destruct F as [->| ->]; vm_compute; reflexivity.
Qed.
Print Assumptions C81_handlers_can_run_partial.
Theorem C81_dead_handlers_refuted :
  forall k, In k dead_keys -> In k ilcd_keys /\
    forall top e v, ilcd_format top -> document top e -> ~ In (k, v) (read ilcd_keys e).
Proof.
  intros k D. split.
  - assert (E : forallb (fun k => str_in k ilcd_keys) dead_keys = true) by (vm_compute; reflexivity).
    rewrite forallb_forall in E. now apply str_in_In, E.
  - intros top e v F De I. destruct (C81_handlers_can_run_partial top k F) as [H _]. destruct H as [_ H]; [now exists e, v|].
    contradiction.
Qed.
Print Assumptions C81_dead_handlers_refuted.
(** Two documents that differ in these five fields only are read alike: publication status, technological
    applicability, coordinates, type of the reference and commissioner never reach the conversion. *)
Theorem C81_fields_lost_refuted :
  forall e e', proper e -> proper e' -> alike_documents lost_fields e e' -> read ilcd_keys e = read ilcd_keys e'.
Proof. intros e e'. apply alike_read. apply unaskedb_spec. vm_compute. reflexivity. Qed.
Print Assumptions C81_fields_lost_refuted.
(** Nothing else is lost: every other field of the format is asked for, or is inside or around something
    asked for; outside there are only three attributes of the root. *)
Definition root_attributes : list pystr := map lit
  ["/processDataSet/@version"; "/processDataSet/@locations"; "/processDataSet/@metaDataOnly"].
Theorem C81_other_fields_read_partial :
  forall top p, ilcd_format top -> route top p -> outside (lost_fields ++ root_attributes) p -> touched ilcd_keys p.
Proof. intros top p F. apply outside_touched; destruct F as [->| ->]; vm_compute; reflexivity. Qed.
Print Assumptions C81_other_fields_read_partial.

(** Two documents with different publication status. *)
Definition el (n : string) (es : list elem) : elem := Elem (lit n) [] None None es.
Definition with_status (s : string) : elem :=
  el "processDataSet" [el "administrativeInformation" [el "publicationAndOwnership"
    [Elem (lit "workflowAndPublicationStatus") [] (Some (lit s)) None [];
     Elem (lit "copyright") [] (Some (lit "true")) None []]]].
Ltac named := apply name_ok_spec; vm_compute; reflexivity.
Ltac member := apply str_in_In; vm_compute; reflexivity.
Lemma with_status_document s : document ilcd_shape (with_status s).
Proof. apply documentb_sound. vm_compute. reflexivity. Qed.
Example C81_nonvacuous :
  document ilcd_shape (with_status "Final draft for internal review") /\
  with_status "Working draft" <> with_status "Final draft for internal review" /\
  alike_documents lost_fields (with_status "Working draft") (with_status "Final draft for internal review") /\
  read ilcd_keys (with_status "Working draft")
    = [(lit "/processDataSet/administrativeInformation/publicationAndOwnership/copyright", VStr (lit "true"))] /\
  can_run ilcd_shape ilcd_keys (lit "/processDataSet/administrativeInformation/publicationAndOwnership/copyright").
Proof.
  split; [apply with_status_document|]. split; [discriminate|]. split; [|split].
  - split; [reflexivity|]. exists (lit "processDataSet"). split; [named|].
    constructor; [constructor|]. apply (alike_both _ _ _ _ (lit "administrativeInformation")); [named|reflexivity| |constructor].
    constructor; [constructor|]. apply (alike_both _ _ _ _ (lit "publicationAndOwnership")); [named|reflexivity| |constructor].
    constructor; [constructor|].
    apply (alike_drop _ _ _ (lit "workflowAndPublicationStatus")); [named|member|].
    apply (alike_add _ _ _ (lit "workflowAndPublicationStatus")); [named|member|].
    apply (alike_both _ _ _ _ (lit "copyright")); [named|reflexivity| |constructor]. constructor; constructor.
  - vm_compute. reflexivity.
  - exists (with_status "Working draft"), (VStr (lit "true")). split; [apply with_status_document|vm_compute; now left].
Qed.

(** * C119: EcoSpold 2 data sets *)
Lemma ecs_names : names_ok ecs_shape = true /\ no_brace ecs_keys = true.
Proof. split; vm_compute; reflexivity. Qed.
(** Every handler of the EcoSpold 2 mapping can run, for activity and child data sets. *)
Theorem C119_handlers_can_run : forall k, can_run ecs_shape ecs_keys k <-> In k ecs_keys.
Proof.
  intros k. unfold can_run. destruct ecs_names as [N B].
  rewrite (reachable ecs_keys ecs_shape N eq_refl (no_brace_spec _ B)).
  apply dec_spec_all. vm_compute. reflexivity.
Qed.
Print Assumptions C119_handlers_can_run.
(** The same request is made for both kinds of data set. *)
Theorem C119_child_alike :
  forall p, In (lit "/ecoSpold/activityDataset" ++ p) ecs_keys <-> In (lit "/ecoSpold/childActivityDataset" ++ p) ecs_keys.
Proof.
  assert (E : ecs_keys = map (app (lit "/ecoSpold/activityDataset")) (map (skipn 25) ecs_base_keys)
                         ++ map (app (lit "/ecoSpold/childActivityDataset")) (map (skipn 25) ecs_base_keys))
    by (vm_compute; reflexivity).
  intros p. rewrite E, !in_app_iff, !in_map_iff. split; intros [(x & X & I)|(x & X & I)].
  - right. exists x. split; [|exact I]. now apply app_inv_head in X as ->.
  - exfalso. change (lit "/ecoSpold/childActivityDataset") with (lit "/ecoSpold/" ++ lit "childActivityDataset") in X.
    change (lit "/ecoSpold/activityDataset") with (lit "/ecoSpold/" ++ lit "activityDataset") in X.
    rewrite <- !app_assoc in X. apply app_inv_head in X. discriminate.
  - exfalso. change (lit "/ecoSpold/childActivityDataset") with (lit "/ecoSpold/" ++ lit "childActivityDataset") in X.
    change (lit "/ecoSpold/activityDataset") with (lit "/ecoSpold/" ++ lit "activityDataset") in X.
    rewrite <- !app_assoc in X. apply app_inv_head in X. discriminate.
  - left. exists x. split; [|exact I]. now apply app_inv_head in X as ->.
Qed.
Print Assumptions C119_child_alike.
(** Impact indicators and the user master data are never read. *)
Definition ignored_parts : list pystr := map lit
  ["/ecoSpold/activityDataset/flowData/impactIndicator";
   "/ecoSpold/childActivityDataset/flowData/impactIndicator";
   "/ecoSpold/usedUserMasterData"].
Theorem C119_parts_ignored_refuted :
  forall e e', proper e -> proper e' -> alike_documents ignored_parts e e' -> read ecs_keys e = read ecs_keys e'.
Proof. intros e e'. apply alike_read. apply unaskedb_spec. vm_compute. reflexivity. Qed.
Print Assumptions C119_parts_ignored_refuted.
Theorem C119_other_fields_read_partial :
  forall p, route ecs_shape p -> outside ignored_parts p -> touched ecs_keys p.
Proof. apply outside_touched; vm_compute; reflexivity. Qed.
Print Assumptions C119_other_fields_read_partial.
Definition with_unit (s : string) : elem :=
  el "ecoSpold" [el "activityDataset" [el "activityDescription" [el "activity" [el "tag" []]]];
                 el "usedUserMasterData" [el "units" [Elem (lit "name") [] (Some (lit s)) None []]]].
Example C119_nonvacuous :
  document ecs_shape (with_unit "kg") /\
  with_unit "kg" <> with_unit "t" /\ alike_documents ignored_parts (with_unit "kg") (with_unit "t") /\
  read ecs_keys (with_unit "kg") = [(lit "/ecoSpold/activityDataset/activityDescription/activity/tag", VDict [])].
Proof.
  split; [|split; [discriminate|split]].
  - apply documentb_sound. vm_compute. reflexivity.
  - split; [reflexivity|]. exists (lit "ecoSpold"). split; [named|]. constructor; [constructor|].
    apply (alike_both _ _ _ _ (lit "activityDataset")); [named|reflexivity| |].
    + constructor; [constructor|]. apply (alike_both _ _ _ _ (lit "activityDescription")); [named|reflexivity| |constructor].
      constructor; [constructor|]. apply (alike_both _ _ _ _ (lit "activity")); [named|reflexivity| |constructor].
      constructor; [constructor|]. apply (alike_both _ _ _ _ (lit "tag")); [named|reflexivity| |constructor].
      constructor; constructor.
    + apply (alike_drop _ _ _ (lit "usedUserMasterData")); [named|member|].
      apply (alike_add _ _ _ (lit "usedUserMasterData")); [named|member|]. constructor.
  - vm_compute. reflexivity.
Qed.

(** * C120: replacing the flows of an ILCD data set *)
Theorem C120_whole_data_set_read :
  forall top, ilcd_format top ->
    (forall k, can_run top remap_keys k <-> In k remap_keys) /\
    (forall p, route top p -> outside root_attributes p -> touched remap_keys p).
Proof.
  intros top F. destruct (ilcd_facts top F) as [N A]. split.
  - intros k. unfold can_run. rewrite (reachable remap_keys top N A).
    + apply dec_spec_all. destruct F as [->| ->]; vm_compute; reflexivity.
    + apply no_brace_spec. vm_compute. reflexivity.
  - apply outside_touched;
    destruct F as [->| ->]; vm_compute; reflexivity.
Qed.
Print Assumptions C120_whole_data_set_read.
(** No part is passed on twice: the requested parts lie beside each other. *)
Theorem C120_parts_disjoint :
  forall k k', In k remap_keys -> In k' remap_keys -> ~ below k k'.
Proof.
  intros k k' I I' B. apply belowb_spec in B.
  assert (E : forallb (fun k => forallb (fun k' => negb (belowb k k')) remap_keys) remap_keys = true) by (vm_compute; reflexivity).
  rewrite forallb_forall in E. apply E in I. rewrite forallb_forall in I. apply I in I'. now rewrite B in I'.
Qed.
Print Assumptions C120_parts_disjoint.
Example C120_nonvacuous :
  route ilcd_shape (lit "/processDataSet/processInformation/technology/technologicalApplicability") /\
  can_run ilcd_shape remap_keys (lit "/processDataSet/processInformation/technology").
Proof.
  split.
  - apply routeb_spec. vm_compute. reflexivity.
  - apply (proj1 (C120_whole_data_set_read ilcd_shape (or_introl eq_refl))). apply str_in_In. vm_compute. reflexivity.
Qed.

(** * C121: what is looked up before the conversion *)
Theorem C121_file_information_can_be_found :
  (forall k, can_run ecs_shape (map fst ecs2_initial_info) k <-> In k (map fst ecs2_initial_info)) /\
  (forall top, ilcd_format top ->
     forall k, can_run top (map fst ilcd_initial_info) k <-> In k (map fst ilcd_initial_info)).
Proof.
  split.
  - intros k. unfold can_run. rewrite (reachable _ ecs_shape (proj1 ecs_names) eq_refl).
    + apply dec_spec_all. vm_compute. reflexivity.
    + apply no_brace_spec. vm_compute. reflexivity.
  - intros top F k. destruct (ilcd_facts top F) as [N A]. unfold can_run. rewrite (reachable _ top N A).
    + apply dec_spec_all. destruct F as [->| ->]; vm_compute; reflexivity.
    + apply no_brace_spec. vm_compute. reflexivity.
Qed.
Print Assumptions C121_file_information_can_be_found.
Example C121_nonvacuous :
  In (lit "/processDataSet/@version") (map fst ilcd_initial_info) /\
  In (lit "/ecoSpold/childActivityDataset/administrativeInformation/fileAttributes/@internalSchemaVersion")
     (map fst ecs2_initial_info).
Proof. split; apply str_in_In; vm_compute; reflexivity. Qed.
