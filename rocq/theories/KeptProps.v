(** C212: what is set aside of one file (AsideModel.v) and the files converted after it with the same mapping (converter.py 223-226: a new one is made when the
    version of the schema changes; ECS2_to_ILCD1_conversion.py 1864, 1925-1938: [NotConverted] is made with the mapping and not set back). *)
From Coq Require Import Ascii String List Bool Arith NArith ZArith Lia.
From Verif Require Import PyBase PyBaseFacts PyValues MultiLangModel ValidatorsModel DotDictModel DotDictProofs SchemaModel SchemaTables
  XmlModel XmlSpec XmlProofs XmlProps KeysModel KeysSpec KeysProofs UtilsModel HandleModel HandleSpec HandleProofs HandleProps ClassModel DotDictProps ReferProofs AsideModel AsideSpec AsideProofs AsideProps.
Import ListNotations.
Local Open Scope string_scope.
Local Open Scope list_scope.

(** the files of a run, in their order, with one record of what is set aside *)
Fixpoint set_aside_all (E : env) (show : list pyval -> pystr) (rest : pystr -> pyval -> result unit) (docs : list elem) (d : dd (lavoisier E)) : result (dd (lavoisier E)) :=
  match docs with
  | [] => Ok d
  | doc :: docs' => bind (set_aside E show rest (read ecs_keys doc) d) (set_aside_all E show rest docs')
  end.
Lemma set_aside_all_app E show rest docs : forall docs' d, set_aside_all E show rest (docs ++ docs') d = bind (set_aside_all E show rest docs d) (set_aside_all E show rest docs').
Proof. induction docs as [|doc docs IH]; intros docs' d; [reflexivity|]. cbn [app set_aside_all]. destruct (set_aside E show rest (read ecs_keys doc) d); [apply IH|reflexivity]. Qed.
Lemma set_aside_all_flat E show rest docs : forall d, set_aside_all E show rest docs d = set_aside E show rest (flat_map (read ecs_keys) docs) d.
Proof. induction docs as [|doc docs IH]; intros d; [reflexivity|]. cbn [flat_map set_aside_all]. rewrite set_aside_app. destruct (set_aside E show rest (read ecs_keys doc) d); [apply IH|reflexivity]. Qed.

(** Any number of data sets without the cases of C133 and C134 pass one after the other. *)
Theorem C212_files_partial :
  forall E show rest docs, (forall doc, In doc docs -> proper doc /\ no_at doc /\ orderly doc /\ forall k x, In (k, x) (read ecs_keys doc) -> rest k x = Ok tt) ->
    exists d, set_aside_all E show rest docs (note0 E) = Ok d.
Proof.
  intros E show rest docs H. assert (G : good E (note0 E)) by apply note0_good. revert G. generalize (note0 E).
  induction docs as [|doc docs IH]; intros d G; [now exists d|]. cbn [set_aside_all].
  destruct (H doc (or_introl eq_refl)) as (P & A & O & R). destruct (orderly_passes E show doc rest P A O R d G) as (d' & D). rewrite D. cbn [bind].
  apply IH; [intros x I; apply H; now right|]. exact (set_aside_good E show rest _ d d' G D).
Qed.
Print Assumptions C212_files_partial.
(** An attribute that a data set has is kept with its own value, whatever was converted before. *)
Theorem C212_own_partial :
  forall E show rest docs doc pre post pn k s d, In pn kept_attributes -> k = attribute_path pn \/ k = for_child (attribute_path pn) ->
    read ecs_keys doc = pre ++ (k, VStr s) :: post -> (forall k' x, In (k', x) post -> k' <> attribute_path pn /\ k' <> for_child (attribute_path pn)) ->
    set_aside_all E show rest (docs ++ [doc]) (note0 E) = Ok d -> get _ d (lit (snd pn)) = Ok (GVal (lavoisier E) (OText s)).
Proof.
  intros E show rest docs doc pre post pn k s d I K R N H. rewrite set_aside_all_flat, flat_map_app in H. cbn [flat_map] in H. rewrite app_nil_r, R, app_assoc in H.
  exact (C135_attributes_kept E show rest _ post pn k s d I K N H).
Qed.
Print Assumptions C212_own_partial.
(** One that it does not have is kept with the value of the last data set before it that has it. *)
Theorem C212_left_over_refuted :
  forall E show rest docs doc later pre post pn k s d, In pn kept_attributes -> k = attribute_path pn \/ k = for_child (attribute_path pn) ->
    read ecs_keys doc = pre ++ (k, VStr s) :: post -> (forall k' x, In (k', x) (post ++ flat_map (read ecs_keys) later) -> k' <> attribute_path pn /\ k' <> for_child (attribute_path pn)) ->
    set_aside_all E show rest (docs ++ doc :: later) (note0 E) = Ok d -> get _ d (lit (snd pn)) = Ok (GVal (lavoisier E) (OText s)).
Proof.
  intros E show rest docs doc later pre post pn k s d I K R N H. rewrite set_aside_all_flat, flat_map_app in H. cbn [flat_map] in H.
  rewrite R, <- (app_assoc pre), (app_assoc _ pre) in H. cbn [app] in H.
  exact (C135_attributes_kept E show rest _ _ pn k s d I K N H).
Qed.
Print Assumptions C212_left_over_refuted.

Definition with_parent : elem := activity "activityDescription" (elem_ "activity" [("activityNameId", "n1"); ("parentActivityId", "p1"); ("specialActivityType", "0")] []).
Definition without_parent : elem := activity "activityDescription" (elem_ "activity" [("activityNameId", "n2"); ("specialActivityType", "0")] []).
Example C212_nonvacuous :
  match set_aside_all sample_env empty_show (fun _ _ => Ok tt) [with_parent; without_parent] (note0 sample_env) with
  | Ok d => match get _ d (lit "activityNameId"), get _ d (lit "parentActivityId") with
            | Ok (GVal _ (OText s)), Ok (GVal _ (OText t)) => str_eqb s (lit "n2") && str_eqb t (lit "p1")
            | _, _ => false
            end
  | Err _ => false
  end = true /\
  (exists pre post, read ecs_keys with_parent = pre ++ (attribute_path ("activity", "parentActivityId"), VStr (lit "p1")) :: post) /\
  ~ In (attribute_path ("activity", "parentActivityId")) (map fst (read ecs_keys without_parent)).
Proof.
  split; [vmr|]. split.
  - apply in_split. vm_compute. tauto.
  - intros I. vm_compute in I. repeat (destruct I as [I|I]; [discriminate I|]). exact I.
Qed.
