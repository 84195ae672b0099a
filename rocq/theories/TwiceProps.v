(** Properties C136-C139. *)
From Coq Require Import Ascii String List Bool Arith NArith ZArith.
From Verif Require Import PyBase PyBaseFacts PyValues MultiLangModel ValidatorsModel DotDictModel DotDictSpec DotDictProofs SchemaModel SchemaTables
  XmlModel XmlSpec KeysModel KeysProofs ReferProofs DotDictProps TwiceModel TwiceSpec TwiceProofs.
Import ListNotations.
Local Open Scope string_scope.
Local Open Scope list_scope.

(** * C136 *)
Theorem C136_programs_keep_types_partial : forall U os d d' e,
  well_classed U d -> Forall (suitable U (cls U d)) os -> runs U os d = (d', e) -> well_classed U d' /\ cls U d' = cls U d.
Proof.
  intros U os d d' e W S E. destruct (runs_classed U os d d' e) as [H1 H2]; auto; [now apply well_classed_deep|].
  split; [now apply well_classed_deep|exact H2].
Qed.
Print Assumptions C136_programs_keep_types_partial.
Theorem C136_built_from_data_partial : forall U c a d,
  suits U (TSub c) a -> build U c a = Ok d -> well_classed U d /\ cls U d = c.
Proof. intros U c a d S B. destruct (build_classed U a c d S B) as [H1 H2]. split; [now apply well_classed_deep|exact H2]. Qed.
Print Assumptions C136_built_from_data_partial.
(** A structure of another class is accepted by every structure field. *)
Theorem C136_other_class_accepted_refuted : forall U d key k f c x,
  names key k -> row U (cls U d) k f -> f_type f = TSub c -> getf k (flds U d) = None -> cls U x <> c ->
  exists d', set_item U d key (AStruct U x) = (d', None) /\ ~ well_classed U d'.
Proof.
  intros U d key k f c x Nm R T G N. exists (DD U (cls U d) (putf k (HL U [x]) (flds U d))). split.
  - apply bare_name in Nm. unfold set_item, set_item_with. rewrite Nm. unfold row in R. rewrite R. unfold set_one. now rewrite G, T.
  - intros W. destruct (W _ k (HL U [x]) (part_self U _)) as (f' & R' & Ty); [cbn; apply In_putf_same|].
    unfold row in *. cbn [cls] in R'. assert (f' = f) by congruence. subst f'. unfold typed in Ty. rewrite T in Ty.
    destruct Ty as [_ Ty]. apply N. apply Ty. now left.
Qed.
Print Assumptions C136_other_class_accepted_refuted.

(** * C137 *)
Theorem C137_assigned_once : forall U p key key' k f c os d d1 d2 e a a',
  well_classed U d -> leads_one U (cls U d) p c -> row U c k f -> f_unique f = true -> names key k -> names key' k ->
  a <> AList U [] -> a' <> AList U [] ->
  suitable U (cls U d) (OSet U (map Attr p) key a) -> exec U (OSet U (map Attr p) key a) d = (d1, None) ->
  Forall (suitable U (cls U d)) os -> runs U os d1 = (d2, e) ->
  exec U (OSet U (map Attr p) key' a') d2 = (d2, Some ValueError).
Proof.
  intros U p key key' k f c os d d1 d2 e a a' W L R Un N1 N2 A A' S E F Ru.
  apply well_classed_deep in W. destruct (exec_classed U _ d d1 None W S E) as [W1 C1].
  destruct (assign_stored U p d key k a d1) as (h & H & T); auto; [now apply bare_name|].
  destruct (runs_classed U os d1 d2 e) as [W2 C2]; auto; [now rewrite C1|].
  apply holds_at in H. destruct H as (x & Ax & G). destruct (runs_steady U os d1 d2 e Ru p x Ax) as (x' & Ax' & K).
  destruct K as (_ & K & _). destruct (K k h G T) as (h' & G' & T').
  apply (full_rejects U d2 p c key' k f a' h'); auto; [now rewrite C2, C1|now apply bare_name|]. apply holds_at. eauto.
Qed.
Print Assumptions C137_assigned_once.
Theorem C137_value_kept : forall U p k f c os d d' e v st,
  well_classed U d -> leads_one U (cls U d) p c -> row U c k f -> f_unique f = true ->
  holds U p k d (HV U v st) -> runs U os d = (d', e) -> holds U p k d' (HV U v st).
Proof.
  intros U p k f c os d d' e v st W L R Un H Ru. apply well_classed_deep in W. apply holds_at in H. destruct H as (x & Ax & G).
  destruct (runs_steady U os d d' e Ru p x Ax) as (x' & Ax' & K). destruct K as (_ & _ & K).
  destruct (at_one_class U p c d x W L Ax) as [C _]. apply holds_at. exists x'. split; [exact Ax'|]. apply (K k f); auto. now rewrite C.
Qed.
Print Assumptions C137_value_kept.
Theorem C137_first_value_judged_alone : forall U p key k c os d d' e a,
  well_classed U d -> leads_one U (cls U d) p c -> names key k -> (forall h, ~ holds U p k d h) ->
  Forall (suitable U (cls U d)) os -> Forall (fun o => apart U o p k) os -> runs U os d = (d', e) ->
  snd (exec U (OSet U (map Attr p) key a) d') = snd (set_item U (DD U c []) key a).
Proof.
  intros U p key k c os d d' e a W L N V S Ap Ru. apply well_classed_deep in W.
  destruct (runs_classed U os d d' e W S Ru) as [W' C']. apply (exec_alone U p c d' key k a); auto; [now rewrite C'|now apply bare_name|].
  apply (runs_clear U os p k Ap d d' e Ru V).
Qed.
Print Assumptions C137_first_value_judged_alone.

(** * C138, C139 *)
Definition target (roots : list (pystr * nat)) : Prop := roots = ilcd_roots \/ roots = olca_roots.
Lemma target_single E roots k t : target roots -> In t (places k) -> exists c, single (lavoisier E) roots t c.
Proof. intros [->| ->]; apply found_single; [exact ilcd_found|exact olca_found]. Qed.
Lemma two_parts E roots (fine : pystr -> act (lavoisier E) -> Prop) doc k1 k2 t s s' :
  target roots -> (forall k a, fine k a -> act_suits (lavoisier E) roots a) -> proper doc -> both doc k1 k2 ->
  In k1 ecs_keys -> In k2 ecs_keys -> In t (places k1) -> In t (places k2) -> well_made (lavoisier E) roots s ->
  ~ converts (lavoisier E) fine (read ecs_keys doc) s s'.
Proof.
  intros R F P B K1 K2 P1 P2 W C. destruct (target_single E roots k1 t R P1) as [c Sg].
  destruct (both_read ecs_keys doc k1 k2 P B K1 K2) as [O|O]; destruct O as (r1 & v & r2 & w & r3 & Er); rewrite Er in C.
  - exact (never_twice (lavoisier E) roots fine F t c r1 k1 v r2 k2 w r3 s s' Sg P1 P2 W C).
  - exact (never_twice (lavoisier E) roots fine F t c r1 k2 v r2 k1 w r3 s s' Sg P2 P1 W C).
Qed.

(** The texts that EcoSpold2 allows once per language and ILCD allows once. *)
Definition place_name : pystr := lit "/ecoSpold/activityDataset/activityDescription/geography/shortname".
Definition model_name : pystr := lit "/ecoSpold/activityDataset/modellingAndValidation/representativeness/systemModelName".
Definition child_place_name : pystr := lit "/ecoSpold/childActivityDataset/activityDescription/geography/shortname".
Definition child_model_name : pystr := lit "/ecoSpold/childActivityDataset/modellingAndValidation/representativeness/systemModelName".
Definition one_text : list pystr := [place_name; model_name; child_place_name; child_model_name].
Definition in_listb (k : pystr) (l : list pystr) : bool := existsb (str_eqb k) l.
Lemma in_listb_In k l : in_listb k l = true -> In k l.
Proof. unfold in_listb. rewrite existsb_exists. intros (x & I & E). apply str_eqb_eq in E. now subst. Qed.
Definition some_place (k : pystr) : bool := match places k with [] => false | _ => true end.
Lemma one_text_ok : forallb (fun k => (in_listb k ecs_keys && some_place k)%bool) one_text = true.
Proof. vm_compute. reflexivity. Qed.

Theorem C138_two_languages_stop_refuted : forall E roots (fine : pystr -> act (lavoisier E) -> Prop) doc k s s',
  target roots -> (forall k a, fine k a -> act_suits (lavoisier E) roots a) -> proper doc ->
  In k one_text -> both doc k k -> well_made (lavoisier E) roots s ->
  ~ converts (lavoisier E) fine (read ecs_keys doc) s s'.
Proof.
  intros E roots fine doc k s s' R F P I B W. pose proof one_text_ok as O. rewrite forallb_forall in O.
  specialize (O k I). apply andb_true_iff in O. destruct O as [O1 O2]. apply in_listb_In in O1. unfold some_place in O2.
  destruct (places k) as [|t l] eqn:Pl; [discriminate|].
  apply (two_parts E roots fine doc k k t s s'); auto; rewrite Pl; now left.
Qed.
Print Assumptions C138_two_languages_stop_refuted.

(** A handler assigns the places of its own path and nothing else at the places of the table. *)
Definition tidy (U : universe) (roots : list (pystr * nat)) (k : pystr) (a : act U) : Prop :=
  act_suits U roots a /\
  forall k' t, In t (places k') -> act_apart U a t \/ (In t (places k) /\ exists v, a = set_place U t v).
Lemma tidy_apart U roots k l t k' : Forall (tidy U roots k) l -> In t (places k') ->
  ~ In t (places k) \/ (forall v, ~ In (set_place U t v) l) -> Forall (fun a => act_apart U a t) l.
Proof.
  intros F I N. rewrite Forall_forall in *. intros a Ia. destruct (F a Ia) as [_ H]. destruct (H k' t I) as [H1|[H1 [v ->]]]; [exact H1|].
  destruct N as [N|N]; [contradiction|]. destruct (N v Ia).
Qed.
Lemma converts_free U roots t k' r s s' : In t (places k') -> converts U (tidy U roots) r s s' ->
  (forall k x, In (k, x) r -> ~ In t (places k)) -> free U t s -> free U t s'.
Proof.
  intros I. induction 1 as [s|k x r l s s1 s2 Hd F E C IH]; intros N Fr; [exact Fr|]. apply IH.
  - intros k0 x0 J. apply (N k0 x0). now right.
  - apply (do_acts_free U l t) with (s := s) (e := None); auto. apply (tidy_apart U roots k l t k'); auto. left. apply (N k x). now left.
Qed.
Lemma putf_Some {A} r k (a : A) l x : getf r l = Some x -> exists y, getf r (putf k a l) = Some y.
Proof.
  intros G. destruct (list_eq_dec N.eq_dec r k) as [->|N]; [rewrite getf_putf; eauto|rewrite getf_other by auto; eauto].
Qed.
Lemma do_acts_root U l r : forall s s' e d, do_acts U l s = (s', e) -> getf r s = Some d -> exists d', getf r s' = Some d'.
Proof.
  induction l as [|a l IH]; cbn [do_acts]; intros s s' e d; [intros [= <- <-]; eauto|]. unfold do_act.
  destruct (getf (fst a) s) as [x|]; [|intros [= <- <-]; eauto]. destruct (exec U (snd a) x) as [x' [e'|]].
  - intros [= <- <-] G. eapply putf_Some; eauto.
  - intros E2 G. destruct (putf_Some r (fst a) x' s d G) as [y Hy]. eapply IH; eauto.
Qed.
Lemma converts_root U fine r s s' q : converts U fine r s s' -> forall d, getf q s = Some d -> exists d', getf q s' = Some d'.
Proof.
  induction 1 as [s|k x r l s s1 s2 Hd F E C IH]; intros d G; [eauto|].
  destruct (do_acts_root U l q s s1 None d E G) as [d1 G1]. eauto.
Qed.

(** When nothing before assigned the place, the value is accepted or not for itself only. *)
Theorem C138_once_judged_alone_partial : forall E roots r s1 k l s2 t a,
  target roots -> converts (lavoisier E) (tidy (lavoisier E) roots) r (new_whole (lavoisier E) roots) s1 ->
  Forall (tidy (lavoisier E) roots k) l -> do_acts (lavoisier E) l s1 = (s2, None) ->
  In t (places k) -> (forall k' x, In (k', x) r -> ~ In t (places k')) -> (forall v, ~ In (set_place (lavoisier E) t v) l) ->
  exists c, single (lavoisier E) roots t c /\
    snd (do_act (lavoisier E) (set_place (lavoisier E) t a) s2) = snd (set_item (lavoisier E) (DD (lavoisier E) c []) (p_field t) a).
Proof.
  intros E roots r s1 k l s2 t a R C F D P N1 N2. destruct (target_single E roots k t R P) as [c Sg]. exists c. split; [exact Sg|].
  set (U := lavoisier E) in *. destruct (new_made U roots) as [W0 F0].
  assert (S : forall k a, tidy U roots k a -> act_suits U roots a) by (intros k0 a0 H; exact (proj1 H)).
  assert (W1 := converts_made U roots (tidy U roots) S r _ s1 C W0).
  assert (W2 : well_made U roots s2).
  { apply (do_acts_made U roots l) with (s := s1) (e := None); auto. eapply Forall_impl; [|exact F]. intros a0 H. exact (proj1 H). }
  assert (F1 : free U t s1) by (apply (converts_free U roots t k r _ s1 P C N1), F0).
  assert (F2 : free U t s2).
  { apply (do_acts_free U l t) with (s := s1) (e := None); auto. apply (tidy_apart U roots k l t k); auto. }
  assert (Q := Sg). destruct Q as (_ & c0 & f & R0 & _).
  assert (G : exists d, getf (p_root t) (new_whole U roots) = Some d).
  { clear -R0. unfold new_whole. induction roots as [|[n c1] rs IH]; cbn [getf map fst snd] in *; [discriminate|].
    destruct (str_eqb n (p_root t)); eauto. }
  destruct G as [d0 G0]. destruct (converts_root U _ r _ s1 (p_root t) C d0 G0) as [d1 G1].
  destruct (do_acts_root U l (p_root t) s1 s2 None d1 D G1) as [d2 G2].
  exact (do_act_alone U roots t c a s2 d2 W2 Sg G2 F2).
Qed.
Print Assumptions C138_once_judged_alone_partial.

(** * C139 *)
(** A data set with its identifier, below the root. *)
Definition a_dataset (e : elem) : Prop :=
  given e (lit "/activityDataset/activityDescription/activity/@id") \/
  given e (lit "/childActivityDataset/activityDescription/activity/@id").
Definition two_datasets (doc : elem) : Prop :=
  exists t a x l es1 d1 es2 d2 es3, doc = Elem t a x l (es1 ++ d1 :: es2 ++ d2 :: es3) /\ name_of t (lit "ecoSpold") /\
    a_dataset d1 /\ a_dataset d2.
Definition id_path : pystr := lit "/ecoSpold/activityDataset/activityDescription/activity/@id".
Definition child_id_path : pystr := lit "/ecoSpold/childActivityDataset/activityDescription/activity/@id".
Definition uuid_place : place := at_place "dataSetInformation" [] "UUID".
Lemma id_places : places id_path = [uuid_place] /\ places child_id_path = [uuid_place] /\
  in_listb id_path ecs_keys = true /\ in_listb child_id_path ecs_keys = true.
Proof. vm_compute. repeat split. Qed.
Theorem C139_two_datasets_never_mixed : forall E roots (fine : pystr -> act (lavoisier E) -> Prop) doc s s',
  target roots -> (forall k a, fine k a -> act_suits (lavoisier E) roots a) -> proper doc -> two_datasets doc ->
  well_made (lavoisier E) roots s -> ~ converts (lavoisier E) fine (read ecs_keys doc) s s'.
Proof.
  intros E roots fine doc s s' R F P (t & a & x & l & es1 & d1 & es2 & d2 & es3 & -> & Hn & D1 & D2) W.
  destruct id_places as (P1 & P2 & K1 & K2). apply in_listb_In in K1, K2.
  assert (B : forall p q, given d1 p -> given d2 q -> both (Elem t a x l (es1 ++ d1 :: es2 ++ d2 :: es3)) (lit "/" ++ lit "ecoSpold" ++ p) (lit "/" ++ lit "ecoSpold" ++ q)).
  { intros p q G1 G2. now apply (both_kids _ _ _ _ _ es1 d1 es2 d2 es3). }
  destruct D1 as [D1|D1], D2 as [D2|D2]; specialize (B _ _ D1 D2);
    [apply (two_parts E roots fine _ id_path id_path uuid_place)|apply (two_parts E roots fine _ id_path child_id_path uuid_place)
    |apply (two_parts E roots fine _ child_id_path id_path uuid_place)|apply (two_parts E roots fine _ child_id_path child_id_path uuid_place)];
    auto; rewrite ?P1, ?P2; now left.
Qed.
Print Assumptions C139_two_datasets_never_mixed.

(** * Non-vacuity *)
Definition plain (t : string) (a : list (pystr * pystr)) (es : list elem) : elem := Elem (lit t) a None None es.
Definition one_place (names : list string) : elem :=
  plain "ecoSpold" [] [plain "activityDataset" [] [plain "activityDescription" []
    [plain "geography" [] (map (fun n => Elem (lit "shortname") [] (Some (lit n)) None []) names)]]].
Definition is_done {A} (r : A * option exn) : bool := match snd r with None => true | Some _ => false end.
Lemma is_done_pair {A} (r : A * option exn) : is_done r = true -> r = (fst r, None).
Proof. destruct r as [a [e|]]; [discriminate|reflexivity]. Qed.
Definition location : place := at_place "geography" ["locationOfOperationSupplyOrProduction"] "location".
Definition set_location (s : string) : act L := set_place L location (AScalar L (SStr (lit s))).

(** Geography written in one language is converted ... *)
Example C138_nonvacuous :
  proper (one_place ["Brazil"]) /\
  (exists s', converts L (tidy L ilcd_roots) (read ecs_keys (one_place ["Brazil"])) (new_whole L ilcd_roots) s') /\
  (* ... and in two it is a document of the theorem. *)
  proper (one_place ["Brazil"; "Brasil"]) /\ both (one_place ["Brazil"; "Brasil"]) place_name place_name /\
  target ilcd_roots /\ well_made L ilcd_roots (new_whole L ilcd_roots).
Proof.
  split; [apply properb_sound; vm_compute; reflexivity|]. split; [|split; [apply properb_sound; vm_compute; reflexivity|split]].
  - assert (E : read ecs_keys (one_place ["Brazil"]) = [(place_name, VStr (lit "Brazil"))]) by (vm_compute; reflexivity).
    rewrite E. exists (fst (do_acts L [set_location "BR"] (new_whole L ilcd_roots))).
    apply (converts_report L _ place_name _ [] [set_location "BR"] _ (fst (do_acts L [set_location "BR"] (new_whole L ilcd_roots)))).
    + assert (P : places place_name = [location]) by (vm_compute; reflexivity). intros t I. rewrite P in I. destruct I as [<-|[]].
      exists (AScalar L (SStr (lit "BR"))). split; [discriminate|now left].
    + constructor; [|constructor]. split.
      * intros c G c' k f Ld Nm Rw. assert (G' : c = ILCD1_Geography) by (vm_compute in G; vm_compute; congruence). subst c.
        cbn [map p_path location at_place] in Ld. inversion Ld as [|? ? f1 c1 ? ? R1 T1 Ld']; subst. inversion Ld'; subst.
        destruct (f_type f); constructor.
      * intros k' t I. destruct (list_eq_dec N.eq_dec (p_root t) (lit "geography")) as [Eq|N].
        -- right.
           assert (A : forallb (fun kt => forallb (fun t => (negb (str_eqb (p_root t) (lit "geography")) ||
             (str_eqb (p_field t) (p_field location) && match p_path t with [x] => str_eqb x (lit "locationOfOperationSupplyOrProduction") | _ => false end))%bool) (snd kt)) assigns = true)
             by (vm_compute; reflexivity).
           destruct (places_listed k' t I) as (l & J & K). rewrite forallb_forall in A. specialize (A _ J). rewrite forallb_forall in A.
           specialize (A _ K). apply orb_true_iff in A. destruct A as [A|A].
           { rewrite Eq, str_eqb_refl in A. discriminate. }
           apply andb_true_iff in A. destruct A as [A1 A2]. apply str_eqb_eq in A1.
           destruct t as [r p g]. cbn [p_root p_path p_field] in *. destruct p as [|x [|y p]]; try discriminate. apply str_eqb_eq in A2. subst.
           split; [|exists (AScalar L (SStr (lit "BR"))); reflexivity].
           assert (P : places place_name = [location]) by (vm_compute; reflexivity). rewrite P. now left.
        -- left. left. intros Eq. apply N. rewrite <- Eq. reflexivity.
    + apply is_done_pair. vmr.
    + constructor.
  - apply (both_below _ _ _ _ _ (lit "ecoSpold") (plain "activityDataset" [] [plain "activityDescription" []
      [plain "geography" [] (map (fun n => Elem (lit "shortname") [] (Some (lit n)) None []) ["Brazil"; "Brasil"])]])
      (lit "/activityDataset/activityDescription/geography/shortname") (lit "/activityDataset/activityDescription/geography/shortname"));
      [apply name_ok_spec; reflexivity|now left|].
    apply (both_below _ _ _ _ _ (lit "activityDataset") (plain "activityDescription" []
      [plain "geography" [] (map (fun n => Elem (lit "shortname") [] (Some (lit n)) None []) ["Brazil"; "Brasil"])])
      (lit "/activityDescription/geography/shortname") (lit "/activityDescription/geography/shortname"));
      [apply name_ok_spec; reflexivity|now left|].
    apply (both_below _ _ _ _ _ (lit "activityDescription")
      (plain "geography" [] (map (fun n => Elem (lit "shortname") [] (Some (lit n)) None []) ["Brazil"; "Brasil"]))
      (lit "/geography/shortname") (lit "/geography/shortname")); [apply name_ok_spec; reflexivity|now left|].
    apply (both_kids _ _ _ _ _ [] (Elem (lit "shortname") [] (Some (lit "Brazil")) None []) []
      (Elem (lit "shortname") [] (Some (lit "Brasil")) None []) [] (lit "geography") (lit "/shortname") (lit "/shortname"));
      [apply name_ok_spec; reflexivity|reflexivity| |];
      apply (given_self _ (lit "shortname")); apply name_ok_spec; reflexivity.
  - split; [now left|]. apply new_made.
Qed.

Definition with_id (t : string) : elem :=
  plain t [] [plain "activityDescription" [] [plain "activity" [(lit "id", lit "5a5f8d0c-1f37-4e8a-9f39-3a5ad3ffc1a6")] []]].
Lemma given_deep t (es : list elem) n k p : name_ok (lit t) = true -> n = lit t -> In k es -> given k p ->
  given (plain t [] es) (lit "/" ++ n ++ p).
Proof. intros N -> I G. apply (given_kid _ _ _ _ _ _ k); auto. now apply name_ok_spec. Qed.
Lemma with_id_given t : name_ok (lit t) = true -> given (with_id t) (lit "/" ++ lit t ++ lit "/activityDescription/activity/@id").
Proof.
  intros N. unfold with_id. eapply given_deep; [exact N|reflexivity|now left|].
  apply (given_deep "activityDescription" _ (lit "activityDescription") (plain "activity" [(lit "id", lit "5a5f8d0c-1f37-4e8a-9f39-3a5ad3ffc1a6")] [])
    (lit "/activity/@id")); [reflexivity|reflexivity|now left|].
  apply (given_attribute _ (lit "activity") (lit "id") (lit "5a5f8d0c-1f37-4e8a-9f39-3a5ad3ffc1a6")); [apply name_ok_spec; reflexivity|now left].
Qed.
Example C139_nonvacuous :
  proper (plain "ecoSpold" [] [with_id "activityDataset"; with_id "childActivityDataset"]) /\
  two_datasets (plain "ecoSpold" [] [with_id "activityDataset"; with_id "childActivityDataset"]).
Proof.
  split; [apply properb_sound; vm_compute; reflexivity|].
  exists (lit "ecoSpold"), [], None, None, [], (with_id "activityDataset"), [], (with_id "childActivityDataset"), [].
  split; [reflexivity|]. split; [apply name_ok_spec; reflexivity|].
  split; [left; exact (with_id_given "activityDataset" eq_refl)|right; exact (with_id_given "childActivityDataset" eq_refl)].
Qed.

(** One structure: a single-valued text, set once. *)
Example C136_nonvacuous :
  let d := DD L ILCD1_DataSetInformation [] in
  let o := OSet L [] (lit "UUID") (str "5a5f8d0c-1f37-4e8a-9f39-3a5ad3ffc1a6") in
  well_classed L d /\ suitable L ILCD1_DataSetInformation o /\ is_done (exec L o d) = true.
Proof.
  split; [apply well_classed_deep, fresh_classed|]. split; [|vmr].
  intros c k f Ld Nm R. destruct (f_type f); constructor.
Qed.
Example C137_nonvacuous :
  leads_one L ILCD1_Geography (p_path location) ILCD1_LocationOfOperationSupplyOrProduction /\
  snd (exec L (snd (set_location "BR")) (fst (exec L (snd (set_location "FR")) (DD L ILCD1_Geography [])))) = Some ValueError.
Proof. split; [apply follow_leads; vm_compute; reflexivity|vmr]. Qed.
