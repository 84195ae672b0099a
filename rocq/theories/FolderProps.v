(** C217-C220: what the conversion of ILCD to ILCD does to the unpacked archive (FolderModel.v). *)
From Coq Require Import Ascii String List Bool Arith NArith ZArith Reals Lia Lra.
From Verif Require Import PyBase PyBaseFacts PyValues MultiLangModel DotDictModel DotDictProofs XmlModel XmlProofs RemapModel RemapSpec RemapProofs RemapProps FolderModel FolderSpec FolderProofs.
Import ListNotations.
Local Open Scope R_scope.

(** ** C217: exchanges do not depend on those before them *)
(** If the first property of each flow outside the mapping is the one of its unit, the folder stays as it is, and each
    exchange is converted with the units read from it. *)
Theorem C217_steady_partial :
  forall fp ofp mp dp dg df l fo vars fo' xs vs,
    (forall x k d us info p t, In x l -> getf (x_flow x) mp = None -> units_of fo x = Ok (k, d, us) -> unit_info ofp us x = Ok info -> fd_props d = p :: t -> pr_ref p = fst info) ->
    run fp ofp mp dp dg df fo vars l = Ok (fo', xs, vs) ->
    fo' = fo /\ exists uss ss, Forall2 (fun x us => exists k d, units_of fo x = Ok (k, d, us)) l uss /\
      remap_all fp ofp mp (there fo) df vars (combine uss l) = Ok (xs, vs, ss).
Proof.
  intros fp ofp mp dp dg df. induction l as [|x l IH]; intros fo vars fo' xs vs C H; cbn [run] in H.
  - injection H as <- <- <-. split; [reflexivity|]. exists [], []. split; [constructor|reflexivity].
  - apply bind_Ok in H as ([fo1 o] & S & H). apply bind_Ok in H as ([[fo2 xs2] vs2] & R & H). injection H as <- <- <-.
    destruct (step_folder _ _ _ _ _ _ _ _ _ _ _ S) as (k & d & us & U & M & K).
    assert (E : fo1 = fo).
    { destruct K as [K|(G & info & p & t & a & b & I & D & N & _)]; [exact K|]. exfalso. apply N. exact (C x k d us info p t (or_introl eq_refl) G U I D). }
    subst fo1. destruct (IH fo _ _ _ _ (fun x0 k0 d0 us0 i0 p0 t0 I0 => C x0 k0 d0 us0 i0 p0 t0 (or_intror I0)) R) as (-> & uss & ss & F & A). split; [reflexivity|].
    exists (us :: uss), (o_saved o ++ ss). split; [constructor; eauto|]. cbn [combine remap_all]. rewrite M. cbn [bind]. rewrite A. reflexivity.
Qed.
Print Assumptions C217_steady_partial.
(** The data of a flow are those of the first file, of the places where it may be, that is in the archive. *)
Theorem C217_file_partial :
  forall fo x a k b d us, flow_places x = a ++ k :: b -> (forall u, In u a -> getf u (flows fo) = None) -> getf k (flows fo) = Some d ->
    get_unit (x_unit x) (see fo d) = Ok us -> units_of fo x = Ok (k, d, us).
Proof.
  intros fo x a k b d us P N K U. unfold units_of, get_uri. rewrite P. assert (F : find (there fo) (a ++ k :: b) = Some k).
  { clear P. induction a as [|u a IH]; cbn [app find]; unfold there at 1; [now rewrite K|]. rewrite (N u (or_introl eq_refl)). apply IH. intros v I. apply N. now right. }
  rewrite F. cbn [bind]. rewrite K, U. reflexivity.
Qed.
Print Assumptions C217_file_partial.
(** A flow outside the mapping whose first property is another one gets the default files, which cannot be read: a process
    with a second exchange of this flow is not converted. *)
Theorem C217_same_flow_refuted :
  forall fp ofp mp dp dg df fo vars x rest r k d us info p t n grp y,
    units_of fo x = Ok (k, d, us) -> getf (x_flow x) mp = None -> unit_info ofp us x = Ok info -> fd_props d = p :: t -> pr_ref p <> fst info ->
    dp (fst info) = Some (n, snd info) -> dg (snd info) = Some grp -> crowded grp ->
    In y rest -> get_uri (there fo) y = Ok k -> run fp ofp mp dp dg df fo vars (x :: rest) <> Ok r.
Proof.
  intros fp ofp mp dp dg df fo vars x rest r k d us info p t n grp y U G I D N P Q C Y K H. cbn [run] in H. apply bind_Ok in H as ([fo' o] & S & H).
  apply bind_Ok in H as (r' & H & _). pose proof (uri_keys fo fo' y (step_there _ _ _ _ _ _ _ _ _ _ _ S)) as E. rewrite K in E. symmetry in E.
  refine (blocked_run fp ofp mp dp dg df y k rest fo' _ _ _ Y E H).
  unfold step in S. rewrite U in S. cbn [bind] in S. apply bind_Ok in S as (o' & _ & S). rewrite G, I in S. cbn [bind] in S. unfold patch in S. rewrite D, P, Q in S.
  destruct (str_eqb (pr_ref p) (fst info)) eqn:B; [apply str_eqb_eq in B; contradiction|]. cbn [bind] in S. injection S as <- _.
  exists (FlowDoc (fd_ns d) (fd_main d) (PropRef (pr_id p) (pr_mean p) (fst info) :: t)), (PropRef (pr_id p) (pr_mean p) (fst info)), n, (snd info), grp.
  cbn [flows properties groups pr_ref fd_props]. rewrite !getf_putf. repeat split; auto; try apply C. now left.
Qed.
Print Assumptions C217_same_flow_refuted.
(** So is a process whose next exchange has another flow that is measured in a unit of the same group. *)
Theorem C217_next_flow_refuted :
  forall fp ofp mp dp dg df fo vars x y rest r k d us info p t a grp k2 d2 q m,
    units_of fo x = Ok (k, d, us) -> getf (x_flow x) mp = None -> unit_info ofp us x = Ok info -> fd_props d = p :: t -> pr_ref p <> fst info ->
    dp (fst info) = Some a -> dg (snd info) = Some grp -> crowded grp ->
    get_uri (there fo) y = Ok k2 -> k2 <> k -> getf k2 (flows fo) = Some d2 -> In q (fd_props d2) -> pr_ref q <> fst info -> getf (pr_ref q) (properties fo) = Some (m, snd info) ->
    run fp ofp mp dp dg df fo vars (x :: y :: rest) <> Ok r.
Proof.
  intros fp ofp mp dp dg df fo vars x y rest r k d us info p t a grp k2 d2 q m U G I D N P Q C K2 NK D2 Iq Nq Pq H. cbn [run] in H. apply bind_Ok in H as ([fo' o] & S & H).
  apply bind_Ok in H as (r' & H & _). pose proof (uri_keys fo fo' y (step_there _ _ _ _ _ _ _ _ _ _ _ S)) as E. rewrite K2 in E. symmetry in E.
  apply bind_Ok in H as ([fo2 o2] & S2 & _). destruct (step_folder _ _ _ _ _ _ _ _ _ _ _ S2) as (k3 & d3 & us3 & U3 & _).
  destruct (units_of_file _ _ _ _ _ U3) as (U4 & U5 & U6). rewrite E in U4. injection U4 as <-.
  unfold step in S. rewrite U in S. cbn [bind] in S. apply bind_Ok in S as (o' & _ & S). rewrite G, I in S. cbn [bind] in S. unfold patch in S. rewrite D, P, Q in S.
  destruct (str_eqb (pr_ref p) (fst info)) eqn:B; [apply str_eqb_eq in B; contradiction|]. cbn [bind] in S. injection S as <- _. cbn [flows] in U5.
  rewrite getf_putf_other in U5 by exact NK. rewrite D2 in U5. injection U5 as <-. refine (crowded_unread _ _ _ _ q m (snd info) grp Iq _ _ C U6); cbn [properties groups].
  - rewrite getf_putf_other by exact Nq. exact Pq.
  - apply getf_putf.
Qed.
Print Assumptions C217_next_flow_refuted.

(** ** C218: the copied flow names the property of its unit *)
(** It does if the reference property is the first one; the others stay. *)
Theorem C218_reference_partial :
  forall fp ofp mp dp dg df fo vars x fo' o k d us info p t,
    step fp ofp mp dp dg df fo vars x = Ok (fo', o) -> getf (x_flow x) mp = None -> units_of fo x = Ok (k, d, us) -> unit_info ofp us x = Ok info ->
    fd_props d = p :: t -> pr_id p = fd_main d -> ~ In (fd_main d) (map pr_id t) ->
    exists d', getf k (flows fo') = Some d' /\ fd_main d' = fd_main d /\ map (fun q => (pr_id q, pr_mean q)) (fd_props d') = map (fun q => (pr_id q, pr_mean q)) (fd_props d) /\
      (forall q, In q (fd_props d') -> pr_id q = fd_main d' -> pr_ref q = fst info) /\ (forall q, In q (fd_props d') -> pr_id q <> fd_main d' -> In q (fd_props d)).
Proof.
  intros fp ofp mp dp dg df fo vars x fo' o k d us info p t S G U I D M NI. destruct (units_of_file _ _ _ _ _ U) as (_ & K & _).
  unfold step in S. rewrite U in S. cbn [bind] in S. apply bind_Ok in S as (o' & _ & S). rewrite G, I in S. cbn [bind] in S. unfold patch in S. rewrite D in S.
  destruct (str_eqb (pr_ref p) (fst info)) eqn:B.
  - cbn [bind] in S. injection S as <- _. apply str_eqb_eq in B. exists d. split; [exact K|]. split; [reflexivity|]. split; [reflexivity|]. split; [|auto].
    rewrite D. intros q [<-|Q] E; [exact B|]. exfalso. apply NI. rewrite <- E. now apply in_map.
  - destruct (dp (fst info)) as [a|]; [|discriminate]. destruct (dg (snd info)) as [b|]; [|discriminate]. cbn [bind] in S. injection S as <- _. cbn [flows].
    eexists. split; [apply getf_putf|]. cbn [fd_main fd_props]. split; [reflexivity|]. rewrite D. split; [reflexivity|]. split.
    + intros q [<-|Q] E; [reflexivity|]. exfalso. apply NI. rewrite <- E. now apply in_map.
    + intros q [<-|Q] E; [cbn [pr_id] in E; contradiction|now right].
Qed.
Print Assumptions C218_reference_partial.
(** If it is not, another property is overwritten, with its number and value kept. *)
Theorem C218_first_refuted :
  forall fp ofp mp dp dg df fo vars x fo' o k d us info p t,
    step fp ofp mp dp dg df fo vars x = Ok (fo', o) -> getf (x_flow x) mp = None -> units_of fo x = Ok (k, d, us) -> unit_info ofp us x = Ok info ->
    fd_props d = p :: t -> pr_id p <> fd_main d -> pr_ref p <> fst info ->
    exists d', getf k (flows fo') = Some d' /\ fd_main d' = fd_main d /\ fd_props d' = PropRef (pr_id p) (pr_mean p) (fst info) :: t /\ (~ In (pr_ref p) (map pr_ref t) -> ~ In (pr_ref p) (map pr_ref (fd_props d'))).
Proof.
  intros fp ofp mp dp dg df fo vars x fo' o k d us info p t S G U I D M N.
  unfold step in S. rewrite U in S. cbn [bind] in S. apply bind_Ok in S as (o' & _ & S). rewrite G, I in S. cbn [bind] in S. unfold patch in S. rewrite D in S.
  destruct (str_eqb (pr_ref p) (fst info)) eqn:B; [apply str_eqb_eq in B; contradiction|].
  destruct (dp (fst info)) as [a|]; [|discriminate]. destruct (dg (snd info)) as [b|]; [|discriminate]. cbn [bind] in S. injection S as <- _. cbn [flows].
  eexists. split; [apply getf_putf|]. cbn [fd_main fd_props]. split; [reflexivity|]. split; [reflexivity|]. cbn [map pr_ref]. intros Q [E|E]; [now apply N|contradiction].
Qed.
Print Assumptions C218_first_refuted.

(** ** C219: nothing else of the flow changes *)
Theorem C219_one_place :
  forall id_ t t', patch_tree id_ t = Ok t' ->
    (forall path, path <> [3%nat; 0%nat; 0%nat] -> label_at path t' = label_at path t) /\
    exists e e', at_path [3%nat; 0%nat; 0%nat] t = Some e /\ at_path [3%nat; 0%nat; 0%nat] t' = Some e' /\
      etag e' = etag e /\ etext e' = etext e /\ ekids e' = ekids e /\ getf (lit "refObjectId") (eattrib e') = Some id_ /\
      (e' = e \/ getf (lit "uri") (eattrib e') = Some (lit "../flowproperties/" ++ xml id_)) /\
      (forall a, a <> lit "refObjectId" -> a <> lit "uri" -> getf a (eattrib e') = getf a (eattrib e)).
Proof.
  intros id_ t t' H. unfold patch_tree in H. destruct (down_label _ _ _ _ H) as (L1 & k1 & k1' & A1 & A1' & H2 & O1).
  destruct (down_label _ _ _ _ H2) as (L2 & k2 & k2' & A2 & A2' & H3 & O2). destruct (down_label _ _ _ _ H3) as (L3 & e & e' & A3 & A3' & H4 & O3).
  unfold point_to in H4. apply bind_Ok in H4 as (old & E & H4). destruct (getf (lit "refObjectId") (eattrib e)) as [o|] eqn:R; [|discriminate]. injection E as ->.
  assert (KE : ekids e' = ekids e /\ etag e' = etag e /\ etext e' = etext e /\ getf (lit "refObjectId") (eattrib e') = Some id_ /\
      (e' = e \/ getf (lit "uri") (eattrib e') = Some (lit "../flowproperties/" ++ xml id_)) /\
      (forall a, a <> lit "refObjectId" -> a <> lit "uri" -> getf a (eattrib e') = getf a (eattrib e))).
  { destruct (str_eqb old id_) eqn:B; injection H4 as <-.
    - apply str_eqb_eq in B. subst old. repeat split; auto.
    - destruct e as [tg at_ x y ks]. cbn [with_attrib eattrib ekids etag etext] in *. repeat split; auto.
      + rewrite getf_putf_other by discriminate. apply getf_putf.
      + right. apply getf_putf.
      + intros a N1 N2. now rewrite !getf_putf_other. }
  split.
  - intros path N. destruct path as [|i p]; [unfold label_at; cbn; now rewrite L1|]. destruct (Nat.eq_dec i 3) as [->|Ni]; [|now apply O1].
    unfold label_at. cbn [at_path]. rewrite A1, A1'. destruct p as [|j p]; [cbn; now rewrite L2|]. destruct (Nat.eq_dec j 0) as [->|Nj]; [|exact (O2 _ _ Nj)].
    cbn [at_path]. rewrite A2, A2'. destruct p as [|m p]; [cbn; now rewrite L3|]. destruct (Nat.eq_dec m 0) as [->|Nm]; [|exact (O3 _ _ Nm)].
    cbn [at_path]. rewrite A3, A3'. destruct p as [|w p]; [contradiction|]. cbn [at_path]. destruct KE as (-> & _). reflexivity.
  - exists e, e'. cbn [at_path]. rewrite A1, A1'. cbn [at_path]. rewrite A2, A2'. cbn [at_path]. rewrite A3, A3'. split; [reflexivity|]. split; [reflexivity|].
    destruct KE as (K1 & K2 & K3 & K4 & K5 & K6). auto 10.
Qed.
Print Assumptions C219_one_place.
Lemma on_kid_twice i f l l' : (forall a b, f a = Ok b -> f b = Ok b) -> on_kid i f l = Ok l' -> on_kid i f l' = Ok l'.
Proof.
  intros I. revert i l'. induction l as [|e l IH]; intros i l' H; [destruct i; discriminate|]. destruct i as [|i]; cbn [on_kid] in H.
  - apply bind_Ok in H as (e' & F & H). injection H as <-. cbn [on_kid]. now rewrite (I _ _ F).
  - apply bind_Ok in H as (r & F & H). injection H as <-. cbn [on_kid]. now rewrite (IH _ _ F).
Qed.
Lemma down_twice i f a b : (forall a b, f a = Ok b -> f b = Ok b) -> down i f a = Ok b -> down i f b = Ok b.
Proof.
  unfold down. intros I H. apply bind_Ok in H as (l & K & H). injection H as <-. destruct a as [t at_ x y ks]. cbn [with_kids ekids] in *. now rewrite (on_kid_twice _ _ _ _ I K).
Qed.
(** Doing it again changes nothing. *)
Theorem C219_again : forall id_ t t', patch_tree id_ t = Ok t' -> patch_tree id_ t' = Ok t'.
Proof.
  intros id_ t t' H. unfold patch_tree in *. refine (down_twice _ _ _ _ _ H). intros a b. apply down_twice. clear. intros a b. apply down_twice. clear.
  intros e e' H. unfold point_to in *. apply bind_Ok in H as (old & E & H). destruct (str_eqb old id_) eqn:B; injection H as <-; [now rewrite E; cbn [bind]; rewrite B|].
  destruct e as [tg at_ x y ks]. cbn [with_attrib eattrib]. rewrite getf_putf_other by discriminate. rewrite getf_putf. cbn [need bind].
  replace (str_eqb id_ id_) with true; [reflexivity|]. symmetry. now apply str_eqb_eq.
Qed.
Print Assumptions C219_again.

(** ** C220: every flow data set can be copied *)
(** It can if there is an element with an identifier at the place of the first property. *)
Theorem C220_four_sections_partial :
  forall id_ t e old, at_path [3%nat; 0%nat; 0%nat] t = Some e -> getf (lit "refObjectId") (eattrib e) = Some old -> exists t', patch_tree id_ t = Ok t'.
Proof.
  intros id_ t e old A R. cbn [at_path] in A. destruct (nth_error (ekids t) 3) as [k1|] eqn:A1; [|discriminate]. destruct (nth_error (ekids k1) 0) as [k2|] eqn:A2; [|discriminate].
  destruct (nth_error (ekids k2) 0) as [k3|] eqn:A3; [|discriminate]. injection A as ->.
  assert (P : exists e', point_to id_ e = Ok e') by (unfold point_to; rewrite R; cbn [need bind]; destruct (str_eqb old id_); eauto). destruct P as (e' & P).
  destruct (down_some _ _ _ _ _ A3 P) as (k2' & P2). destruct (down_some _ _ _ _ _ A2 P2) as (k1' & P1). exact (down_some _ _ _ _ _ A1 P1).
Qed.
Print Assumptions C220_four_sections_partial.
(** Without one of the sections before the properties, all of its other sections given, it cannot. *)
Theorem C220_section_refuted : forall id_ t, (List.length (ekids t) <= 3)%nat -> patch_tree id_ t = Err IndexError.
Proof.
  intros id_ t L. unfold patch_tree, down at 1. destruct (ekids t) as [|a [|b [|c [|d l]]]]; try reflexivity. cbn in L. lia.
Qed.
Print Assumptions C220_section_refuted.
(** The fourth section is taken for the properties whatever it is; one whose first entry begins with an element without
    identifier stops the conversion. *)
Theorem C220_other_section_refuted :
  forall id_ t e, at_path [3%nat; 0%nat; 0%nat] t = Some e -> getf (lit "refObjectId") (eattrib e) = None -> patch_tree id_ t = Err KeyError.
Proof.
  intros id_ t e A R. cbn [at_path] in A. destruct (nth_error (ekids t) 3) as [k1|] eqn:A1; [|discriminate]. destruct (nth_error (ekids k1) 0) as [k2|] eqn:A2; [|discriminate].
  destruct (nth_error (ekids k2) 0) as [k3|] eqn:A3; [|discriminate]. injection A as ->.
  assert (K : forall i f l k er, nth_error l i = Some k -> f k = Err er -> on_kid i f l = Err er).
  { clear. intros i f l. revert i. induction l as [|a l IH]; intros [|i] k er N F; try discriminate; cbn [nth_error on_kid] in *.
    - injection N as ->. now rewrite F.
    - now rewrite (IH _ _ _ N F). }
  assert (D : forall i f x k er, nth_error (ekids x) i = Some k -> f k = Err er -> down i f x = Err er) by (intros i f x k er N F; unfold down; now rewrite (K _ _ _ _ _ N F)).
  unfold patch_tree. apply (D _ _ _ _ _ A1). apply (D _ _ _ _ _ A2). apply (D _ _ _ _ _ A3). unfold point_to. now rewrite R.
Qed.
Print Assumptions C220_other_section_refuted.

(** a flow measured in energy, as OpenLCA and the EF packages describe it *)
Definition energy_group : unit_group := UnitGroup NsPrefix (lit "0") [UnitEntry (lit "0") (lit "MJ") 1 None; UnitEntry (lit "1") (lit "kWh") (36/10) None].
Definition default_energy : unit_group := UnitGroup NsDefault (lit "0") (ug_units energy_group).
Definition calorific : pystr := lit "93a60a56-a3c8-11da-a746-0800200c9a66".
Definition energy : pystr := lit "f6811440-ee37-11de-8a39-0800200c9a66".
Definition units_of_energy : pystr := lit "93a60a57-a3c8-11da-a746-0800200c9a66".
Definition oil_doc (p : pystr) : flow_doc := FlowDoc NsPrefix (lit "0") [PropRef (lit "0") 1 p].
Definition oil_folder (p : pystr) : folder := Folder [(lit "flows/oil.xml", oil_doc p)] [(p, (NsPrefix, units_of_energy))] [(units_of_energy, energy_group)].
Definition oil : exch := Exch (lit "oil") None None [(lit "en", lit "Oil")] (Some 3) (Some 3) None None None None None.
Definition dprop (p : pystr) : option (ns * pystr) := if str_eqb p energy then Some (NsPrefix, units_of_energy) else None.
Definition dgroup (g : pystr) : option unit_group := if str_eqb g units_of_energy then Some default_energy else None.
Example C217_nonvacuous :
  let go := run ilcd_unit_to_fp olcailcd_unit_to_fp [] dprop dgroup (fun _ _ => true) in
  (exists fo xs, go (oil_folder calorific) [] [oil] = Ok (fo, xs, []) /\ List.length xs = 1%nat) /\
  (exists e, go (oil_folder calorific) [] [oil; oil] = Err e) /\ (exists xs, go (oil_folder energy) [] [oil; oil] = Ok (oil_folder energy, xs, []) /\ List.length xs = 2%nat) /\ crowded default_energy.
Proof.
  cbv zeta. split; [do 2 eexists; split; reflexivity|]. split; [eexists; reflexivity|]. split; [eexists; split; reflexivity|]. split; [reflexivity|cbn; lia].
Qed.
Example C218_nonvacuous :
  exists fo o, step ilcd_unit_to_fp olcailcd_unit_to_fp [] dprop dgroup (fun _ _ => true) (oil_folder calorific) [] oil = Ok (fo, o) /\ getf (lit "flows/oil.xml") (flows fo) = Some (oil_doc energy).
Proof. do 2 eexists. split; reflexivity. Qed.
Definition leaf (n : string) (a : list (pystr * pystr)) (l : list elem) : elem := Elem (lit n) a None None l.
Definition flow_tree (p : pystr) (u : list (pystr * pystr)) : elem :=
  leaf "flowDataSet" [] [leaf "flowInformation" [] []; leaf "modellingAndValidation" [] []; leaf "administrativeInformation" [] [];
    leaf "flowProperties" [] [leaf "flowProperty" [] [leaf "referenceToFlowPropertyDataSet" ((lit "refObjectId", p) :: u) []]]].
Example C219_nonvacuous : patch_tree energy (flow_tree calorific []) = Ok (flow_tree energy [(lit "uri", lit "../flowproperties/" ++ xml energy)]).
Proof. reflexivity. Qed.
Example C220_nonvacuous :
  patch_tree energy (leaf "flowDataSet" [] [leaf "flowInformation" [] []; leaf "administrativeInformation" [] []; leaf "flowProperties" [] []]) = Err IndexError.
Proof. reflexivity. Qed.
