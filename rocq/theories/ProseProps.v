(** What happens to the texts of an activity on the way to ILCD and back. *)
From Coq Require Import Ascii String List Bool Arith NArith ZArith Lia Sorted.
From Verif Require Import PyBase PyBaseFacts PyValues ValidatorsModel MultiLangModel MultiLangSpec MultiLangProofs MultiLangProps DotDictModel DotDictProofs SchemaModel SchemaTables
  TablesModel CommentModel CommentSpec CommentProofs CommentProps XmlModel OutflowModel ProseModel ProseSpec ProseProofs ProseTrips.
Import ListNotations.
Local Open Scope string_scope.
Local Open Scope list_scope.

Section Texts.
Context (E : env) (show : pyval -> pystr) (ns : pystr) (long : nat) (gap : ifield -> N) (name_id : pystr -> pystr) (vote : pystr) (n m : Z).
Notation trip' := (trip E show ns long gap name_id vote n m).
Notation trips' := (trips E show ns long gap name_id vote n m).
Notation en := (lit "en").

(** ** Fields with one English text *)
Lemma one_row i t : visible_text t -> language_rows sep_ (keep [((i, en, t) : triple)]) [english t].
Proof. intros Hv. rewrite keep_all by (repeat constructor; exact Hv). apply (rows_single sep_default [(i, en, t)]). repeat constructor. Qed.
Lemma two_rows i t j u : (i < j)%Z -> visible_text t -> visible_text u ->
  language_rows sep_ (keep [((i, en, t) : triple); (j, en, u)]) [english (t ++ newline ++ u)].
Proof.
  intros Hij Ht Hu. rewrite keep_all by (repeat constructor; assumption).
  split; [repeat constructor|]. split.
  - intros k. cbn [map fst In]. split.
    + intros [<-|[]]. exists i, t. now left.
    + intros (a & b & [[= _ <- _]|[[= _ <- _]|[]]]); now left.
  - intros k s [[= <- <-]|[]]. apply (lines_text sep_default en [(i, t); (j, u)]). repeat constructor. exact Hij.
Qed.
Lemma sent_one a f i t O : iclass f = CLang KMulti (Some Languages) Unlimited_ -> sent E n m a f = Ok O -> values n m a f = [entry_at i (english t)] -> visible_text t ->
  reported show ns (lit "field") O = [row_val (english t)].
Proof.
  intros Hc Hs Hval Hv. destruct (sent_unlimited E show ns n m a f O [[(i, en, t)]] Hc Hs) as (R & R1 & _ & R3).
  { rewrite Hval. constructor; [apply (speaks_entry i (english t))|constructor]. }
  pose proof (language_rows_unique _ _ _ _ R1 (one_row i t Hv)) as HR. rewrite R3, HR. reflexivity.
Qed.
Lemma sent_none a f O : iclass f = CLang KMulti (Some Languages) Unlimited_ -> sent E n m a f = Ok O -> values n m a f = [] ->
  reported show ns (lit "field") O = if defaulted f then [row_val (english (lit "none"))] else [].
Proof.
  intros Hc Hs Hval. destruct (sent_unlimited E show ns n m a f O [] Hc Hs) as (R & R1 & _ & R3).
  { rewrite Hval. constructor. }
  assert (R = []) as HR.
  { destruct R as [|[k t] R]; [reflexivity|]. destruct R1 as (_ & R1 & _). destruct (proj1 (R1 k) (or_introl eq_refl)) as (i & u & []). }
  rewrite R3, HR. unfold shown_rows. destruct (defaulted f); reflexivity.
Qed.
Lemma visible_app_l s t : visible_text s -> visible_text (s ++ t).
Proof. intros (c & Hc & Hs). exists c. split; [apply in_or_app; auto|exact Hs]. Qed.
Lemma visible_app_r s t : visible_text t -> visible_text (s ++ t).
Proof. intros (c & Hc & Hs). exists c. split; [apply in_or_app; auto|exact Hs]. Qed.

(** ** C174: data treatment and sampling *)
Definition dev_line : pystr := lit "Deviations from LCI Method Principles: ".
Definition data_line : pystr := lit "Data Treatment and Extrapolations Principles: ".
Definition constants_line : pystr := lit "Modelling Constants: ".
Lemma treatment_trip a a' m0 : trip' a = Ok a' -> f_model a = english m0 -> In m0 (map fst system_model) ->
  f_model a' = english m0 /\
  (f_extrapolations a = [] -> within (ignore E) long [english dev_line] -> f_extrapolations a' = [english dev_line]) /\
  (forall t, f_extrapolations a = [english t] -> visible_text t -> within (ignore E) long [english (wrapped t)] -> f_extrapolations a' = [english (wrapped t)]).
Proof.
  intros H Hm Hin. journey_of H.
  destruct (proj1 C78_original_model_partial m0 Hin) as (i & Hi & Hfst & Hsys).
  assert (Hdev : deviation_comment (line_model m0) = (Some m0, dev_line)).
  { unfold line_model. change (mark_model ++ m0) with ([] ++ mark_model ++ m0). rewrite model_at; [reflexivity| |].
    - rewrite app_nil_r. apply quiet_b_ok. vm_compute. reflexivity.
    - apply notin_b. assert (Ha : forallb (fun k => negb (existsb (N.eqb 10) k)) (map fst system_model) = true) by (vm_compute; reflexivity).
      rewrite forallb_forall in Ha. now apply negb_true_iff, Ha. }
  destruct Jr7 as (k7 & Hk7 & H7). rewrite (sent_one a DevPrinciple 1 (line_model m0) (O DevPrinciple) eq_refl (Jsent DevPrinciple)) in H7.
  2:{ cbn [values]. rewrite Hm. reflexivity. }
  2:{ apply visible_app_l. exists 79%N. split; [now left|reflexivity]. }
  cbn [receive] in H7. rewrite said_row in H7. cbn [bind] in H7. unfold deviation_step in H7. change (snd (english (line_model m0))) with (line_model m0) in H7.
  change (str_eqb (line_model m0) (lit "none")) with false in H7. rewrite Hdev in H7. cbn [bind optional app] in H7. injection H7 as <-. cbn [fst snd] in *.
  split.
  { destruct Jmodel as (ap & i' & mm & _ & Hsm & ->). cbn [map last] in Hsm. rewrite Hsys in Hsm. injection Hsm as <- _. reflexivity. }
  assert (Hra : snd (fst ra) = []).
  { destruct Jra as (? & _ & Hra). rewrite (sent_none a DevCutOff (O DevCutOff) eq_refl (Jsent DevCutOff) eq_refl) in Hra. cbn in Hra. injection Hra as <-. reflexivity. }
  assert (Hrb : snd (fst rb) = []).
  { destruct Jrb as (? & _ & Hrb). rewrite (sent_none a DevSelection (O DevSelection) eq_refl (Jsent DevSelection) eq_refl) in Hrb. cbn in Hrb. injection Hrb as <-. reflexivity. }
  assert (Hrc : snd (fst rc) = []).
  { destruct Jrc as (? & _ & Hrc). rewrite (sent_none a DevTreatment (O DevTreatment) eq_refl (Jsent DevTreatment) eq_refl) in Hrc. cbn in Hrc. injection Hrc as <-. reflexivity. }
  rewrite Hra, Hrb, Hrc in Jextra. cbn [app] in Jextra. rewrite app_nil_r in Jextra. destruct Jr10 as (k10 & Hk10 & Hk710 & H10).
  assert (Vd : visible_text dev_line) by (exists 68%N; split; [now left|reflexivity]).
  split.
  - intros He Hw. rewrite (sent_none a Treatment (O Treatment) eq_refl (Jsent Treatment)) in H10 by (cbn [values]; now rewrite He). cbn in H10. injection H10 as <-. cbn [fst snd app] in Jextra.
    exact (spoken_one E long k7 dev_line _ Jextra Vd Hw).
  - intros t He Ht Hw. rewrite (sent_one a Treatment 1 t (O Treatment) eq_refl (Jsent Treatment)) in H10; [|cbn [values]; now rewrite He|exact Ht].
    cbn [receive] in H10. rewrite said_row in H10. cbn [bind prefix_step] in H10. injection H10 as <-. cbn [fst snd app] in Jextra.
    refine (spoken_long E long _ [[(k7, en, dev_line)]; [(k10, en, data_line ++ t)]] [english (wrapped t)] _ Jextra _ _ Hw).
    + constructor; [apply (speaks_entry k7 (english dev_line))|]. constructor; [apply (speaks_entry k10 (english (data_line ++ t)))|constructor].
    + apply (two_rows k7 dev_line k10 (data_line ++ t)); [lia|exact Vd|now apply visible_app_r].
Qed.
Lemma sampling_trip a a' : trip' a = Ok a' ->
  (f_energy a = None -> f_energy a' = Some vote /\ forall t, f_sampling a = [english t] -> visible_text t -> within (ignore E) long [english t] -> f_sampling a' = [english t]) /\
  (forall x, f_energy a = Some x -> In x (map fst energy) ->
     f_energy a' = Some (if str_eqb x (lit "0") then vote else x) /\
     (f_sampling a = [] -> within (ignore E) long [english constants_line] -> f_sampling a' = [english constants_line]) /\
     (forall t, f_sampling a = [english t] -> visible_text t -> within (ignore E) long [english (followed t)] -> f_sampling a' = [english (followed t)])).
Proof.
  intros H. journey_of H. cbv zeta in Jnotes. destruct Jnotes as (_ & _ & _ & _ & _ & _ & _ & _ & _ & N).
  rewrite last_assigned in N by (cbn; auto 10). rewrite !assigned_app in N.
  destruct Jr3 as (k3 & _ & H3). destruct Jr4 as (k4 & _ & H4). destruct Jr6 as (k6 & _ & H6). destruct Jr9 as (k9 & Hk9 & H9). destruct Jr11 as (k11 & Hk11 & H11).
  rewrite (assigned_from _ _ Energy (marked_from _ _ _ general_from _ _ H3)), (assigned_from _ _ Energy (marked_from _ _ _ time_from _ _ H4)),
    (assigned_from _ _ Energy (marked_from _ _ _ tech_from _ _ H6)) in N by (cbn; intuition discriminate).
  assert (Vc : visible_text constants_line) by (exists 77%N; split; [now left|reflexivity]).
  split.
  - intros He. rewrite (sent_none a ModellingConstants (O ModellingConstants) eq_refl (Jsent ModellingConstants)) in H9 by (cbn [values]; now rewrite He). cbn in H9. injection H9 as <-. cbn in N.
    split; [exact N|]. intros t Hs Ht Hw. rewrite (sent_one a Sampling 1 t (O Sampling) eq_refl (Jsent Sampling)) in H11; [|cbn [values]; now rewrite Hs|exact Ht].
    cbn [receive] in H11. rewrite said_row in H11. cbn [bind fixed_step] in H11. injection H11 as <-. cbn [fst snd app] in Jsampling. exact (spoken_one E long 0 t _ Jsampling Ht Hw).
  - intros x He Hx. rewrite (sent_one a ModellingConstants 1 (line_energy x) (O ModellingConstants) eq_refl (Jsent ModellingConstants)) in H9;
      [|cbn [values]; now rewrite He|apply visible_app_l; exists 69%N; split; [now left|reflexivity]].
    cbn [receive] in H9. rewrite said_row in H9. cbn [bind] in H9. unfold constants_step in H9. change (snd (english (line_energy x))) with (line_energy x) in H9.
    rewrite (proj1 (proj2 C33_fields_read_back) x Hx) in H9. cbn [settle existsb snd bind] in H9. injection H9 as <-. cbn [fst snd app] in *.
    cbn [assigned] in N. destruct (slot_eq_dec Energy Energy) as [_|C]; [|contradiction]. split; [rewrite N; destruct (str_eqb x (lit "0")); reflexivity|]. split.
    + intros Hs Hw. rewrite (sent_none a Sampling (O Sampling) eq_refl (Jsent Sampling)) in H11 by (cbn [values]; now rewrite Hs). cbn in H11. injection H11 as <-. cbn [fst snd app] in Jsampling.
      exact (spoken_one E long k9 constants_line _ Jsampling Vc Hw).
    + intros t Hs Ht Hw. rewrite (sent_one a Sampling 1 t (O Sampling) eq_refl (Jsent Sampling)) in H11; [|cbn [values]; now rewrite Hs|exact Ht].
      cbn [receive] in H11. rewrite said_row in H11. cbn [bind fixed_step] in H11. injection H11 as <-. cbn [fst snd app] in Jsampling.
      refine (spoken_long E long _ [[(k9, en, constants_line)]; [(0%Z, en, t)]] [english (followed t)] _ Jsampling _ _ Hw).
      * constructor; [apply (speaks_entry k9 (english constants_line))|]. constructor; [apply (speaks_entry 0 (english t))|constructor].
      * cbn [concat app]. change [(k9, en, constants_line); (0%Z, en, t)] with ([(k9, en, constants_line)] ++ [(0%Z, en, t)]). rewrite keep_app.
        apply rows_swap with (A := keep [(0%Z, en, t)]).
        -- intros j l u v Hj Hv. apply keep_in in Hj as [[[= <- _ _]|[]] _]. apply keep_in in Hv as [[[= Hv _ _]|[]] _]. lia.
        -- rewrite <- keep_app. apply (two_rows 0 t k9 constants_line); auto. lia.
Qed.

(** ** Production volumes and places *)
Lemma volumes_lines (vs : list pystr) : forall i, vs <> [] -> Forall visible_text vs ->
  language_rows sep_ (keep (numbers i (map english vs))) [english (join newline vs)].
Proof.
  intros i Hne Hv. rewrite keep_all.
  2:{ apply Forall_forall. intros [[j l] t] Hi. apply numbers_in in Hi. apply in_map_iff in Hi as (y & [= _ <-] & Hi). rewrite Forall_forall in Hv. now apply Hv. }
  assert (HL : exists l, numbers i (map english vs) = lines en l /\ map snd l = vs /\ StronglySorted Z.lt (map fst l) /\ forall j t, In (j, t) l -> (i <= j)%Z).
  { clear. revert i. induction vs as [|v vs IH]; intros i.
    - exists []. split; [reflexivity|]. split; [reflexivity|]. split; [constructor|intros j t []].
    - destruct (IH (i + 1)%Z) as (l & L1 & L2 & L3 & L4). exists ((i, v) :: l). cbn [map english numbers fst snd]. rewrite L1, L2. split; [reflexivity|]. split; [reflexivity|]. split.
      + constructor; [exact L3|]. apply Forall_forall. intros j Hj. apply in_map_iff in Hj as ([j' t] & <- & Hj). specialize (L4 _ _ Hj). cbn [fst]. lia.
      + intros j t [[= <- _]|Hj]; [lia|]. specialize (L4 _ _ Hj). lia. }
  destruct HL as (l & -> & <- & HS & _). split; [repeat constructor|]. split.
  - intros k. cbn [map fst In]. split.
    + intros [<-|[]]. destruct l as [|[j t] l]; [now contradiction Hne|]. exists j, t. now left.
    + intros (j & u & Hi). apply in_map_iff in Hi as ([j' t] & [= _ <- _] & _). now left.
  - intros k t [[= <- <-]|[]]. now apply lines_text.
Qed.
Lemma place_trip a a' k t : trip' a = Ok a' -> f_places a = [(k, t)] -> visible_text t -> within (ignore E) 40 [english t] -> f_places a' = [english t].
Proof.
  intros H Hp Hv Hw. journey_of H. destruct Jlocation as (loc & L1 & L2). rewrite Hp in L1. cbn [map snd text_out assign_all] in L1.
  unfold location_class, add_, lift, lim_add, add_separator, str_validate in L1. cbn [bind] in L1.
  unfold end_, on, pT, limited_end in L1. destruct (negb (ValidatorsModel.within (LMax 500) (length t)) && negb (ignore E))%bool; cbn [bind] in L1; [discriminate|]. injection L1 as <-.
  exact (spoken_one E 40 1 t _ L2 Hv Hw).
Qed.

(** ** Several trips *)
Lemma trips_end k a a' : trips' (S k) a = Ok a' -> exists b, trips' k a = Ok b /\ trip' b = Ok a'.
Proof.
  revert a. induction k as [|k IH]; intros a H.
  - cbn [trips] in H. destruct (trip' a) as [b|] eqn:Eb; cbn [bind] in H; [|discriminate]. injection H as <-. exists a. auto.
  - cbn [trips] in H. destruct (trip' a) as [b|] eqn:Eb; cbn [bind] in H; [|discriminate]. destruct (IH b) as (c & H1 & H2).
    { cbn [trips]. exact H. }
    exists c. split; [|exact H2]. cbn [trips]. rewrite Eb. exact H1.
Qed.
Lemma within_before k h ig lo rows : within ig lo (put_before k h rows) -> within ig lo rows.
Proof.
  intros H l t Hin. unfold put_before in H. destruct (str_eqb l k) eqn:El.
  - destruct (H l (h ++ newline ++ t)) as [Hx|Hx]; auto.
    + apply in_map_iff. exists (l, t). cbn [fst snd]. rewrite El. auto.
    + right. rewrite !app_length in Hx. lia.
  - apply (H l t). apply in_map_iff. exists (l, t). cbn [fst snd]. rewrite El. auto.
Qed.
Lemma within_one ig lo s t : length s <= length t -> within ig lo [english t] -> within ig lo [english s].
Proof. intros Hl H k u [[= <- <-]|[]]. destruct (H en t (or_introl eq_refl)); [now left|right; lia]. Qed.

(** ** The theorems *)
Theorem C169_general_comment_partial a a' rows t0 :
  trip' a = Ok a' -> f_tags a = [] -> f_scenario a = [] -> f_scenario_comment a = [] -> legal_facts (facts_of a) ->
  reads (f_general a) rows -> above (-4) (f_general a) -> In (en, t0) rows -> Forall (fun kt => plain general_marks (snd kt)) rows -> within (ignore E) long rows ->
  reads (f_general a') rows /\ f_subtype a' = kept_or (f_subtype a) (lit "0") /\ f_parent a' = f_parent a /\
  (forall x, f_link a = Some x -> f_link a' = Some x) /\ (f_parent a = None -> f_inherit a' = kept_or (f_inherit a) (lit "0")).
Proof.
  intros H Ht Hs Hc Hl Hr Hab Hin Hp Hw.
  assert (Hid : at_en (fun t => closed_lines (tail_lines None None) ++ t) rows = rows) by exact (at_en_id rows).
  destruct (general_trip E show ns long gap name_id vote n m a a' rows t0 None None H Ht Hs Hc Hl ltac:(discriminate) ltac:(discriminate) Hr Hab Hin Hp) as (G1 & _ & _ & G2 & G3 & G4 & G5).
  { now rewrite Hid. }
  rewrite Hid in G1. split; [exact G1|]. split; [exact G3|]. split; [exact G4|]. split.
  - intros x Hx. destruct G2 as [G2|[G2 _]]; [now rewrite G2|rewrite G2 in Hx; discriminate].
  - intros Hp0. now rewrite Hp0 in G5.
Qed.
Theorem C169_scenario_refuted a a' rows t0 s :
  trip' a = Ok a' -> f_tags a = [] -> f_scenario a = [english s] -> f_scenario_comment a = [] -> legal_facts (facts_of a) -> plain general_marks s ->
  reads (f_general a) rows -> above (-4) (f_general a) -> In (en, t0) rows -> Forall (fun kt => plain general_marks (snd kt)) rows -> within (ignore E) long (put_before en (scenario_line s) rows) ->
  reads (f_general a') (put_before en (scenario_line s) rows) /\ f_scenario a' = [english (lit "Business-as-Usual")].
Proof.
  intros H Ht Hs Hc Hl Hps Hr Hab Hin Hp Hw.
  assert (Hid : at_en (fun t => closed_lines (tail_lines (Some s) None) ++ t) rows = put_before en (scenario_line s) rows).
  { rewrite <- at_en_before. unfold at_en. apply map_ext. intros [l t]. cbn [fst snd]. unfold closed_lines, tail_lines. cbn [optional app map concat]. rewrite app_nil_r, <- app_assoc. reflexivity. }
  destruct (general_trip E show ns long gap name_id vote n m a a' rows t0 (Some s) None H Ht Hs Hc Hl) as (G1 & _); auto.
  - intros s' [= <-]. exact Hps.
  - discriminate.
  - now rewrite Hid.
  - rewrite Hid in G1. split; [exact G1|]. journey_of H. exact (proj1 Jrest).
Qed.
Theorem C170_name_partial a a' k t : trip' a = Ok a' -> f_names a = [(k, t)] -> visible_text t -> within (ignore E) 120 [(k, t)] -> f_names a' = [(k, t)].
Proof.
  intros H Hn Hv Hw. destruct (names_trip E show ns long gap name_id vote n m a a' H) as (s & Hs & Ha & _); rewrite ?Hn; auto; try discriminate.
  - repeat constructor. intros [].
  - rewrite Hn in Hs. destruct Hs as [<-|[]]. exact Ha.
Qed.
Theorem C170_names_refuted a a' : trip' a = Ok a' -> 2 <= length (f_names a) -> NoDup (map fst (f_names a)) -> Forall (fun s => visible_text (snd s)) (f_names a) -> within (ignore E) 120 (f_names a) ->
  exists s, In s (f_names a) /\ f_names a' = [s] /\ (forall s', In s' (f_names a) -> str_leb (fst s) (fst s') = true) /\ exists s', In s' (f_names a) /\ ~ In s' (f_names a').
Proof.
  intros H Hl Hnd Hv Hw. destruct (names_trip E show ns long gap name_id vote n m a a' H) as (s & Hs & Ha & Hmin); auto.
  { intros C. rewrite C in Hl. cbn in Hl. lia. }
  exists s. repeat (split; [assumption|]). rewrite Ha. destruct (f_names a) as [|x [|y l]]; cbn [length] in Hl; try lia.
  cbn [map] in Hnd. apply NoDup_cons_iff in Hnd as [Hnx _]. destruct (list_eq_dec N.eq_dec (fst x) (fst s)) as [Ex|Ex].
  - exists y. split; [right; now left|]. intros [Ey|[]]. apply Hnx. left. rewrite <- Ey. symmetry. exact Ex.
  - exists x. split; [now left|]. intros [Ey|[]]. apply Ex. now rewrite Ey.
Qed.
Theorem C171_synonyms_partial a a' xs : trip' a = Ok a' -> f_synonyms a = map english xs -> xs <> [] -> Forall (fun x => ~ occurs (lit "; ") x) xs ->
  Forall (fun x => visible_text x /\ length x <= 80) xs -> f_synonyms a' = f_synonyms a.
Proof. intros H Hs Hne Ho Hv. rewrite Hs. now apply (synonyms_trip E show ns long gap name_id vote n m a a' en xs). Qed.
Theorem C171_language_refuted a a' k xs : trip' a = Ok a' -> f_synonyms a = map (fun x => (k, x)) xs -> k <> en -> xs <> [] -> Forall (fun x => ~ occurs (lit "; ") x) xs ->
  Forall (fun x => visible_text x /\ length x <= 80) xs -> f_synonyms a' = map english xs /\ f_synonyms a' <> f_synonyms a.
Proof.
  intros H Hs Hk Hne Ho Hv. pose proof (synonyms_trip E show ns long gap name_id vote n m a a' k xs H Hs Hne Ho Hv) as Ha. split; [exact Ha|].
  rewrite Ha, Hs. destruct xs as [|x xs]; [contradiction|]. cbn [map]. intros C. injection C as C _. apply Hk. symmetry. exact C.
Qed.
Theorem C172_technology_partial a a' rows :
  trip' a = Ok a' -> f_start a = [] -> f_end a = [] -> (forall x, f_level a = Some x -> In x (map fst tech)) ->
  reads (f_technology a) rows -> above (-1) (f_technology a) -> Forall (fun kt => plain tech_marks (snd kt)) rows -> within (ignore E) long rows ->
  reads (f_technology a') rows /\ f_start a' = [] /\ f_end a' = [] /\ f_level a' = kept_or (f_level a) (lit "3").
Proof.
  intros H H1 H2 H3 H4 H5 H6 H7. destruct (tech_plain_trip E show ns long gap name_id vote n m a a' rows H H1 H2 H3 H4 H5 H6 H7) as (G1 & _ & G2). auto.
Qed.
(** included activities that can be read back *)
Definition good_included (s e : pystr) : Prop :=
  one_line s /\ one_line e /\ plain [lit "Activity End: "; lit "Technology Level: "] s /\ plain [lit "Activity Start: "; lit "Technology Level: "] e /\
  visible_text s /\ visible_text e /\ within (ignore E) long [english s] /\ within (ignore E) long [english e].
Theorem C172_included_first_partial a a' rows t0 x s e :
  trip' a = Ok a' -> f_start a = [english s] -> f_end a = [english e] -> good_included s e -> f_level a = Some x -> In x (map fst tech) ->
  (0 <= n)%Z -> above (n + Z.of_nat (length (f_names a)) + 1) (f_technology a) ->
  reads (f_technology a) rows -> In (en, t0) rows -> Forall (fun kt => plain tech_marks (snd kt)) rows -> within (ignore E) long rows ->
  reads (f_technology a') rows /\ f_start a' = f_start a /\ f_end a' = f_end a /\ f_level a' = Some x.
Proof.
  intros H Hs He (P1 & P2 & P3 & P4 & P5 & P6 & P7 & P8) Hx Hl Hn Hab Hr Hin Hp Hw.
  destruct (tech_included_trip E show ns long gap name_id vote n m a a' rows t0 x s e H Hs He Hx Hl P1 P2 P3 P4 P5 P6 P7 P8 Hr) as (_ & G); auto.
  - intros i k u Hi. specialize (Hab _ _ _ Hi). lia.
  - unfold reference. lia.
  - destruct (G Hab Hw) as (G1 & _ & G2 & G3 & G4). rewrite Hs, He. auto.
Qed.
Theorem C172_included_last_refuted a a' rows t0 x s e :
  trip' a = Ok a' -> f_start a = [english s] -> f_end a = [english e] -> good_included s e -> f_level a = Some x -> In x (map fst tech) ->
  (0 <= n)%Z -> above (-1) (f_technology a) -> below (n + Z.of_nat (length (f_names a))) (f_technology a) ->
  reads (f_technology a) rows -> In (en, t0) rows -> Forall (fun kt => plain tech_marks (snd kt)) rows -> within (ignore E) long (at_en (fun t => t ++ newline) rows) ->
  reads (f_technology a') (at_en (fun t => t ++ newline) rows) /\ f_start a' = f_start a /\ f_end a' = f_end a /\ f_level a' = Some x.
Proof.
  intros H Hs He (P1 & P2 & P3 & P4 & P5 & P6 & P7 & P8) Hx Hl Hn Hab Hb Hr Hin Hp Hw.
  destruct (tech_included_trip E show ns long gap name_id vote n m a a' rows t0 x s e H Hs He Hx Hl P1 P2 P3 P4 P5 P6 P7 P8 Hr) as (G & _); auto.
  - unfold reference. lia.
  - destruct (G Hb Hw) as (G1 & _ & G2 & G3 & G4). rewrite Hs, He. auto.
Qed.
Theorem C173_geography k : forall a a' rows, trips' k a = Ok a' -> reads (f_geography a) rows -> within (ignore E) long rows -> reads (f_geography a') rows.
Proof.
  induction k as [|k IH]; intros a a' rows H Hr Hw; [injection H as <-; exact Hr|]. cbn [trips] in H. destruct (trip' a) as [b|] eqn:Eb; cbn [bind] in H; [|discriminate].
  apply (IH b a' rows H); [|exact Hw]. exact (geography_trip E show ns long gap name_id vote n m a b rows Eb Hr Hw).
Qed.
Theorem C173_allocation_partial k : forall a a' rows, trips' k a = Ok a' -> reads (f_allocation a) rows -> within (ignore E) long rows ->
  Forall (fun kt => snd kt <> lit "none") rows -> reads (f_allocation a') rows.
Proof.
  induction k as [|k IH]; intros a a' rows H Hr Hw Hn; [injection H as <-; exact Hr|]. cbn [trips] in H. destruct (trip' a) as [b|] eqn:Eb; cbn [bind] in H; [|discriminate].
  apply (IH b a' rows H); auto. pose proof (allocation_trip E show ns long gap name_id vote n m a b rows Eb Hr Hw) as G.
  assert (Ef : filter (fun kt => negb (str_eqb (snd kt) (lit "none"))) rows = rows).
  { clear -Hn. induction Hn as [|kt rows Hk _ IH]; [reflexivity|]. cbn [filter]. destruct (str_eqb (snd kt) (lit "none")) eqn:Ek; [apply str_eqb_eq in Ek; contradiction|]. cbn [negb]. now rewrite IH. }
  now rewrite Ef in G.
Qed.
Theorem C173_allocation_none_refuted a a' rows k : trip' a = Ok a' -> reads (f_allocation a) rows -> within (ignore E) long rows -> In (k, lit "none") rows ->
  exists rows', reads (f_allocation a') rows' /\ ~ In k (map fst rows').
Proof.
  intros H Hr Hw Hin. pose proof (allocation_trip E show ns long gap name_id vote n m a a' rows H Hr Hw) as G. eexists. split; [exact G|].
  intros Hk. apply in_map_iff in Hk as ([k' t] & Ek & Hk). cbn [fst] in Ek. subst k'. apply filter_In in Hk as [Hk Hf].
  apply rows_kept in Hr. destruct Hr as [Hs _]. assert (t = lit "none").
  { clear -Hs Hk Hin. induction rows as [|[l u] rows IH]; [destruct Hin|]. cbn [map fst] in Hs. apply StronglySorted_inv in Hs as [Hs Hf]. rewrite Forall_forall in Hf.
    destruct Hin as [Hin|Hin], Hk as [Hk|Hk].
    - congruence.
    - injection Hin as -> ->. destruct (Hf k) as [_ C]; [apply in_map_iff; exists (k, t); auto|contradiction].
    - injection Hk as -> ->. destruct (Hf k) as [_ C]; [apply in_map_iff; exists (k, lit "none"); auto|contradiction].
    - now apply IH. }
  subst t. discriminate.
Qed.
Theorem C173_time_partial k : forall a a' rows, trips' k a = Ok a' -> reads (f_time a) rows -> within (ignore E) long rows -> above (-1) (f_time a) ->
  (forall x, f_validity a = Some x -> In x (map fst time_period)) -> Forall (fun kt => ~ occurs (lit "Validity: ") (snd kt)) rows ->
  reads (f_time a') rows /\ (k <> 0 -> f_validity a' = kept_or (f_validity a) (lit "true")).
Proof.
  induction k as [|k IH]; intros a a' rows H Hr Hw Hab Hval Hp; [injection H as <-; split; [exact Hr|contradiction]|].
  cbn [trips] in H. destruct (trip' a) as [b|] eqn:Eb; cbn [bind] in H; [|discriminate].
  destruct (time_trip E show ns long gap name_id vote n m a b rows Eb Hr Hw Hab Hval Hp) as (G1 & G2 & G3).
  assert (Hval' : forall x, f_validity b = Some x -> In x (map fst time_period)).
  { intros x Hx. rewrite G3 in Hx. injection Hx as <-. destruct (f_validity a) as [y|] eqn:Ey; [now apply Hval|]. vm_compute. auto. }
  destruct (IH b a' rows H G1 Hw) as (G4 & G5); auto.
  { intros i l u Hi. specialize (G2 _ _ _ Hi). lia. }
  split; [exact G4|]. intros _. destruct k as [|k].
  - injection H as <-. rewrite G3. destruct (f_validity a); reflexivity.
  - rewrite G5 by discriminate. rewrite G3. destruct (f_validity a); reflexivity.
Qed.
Theorem C174_treatment_refuted k : forall a a' m0 t, trips' k a = Ok a' -> f_model a = english m0 -> In m0 (map fst system_model) -> f_extrapolations a = [english t] -> visible_text t ->
  within (ignore E) long [english (Nat.iter k wrapped t)] -> f_extrapolations a' = [english (Nat.iter k wrapped t)] /\ f_model a' = f_model a.
Proof.
  induction k as [|k IH]; intros a a' m0 t H Hm Hin He Ht Hw; [injection H as <-; auto|].
  apply trips_end in H as (b & Hb & H).
  destruct (IH a b m0 t Hb Hm Hin He Ht) as (G1 & G2).
  { eapply within_one; [|exact Hw]. cbn [Nat.iter nat_rect]. unfold Nat.iter, wrapped. rewrite !app_length. lia. }
  destruct (treatment_trip b a' m0 H) as (T1 & _ & T3); [congruence|exact Hin|]. split; [|congruence].
  apply (T3 (Nat.iter k wrapped t)); auto.
  clear -Ht. induction k as [|k IHk]; [exact Ht|]. cbn [Nat.iter nat_rect]. apply visible_app_r, visible_app_r, visible_app_r. exact IHk.
Qed.
Theorem C174_sampling_refuted k : forall a a' x t, trips' k a = Ok a' -> f_energy a = Some x -> In x (map fst energy) -> In vote (map fst energy) -> f_sampling a = [english t] -> visible_text t ->
  within (ignore E) long [english (Nat.iter k followed t)] -> f_sampling a' = [english (Nat.iter k followed t)].
Proof.
  intros a a' x t H He Hx Hvote Hs Ht. revert a' H.
  enough (G : forall a', trips' k a = Ok a' -> within (ignore E) long [english (Nat.iter k followed t)] ->
    f_sampling a' = [english (Nat.iter k followed t)] /\ exists y, f_energy a' = Some y /\ In y (map fst energy)) by (intros a' H Hw; now destruct (G a' H Hw)).
  induction k as [|k IH]; intros a' H Hw; [injection H as <-; split; eauto|].
  apply trips_end in H as (b & Hb & H). destruct (IH b Hb) as (G1 & y & G2 & G3).
  { eapply within_one; [|exact Hw]. cbn [Nat.iter nat_rect]. unfold Nat.iter, followed. rewrite !app_length. lia. }
  destruct (proj2 (sampling_trip b a' H) y G2 G3) as (S1 & _ & S3). split.
  - apply (S3 (Nat.iter k followed t)); auto. clear -Ht. induction k as [|k IHk]; [exact Ht|]. cbn [Nat.iter nat_rect]. apply visible_app_l. exact IHk.
  - eexists. split; [exact S1|]. destruct (str_eqb y (lit "0")); assumption.
Qed.
(** a data set that says nothing about either comes back with headings *)
Theorem C174_empty_refuted a a' m0 x : trip' a = Ok a' -> f_model a = english m0 -> In m0 (map fst system_model) -> f_extrapolations a = [] -> f_sampling a = [] -> f_energy a = Some x -> In x (map fst energy) ->
  within (ignore E) long [english (lit "Deviations from LCI Method Principles: ")] -> within (ignore E) long [english (lit "Modelling Constants: ")] ->
  f_extrapolations a' = [english (lit "Deviations from LCI Method Principles: ")] /\ f_sampling a' = [english (lit "Modelling Constants: ")].
Proof.
  intros H Hm Hin He Hs Hen Hx W1 W2. destruct (treatment_trip a a' m0 H Hm Hin) as (_ & T & _). destruct (proj2 (sampling_trip a a' H) x Hen Hx) as (_ & S & _). auto.
Qed.
Theorem C175_volumes_partial a d : there E n m a = Ok d -> f_volumes a <> [] -> Forall visible_text (f_volumes a) -> within (ignore E) 500 [english (join newline (f_volumes a))] ->
  d_texts d Volumes = [{| o_index := None; o_lang := Some en; o_text := join newline (f_volumes a) |}].
Proof.
  intros H Hne Hv Hw. unfold there in H. destruct (approaches_out a); cbn [bind] in H; [|discriminate].
  destruct (mapM (sent E n m a) _) as [outs|] eqn:Eo; cbn [bind] in H; [|discriminate]. destruct (text_out E location_class (map snd (f_places a))); cbn [bind] in H; [|discriminate].
  injection H as <-. cbn [d_texts]. destruct (mapM_ok_in _ _ _ Volumes Eo) as [y Hy]; [cbn [In]; auto 20|]. rewrite Hy.
  destruct (sent_field E show ns n m a Volumes y _ (Some Languages) (Range_ 1 500) Hy eq_refl eq_refl (numbered_speak (map english (f_volumes a)) (-1000))) as (R & R1 & _ & R3).
  rewrite concat_single in R1. pose proof (language_rows_unique _ _ _ _ R1 (volumes_lines (f_volumes a) (-1000) Hne Hv)) as HR. subst R.
  destruct R3 as [-> _]; [|reflexivity].
  intros k t [[= <- <-]|[]]. left. destruct (Hw en _ (or_introl eq_refl)) as [Hl|Hl]; [now left|right]. cbn [tc_limit Range_]. split; [|exact Hl].
  destruct (f_volumes a) as [|v vs]; [contradiction|]. inversion Hv as [|? ? (c & Hc & _) _]; subst. pose proof (join_length_in newline (v :: vs) v (or_introl eq_refl)).
  destruct v; [destruct Hc|]. cbn [length] in *. lia.
Qed.
Theorem C175_volumes_refuted a a' : trip' a = Ok a' -> f_volumes a' = [].
Proof. intros H. journey_of H. apply Jrest. Qed.
Definition talks (a : activity) (rows : list speech) t0 : Prop :=
  f_tags a = [] /\ f_scenario_comment a = [] /\ legal_facts (facts_of a) /\ reads (f_general a) rows /\ above (-4) (f_general a) /\ In (en, t0) rows /\ Forall (fun kt => plain general_marks (snd kt)) rows.
Lemma facts_legal a a' : (forall s, is_uuid (name_id s)) -> legal_facts (facts_of a) ->
  (f_link a' = f_link a \/ (f_link a = None /\ exists name, f_link a' = Some (name_id name))) -> f_subtype a' = kept_or (f_subtype a) (lit "0") -> f_parent a' = f_parent a ->
  f_inherit a' = match f_parent a with Some _ => Some (lit "-1") | None => kept_or (f_inherit a) (lit "0") end -> legal_facts (facts_of a').
Proof.
  intros Hid (L1 & L2 & L3 & L4) H1 H2 H3 H4. unfold legal_facts, facts_of in *. cbn [a_link a_parent a_subtype a_inherit] in *. rewrite H2, H3, H4. repeat split.
  - intros x Hx. destruct H1 as [H1|[_ (name & H1)]]; [rewrite H1 in Hx; auto|]. rewrite H1 in Hx. injection Hx as <-. apply Hid.
  - exact L2.
  - intros x Hx. destruct (f_subtype a) as [y|]; cbn [kept_or] in Hx; injection Hx as <-; [now apply L3|]. vm_compute. auto.
  - intros x Hx. destruct (f_parent a); [injection Hx as <-; vm_compute; auto|]. destruct (f_inherit a) as [y|]; cbn [kept_or] in Hx; [now apply L4|discriminate].
Qed.
Lemma talks_next a a' rows t0 so : (forall s, is_uuid (name_id s)) -> talks a rows t0 -> trip' a = Ok a' -> f_scenario a = map english (optional (fun x => x) so) -> (forall s, so = Some s -> plain general_marks s) ->
  let rows' := match so with Some s => put_before en (scenario_line s) rows | None => rows end in
  within (ignore E) long rows' -> exists t1, talks a' rows' t1 /\ f_scenario a' = [english (lit "Business-as-Usual")].
Proof.
  intros Hid (T1 & T2 & T3 & T4 & T5 & T6 & T7) H Hs Hps rows' Hw.
  assert (Hat : at_en (fun t => closed_lines (tail_lines so None) ++ t) rows = rows').
  { unfold rows'. destruct so as [s|]; [|exact (at_en_id rows)]. rewrite <- at_en_before. unfold at_en. apply map_ext. intros [l t]. cbn [fst snd].
    unfold closed_lines, tail_lines. cbn [optional app map concat]. rewrite app_nil_r, <- app_assoc. reflexivity. }
  destruct (general_trip E show ns long gap name_id vote n m a a' rows t0 so None H T1 Hs T2 T3 Hps ltac:(discriminate) T4 T5 T6 T7) as (G1 & G2 & G3 & G4 & G5 & G6 & G7).
  { now rewrite Hat. }
  rewrite Hat in G1. journey_of H. destruct Jrest as (S1 & S2 & _). exists (match so with Some s => scenario_line s ++ newline ++ t0 | None => t0 end). split; [|exact S1].
  split; [exact G3|]. split; [exact S2|]. split; [now apply (facts_legal a)|]. split; [exact G1|]. split; [intros i l u Hi; specialize (G2 _ _ _ Hi); lia|]. split.
  - unfold rows'. destruct so; [|exact T6]. unfold put_before. apply in_map_iff. exists (en, t0). split; [reflexivity|exact T6].
  - apply Forall_forall. intros [l t] Hi. unfold rows' in Hi. rewrite Forall_forall in T7. destruct so as [s|]; [|exact (T7 _ Hi)].
    unfold put_before in Hi. apply in_map_iff in Hi as ([l' t'] & Ex & Hi). cbn [fst snd] in Ex. pose proof (T7 _ Hi) as Hpl. cbn [snd] in Hpl. destruct (str_eqb l' en); injection Ex as <- <-; [|exact Hpl].
    pose proof (tail_plain (Some s) None t' Hps ltac:(discriminate) Hpl) as Ht. unfold closed_lines, tail_lines in Ht. cbn [optional app map concat] in Ht. rewrite app_nil_r, <- app_assoc in Ht. exact Ht.
Qed.
Theorem C176_comment_grows_refuted k : (forall s, is_uuid (name_id s)) -> forall a a' rows t0,
  trips' (S k) a = Ok a' -> f_tags a = [] -> f_scenario a = [] -> f_scenario_comment a = [] -> legal_facts (facts_of a) ->
  reads (f_general a) rows -> above (-4) (f_general a) -> In (en, t0) rows -> Forall (fun kt => plain general_marks (snd kt)) rows ->
  within (ignore E) long (Nat.iter k (put_before en usual_line) rows) -> reads (f_general a') (Nat.iter k (put_before en usual_line) rows).
Proof.
  intros Hid a a' rows t0 H T1 Hs T2 T3 T4 T5 T6 T7.
  enough (G : within (ignore E) long (Nat.iter k (put_before en usual_line) rows) -> exists t1, talks a' (Nat.iter k (put_before en usual_line) rows) t1 /\ f_scenario a' = [english (lit "Business-as-Usual")]).
  { intros Hw. destruct (G Hw) as (t1 & (_ & _ & _ & G1 & _) & _). exact G1. }
  assert (Hpu : plain general_marks (lit "Business-as-Usual")).
  { intros q Hq. apply not_infixb. cbn [In general_marks] in Hq. destruct Hq as [<-|[<-|[<-|[<-|[<-|[]]]]]]; vm_compute; reflexivity. }
  revert a' H. induction k as [|k IH]; intros a' H Hw.
  - cbn [trips] in H. destruct (trip' a) as [b|] eqn:Eb; cbn [bind] in H; [|discriminate]. injection H as <-.
    apply (talks_next a b rows t0 None); auto; [exact (conj T1 (conj T2 (conj T3 (conj T4 (conj T5 (conj T6 T7))))))|discriminate].
  - apply trips_end in H as (b & Hb & H). destruct (IH b Hb) as (t1 & G1 & G2).
    { eapply within_before. exact Hw. }
    apply (talks_next b a' _ t1 (Some (lit "Business-as-Usual"))); auto. intros s [= <-]. exact Hpu.
Qed.
Theorem C177_place_partial a a' t : trip' a = Ok a' -> f_places a = [english t] -> visible_text t -> within (ignore E) 40 [english t] -> f_places a' = f_places a.
Proof. intros H Hp Hv Hw. rewrite Hp. exact (place_trip a a' en t H Hp Hv Hw). Qed.
Theorem C177_place_language_refuted a a' k t : trip' a = Ok a' -> f_places a = [(k, t)] -> k <> en -> visible_text t -> within (ignore E) 40 [english t] -> f_places a' = [english t] /\ f_places a' <> f_places a.
Proof. intros H Hp Hk Hv Hw. pose proof (place_trip a a' k t H Hp Hv Hw) as G. split; [exact G|]. rewrite G, Hp. unfold english. congruence. Qed.
End Texts.
Print Assumptions C169_general_comment_partial.
Print Assumptions C169_scenario_refuted.
Print Assumptions C170_name_partial.
Print Assumptions C170_names_refuted.
Print Assumptions C171_synonyms_partial.
Print Assumptions C171_language_refuted.
Print Assumptions C172_technology_partial.
Print Assumptions C172_included_first_partial.
Print Assumptions C172_included_last_refuted.
Print Assumptions C173_geography.
Print Assumptions C173_allocation_partial.
Print Assumptions C173_allocation_none_refuted.
Print Assumptions C173_time_partial.
Print Assumptions C174_treatment_refuted.
Print Assumptions C174_sampling_refuted.
Print Assumptions C174_empty_refuted.
Print Assumptions C175_volumes_partial.
Print Assumptions C175_volumes_refuted.
Print Assumptions C176_comment_grows_refuted.
Print Assumptions C177_place_partial.
Print Assumptions C177_place_language_refuted.

(** ** The classes of the fields are those of the class tables *)
Definition class_in (valid : list (pystr * DotDictModel.field vc)) (name : pystr) (c : vc) : Prop := exists f, getf name valid = Some f /\ DotDictModel.f_type f = TVal c.
Lemma classes_agree :
  class_in ILCD1_Name_VALID (lit "baseName") (iclass BaseName) /\ class_in ILCD1_Name_VALID (lit "mixAndLocationTypes") (iclass MixAndLocation) /\
  class_in ILCD1_DataSetInformation_VALID (lit "synonyms") (iclass Synonyms) /\ class_in ILCD1_DataSetInformation_VALID (lit "generalComment") (iclass GeneralComment) /\
  class_in ILCD1_Time_VALID (lit "timeRepresentativenessDescription") (iclass TimeDescription) /\
  class_in ILCD1_LocationOfOperationSupplyOrProduction_VALID (lit "descriptionOfRestrictions") (iclass Restrictions) /\
  class_in ILCD1_LocationOfOperationSupplyOrProduction_VALID (lit "location") location_class /\
  class_in ILCD1_Technology_VALID (lit "technologyDescriptionAndIncludedProcesses") (iclass TechDescription) /\
  class_in ILCD1_LCIMethodAndAllocation_VALID (lit "deviationsFromLCIMethodPrinciple") (iclass DevPrinciple) /\
  class_in ILCD1_LCIMethodAndAllocation_VALID (lit "deviationsFromLCIMethodApproaches") (iclass DevApproaches) /\
  class_in ILCD1_LCIMethodAndAllocation_VALID (lit "modellingConstants") (iclass ModellingConstants) /\
  class_in ILCD1_DataSourcesTreatmentAndRepresentativeness_VALID (lit "deviationsFromCutOffAndCompletenessPrinciples") (iclass DevCutOff) /\
  class_in ILCD1_DataSourcesTreatmentAndRepresentativeness_VALID (lit "deviationsFromSelectionAndCombinationPrinciples") (iclass DevSelection) /\
  class_in ILCD1_DataSourcesTreatmentAndRepresentativeness_VALID (lit "dataTreatmentAndExtrapolationsPrinciples") (iclass Treatment) /\
  class_in ILCD1_DataSourcesTreatmentAndRepresentativeness_VALID (lit "deviationsFromTreatmentAndExtrapolationPrinciples") (iclass DevTreatment) /\
  class_in ILCD1_DataSourcesTreatmentAndRepresentativeness_VALID (lit "annualSupplyOrProductionVolume") (iclass Volumes) /\
  class_in ILCD1_DataSourcesTreatmentAndRepresentativeness_VALID (lit "samplingProcedure") (iclass Sampling) /\
  class_in ECS2_Activity_VALID (lit "activityName") name_class /\ class_in ECS2_Activity_VALID (lit "synonym") synonym_class /\ class_in ECS2_Activity_VALID (lit "tag") tag_class /\
  class_in ECS2_ECS2TextAndImage_VALID (lit "text") (comment_class lim32000) /\ class_in ECS2_Activity_VALID (lit "includedActivitiesStart") (long_class lim32000) /\
  class_in ECS2_Activity_VALID (lit "includedActivitiesEnd") (long_class lim32000) /\ class_in ECS2_Representativeness_VALID (lit "samplingProcedure") (long_class lim32000) /\
  class_in ECS2_Representativeness_VALID (lit "extrapolations") (long_class lim32000) /\ class_in ECS2_Geography_VALID (lit "shortname") place_class.
Proof. repeat apply conj; eexists; (split; [reflexivity|reflexivity]). Qed.

(** ** An activity that makes the trip *)
Definition sample : activity :=
  {| f_names := [(lit "en", lit "steel production"); (lit "de", lit "Stahlherstellung")]; f_places := [(lit "de", lit "CH")];
     f_synonyms := [(lit "en", lit "steelmaking"); (lit "en", lit "steel mill")];
     f_start := [english (lit "From the gate")]; f_end := [english (lit "to the gate")];
     f_allocation := [(1%Z, lit "en", lit "by mass")]; f_general := [(1%Z, lit "en", lit "A comment."); (2%Z, lit "en", lit "More."); (1%Z, lit "de", lit "Hinweis")];
     f_technology := [(1%Z, lit "en", lit "oxygen furnace")]; f_time := [(1%Z, lit "en", lit "one year")]; f_geography := [(3%Z, lit "en", lit "Alps"); (1%Z, lit "fr", lit "Alpes")];
     f_tags := []; f_link := None; f_parent := None; f_inherit := Some (lit "0"); f_subtype := Some (lit "1"); f_energy := Some (lit "1"); f_level := Some (lit "2"); f_validity := Some (lit "false");
     f_scenario := []; f_scenario_comment := []; f_model := english (lit "Undefined");
     f_sampling := [english (lit "survey")]; f_extrapolations := [english (lit "none made")]; f_volumes := [volume_text (lit "steel") (lit "5.0") (lit "kg") None] |}.
Definition sample_trips (k : nat) (a : activity) : result activity :=
  trips {| is_word := fun _ => true; fromiso := fun _ => None; ignore := false |} (fun _ => []) (lit "ns") 200 (fun _ => 7%N) (fun _ => lit "00000000-0000-0000-0000-000000000000") (lit "0") 1000 1010 k a.
Definition view {A} (f : activity -> A) (k : nat) (a : activity) : result A := bind (sample_trips k a) (fun b => Ok (f b)).
Example C169_nonvacuous : view (fun b => (map (fun t => (snd (fst t), snd t)) (f_general b), f_subtype b)) 1 sample =
  Ok ([(lit "de", lit "Hinweis"); (lit "en", lit "A comment." ++ newline ++ lit "More.")], Some (lit "1")).
Proof. lazy. reflexivity. Qed.
Example C170_nonvacuous : view f_names 1 sample = Ok [(lit "de", lit "Stahlherstellung")].
Proof. lazy. reflexivity. Qed.
Example C171_nonvacuous : view f_synonyms 1 sample = Ok (f_synonyms sample).
Proof. lazy. reflexivity. Qed.
Example C172_nonvacuous : view (fun b => (map snd (f_technology b), f_start b, f_end b, f_level b)) 1 sample =
  Ok ([lit "oxygen furnace" ++ newline], f_start sample, f_end sample, Some (lit "2")).
Proof. lazy. reflexivity. Qed.
Example C173_nonvacuous : view (fun b => (map snd (f_geography b), map snd (f_time b), map snd (f_allocation b), f_validity b)) 2 sample =
  Ok ([lit "Alps"; lit "Alpes"], [lit "one year"], [lit "by mass"], Some (lit "false")).
Proof. lazy. reflexivity. Qed.
Example C174_nonvacuous : view (fun b => (f_extrapolations b, f_sampling b)) 2 sample = Ok ([english (wrapped (wrapped (lit "none made")))], [english (followed (followed (lit "survey")))]).
Proof. lazy. reflexivity. Qed.
Example C175_nonvacuous : bind (there {| is_word := fun _ => true; fromiso := fun _ => None; ignore := false |} 1000 1010 sample) (fun d => Ok (map o_text (d_texts d Volumes))) =
  Ok [lit "Production volume for steel is 5.0 kg"].
Proof. lazy. reflexivity. Qed.
Example C176_nonvacuous : view (fun b => map snd (filter (fun t => str_eqb (snd (fst t)) (lit "en")) (f_general b))) 3 sample =
  Ok [usual_line ++ newline ++ usual_line ++ newline ++ lit "A comment." ++ newline ++ lit "More."].
Proof. lazy. reflexivity. Qed.
Example C177_nonvacuous : view f_places 1 sample = Ok [english (lit "CH")].
Proof. lazy. reflexivity. Qed.
