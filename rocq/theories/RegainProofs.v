(** Proofs about the texts of an ILCD process on the way to EcoSpold2 and back. *)
From Coq Require Import Ascii String List Bool Arith NArith ZArith Lia Sorted Permutation.
From Verif Require Import PyBase PyBaseFacts PyValues ValidatorsModel MultiLangModel MultiLangSpec MultiLangProofs MultiLangProps DotDictModel DotDictProofs SchemaModel SchemaTables
  TablesModel CommentModel CommentSpec CommentProofs CommentProps XmlModel OutflowModel ProseModel ProseSpec ProseProofs ProseTrips ProseProps RegainModel RegainSpec.
Import ListNotations.
Local Open Scope string_scope.
Local Open Scope list_scope.

(** ** Texts in any order *)
Lemma rows_any sep (L : list triple) (rows : list speech) : NoDup (map (fun a : triple => snd (fst a)) L) -> alphabetical rows ->
  (forall k t, In (k, t) rows <-> exists i, In (i, k, t) L) -> language_rows (Some sep) L rows.
Proof.
  intros Hnd Hs Hi.
  assert (U : forall i j k u v, In (i, k, u) L -> In (j, k, v) L -> i = j /\ u = v).
  { clear -Hnd. induction L as [|a L IH]; intros i j k u v H1 H2; [destruct H1|]. cbn [map] in Hnd. apply NoDup_cons_iff in Hnd as [Hn Hnd].
    destruct H1 as [H1|H1], H2 as [H2|H2].
    - rewrite H1 in H2. injection H2 as -> ->. auto.
    - exfalso. apply Hn. rewrite H1. apply in_map_iff. exists (j, k, v). auto.
    - exfalso. apply Hn. rewrite H2. apply in_map_iff. exists (i, k, u). auto.
    - now apply (IH Hnd i j k). }
  assert (T : forall i k u, In (i, k, u) L -> texts_at L i k = [u]).
  { clear -Hnd. intros i k u H. induction L as [|a L IH]; [destruct H|]. cbn [map] in Hnd. apply NoDup_cons_iff in Hnd as [Hn Hnd].
    destruct H as [->|H].
    - unfold texts_at. cbn [filter fst snd]. rewrite Z.eqb_refl, str_eqb_refl. cbn [andb map snd]. f_equal. change (texts_at L i k = []).
      apply texts_at_none. intros v Hv. apply Hn. cbn [fst snd]. apply in_map_iff. exists (i, k, v). auto.
    - unfold texts_at in *. cbn [filter]. destruct (str_eqb (snd (fst a)) k) eqn:Ek.
      + exfalso. apply Hn. apply str_eqb_eq in Ek. rewrite Ek. apply in_map_iff. exists (i, k, u). auto.
      + rewrite andb_false_r. now apply IH. }
  split; [exact Hs|]. split.
  - intros k. split.
    + intros Hk. apply in_map_iff in Hk as ([k' t] & Ek & Hk). cbn [fst] in Ek. subst k'. apply Hi in Hk as (i & Hk). eauto.
    + intros (i & u & Hu). apply in_map_iff. exists (k, u). split; [reflexivity|]. apply Hi. eauto.
  - intros k t Hk. apply Hi in Hk as (i & Hk). exists [i]. split; [repeat constructor|]. split.
    + intros j. cbn [In]. split; [intros [<-|[]]; eauto|]. intros (v & Hv). left. now destruct (U _ _ _ _ _ Hk Hv).
    + cbn [map join]. now rewrite (T _ _ _ Hk).
Qed.
Lemma sorted_nodup (l : list pystr) : StronglySorted str_lt l -> NoDup l.
Proof.
  induction 1 as [|a l _ IH Hf]; constructor; [|exact IH]. intros Hin. rewrite Forall_forall in Hf. destruct (Hf a Hin) as [_ C]. now apply C.
Qed.
Lemma spaced_langs d l : forall n, map (fun a : triple => snd (fst a)) (spaced_triples d n l) = map fst l.
Proof. induction l as [|s l IH]; intros n; [reflexivity|]. cbn [spaced_triples map fst snd]. now rewrite IH. Qed.
Lemma spaced_in d l : forall n k t, In (k, t) l <-> exists i, In (i, k, t) (spaced_triples d n l).
Proof.
  intros n k t. pose proof (spaced_keys d l n) as Hk. split.
  - intros Hin. rewrite <- Hk in Hin. apply in_map_iff in Hin as ([[i k'] t'] & [= <- <-] & Hin). eauto.
  - intros (i & Hin). rewrite <- Hk. apply in_map_iff. exists (i, k, t). auto.
Qed.
Lemma spaced_any sep d n l rows : NoDup (map fst l) -> alphabetical rows -> (forall k t, In (k, t) rows <-> In (k, t) l /\ visible_text t) ->
  language_rows (Some sep) (keep (spaced_triples d n l)) rows.
Proof.
  intros Hnd Hs Hi. apply rows_any; [|exact Hs|].
  - apply keep_langs. now rewrite spaced_langs.
  - intros k t. rewrite Hi. split.
    + intros [Hin Hv]. apply (spaced_in d l n) in Hin as (i & Hin). exists i. unfold keep. apply filter_In. split; [exact Hin|].
      unfold nonblank, entry_of. cbn [tx snd]. apply isspace_visible in Hv as [V1 V2]. rewrite V2. destruct t; [contradiction|reflexivity].
    + intros (i & Hin). apply keep_in in Hin as [Hin Hv]. split; [|exact Hv]. apply (spaced_in d l n). eauto.
Qed.

(** ** Reading *)
Section Reading.
  Context (E : env) (long : nat).
  (** [l]: the texts in the order of the file; [rows]: what is left of them *)
  Lemma comment_found skip (rd : pystr -> result (notes * pystr)) f c d l rows k0 x vs n2 T :
    NoDup (map fst l) ->
    (forall kt, In kt l -> skip (snd kt) = false -> rd (snd kt) = Ok (f (snd kt))) ->
    receive (gstep skip rd c d) k0 (map row_val l) = Ok (x, vs, n2) ->
    comment_out E long vs = Ok T -> (1000 <= k0)%Z -> (0 <= c)%Z -> (0 <= d)%Z -> alphabetical rows ->
    (forall k t, In (k, t) rows <-> visible_text t /\ exists u, In (k, u) l /\ skip u = false /\ t = snd (f u)) ->
    within (ignore E) long rows ->
    reads T rows /\ above 999 T /\ x = flat_map (fun kt => fst (f (snd kt))) (filter (fun kt => negb (skip (snd kt))) l).
  Proof.
    intros Hnd Hr Hx HT Hk0 Hc Hd Hs Hi Hw. rewrite (receive_g skip rd f c d l k0 Hr) in Hx. injection Hx as <- <- <-.
    apply comment_read in HT as [Ha HT].
    set (q := map (fun kt : speech => (fst kt, snd (f (snd kt)))) (filter (fun kt : speech => negb (skip (snd kt))) l)) in *.
    rewrite (additions_speak None _ _ Ha (spaced_speak d q (k0 + c))), concat_single in HT.
    assert (R : language_rows sep_ (keep (spaced_triples d (k0 + c) q)) rows).
    { apply spaced_any; [|exact Hs|].
      - unfold q. rewrite map_map. cbn [fst]. clear -Hnd. induction l as [|a l IH]; [constructor|]. cbn [map] in Hnd. apply NoDup_cons_iff in Hnd as [Hn Hnd].
        cbn [filter]. destruct (negb (skip (snd a))); [|auto]. cbn [map]. constructor; [|auto]. intros C. apply Hn. apply in_map_iff in C as (b & Hb & C). apply filter_In in C as [C _].
        apply in_map_iff. eauto.
      - intros k t. rewrite Hi. unfold q. split.
        + intros [Hv (u & Hu & Hsk & ->)]. split; [|exact Hv]. apply in_map_iff. exists (k, u). split; [reflexivity|]. apply filter_In. cbn [snd]. rewrite Hsk. auto.
        + intros [Hin Hv]. split; [exact Hv|]. apply in_map_iff in Hin as ([k' u] & [= <- <-] & Hin). apply filter_In in Hin as [Hin Hsk]. cbn [snd] in *. exists u.
          destruct (skip u); [discriminate|]. auto. }
    destruct (HT rows R (within_fits _ _ _ Hw)) as (H1 & H2 & H3). split; [now apply keep_done|]. split; [|reflexivity].
    intros i k u Hin. apply H3 in Hin as (v & Hin). apply keep_in in Hin as [Hin _]. clear -Hin Hc Hd Hk0. assert (Hm : (1000 <= k0 + c)%Z) by lia. revert Hin Hm. generalize (k0 + c)%Z.
    induction q as [|s q IH]; intros z Hin Hm; [destruct Hin|]. cbn [spaced_triples] in Hin. destruct Hin as [[= -> _ _]|Hin]; [lia|]. apply IH in Hin; lia.
  Qed.
  (** texts that reading leaves as they are *)
  Lemma untouched rd l rows k0 (r : notes * list pyval * Z) T : Permutation l rows -> alphabetical rows -> Forall (fun s => visible_text (snd s)) rows ->
    (forall kt, In kt rows -> rd (snd kt) = ([], snd kt)) -> (1000 <= k0)%Z ->
    receive (marked rd) k0 (map row_val l) = Ok r -> comment_out E long (snd (fst r)) = Ok T -> within (ignore E) long rows ->
    reads T rows /\ above 999 T /\ fst (fst r) = [].
  Proof.
    intros Hp Hs Hv Hrd Hk H HT Hw. rewrite (receive_ext _ _ _ (marked_g rd)) in H. destruct r as [[x vs] n2]. cbn [fst snd] in *. rewrite Forall_forall in Hv.
    assert (Hl : forall kt, In kt l -> In kt rows) by (intros kt; apply (Permutation_in _ Hp)).
    destruct (comment_found never (checked rd) (fun t => ([], t)) 1 2 l rows k0 x vs n2 T) as (G1 & G2 & G3); auto; try lia.
    - apply (Permutation_NoDup (l := map fst rows)); [apply Permutation_map; now apply Permutation_sym|]. now apply sorted_nodup.
    - intros kt Hin _. unfold checked. rewrite (Hrd kt (Hl kt Hin)). reflexivity.
    - intros k t. cbn [snd]. split.
      + intros Hin. split; [exact (Hv _ Hin)|]. exists t. split; [apply (Permutation_in _ (Permutation_sym Hp)); exact Hin|]. split; reflexivity.
      + intros [_ (u & Hu & _ & ->)]. exact (Hl _ Hu).
    - split; [exact G1|]. split; [exact G2|]. rewrite G3. clear. match goal with |- flat_map _ ?w = _ => generalize w end. intros z. induction z; [reflexivity|]. cbn [flat_map app fst]. assumption.
  Qed.
  Lemma plain_found skip c d l rows k0 (r : notes * list pyval * Z) T : Permutation l rows -> alphabetical rows -> Forall (fun s => visible_text (snd s)) rows ->
    (1000 <= k0)%Z -> (0 <= c)%Z -> (0 <= d)%Z ->
    receive (gstep skip (fun t => Ok ([] : notes, t)) c d) k0 (map row_val l) = Ok r -> comment_out E long (snd (fst r)) = Ok T ->
    within (ignore E) long (filter (fun kt => negb (skip (snd kt))) rows) -> reads T (filter (fun kt => negb (skip (snd kt))) rows).
  Proof.
    intros Hp Hs Hv Hk Hc Hd H HT Hw. destruct r as [[x vs] n2]. cbn [fst snd] in *. rewrite Forall_forall in Hv.
    assert (Hl : forall kt, In kt l -> In kt rows) by (intros kt; apply (Permutation_in _ Hp)).
    destruct (comment_found skip (fun t => Ok ([], t)) (fun t => ([], t)) c d l (filter (fun kt => negb (skip (snd kt))) rows) k0 x vs n2 T) as (G1 & _); auto.
    - apply (Permutation_NoDup (l := map fst rows)); [apply Permutation_map; now apply Permutation_sym|]. now apply sorted_nodup.
    - unfold alphabetical. now apply SS_filter_fst.
    - intros k t. rewrite filter_In. cbn [snd]. split.
      + intros [Hin Hsk]. split; [exact (Hv _ Hin)|]. exists t. split; [apply (Permutation_in _ (Permutation_sym Hp)); exact Hin|]. destruct (skip t); [discriminate|]. auto.
      + intros [_ (u & Hu & Hsk & ->)]. rewrite Hsk. split; [exact (Hl _ Hu)|reflexivity].
  Qed.
End Reading.

(** ** From ILCD: what the activity gets from the process *)
Section Arrival.
  Context (E : env) (show : pyval -> pystr) (ns : pystr) (long : nat) (gap : ifield -> N) (name_id : pystr -> pystr) (vote : pystr).
  Notation hear d f := (reported show ns (lit "field") (d_texts d f)).
  Notation back' := (back E show ns long gap name_id vote).

  Record arrival (d : ilcd) (a' : activity) (r1 r2 r3 r4 r5 r6 r8 r9 ra rb r10 rc r11 : notes * list pyval * Z) (r7 : list pystr * list pyval * Z) : Prop := {
    v_r1 : receive (A := slot * option pystr) (fixed_step 1) 1000 (hear d BaseName ++ hear d MixAndLocation) = Ok r1;
    v_names : spoken_out E name_class (snd (fst r1)) = Ok (f_names a');
    v_r2 : exists k, (1000 <= k)%Z /\ receive synonym_step k (hear d Synonyms) = Ok r2;
    v_synonyms : spoken_out E synonym_class (snd (fst r2)) = Ok (f_synonyms a');
    v_r3 : exists k, (1000 <= k)%Z /\ receive (marked general_comment) k (hear d GeneralComment) = Ok r3;
    v_general : comment_out E long (snd (fst r3)) = Ok (f_general a');
    v_r4 : exists k, (1000 <= k)%Z /\ receive (marked time_comment) k (hear d TimeDescription) = Ok r4;
    v_time : comment_out E long (snd (fst r4)) = Ok (f_time a');
    v_r5 : exists k, (1000 <= k)%Z /\ receive plain_step k (hear d Restrictions) = Ok r5;
    v_geography : comment_out E long (snd (fst r5)) = Ok (f_geography a');
    v_r6 : exists k, (1000 <= k)%Z /\ receive (marked tech_comment) k (hear d TechDescription) = Ok r6;
    v_technology : comment_out E long (snd (fst r6)) = Ok (f_technology a');
    v_r7 : exists k, (1000 <= k)%Z /\ receive deviation_step k (hear d DevPrinciple) = Ok r7;
    v_r8 : exists k, (1000 <= k)%Z /\ receive twice_step k (hear d DevApproaches) = Ok r8;
    v_allocation : comment_out E long (snd (fst r8)) = Ok (f_allocation a');
    v_r9 : exists k, (1000 <= k)%Z /\ receive constants_step k (hear d ModellingConstants) = Ok r9;
    v_ra : exists k, (1000 <= k)%Z /\ (snd r7 <= k)%Z /\ receive (unless_none (lit "Deviations from Cut-Off and Completeness Principles: ")) k (hear d DevCutOff) = Ok ra;
    v_rb : exists k, (1000 <= k)%Z /\ (snd ra <= k)%Z /\ receive (unless_none (lit "Deviations from Data Selection and Combination Principles: ")) k (hear d DevSelection) = Ok rb;
    v_r10 : exists k, (1000 <= k)%Z /\ (snd rb <= k)%Z /\ receive (prefix_step (lit "Data Treatment and Extrapolations Principles: ")) k (hear d Treatment) = Ok r10;
    v_rc : exists k, (1000 <= k)%Z /\ (snd r10 <= k)%Z /\ receive (unless_none (lit "Deviations from Data Treatment and Extrapolations Principles: ")) k (hear d DevTreatment) = Ok rc;
    v_extrapolations : spoken_out E (long_class long) (snd (fst r7) ++ snd (fst ra) ++ snd (fst rb) ++ snd (fst r10) ++ snd (fst rc)) = Ok (f_extrapolations a');
    v_r11 : exists k, (1000 <= k)%Z /\ receive (A := slot * option pystr) (fixed_step 0) k (hear d Sampling) = Ok r11;
    v_sampling : spoken_out E (long_class long) (snd (fst r9) ++ snd (fst r11)) = Ok (f_sampling a');
    v_notes : let x := fst (fst r3) ++ fst (fst r4) ++ fst (fst r6) ++ fst (fst r9) in
      spoken_out E (long_class long) (map (fun t => entry_at 1 (english t)) (notes_for IncludedStart x)) = Ok (f_start a') /\
      spoken_out E (long_class long) (map (fun t => entry_at 2 (english t)) (notes_for IncludedEnd x)) = Ok (f_end a') /\
      text_out E tag_class (notes_for Tag x) = Ok (f_tags a') /\
      f_parent a' = last_note ParentId x None /\ f_inherit a' = last_note Inheritance x (Some (lit "0")) /\ f_subtype a' = last_note SpecialType x (Some (lit "0")) /\
      f_level a' = last_note TechLevel x (Some (lit "3")) /\ f_validity a' = last_note Validity x (Some (lit "true")) /\
      (exists name, first_name (hear d BaseName) = Ok name /\ f_link a' = last_note ActivityNameId x (Some (name_id name))) /\
      f_energy a' = match last_note Energy x None with Some c => if str_eqb c (lit "0") then Some vote else Some c | None => Some vote end;
    v_location : spoken_out E place_class (map (fun t => entry_at 1 (english t)) (d_location d)) = Ok (f_places a');
    v_model : exists i mm, system_model_of (last (map Some (fst (fst r7))) None) (d_approaches d) = (Some mm, Some i) /\ f_model a' = english mm;
    v_rest : f_scenario a' = [english (lit "Business-as-Usual")] /\ f_scenario_comment a' = [] /\ f_volumes a' = []
  }.
  Tactic Notation "step" hyp(H) ident(r) ident(e) := match type of H with bind ?x _ = Ok _ => destruct x as [r|] eqn:e; cbn [bind] in H; [|discriminate] end.
  Lemma back_inv d a' : back' d = Ok a' -> exists r1 r2 r3 r4 r5 r6 r8 r9 ra rb r10 rc r11 r7, arrival d a' r1 r2 r3 r4 r5 r6 r8 r9 ra rb r10 rc r11 r7.
  Proof.
    intros H. unfold back, heard in H.
    step H r1 Er1. step H names Enames. step H r2 Er2. step H syn Esyn. step H r3 Er3. step H gener Egener. step H r4 Er4. step H tim Etim. step H r5 Er5. step H geo Egeo. step H r6 Er6. step H tec Etec.
    step H r7 Er7. step H r8 Er8. step H all Eall. step H r9 Er9. step H ra Era. step H rb Erb. step H r10 Er10. step H rc Erc. step H ext Eext. step H r11 Er11. step H sam Esam.
    step H sta Esta. step H en Een. step H tags Etags. step H places Eplaces. step H name Ename.
    destruct (system_model_of (last (map Some (fst (fst r7))) None) (d_approaches d)) as [[mm|] [i|]] eqn:Em; try discriminate. injection H as <-.
    pose proof (synonym_up _ _ _ Er2) as U2.
    pose proof (step_up _ _ _ 1 2 ltac:(lia) (marked_g general_comment) _ _ _ Er3) as U3.
    pose proof (step_up _ _ _ 1 2 ltac:(lia) (marked_g time_comment) _ _ _ Er4) as U4.
    pose proof (step_up _ _ _ 0 1 ltac:(lia) plain_g _ _ _ Er5) as U5.
    pose proof (step_up _ _ _ 1 2 ltac:(lia) (marked_g tech_comment) _ _ _ Er6) as U6.
    pose proof (step_up _ _ _ 0 1 ltac:(lia) deviation_g _ _ _ Er7) as U7.
    pose proof (step_up _ _ _ 1 2 ltac:(lia) twice_g _ _ _ Er8) as U8.
    pose proof (step_up _ _ _ 0 1 ltac:(lia) constants_g _ _ _ Er9) as U9.
    pose proof (step_up _ _ _ 0 1 ltac:(lia) (unless_g _) _ _ _ Era) as Ua.
    pose proof (step_up _ _ _ 0 1 ltac:(lia) (unless_g _) _ _ _ Erb) as Ub.
    pose proof (step_up _ _ _ 0 1 ltac:(lia) (prefix_g _) _ _ _ Er10) as U10.
    pose proof (step_up _ _ _ 0 1 ltac:(lia) (unless_g _) _ _ _ Erc) as Uc.
    assert (Hg : forall f, (0 <= Z.of_N (gap f))%Z) by (intros; lia).
    pose proof (Hg Synonyms). pose proof (Hg GeneralComment). pose proof (Hg TimeDescription). pose proof (Hg Restrictions). pose proof (Hg TechDescription).
    pose proof (Hg DevPrinciple). pose proof (Hg DevApproaches). pose proof (Hg ModellingConstants). pose proof (Hg DevCutOff). pose proof (Hg DevSelection).
    pose proof (Hg Treatment). pose proof (Hg DevTreatment). pose proof (Hg Sampling). clear Hg.
    exists r1, r2, r3, r4, r5, r6, r8, r9, ra, rb, r10, rc, r11, r7.
    split; cbn [f_names f_places f_synonyms f_start f_end f_allocation f_general f_technology f_time f_geography f_tags f_link f_parent f_inherit f_subtype f_energy f_level f_validity f_scenario f_scenario_comment f_model f_sampling f_extrapolations f_volumes]; auto;
      try (eexists; split; [|eassumption]; lia);
      try match goal with |- exists k : Z, (1000 <= k)%Z /\ (_ <= k)%Z /\ _ => eexists; split; [|split; [|eassumption]]; unfold notes in *; lia end.
    - cbv zeta. repeat (split; [solve [assumption|reflexivity]|]). split; [|reflexivity]. exists name. auto.
    - exists i, mm. auto.
  Qed.
End Arrival.
Ltac arrival_of H := apply back_inv in H as (r1 & r2 & r3 & r4 & r5 & r6 & r8 & r9 & ra & rb & r10 & rc & r11 & r7 & J);
  destruct J as [Jr1 Jnames Jr2 Jsyn Jr3 Jgeneral Jr4 Jtime Jr5 Jgeography Jr6 Jtechnology Jr7 Jr8 Jallocation Jr9 Jra Jrb Jr10 Jrc Jextra Jr11 Jsampling Jnotes Jlocation Jmodel Jrest].
