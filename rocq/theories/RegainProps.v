(** What happens to the texts of an ILCD process on the way to EcoSpold2 and back. *)
From Coq Require Import Ascii String List Bool Arith NArith ZArith Lia Sorted Permutation.
From Verif Require Import PyBase PyBaseFacts PyValues ValidatorsModel MultiLangModel MultiLangSpec MultiLangProofs MultiLangProps DotDictModel DotDictProofs SchemaModel SchemaTables
  TablesModel CommentModel CommentSpec CommentProofs CommentProps XmlModel OutflowModel ProseModel ProseSpec ProseProofs ProseTrips ProseProps RegainModel RegainSpec RegainProofs.
Import ListNotations.
Local Open Scope string_scope.
Local Open Scope list_scope.

Section Texts.
Context (E : env) (show : pyval -> pystr) (ns : pystr) (long : nat) (gap : ifield -> N) (name_id : pystr -> pystr) (vote : pystr) (n m : Z).
Notation back' := (back E show ns long gap name_id vote).
Notation there' := (there E n m).
Notation trip' := (trip E show ns long gap name_id vote n m).
Notation trips' := (trips E show ns long gap name_id vote n m).
Notation regains' := (regains E show ns long gap name_id vote n m).
Notation en := (lit "en").
Notation hear d f := (reported show ns (lit "field") (d_texts d f)).

(** ** Both ends of the way *)
Lemma regains_split k : forall d d', regains' (S k) d = Ok d' -> exists a a', back' d = Ok a /\ trips' k a = Ok a' /\ there' a' = Ok d'.
Proof.
  induction k as [|k IH]; intros d d' H; cbn [regains] in H; unfold regain in H at 1; destruct (back' d) as [a|] eqn:Eb; cbn [bind] in H; try discriminate.
  - exists a, a. destruct (there' a) as [d1|]; cbn [bind] in H; [|discriminate]. injection H as <-. auto.
  - destruct (there' a) as [d1|] eqn:Et; cbn [bind] in H; [|discriminate]. destruct (IH d1 d' H) as (b & a' & Hb & Ht & Hd).
    exists a, a'. split; [reflexivity|]. split; [|exact Hd]. cbn [trips]. unfold trip. rewrite Et. cbn [bind]. rewrite Hb. exact Ht.
Qed.
Lemma there_inv a d : there' a = Ok d -> (forall f, sent E n m a f = Ok (d_texts d f)) /\ text_out E location_class (map snd (f_places a)) = Ok (d_location d) /\ approaches_out a = Ok (d_approaches d).
Proof.
  unfold there. intros H. destruct (approaches_out a) as [ap|] eqn:Ea; cbn [bind] in H; [|discriminate].
  match type of H with bind ?x _ = Ok _ => destruct x as [outs|] eqn:Eo; cbn [bind] in H; [|discriminate] end.
  destruct (text_out E location_class (map snd (f_places a))) as [loc|] eqn:El; cbn [bind] in H; [|discriminate]. injection H as <-. cbn [d_texts d_location d_approaches].
  split; [|auto]. intros f. destruct (mapM_ok_in _ _ _ f Eo) as [y Hy]; [destruct f; cbn [In]; auto 20|]. now rewrite Hy.
Qed.
Lemma heard_rows d f l : d_texts d f = map element l -> Forall (fun s => visible_text (snd s)) l -> hear d f = map row_val l.
Proof. intros H Hv. rewrite H. exact (reported_rows show ns (lit "field") l Hv). Qed.
Lemma perm_visible (l rows : list speech) : Permutation l rows -> Forall (fun s => visible_text (snd s)) rows -> Forall (fun s => visible_text (snd s)) l.
Proof. intros Hp Hv. rewrite Forall_forall in *. intros s Hs. apply Hv. now apply (Permutation_in _ Hp). Qed.
Lemma written a f ls O : iclass f = CLang KMulti (Some Languages) Unlimited_ -> sent E n m a f = Ok O -> Forall2 speaks (values n m a f) ls ->
  exists rows, language_rows sep_ (keep (concat ls)) rows /\ O = map element (shown_rows f rows).
Proof.
  intros Hc H Hs. destruct (sent_field E show ns _ _ _ _ _ _ _ _ H Hc eq_refl Hs) as (rows & H1 & H2 & H3).
  exists rows. split; [exact H1|]. apply H3. intros k t _. right. reflexivity.
Qed.
Lemma comment_written a f c rows O : iclass f = CLang KMulti (Some Languages) Unlimited_ -> sent E n m a f = Ok O -> values n m a f = texts c -> reads c rows ->
  O = map element (shown_rows f rows).
Proof.
  intros Hc H Hv Hr. destruct (texts_speak c) as (ls & Hls & Ec). rewrite <- Hv in Hls. destruct (written a f ls O Hc H Hls) as (R & R1 & R2).
  rewrite Ec in R1. apply keep_reads in Hr. assert (R = rows) by (eapply language_rows_unique; eauto). now subst R.
Qed.
Lemma line_written a f hl ls c rows O : iclass f = CLang KMulti (Some Languages) Unlimited_ -> defaulted f = false -> sent E n m a f = Ok O ->
  Forall2 speaks (values n m a f) ls -> keep (concat ls) = lines en hl ++ keep c -> hl <> [] -> StronglySorted Z.lt (map fst hl) ->
  (forall i h j l u, In (i, h) hl -> In (j, l, u) c -> (i < j)%Z) -> reads c rows ->
  exists rows', O = map element rows' /\ line_added (join newline (map snd hl)) rows rows'.
Proof.
  intros Hc Hd H Hs Ek Hne Hso Hlt Hr. destruct (written a f ls O Hc H Hs) as (R & R1 & R2). rewrite Ek in R1.
  assert (Es : shown_rows f R = R) by (destruct R; [unfold shown_rows; now rewrite Hd|reflexivity]). rewrite Es in R2. exists R. split; [exact R2|].
  apply keep_reads in Hr.
  assert (Hal : forall i l u, In (i, l, u) (lines en hl) -> l = en) by (intros i l u Hi; apply in_map_iff in Hi as ([j h] & [= _ <- _] & _); reflexivity).
  assert (Hl : lines en hl <> []) by (destruct hl; [contradiction|discriminate]).
  assert (Hltk : forall i u j v, In (i, en, u) (lines en hl) -> In (j, en, v) (keep c) -> (i < j)%Z).
  { intros i u j v Hi Hj. apply in_map_iff in Hi as ([i' h] & [= -> ->] & Hi). apply keep_in in Hj as [Hj _]. eauto. }
  destruct (two_groups sep_default _ _ _ _ rows R Hal Hltk Hl (lines_text sep_default en hl Hso) Hr R1) as (T1 & T2 & T3 & T4).
  split; [apply R1|]. intros k t. split.
  - intros Hin. apply T4 in Hin as [[-> [[Hn ->]|(u & Hu & ->)]]|[Hn Hin]]; [right|right|left]; eauto 10.
  - intros [[Hn Hin]|[-> [(u & Hu & ->)|[-> Hn]]]]; auto.
Qed.

(** ** The facts of a comment without marks *)
Lemma arrived_time d a : back' d = Ok a -> forall rows, states d TimeDescription rows -> Forall (fun kt => ~ occurs (lit "Validity: ") (snd kt)) rows -> within (ignore E) long rows ->
  reads (f_time a) rows /\ above 999 (f_time a) /\ f_validity a = Some (lit "true").
Proof.
  intros H rows (l & Hl & Hp & Hs & Hv) Hpl Hw. arrival_of H. destruct Jr4 as (k & Hk & H4). rewrite (heard_rows d _ l Hl (perm_visible _ _ Hp Hv)) in H4. rewrite Forall_forall in Hpl.
  destruct (untouched E long time_comment l rows k r4 (f_time a) Hp Hs Hv) as (G1 & G2 & G3); auto.
  { intros kt Hin. apply (proj1 (proj2 C73_plain_text_untouched_partial)). exact (Hpl kt Hin). }
  split; [exact G1|]. split; [exact G2|]. cbv zeta in Jnotes. destruct Jnotes as (_ & _ & _ & _ & _ & _ & _ & Hvd & _).
  rewrite last_assigned in Hvd by (cbn; auto 10). rewrite !assigned_app in Hvd.
  destruct Jr6 as (? & _ & H6). destruct Jr9 as (? & _ & H9). destruct Jr3 as (? & _ & H3).
  rewrite (assigned_from _ _ Validity (constants_from _ _ _ H9)) in Hvd by (cbn; intuition discriminate).
  rewrite (assigned_from _ _ Validity (marked_from _ _ _ tech_from _ _ H6)) in Hvd by (cbn; intuition discriminate).
  rewrite (assigned_from _ _ Validity (marked_from _ _ _ general_from _ _ H3)), G3 in Hvd by (cbn; intuition discriminate). exact Hvd.
Qed.
Lemma arrived_tech d a : back' d = Ok a -> forall rows, states d TechDescription rows -> Forall (fun kt => plain tech_marks (snd kt)) rows -> within (ignore E) long rows ->
  reads (f_technology a) rows /\ above 999 (f_technology a) /\ f_level a = Some (lit "3") /\ f_start a = [] /\ f_end a = [].
Proof.
  intros H rows (l & Hl & Hp & Hs & Hv) Hpl Hw. arrival_of H. destruct Jr6 as (k & Hk & H6). rewrite (heard_rows d _ l Hl (perm_visible _ _ Hp Hv)) in H6. rewrite Forall_forall in Hpl.
  destruct (untouched E long tech_comment l rows k r6 (f_technology a) Hp Hs Hv) as (G1 & G2 & G3); auto.
  { intros kt Hin. apply (proj1 (proj2 (proj2 C73_plain_text_untouched_partial))). intros q Hq. apply (Hpl kt Hin). cbn [In tech_marks] in *. tauto. }
  split; [exact G1|]. split; [exact G2|]. cbv zeta in Jnotes. destruct Jnotes as (N1 & N2 & _ & _ & _ & _ & N7 & _). rewrite G3 in N1, N2, N7. cbn [app] in N1, N2, N7.
  destruct Jr4 as (? & _ & H4). destruct Jr3 as (? & _ & H3). destruct Jr9 as (? & _ & H9).
  pose proof (constants_from _ _ _ H9) as F9. pose proof (marked_from _ _ _ time_from _ _ H4) as F4. pose proof (marked_from _ _ _ general_from _ _ H3) as F3.
  rewrite !notes_for_app in N1, N2.
  rewrite !(notes_for_none _ (fst (fst r9))), !(notes_for_none _ (fst (fst r4))), !(notes_for_none _ (fst (fst r3))) in N1
    by (first [apply (assigned_from _ _ _ F9)|apply (assigned_from _ _ _ F4)|apply (assigned_from _ _ _ F3)]; cbn; intuition discriminate).
  rewrite !(notes_for_none _ (fst (fst r9))), !(notes_for_none _ (fst (fst r4))), !(notes_for_none _ (fst (fst r3))) in N2
    by (first [apply (assigned_from _ _ _ F9)|apply (assigned_from _ _ _ F4)|apply (assigned_from _ _ _ F3)]; cbn; intuition discriminate).
  rewrite last_assigned in N7 by (cbn; auto 10). rewrite !assigned_app, (assigned_from _ _ TechLevel F9), (assigned_from _ _ TechLevel F4), (assigned_from _ _ TechLevel F3) in N7 by (cbn; intuition discriminate).
  cbn in N1, N2. injection N1 as <-. injection N2 as <-. auto.
Qed.
Lemma arrived_general d a : back' d = Ok a -> forall rows, states d GeneralComment rows -> Forall (fun kt => plain general_marks (snd kt)) rows -> within (ignore E) long rows ->
  reads (f_general a) rows /\ above 999 (f_general a) /\ f_tags a = [] /\ f_subtype a = Some (lit "0") /\ f_inherit a = Some (lit "0") /\ f_parent a = None /\
  (exists name, first_name (hear d BaseName) = Ok name /\ f_link a = Some (name_id name)) /\ f_scenario a = [english (lit "Business-as-Usual")] /\ f_scenario_comment a = [].
Proof.
  intros H rows (l & Hl & Hp & Hs & Hv) Hpl Hw. arrival_of H. destruct Jr3 as (k & Hk & H3). rewrite (heard_rows d _ l Hl (perm_visible _ _ Hp Hv)) in H3. rewrite Forall_forall in Hpl.
  destruct (untouched E long general_comment l rows k r3 (f_general a) Hp Hs Hv) as (G1 & G2 & G3); auto.
  { intros kt Hin. apply (proj1 C73_plain_text_untouched_partial). exact (Hpl kt Hin). }
  split; [exact G1|]. split; [exact G2|]. cbv zeta in Jnotes. destruct Jnotes as (_ & _ & N3 & N4 & N5 & N6 & _ & _ & (name & Hname & N7) & _). rewrite G3 in *. cbn [app] in *.
  destruct Jr4 as (? & _ & H4). destruct Jr6 as (? & _ & H6). destruct Jr9 as (? & _ & H9).
  assert (Hlast : forall x, ~ In x [Energy] -> ~ In x [IncludedStart; IncludedEnd; TechLevel] -> ~ In x [Validity] -> assigned x (fst (fst r4) ++ fst (fst r6) ++ fst (fst r9)) = None).
  { intros sl X1 X2 X3. rewrite !assigned_app, (assigned_from _ _ sl (constants_from _ _ _ H9) X1), (assigned_from _ _ sl (marked_from _ _ _ tech_from _ _ H6) X2),
      (assigned_from _ _ sl (marked_from _ _ _ time_from _ _ H4) X3). reflexivity. }
  rewrite last_assigned, Hlast in N4, N5, N6, N7 by (cbn; intuition discriminate).
  rewrite (notes_for_none _ _ (Hlast Tag ltac:(cbn; intuition discriminate) ltac:(cbn; intuition discriminate) ltac:(cbn; intuition discriminate))) in N3. cbn in N3. injection N3 as <-.
  destruct Jrest as (S1 & S2 & _). split; [reflexivity|]. split; [exact N6|]. split; [exact N5|]. split; [exact N4|]. split; [exists name; auto|]. auto.
Qed.

(** ** C185: restrictions on the location, deviations from the approaches *)
Theorem C185_restrictions k : forall d d' rows, regains' (S k) d = Ok d' -> states d Restrictions rows -> within (ignore E) long rows -> d_texts d' Restrictions = map element rows.
Proof.
  intros d d' rows H (l & Hl & Hp & Hs & Hv) Hw. apply regains_split in H as (a & a' & Hb & Ht & Hd). apply there_inv in Hd as (Hd & _).
  assert (Hr : reads (f_geography a) rows).
  { arrival_of Hb. destruct Jr5 as (q & Hq & H5). rewrite (heard_rows d _ l Hl (perm_visible _ _ Hp Hv)), (receive_ext _ _ _ plain_g) in H5.
    pose proof (plain_found E long never 0 1 l rows q r5 (f_geography a) Hp Hs Hv Hq ltac:(lia) ltac:(lia) H5 Jgeography) as G. rewrite filter_never in G. now apply G. }
  pose proof (C173_geography E show ns long gap name_id vote n m k a a' rows Ht Hr Hw) as Hr'.
  rewrite (comment_written a' Restrictions (f_geography a') rows _ eq_refl (Hd Restrictions) eq_refl Hr'). now destruct rows.
Qed.
Definition not_none (rows : list speech) : list speech := filter (fun kt => negb (str_eqb (snd kt) (lit "none"))) rows.
Lemma approaches_regained k d d' rows : regains' (S k) d = Ok d' -> states d DevApproaches rows -> within (ignore E) long (not_none rows) ->
  d_texts d' DevApproaches = map element (shown_rows DevApproaches (not_none rows)).
Proof.
  intros H (l & Hl & Hp & Hs & Hv) Hw. apply regains_split in H as (a & a' & Hb & Ht & Hd). apply there_inv in Hd as (Hd & _).
  assert (Hr : reads (f_allocation a) (not_none rows)).
  { arrival_of Hb. destruct Jr8 as (q & Hq & H8). rewrite (heard_rows d _ l Hl (perm_visible _ _ Hp Hv)), (receive_ext _ _ _ twice_g) in H8.
    exact (plain_found E long is_none 1 2 l rows q r8 (f_allocation a) Hp Hs Hv Hq ltac:(lia) ltac:(lia) H8 Jallocation Hw). }
  assert (Hn : Forall (fun kt => snd kt <> lit "none") (not_none rows)).
  { apply Forall_forall. intros kt Hin. apply filter_In in Hin as [_ Hin]. intros C. rewrite C, str_eqb_refl in Hin. discriminate. }
  pose proof (C173_allocation_partial E show ns long gap name_id vote n m k a a' _ Ht Hr Hw Hn) as Hr'.
  exact (comment_written a' DevApproaches (f_allocation a') _ _ eq_refl (Hd DevApproaches) eq_refl Hr').
Qed.
Theorem C186_approaches_partial k : forall d d' rows, regains' (S k) d = Ok d' -> states d DevApproaches rows -> rows <> [] -> Forall (fun kt => snd kt <> lit "none") rows -> within (ignore E) long rows ->
  d_texts d' DevApproaches = map element rows.
Proof.
  intros d d' rows H Hst Hne Hn Hw.
  assert (Ef : not_none rows = rows).
  { clear -Hn. induction Hn as [|kt rows Hk _ IH]; [reflexivity|]. unfold not_none in *. cbn [filter]. destruct (str_eqb (snd kt) (lit "none")) eqn:Ek; [apply str_eqb_eq in Ek; contradiction|]. cbn [negb]. now rewrite IH. }
  rewrite (approaches_regained k d d' rows H Hst) by now rewrite Ef. rewrite Ef. now destruct rows.
Qed.
(** the word none is dropped, and put where nothing is said *)
Theorem C186_none_refuted k : forall d d' rows l t, regains' (S k) d = Ok d' -> states d DevApproaches rows -> within (ignore E) long rows ->
  (In (l, lit "none") rows -> In (element (l, t)) (d_texts d' DevApproaches) -> l = en) /\
  (rows = [] -> d_texts d' DevApproaches = [element (english (lit "none"))]).
Proof.
  intros d d' rows l t H Hst Hw.
  assert (Hw' : within (ignore E) long (not_none rows)) by (intros x y Hin; apply filter_In in Hin as [Hin _]; eauto).
  rewrite (approaches_regained k d d' rows H Hst Hw'). split; [|intros ->; reflexivity].
  intros Hin Hx. destruct Hst as (l0 & _ & _ & Hs & _).
  assert (Hx' : In (l, t) (shown_rows DevApproaches (not_none rows))) by (apply in_map_iff in Hx as ([a b] & [= -> ->] & Hx); exact Hx).
  unfold shown_rows in Hx'. destruct (not_none rows) as [|r rr] eqn:En; [destruct Hx' as [[= <- _]|[]]; reflexivity|]. rewrite <- En in Hx'. exfalso.
  apply filter_In in Hx' as [Hx' Hn]. cbn [snd] in Hn. assert (t = lit "none"); [|subst t; discriminate].
  clear -Hs Hin Hx'. unfold alphabetical in Hs. induction rows as [|[a u] rows IH]; [destruct Hin|]. cbn [map fst] in Hs. apply StronglySorted_inv in Hs as [Hs Hf]. rewrite Forall_forall in Hf.
  destruct Hin as [Hin|Hin], Hx' as [Hx'|Hx'].
  - congruence.
  - injection Hin as -> ->. destruct (Hf l) as [_ C]; [apply in_map_iff; exists (l, t); auto|contradiction].
  - injection Hx' as -> ->. destruct (Hf l) as [_ C]; [apply in_map_iff; exists (l, lit "none"); auto|contradiction].
  - now apply IH.
Qed.

(** ** C187: the descriptions of time and technology settle *)
Theorem C187_time k : forall d d' rows, regains' (S k) d = Ok d' -> states d TimeDescription rows -> Forall (fun kt => ~ occurs (lit "Validity: ") (snd kt)) rows -> within (ignore E) long rows ->
  exists rows', d_texts d' TimeDescription = map element rows' /\ line_added (lit "Validity: Data is valid for the entire period.") rows rows'.
Proof.
  intros d d' rows H Hst Hpl Hw. apply regains_split in H as (a & a' & Hb & Ht & Hd). apply there_inv in Hd as (Hd & _).
  destruct (arrived_time d a Hb rows Hst Hpl Hw) as (G1 & G2 & G3).
  assert (G : reads (f_time a') rows /\ above 999 (f_time a') /\ f_validity a' = Some (lit "true")).
  { clear Hb Hd. revert a G1 G2 G3 Ht. induction k as [|k IH]; intros a G1 G2 G3 Ht; [injection Ht as <-; auto|]. cbn [trips] in Ht. destruct (trip' a) as [b|] eqn:Eb; cbn [bind] in Ht; [|discriminate].
    destruct (time_trip E show ns long gap name_id vote n m a b rows Eb G1 Hw) as (X1 & X2 & X3); auto.
    - intros i l u Hi. specialize (G2 _ _ _ Hi). lia.
    - intros x Hx. rewrite G3 in Hx. injection Hx as <-. vm_compute. auto.
    - rewrite G3 in X3. exact (IH b X1 X2 X3 Ht). }
  destruct G as (X1 & X2 & X3). destruct (texts_speak (f_time a')) as (ls & Hls & Ec).
  apply (line_written a' TimeDescription [((-1)%Z, line_validity (lit "true"))] ([((-1)%Z, en, line_validity (lit "true"))] :: ls) (f_time a') rows _ eq_refl eq_refl (Hd TimeDescription)).
  - cbn [values]. rewrite X3. cbn [optional app]. constructor; [apply (speaks_entry (-1) (english (line_validity (lit "true"))))|exact Hls].
  - change (concat (?x :: ls)) with (x ++ concat ls). rewrite Ec, keep_app. reflexivity.
  - discriminate.
  - repeat constructor.
  - intros i h j l u [[= <- _]|[]] Hj. specialize (X2 _ _ _ Hj). lia.
  - exact X1.
Qed.
Theorem C187_technology k : forall d d' rows, regains' (S k) d = Ok d' -> states d TechDescription rows -> Forall (fun kt => plain tech_marks (snd kt)) rows -> within (ignore E) long rows ->
  exists rows', d_texts d' TechDescription = map element rows' /\ line_added (lit "Technology Level: Current") rows rows'.
Proof.
  intros d d' rows H Hst Hpl Hw. apply regains_split in H as (a & a' & Hb & Ht & Hd). apply there_inv in Hd as (Hd & _).
  destruct (arrived_tech d a Hb rows Hst Hpl Hw) as (G1 & G2 & G3 & G4 & G5).
  assert (G : reads (f_technology a') rows /\ above 999 (f_technology a') /\ f_level a' = Some (lit "3") /\ f_start a' = [] /\ f_end a' = []).
  { clear Hb Hd. revert a G1 G2 G3 G4 G5 Ht. induction k as [|k IH]; intros a G1 G2 G3 G4 G5 Ht; [injection Ht as <-; auto|]. cbn [trips] in Ht. destruct (trip' a) as [b|] eqn:Eb; cbn [bind] in Ht; [|discriminate].
    destruct (tech_plain_trip E show ns long gap name_id vote n m a b rows Eb G4 G5) as (X1 & X2 & X3 & X4 & X5); auto.
    - intros x Hx. rewrite G3 in Hx. injection Hx as <-. vm_compute. auto.
    - intros i l u Hi. specialize (G2 _ _ _ Hi). lia.
    - rewrite G3 in X5. exact (IH b X1 X2 X5 X3 X4 Ht). }
  destruct G as (X1 & X2 & X3 & X4 & X5). destruct (texts_speak (f_technology a')) as (ls & Hls & Ec).
  apply (line_written a' TechDescription [((-1)%Z, line_level (lit "3"))] ([((-1)%Z, en, line_level (lit "3"))] :: ls) (f_technology a') rows _ eq_refl eq_refl (Hd TechDescription)).
  - cbn [values]. rewrite X3, X4, X5. cbn [map numbered optional app]. constructor; [apply (speaks_entry (-1) (english (line_level (lit "3"))))|exact Hls].
  - change (concat (?x :: ls)) with (x ++ concat ls). rewrite Ec, keep_app. reflexivity.
  - discriminate.
  - repeat constructor.
  - intros i h j l u [[= <- _]|[]] Hj. specialize (X2 _ _ _ Hj). lia.
  - exact X1.
Qed.

(** ** C188: the general comment *)
Definition usual : pystr := lit "Business-as-Usual".
Lemma usual_plain : plain general_marks usual.
Proof. intros q Hq. apply not_infixb. cbn [In general_marks] in Hq. destruct Hq as [<-|[<-|[<-|[<-|[<-|[]]]]]]; vm_compute; reflexivity. Qed.
(** an activity without facts of its own *)
Definition bare (x : pystr) (a : activity) (rows : list speech) (t0 : pystr) : Prop :=
  f_tags a = [] /\ f_subtype a = Some (lit "0") /\ f_inherit a = Some (lit "0") /\ f_parent a = None /\ f_link a = Some x /\ f_scenario a = [english usual] /\ f_scenario_comment a = [] /\
  reads (f_general a) rows /\ above 999 (f_general a) /\ In (en, t0) rows /\ Forall (fun kt => plain general_marks (snd kt)) rows.
Lemma bare_next x a a' rows t0 : is_uuid x -> bare x a rows t0 -> trip' a = Ok a' -> within (ignore E) long (put_before en usual_line rows) ->
  bare x a' (put_before en usual_line rows) (usual_line ++ newline ++ t0).
Proof.
  intros Hx (B1 & B2 & B3 & B4 & B5 & B6 & B7 & B8 & B9 & B10 & B11) H Hw.
  assert (Hat : at_en (fun t => closed_lines (tail_lines (Some usual) None) ++ t) rows = put_before en usual_line rows).
  { rewrite <- at_en_before. unfold at_en. apply map_ext. intros [l t]. cbn [fst snd]. unfold closed_lines, tail_lines. cbn [optional app map concat]. rewrite app_nil_r, <- app_assoc. reflexivity. }
  assert (Hlegal : legal_facts (facts_of a)).
  { unfold legal_facts, facts_of. cbn [a_link a_parent a_subtype a_inherit]. rewrite B2, B3, B4, B5. repeat split; try discriminate.
    + intros y [= <-]. exact Hx.
    + intros y [= <-]. vm_compute. auto. }
  assert (Hab : above (-4) (f_general a)) by (intros i l u Hi; specialize (B9 _ _ _ Hi); lia).
  rewrite <- Hat in Hw.
  destruct (general_trip E show ns long gap name_id vote n m a a' rows t0 (Some usual) None H B1 B6 B7 Hlegal ltac:(intros s [= <-]; exact usual_plain) ltac:(discriminate) B8 Hab B10 B11 Hw) as (G1 & G2 & G3 & G4 & G5 & G6 & G7).
  rewrite Hat in G1. rewrite B2 in G5. rewrite B4 in G6, G7. rewrite B3 in G7. journey_of H. destruct Jrest as (S1 & S2 & _).
    assert (G4' : f_link a' = Some x) by (destruct G4 as [G4|[G4 _]]; [now rewrite G4|rewrite B5 in G4; discriminate]).
    unfold bare. repeat (split; [assumption|]). split.
    + unfold put_before. apply in_map_iff. exists (en, t0). split; [reflexivity|exact B10].
    + apply Forall_forall. intros [l t] Hi. rewrite Forall_forall in B11. unfold put_before in Hi. apply in_map_iff in Hi as ([l' t'] & Ex & Hi). cbn [fst snd] in Ex.
      pose proof (B11 _ Hi) as Hpl. cbn [snd] in Hpl. destruct (str_eqb l' en); injection Ex as <- <-; [|exact Hpl].
      pose proof (tail_plain (Some usual) None t' ltac:(intros s [= <-]; exact usual_plain) ltac:(discriminate) Hpl) as Ht. unfold closed_lines, tail_lines in Ht.
      cbn [optional app map concat] in Ht. rewrite app_nil_r, <- app_assoc in Ht. exact Ht.
Qed.
Definition fact_lines (x : pystr) : list pystr := [lit "Activity Linkable Id: " ++ x; lit "Activity Subtype: ordinary transforming activity"; usual_line].
Lemma general_regained k d d' rows t0 names last_ : (forall s, is_uuid (name_id s)) -> regains' (S k) d = Ok d' -> states d GeneralComment rows -> In (en, t0) rows ->
  Forall (fun kt => plain general_marks (snd kt)) rows -> d_texts d BaseName = map element (names ++ [last_]) -> Forall (fun s => visible_text (snd s)) (names ++ [last_]) ->
  within (ignore E) long (Nat.iter k (put_before en usual_line) rows) ->
  exists rows', d_texts d' GeneralComment = map element rows' /\ line_added (join newline (fact_lines (name_id (snd last_)))) (Nat.iter k (put_before en usual_line) rows) rows'.
Proof.
  intros Hid H Hst Hin Hpl Hn Hnv Hw. apply regains_split in H as (a & a' & Hb & Ht & Hd). apply there_inv in Hd as (Hd & _).
  assert (Hw0 : within (ignore E) long rows).
  { clear -Hw. induction k as [|k IH]; [exact Hw|]. apply IH. eapply within_before. exact Hw. }
  destruct (arrived_general d a Hb rows Hst Hpl Hw0) as (A1 & A2 & A3 & A4 & A5 & A6 & (name & Hname & A7) & A8 & A9).
  assert (Hnm : name = snd last_).
  { rewrite (heard_rows d BaseName _ Hn Hnv), map_app in Hname. unfold first_name in Hname. rewrite rev_app_distr in Hname. cbn [map rev app] in Hname. rewrite said_row in Hname.
    cbn [bind] in Hname. now injection Hname as <-. }
  subst name.
  assert (G : exists t1, bare (name_id (snd last_)) a' (Nat.iter k (put_before en usual_line) rows) t1).
  { clear Hd Hb. revert a' Ht. induction k as [|k IH]; intros a' Ht.
    - injection Ht as <-. exists t0. unfold bare. cbn [Nat.iter nat_rect]. unfold Nat.iter. cbn [nat_rect]. repeat (split; [assumption|]). assumption.
    - apply trips_end in Ht as (b & Hb & Ht). destruct (IH (within_before _ _ _ _ _ Hw) b Hb) as (t1 & G). exists (usual_line ++ newline ++ t1).
      exact (bare_next (name_id (snd last_)) b a' _ t1 (Hid _) G Ht Hw). }
  destruct G as (t1 & (B1 & B2 & B3 & B4 & B5 & B6 & B7 & B8 & B9 & B10 & B11)).
  destruct (general_speak n m a' (Some usual) None B1 B6 B7) as (ls & Hls & Ek).
  assert (Eh : map snd (head_lines a' (Some usual) None) = fact_lines (name_id (snd last_))).
  { rewrite head_text. unfold facts_lines, facts_of, tail_lines. cbn [a_link a_subtype a_inherit a_parent]. rewrite B2, B3, B4, B5. reflexivity. }
  destruct (head_sorted a' (Some usual) None) as [Hso Hle].
  destruct (line_written a' GeneralComment (head_lines a' (Some usual) None) ls (f_general a') (Nat.iter k (put_before en usual_line) rows) _ eq_refl eq_refl (Hd GeneralComment) Hls Ek) as (rows' & R1 & R2).
  - intros C. rewrite C in Eh. discriminate.
  - exact Hso.
  - intros i h j l u Hi Hj. apply Hle in Hi. specialize (B9 _ _ _ Hj). lia.
  - exact B8.
  - rewrite Eh in R2. eauto.
Qed.
Lemma iter_before_other k : forall rows l t, l <> en -> In (l, t) (Nat.iter k (put_before en usual_line) rows) <-> In (l, t) rows.
Proof.
  induction k as [|k IH]; intros rows l t Hl; [reflexivity|]. cbn [Nat.iter nat_rect]. rewrite <- (IH rows l t Hl). unfold Nat.iter. set (q := nat_rect _ _ _ k). clearbody q. unfold put_before. rewrite in_map_iff. split.
  - intros ([l' t'] & Ex & Hi). cbn [fst snd] in Ex. destruct (str_eqb l' en) eqn:El; [|now rewrite <- Ex]. apply str_eqb_eq in El. injection Ex as Ex _. congruence.
  - intros Hi. exists (l, t). cbn [fst snd]. destruct (str_eqb l en) eqn:El; [apply str_eqb_eq in El; contradiction|]. auto.
Qed.
Lemma iter_before_en k : forall rows t, In (en, t) rows -> In (en, Nat.iter k (fun u => usual_line ++ newline ++ u) t) (Nat.iter k (put_before en usual_line) rows).
Proof.
  induction k as [|k IH]; intros rows t Hin; [exact Hin|]. specialize (IH rows t Hin). cbn [Nat.iter nat_rect] in *. unfold put_before at 1. apply in_map_iff. eexists. split; [|exact IH]. reflexivity.
Qed.
Theorem C188_other_languages_partial k : forall d d' rows t0 names last_ l t, (forall s, is_uuid (name_id s)) -> regains' (S k) d = Ok d' -> states d GeneralComment rows -> In (en, t0) rows ->
  Forall (fun kt => plain general_marks (snd kt)) rows -> d_texts d BaseName = map element (names ++ [last_]) -> Forall (fun s => visible_text (snd s)) (names ++ [last_]) ->
  within (ignore E) long (Nat.iter k (put_before en usual_line) rows) ->
  l <> en -> (In (element (l, t)) (d_texts d' GeneralComment) <-> In (l, t) rows).
Proof.
  intros d d' rows t0 names last_ l t Hid H Hst Hin Hpl Hn Hnv Hw Hl. destruct (general_regained k d d' rows t0 names last_ Hid H Hst Hin Hpl Hn Hnv Hw) as (rows' & R1 & _ & R2).
  rewrite R1. rewrite <- (iter_before_other k rows l t Hl). split.
  - intros Hi. apply in_map_iff in Hi as ([a b] & [= -> ->] & Hi). apply R2 in Hi as [[_ Hi]|[C _]]; [exact Hi|contradiction].
  - intros Hi. apply in_map_iff. exists (l, t). split; [reflexivity|]. apply R2. auto.
Qed.
Theorem C188_comment_grows_refuted k : forall d d' rows t0 names last_, (forall s, is_uuid (name_id s)) -> regains' (S k) d = Ok d' -> states d GeneralComment rows -> In (en, t0) rows ->
  Forall (fun kt => plain general_marks (snd kt)) rows -> d_texts d BaseName = map element (names ++ [last_]) -> Forall (fun s => visible_text (snd s)) (names ++ [last_]) ->
  within (ignore E) long (Nat.iter k (put_before en usual_line) rows) ->
  In (element (english (join newline (fact_lines (name_id (snd last_))) ++ newline ++ Nat.iter k (fun u => usual_line ++ newline ++ u) t0))) (d_texts d' GeneralComment).
Proof.
  intros d d' rows t0 names last_ Hid H Hst Hin Hpl Hn Hnv Hw. destruct (general_regained k d d' rows t0 names last_ Hid H Hst Hin Hpl Hn Hnv Hw) as (rows' & R1 & _ & R2).
  rewrite R1. apply (in_map element). apply R2. right. split; [reflexivity|]. left. eexists. split; [|reflexivity]. now apply iter_before_en.
Qed.

(** ** C189: names *)
Lemma arrived_name d a s l : back' d = Ok a -> d_texts d BaseName = map element (s :: l) -> Forall (fun s => visible_text (snd s)) (s :: l) -> within (ignore E) 120 [s] -> f_names a = [s].
Proof.
  intros H Hl Hv Hw. arrival_of H. rewrite (heard_rows d BaseName _ Hl Hv), receive_app in Jr1.
  unfold fixed_step in Jr1 at 1. rewrite receive_fixed in Jr1. cbn [bind fst snd] in Jr1.
  destruct (receive (fixed_step 1) 1000 (hear d MixAndLocation)) as [q|] eqn:Eq; cbn [bind] in Jr1; [|discriminate].
  injection Jr1 as <-. cbn [fst snd app] in Jnames. destruct (fixed_values _ _ _ _ Eq) as (ss & Hss). destruct q as [[qx qv] qn]. cbn [fst snd] in *. subst qv. rewrite <- map_app in Jnames.
  assert (Esr : said_rows ((s :: l) ++ ss) = (s :: l) ++ said_rows ss).
  { rewrite <- (said_rows_all (s :: l) Hv) at 2. apply filter_app. }
  pose proof (first_spoken E 1 ((s :: l) ++ ss) _ Jnames) as F. rewrite Esr in F. destruct s as [k t]. cbn [app] in F. apply F. apply (within_fits _ _ _ Hw k). now left.
Qed.
Lemma name_stays k : forall a a' s, trips' k a = Ok a' -> f_names a = [s] -> visible_text (snd s) -> within (ignore E) 120 [s] -> f_names a' = [s].
Proof.
  induction k as [|k IH]; intros a a' s H Hn Hv Hw; [injection H as <-; exact Hn|]. cbn [trips] in H. destruct (trip' a) as [b|] eqn:Eb; cbn [bind] in H; [|discriminate].
  destruct s as [l t]. apply (IH b a' (l, t) H); auto. exact (C170_name_partial E show ns long gap name_id vote n m a b l t Eb Hn Hv Hw).
Qed.
Lemma short_fits ig j lo hi (s : speech) : j <= hi -> lo <= 1 -> visible_text (snd s) -> within ig j [s] -> MultiLangSpec.fits ig (Range_ lo hi) (snd s).
Proof.
  intros Hj Hlo (c & Hc & _) Hw. destruct (Hw (fst s) (snd s)) as [Hl|Hl]; [left; now destruct s|now left|]. right. cbn [tc_limit Range_]. destruct (snd s); [destruct Hc|]. cbn [length] in *. lia.
Qed.
Lemma names_regained k d d' s l : regains' (S k) d = Ok d' -> d_texts d BaseName = map element (s :: l) -> Forall (fun s => visible_text (snd s)) (s :: l) -> within (ignore E) 120 [s] ->
  d_texts d' BaseName = [element s].
Proof.
  intros H Hl Hv Hw. apply regains_split in H as (a & a' & Hb & Ht & Hd). apply there_inv in Hd as (Hd & _). pose proof (Forall_inv Hv) as Hs.
  pose proof (name_stays k a a' s Ht (arrived_name d a s l Hb Hl Hv Hw) Hs Hw) as Hn.
  destruct (sent_field E show ns n m a' BaseName _ _ (Some Languages) (Range_ 1 500) (Hd BaseName) eq_refl eq_refl (numbered_speak (f_names a') n)) as (R & R1 & R2 & R3).
  rewrite Hn, concat_single in R1. cbn [numbers] in R1. rewrite keep_all in R1 by (repeat constructor; exact Hs).
  pose proof (language_rows_unique _ _ _ _ R1 (rows_single sep_default [(n, fst s, snd s)] ltac:(repeat constructor))) as HR. cbn [map key_text fst snd] in HR. subst R.
  destruct R3 as [-> _].
  - intros k0 t [[= <- <-]|[]]. left. apply (short_fits _ 120); auto. lia.
  - destruct s. reflexivity.
Qed.
Theorem C189_name_partial k : forall d d' s, regains' (S k) d = Ok d' -> d_texts d BaseName = [element s] -> visible_text (snd s) -> within (ignore E) 120 [s] -> d_texts d' BaseName = [element s].
Proof. intros d d' s H Hl Hv Hw. apply (names_regained k d d' s [] H Hl); auto. Qed.
Theorem C189_names_refuted k : forall d d' s l, regains' (S k) d = Ok d' -> d_texts d BaseName = map element (s :: l) -> Forall (fun s => visible_text (snd s)) (s :: l) -> within (ignore E) 120 [s] -> l <> [] ->
  d_texts d' BaseName = [element s] /\ d_texts d' BaseName <> d_texts d BaseName.
Proof.
  intros d d' s l H Hl Hv Hw Hne. pose proof (names_regained k d d' s l H Hl Hv Hw) as G. split; [exact G|]. rewrite G, Hl. destruct l as [|x l]; [contradiction|]. discriminate.
Qed.

(** ** C190: the location *)
Lemma places_stay k : forall a a' t, trips' k a = Ok a' -> f_places a = [english t] -> visible_text t -> within (ignore E) 40 [english t] -> f_places a' = [english t].
Proof.
  induction k as [|k IH]; intros a a' t H Hp Hv Hw; [injection H as <-; exact Hp|]. cbn [trips] in H. destruct (trip' a) as [b|] eqn:Eb; cbn [bind] in H; [|discriminate].
  apply (IH b a' t H); auto. exact (place_trip E show ns long gap name_id vote n m a b en t Eb Hp Hv Hw).
Qed.
Lemma places_regained k d d' t : regains' (S k) d = Ok d' -> d_location d = [t] -> visible_text t -> within (ignore E) 40 [english t] ->
  d_location d' = [t] /\ d_texts d' MixAndLocation = [element (english t)].
Proof.
  intros H Hl Hv Hw. apply regains_split in H as (a & a' & Hb & Ht & Hd). apply there_inv in Hd as (Hd & Hloc & _).
  assert (Hp : f_places a = [english t]).
  { arrival_of Hb. rewrite Hl in Jlocation. exact (spoken_one E 40 1 t _ Jlocation Hv Hw). }
  pose proof (places_stay k a a' t Ht Hp Hv Hw) as Hp'. split.
  - rewrite Hp' in Hloc. cbn [map snd english text_out assign_all] in Hloc.
    unfold location_class, add_, lift, lim_add, add_separator, str_validate in Hloc. cbn [bind] in Hloc.
    unfold end_, on, pT, limited_end in Hloc. destruct (negb (ValidatorsModel.within (LMax 500) (length t)) && negb (ignore E))%bool; cbn [bind] in Hloc; [discriminate|]. injection Hloc as <-. reflexivity.
  - destruct (sent_field E show ns n m a' MixAndLocation _ _ (Some Languages) (Range_ 1 500) (Hd MixAndLocation) eq_refl eq_refl (numbered_speak (map (fun s => english (snd s)) (f_places a')) m)) as (R & R1 & R2 & R3).
    rewrite Hp', concat_single in R1. cbn [map snd english numbers fst] in R1. rewrite keep_all in R1 by (repeat constructor; exact Hv).
    pose proof (language_rows_unique _ _ _ _ R1 (rows_single sep_default [(m, en, t)] ltac:(repeat constructor))) as HR. cbn [map key_text fst snd] in HR. subst R.
    destruct R3 as [-> _]; [|reflexivity].
    intros k0 u [[= <- <-]|[]]. left. apply (short_fits _ 40 1 500 (english t)); auto. lia.
Qed.
Theorem C190_location k : forall d d' t, regains' (S k) d = Ok d' -> d_location d = [t] -> visible_text t -> within (ignore E) 40 [english t] -> d_location d' = [t].
Proof. intros d d' t H Hl Hv Hw. now apply (places_regained k d d' t). Qed.
(** whatever the mix and location types were, they become the location *)
Theorem C191_mix_refuted k : forall d d' t, regains' (S k) d = Ok d' -> d_location d = [t] -> visible_text t -> within (ignore E) 40 [english t] -> d_texts d' MixAndLocation = [element (english t)].
Proof. intros d d' t H Hl Hv Hw. now apply (places_regained k d d' t). Qed.
(** they survive when they are the location *)
Theorem C191_mix_partial k : forall d d' t, regains' (S k) d = Ok d' -> d_location d = [t] -> visible_text t -> within (ignore E) 40 [english t] -> d_texts d MixAndLocation = [element (english t)] ->
  d_texts d' MixAndLocation = d_texts d MixAndLocation.
Proof. intros d d' t H Hl Hv Hw ->. now apply (places_regained k d d' t). Qed.

(** ** C192: synonyms *)
Lemma arrived_synonyms d a k xs : back' d = Ok a -> d_texts d Synonyms = [element (k, join (lit "; ") xs)] -> xs <> [] -> Forall (fun x => ~ occurs (lit "; ") x) xs ->
  Forall (fun x => visible_text x /\ length x <= 80) xs -> f_synonyms a = map english xs.
Proof.
  intros H Hsy Hne Hoc Hv. arrival_of H. rewrite Forall_forall in Hv.
  assert (Hvj : visible_text (join (lit "; ") xs)).
  { destruct xs as [|x xs]; [contradiction|]. destruct (Hv x (or_introl eq_refl)) as [(c & Hc & Hs) _]. exists c. split; [|exact Hs]. destruct xs; [exact Hc|]. rewrite join_cons by discriminate. apply in_or_app. auto. }
  destruct Jr2 as (q & Hq & H2). rewrite (heard_rows d Synonyms [(k, join (lit "; ") xs)] Hsy ltac:(repeat constructor; exact Hvj)) in H2.
  cbn [map receive] in H2. rewrite said_row in H2. cbn [bind synonym_step snd] in H2. injection H2 as <-. cbn [fst snd app] in Jsyn.
  assert (Hrd : read_synonyms (join (lit "; ") xs) = xs) by exact (C77_synonyms_partial xs Hne Hoc). change [59%N; 32%N] with (lit "; ") in Jsyn. rewrite Hrd in Jsyn. clear Hrd.
  unfold spoken_out in Jsyn. destruct (field_out E synonym_class [VList (numbered q (map english xs))]) as [os|] eqn:Eo; cbn [bind] in Jsyn; [|discriminate]. injection Jsyn as <-.
  destruct (appended_out E KNlr None (Lim_ 80) [VList (numbered q (map english xs))] os eq_refl ltac:(discriminate) Eo) as (Ha & x & Hx & He).
  assert (Hkeep : keep (numbers q (map english xs)) = numbers q (map english xs)).
  { apply keep_all. apply Forall_forall. intros [[j l] t] Hi. apply numbers_in in Hi. apply in_map_iff in Hi as (y & [= _ <-] & Hi). cbn [snd]. now apply Hv. }
  assert (HL : additions (lang_validate None) [VList (numbered q (map english xs))] = numbers q (map english xs)).
  { rewrite (additions_speak None _ [numbers q (map english xs)] Ha); [cbn [concat]; now rewrite app_nil_r|]. constructor; [apply speaks_numbered|constructor]. }
  pose proof (C57_synonyms_in_order None (ignore E) [VList (numbered q (map english xs))] (numbers q (map english xs)) (numbers q (map english xs))) as C.
  rewrite Hx in C. cbn [stored] in C. cbn [end_ on pE] in He. rewrite C in He.
  - cbn [bind entries_of] in He. injection He as <-.
    assert (HF : filter (fun a0 : triple => Nat.leb (length (snd a0)) 80) (numbers q (map english xs)) = numbers q (map english xs)).
    { assert (W : forall (l : list triple), (forall z, In z l -> length (snd z) <= 80) -> filter (fun a0 : triple => Nat.leb (length (snd a0)) 80) l = l).
      { clear. induction l as [|z l IH]; intros W; [reflexivity|]. cbn [filter]. rewrite (proj2 (Nat.leb_le _ _) (W z (or_introl eq_refl))). f_equal. apply IH. intros y Hy. apply W. now right. }
      apply W. intros [[j l] t] Hi. apply numbers_in in Hi. apply in_map_iff in Hi as (y & [= _ <-] & Hi). cbn [snd]. now apply Hv. }
    etransitivity; [exact (f_equal (fun z => flat_map speech_of (map (fun a0 : triple => {| o_index := None; o_lang := Some (snd (fst a0)); o_text := snd a0 |}) z)) HF)|].
    clear. revert q. induction xs as [|x xs IH]; intros q; [reflexivity|]. cbn [map numbers english fst snd flat_map speech_of o_lang optional app o_text]. f_equal. apply IH.
  - rewrite <- HL. apply additions_calls, lang_iff.
  - apply numbers_sorted.
Qed.
Lemma synonyms_regained k : forall d d' l xs, regains' (S k) d = Ok d' -> d_texts d Synonyms = [element (l, join (lit "; ") xs)] -> xs <> [] -> Forall (fun x => ~ occurs (lit "; ") x) xs ->
  Forall (fun x => visible_text x /\ length x <= 80) xs -> d_texts d' Synonyms = [element (english (join (lit "; ") xs))].
Proof.
  intros d d' l xs H Hsy Hne Hoc Hv. apply regains_split in H as (a & a' & Hb & Ht & Hd). apply there_inv in Hd as (Hd & _).
  pose proof (arrived_synonyms d a l xs Hb Hsy Hne Hoc Hv) as Ha.
  assert (Ha' : f_synonyms a' = map english xs).
  { clear Hb Hd. revert a Ha Ht. induction k as [|k IH]; intros a Ha Ht; [injection Ht as <-; exact Ha|]. cbn [trips] in Ht. destruct (trip' a) as [b|] eqn:Eb; cbn [bind] in Ht; [|discriminate].
    apply (IH b); [|exact Ht]. exact (synonyms_trip E show ns long gap name_id vote n m a b en xs Eb Ha Hne Hoc Hv). }
  destruct (written a' Synonyms (map (fun s : speech => [(1%Z, fst s, snd s)]) (f_synonyms a')) _ eq_refl (Hd Synonyms)) as (R & R1 & R2).
  { cbn [values]. apply (speaks_map (fun _ => 1%Z)). }
  rewrite Forall_forall in Hv.
  assert (HA : keep (concat (map (fun s : speech => [(1%Z, fst s, snd s)]) (f_synonyms a'))) = map (fun x => (1%Z, en, x)) xs).
  { rewrite Ha', map_map. cbn [fst snd english]. transitivity (keep (map (fun x => (1%Z, en, x)) xs)).
    - f_equal. clear. induction xs as [|x xs IH]; [reflexivity|]. cbn [map concat app]. now rewrite IH.
    - apply keep_all. apply Forall_forall. intros a0 Hi. apply in_map_iff in Hi as (x & <- & Hi). cbn [snd]. now apply Hv. }
  apply (eq_ind _ (fun z => language_rows sep_ z R)) with (2 := HA) in R1. pose proof (language_rows_unique _ _ _ _ R1 (written_together 1 en xs Hne)) as HR. subst R. exact R2.
Qed.
Theorem C192_synonyms_partial k : forall d d' xs, regains' (S k) d = Ok d' -> d_texts d Synonyms = [element (english (join (lit "; ") xs))] -> xs <> [] -> Forall (fun x => ~ occurs (lit "; ") x) xs ->
  Forall (fun x => visible_text x /\ length x <= 80) xs -> d_texts d' Synonyms = d_texts d Synonyms.
Proof. intros d d' xs H Hs Hne Ho Hv. rewrite Hs. exact (synonyms_regained k d d' en xs H Hs Hne Ho Hv). Qed.
Theorem C192_language_refuted k : forall d d' l xs, regains' (S k) d = Ok d' -> d_texts d Synonyms = [element (l, join (lit "; ") xs)] -> l <> en -> xs <> [] -> Forall (fun x => ~ occurs (lit "; ") x) xs ->
  Forall (fun x => visible_text x /\ length x <= 80) xs -> d_texts d' Synonyms = [element (english (join (lit "; ") xs))] /\ d_texts d' Synonyms <> d_texts d Synonyms.
Proof.
  intros d d' l xs H Hs Hl Hne Ho Hv. pose proof (synonyms_regained k d d' l xs H Hs Hne Ho Hv) as G. split; [exact G|]. rewrite G, Hs. intros C. injection C as C. now apply Hl.
Qed.

(** ** C193-C195: deviations, data treatment, constants, sampling and volumes *)
Definition one_at {A} (k : Z) (ls : list pystr) (r : list A * list pyval * Z) : Prop :=
  snd (fst r) = map (fun h => entry_at k (english h)) ls /\ snd r = (k + Z.of_nat (length ls))%Z.
Lemma said_hear d f o : says d f o -> hear d f = map row_val (optional english o).
Proof. intros [H Hv]. apply heard_rows; [exact H|]. destruct o; repeat constructor. cbn [english snd]. auto. Qed.
Lemma unless_one h k o r : receive (unless_none h) k (map row_val (optional english o)) = Ok r -> one_at k (under h (unless_said_none o)) r.
Proof.
  destruct o as [t|]; cbn [optional map receive unless_said_none under]; [|intros [= <-]; split; [reflexivity|cbn; lia]]. rewrite said_row. cbn [bind]. unfold unless_none. change (snd (english t)) with t.
  destruct (str_eqb t (lit "none")); cbn [bind]; intros [= <-]; split; try reflexivity; cbn; lia.
Qed.
Lemma prefix_one h k o r : receive (prefix_step h) k (map row_val (optional english o)) = Ok r -> one_at k (under h o) r.
Proof.
  destruct o as [t|]; cbn [optional map receive under]; [|intros [= <-]; split; [reflexivity|cbn; lia]]. rewrite said_row. cbn [bind]. unfold prefix_step. cbn [bind].
  intros [= <-]; split; try reflexivity; cbn; lia.
Qed.
Lemma deviation_one k o r : (forall t, o = Some t -> ~ occurs (lit "Original ecoinvent System Model: ") t) -> receive deviation_step k (map row_val (optional english o)) = Ok r ->
  one_at k (under dev_line (unless_said_none o)) r /\ fst (fst r) = [].
Proof.
  intros Ho. destruct o as [t|]; cbn [optional map receive unless_said_none under]; [|intros [= <-]; repeat split; cbn; lia]. rewrite said_row. cbn [bind]. unfold deviation_step. change (snd (english t)) with t.
  destruct (str_eqb t (lit "none")); cbn [bind]; [intros [= <-]; repeat split; cbn; lia|].
  rewrite (proj2 (proj2 (proj2 (proj2 C73_plain_text_untouched_partial))) t (Ho t eq_refl)). cbn [optional bind]. intros [= <-]; repeat split; cbn; lia.
Qed.
Definition said_at (ih : Z * pystr) : list triple := [(fst ih, en, snd ih)].
Lemma lines_said vals hl out : spoken_out E (long_class long) vals = Ok out -> vals = map (fun ih => entry_at (fst ih) (english (snd ih))) hl -> hl <> [] -> StronglySorted Z.lt (map fst hl) ->
  Forall (fun ih => visible_text (snd ih)) hl -> within (ignore E) long [english (join newline (map snd hl))] -> out = [english (join newline (map snd hl))].
Proof.
  intros H -> Hne Hs Hv Hw. refine (spoken_long E long _ (map said_at hl) _ _ H _ _ Hw).
  - clear. induction hl as [|[i h] hl IH]; constructor; [|exact IH]. apply (speaks_entry i (english h)).
  - assert (Ec : concat (map said_at hl) = lines en hl) by (clear; induction hl as [|[i h] hl IH]; [reflexivity|cbn [map concat lines]; rewrite IH; reflexivity]).
    rewrite Ec, keep_all.
    2:{ unfold lines. apply Forall_forall. intros x Hx. apply in_map_iff in Hx as (ih & <- & Hx). rewrite Forall_forall in Hv. cbn [snd]. auto. }
    split; [repeat constructor|]. split.
    + intros k. cbn [map fst In]. split.
      * intros [<-|[]]. destruct hl as [|[j t] l]; [now contradiction Hne|]. exists j, t. now left.
      * intros (j & u & Hi). apply in_map_iff in Hi as ([j' t] & [= _ <- _] & _). now left.
    + intros k t [[= <- <-]|[]]. now apply lines_text.
Qed.
Definition gathered (principle cutoff selection treatment dev : option pystr) : list pystr :=
  under (lit "Deviations from LCI Method Principles: ") (unless_said_none principle) ++
  under (lit "Deviations from Cut-Off and Completeness Principles: ") (unless_said_none cutoff) ++
  under (lit "Deviations from Data Selection and Combination Principles: ") (unless_said_none selection) ++
  under (lit "Data Treatment and Extrapolations Principles: ") treatment ++
  under (lit "Deviations from Data Treatment and Extrapolations Principles: ") (unless_said_none dev).
Lemma under_short h o : length (under h o) <= 1.
Proof. destruct o; cbn; lia. Qed.
Lemma under_visible h o : Forall visible_text [h] -> Forall visible_text (under h o).
Proof. intros H. apply Forall_inv in H. destruct o; repeat constructor. now apply visible_app_l. Qed.
Definition at_number (k : Z) (ls : list pystr) : list (Z * pystr) := map (fun h => (k, h)) ls.
Lemma at_number_entries k ls : map (fun ih => entry_at (fst ih) (english (snd ih))) (at_number k ls) = map (fun h => entry_at k (english h)) ls.
Proof. unfold at_number. now rewrite map_map. Qed.
Lemma at_number_texts k ls : map snd (at_number k ls) = ls.
Proof. unfold at_number. rewrite map_map. apply map_id. Qed.
Lemma arrived_treatment d a o1 o2 o3 o4 o5 : back' d = Ok a -> says d DevPrinciple o1 -> says d DevCutOff o2 -> says d DevSelection o3 -> says d Treatment o4 -> says d DevTreatment o5 ->
  (forall t, o1 = Some t -> ~ occurs (lit "Original ecoinvent System Model: ") t) -> gathered o1 o2 o3 o4 o5 <> [] ->
  within (ignore E) long [english (join newline (gathered o1 o2 o3 o4 o5))] -> f_extrapolations a = [english (join newline (gathered o1 o2 o3 o4 o5))].
Proof.
  intros H H1 H2 H3 H4 H5 Hm Hne Hw. arrival_of H. destruct Jr7 as (k7 & _ & J7). destruct Jra as (ka & _ & Ka & Ja). destruct Jrb as (kb & _ & Kb & Jb). destruct Jr10 as (k10 & _ & K10 & J10). destruct Jrc as (kc & _ & Kc & Jc).
  rewrite (said_hear _ _ _ H1) in J7. rewrite (said_hear _ _ _ H2) in Ja. rewrite (said_hear _ _ _ H3) in Jb. rewrite (said_hear _ _ _ H4) in J10. rewrite (said_hear _ _ _ H5) in Jc.
  apply deviation_one in J7 as [[V7 N7] _]; [|exact Hm]. apply unless_one in Ja as [Va Na]. apply unless_one in Jb as [Vb Nb]. apply prefix_one in J10 as [V10 N10]. apply unless_one in Jc as [Vc Nc].
  unfold gathered in Hne, Hw |- *. change (lit "Deviations from LCI Method Principles: ") with dev_line in *.
  remember (under dev_line (unless_said_none o1)) as l1 eqn:E1. remember (under _ (unless_said_none o2)) as l2 eqn:E2. remember (under _ (unless_said_none o3)) as l3 eqn:E3.
  remember (under _ o4) as l4 eqn:E4. remember (under _ (unless_said_none o5)) as l5 eqn:E5.
  assert (L1 : length l1 <= 1) by (subst; apply under_short). assert (L2 : length l2 <= 1) by (subst; apply under_short). assert (L3 : length l3 <= 1) by (subst; apply under_short).
  assert (L4 : length l4 <= 1) by (subst; apply under_short). assert (L5 : length l5 <= 1) by (subst; apply under_short).
  assert (Hv : Forall visible_text (l1 ++ l2 ++ l3 ++ l4 ++ l5)).
  { subst l1 l2 l3 l4 l5. rewrite !Forall_app. repeat split; apply under_visible; repeat constructor; exists 68%N; (split; [now left|reflexivity]). }
  clear E1 E2 E3 E4 E5 H1 H2 H3 H4 H5 Hm.
  set (hl := at_number k7 l1 ++ at_number ka l2 ++ at_number kb l3 ++ at_number k10 l4 ++ at_number kc l5).
  assert (Ht : map snd hl = l1 ++ l2 ++ l3 ++ l4 ++ l5) by (unfold hl; now rewrite !map_app, !at_number_texts).
  rewrite <- Ht in Hw |- *. apply (lines_said _ hl _ Jextra); auto.
  - unfold hl. rewrite !map_app, !at_number_entries. exact (f_equal2 (@app _) V7 (f_equal2 (@app _) Va (f_equal2 (@app _) Vb (f_equal2 (@app _) V10 Vc)))).
  - intros C. apply Hne. rewrite <- Ht, C. reflexivity.
  - 
    assert (Ka' : (k7 + Z.of_nat (length l1) <= ka)%Z) by exact (eq_ind _ (fun z => (z <= ka)%Z) Ka _ N7).
    assert (Kb' : (ka + Z.of_nat (length l2) <= kb)%Z) by exact (eq_ind _ (fun z => (z <= kb)%Z) Kb _ Na).
    assert (K10' : (kb + Z.of_nat (length l3) <= k10)%Z) by exact (eq_ind _ (fun z => (z <= k10)%Z) K10 _ Nb).
    assert (Kc' : (k10 + Z.of_nat (length l4) <= kc)%Z) by exact (eq_ind _ (fun z => (z <= kc)%Z) Kc _ N10).
    clear Ka Kb K10 Kc. rename Ka' into Ka. rename Kb' into Kb. rename K10' into K10. rename Kc' into Kc. clear -Ka Kb K10 Kc L1 L2 L3 L4 L5. unfold hl.
    destruct l1 as [|? [|? ?]]; cbn [length] in *; try lia; destruct l2 as [|? [|? ?]]; cbn [length] in *; try lia; destruct l3 as [|? [|? ?]]; cbn [length] in *; try lia;
    destruct l4 as [|? [|? ?]]; cbn [length] in *; try lia; destruct l5 as [|? [|? ?]]; cbn [length] in *; try lia; cbn [at_number map app fst]; repeat constructor; lia.
  - rewrite <- Ht in Hv. rewrite Forall_map in Hv. exact Hv.
Qed.
Lemma model_known a ap : approaches_out a = Ok ap -> In (snd (f_model a)) (map fst system_model).
Proof.
  unfold approaches_out. destruct (getf (snd (f_model a)) system_model) as [x|] eqn:Ex; [|discriminate]. intros _. apply getf_In in Ex. now apply (in_map fst) in Ex.
Qed.
Lemma back_model d a : back' d = Ok a -> exists m0, f_model a = english m0.
Proof. intros H. arrival_of H. destruct Jmodel as (i & m0 & _ & Hm). eauto. Qed.
Lemma trips_model k a a' d : back' d = Ok a -> trips' k a = Ok a' -> exists m0, f_model a' = english m0.
Proof.
  intros Hb Ht. destruct k; [injection Ht as <-; eapply back_model; exact Hb|]. apply trips_end in Ht as (b & _ & Ht). unfold trip in Ht. destruct (there' b) as [d1|]; cbn [bind] in Ht; [|discriminate]. eapply back_model. exact Ht.
Qed.
Lemma one_written a f i t O : iclass f = CLang KMulti (Some Languages) Unlimited_ -> sent E n m a f = Ok O -> values n m a f = [entry_at i (english t)] -> visible_text t -> O = [element (english t)].
Proof.
  intros Hc H Hval Hv. destruct (written a f [[(i, en, t)]] O Hc H) as (R & R1 & R2).
  { rewrite Hval. constructor; [apply (speaks_entry i (english t))|constructor]. }
  pose proof (language_rows_unique _ _ _ _ R1 (one_row i t Hv)) as HR. now rewrite R2, HR.
Qed.
Lemma none_written a f O : sent E n m a f = Ok O -> values n m a f = [] -> defaulted f = true -> O = [element (english (lit "none"))].
Proof. unfold sent. intros H Hv Hd. rewrite Hv, Hd in H. cbn [field_out bind] in H. injection H as <-. reflexivity. Qed.

(** the fields for deviations never keep a text, and the first one names a system model *)
Theorem C193_deviations_refuted k : forall d d', regains' (S k) d = Ok d' ->
  d_texts d' DevCutOff = [element (english (lit "none"))] /\ d_texts d' DevSelection = [element (english (lit "none"))] /\ d_texts d' DevTreatment = [element (english (lit "none"))] /\
  exists m0, In m0 (map fst system_model) /\ d_texts d' DevPrinciple = [element (english (lit "Original ecoinvent System Model: " ++ m0))].
Proof.
  intros d d' H. apply regains_split in H as (a & a' & Hb & Ht & Hd). apply there_inv in Hd as (Hd & _ & Hap).
  split; [exact (none_written a' DevCutOff _ (Hd DevCutOff) eq_refl eq_refl)|]. split; [exact (none_written a' DevSelection _ (Hd DevSelection) eq_refl eq_refl)|].
  split; [exact (none_written a' DevTreatment _ (Hd DevTreatment) eq_refl eq_refl)|].
  destruct (trips_model k a a' d Hb Ht) as (m0 & Hm). apply model_known in Hap. rewrite Hm in Hap. exists m0. split; [exact Hap|].
  apply (one_written a' DevPrinciple 1 _ _ eq_refl (Hd DevPrinciple)).
  - cbn [values]. rewrite Hm. reflexivity.
  - apply visible_app_l. exists 79%N. split; [now left|reflexivity].
Qed.
(** a field that says none goes on saying it *)
Theorem C193_none_partial k : forall d d' f, regains' (S k) d = Ok d' -> In f [DevCutOff; DevSelection; DevTreatment] -> d_texts d f = [element (english (lit "none"))] -> d_texts d' f = d_texts d f.
Proof. intros d d' f H Hf ->. destruct (C193_deviations_refuted k d d' H) as (H1 & H2 & H3 & _). cbn [In] in Hf. destruct Hf as [<-|[<-|[<-|[]]]]; assumption. Qed.

(** what the deviations said is added to the text on data treatment, and every later trip adds two headings *)
Lemma treatment_regained k d d' o1 o2 o3 o4 o5 : regains' (S k) d = Ok d' -> says d DevPrinciple o1 -> says d DevCutOff o2 -> says d DevSelection o3 -> says d Treatment o4 -> says d DevTreatment o5 ->
  (forall t, o1 = Some t -> ~ occurs (lit "Original ecoinvent System Model: ") t) -> gathered o1 o2 o3 o4 o5 <> [] ->
  within (ignore E) long [english (Nat.iter k wrapped (join newline (gathered o1 o2 o3 o4 o5)))] ->
  d_texts d' Treatment = [element (english (Nat.iter k wrapped (join newline (gathered o1 o2 o3 o4 o5))))].
Proof.
  intros H H1 H2 H3 H4 H5 Hm Hne Hw. apply regains_split in H as (a & a' & Hb & Ht & Hd). apply there_inv in Hd as (Hd & _ & Hap').
  set (g := join newline (gathered o1 o2 o3 o4 o5)) in *.
  assert (Hw0 : within (ignore E) long [english g]).
  { clear -Hw. induction k as [|k IH]; [exact Hw|]. apply IH. eapply within_one; [|exact Hw]. cbn [Nat.iter nat_rect]. unfold Nat.iter, wrapped. rewrite !app_length. lia. }
  pose proof (arrived_treatment d a o1 o2 o3 o4 o5 Hb H1 H2 H3 H4 H5 Hm Hne Hw0) as Ha. change (f_extrapolations a = [english g]) in Ha.
  assert (Vg : visible_text g).
  { assert (W : forall h o, Forall visible_text [h] -> Forall visible_text (under h o)) by (intros; now apply under_visible).
    assert (Hall : Forall visible_text (gathered o1 o2 o3 o4 o5)) by (unfold gathered; rewrite !Forall_app; repeat split; apply W; repeat constructor; exists 68%N; (split; [now left|reflexivity])).
    unfold g. destruct (gathered o1 o2 o3 o4 o5) as [|x l]; [contradiction|]. apply Forall_inv in Hall. destruct l; [exact Hall|]. rewrite join_cons by discriminate. now apply visible_app_l. }
  assert (Ha' : f_extrapolations a' = [english (Nat.iter k wrapped g)]).
  { destruct k as [|k]; [injection Ht as <-; exact Ha|]. destruct (back_model d a Hb) as (m0 & Hm0).
    assert (Hin : In m0 (map fst system_model)).
    { pose proof Ht as Ht'. cbn [trips] in Ht'. unfold trip in Ht' at 1. destruct (there' a) as [d1|] eqn:E1; cbn [bind] in Ht'; [|discriminate]. apply there_inv in E1 as (_ & _ & E1). apply model_known in E1. now rewrite Hm0 in E1. }
    now destruct (C174_treatment_refuted E show ns long gap name_id vote n m (S k) a a' m0 g Ht Hm0 Hin Ha Vg Hw). }
  apply (one_written a' Treatment 1 _ _ eq_refl (Hd Treatment)).
  - cbn [values]. now rewrite Ha'.
  - clear -Vg. induction k as [|k IH]; [exact Vg|]. cbn [Nat.iter nat_rect]. unfold wrapped at 1. now apply visible_app_r, visible_app_r, visible_app_r.
Qed.
Theorem C194_treatment_refuted k : forall d d' o1 o2 o3 o4 o5, regains' (S k) d = Ok d' -> says d DevPrinciple o1 -> says d DevCutOff o2 -> says d DevSelection o3 -> says d Treatment o4 -> says d DevTreatment o5 ->
  (forall t, o1 = Some t -> ~ occurs (lit "Original ecoinvent System Model: ") t) -> gathered o1 o2 o3 o4 o5 <> [] ->
  within (ignore E) long [english (Nat.iter k wrapped (join newline (gathered o1 o2 o3 o4 o5)))] ->
  d_texts d' Treatment = [element (english (Nat.iter k wrapped (join newline (gathered o1 o2 o3 o4 o5))))] /\ d_texts d' Treatment <> d_texts d Treatment.
Proof.
  intros d d' o1 o2 o3 o4 o5 H H1 H2 H3 H4 H5 Hm Hne Hw. pose proof (treatment_regained k d d' o1 o2 o3 o4 o5 H H1 H2 H3 H4 H5 Hm Hne Hw) as G. split; [exact G|].
  rewrite G, (proj1 H4). destruct o4 as [t|]; [|discriminate]. intros C. apply (f_equal (map (fun o => length (o_text o)))) in C. cbn [map element o_text english snd optional] in C. injection C as C.
  assert (Hlen : length t < length (join newline (gathered o1 o2 o3 (Some t) o5))).
  { assert (W : forall (l1 l2 : list pystr) x, length x <= length (join newline (l1 ++ x :: l2))).
    { clear. induction l1 as [|y l1 IH]; intros l2 x.
      - cbn [app]. destruct l2; [cbn [join]; lia|]. rewrite join_cons by discriminate. rewrite app_length. lia.
      - cbn [app]. rewrite join_cons by (destruct l1; discriminate). rewrite !app_length. specialize (IH l2 x). lia. }
    unfold gathered. change (under (lit "Data Treatment and Extrapolations Principles: ") (Some t)) with [lit "Data Treatment and Extrapolations Principles: " ++ t]. rewrite !app_assoc. cbn [app]. rewrite <- app_assoc. cbn [app].
    eapply Nat.lt_le_trans; [|apply W]. rewrite app_length. cbn [length lit]. lia. }
  assert (Hk : forall j u, length u <= length (Nat.iter j wrapped u)).
  { clear. induction j as [|j IH]; intros u; [reflexivity|]. cbn [Nat.iter nat_rect]. unfold wrapped at 1. rewrite !app_length. specialize (IH u). unfold Nat.iter in *. lia. }
  specialize (Hk k (join newline (gathered o1 o2 o3 (Some t) o5))). lia.
Qed.
(** nothing is lost: every text of the five fields is in the text on data treatment *)
Theorem C194_texts_kept_partial k : forall d d' o1 o2 o3 o4 o5 x, regains' (S k) d = Ok d' -> says d DevPrinciple o1 -> says d DevCutOff o2 -> says d DevSelection o3 -> says d Treatment o4 -> says d DevTreatment o5 ->
  (forall t, o1 = Some t -> ~ occurs (lit "Original ecoinvent System Model: ") t) -> In (Some x) [o1; o2; o3; o4; o5] -> x <> lit "none" ->
  within (ignore E) long [english (Nat.iter k wrapped (join newline (gathered o1 o2 o3 o4 o5)))] ->
  exists u, d_texts d' Treatment = [element (english u)] /\ occurs x u.
Proof.
  intros d d' o1 o2 o3 o4 o5 x H H1 H2 H3 H4 H5 Hm Hx Hn Hw.
  assert (En : forall o, o = Some x -> unless_said_none o = Some x).
  { intros o ->. cbn [unless_said_none]. destruct (str_eqb x (lit "none")) eqn:Ex; [apply str_eqb_eq in Ex; contradiction|reflexivity]. }
  assert (G : exists p q h, gathered o1 o2 o3 o4 o5 = p ++ (h ++ x) :: q).
  { assert (W : exists h, In (h ++ x) (gathered o1 o2 o3 o4 o5)).
    { assert (U : forall h, In (h ++ x) (under h (Some x))) by (intros h; now left).
      unfold gathered. cbn [In] in Hx. destruct Hx as [->|[->|[->|[->|[->|[]]]]]]; rewrite ?(En _ eq_refl).
      - exists (lit "Deviations from LCI Method Principles: "). apply in_or_app. left. apply U.
      - exists (lit "Deviations from Cut-Off and Completeness Principles: "). apply in_or_app. right. apply in_or_app. left. apply U.
      - exists (lit "Deviations from Data Selection and Combination Principles: "). apply in_or_app. right. apply in_or_app. right. apply in_or_app. left. apply U.
      - exists (lit "Data Treatment and Extrapolations Principles: "). apply in_or_app. right. apply in_or_app. right. apply in_or_app. right. apply in_or_app. left. apply U.
      - exists (lit "Deviations from Data Treatment and Extrapolations Principles: "). apply in_or_app. right. apply in_or_app. right. apply in_or_app. right. apply in_or_app. right. apply U. }
    destruct W as (h & W). apply in_split in W as (p & q & W). eauto. }
  destruct G as (p & q & h & G). eexists. split.
  - apply (treatment_regained k d d' o1 o2 o3 o4 o5); auto. rewrite G. destruct p; discriminate.
  - rewrite G. assert (W : occurs x (join newline (p ++ (h ++ x) :: q))).
    { clear. induction p as [|y p IH].
      - cbn [app]. destruct q as [|l q]; [exists h, []; cbn [join]; now rewrite app_nil_r|]. rewrite join_cons by discriminate. exists h, (newline ++ join newline (l :: q)). now rewrite <- app_assoc.
      - cbn [app]. rewrite join_cons by (destruct p; discriminate). destruct IH as (b & c & IH). rewrite IH. eexists (y ++ newline ++ b), c. now rewrite <- !app_assoc. }
    clear -W. induction k as [|k IH]; [exact W|]. cbn [Nat.iter nat_rect]. unfold wrapped at 1. destruct IH as (b & c & IH). unfold Nat.iter in IH. rewrite IH.
    exists (lit "Deviations from LCI Method Principles: " ++ newline ++ lit "Data Treatment and Extrapolations Principles: " ++ b), c. now rewrite <- !app_assoc.
Qed.

(** sampling and modelling constants *)
Definition sampled (s c : option pystr) : list pystr := optional (fun t => t) s ++ under (lit "Modelling Constants: ") c.
Lemma arrived_sampling d a s c : back' d = Ok a -> says d Sampling s -> says d ModellingConstants c -> (forall t, c = Some t -> ~ occurs (lit "Energy: ") t) -> sampled s c <> [] ->
  f_energy a = Some vote /\ (within (ignore E) long [english (join newline (sampled s c))] -> f_sampling a = [english (join newline (sampled s c))]).
Proof.
  intros H Hs Hc Hm Hne. arrival_of H. destruct Jr9 as (k9 & K9 & H9). destruct Jr11 as (k11 & _ & H11).
  rewrite (said_hear _ _ _ Hs) in H11. rewrite (said_hear _ _ _ Hc) in H9.
  assert (J9 : one_at k9 (under constants_line c) r9 /\ fst (fst r9) = []).
  { clear -H9 Hm. destruct c as [t|]; cbn [optional map receive under] in *; [|injection H9 as <-; repeat split; cbn; lia]. rewrite said_row in H9. cbn [bind] in H9. unfold constants_step in H9. change (snd (english t)) with t in H9.
    rewrite (proj1 (proj2 (proj2 (proj2 C73_plain_text_untouched_partial))) t (Hm t eq_refl)) in H9. cbn [settle existsb bind] in H9. injection H9 as <-. repeat split; cbn; lia. }
  destruct J9 as [[V9 _] N9].
  assert (V11 : snd (fst r11) = map (fun h => entry_at 0 (english h)) (optional (fun t => t) s)).
  { destruct s as [t|]; cbn [optional map receive] in H11; [|injection H11 as <-; reflexivity]. rewrite said_row in H11. cbn [bind fixed_step] in H11. injection H11 as <-. reflexivity. }
  split.
  - cbv zeta in Jnotes. destruct Jnotes as (_ & _ & _ & _ & _ & _ & _ & _ & _ & N). rewrite last_assigned in N by (cbn; auto 10). rewrite !assigned_app in N.
    destruct Jr3 as (k3 & _ & H3). destruct Jr4 as (k4 & _ & H4). destruct Jr6 as (k6 & _ & H6).
    rewrite (assigned_from _ _ Energy (marked_from _ _ _ general_from _ _ H3)), (assigned_from _ _ Energy (marked_from _ _ _ time_from _ _ H4)),
      (assigned_from _ _ Energy (marked_from _ _ _ tech_from _ _ H6)), N9 in N by (cbn; intuition discriminate). exact N.
  - intros Hw. unfold sampled in *. change (lit "Modelling Constants: ") with constants_line in *. remember (under constants_line c) as l2 eqn:E2. remember (optional (fun t => t) s) as l1 eqn:E1.
    assert (L2 : length l2 <= 1) by (subst; apply under_short). assert (L1 : length l1 <= 1) by (subst; destruct s; cbn; lia).
    assert (Hv : Forall visible_text (l1 ++ l2)).
    { subst l1 l2. rewrite Forall_app. split; [destruct s; repeat constructor; now apply (proj2 Hs)|]. apply under_visible. repeat constructor. exists 77%N. split; [now left|reflexivity]. }
    assert (Jv : spoken_out E (long_class long) (map (fun h => entry_at k9 (english h)) l2 ++ map (fun h => entry_at 0 (english h)) l1) = Ok (f_sampling a)).
    { rewrite <- Jsampling. f_equal. symmetry. exact (f_equal2 (@app _) V9 V11). }
    clear Jsampling. rename Jv into Jsampling. clear -Hne Hw L1 L2 Hv Jsampling K9.
    destruct l1 as [|x [|? ?]]; cbn [length] in *; try lia; destruct l2 as [|y [|? ?]]; cbn [length] in *; try lia; cbn [map app] in *; [contradiction| | |].
    + exact (spoken_one E long k9 y _ Jsampling (Forall_inv Hv) Hw).
    + exact (spoken_one E long 0 x _ Jsampling (Forall_inv Hv) Hw).
    + pose proof (Forall_inv Hv) as Vx. pose proof (Forall_inv (Forall_inv_tail Hv)) as Vy.
      refine (spoken_long E long _ [[(k9, en, y)]; [(0%Z, en, x)]] [english (join newline [x; y])] _ Jsampling _ _ Hw).
      * constructor; [apply (speaks_entry k9 (english y))|]. constructor; [apply (speaks_entry 0 (english x))|constructor].
      * cbn [concat app]. change [(k9, en, y); (0%Z, en, x)] with ([(k9, en, y)] ++ [(0%Z, en, x)]). rewrite keep_app. apply rows_swap with (A := keep [(0%Z, en, x)]).
        -- intros j l u v Hj Hv'. apply keep_in in Hj as [[[= <- _ _]|[]] _]. apply keep_in in Hv' as [[[= Hv' _ _]|[]] _]. lia.
        -- rewrite <- keep_app. apply (two_rows 0 x k9 y); auto. lia.
Qed.
Lemma energy_stays k : forall a a', trips' k a = Ok a' -> In vote (map fst energy) -> f_energy a = Some vote -> f_energy a' = Some vote.
Proof.
  induction k as [|k IH]; intros a a' H Hin He; [injection H as <-; exact He|]. cbn [trips] in H. destruct (trip' a) as [b|] eqn:Eb; cbn [bind] in H; [|discriminate]. apply (IH b a' H Hin).
  destruct (proj2 (sampling_trip E show ns long gap name_id vote n m a b Eb) vote He Hin) as (G & _). rewrite G. now destruct (str_eqb vote (lit "0")).
Qed.
(** the constants are moved to the sampling procedure; the field is left with the energy value of the settings *)
Theorem C195_constants_refuted k : forall d d' s c, regains' (S k) d = Ok d' -> In vote (map fst energy) -> says d Sampling s -> says d ModellingConstants (Some c) -> ~ occurs (lit "Energy: ") c ->
  d_texts d' ModellingConstants = [element (english (line_energy vote))] /\
  (within (ignore E) long [english (Nat.iter k followed (join newline (sampled s (Some c))))] ->
   d_texts d' Sampling = [element (english (Nat.iter k followed (join newline (sampled s (Some c)))))]).
Proof.
  intros d d' s c H Hvote Hs Hc Hm. apply regains_split in H as (a & a' & Hb & Ht & Hd). apply there_inv in Hd as (Hd & _).
  destruct (arrived_sampling d a s (Some c) Hb Hs Hc) as [He Hsa].
  { intros t [= <-]. exact Hm. }
  { unfold sampled. destruct s; discriminate. }
  split.
  - pose proof (energy_stays k a a' Ht Hvote He) as He'. apply (one_written a' ModellingConstants 1 _ _ eq_refl (Hd ModellingConstants)); [cbn [values]; now rewrite He'|].
    apply visible_app_l. exists 69%N. split; [now left|reflexivity].
  - set (g := join newline (sampled s (Some c))) in *. intros Hw.
    assert (Hw0 : within (ignore E) long [english g]).
    { clear -Hw. induction k as [|k IH]; [exact Hw|]. apply IH. eapply within_one; [|exact Hw]. cbn [Nat.iter nat_rect]. unfold Nat.iter, followed. rewrite !app_length. lia. }
    specialize (Hsa Hw0).
    assert (Vg : visible_text g).
    { unfold g, sampled. destruct s as [t|]; cbn [optional under app].
      - rewrite join_cons by discriminate. apply visible_app_l. now apply (proj2 Hs).
      - cbn [join]. apply visible_app_l. exists 77%N. split; [now left|reflexivity]. }
    pose proof (C174_sampling_refuted E show ns long gap name_id vote n m k a a' vote g Ht He Hvote Hvote Hsa Vg Hw) as Hs'.
    apply (one_written a' Sampling 1 _ _ eq_refl (Hd Sampling)); [cbn [values]; now rewrite Hs'|].
    clear -Vg. induction k as [|k IH]; [exact Vg|]. cbn [Nat.iter nat_rect]. now apply visible_app_l.
Qed.
(** once, the sampling procedure of a process without constants is kept *)
Theorem C195_sampling_partial : forall d d' s, regains' 1 d = Ok d' -> says d Sampling (Some s) -> says d ModellingConstants None -> within (ignore E) long [english s] -> d_texts d' Sampling = d_texts d Sampling.
Proof.
  intros d d' s H Hs Hc Hw. apply regains_split in H as (a & a' & Hb & Ht & Hd). apply there_inv in Hd as (Hd & _). injection Ht as <-.
  destruct (arrived_sampling d a (Some s) None Hb Hs Hc) as [_ Hsa]; [discriminate|discriminate|]. specialize (Hsa Hw). rewrite (proj1 Hs).
  apply (one_written a Sampling 1 _ _ eq_refl (Hd Sampling)); [cbn [values]; now rewrite Hsa|]. now apply (proj2 Hs).
Qed.

(** production volumes are not read *)
Theorem C196_volumes_refuted k : forall d d', regains' (S k) d = Ok d' -> d_texts d' Volumes = [].
Proof.
  intros d d' H. apply regains_split in H as (a & a' & Hb & Ht & Hd). apply there_inv in Hd as (Hd & _).
  assert (Hv : f_volumes a' = []).
  { destruct k as [|k]; [injection Ht as <-; arrival_of Hb; apply Jrest|]. apply trips_end in Ht as (b & _ & Ht). unfold trip in Ht. destruct (there' b) as [d1|]; cbn [bind] in Ht; [|discriminate].
    arrival_of Ht. apply Jrest. }
  specialize (Hd Volumes). unfold sent in Hd. cbn [values defaulted] in Hd. rewrite Hv in Hd. cbn [map numbered field_out bind] in Hd. now injection Hd as <-.
Qed.
Theorem C196_none_partial k : forall d d', regains' (S k) d = Ok d' -> d_texts d Volumes = [] -> d_texts d' Volumes = d_texts d Volumes.
Proof. intros d d' H ->. exact (C196_volumes_refuted k d d' H). Qed.
End Texts.
Print Assumptions C185_restrictions.
Print Assumptions C186_approaches_partial.
Print Assumptions C186_none_refuted.
Print Assumptions C187_time.
Print Assumptions C187_technology.
Print Assumptions C188_other_languages_partial.
Print Assumptions C188_comment_grows_refuted.
Print Assumptions C189_name_partial.
Print Assumptions C189_names_refuted.
Print Assumptions C190_location.
Print Assumptions C191_mix_refuted.
Print Assumptions C191_mix_partial.
Print Assumptions C192_synonyms_partial.
Print Assumptions C192_language_refuted.
Print Assumptions C193_deviations_refuted.
Print Assumptions C193_none_partial.
Print Assumptions C194_treatment_refuted.
Print Assumptions C194_texts_kept_partial.
Print Assumptions C195_constants_refuted.
Print Assumptions C195_sampling_partial.
Print Assumptions C196_volumes_refuted.
Print Assumptions C196_none_partial.

(** ** A process that makes the trip *)
Definition process : ilcd :=
  {| d_texts := fun f => map element (match f with
       | BaseName => [english (lit "steel production"); (lit "de", lit "Stahlherstellung")]
       | MixAndLocation => [english (lit "production mix")]
       | Synonyms => [(lit "de", lit "Stahlwerk; Walzwerk")]
       | GeneralComment => [english (lit "A comment."); (lit "de", lit "Hinweis")]
       | TimeDescription => [(lit "fr", lit "un an")]
       | Restrictions => [(lit "fr", lit "Alpes"); english (lit "Alps")]
       | TechDescription => [english (lit "oxygen furnace")]
       | DevPrinciple => [english (lit "none")]
       | DevApproaches => [english (lit "by mass")]
       | ModellingConstants => [english (lit "heat")]
       | DevCutOff => [english (lit "small flows")]
       | DevSelection => [english (lit "none")]
       | Treatment => [english (lit "scaled")]
       | DevTreatment => []
       | Volumes => [english (lit "5 kg")]
       | Sampling => [english (lit "survey")]
       end);
     d_approaches := []; d_location := [lit "CH"] |}.
Definition regained {A} (f : ilcd -> A) (k : nat) : result A :=
  bind (regains {| is_word := fun _ => true; fromiso := fun _ => None; ignore := false |} (fun _ => []) (lit "ns") 400 (fun _ => 7%N) (fun _ => lit "00000000-0000-0000-0000-000000000000") (lit "0") 1000 1010 k process)
    (fun d => Ok (f d)).
Definition spoken (f : ifield) (d : ilcd) : list (option pystr * pystr) := map (fun o => (o_lang o, o_text o)) (d_texts d f).
Notation at_ l t := (Some (lit l), t).
Example C185_nonvacuous : regained (spoken Restrictions) 2 = Ok [at_ "en" (lit "Alps"); at_ "fr" (lit "Alpes")].
Proof. lazy. reflexivity. Qed.
Example C186_nonvacuous : regained (spoken DevApproaches) 2 = Ok (spoken DevApproaches process).
Proof. lazy. reflexivity. Qed.
Example C187_nonvacuous : regained (fun d => (spoken TimeDescription d, spoken TechDescription d)) 2 =
  Ok ([at_ "en" (lit "Validity: Data is valid for the entire period."); at_ "fr" (lit "un an")], [at_ "en" (lit "Technology Level: Current" ++ newline ++ lit "oxygen furnace")]).
Proof. lazy. reflexivity. Qed.
Example C188_nonvacuous : regained (spoken GeneralComment) 2 =
  Ok [at_ "de" (lit "Hinweis"); at_ "en" (join newline (fact_lines (lit "00000000-0000-0000-0000-000000000000")) ++ newline ++ usual_line ++ newline ++ lit "A comment.")].
Proof. lazy. reflexivity. Qed.
Example C189_nonvacuous : regained (spoken BaseName) 2 = Ok [at_ "en" (lit "steel production")].
Proof. lazy. reflexivity. Qed.
Example C190_nonvacuous : regained d_location 2 = Ok [lit "CH"].
Proof. lazy. reflexivity. Qed.
Example C191_nonvacuous : regained (spoken MixAndLocation) 1 = Ok [at_ "en" (lit "CH")].
Proof. lazy. reflexivity. Qed.
Example C192_nonvacuous : regained (spoken Synonyms) 2 = Ok [at_ "en" (lit "Stahlwerk; Walzwerk")].
Proof. lazy. reflexivity. Qed.
Example C193_nonvacuous : regained (fun d => (spoken DevCutOff d, spoken DevPrinciple d)) 1 = Ok ([at_ "en" (lit "none")], [at_ "en" (lit "Original ecoinvent System Model: Undefined")]).
Proof. lazy. reflexivity. Qed.
Example C194_nonvacuous : regained (spoken Treatment) 2 =
  Ok [at_ "en" (wrapped (lit "Deviations from Cut-Off and Completeness Principles: small flows" ++ newline ++ lit "Data Treatment and Extrapolations Principles: scaled"))].
Proof. lazy. reflexivity. Qed.
Example C195_nonvacuous : regained (fun d => (spoken ModellingConstants d, spoken Sampling d)) 2 =
  Ok ([at_ "en" (lit "Energy: undefined")], [at_ "en" (followed (lit "survey" ++ newline ++ lit "Modelling Constants: heat"))]).
Proof. lazy. reflexivity. Qed.
Example C196_nonvacuous : spoken Volumes process = [at_ "en" (lit "5 kg")] /\ regained (spoken Volumes) 1 = Ok [].
Proof. split; lazy; reflexivity. Qed.
