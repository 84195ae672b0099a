(** What one trip to ILCD and back does to each of the texts of an activity. *)
From Coq Require Import Ascii String List Bool Arith NArith ZArith Lia Sorted.
From Verif Require Import PyBase PyBaseFacts PyValues ValidatorsModel MultiLangModel MultiLangSpec MultiLangProofs MultiLangProps DotDictModel DotDictProofs SchemaModel SchemaTables
  TablesModel CommentModel CommentSpec CommentProofs CommentProps XmlModel OutflowModel ProseModel ProseSpec ProseProofs.
Import ListNotations.
Local Open Scope string_scope.
Local Open Scope list_scope.

Ltac journey_of H := apply trip_inv in H as (O & r1 & r2 & r3 & r4 & r5 & r6 & r8 & r9 & ra & rb & r10 & rc & r11 & r7 & J);
  destruct J as [Jsent Jr1 Jnames Jr2 Jsyn Jr3 Jgeneral Jr4 Jtime Jr5 Jgeography Jr6 Jtechnology Jr7 Jr8 Jallocation Jr9 Jra Jrb Jr10 Jrc Jextra Jr11 Jsampling Jnotes Jlocation Jmodel Jrest].

Section Texts.
Context (E : env) (show : pyval -> pystr) (ns : pystr) (long : nat) (gap : ifield -> N) (name_id : pystr -> pystr) (vote : pystr) (n m : Z).
Notation trip' := (trip E show ns long gap name_id vote n m).
Notation trips' := (trips E show ns long gap name_id vote n m).

(** ** C173: comments on time, geography and allocation *)
Lemma geography_trip a a' rows : trip' a = Ok a' -> reads (f_geography a) rows -> within (ignore E) long rows -> reads (f_geography a') rows.
Proof.
  intros H Hr Hw. journey_of H.
  destruct (texts_speak (f_geography a)) as (ls & Hls & Ec).
  destruct (sent_unlimited E show ns n m a Restrictions (O Restrictions) ls eq_refl (Jsent Restrictions) Hls) as (R & R1 & R2 & R3).
  rewrite Ec in R1. apply keep_reads in Hr. assert (R = rows) by (eapply language_rows_unique; eauto). subst R.
  assert (Es : shown_rows Restrictions rows = rows) by (destruct rows; reflexivity). rewrite Es in R3.
  destruct Jr5 as (k & Hk & H5). rewrite R3, (receive_ext _ _ _ plain_g) in H5.
  pose proof (plain_trip E long never 0 1 k rows r5 (f_geography a') R2 Hk ltac:(lia) ltac:(lia) H5 Jgeography) as G.
  cbv zeta in G. rewrite filter_never in G. now apply G.
Qed.
Lemma allocation_trip a a' rows : trip' a = Ok a' -> reads (f_allocation a) rows -> within (ignore E) long rows ->
  reads (f_allocation a') (filter (fun kt => negb (str_eqb (snd kt) (lit "none"))) rows).
Proof.
  intros H Hr Hw. journey_of H.
  destruct (texts_speak (f_allocation a)) as (ls & Hls & Ec).
  destruct (sent_unlimited E show ns n m a DevApproaches (O DevApproaches) ls eq_refl (Jsent DevApproaches) Hls) as (R & R1 & R2 & R3).
  rewrite Ec in R1. apply keep_reads in Hr. assert (R = rows) by (eapply language_rows_unique; eauto). subst R.
  destruct Jr8 as (k & Hk & H8). rewrite R3, (receive_ext _ _ _ twice_g) in H8.
  pose proof (plain_trip E long is_none 1 2 k _ r8 (f_allocation a') (shown_sent DevApproaches rows R2) Hk ltac:(lia) ltac:(lia) H8 Jallocation) as G.
  cbv zeta in G. unfold is_none in G.
  assert (Ef : filter (fun kt : pystr * pystr => negb (str_eqb (snd kt) (lit "none"))) (shown_rows DevApproaches rows) = filter (fun kt : pystr * pystr => negb (str_eqb (snd kt) (lit "none"))) rows).
  { destruct rows; reflexivity. }
  rewrite Ef in G. apply G. intros l t Hin. apply filter_In in Hin as [Hin _]. eauto.
Qed.
Lemma time_trip a a' rows : trip' a = Ok a' -> reads (f_time a) rows -> within (ignore E) long rows -> above (-1) (f_time a) ->
  (forall x, f_validity a = Some x -> In x (map fst time_period)) -> Forall (fun kt => ~ occurs (lit "Validity: ") (snd kt)) rows ->
  reads (f_time a') rows /\ above 999 (f_time a') /\ f_validity a' = Some (match f_validity a with Some x => x | None => lit "true" end).
Proof.
  intros H Hr Hw Hab Hval Hpl. journey_of H.
  destruct (texts_speak (f_time a)) as (ls & Hls & Ec). apply keep_reads in Hr. rewrite Forall_forall in Hpl.
  assert (Hplain : forall l t, In (l, t) rows -> time_comment t = ([], t)).
  { intros l t Hin. apply (proj1 (proj2 C73_plain_text_untouched_partial)). exact (Hpl (l, t) Hin). }
  assert (Hvis : forall kt, In kt rows -> visible_text (snd kt)).
  { intros [l t] Hin. exact (language_rows_visible _ _ _ (fun i k u => keep_vis _ i k u) Hr l t Hin). }
  destruct Jr4 as (k & Hk & H4).
  assert (HN : f_validity a' = Some (match assigned Validity (fst (fst r4)) with Some (Some x) => x | Some None => lit "true" | None => lit "true" end) \/ assigned Validity (fst (fst r4)) = Some None).
  { cbv zeta in Jnotes. destruct Jnotes as (_ & _ & _ & _ & _ & _ & _ & Hv & _). rewrite Hv, last_assigned by (cbn; auto 10). rewrite !assigned_app.
    destruct Jr6 as (? & _ & H6). destruct Jr9 as (? & _ & H9). destruct Jr3 as (? & _ & H3).
    rewrite (assigned_from _ _ Validity (constants_from _ _ _ H9)) by (cbn; intuition discriminate).
    rewrite (assigned_from _ _ Validity (marked_from _ _ _ tech_from _ _ H6)) by (cbn; intuition discriminate).
    rewrite (assigned_from _ _ Validity (marked_from _ _ _ general_from _ _ H3)) by (cbn; intuition discriminate).
    destruct (assigned Validity (fst (fst r4))) as [[y|]|]; auto. }
  destruct (f_validity a) as [x|] eqn:Ev.
  - assert (Hs : Forall2 speaks (values n m a TimeDescription) ([((-1)%Z, lit "en", line_validity x)] :: ls)).
    { cbn [values]. rewrite Ev. cbn [optional app]. constructor; [apply (speaks_entry (-1) (english (line_validity x)))|exact Hls]. }
    destruct (sent_unlimited E show ns n m a TimeDescription (O TimeDescription) _ eq_refl (Jsent TimeDescription) Hs) as (R & R1 & R2 & R3).
    assert (Es : shown_rows TimeDescription R = R) by (destruct R; reflexivity). rewrite Es in R3. rewrite R3 in H4.
    pose proof (proj1 C33_fields_read_back) as C33.
    assert (Hlv : visible_text (line_validity x)) by (exists 86%N; split; [now left|reflexivity]).
    assert (HA : keep (concat ([((-1)%Z, lit "en", line_validity x)] :: ls)) = lines (lit "en") [((-1)%Z, line_validity x)] ++ keep (f_time a)).
    { change (concat (?x :: ls)) with (x ++ concat ls). rewrite Ec, keep_app. reflexivity. }
    apply (eq_ind _ (fun z => language_rows sep_ z R)) with (2 := HA) in R1.
    assert (Hal : forall i l u, In (i, l, u) (lines (lit "en") [((-1)%Z, line_validity x)]) -> l = lit "en") by (intros i l u [[= <- <- <-]|[]]; reflexivity).
    assert (Hlt : forall i u j v, In (i, lit "en", u) (lines (lit "en") [((-1)%Z, line_validity x)]) -> In (j, lit "en", v) (keep (f_time a)) -> (i < j)%Z).
    { intros i u j v [[= <- <-]|[]] Hj. apply keep_in in Hj as [Hj _]. exact (Hab _ _ _ Hj). }
    assert (Hh : lang_text sep_ (lines (lit "en") [((-1)%Z, line_validity x)]) (lit "en") (line_validity x)).
    { apply (lines_text _ (lit "en") [((-1)%Z, line_validity x)]). repeat constructor. }
    assert (Hout : said_rows (map (fun kt => (fst kt, snd (time_comment (snd kt)))) R) = rows).
    { etransitivity; [|apply (map_id_rows (lit "en"))].
      apply (head_returns sep_default (lines (lit "en") [((-1)%Z, line_validity x)]) (keep (f_time a)) (lit "en") (line_validity x) rows R (fun t => snd (time_comment t)) (fun t => t)); auto.
      - discriminate.
      - intros t Hin. exact (Hvis (lit "en", t) Hin).
      - intros _. rewrite (proj2 (C33 x [] (Hval x eq_refl) ltac:(intros (p & q & Ex); destruct p; discriminate))). cbn [snd]. intros (c & [] & _).
      - intros t Hin. now rewrite (proj1 (C33 x t (Hval x eq_refl) (Hpl (_, t) Hin))).
      - intros l t Hin _. now rewrite (Hplain l t Hin). }
    pose proof (marked_trip E long time_comment k R r4 (f_time a') R2 Hk H4 Jtime) as G. cbv zeta in G. rewrite Hout in G.
    destruct (G Hw) as (G1 & G2 & G3). split; [exact G1|]. split; [exact G2|].
    destruct (two_groups _ _ _ _ _ rows R Hal Hlt ltac:(discriminate) Hh Hr R1) as (T1 & T2 & T3 & T4).
    assert (HG : fst (fst r4) = [(Validity, Some x)]).
    { rewrite G3. destruct (in_dec (list_eq_dec N.eq_dec) (lit "en") (map fst rows)) as [Hi|Hi].
      - apply in_map_iff in Hi as ([l t] & El & Hin). cbn [fst] in El. subst l.
        rewrite (flat_single (fun t => fst (time_comment t)) R (lit "en") _ (proj1 R2) (T1 t Hin)).
        + now rewrite (proj1 (C33 x t (Hval x eq_refl) (Hpl (_, t) Hin))).
        + intros l u Hu Hl. apply T4 in Hu as [[? _]|[_ Hu]]; [contradiction|]. now rewrite (Hplain l u Hu).
      - rewrite (flat_single (fun t => fst (time_comment t)) R (lit "en") _ (proj1 R2) (T2 Hi)).
        + now rewrite (proj2 (C33 x [] (Hval x eq_refl) ltac:(intros (p & q & Ex); destruct p; discriminate))).
        + intros l u Hu Hl. apply T4 in Hu as [[? _]|[_ Hu]]; [contradiction|]. now rewrite (Hplain l u Hu). }
    rewrite HG in HN. cbn [assigned] in HN. destruct (slot_eq_dec Validity Validity) as [_|C]; [|contradiction]. destruct HN as [HN|HN]; [exact HN|discriminate].
  - assert (Hs : Forall2 speaks (values n m a TimeDescription) ls) by (cbn [values]; rewrite Ev; exact Hls).
    destruct (sent_unlimited E show ns n m a TimeDescription (O TimeDescription) _ eq_refl (Jsent TimeDescription) Hs) as (R & R1 & R2 & R3).
    rewrite Ec in R1. assert (R = rows) by (eapply language_rows_unique; eauto). subst R.
    assert (Es : shown_rows TimeDescription rows = rows) by (destruct rows; reflexivity). rewrite Es in R3. rewrite R3 in H4.
    pose proof (marked_trip E long time_comment k rows r4 (f_time a') R2 Hk H4 Jtime) as G. cbv zeta in G.
    assert (Hout : said_rows (map (fun kt => (fst kt, snd (time_comment (snd kt)))) rows) = rows).
    { transitivity (said_rows rows); [|apply said_rows_all; now apply Forall_forall]. f_equal. transitivity (map (fun kt : speech => kt) rows); [|apply map_id].
      apply map_ext_in. intros [l t] Hin. cbn [fst snd]. now rewrite (Hplain l t Hin). }
    rewrite Hout in G. destruct (G Hw) as (G1 & G2 & G3). split; [exact G1|]. split; [exact G2|].
    rewrite G3, (flat_none (fun t => fst (time_comment t))) in HN by (intros l t Hin; now rewrite (Hplain l t Hin)).
    destruct HN as [HN|HN]; [exact HN|discriminate].
Qed.

(** ** Lines in front of a comment *)
Notation en := (lit "en").
Lemma at_en_id rows : at_en (fun t => t) rows = rows.
Proof. apply (map_id_rows en). Qed.
Lemma at_en_before h rows : at_en (fun t => h ++ newline ++ t) rows = put_before en h rows.
Proof. reflexivity. Qed.
Lemma headed (rd : pystr -> notes * pystr) L hl c (rows R : list speech) k (r : notes * list pyval * Z) T (g : pystr -> pystr) t0 N :
  language_rows sep_ L R -> sent_rows R -> L = lines en hl ++ keep c ->
  hl <> [] -> StronglySorted Z.lt (map fst hl) -> (forall i h j l u, In (i, h) hl -> In (j, l, u) c -> (i < j)%Z) ->
  reads c rows -> In (en, t0) rows -> visible_text (g t0) ->
  rd (join newline (map snd hl) ++ newline ++ t0) = (N, g t0) -> (forall l t, In (l, t) rows -> l <> en -> rd t = ([], t)) ->
  (1000 <= k)%Z -> receive (marked rd) k (map row_val R) = Ok r -> comment_out E long (snd (fst r)) = Ok T ->
  within (ignore E) long (at_en g rows) ->
  reads T (at_en g rows) /\ above 999 T /\ fst (fst r) = N.
Proof.
  intros HL HR -> Hne Hs Hlt Hr Hin Hg Hrd Hother Hk Hrec HT Hw. apply keep_reads in Hr.
  assert (Huniq : forall t, In (en, t) rows -> t = t0).
  { intros t Ht. destruct Hr as (_ & _ & H3). pose proof (H3 _ _ Ht) as (ia & S1 & S2 & ->). pose proof (H3 _ _ Hin) as (ib & S3 & S4 & ->). f_equal. f_equal.
    apply (SS_unique Z.lt); auto; try lia. intros i. rewrite S2, S4. reflexivity. }
  assert (Hvis : forall kt, In kt rows -> visible_text (snd kt)).
  { intros [l t] Hlt'. exact (language_rows_visible _ _ _ (fun i k u => keep_vis _ i k u) Hr l t Hlt'). }
  assert (Hal : forall i l u, In (i, l, u) (lines en hl) -> l = en).
  { intros i l u Hi. apply in_map_iff in Hi as ([j h] & [= _ <- _] & _). reflexivity. }
  assert (Hltk : forall i u j v, In (i, en, u) (lines en hl) -> In (j, en, v) (keep c) -> (i < j)%Z).
  { intros i u j v Hi Hj. apply in_map_iff in Hi as ([i' h] & [= -> ->] & Hi). apply keep_in in Hj as [Hj _]. eauto. }
  assert (Hl : lines en hl <> []) by (destruct hl; [contradiction|discriminate]).
  pose proof (lines_text sep_default en hl Hs) as Hh.
  assert (Hout : said_rows (map (fun kt => (fst kt, snd (rd (snd kt)))) R) = at_en g rows).
  { apply (head_returns sep_default (lines en hl) (keep c) en (join newline (map snd hl)) rows R (fun t => snd (rd t)) g); auto.
    - intros t Ht. now rewrite (Huniq t Ht).
    - intros Hn. exfalso. apply Hn. apply in_map_iff. exists (en, t0). auto.
    - intros t Ht. rewrite (Huniq t Ht), Hrd. reflexivity.
    - intros l t Ht Hne'. now rewrite (Hother l t Ht Hne'). }
  pose proof (marked_trip E long rd k R r T HR Hk Hrec HT) as G. cbv zeta in G. rewrite Hout in G. destruct (G Hw) as (G1 & G2 & G3).
  split; [exact G1|]. split; [exact G2|]. rewrite G3.
  destruct (two_groups sep_default _ _ _ _ rows R Hal Hltk Hl Hh Hr HL) as (T1 & _ & _ & T4).
  rewrite (flat_single (fun t => fst (rd t)) R en _ (proj1 HR) (T1 t0 Hin)); [now rewrite Hrd|].
  intros l u Hu Hl'. apply T4 in Hu as [[? _]|[_ Hu]]; [contradiction|]. now rewrite (Hother l u Hu Hl').
Qed.
(** the same without such lines *)
Lemma unheaded (rd : pystr -> notes * pystr) c (rows R : list speech) k (r : notes * list pyval * Z) T :
  language_rows sep_ (keep c) R -> sent_rows R -> reads c rows -> (forall l t, In (l, t) rows -> rd t = ([], t)) ->
  (1000 <= k)%Z -> receive (marked rd) k (map row_val R) = Ok r -> comment_out E long (snd (fst r)) = Ok T -> within (ignore E) long rows ->
  reads T rows /\ above 999 T /\ fst (fst r) = [].
Proof.
  intros HL HR Hr Hplain Hk Hrec HT Hw. apply keep_reads in Hr. assert (R = rows) by (eapply language_rows_unique; eauto). subst R.
  assert (Hvis : forall kt, In kt rows -> visible_text (snd kt)).
  { intros [l t] Hin. exact (language_rows_visible _ _ _ (fun i k u => keep_vis _ i k u) Hr l t Hin). }
  pose proof (marked_trip E long rd k rows r T HR Hk Hrec HT) as G. cbv zeta in G.
  assert (Hout : said_rows (map (fun kt => (fst kt, snd (rd (snd kt)))) rows) = rows).
  { transitivity (said_rows rows); [|apply said_rows_all; now apply Forall_forall]. f_equal. transitivity (map (fun kt : speech => kt) rows); [|apply map_id].
    apply map_ext_in. intros [l t] Hin. cbn [fst snd]. now rewrite (Hplain l t Hin). }
  rewrite Hout in G. destruct (G Hw) as (G1 & G2 & G3). split; [exact G1|]. split; [exact G2|].
  rewrite G3. apply (flat_none (fun t => fst (rd t))). intros l t Hin. now rewrite (Hplain l t Hin).
Qed.

(** ** C169: the general comment *)
Definition head_lines (a : activity) (so co : option pystr) : list (Z * pystr) :=
  optional (fun x => ((-10)%Z, line_linkable x)) (f_link a) ++ optional (fun x => ((-9)%Z, line_subtype x)) (f_subtype a) ++
  flat_map (fun x => optional (fun l => ((-8)%Z, l)) (line_inheritance x)) (optional (fun x => x) (f_inherit a)) ++
  optional (fun x => ((-7)%Z, line_parent x)) (f_parent a) ++ optional (fun x => ((-5)%Z, scenario_line x)) so ++
  optional (fun x => ((-4)%Z, lit "Macroeconomic Scenario Comment: " ++ x)) co.
Definition tail_lines (so co : option pystr) : list pystr :=
  optional scenario_line so ++ optional (fun x => lit "Macroeconomic Scenario Comment: " ++ x) co.
Lemma head_text a so co : map snd (head_lines a so co) = facts_lines (facts_of a) ++ tail_lines so co.
Proof.
  unfold head_lines, facts_lines, facts_of, tail_lines. cbn [a_link a_subtype a_inherit a_parent].
  destruct (f_link a), (f_subtype a), (f_parent a), so, co; cbn [optional opt_line map snd app flat_map];
    (destruct (f_inherit a) as [x|]; cbn [optional flat_map app map snd]; [|reflexivity];
     destruct (str_eqb x (lit "0")) eqn:Ex;
     [apply str_eqb_eq in Ex; subst x; change (line_inheritance (lit "0")) with (@None pystr); reflexivity
     |destruct (line_inheritance x); reflexivity]).
Qed.
Lemma head_sorted a so co : StronglySorted Z.lt (map fst (head_lines a so co)) /\ (forall i h, In (i, h) (head_lines a so co) -> (i <= -4)%Z).
Proof.
  unfold head_lines.
  destruct (f_link a), (f_subtype a), (f_parent a), so, co; cbn [optional opt_line map snd app flat_map];
    (destruct (f_inherit a) as [x|]; cbn [optional flat_map app map fst snd]; [destruct (line_inheritance x)|]; cbn [optional flat_map app map fst snd];
     (split; [repeat constructor|cbn [In]; intros i h Hin; repeat (destruct Hin as [[= <- _]|Hin]; [lia|]); destruct Hin])).
Qed.
Lemma head_visible a so co : Forall (fun ih => visible_text (snd ih)) (head_lines a so co).
Proof.
  assert (HF : Forall visible_text (map snd (head_lines a so co))).
  { rewrite head_text. apply Forall_app. split.
    - unfold facts_lines. repeat (apply Forall_app; split).
      + destruct (a_link (facts_of a)); repeat constructor. exists 65%N. split; [now left|reflexivity].
      + destruct (a_subtype (facts_of a)); repeat constructor. exists 65%N. split; [now left|reflexivity].
      + destruct (a_inherit (facts_of a)) as [x|]; [|constructor]. unfold line_inheritance. destruct (getf x child_type) as [[|c v]|]; repeat constructor.
        exists 73%N. split; [now left|reflexivity].
      + destruct (a_parent (facts_of a)); repeat constructor. exists 80%N. split; [now left|reflexivity].
    - unfold tail_lines. destruct so, co; repeat constructor; exists 77%N; (split; [now left|reflexivity]). }
  rewrite Forall_map in HF. exact HF.
Qed.
Lemma tail_plain so co t : (forall s, so = Some s -> plain general_marks s) -> (forall s, co = Some s -> plain general_marks s) -> plain general_marks t ->
  plain general_marks (closed_lines (tail_lines so co) ++ t).
Proof.
  intros Hs Hc Ht m0 Hm. pose proof (proj1 (Forall_forall _ _) marks_good m0 Hm) as [G1 G2]. apply quiet_not_occurs; auto. apply quiet_lines; auto.
  unfold tail_lines. apply Forall_app. split.
  - destruct so as [s|]; repeat constructor. unfold scenario_line. apply quiet_not_occurs; auto; [|now apply (Hs s eq_refl)].
    cbn [In general_marks] in Hm. destruct Hm as [<-|[<-|[<-|[<-|[<-|[]]]]]]; apply quiet_b_ok; vm_compute; reflexivity.
  - destruct co as [s|]; repeat constructor. apply quiet_not_occurs; auto; [|now apply (Hc s eq_refl)].
    cbn [In general_marks] in Hm. destruct Hm as [<-|[<-|[<-|[<-|[<-|[]]]]]]; apply quiet_b_ok; vm_compute; reflexivity.
Qed.

Lemma general_speak a so co : f_tags a = [] -> f_scenario a = map english (optional (fun x => x) so) -> f_scenario_comment a = map english (optional (fun x => x) co) ->
  exists ls, Forall2 speaks (values n m a GeneralComment) ls /\ keep (concat ls) = lines en (head_lines a so co) ++ keep (f_general a).
Proof.
  intros Ht Hs Hc. destruct (texts_speak (f_general a)) as (ls & Hls & Ec).
  exists (map (fun ih : Z * pystr => [((fst ih, en, snd ih) : triple)]) (head_lines a so co) ++ ls). split.
  - cbn [values]. rewrite Ht, Hs, Hc. unfold head_lines. rewrite !map_app, <- !app_assoc.
    assert (G : forall (f : pystr -> Z * pystr) o, Forall2 speaks (optional (fun x => entry_at (fst (f x)) (english (snd (f x)))) o) (map (fun ih : Z * pystr => [((fst ih, en, snd ih) : triple)]) (optional f o))).
    { intros f [x|]; cbn [optional map]; constructor; [|constructor]. apply (speaks_entry (fst (f x)) (english (snd (f x)))). }
    apply Forall2_app; [exact (G (fun x => ((-10)%Z, line_linkable x)) (f_link a))|].
    apply Forall2_app; [exact (G (fun x => ((-9)%Z, line_subtype x)) (f_subtype a))|].
    apply Forall2_app.
    { destruct (f_inherit a) as [x|]; cbn [optional flat_map app map]; [|constructor]. rewrite !app_nil_r. exact (G (fun l => ((-8)%Z, l)) (line_inheritance x)). }
    apply Forall2_app; [exact (G (fun x => ((-7)%Z, line_parent x)) (f_parent a))|]. cbn [flat_map app].
    apply Forall2_app; [destruct so as [x|]; [exact (G (fun x => ((-5)%Z, scenario_line x)) (Some x))|constructor]|].
    apply Forall2_app; [destruct co as [x|]; [exact (G (fun x => ((-4)%Z, lit "Macroeconomic Scenario Comment: " ++ x)) (Some x))|constructor]|].
    exact Hls.
  - rewrite concat_app, keep_app, Ec. f_equal.
    assert (Em : concat (map (fun ih : Z * pystr => [((fst ih, en, snd ih) : triple)]) (head_lines a so co)) = lines en (head_lines a so co)).
    { unfold lines. generalize (head_lines a so co). induction l as [|x l IH]; [reflexivity|]. cbn [map concat app]. now rewrite IH. }
    rewrite Em. apply keep_all. unfold lines. rewrite Forall_map. exact (head_visible a so co).
Qed.
Lemma general_trip a a' rows t0 so co :
  trip' a = Ok a' -> f_tags a = [] -> f_scenario a = map english (optional (fun x => x) so) -> f_scenario_comment a = map english (optional (fun x => x) co) ->
  legal_facts (facts_of a) -> (forall s, so = Some s -> plain general_marks s) -> (forall s, co = Some s -> plain general_marks s) ->
  reads (f_general a) rows -> above (-4) (f_general a) -> In (en, t0) rows -> Forall (fun kt => plain general_marks (snd kt)) rows ->
  within (ignore E) long (at_en (fun t => closed_lines (tail_lines so co) ++ t) rows) ->
  reads (f_general a') (at_en (fun t => closed_lines (tail_lines so co) ++ t) rows) /\ above 999 (f_general a') /\
  f_tags a' = [] /\ (f_link a' = f_link a \/ (f_link a = None /\ exists name, f_link a' = Some (name_id name))) /\ f_subtype a' = kept_or (f_subtype a) (lit "0") /\
  f_parent a' = f_parent a /\ f_inherit a' = match f_parent a with Some _ => Some (lit "-1") | None => kept_or (f_inherit a) (lit "0") end.
Proof.
  intros H Ht Hso Hco Hlegal Ps Pc Hr Hab Hin Hpl Hw. journey_of H. rewrite Forall_forall in Hpl.
  destruct (general_speak a so co Ht Hso Hco) as (ls & Hls & Ek).
  destruct (sent_unlimited E show ns n m a GeneralComment (O GeneralComment) ls eq_refl (Jsent GeneralComment) Hls) as (R & R1 & R2 & R3).
  assert (Es : shown_rows GeneralComment R = R) by (destruct R; reflexivity). rewrite Es in R3. rewrite Ek in R1.
  destruct Jr3 as (k & Hk & H3). rewrite R3 in H3.
  assert (Hother : forall l t, In (l, t) rows -> l <> en -> general_comment t = ([], t)).
  { intros l t Hl _. apply (proj1 C73_plain_text_untouched_partial). exact (Hpl (l, t) Hl). }
  assert (Hvis : visible_text t0).
  { apply keep_reads in Hr. exact (language_rows_visible _ _ _ (fun i k u => keep_vis _ i k u) Hr en t0 Hin). }
  pose proof (tail_plain so co t0 Ps Pc (Hpl (en, t0) Hin)) as Hrest.
  destruct (C33_comment_facts_read_back_partial (facts_of a) (closed_lines (tail_lines so co) ++ t0) Hlegal Hrest) as (N & HN & A1 & _ & _ & A2 & _ & A3 & A4 & A5 & A6).
  assert (G : reads (f_general a') (at_en (fun t => closed_lines (tail_lines so co) ++ t) rows) /\ above 999 (f_general a') /\ fst (fst r3) = N).
  { destruct (head_lines a so co) as [|h0 hl0] eqn:Eh.
    - assert (Hnil : facts_lines (facts_of a) ++ tail_lines so co = []) by (rewrite <- head_text, Eh; reflexivity). apply app_eq_nil in Hnil as [F1 F2].
      rewrite F1, F2 in HN. cbn [closed_lines map concat app] in HN. rewrite (proj1 C73_plain_text_untouched_partial t0 (Hpl (en, t0) Hin)) in HN. injection HN as <-.
      rewrite F2 in Hw |- *. cbn [closed_lines map concat app] in Hw |- *. rewrite at_en_id in Hw |- *.
      apply (unheaded general_comment (f_general a) rows R k r3 (f_general a')); auto. intros l t Hl. apply (proj1 C73_plain_text_untouched_partial). exact (Hpl (l, t) Hl).
    - rewrite <- Eh in *.
      apply (headed general_comment _ (head_lines a so co) (f_general a) rows R k r3 (f_general a') (fun t => closed_lines (tail_lines so co) ++ t) t0 N R1 R2 eq_refl); auto.
      + rewrite Eh. discriminate.
      + apply head_sorted.
      + intros i h j l u Hi Hj. apply (proj2 (head_sorted a so co)) in Hi. specialize (Hab _ _ _ Hj). lia.
      + destruct Hvis as (c & Hc & Hsp). exists c. split; [|exact Hsp]. apply in_or_app. auto.
      + rewrite head_text. rewrite <- HN. f_equal.
        assert (Hne : facts_lines (facts_of a) ++ tail_lines so co <> []) by (rewrite <- head_text, Eh; discriminate).
        transitivity (join newline ((facts_lines (facts_of a) ++ tail_lines so co) ++ [t0])).
        * revert Hne. generalize (facts_lines (facts_of a) ++ tail_lines so co). clear. induction l as [|x l IH]; intros Hne; [contradiction|]. destruct l as [|y l].
          -- cbn [app join]. reflexivity.
          -- rewrite (join_cons newline x (y :: l)) by discriminate. cbn [app]. rewrite (join_cons newline x (y :: l ++ [t0])) by discriminate.
             change (y :: l ++ [t0]) with ((y :: l) ++ [t0]). rewrite <- IH by discriminate. now rewrite <- !app_assoc.
        * rewrite join_newline by discriminate. rewrite closed_app, <- app_assoc. reflexivity. }
  destruct G as (G1 & G2 & G3). split; [exact G1|]. split; [exact G2|].
  cbv zeta in Jnotes. destruct Jnotes as (_ & _ & N3 & N4 & N5 & N6 & _ & _ & (name & _ & N7) & _). rewrite G3 in *.
  destruct Jr4 as (? & _ & H4). destruct Jr6 as (? & _ & H6). destruct Jr9 as (? & _ & H9).
  assert (Hlast : forall x, ~ In x [Energy] -> ~ In x [IncludedStart; IncludedEnd; TechLevel] -> ~ In x [Validity] ->
     assigned x (N ++ fst (fst r4) ++ fst (fst r6) ++ fst (fst r9)) = assigned x N).
  { intros sl X1 X2 X3. rewrite !assigned_app, (assigned_from _ _ sl (constants_from _ _ _ H9) X1), (assigned_from _ _ sl (marked_from _ _ _ tech_from _ _ H6) X2),
      (assigned_from _ _ sl (marked_from _ _ _ time_from _ _ H4) X3). reflexivity. }
  rewrite last_assigned, Hlast in N4, N5, N6, N7 by (cbn; intuition discriminate).
  assert (HT : assigned Tag (N ++ fst (fst r4) ++ fst (fst r6) ++ fst (fst r9)) = None) by (rewrite Hlast by (cbn; intuition discriminate); exact A6).
  rewrite (notes_for_none _ _ HT) in N3. cbn in N3. injection N3 as <-. split; [reflexivity|].
  rewrite A1 in N7. rewrite A2 in N6. rewrite A3 in N4. cbn [facts_of a_link a_subtype a_parent a_inherit] in *.
  split; [|split; [|split]].
  - rewrite N7. destruct (f_link a); cbn; eauto.
  - rewrite N6. destruct (f_subtype a); reflexivity.
  - rewrite N4. destruct (f_parent a); reflexivity.
  - rewrite N5. destruct (f_parent a).
    + destruct A5 as [A5 _]; [discriminate|]. now rewrite A5.
    + destruct A4 as [A4 _]; [reflexivity|]. rewrite A4. destruct (f_inherit a) as [z|]; [|reflexivity].
      destruct (str_eqb z (lit "0")) eqn:Ex; [|reflexivity]. apply str_eqb_eq in Ex. now subst z.
Qed.

(** ** C172: the comment on technology *)
Lemma spoken_long l vals ls rows out : spoken_out E (long_class l) vals = Ok out -> Forall2 speaks vals ls -> language_rows sep_ (keep (concat ls)) rows ->
  within (ignore E) l rows -> out = rows.
Proof.
  unfold spoken_out. intros H Hs Hr Hw. destruct (field_out E (long_class l) vals) as [os|] eqn:Eo; cbn [bind] in H; [|discriminate]. injection H as <-.
  destruct (multi_out E None (Lim_ l) vals os Eo) as (Ha & R & R1 & R2). rewrite (additions_speak None _ _ Ha Hs) in R1.
  assert (R = rows) by (eapply language_rows_unique; eauto). subst R. rewrite R2.
  - clear. induction rows as [|[k t] rows IH]; [reflexivity|]. cbn [map flat_map speech_of row_of o_lang optional app fst snd o_text]. now rewrite IH.
  - intros k t Hin. left. now apply (within_fits _ _ _ Hw k).
Qed.
Lemma spoken_one l i t out : spoken_out E (long_class l) [entry_at i (english t)] = Ok out -> visible_text t -> within (ignore E) l [english t] -> out = [english t].
Proof.
  intros H Hv Hw. apply (spoken_long l [entry_at i (english t)] [[(i, en, t)]] [english t] out H); auto.
  - constructor; [|constructor]. apply (speaks_entry i (english t)).
  - cbn [concat app]. rewrite keep_all by (repeat constructor; exact Hv). apply (rows_single sep_default [(i, en, t)]). cbn. repeat constructor.
Qed.
Lemma framed (rd : pystr -> notes * pystr) (rows : list speech) k (r : notes * list pyval * Z) T (w g : pystr -> pystr) t0 N :
  sent_rows rows -> In (en, t0) rows -> visible_text (w t0) -> visible_text (g t0) ->
  rd (w t0) = (N, g t0) -> (forall l t, In (l, t) rows -> l <> en -> rd t = ([], t)) ->
  (1000 <= k)%Z -> receive (marked rd) k (map row_val (at_en w rows)) = Ok r -> comment_out E long (snd (fst r)) = Ok T ->
  within (ignore E) long (at_en g rows) ->
  reads T (at_en g rows) /\ above 999 T /\ fst (fst r) = N.
Proof.
  intros [Hs Hv] Hin Hw0 Hg Hrd Hother Hk Hrec HT Hw. rewrite Forall_forall in Hv.
  assert (Hnd : forall t, In (en, t) rows -> t = t0).
  { clear -Hs Hin. intros t Ht. induction rows as [|[l u] rows IH]; [destruct Hin|]. cbn [map fst] in Hs. apply StronglySorted_inv in Hs as [Hs Hf]. rewrite Forall_forall in Hf.
    destruct Hin as [Hin|Hin], Ht as [Ht|Ht].
    - congruence.
    - injection Hin as -> ->. destruct (Hf en) as [_ C]; [apply in_map_iff; exists (en, t); auto|contradiction].
    - injection Ht as -> ->. destruct (Hf en) as [_ C]; [apply in_map_iff; exists (en, t0); auto|contradiction].
    - now apply IH. }
  assert (HR : sent_rows (at_en w rows)).
  { split.
    - unfold at_en. rewrite map_map. replace (map _ rows) with (map fst rows); [exact Hs|]. apply map_ext. intros [l t]. cbn [fst snd]. destruct (str_eqb l en); reflexivity.
    - apply Forall_forall. intros [l t] Hi. unfold at_en in Hi. apply in_map_iff in Hi as ([l' t'] & Ex & Hi). cbn [fst snd] in *. destruct (str_eqb l' en) eqn:El.
      + injection Ex as <- <-. apply str_eqb_eq in El. subst l'. rewrite (Hnd t' Hi). exact Hw0.
      + injection Ex as <- <-. exact (Hv _ Hi). }
  pose proof (marked_trip E long rd k (at_en w rows) r T HR Hk Hrec HT) as G. cbv zeta in G.
  assert (Hout : said_rows (map (fun kt => (fst kt, snd (rd (snd kt)))) (at_en w rows)) = at_en g rows).
  { transitivity (said_rows (at_en g rows)).
    - f_equal. unfold at_en at 1. rewrite map_map. apply map_ext_in. intros [l t] Hi. cbn [fst snd]. destruct (str_eqb l en) eqn:El; cbn [fst snd].
      + apply str_eqb_eq in El. subst l. now rewrite (Hnd t Hi), Hrd.
      + rewrite (Hother l t Hi); [reflexivity|]. intros ->. rewrite str_eqb_refl in El. discriminate.
    - apply said_rows_all. apply Forall_forall. intros [l t] Hi. unfold at_en in Hi. apply in_map_iff in Hi as ([l' t'] & Ex & Hi). cbn [fst snd] in *. destruct (str_eqb l' en) eqn:El.
      + injection Ex as <- <-. apply str_eqb_eq in El. subst l'. now rewrite (Hnd t' Hi).
      + injection Ex as <- <-. exact (Hv _ Hi). }
  rewrite Hout in G. destruct (G Hw) as (G1 & G2 & G3). split; [exact G1|]. split; [exact G2|]. rewrite G3.
  rewrite (flat_single (fun t => fst (rd t)) (at_en w rows) en (w t0) (proj1 HR)); [now rewrite Hrd| |].
  - unfold at_en. apply in_map_iff. exists (en, t0). split; [|exact Hin]. reflexivity.
  - intros l u Hu Hl. unfold at_en in Hu. apply in_map_iff in Hu as ([l' t'] & Ex & Hi). cbn [fst snd] in *. destruct (str_eqb l' en) eqn:El.
    + injection Ex as <- <-. apply str_eqb_eq in El. contradiction.
    + injection Ex as <- <-. now rewrite (Hother _ _ Hi Hl).
Qed.

Definition tech_notes (a a' : activity) N : Prop :=
  match N with
  | [] => f_level a' = Some (lit "3") /\ f_start a' = [] /\ f_end a' = []
  | [(TechLevel, Some x)] => f_level a' = Some x /\ f_start a' = [] /\ f_end a' = []
  | [(IncludedStart, Some s); (IncludedEnd, Some e); (TechLevel, Some x)] => f_level a' = Some x /\
      (visible_text s -> within (ignore E) long [english s] -> f_start a' = [english s]) /\ (visible_text e -> within (ignore E) long [english e] -> f_end a' = [english e])
  | _ => True
  end.
Lemma tech_noted a a' O r1 r2 r3 r4 r5 r6 r8 r9 ra rb r10 rc r11 r7 :
  journey E show ns long name_id vote n m a a' O r1 r2 r3 r4 r5 r6 r8 r9 ra rb r10 rc r11 r7 -> tech_notes a a' (fst (fst r6)).
Proof.
  intros J. destruct J as [Jsent Jr1 Jnames Jr2 Jsyn Jr3 Jgeneral Jr4 Jtime Jr5 Jgeography Jr6 Jtechnology Jr7 Jr8 Jallocation Jr9 Jra Jrb Jr10 Jrc Jextra Jr11 Jsampling Jnotes Jlocation Jmodel Jrest].
  cbv zeta in Jnotes. destruct Jnotes as (N1 & N2 & _ & _ & _ & _ & N7 & _).
  destruct Jr4 as (? & _ & H4). destruct Jr3 as (? & _ & H3). destruct Jr9 as (? & _ & H9).
  pose proof (constants_from _ _ _ H9) as F9. pose proof (marked_from _ _ _ time_from _ _ H4) as F4. pose proof (marked_from _ _ _ general_from _ _ H3) as F3.
  rewrite !notes_for_app in N1, N2.
  rewrite !(notes_for_none _ (fst (fst r9))), !(notes_for_none _ (fst (fst r4))), !(notes_for_none _ (fst (fst r3))) in N1
    by (first [apply (assigned_from _ _ _ F9)|apply (assigned_from _ _ _ F4)|apply (assigned_from _ _ _ F3)]; cbn; intuition discriminate).
  rewrite !(notes_for_none _ (fst (fst r9))), !(notes_for_none _ (fst (fst r4))), !(notes_for_none _ (fst (fst r3))) in N2
    by (first [apply (assigned_from _ _ _ F9)|apply (assigned_from _ _ _ F4)|apply (assigned_from _ _ _ F3)]; cbn; intuition discriminate).
  rewrite last_assigned in N7 by (cbn; auto 10). rewrite !assigned_app, (assigned_from _ _ TechLevel F9), (assigned_from _ _ TechLevel F4), (assigned_from _ _ TechLevel F3) in N7 by (cbn; intuition discriminate).
  cbn [app] in N1, N2. rewrite app_nil_r in N1, N2. remember (fst (fst r6)) as N eqn:EN. clear EN. unfold tech_notes.
  destruct N as [|[s1 [v1|]] N]; [| |destruct s1; exact I].
  { cbn in N1, N2, N7. injection N1 as <-. injection N2 as <-. auto. }
  destruct s1; try exact I.
  all: destruct N as [|[s2 [v2|]] N]; try exact I; try (destruct s2; exact I).
  all: try (cbn in N1, N2, N7; injection N1 as <-; injection N2 as <-; solve [auto]).
  destruct s2; try exact I. destruct N as [|[s3 [v3|]] N]; try exact I; [|destruct s3; exact I]. destruct s3; try exact I. destruct N as [|? ?]; [|exact I].
  cbn in N7. split; [exact N7|]. cbn [notes_for flat_map fst snd map app] in N1, N2. split; intros V W; eapply spoken_one; eauto.
Qed.
Lemma plain_tech t : plain tech_marks t -> tech_comment t = ([], t).
Proof. intros H. apply (proj1 (proj2 (proj2 C73_plain_text_untouched_partial))). intros k Hk. apply H. cbn [In tech_marks] in *. tauto. Qed.
Lemma rows_kept c rows : reads c rows -> sent_rows rows.
Proof. intros H. apply keep_reads in H. eapply rows_sent; [|exact H]. intros i k u. apply keep_vis. Qed.
Lemma tech_alone x : In x (map fst tech) -> tech_comment (line_level x) = ([(TechLevel, Some x)], []).
Proof.
  intros Hx. destruct (table_value _ _ Hx) as (v & Ev & Hin).
  assert (H : forallb (fun kv => match tech_comment (line_level (fst kv)) with ([(TechLevel, Some y)], []) => str_eqb y (fst kv) | _ => false end) tech = true) by (vm_compute; reflexivity).
  rewrite forallb_forall in H. specialize (H _ Hin). cbn [fst] in H. destruct (tech_comment (line_level x)) as [[|[[] [y|]] [|? ?]] [|? ?]]; try discriminate.
  apply str_eqb_eq in H. now subst y.
Qed.
Lemma tech_plain_trip a a' rows :
  trip' a = Ok a' -> f_start a = [] -> f_end a = [] -> (forall x, f_level a = Some x -> In x (map fst tech)) ->
  reads (f_technology a) rows -> above (-1) (f_technology a) -> Forall (fun kt => plain tech_marks (snd kt)) rows -> within (ignore E) long rows ->
  reads (f_technology a') rows /\ above 999 (f_technology a') /\ f_start a' = [] /\ f_end a' = [] /\ f_level a' = kept_or (f_level a) (lit "3").
Proof.
  intros H Hst Hen Hlev Hr Hab Hpl Hw. journey_of H. assert (J := tech_noted a a' O r1 r2 r3 r4 r5 r6 r8 r9 ra rb r10 rc r11 r7
    (Build_journey _ _ _ _ _ _ _ _ _ _ _ _ _ _ _ _ _ _ _ _ _ _ _ _ _ Jsent Jr1 Jnames Jr2 Jsyn Jr3 Jgeneral Jr4 Jtime Jr5 Jgeography Jr6 Jtechnology Jr7 Jr8 Jallocation Jr9 Jra Jrb Jr10 Jrc Jextra Jr11 Jsampling Jnotes Jlocation Jmodel Jrest)).
  rewrite Forall_forall in Hpl. assert (Hplain : forall l t, In (l, t) rows -> tech_comment t = ([], t)) by (intros l t Hin; apply plain_tech; exact (Hpl _ Hin)).
  destruct (texts_speak (f_technology a)) as (ls & Hls & Ec). destruct Jr6 as (k & Hk & H6).
  destruct (f_level a) as [x|] eqn:Ex.
  - assert (Hs : Forall2 speaks (values n m a TechDescription) ([((-1)%Z, en, line_level x)] :: ls)).
    { cbn [values]. rewrite Hst, Hen, Ex. cbn [map numbered optional app]. constructor; [apply (speaks_entry (-1) (english (line_level x)))|exact Hls]. }
    destruct (sent_unlimited E show ns n m a TechDescription (O TechDescription) _ eq_refl (Jsent TechDescription) Hs) as (R & R1 & R2 & R3).
    assert (Es : shown_rows TechDescription R = R) by (destruct R; reflexivity). rewrite Es in R3. rewrite R3 in H6.
    assert (HA : keep (concat ([((-1)%Z, en, line_level x)] :: ls)) = lines en [((-1)%Z, line_level x)] ++ keep (f_technology a)).
    { change (concat (?x :: ls)) with (x ++ concat ls). rewrite Ec, keep_app. reflexivity. }
    apply (eq_ind _ (fun z => language_rows sep_ z R)) with (2 := HA) in R1.
    assert (Hlt : forall i u j v, In (i, en, u) (lines en [((-1)%Z, line_level x)]) -> In (j, en, v) (keep (f_technology a)) -> (i < j)%Z).
    { intros i u j v [[= <- <-]|[]] Hj. apply keep_in in Hj as [Hj _]. exact (Hab _ _ _ Hj). }
    assert (G : reads (f_technology a') rows /\ above 999 (f_technology a') /\ fst (fst r6) = [(TechLevel, Some x)]).
    { destruct (in_dec (list_eq_dec N.eq_dec) en (map fst rows)) as [Hi|Hi].
      - apply in_map_iff in Hi as ([l t0] & El & Hin). cbn [fst] in El. subst l. rewrite <- (at_en_id rows) in Hw |- *.
        apply (headed tech_comment _ [((-1)%Z, line_level x)] (f_technology a) rows R k r6 (f_technology a') (fun t => t) t0 [(TechLevel, Some x)] R1 R2 eq_refl); auto.
        + discriminate.
        + repeat constructor.
        + intros i h j l u [[= <- <-]|[]] Hj. exact (Hab _ _ _ Hj).
        + exact (proj1 (Forall_forall _ _) (proj2 (rows_kept _ _ Hr)) _ Hin).
        + apply (proj2 (proj2 C33_fields_read_back)); [auto|]. intros q Hq. apply (Hpl _ Hin). cbn [In tech_marks] in *. tauto.
        + intros l t Ht _. eauto.
      - apply keep_reads in Hr.
        assert (Hal : forall i l u, In (i, l, u) (lines en [((-1)%Z, line_level x)]) -> l = en) by (intros i l u [[= <- <- <-]|[]]; reflexivity).
        assert (Hh : lang_text sep_ (lines en [((-1)%Z, line_level x)]) en (line_level x)) by (apply (lines_text _ en [((-1)%Z, line_level x)]); repeat constructor).
        destruct (two_groups _ _ _ _ _ rows R Hal Hlt ltac:(discriminate) Hh Hr R1) as (_ & T2 & _ & T4).
        assert (Hout : said_rows (map (fun kt => (fst kt, snd (tech_comment (snd kt)))) R) = rows).
        { etransitivity; [|apply (map_id_rows en)].
          apply (head_returns sep_default (lines en [((-1)%Z, line_level x)]) (keep (f_technology a)) en (line_level x) rows R (fun t => snd (tech_comment t)) (fun t => t)); auto.
          - discriminate.
          - intros kt Hkt. apply keep_reads in Hr. exact (proj1 (Forall_forall _ _) (proj2 (rows_kept _ _ Hr)) _ Hkt).
          - intros t Hin. exfalso. apply Hi. apply in_map_iff. now exists (en, t).
          - intros _. rewrite tech_alone by auto. cbn [snd]. intros (c & [] & _).
          - intros t Hin. exfalso. apply Hi. apply in_map_iff. now exists (en, t).
          - intros l t Hin _. now rewrite (Hplain l t Hin). }
        pose proof (marked_trip E long tech_comment k R r6 (f_technology a') R2 Hk H6 Jtechnology) as G. cbv zeta in G. rewrite Hout in G.
        destruct (G Hw) as (G1 & G2 & G3). split; [exact G1|]. split; [exact G2|]. rewrite G3.
        rewrite (flat_single (fun t => fst (tech_comment t)) R en _ (proj1 R2) (T2 Hi)).
        + now rewrite tech_alone by auto.
        + intros l u Hu Hl. apply T4 in Hu as [[? _]|[_ Hu]]; [contradiction|]. now rewrite (Hplain l u Hu). }
    destruct G as (G1 & G2 & G3). rewrite G3 in J. destruct J as (J1 & J2 & J3). auto 10.
  - assert (Hs : Forall2 speaks (values n m a TechDescription) ls) by (cbn [values]; rewrite Hst, Hen, Ex; exact Hls).
    destruct (sent_unlimited E show ns n m a TechDescription (O TechDescription) _ eq_refl (Jsent TechDescription) Hs) as (R & R1 & R2 & R3).
    assert (Es : shown_rows TechDescription R = R) by (destruct R; reflexivity). rewrite Es in R3. rewrite R3 in H6. rewrite Ec in R1.
    destruct (unheaded tech_comment (f_technology a) rows R k r6 (f_technology a') R1 R2 Hr Hplain Hk H6 Jtechnology Hw) as (G1 & G2 & G3).
    rewrite G3 in J. destruct J as (J1 & J2 & J3). auto 10.
Qed.

(** included activities written behind the comment, or in front of it *)
Definition reference (a : activity) : Z := (n + Z.of_nat (length (f_names a)))%Z.
Lemma join_head (l : list pystr) t : l <> [] -> join newline l ++ newline ++ t = closed_lines l ++ t.
Proof.
  intros Hne. assert (Hj : join newline (l ++ [t]) = closed_lines l ++ t) by (now rewrite join_newline by discriminate).
  rewrite <- Hj. clear Hj. induction l as [|x l IH]; [contradiction|]. destruct l as [|y l]; [reflexivity|].
  rewrite (join_cons newline x (y :: l)) by discriminate. cbn [app]. rewrite (join_cons newline x (y :: l ++ [t])) by discriminate.
  change (y :: l ++ [t]) with ((y :: l) ++ [t]). rewrite <- IH by discriminate. now rewrite <- !app_assoc.
Qed.
Lemma tech_included_trip a a' rows t0 x s e :
  trip' a = Ok a' -> f_start a = [english s] -> f_end a = [english e] -> f_level a = Some x -> In x (map fst tech) ->
  one_line s -> one_line e -> plain [lit "Activity End: "; lit "Technology Level: "] s -> plain [lit "Activity Start: "; lit "Technology Level: "] e ->
  visible_text s -> visible_text e -> within (ignore E) long [english s] -> within (ignore E) long [english e] ->
  reads (f_technology a) rows -> above (-1) (f_technology a) -> In (en, t0) rows -> Forall (fun kt => plain tech_marks (snd kt)) rows -> (0 <= reference a)%Z ->
  (below (reference a) (f_technology a) -> within (ignore E) long (at_en (fun t => t ++ newline) rows) -> reads (f_technology a') (at_en (fun t => t ++ newline) rows) /\ above 999 (f_technology a') /\ f_start a' = [english s] /\ f_end a' = [english e] /\ f_level a' = Some x) /\
  (above (reference a + 1) (f_technology a) -> within (ignore E) long rows -> reads (f_technology a') rows /\ above 999 (f_technology a') /\ f_start a' = [english s] /\ f_end a' = [english e] /\ f_level a' = Some x).
Proof.
  intros H Hst Hen Ex Hx Os Oe Ps Pe Vs Ve Ws We Hr Hab Hin Hpl HK. journey_of H. assert (J := tech_noted a a' O r1 r2 r3 r4 r5 r6 r8 r9 ra rb r10 rc r11 r7
    (Build_journey _ _ _ _ _ _ _ _ _ _ _ _ _ _ _ _ _ _ _ _ _ _ _ _ _ Jsent Jr1 Jnames Jr2 Jsyn Jr3 Jgeneral Jr4 Jtime Jr5 Jgeography Jr6 Jtechnology Jr7 Jr8 Jallocation Jr9 Jra Jrb Jr10 Jrc Jextra Jr11 Jsampling Jnotes Jlocation Jmodel Jrest)).
  rewrite Forall_forall in Hpl. assert (Hplain : forall l t, In (l, t) rows -> tech_comment t = ([], t)) by (intros l t Hi; apply plain_tech; exact (Hpl _ Hi)).
  pose proof (rows_kept _ _ Hr) as HS. assert (Vt : visible_text t0) by exact (proj1 (Forall_forall _ _) (proj2 HS) _ Hin).
  destruct (texts_speak (f_technology a)) as (ls & Hls & Ec). destruct Jr6 as (k & Hk & H6). unfold reference in *. set (K := (n + Z.of_nat (length (f_names a)))%Z) in *.
  assert (Hs : Forall2 speaks (values n m a TechDescription) ([(K, en, line_start s)] :: [((K + 1)%Z, en, line_end e)] :: [((-1)%Z, en, line_level x)] :: ls)).
  { cbn [values]. rewrite Hst, Hen, Ex. cbn [map numbered optional app length]. fold K. constructor; [apply (speaks_entry K (english (line_start s)))|].
    constructor; [apply (speaks_entry (K + 1) (english (line_end e)))|]. constructor; [apply (speaks_entry (-1) (english (line_level x)))|exact Hls]. }
  destruct (sent_unlimited E show ns n m a TechDescription (O TechDescription) _ eq_refl (Jsent TechDescription) Hs) as (R & R1 & R2 & R3).
  assert (Es : shown_rows TechDescription R = R) by (destruct R; reflexivity). rewrite Es in R3. rewrite R3 in H6.
  set (B := lines en [(K, line_start s); ((K + 1)%Z, line_end e)]). set (A := lines en [((-1)%Z, line_level x)]).
  assert (HA : keep (concat ([(K, en, line_start s)] :: [((K + 1)%Z, en, line_end e)] :: [((-1)%Z, en, line_level x)] :: ls)) = B ++ A ++ keep (f_technology a)).
  { change (concat (?u :: ?v :: ?w :: ls)) with (u ++ v ++ w ++ concat ls). rewrite Ec, !keep_app. reflexivity. }
  apply (eq_ind _ (fun z => language_rows sep_ z R)) with (2 := HA) in R1.
  assert (Hal : forall i l u, In (i, l, u) A -> l = en) by (intros i l u [[= <- <- <-]|[]]; reflexivity).
  assert (HBl : forall i l u, In (i, l, u) B -> l = en) by (intros i l u [[= <- <- <-]|[[= <- <- <-]|[]]]; reflexivity).
  assert (HBi : forall i l u, In (i, l, u) B -> i = K \/ i = (K + 1)%Z) by (intros i l u [[= <- <- <-]|[[= <- <- <-]|[]]]; auto).
  assert (HAh : lang_text sep_ A en (line_level x)) by (apply (lines_text _ en [((-1)%Z, line_level x)]); repeat constructor).
  assert (HBh : lang_text sep_ B en (line_start s ++ newline ++ line_end e)).
  { apply (lines_text _ en [(K, line_start s); ((K + 1)%Z, line_end e)]). repeat constructor. cbn [fst]. lia. }
  assert (Hk0 : language_rows sep_ (keep (f_technology a)) rows) by (now apply keep_reads).
  assert (Hen' : In en (map fst rows)) by (apply in_map_iff; now exists (en, t0)).
  split.
  - intros Hb Hw.
    assert (HR : R = at_en (fun t => line_level x ++ newline ++ t ++ newline ++ line_start s ++ newline ++ line_end e) rows).
    { apply (language_rows_unique _ _ _ _ R1). apply rows_swap with (A := A ++ keep (f_technology a)).
      - intros j l u v Hj HB. apply HBi in HB. apply in_app_or in Hj as [Hj|Hj]; [destruct Hj as [[= <- <- <-]|[]]; lia|].
        apply keep_in in Hj as [Hj _]. specialize (Hb _ _ _ Hj). lia.
      - rewrite <- app_assoc.
        replace (at_en _ rows) with (put_before en (line_level x) (put_after en (line_start s ++ newline ++ line_end e) rows)).
        + apply rows_before; auto.
          * intros i u j v [[= <- <-]|[]] Hj. apply in_app_or in Hj as [Hj|Hj]; [apply keep_in in Hj as [Hj _]; exact (Hab _ _ _ Hj)|apply HBi in Hj; lia].
          * discriminate.
          * apply rows_after; auto; [|discriminate]. intros i u j v Hi Hj. apply keep_in in Hi as [Hi _]. specialize (Hb _ _ _ Hi). apply HBi in Hj. lia.
          * now rewrite put_after_fst.
        + unfold put_before, put_after, at_en. rewrite map_map. apply map_ext. intros [l t]. cbn [fst snd]. destruct (str_eqb l en) eqn:El; cbn [fst snd]; rewrite El; reflexivity. }
    rewrite HR in H6.
    assert (G : reads (f_technology a') (at_en (fun t => t ++ newline) rows) /\ above 999 (f_technology a') /\ fst (fst r6) = [(IncludedStart, Some s); (IncludedEnd, Some e); (TechLevel, Some x)]).
    { apply (framed tech_comment rows k r6 (f_technology a') (fun t => line_level x ++ newline ++ t ++ newline ++ line_start s ++ newline ++ line_end e) (fun t => t ++ newline) t0); auto.
      - exists 84%N. split; [now left|reflexivity].
      - destruct Vt as (c & Hc & Hsp). exists c. split; [apply in_or_app; auto|exact Hsp].
      - pose proof (included_last x [t0] s e Hx Os Oe Ps Pe) as HI.
        assert (E1 : closed_lines [t0] = t0 ++ newline) by (unfold closed_lines; cbn [map concat]; apply app_nil_r). rewrite E1 in HI. refine (eq_trans _ (HI _)).
        + f_equal. unfold closed_lines. cbn [map concat app]. rewrite <- !app_assoc. reflexivity.
        + repeat constructor. exact (Hpl _ Hin).
      - intros l t Ht _. eauto. }
    destruct G as (G1 & G2 & G3). rewrite G3 in J. cbn [tech_notes] in J. destruct J as (J1 & J2 & J3). auto 10.
  - intros Hb Hw.
    assert (R1' : language_rows sep_ (lines en [((-1)%Z, line_level x); (K, line_start s); ((K + 1)%Z, line_end e)] ++ keep (f_technology a)) R).
    { change (lines en [((-1)%Z, line_level x); (K, line_start s); ((K + 1)%Z, line_end e)]) with (A ++ B). rewrite app_assoc in R1. revert R1. apply rows_ext. intros i l. rewrite !texts_at_app.
      f_equal. rewrite <- !texts_at_app. apply texts_at_swap. intros j l' u v Hj HB. apply HBi in Hj. destruct HB as [[= <- <- <-]|[]]. lia. }
    assert (G : reads (f_technology a') rows /\ above 999 (f_technology a') /\ fst (fst r6) = [(IncludedStart, Some s); (IncludedEnd, Some e); (TechLevel, Some x)]).
    { rewrite <- (at_en_id rows) in Hw |- *.
      apply (headed tech_comment _ [((-1)%Z, line_level x); (K, line_start s); ((K + 1)%Z, line_end e)] (f_technology a) rows R k r6 (f_technology a') (fun t => t) t0 _ R1' R2 eq_refl); auto.
      - discriminate.
      - repeat constructor; cbn [fst]; lia.
      - intros i h j l u Hi Hj. specialize (Hb _ _ _ Hj). destruct Hi as [[= <- _]|[[= <- _]|[[= <- _]|[]]]]; lia.
      - rewrite join_head by discriminate. apply (C80_included_activities_partial x [] s e [] t0); auto. repeat constructor. exact (Hpl _ Hin).
      - intros l t Ht _. eauto. }
    destruct G as (G1 & G2 & G3). rewrite G3 in J. cbn [tech_notes] in J. destruct J as (J1 & J2 & J3). auto 10.
Qed.

(** ** C170: names *)
Lemma fixed_values i l : forall k (r : notes * list pyval * Z), receive (fixed_step i) k l = Ok r -> exists ss, snd (fst r) = map (entry_at i) ss.
Proof.
  induction l as [|v l IH]; intros k r H; cbn [receive] in H.
  - injection H as <-. now exists [].
  - destruct (said v) as [s|] eqn:Ev; cbn [bind fixed_step] in H; [|discriminate].
    destruct (receive (fixed_step i) k l) as [[[x vs] q]|] eqn:Er; cbn [bind] in H; [|discriminate]. injection H as <-.
    destruct (IH _ _ Er) as (ss & Hss). exists (s :: ss). cbn [fst snd map app] in *. now rewrite Hss.
Qed.
Lemma same_index_stable (L : list triple) i : (forall a, In a L -> fst (fst a) = i) -> stable_by_index L L.
Proof.
  intros H. split; [|reflexivity]. induction L as [|a L IH]; constructor.
  - apply IH. intros b Hb. apply H. now right.
  - apply Forall_forall. intros b Hb. rewrite (H a (or_introl eq_refl)), (H b (or_intror Hb)). lia.
Qed.
(** a field that keeps every text: its state is the list of what was said *)
Lemma appended_out k langs tc vals os : multi k = false -> vals <> [] -> field_out E (CLang k langs tc) vals = Ok os ->
  accepted_values langs vals /\ exists x, history (add_append (lang_validate langs)) vals = Some x /\ bind (end_ E (CLang k langs tc) (Some (SE x))) entries_of = Ok os.
Proof.
  intros Hk Hne H. unfold field_out in H. destruct vals as [|v vals]; [contradiction|]. set (vs := v :: vals) in *.
  destruct (assign_all E (CLang k langs tc) None vs) as [st|] eqn:Ea; cbn [bind] in H; [|discriminate].
  destruct (assign_append E k langs tc vs Hk None st Ea) as [Hv ->]. split; [exact Hv|].
  change (fold_left _ vs None) with (history (add_append (lang_validate langs)) vs) in H.
  assert (Hst : exists x, history (add_append (lang_validate langs)) vs = Some x).
  { unfold vs. clear. induction vals as [|w vals IH] using rev_ind.
    - unfold history. cbn [fold_left]. unfold add_append. destruct (retrieve _ _); cbn [fst]; eauto.
    - rewrite app_comm_cons, ValidatorsProofs.history_snoc. unfold add_append at 1. destruct (retrieve _ _); cbn [fst]; eauto. }
  destruct Hst as [x Hx]. rewrite Hx in H. cbn [option_map] in H. eauto.
Qed.
Lemma first_spoken i ss out : spoken_out E name_class (map (entry_at i) ss) = Ok out ->
  match said_rows ss with
  | [] => out = []
  | (k, t) :: _ => MultiLangSpec.fits (ignore E) (Lim_ 120) t -> out = [(k, t)]
  end.
Proof.
  unfold spoken_out. intros H. destruct (field_out E name_class (map (entry_at i) ss)) as [os|] eqn:Eo; cbn [bind] in H; [|discriminate]. injection H as <-.
  destruct ss as [|s0 ss0] eqn:Ess; [cbn in Eo; injection Eo as <-; reflexivity|]. rewrite <- Ess in *.
  destruct (appended_out KFirst None (Lim_ 120) (map (entry_at i) ss) os eq_refl ltac:(rewrite Ess; discriminate) Eo) as (Ha & x & Hx & He).
  pose proof (additions_speak None _ _ Ha (speaks_map (fun _ => i) ss)) as HL.
  assert (HL2 : additions (lang_validate None) (map (entry_at i) ss) = keep (map (fun s : speech => (i, fst s, snd s)) ss)).
  { rewrite HL. f_equal. clear. induction ss as [|s ss IH]; [reflexivity|]. cbn [map concat app]. now rewrite IH. }
  assert (Hk : map key_text (keep (map (fun s : speech => (i, fst s, snd s)) ss)) = said_rows ss).
  { rewrite keep_keys, map_map. f_equal. etransitivity; [|apply map_id]. apply map_ext. intros [k t]. reflexivity. }
  destruct (C58_single_entry_fields (Lim_ 120) None (ignore E) (map (entry_at i) ss) (keep (map (fun s : speech => (i, fst s, snd s)) ss)) (keep (map (fun s : speech => (i, fst s, snd s)) ss)))
    as (C1 & _ & C3 & _).
  { rewrite <- HL2. apply additions_calls, lang_iff. }
  { apply same_index_stable with (i := i). intros a Hin. apply keep_in in Hin as [Hin _]. apply in_map_iff in Hin as (s & <- & _). reflexivity. }
  rewrite Hx in C1, C3. cbn [stored] in C1, C3. cbn [end_ on pE] in He.
  destruct (snd (first_end (ignore E) (Lim_ 120) x)) as [[o|]|] eqn:Ef; cbn [bind entries_of] in He; [| |discriminate]; injection He as <-.
  - destruct (C3 o eq_refl) as (a & S' & ps & HS & Hem & Hhd & Hl & _). rewrite <- Hk, HS. cbn [map key_text]. intros Hf.
    rewrite (emits_fits _ _ _ _ Hf Hem) in Hhd. cbn in Hhd. injection Hhd as Hhd. cbn [flat_map]. unfold speech_of. rewrite Hl. cbn [optional app]. now rewrite <- Hhd.
  - rewrite <- Hk, (proj1 C1 eq_refl). reflexivity.
Qed.
Lemma rows_distinct sep (L : list triple) (R : list speech) : NoDup (map (fun a : triple => snd (fst a)) L) -> language_rows (Some sep) L R ->
  forall k t, In (k, t) R <-> exists i, In (i, k, t) L.
Proof.
  intros Hnd (R1 & R2 & R3).
  assert (U : forall i j k u v, In (i, k, u) L -> In (j, k, v) L -> i = j /\ u = v).
  { clear -Hnd. induction L as [|a L IH]; intros i j k u v H1 H2; [destruct H1|]. cbn [map] in Hnd. apply NoDup_cons_iff in Hnd as [Hn Hnd].
    destruct H1 as [H1|H1], H2 as [H2|H2].
    - rewrite H1 in H2. injection H2 as -> ->. auto.
    - exfalso. apply Hn. rewrite H1. apply in_map_iff. exists (j, k, v). auto.
    - exfalso. apply Hn. rewrite H2. apply in_map_iff. exists (i, k, u). auto.
    - now apply (IH Hnd i j k). }
  assert (T : forall i k u, In (i, k, u) L -> texts_at L i k = [u]).
  { clear -Hnd. intros i k u H. induction L as [|a L IH]; [destruct H|]. cbn [map] in Hnd. apply NoDup_cons_iff in Hnd as [Hn Hnd].
    destruct H as [->|H].
    - unfold texts_at. cbn [filter fst snd]. rewrite Z.eqb_refl, str_eqb_refl. cbn [andb map snd]. f_equal. change (texts_at L i k = []).
      apply texts_at_none. intros v Hv. apply Hn. cbn [fst snd]. apply in_map_iff. exists (i, k, v). auto.
    - unfold texts_at in *. cbn [filter]. destruct (str_eqb (snd (fst a)) k) eqn:Ek.
      + exfalso. apply Hn. apply str_eqb_eq in Ek. rewrite Ek. apply in_map_iff. exists (i, k, u). auto.
      + rewrite andb_false_r. now apply IH. }
  assert (W : forall i k u t, In (i, k, u) L -> lang_text (Some sep) L k t -> t = u).
  { intros i k u t Hi (idxs & S1 & S2 & ->).
    assert (idxs = [i]) as ->.
    { apply (SS_unique Z.lt); auto; try lia; [repeat constructor|]. intros j. rewrite S2. cbn [In]. split; [intros (v & Hv); left; now destruct (U _ _ _ _ _ Hi Hv)|].
      intros [<-|[]]. eauto. }
    cbn [map join]. now rewrite (T _ _ _ Hi). }
  intros k t. split.
  - intros H. assert (Hk : In k (map fst R)) by (apply in_map_iff; now exists (k, t)). apply R2 in Hk as (i & u & Hi). exists i. now rewrite (W _ _ _ _ Hi (R3 _ _ H)).
  - intros (i & Hi). assert (Hk : In k (map fst R)) by (apply R2; eauto). apply in_map_iff in Hk as ([k' t'] & Ek & Hk). cbn [fst] in Ek. subst k'.
    now rewrite <- (W _ _ _ _ Hi (R3 _ _ Hk)).
Qed.
Lemma numbered_speak l : forall k, Forall2 speaks (numbered k l) (map (fun a => [a]) (numbers k l)).
Proof. intros k. rewrite numbered_spaced, numbers_spaced. apply spaced_speak. Qed.
Lemma keep_langs (l : list triple) : NoDup (map (fun a : triple => snd (fst a)) l) -> NoDup (map (fun a : triple => snd (fst a)) (keep l)).
Proof.
  induction l as [|a l IH]; intros H; [constructor|]. cbn [map] in H. apply NoDup_cons_iff in H as [Hn H]. unfold keep in *. cbn [filter]. destruct (nonblank (entry_of a)); [|auto].
  cbn [map]. constructor; [|auto]. intros Hin. apply Hn. apply in_map_iff in Hin as (b & Hb & Hin). apply filter_In in Hin as [Hin _]. apply in_map_iff. eauto.
Qed.
Lemma numbers_langs l : forall k, map (fun a : triple => snd (fst a)) (numbers k l) = map fst l.
Proof. induction l as [|s l IH]; intros k; [reflexivity|]. cbn [numbers map fst snd]. now rewrite IH. Qed.
Lemma numbers_in l : forall k i a t, In (i, a, t) (numbers k l) -> In (a, t) l.
Proof. induction l as [|[b u] l IH]; intros k i a t H; [destruct H|]. cbn [numbers fst snd] in H. destruct H as [[= _ -> ->]|H]; [now left|right; eauto]. Qed.
Lemma in_numbers l : forall k a t, In (a, t) l -> exists i, In (i, a, t) (numbers k l).
Proof. induction l as [|[b u] l IH]; intros k a t H; [destruct H|]. cbn [numbers fst snd]. destruct H as [[= -> ->]|H]; [eexists; now left|destruct (IH (k + 1)%Z _ _ H) as (i & Hi); exists i; now right]. Qed.
Lemma names_trip a a' : trip' a = Ok a' -> f_names a <> [] -> NoDup (map fst (f_names a)) -> Forall (fun s => visible_text (snd s)) (f_names a) -> within (ignore E) 120 (f_names a) ->
  exists s, In s (f_names a) /\ f_names a' = [s] /\ forall s', In s' (f_names a) -> str_leb (fst s) (fst s') = true.
Proof.
  intros H Hne Hnd Hv Hw. journey_of H. rewrite Forall_forall in Hv.
  destruct (sent_field E show ns n m a BaseName (O BaseName) _ (Some Languages) (Range_ 1 500) (Jsent BaseName) eq_refl eq_refl (numbered_speak (f_names a) n)) as (R & R1 & R2 & R3).
  rewrite concat_single in R1.
  assert (HR : forall k t, In (k, t) R <-> In (k, t) (f_names a)).
  { intros k t. rewrite (rows_distinct sep_default _ R (keep_langs _ ltac:(rewrite numbers_langs; exact Hnd)) R1). split.
    - intros (i & Hi). apply keep_in in Hi as [Hi _]. eapply numbers_in; eauto.
    - intros Hi. destruct (in_numbers (f_names a) n k t Hi) as (i & Hn). exists i. apply filter_In. split; [exact Hn|].
      specialize (Hv _ Hi). apply isspace_visible in Hv as [V1 V2]. unfold nonblank, entry_of. cbn [tx snd fst] in *. destruct t; [contradiction|]. now rewrite V2. }
  destruct R3 as [_ R3].
  { intros k t Hi. left. apply HR in Hi. destruct (Hw _ _ Hi) as [Hl|Hl]; [now left|]. right. cbn [tc_limit Range_]. specialize (Hv _ Hi). destruct Hv as (c & Hc & _). cbn [snd] in Hc.
    destruct t; [destruct Hc|]. cbn [length] in *. lia. }
  assert (Es : shown_rows BaseName R = R) by (destruct R; reflexivity). rewrite Es in R3. rewrite R3, receive_app in Jr1.
  unfold fixed_step in Jr1 at 1. rewrite receive_fixed in Jr1. cbn [bind fst snd] in Jr1.
  destruct (receive (fixed_step 1) 1000 (reported show ns (lit "field") (O MixAndLocation))) as [q|] eqn:Eq; cbn [bind] in Jr1; [|discriminate].
  injection Jr1 as <-. cbn [fst snd app] in Jnames. destruct (fixed_values _ _ _ _ Eq) as (ss & Hss). destruct q as [[qx qv] qn]. cbn [fst snd] in *. subst qv. rewrite <- map_app in Jnames.
  assert (Esr : said_rows (R ++ ss) = R ++ said_rows ss).
  { rewrite <- (said_rows_all R (proj2 R2)) at 2. apply filter_app. }
  pose proof (first_spoken 1 (R ++ ss) _ Jnames) as F. rewrite Esr in F. clear Esr Jnames.
  destruct R as [|[k t] R].
  - exfalso. destruct (f_names a) as [|[k t] l] eqn:El; [now apply Hne|]. apply (proj2 (HR k t)). now left.
  - cbn [app] in F. exists (k, t). split; [apply HR; now left|]. split.
    + apply F. apply (within_fits _ _ _ Hw k). apply HR. now left.
    + intros [k' t'] Hi. apply HR in Hi. destruct R2 as [R2 _]. cbn [map fst] in *. apply StronglySorted_inv in R2 as [_ R2]. rewrite Forall_forall in R2.
      destruct Hi as [[= <- <-]|Hi]; [apply str_leb_refl|]. apply R2. apply in_map_iff. now exists (k', t').
Qed.

(** ** C171: synonyms *)
Lemma written_together (i : Z) (k : pystr) (xs : list pystr) : xs <> [] ->
  language_rows sep_ (map (fun x => (i, k, x)) xs) [(k, join (lit "; ") xs)].
Proof.
  intros Hne. split; [repeat constructor|]. split.
  - intros l. cbn [map fst In]. split.
    + intros [<-|[]]. destruct xs as [|x xs]; [contradiction|]. exists i, x. now left.
    + intros (j & u & Hi). apply in_map_iff in Hi as (x & [= _ <- _] & _). now left.
  - intros l t [[= <- <-]|[]]. exists [i]. split; [repeat constructor|]. split.
    + intros j. cbn [In]. split.
      * intros [<-|[]]. destruct xs as [|x xs]; [contradiction|]. exists x. now left.
      * intros (u & Hi). apply in_map_iff in Hi as (x & [= <- _] & _). now left.
    + cbn [map join merged]. f_equal. clear Hne. unfold texts_at. induction xs as [|x xs IH]; [reflexivity|]. cbn [map filter fst snd]. rewrite Z.eqb_refl, str_eqb_refl. cbn [andb map snd]. now rewrite <- IH.
Qed.
Lemma numbers_sorted l : forall k, stable_by_index (numbers k l) (numbers k l).
Proof.
  intros k. split; [|reflexivity].
  assert (B : forall l k j a t, In (j, a, t) (numbers k l) -> (k <= j)%Z).
  { clear. induction l as [|s l IH]; intros k j a t H; [destruct H|]. cbn [numbers] in H. destruct H as [[= <- _ _]|H]; [lia|]. apply IH in H. lia. }
  revert k. induction l as [|s l IH]; intros k; [constructor|]. cbn [numbers]. constructor; [apply IH|].
  apply Forall_forall. intros [[j a] t] Hi. apply B in Hi. cbn [fst]. lia.
Qed.
Lemma synonyms_trip a a' k xs : trip' a = Ok a' -> f_synonyms a = map (fun x => (k, x)) xs -> xs <> [] -> Forall (fun x => ~ occurs (lit "; ") x) xs ->
  Forall (fun x => visible_text x /\ length x <= 80) xs -> f_synonyms a' = map english xs.
Proof.
  intros H Hsy Hne Hoc Hv. journey_of H. rewrite Forall_forall in Hv.
  destruct (sent_unlimited E show ns n m a Synonyms (O Synonyms) (map (fun s : speech => [(1%Z, fst s, snd s)]) (f_synonyms a)) eq_refl (Jsent Synonyms)) as (R & R1 & R2 & R3).
  { cbn [values]. apply (speaks_map (fun _ => 1%Z)). }
  assert (HA : keep (concat (map (fun s : speech => [(1%Z, fst s, snd s)]) (f_synonyms a))) = map (fun x => (1%Z, k, x)) xs).
  { rewrite Hsy, map_map. cbn [fst snd]. transitivity (keep (map (fun x => (1%Z, k, x)) xs)).
    - f_equal. clear. induction xs as [|x xs IH]; [reflexivity|]. cbn [map concat app]. now rewrite IH.
    - apply keep_all. apply Forall_forall. intros a0 Hi. apply in_map_iff in Hi as (x & <- & Hi). cbn [snd]. now apply Hv. }
  apply (eq_ind _ (fun z => language_rows sep_ z R)) with (2 := HA) in R1. pose proof (language_rows_unique _ _ _ _ R1 (written_together 1 k xs Hne)) as HR. subst R.
  assert (Es : shown_rows Synonyms [(k, join (lit "; ") xs)] = [(k, join (lit "; ") xs)]) by reflexivity. rewrite Es in R3.
  destruct Jr2 as (q & Hq & H2). rewrite R3 in H2. cbn [map receive] in H2. rewrite said_row in H2. cbn [bind synonym_step snd] in H2. injection H2 as <-. cbn [fst snd app] in Jsyn.
  assert (Hrd : read_synonyms (join (lit "; ") xs) = xs) by exact (C77_synonyms_partial xs Hne Hoc). change [59%N; 32%N] with (lit "; ") in Jsyn. rewrite Hrd in Jsyn. clear Hrd.
  unfold spoken_out in Jsyn. destruct (field_out E synonym_class [VList (numbered q (map english xs))]) as [os|] eqn:Eo; cbn [bind] in Jsyn; [|discriminate]. injection Jsyn as <-.
  destruct (appended_out KNlr None (Lim_ 80) [VList (numbered q (map english xs))] os eq_refl ltac:(discriminate) Eo) as (Ha & x & Hx & He).
  assert (Hkeep : keep (numbers q (map english xs)) = numbers q (map english xs)).
  { apply keep_all. apply Forall_forall. intros [[j l] t] Hi. apply numbers_in in Hi. apply in_map_iff in Hi as (y & [= _ <-] & Hi). cbn [snd]. now apply Hv. }
  assert (HL : additions (lang_validate None) [VList (numbered q (map english xs))] = numbers q (map english xs)).
  { rewrite (additions_speak None _ [numbers q (map english xs)] Ha); [cbn [concat]; now rewrite app_nil_r|]. constructor; [apply speaks_numbered|constructor]. }
  pose proof (C57_synonyms_in_order None (ignore E) [VList (numbered q (map english xs))] (numbers q (map english xs)) (numbers q (map english xs))) as C.
  rewrite Hx in C. cbn [stored] in C. cbn [end_ on pE] in He. rewrite C in He.
  - cbn [bind entries_of] in He. injection He as <-.
    assert (HF : filter (fun a0 : triple => Nat.leb (length (snd a0)) 80) (numbers q (map english xs)) = numbers q (map english xs)).
    { assert (W : forall (l : list triple), (forall z, In z l -> length (snd z) <= 80) -> filter (fun a0 : triple => Nat.leb (length (snd a0)) 80) l = l).
      { clear. induction l as [|z l IH]; intros W; [reflexivity|]. cbn [filter]. rewrite (proj2 (Nat.leb_le _ _) (W z (or_introl eq_refl))). f_equal. apply IH. intros y Hy. apply W. now right. }
      apply W. intros [[j l] t] Hi. apply numbers_in in Hi. apply in_map_iff in Hi as (y & [= _ <-] & Hi). cbn [snd]. now apply Hv. }
    etransitivity; [exact (f_equal (fun z => flat_map speech_of (map (fun a0 : triple => {| o_index := None; o_lang := Some (snd (fst a0)); o_text := snd a0 |}) z)) HF)|].
    clear. revert q. induction xs as [|x xs IH]; intros q; [reflexivity|]. cbn [map numbers english fst snd flat_map speech_of o_lang optional app o_text]. f_equal. apply IH.
  - rewrite <- HL. apply additions_calls, lang_iff.
  - apply numbers_sorted.
Qed.
End Texts.
