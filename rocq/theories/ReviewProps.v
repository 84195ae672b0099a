(** Reviews and time periods: theorems. *)
From Coq Require Import Ascii String List Bool Arith NArith ZArith Lia Sorted.
From Verif Require Import PyBase PyBaseFacts PyDigits PyValues Regex RegexFacts ValidatorsModel MultiLangModel MultiLangSpec
  CommentModel CommentSpec CommentProofs CommentProps ReviewModel ReviewSpec ReviewProofs.
Import ListNotations.

(** ** C112: reviews *)
Lemma occurs_split m c x y : ~ In c m -> occurs m (x ++ c :: y) -> occurs m x \/ occurs m y.
Proof.
  intros Hc (a & b & E). destruct (app_eq_split _ _ _ _ E) as [(z & -> & Ez)|(z & -> & Ez)].
  - destruct z as [|d z].
    + cbn [app] in Ez. destruct m as [|e m]; [left; exists x, []; now rewrite !app_nil_r|].
      cbn [app] in Ez. exfalso. apply Hc. left. congruence.
    + cbn [app] in Ez. right. exists z, b. congruence.
  - destruct (app_eq_split _ _ _ _ Ez) as [(u & -> & Eu)|(u & -> & Eu)].
    + left. now exists a, u.
    + destruct u as [|d u]; cbn [app] in Eu.
      * left. exists a, []. now rewrite !app_nil_r.
      * exfalso. apply Hc, in_or_app. right. left. congruence.
Qed.
Lemma occurs_newline_join m ls : m <> [] -> ~ In 10%N m -> occurs m (join newline ls) -> exists l, In l ls /\ occurs m l.
Proof.
  intros Hm Hn. induction ls as [|l ls IH]; intros H.
  - destruct H as (a & b & E). destruct a; [destruct m; [contradiction|discriminate]|discriminate].
  - destruct ls as [|l2 ls]; [exists l; split; [now left|exact H]|].
    rewrite join_cons in H by discriminate. apply occurs_split in H as [H|H]; [| |exact Hn].
    + exists l. split; [now left|exact H].
    + destruct (IH H) as (x & Hx & Ho). exists x. split; [now right|exact Ho].
Qed.
Lemma occurs_semicolon_join m ls : m <> [] -> ~ In 59%N m -> hd 0%N m <> 32%N ->
  occurs m (join sep_default ls) -> exists l, In l ls /\ occurs m l.
Proof.
  intros Hm Hn Hs. induction ls as [|l ls IH]; intros H.
  - destruct H as (a & b & E). destruct a; [destruct m; [contradiction|discriminate]|discriminate].
  - destruct ls as [|l2 ls]; [exists l; split; [now left|exact H]|].
    rewrite join_cons in H by discriminate. change (sep_default ++ ?x) with (59%N :: 32%N :: x) in H.
    apply occurs_split in H as [H|H]; [| |exact Hn].
    + exists l. split; [now left|exact H].
    + destruct H as (a & b & E). destruct a as [|d a].
      * destruct m as [|e m]; [contradiction|]. injection E as <- _. now destruct Hs.
      * injection E as _ E. destruct IH as (x & Hx & Ho); [now exists a, b|]. exists x. split; [now right|exact Ho].
Qed.
Lemma texts_at_In L i k u : In u (texts_at L i k) <-> In (i, k, u) L.
Proof.
  unfold texts_at. rewrite in_map_iff. split.
  - intros ([[i' k'] u'] & E & H). cbn in E. subst u'. apply filter_In in H as [H1 H2]. cbn in H2.
    apply andb_true_iff in H2 as [H2 H3]. apply Z.eqb_eq in H2. apply str_eqb_eq in H3. now subst.
  - intros H. exists (i, k, u). split; [reflexivity|]. apply filter_In. split; [exact H|]. cbn.
    now rewrite Z.eqb_refl, str_eqb_refl.
Qed.
Lemma mark_facts m : In m [mark_date; mark_version] -> m <> [] /\ ~ In 10%N m /\ ~ In 59%N m /\ hd 0%N m <> 32%N.
Proof.
  intros [<-|[<-|[]]].
  all: split; [discriminate|]; split; [|split; [|discriminate]].
  all: intros Hi; vm_compute in Hi; repeat (destruct Hi as [Hi|Hi]; [discriminate|]); destruct Hi.
Qed.
(** the English text of a set of texts mentions a mark only when one of them does *)
Lemma text_mentions m L t : In m [mark_date; mark_version] -> lang_text (Some sep_default) L en t ->
  occurs m t -> exists i u, In (i, en, u) L /\ occurs m u.
Proof.
  intros Hm (idxs & Hs & Hin & ->) Ho. destruct (mark_facts m Hm) as (F1 & F2 & F3 & F4).
  apply occurs_newline_join in Ho as (l & Hl & Ho); auto. apply in_map_iff in Hl as (i & <- & Hi).
  cbn [merged] in Ho. apply occurs_semicolon_join in Ho as (u & Hu & Ho); auto.
  exists i, u. split; [now apply texts_at_In|exact Ho].
Qed.

(** The details texts of the review are numbered from 0 on and do not look like the two marked lines. *)
Definition free_details (r : review) : Prop :=
  forall i k u, In (i, k, u) (r_details r) -> (0 <= i)%Z /\ ~ occurs mark_date u /\ ~ occurs mark_version u.
Definition numbered (r : review) : Prop :=
  dateish (r_date r) /\ numeral (r_major_release r) /\ numeral (r_minor_release r) /\
  numeral (r_major_revision r) /\ numeral (r_minor_revision r).

Lemma review_text r w sys t : write_review sys r = Some w -> free_details r -> lang_text (Some sep_default) (i_details w) en t ->
  (exists rest, (exists i u, In (i, en, u) (r_details r)) /\ lang_text (Some sep_default) (r_details r) en rest /\
     t = mark_date ++ r_date r ++ newline ++ mark_version ++ version_text r ++ newline ++ rest) \/
  ((forall i u, ~ In (i, en, u) (r_details r)) /\ t = mark_date ++ r_date r ++ newline ++ mark_version ++ version_text r).
Proof.
  intros Hw Hf Ht.
  assert (Ei : i_details w = ((-2)%Z, en, mark_date ++ r_date r) :: ((-1)%Z, en, mark_version ++ version_text r) :: r_details r).
  { unfold write_review in Hw. destruct (match r_email r with Some _ => _ | None => _ end); [discriminate|].
    assert (E : w = {| i_type := review_type (r_email r); i_details := ((-2)%Z, en, mark_date ++ r_date r) :: ((-1)%Z, en, mark_version ++ version_text r) :: r_details r |})
      by congruence. now rewrite E. }
  rewrite Ei in Ht. clear Hw Ei w.
  set (L := ((-2)%Z, en, mark_date ++ r_date r) :: ((-1)%Z, en, mark_version ++ version_text r) :: r_details r) in *.
  set (hs := [((-2)%Z, mark_date ++ r_date r); ((-1)%Z, mark_version ++ version_text r)]).
  assert (T0 : forall i, (i < 0)%Z -> texts_at (r_details r) i en = []).
  { intros i Hi. destruct (texts_at (r_details r) i en) as [|u l] eqn:E; [reflexivity|].
    assert (H : In (i, en, u) (r_details r)) by (apply texts_at_In; rewrite E; now left).
    apply Hf in H as (H & _). lia. }
  assert (T1 : forall i, (0 <= i)%Z -> texts_at L i en = texts_at (r_details r) i en).
  { intros i Hi. unfold texts_at, L. cbn [filter fst snd].
    destruct (Z.eqb_spec (-2) i); [lia|]. destruct (Z.eqb_spec (-1) i); [lia|]. reflexivity. }
  destruct (C76_marked_lines_first (Some sep_default) L en t hs Ht) as (idxs & Et & Si & Hi).
  - repeat constructor.
  - intros i u [E|[E|[]]]; injection E as <- <-; unfold L, texts_at; cbn [filter fst snd].
    + change ((-2 =? -2)%Z && str_eqb en en) with true. change ((-1 =? -2)%Z && str_eqb en en) with false. cbn iota. cbn [map snd].
      fold (texts_at (r_details r) (-2) en). now rewrite T0.
    + change ((-2 =? -1)%Z && str_eqb en en) with false. change ((-1 =? -1)%Z && str_eqb en en) with true. cbn iota. cbn [map snd].
      fold (texts_at (r_details r) (-1) en). now rewrite T0.
  - intros i u [E|[E|H]].
    + left. left. cbn [fst]. congruence.
    + left. right. left. cbn [fst]. congruence.
    + right. apply Hf in H as (H & _). intros j [<-|[<-|[]]]; cbn; lia.
  - assert (Hi2 : forall i, In i idxs <-> exists u, In (i, en, u) (r_details r)).
    { intros i. rewrite Hi. split.
      - intros ((u & [E|[E|H]]) & Hn).
        + exfalso. apply Hn. left. cbn [fst]. congruence.
        + exfalso. apply Hn. right. left. cbn [fst]. congruence.
        + now exists u.
      - intros (u & H). split; [exists u; right; now right|]. apply Hf in H as (H & _).
        intros [E|[E|[]]]; cbn in E; lia. }
    assert (Em : map (fun i => merged (Some sep_default) (texts_at L i en)) idxs
               = map (fun i => merged (Some sep_default) (texts_at (r_details r) i en)) idxs).
    { apply map_ext_in. intros i H. apply Hi2 in H as (u & H). apply Hf in H as (H & _). now rewrite T1. }
    rewrite Em in Et. destruct idxs as [|i idxs].
    + right. split.
      * intros i u H. assert (In i []) by (apply Hi2; now exists u). contradiction.
      * rewrite Et. cbn [map app hs snd join]. now rewrite <- !app_assoc.
    + left. exists (join newline (map (fun i => merged (Some sep_default) (texts_at (r_details r) i en)) (i :: idxs))).
      split; [|split].
      * destruct (proj1 (Hi2 i) (or_introl eq_refl)) as [u H]. now exists i, u.
      * exists (i :: idxs). repeat split; auto; apply Hi2.
      * rewrite Et. change (map snd hs) with [mark_date ++ r_date r; mark_version ++ version_text r].
        rewrite join_newline by discriminate. unfold closed_lines. cbn [map concat]. rewrite app_nil_r. rewrite <- !app_assoc. reflexivity.
Qed.

Lemma read_one n t v d rest : review_comment t = (v, d, rest) ->
  read_review n true [t] =
    let ver := match v with Some l => assign_version l None | None => None end in
    let date := match d with Some d => d | None => lit "1900-01-01" end in
    if no_major ver then ((n + 1)%Z, Some {| e_date := date; e_version := Some (automatic n); e_texts := [rest] |})
    else (n, Some {| e_date := date; e_version := ver; e_texts := [rest] |}).
Proof.
  intros E. unfold read_review, read_texts. cbn [fold_left]. rewrite E. cbn [e_date e_version e_texts app].
  destruct v as [l|]; [destruct (no_major (assign_version l None))|]; reflexivity.
Qed.
Lemma numeral_int s : numeral s -> exists z, int_of_str s = Some z /\ (0 <= z)%Z.
Proof. intros [H1 H2]. exists (Z.of_N (dval s)). split; [now apply int_digits|lia]. Qed.

(** The date, the outer two numbers of the version and the details texts come back; the two middle numbers come back exchanged. *)
Lemma read_written r w sys t n : write_review sys r = Some w -> free_details r -> numbered r ->
  lang_text (Some sep_default) (i_details w) en t -> (exists i u, In (i, en, u) (r_details r)) ->
  int_of_str (r_major_release r) <> Some 0%Z ->
  exists rest, lang_text (Some sep_default) (r_details r) en rest /\
    read_review n true [t] = (n, Some {| e_date := r_date r;
      e_version := Some {| v_major_release := r_major_release r; v_minor_release := r_major_revision r;
                           v_major_revision := r_minor_release r; v_minor_revision := r_minor_revision r |};
      e_texts := [rest] |}).
Proof.
  intros Hw Hf (N1 & N2 & N3 & N4 & N5) Ht (i & u & Hu) Hz.
  destruct (review_text r w sys t Hw Hf Ht) as [(rest & _ & Hr & ->)|[Hno _]]; [|exfalso; exact (Hno i u Hu)].
  exists rest. split; [exact Hr|].
  assert (Q : forall m, In m [mark_date; mark_version] -> ~ occurs m rest).
  { intros m Hm Ho. destruct (text_mentions m _ _ Hm Hr Ho) as (j & x & Hx & Hox). apply Hf in Hx as (_ & X1 & X2).
    destruct Hm as [<-|[<-|[]]]; contradiction. }
  unfold version_text.
  rewrite (read_one n _ _ _ _ (review_comment_full _ _ _ _ _ rest N1 N2 N4 N3 N5 (Q _ (or_introl eq_refl)) (Q _ (or_intror (or_introl eq_refl))))).
  cbv zeta. cbn [assign_version no_major v_major_release].
  destruct (numeral_int _ N2) as (z & Ez & Hz0). rewrite Ez in Hz |- *. destruct (Z.eqb_spec z 0) as [->|]; [congruence|]. reflexivity.
Qed.

Theorem C112_review_kept_partial : forall r w sys t n, write_review sys r = Some w -> free_details r -> numbered r ->
  lang_text (Some sep_default) (i_details w) en t -> (exists i u, In (i, en, u) (r_details r)) ->
  int_of_str (r_major_release r) <> Some 0%Z ->
  exists e v rest, read_review n true [t] = (n, Some e) /\ e_version e = Some v /\
    e_date e = r_date r /\ v_major_release v = r_major_release r /\ v_minor_revision v = r_minor_revision r /\
    e_texts e = [rest] /\ lang_text (Some sep_default) (r_details r) en rest.
Proof.
  intros r w sys t n Hw Hf Hn Ht He Hz. destruct (read_written r w sys t n Hw Hf Hn Ht He Hz) as (rest & Hr & E).
  rewrite E. do 3 eexists. repeat split. exact Hr.
Qed.
Print Assumptions C112_review_kept_partial.
(** Minor release and major revision are exchanged. *)
Theorem C112_version_exchanged_refuted : forall r w sys t n, write_review sys r = Some w -> free_details r -> numbered r ->
  lang_text (Some sep_default) (i_details w) en t -> (exists i u, In (i, en, u) (r_details r)) ->
  int_of_str (r_major_release r) <> Some 0%Z ->
  exists e v, read_review n true [t] = (n, Some e) /\ e_version e = Some v /\
    v_minor_release v = r_major_revision r /\ v_major_revision v = r_minor_release r.
Proof.
  intros r w sys t n Hw Hf Hn Ht He Hz. destruct (read_written r w sys t n Hw Hf Hn Ht He Hz) as (rest & Hr & E).
  rewrite E. do 2 eexists. repeat split.
Qed.
Print Assumptions C112_version_exchanged_refuted.
(** A review without English details loses its version: the version line is not ended by a line feed. *)
Theorem C112_no_details_refuted : forall r w sys t n, write_review sys r = Some w -> free_details r -> numbered r ->
  lang_text (Some sep_default) (i_details w) en t -> (forall i u, ~ In (i, en, u) (r_details r)) ->
  read_review n true [t] = ((n + 1)%Z, Some {| e_date := r_date r; e_version := Some (automatic n);
                                               e_texts := [lit "Review Version: " ++ version_text r] |}).
Proof.
  intros r w sys t n Hw Hf (N1 & N2 & N3 & N4 & N5) Ht He.
  destruct (review_text r w sys t Hw Hf Ht) as [(rest & (i & u & Hu) & _)|[_ ->]]; [exfalso; exact (He i u Hu)|].
  assert (V : forall c, In c (version_text r) -> ReviewSpec.digit c \/ c = 46%N).
  { intros c Hc. unfold version_text in Hc. apply join_In in Hc as [Hc|(x & Hx & Hc)].
    - destruct Hc as [<-|[]]. now right.
    - left. cbn in Hx. destruct N2 as [_ F2], N3 as [_ F3], N4 as [_ F4], N5 as [_ F5]. rewrite Forall_forall in F2, F3, F4, F5.
      destruct Hx as [<-|[<-|[<-|[<-|[]]]]]; auto. }
  assert (E : review_comment (mark_date ++ r_date r ++ newline ++ mark_version ++ version_text r)
              = (None, Some (r_date r), mark_version ++ version_text r)).
  { apply review_comment_bare; [exact N1| |].
    - intros Hi. destruct (V _ Hi) as [H|H]; [unfold ReviewSpec.digit in H; lia|discriminate].
    - apply occurs_char with 68%N; [now left|]. intros Hi. apply in_app_or in Hi as [Hi|Hi].
      + vm_compute in Hi. repeat (destruct Hi as [Hi|Hi]; [discriminate|]). destruct Hi.
      + destruct (V _ Hi) as [H|H]; [unfold ReviewSpec.digit in H; lia|discriminate]. }
  rewrite (read_one n _ _ _ _ E). reflexivity.
Qed.
Print Assumptions C112_no_details_refuted.
(** A version whose major release is 0 is replaced. *)
Theorem C112_zero_release_refuted : forall r w sys t n, write_review sys r = Some w -> free_details r -> numbered r ->
  lang_text (Some sep_default) (i_details w) en t -> int_of_str (r_major_release r) = Some 0%Z ->
  exists e, read_review n true [t] = ((n + 1)%Z, Some e) /\ e_version e = Some (automatic n).
Proof.
  intros r w sys t n Hw Hf Hn Ht Hz.
  destruct (review_text r w sys t Hw Hf Ht) as [(rest & He & Hr & Et)|[He _]].
  2:{ rewrite (C112_no_details_refuted r w sys t n Hw Hf Hn Ht He). eexists. split; reflexivity. }
  subst t. destruct Hn as (N1 & N2 & N3 & N4 & N5).
  assert (Q : forall m, In m [mark_date; mark_version] -> ~ occurs m rest).
  { intros m Hm Ho. destruct (text_mentions m _ _ Hm Hr Ho) as (j & x & Hx & Hox). apply Hf in Hx as (_ & X1 & X2).
    destruct Hm as [<-|[<-|[]]]; contradiction. }
  unfold version_text.
  rewrite (read_one n _ _ _ _ (review_comment_full _ _ _ _ _ rest N1 N2 N4 N3 N5 (Q _ (or_introl eq_refl)) (Q _ (or_intror (or_introl eq_refl))))).
  cbv zeta. cbn [assign_version no_major v_major_release]. rewrite Hz. cbn. eexists. split; reflexivity.
Qed.
Print Assumptions C112_zero_release_refuted.
(** A date with a time zone is not recognised: the review is dated 1900-01-01. *)
Theorem C112_date_with_zone_refuted : forall d c z rest n, dateish d -> ~ ReviewSpec.digit c -> c <> 45%N -> c <> 32%N -> c <> 10%N ->
  ~ In 10%N z -> ~ In 68%N (c :: z) -> ~ occurs mark_date rest -> ~ occurs mark_version rest -> ~ occurs mark_version (mark_date ++ d ++ c :: z) ->
  exists m e, read_review n true [mark_date ++ (d ++ c :: z) ++ newline ++ rest] = (m, Some e) /\ e_date e = lit "1900-01-01".
Proof.
  intros d c z rest n Hd C1 C2 C3 C4 Hz HD R1 R2 RV.
  set (l := mark_date ++ d ++ c :: z).
  assert (El : mark_date ++ (d ++ c :: z) ++ newline ++ rest = l ++ 10%N :: rest) by (unfold l; rewrite <- !app_assoc; reflexivity).
  assert (E : review_comment (mark_date ++ (d ++ c :: z) ++ newline ++ rest) = (None, None, mark_date ++ (d ++ c :: z) ++ newline ++ rest)).
  { unfold review_comment. rewrite El.
    rewrite (search_none mark_version _ version_mark).
    2:{ intros Ho. apply occurs_split in Ho as [Ho|Ho]; [exact (RV Ho)|exact (R2 Ho)|apply good_version]. }
    assert (E0 : search_with match_date (l ++ 10%N :: rest) = None); [|now rewrite E0].
    assert (Eh : l ++ 10%N :: rest = 68%N :: (lit "ate of Review: " ++ d ++ c :: z) ++ 10%N :: rest) by (unfold l; rewrite <- !app_assoc; reflexivity).
    assert (Em : match_date (l ++ 10%N :: rest) = None).
    { unfold match_date, l. rewrite <- app_assoc. rewrite prefixb_app, skipn_app_len.
      apply dateish_b in Hd as [D1 D2].
      assert (Pc : is_date_char c = false).
      { unfold is_date_char, is_digit, between. destruct (N.leb_spec 48 c), (N.leb_spec c 57), (N.eqb_spec c 32), (N.eqb_spec c 45); try reflexivity; try congruence.
        exfalso. apply C1. unfold ReviewSpec.digit. lia. }
      rewrite <- app_assoc. cbn [app]. unfold run_then. rewrite span_run by assumption. destruct d; [contradiction|].
      destruct (N.eqb_spec c nl) as [->|]; [now destruct C4|reflexivity]. }
    rewrite Eh in Em |- *. cbn [search_with]. rewrite Em.
    apply (search_none mark_date _ date_mark). intros Ho. apply occurs_split in Ho as [Ho|Ho]; [|exact (R1 Ho)|].
    - revert Ho. apply occurs_char with 68%N; [now left|]. intros Hi. apply in_app_or in Hi as [Hi|Hi].
      + vm_compute in Hi. repeat (destruct Hi as [Hi|Hi]; [discriminate|]). destruct Hi.
      + apply in_app_or in Hi as [Hi|Hi]; [|exact (HD Hi)]. destruct Hd as [_ Hd]. rewrite Forall_forall in Hd.
        destruct (Hd _ Hi) as [H|[H|H]]; [unfold ReviewSpec.digit in H; lia|discriminate|discriminate].
    - apply (mark_facts mark_date). now left. }
  pose proof (read_one n _ _ _ _ E) as R. cbv zeta in R. cbn [no_major] in R. do 2 eexists. split; [exact R|reflexivity].
Qed.
Print Assumptions C112_date_with_zone_refuted.
(** Every review with an address is called an internal review. *)
Theorem C112_external_refuted : forall e, e <> [] -> review_type (Some e) = Some (lit "Independent internal review").
Proof.
  intros e He. unfold review_type. destruct e as [|c e]; [contradiction|]. cbn [str_eqb]. f_equal.
  cbn [existsb]. destruct (Z.eqb_spec (find (c :: e) (lit "ecoinvent")) 0) as [E|]; [|reflexivity].
  destruct (Z.eqb_spec (find (c :: e) (lit "Ecoinvent")) 0) as [E2|]; [|reflexivity].
  apply find_zero in E, E2; try discriminate. apply prefixb_spec in E as [u Eu], E2 as [v Ev]. rewrite Eu in Ev. discriminate.
Qed.
Print Assumptions C112_external_refuted.
(** Reviews of the system are left out exactly when the option says so. *)
Theorem C112_system_reviews : forall sys r,
  write_review sys r = None <-> sys = false /\ r_email r = Some (lit "support@ecoinvent.org").
Proof.
  intros sys r. unfold write_review. destruct (r_email r) as [e|].
  - destruct (str_eqb e (lit "support@ecoinvent.org")) eqn:E.
    + apply str_eqb_eq in E. subst e. destruct sys; cbn; split; try discriminate; try tauto. intros [H _]. discriminate.
    + cbn. split; [discriminate|]. intros [_ H]. injection H as ->. now rewrite str_eqb_refl in E.
  - split; [discriminate|]. intros [_ H]. discriminate.
Qed.
Print Assumptions C112_system_reviews.

(** Reviews without a version get different ones. *)
Lemma review_comment_silent t : ~ occurs mark_version t -> fst (fst (review_comment t)) = None.
Proof.
  intros H. unfold review_comment. rewrite (search_none mark_version _ version_mark) by exact H.
  destruct (search_with match_date t); reflexivity.
Qed.
Lemma read_texts_silent ts : forall st, Forall (fun t => ~ occurs mark_version t) ts -> e_version (read_texts ts st) = e_version st.
Proof.
  unfold read_texts. induction ts as [|t ts IH]; intros st H; [reflexivity|]. inversion H as [|? ? H1 H2]; subst. cbn [fold_left].
  pose proof (review_comment_silent t H1) as E. destruct (review_comment t) as [[v d] rest]. cbn in E. subst v.
  rewrite IH by exact H2. reflexivity.
Qed.
Lemma read_review_next n b ts : exists n' o, read_review n b ts = (n', o) /\ (n <= n')%Z /\
  (Forall (fun t => ~ occurs mark_version t) ts -> n' = (n + 1)%Z /\ forall e, o = Some e -> e_version e = Some (automatic n)).
Proof.
  unfold read_review. set (st := read_texts ts _).
  destruct (no_major (e_version st)) eqn:E.
  - do 2 eexists. split; [reflexivity|]. split; [lia|]. intros _. split; [reflexivity|].
    intros e. destruct b; [|discriminate]. intros He. injection He as <-. reflexivity.
  - do 2 eexists. split; [reflexivity|]. split; [lia|]. intros H.
    assert (V : e_version st = None) by (unfold st; now rewrite read_texts_silent). rewrite V in E. discriminate.
Qed.
Lemma read_reviews_later l : forall n j ts b e, nth_error l j = Some (b, ts) -> nth_error (read_reviews n l) j = Some (Some e) ->
  Forall (fun t => ~ occurs mark_version t) ts -> exists m, (n <= m)%Z /\ e_version e = Some (automatic m).
Proof.
  induction l as [|[b0 ts0] l IH]; intros n j ts b e Hl Hr Hs; [destruct j; discriminate|].
  cbn [read_reviews] in Hr. destruct (read_review_next n b0 ts0) as (n' & o & E & Hn & Hv). rewrite E in Hr.
  destruct j as [|j]; cbn [nth_error] in *.
  - assert (o = Some e) by congruence. assert (ts0 = ts) by congruence. subst. exists n. split; [lia|]. now apply Hv.
  - destruct (IH n' j ts b e Hl Hr Hs) as (m & Hm & Hem). exists m. split; [lia|exact Hem].
Qed.
Theorem C112_automatic_versions_differ : forall l n i j ti tj bi bj ei ej, i < j ->
  nth_error l i = Some (bi, ti) -> nth_error l j = Some (bj, tj) ->
  nth_error (read_reviews n l) i = Some (Some ei) -> nth_error (read_reviews n l) j = Some (Some ej) ->
  Forall (fun t => ~ occurs (lit "Review Version: ") t) ti -> Forall (fun t => ~ occurs (lit "Review Version: ") t) tj ->
  e_version ei <> e_version ej.
Proof.
  induction l as [|[b0 ts0] l IH]; intros n i j ti tj bi bj ei ej Hij Li Lj Ri Rj Si Sj; [destruct i; discriminate|].
  cbn [read_reviews] in Ri, Rj. destruct (read_review_next n b0 ts0) as (n' & o & E & Hn & Hv). rewrite E in Ri, Rj.
  destruct j as [|j]; [lia|]. destruct i as [|i]; cbn [nth_error] in *.
  - assert (o = Some ei) by congruence. assert (ts0 = ti) by congruence. subst. destruct (Hv Si) as [-> Hei].
    rewrite (Hei ei eq_refl). destruct (read_reviews_later l _ j tj bj ej Lj Rj Sj) as (m & Hm & ->).
    intros Heq. assert (Hs : str_of_Z n = str_of_Z m).
    { exact (f_equal (fun o => match o with Some v => v_major_revision v | None => [] end) Heq). }
    assert (H : Some n = Some m) by (rewrite <- (int_of_str_of_Z n), <- (int_of_str_of_Z m), Hs; reflexivity). injection H as ->. lia.
  - apply (IH n' i j ti tj bi bj); auto. lia.
Qed.
Print Assumptions C112_automatic_versions_differ.

Definition example_review : review :=
  {| r_date := lit "2011-09-28"; r_email := Some (lit "a@b.org"); r_major_release := lit "3"; r_minor_release := lit "0";
     r_major_revision := lit "12"; r_minor_revision := lit "1"; r_details := [(1%Z, en, lit "fine")] |}.
Example C112_nonvacuous : exists w,
  write_review false example_review = Some w /\ free_details example_review /\ numbered example_review /\
  lang_text (Some sep_default) (i_details w) en
    (lit "Date of Review: 2011-09-28" ++ newline ++ lit "Review Version: 3.12.0.1" ++ newline ++ lit "fine").
Proof.
  eexists. split; [reflexivity|]. split; [|split].
  - intros i k u [E|[]]. injection E as <- <- <-. split; [lia|]. split; apply not_infixb; vm_compute; reflexivity.
  - assert (D : forall c, ReviewSpec.digit c \/ c = 45%N \/ c = 32%N <-> is_date_char c = true).
    { intros c. unfold ReviewSpec.digit, is_date_char, is_digit, between. rewrite !orb_true_iff, andb_true_iff, !N.leb_le, !N.eqb_eq. tauto. }
    assert (G : forall c, ReviewSpec.digit c <-> is_digit c = true).
    { intros c. unfold ReviewSpec.digit, is_digit, between. rewrite andb_true_iff, !N.leb_le. tauto. }
    unfold numbered, dateish, numeral.
    assert (F : forall s, Forall ReviewSpec.digit s <-> forallb is_digit s = true).
    { intros s. rewrite forallb_forall, Forall_forall. split; intros H x Hx; apply G, H, Hx. }
    rewrite !F. split; [|repeat split; discriminate].
    split; [discriminate|]. apply Forall_forall. intros c Hc. apply D.
    assert (A : forallb is_date_char (r_date example_review) = true) by reflexivity. rewrite forallb_forall in A. now apply A.
  - exists [-2; -1; 1]%Z. split; [repeat constructor; lia|]. split; [|vm_compute; reflexivity].
    intros i. split.
    + intros [<-|[<-|[<-|[]]]]; eexists; cbn; eauto.
    + intros [u [E|[E|[E|[]]]]]; injection E as <- _; cbn; auto.
Qed.

(** ** C113: time periods *)
(** The years written are those of the dates. *)
Theorem C113_year_kept_partial : forall y m d, real_day (y, m, d) -> (1000 <= y)%Z ->
  (forall rest, rest = [] \/ (exists h mi s, is_clock h mi s /\ rest = clock_text h mi s ++ lit "Z") \/
                (exists h mi s f, is_clock h mi s /\ numeral f /\ length f <= 6 /\ rest = clock_text h mi s ++ lit "." ++ f ++ lit "Z") ->
     write_start (date_text (y, m, d) ++ rest) = Ok y /\ write_end (date_text (y, m, d) ++ rest) = Ok y).
Proof.
  intros y m d H Hy rest Hr.
  assert (E : get_year (date_text (y, m, d) ++ rest) = Ok y).
  { destruct Hr as [->|[(h & mi & s & C & ->)|(h & mi & s & f & C & [F1 F2] & F3 & ->)]].
    - rewrite app_nil_r. now apply get_year_date.
    - now apply get_year_time.
    - now apply get_year_fraction. }
  unfold write_start, write_end. rewrite E. cbn [bind]. apply year_accepted.
  apply real_day_b in H as (H & _). lia.
Qed.
Print Assumptions C113_year_kept_partial.
(** The period read back contains the original one and has the same first and last year. *)
Theorem C113_period_contains_partial : forall y1 m1 d1 y2 m2 d2,
  real_day (y1, m1, d1) -> real_day (y2, m2, d2) -> (1000 <= y1)%Z -> (1000 <= y2)%Z ->
  exists a b, write_start (date_text (y1, m1, d1)) = Ok a /\ write_end (date_text (y2, m2, d2)) = Ok b /\
    read_start (str_of_Z a) = date_text (y1, 1, 1)%Z /\ read_end (str_of_Z b) = date_text (y2, 12, 31)%Z /\
    real_day (y1, 1, 1)%Z /\ real_day (y2, 12, 31)%Z /\
    day_le (y1, 1, 1)%Z (y1, m1, d1) /\ day_le (y2, m2, d2) (y2, 12, 31)%Z.
Proof.
  intros y1 m1 d1 y2 m2 d2 H1 H2 L1 L2. exists y1, y2.
  pose proof (proj1 (C113_year_kept_partial _ _ _ H1 L1 [] (or_introl eq_refl))) as E1.
  pose proof (proj2 (C113_year_kept_partial _ _ _ H2 L2 [] (or_introl eq_refl))) as E2. rewrite app_nil_r in E1, E2.
  pose proof (day_range _ _ _ H1) as R1. pose proof (day_range _ _ _ H2) as R2.
  apply real_day_b in H1 as (H1 & _), H2 as (H2 & _).
  split; [exact E1|]. split; [exact E2|].
  unfold read_start, read_end. rewrite !year_text by lia. split; [reflexivity|]. split; [reflexivity|].
  split; [apply real_day_b; unfold month_days; cbn; lia|]. split; [apply real_day_b; unfold month_days; cbn; lia|].
  unfold day_le. split; right; (split; [reflexivity|]); lia.
Qed.
Print Assumptions C113_period_contains_partial.
(** Reading the years back and writing them again changes nothing more. *)
Theorem C113_second_conversion : forall y, (1000 <= y <= 9999)%Z ->
  write_start (read_start (str_of_Z y)) = Ok y /\ write_end (read_end (str_of_Z y)) = Ok y.
Proof.
  intros y Hy. unfold read_start, read_end. rewrite year_text by exact Hy.
  assert (A : real_day (y, 1, 1)%Z) by (apply real_day_b; unfold month_days; cbn; lia).
  assert (B : real_day (y, 12, 31)%Z) by (apply real_day_b; unfold month_days; cbn; lia).
  pose proof (proj1 (C113_year_kept_partial _ _ _ A ltac:(lia) [] (or_introl eq_refl))) as E1.
  pose proof (proj2 (C113_year_kept_partial _ _ _ B ltac:(lia) [] (or_introl eq_refl))) as E2. rewrite app_nil_r in E1, E2.
  now split.
Qed.
Print Assumptions C113_second_conversion.
Lemma pads a c b d : lit "-" ++ pad2 a ++ lit "-" ++ pad2 b = lit "-" ++ pad2 c ++ lit "-" ++ pad2 d -> pad2 a = pad2 c /\ pad2 b = pad2 d.
Proof.
  unfold pad2. generalize (dig (a / 10)) (dig a) (dig (b / 10)) (dig b) (dig (c / 10)) (dig c) (dig (d / 10)) (dig d).
  cbn. intros a1 a2 b1 b2 c1 c2 d1 d2 E. split; congruence.
Qed.
(** The period itself survives only when it consists of whole years. *)
Theorem C113_period_kept_refuted : forall y m d, real_day (y, m, d) -> (1000 <= y)%Z ->
  (read_start (str_of_Z y) = date_text (y, m, d) <-> (m = 1 /\ d = 1)%Z) /\
  (read_end (str_of_Z y) = date_text (y, m, d) <-> (m = 12 /\ d = 31)%Z).
Proof.
  intros y m d H L. pose proof (day_range _ _ _ H) as [Hm Hd]. apply real_day_b in H as (Hy & _).
  unfold read_start, read_end. rewrite year_text by lia. unfold date_text.
  assert (I : forall a b, (0 <= a <= 99)%Z -> (0 <= b <= 99)%Z -> pad2 a = pad2 b -> a = b).
  { intros a b Ha Hb E. rewrite <- (number_pad2 a Ha), <- (number_pad2 b Hb), E. reflexivity. }
  split; split.
  - intros E. apply app_inv_head in E.
    apply (pads 1 m 1 d) in E as [Em Ed].
    apply I in Em, Ed; lia.
  - intros [-> ->]. reflexivity.
  - intros E. apply app_inv_head in E.
    apply (pads 12 m 31 d) in E as [Em Ed].
    apply I in Em, Ed; lia.
  - intros [-> ->]. reflexivity.
Qed.
Print Assumptions C113_period_kept_refuted.
(** Legal dates that are refused: with a time zone, times without the letter Z, years before 1000. *)
Theorem C113_zone_refuted : forall y m d c w, real_day (y, m, d) -> c <> 84%N -> c <> 116%N ->
  write_start (date_text (y, m, d) ++ c :: w) = Err ValueError /\ write_end (date_text (y, m, d) ++ c :: w) = Err ValueError.
Proof.
  intros y m d c w H H1 H2. destruct (day_range _ _ _ H). unfold write_start, write_end. now rewrite get_year_suffix.
Qed.
Print Assumptions C113_zone_refuted.
Theorem C113_local_time_refuted : forall y m d h mi s w, real_day (y, m, d) -> is_clock h mi s ->
  match w with [] => True | c :: _ => c <> 90%N /\ c <> 122%N /\ c <> 46%N end ->
  write_start (date_text (y, m, d) ++ clock_text h mi s ++ w) = Err ValueError /\
  write_end (date_text (y, m, d) ++ clock_text h mi s ++ w) = Err ValueError.
Proof. intros y m d h mi s w H C W. unfold write_start, write_end. now rewrite get_year_naive. Qed.
Print Assumptions C113_local_time_refuted.
Theorem C113_early_year_refuted : forall y m d, real_day (y, m, d) -> (y < 1000)%Z ->
  write_start (date_text (y, m, d)) = Err ValueError /\ write_end (date_text (y, m, d)) = Err ValueError.
Proof.
  intros y m d H L. unfold write_start, write_end. rewrite get_year_date by exact H. cbn [bind].
  apply real_day_b in H as (H & _). apply year_refused. lia.
Qed.
Print Assumptions C113_early_year_refuted.
(** Days that do not exist are refused. *)
Theorem C113_not_a_day : forall y m d, (1 <= y <= 9999)%Z -> (1 <= m <= 12)%Z -> (1 <= d <= 31)%Z -> ~ real_day (y, m, d) ->
  write_start (date_text (y, m, d)) = Err ValueError /\ write_end (date_text (y, m, d)) = Err ValueError.
Proof. intros y m d H1 H2 H3 H4. unfold write_start, write_end. now rewrite get_year_not_a_day. Qed.
Print Assumptions C113_not_a_day.
Example C113_nonvacuous :
  date_text (2009, 2, 28)%Z = lit "2009-02-28" /\ real_day (2012, 2, 29)%Z /\ ~ real_day (2009, 2, 29)%Z /\
  write_start (lit "2009-02-28") = Ok 2009%Z /\ write_end (lit "2012-02-29T23:59:59Z") = Ok 2012%Z /\
  write_start (lit "2009-02-28Z") = Err ValueError /\ read_end (lit "2012") = lit "2012-12-31".
Proof.
  split; [vm_compute; reflexivity|]. split; [apply real_day_b; vm_compute; repeat split; discriminate|].
  split; [intros H; apply real_day_b in H as (_ & _ & _ & H); vm_compute in H; congruence|].
  repeat split; vm_compute; reflexivity.
Qed.
