(** C129-C132: contacts and documents a process refers to, ILCD to EcoSpold2. *)
From Coq Require Import Ascii String List Bool Arith NArith ZArith Lia.
From Verif Require Import PyBase PyBaseFacts PyValues MultiLangModel DotDictModel XmlModel XmlSpec XmlProofs XmlProps
  KeysModel KeysSpec KeysProofs HandleModel HandleSpec HandleProofs ExchangeModel ReferModel ReferSpec ReferProofs.
Import ListNotations.
Local Open Scope string_scope.
Local Open Scope list_scope.

(** The conversion of the data set [doc] raises an exception, whatever the other handlers do.  [rest] stands
    for the handlers; those of references are the ones of the model. *)
Definition fails (cid : pystr -> pystr) (files : pyval -> option elem) (doc : elem) : Prop :=
  forall rest, (forall k r x e, In (k, r) referring_of -> refer cid files r x = Err e -> exists e', rest k x = Err e') ->
    exists e, run ilcd_uses rest (read ilcd_keys doc) = Err e.
Lemma reference_fails cid files doc k r f e : proper doc -> part doc k f -> In (k, r) referring_of ->
  refer cid files r (elem2dict f) = Err e -> fails cid files doc.
Proof.
  intros P F I E rest H. destruct (H k r _ e I E) as [e' E']. apply (run_stops_rest _ rest k (elem2dict f) _ e' E').
  apply part_read; [exact P|exact F|now apply (referring_asked k r)].
Qed.
Definition of_contacts (k : pystr) (cf : contact_fields) : Prop := In (k, RContact cf) referring_of.
Definition of_sources (k : pystr) (fs : list source_kind) (u : bool) : Prop := In (k, RSource fs u) referring_of.

(** * C129: descriptions of contacts *)
(** A contact with one description, in any language, or without a description: its identifier and the
    description are taken over, even if the contact data set itself is missing. *)
Theorem C129_contact_taken_over_partial :
  forall cid cf e i ds s, reference e i ds -> described ds s ->
    exists l, get_contact cid cf (elem2dict e) None = Ok (l, None) /\
      In (cf_id cf, VStr (cid i)) l /\ In (cf_name cf, VStr s) l.
Proof.
  intros cid cf e i ds s R D. unfold get_contact. rewrite (contact_init_ok _ _ _ _ _ _ R D). cbn [bind fst snd].
  eexists. split; [reflexivity|]. split; [now left|right; now left].
Qed.
Print Assumptions C129_contact_taken_over_partial.
(** Described in two languages, or without saying in which: the data set is not converted. *)
Theorem C129_contact_taken_over_refuted :
  forall cid files doc k cf e i ds, proper doc -> of_contacts k cf -> part doc k e -> reference e i ds ->
    otherwise_described ds -> fails cid files doc.
Proof.
  intros cid files doc k cf e i ds P C F R D. apply (reference_fails cid files doc k (RContact cf) e AttributeError P F C).
  cbn [refer]. unfold get_contact. now rewrite (contact_init_err _ _ _ _ _ R D).
Qed.
Print Assumptions C129_contact_taken_over_refuted.
(** So the number of languages decides alone. *)
Theorem C129_accepted_exactly :
  forall cid cf e i ds, reference e i ds -> Forall (fun d => exists s, in_language d s) ds ->
    ((exists r, get_contact cid cf (elem2dict e) None = Ok r) <-> List.length ds <= 1).
Proof.
  intros cid cf e i ds R F. split.
  - intros [r H]. destruct (le_lt_dec (List.length ds) 1) as [L|L]; [exact L|]. exfalso.
    unfold get_contact in H. rewrite (contact_init_err cid cf e i ds R (or_introl L)) in H. discriminate.
  - intros L. assert (D : exists s, described ds s).
    { destruct ds as [|d [|d2 ds]]; [exists []; now left| |cbn in L; lia].
      inversion F as [|? ? [s S] _]; subst. exists s. right. now exists d. }
    destruct D as [s D]. destruct (C129_contact_taken_over_partial cid cf e i ds s R D) as (l & -> & _). now eexists.
Qed.
Print Assumptions C129_accepted_exactly.

(** * C130: contact data sets *)
Definition named_in_language (doc : elem) : Prop :=
  forall f, part doc kname f \/ part doc ksname f -> exists s, in_language f s.
Lemma contact_texts doc : proper doc -> named_in_language doc -> texts_of (read contact_keys doc).
Proof.
  intros P N k x I K. assert (A : ~ In (ch "@") k). { destruct K as [->| ->]; vm_compute; intuition discriminate. }
  destruct (read_parts _ _ _ _ P A I) as (f & F & ->). destruct (N f) as [s S].
  { destruct K as [->| ->]; [now left|now right]. }
  destruct (in_language_read _ _ S) as [l ->]. exists s. reflexivity.
Qed.
(** With names that have a language, at least one of them a full name, the contact is listed with that name. *)
Theorem C130_contact_listed_partial :
  forall cid cf e i ds s doc, reference e i ds -> described ds s -> proper doc -> named_in_language doc ->
    (exists f, part doc kname f) ->
    exists l m n f, get_contact cid cf (elem2dict e) (Some doc) = Ok (l, Some m) /\
      mc_id m = cid i /\ mc_name m = VStr n /\ part doc kname f /\ in_language f n /\
      In (cf_id cf, VStr (cid i)) l /\ In (cf_name cf, VStr s) l.
Proof.
  intros cid cf e i ds s doc R D P N (f0 & F0). unfold get_contact. rewrite (contact_init_ok _ _ _ _ _ _ R D). cbn [bind fst snd].
  destruct (contact_steps_ok _ (contact_texts doc P N) (ContactInfo None None None)) as (j & -> & [[_ Q]|(x & t & I & T & J)]).
  - exfalso. apply (Q (elem2dict f0)). apply part_read; [exact P|exact F0|now left].
  - cbn [bind]. rewrite J.
    assert (A : ~ In (ch "@") kname) by (vm_compute; intuition discriminate).
    destruct (read_parts _ _ _ _ P A I) as (f & F & ->). destruct (N f (or_introl F)) as [t' S].
    destruct (in_language_read _ _ S) as [l E]. rewrite E in T. cbn in T. assert (t' = t) by congruence. subst t'.
    do 2 eexists. exists t, f. split; [reflexivity|]. split; [reflexivity|]. split; [reflexivity|]. split; [exact F|].
    split; [exact S|]. split; [now left|right; now left].
Qed.
Print Assumptions C130_contact_listed_partial.
(** A contact data set without a full name, or with a name or short name without language, ends the
    conversion of every process that refers to it. *)
Theorem C130_contact_listed_refuted :
  forall cid files doc k cf e i ds s cdoc, proper doc -> of_contacts k cf -> part doc k e -> reference e i ds -> described ds s ->
    files (elem2dict e) = Some cdoc -> proper cdoc ->
    (forall f, ~ part cdoc kname f) \/ (exists f t, (part cdoc kname f \/ part cdoc ksname f) /\ plain_text f t) ->
    fails cid files doc.
Proof.
  intros cid files doc k cf e i ds s cdoc P C F R D E Q H.
  assert (X : exists er, refer cid files (RContact cf) (elem2dict e) = Err er).
  { cbn [refer]. rewrite E. unfold get_contact. rewrite (contact_init_ok _ _ _ _ _ _ R D). cbn [bind fst snd].
    destruct H as [H|(f & t & G & T)].
    - destruct (contact_steps _ _) as [j|er] eqn:S; [|now exists er]. cbn [bind].
      assert (U : ci_name j = ci_name (ContactInfo None None None)).
      { apply (contact_steps_unnamed (read contact_keys cdoc)); [intros x I|exact S].
        assert (A : ~ In (ch "@") kname) by (vm_compute; intuition discriminate).
        destruct (read_parts _ _ _ _ Q A I) as (f & G & _). now apply (H f). }
      rewrite U. now exists KeyError.
    - assert (Y : exists k', (k' = kname \/ k' = ksname) /\ In (k', VStr t) (read contact_keys cdoc)).
      { rewrite <- (read_plain _ _ T). destruct G as [G|G]; [exists kname|exists ksname]; (split; [tauto|]);
          apply part_read; trivial; cbn; tauto. }
      destruct Y as (k' & K & I). destruct (contact_steps_plain _ _ _ K I (ContactInfo None None None)) as [er ->]. now exists er. }
  destruct X as [er X]. exact (reference_fails cid files doc k (RContact cf) e er P F C X).
Qed.
Print Assumptions C130_contact_listed_refuted.

(** * C131: documents a process refers to *)
(** Descriptions that this converter gives to image addresses and to the icon of a data set. *)
Definition image_text (s : pystr) : Prop := exists r, s = lit "Image URL from " ++ r.
Definition icon_text (s : pystr) : Prop := s = lit "Dataset Icon".
Lemma kind_image u s : kind_of u s = KImage <-> image_text s \/ (~ icon_text s /\ u = true).
Proof.
  unfold kind_of, image_text, icon_text. destruct (prefixb (lit "Image URL from ") s) eqn:E.
  - apply prefixb_spec in E. split; [intros _; now left|reflexivity].
  - assert (N : ~ exists r, s = lit "Image URL from " ++ r). { intros X. apply prefixb_spec in X. congruence. }
    destruct (str_eqb s (lit "Dataset Icon")) eqn:Q.
    + apply str_eqb_eq in Q. split; [discriminate|]. intros [H|[H _]]; contradiction.
    + assert (M : s <> lit "Dataset Icon") by (intros ->; now rewrite str_eqb_refl in Q).
      destruct u; split; trivial; try discriminate; [intros _; right; now split|]. intros [H|[_ H]]; [contradiction|discriminate].
Qed.
Lemma kind_regular u s : kind_of u s = KRegular <-> ~ image_text s /\ ~ icon_text s /\ u = false.
Proof.
  unfold kind_of, image_text, icon_text. destruct (prefixb (lit "Image URL from ") s) eqn:E.
  - apply prefixb_spec in E. split; [discriminate|]. now intros [H _].
  - assert (N : ~ exists r, s = lit "Image URL from " ++ r). { intros X. apply prefixb_spec in X. congruence. }
    destruct (str_eqb s (lit "Dataset Icon")) eqn:Q.
    + apply str_eqb_eq in Q. split; [discriminate|]. now intros (_ & H & _).
    + assert (M : s <> lit "Dataset Icon") by (intros ->; now rewrite str_eqb_refl in Q).
      destruct u; split; trivial; try discriminate; [now intros (_ & _ & H)|]. intros _. now repeat split.
Qed.
(** Documents: only images written by this converter are accepted.  Pictures: everything but an icon.
    Republications: everything but images and icons written by this converter. *)
Theorem C131_documents_accepted_partial :
  forall cid e i ds s, reference e i ds -> described ds s ->
    let accepted fs u := exists r, get_source cid fs u (elem2dict e) None = Ok r in
    (accepted [KImage; KIcon] false <-> image_text s \/ icon_text s) /\
    (accepted [KImage] true <-> ~ icon_text s) /\
    (accepted [KRegular] false <-> ~ image_text s /\ ~ icon_text s).
Proof.
  intros cid e i ds s R D accepted.
  assert (A : forall fs u, accepted fs u <-> In (kind_of u s) fs).
  { intros fs u. unfold accepted, get_source. rewrite (source_init_ok fs u _ _ _ _ R D), <- kind_in.
    destruct (existsb (kind_eqb (kind_of u s)) fs); cbn [bind fst snd]; split; intros H; try reflexivity; try discriminate.
    - now eexists.
    - now destruct H. }
  assert (I : icon_text s -> ~ image_text s). { intros -> [r H]. vm_compute in H. discriminate. }
  rewrite !A. cbn [In]. pose proof (kind_image false s) as K1. pose proof (kind_image true s) as K2.
  pose proof (kind_regular false s) as K3. pose proof (kind_regular true s) as K4.
  repeat split.
  - intros [H|[H|[]]]; symmetry in H; [apply K1 in H; destruct H as [H|[_ H]]; [now left|discriminate]|]. right.
    unfold kind_of in H. destruct (prefixb _ _); [discriminate|]. destruct (str_eqb s (lit "Dataset Icon")) eqn:Q; [|discriminate].
    now apply str_eqb_eq.
  - intros [H|H]; [left; symmetry; apply K1; now left|]. right. left. unfold icon_text in H. subst s. reflexivity.
  - intros [H|[]] J. symmetry in H. apply K2 in H. destruct H as [H|[H _]]; [|contradiction]. now apply I.
  - intros H. left. symmetry. apply K2. right. now split.
  - destruct H as [H|[]]. symmetry in H. now apply K3 in H.
  - destruct H as [H|[]]. symmetry in H. now apply K3 in H.
  - intros [H1 H2]. left. symmetry. now apply K3.
Qed.
Print Assumptions C131_documents_accepted_partial.
(** A process with an ordinary document (a report, an article) in its external documentation is not
    converted, whether or not the file of the document exists; no more is one with a document described
    in two languages or without language. *)
Theorem C131_documents_accepted_refuted :
  forall cid files doc k fs u e i ds, proper doc -> of_sources k fs u -> part doc k e -> reference e i ds ->
    (k = kdocument /\ exists s, described ds s /\ ~ image_text s /\ ~ icon_text s) \/ otherwise_described ds ->
    fails cid files doc.
Proof.
  intros cid files doc k fs u e i ds P C F R H.
  assert (X : exists er, refer cid files (RSource fs u) (elem2dict e) = Err er).
  { cbn [refer]. unfold get_source. destruct H as [(-> & s & D & N1 & N2)|D].
    - assert (E : fs = [KImage; KIcon] /\ u = false).
      { unfold of_sources, referring_of in C. cbn [In] in C.
        repeat destruct C as [C|C]; try contradiction; try (injection C; intros; subst; try discriminate; now split);
        exfalso; apply (f_equal fst) in C; vm_compute in C; discriminate. }
      destruct E as [-> ->]. rewrite (source_init_ok _ _ _ _ _ _ R D).
      assert (K : kind_of false s = KRegular) by (apply kind_regular; now repeat split). rewrite K. now exists KeyError.
    - rewrite (source_init_err fs u _ _ _ R D). now exists TypeError. }
  destruct X as [er X]. exact (reference_fails cid files doc k (RSource fs u) e er P F C X).
Qed.
Print Assumptions C131_documents_accepted_refuted.

(** * C132: source data sets *)
Definition source_named (doc : elem) : Prop :=
  (forall f, part doc ksource f -> exists s, in_language f s) /\
  (forall f, part doc kcitation f -> exists s, plain_text f s).
(** With short names that have a language, and citations that have none, the citation is read (C98, C99 say how). *)
Theorem C132_source_read_partial :
  forall cid fs u e i ds s doc, reference e i ds -> described ds s -> kind_of u s = KRegular -> In KRegular fs ->
    proper doc -> source_named doc -> (exists f, part doc ksource f) ->
    exists t n, get_source cid fs u (elem2dict e) (Some doc) = bind (read_citation t n) (fun c => Ok (SCited (cid i) c)).
Proof.
  intros cid fs u e i ds s doc R D K I P [N C] (f0 & F0). unfold get_source. rewrite (source_init_ok fs u _ _ _ _ R D), K.
  apply kind_in in I. rewrite I. cbn [bind fst snd].
  assert (A1 : ~ In (ch "@") ksource) by (vm_compute; intuition discriminate).
  assert (A2 : ~ In (ch "@") kcitation) by (vm_compute; intuition discriminate).
  assert (T : source_texts (read source_keys doc)).
  { split; [|split].
    - intros x H. destruct (read_parts _ _ _ _ P A1 H) as (f & F & ->). destruct (N f F) as [t S].
      destruct (in_language_read _ _ S) as [l ->]. now exists t.
    - intros x H. destruct (read_parts _ _ _ _ P A2 H) as (f & F & ->). destruct (C f F) as [t S].
      rewrite (read_plain _ _ S). now exists t.
    - intros k x H. apply (read_keys _ _ _ _ P) in H. destruct H as [H|[H|[]]]; subst; tauto. }
  destruct (source_steps_ok _ T (SourceInfo None None) Logic.I Logic.I) as (j & -> & S1 & S2 & S3). cbn [bind].
  unfold citation_of. destruct (si_name j) as [v|] eqn:V.
  - destruct v; try contradiction. destruct (si_citation j) as [w|]; [destruct w; try contradiction|]; cbn [bind fst snd]; eauto.
  - exfalso. destruct (S3 eq_refl) as [_ Q]. apply (Q (elem2dict f0)). apply part_read; [exact P|exact F0|right; now left].
Qed.
Print Assumptions C132_source_read_partial.
(** Citation and short name are those of the source data set. *)
Theorem C132_citation_first_partial :
  forall cid fs u e i ds s doc, reference e i ds -> described ds s -> kind_of u s = KRegular -> In KRegular fs ->
    proper doc -> source_named doc -> (exists f, part doc ksource f) ->
    exists t n, get_source cid fs u (elem2dict e) (Some doc) = bind (read_citation t n) (fun c => Ok (SCited (cid i) c)) /\
      (exists f, part doc ksource f /\ in_language f n) /\
      ((exists f, part doc kcitation f /\ plain_text f t) \/ (forall f, ~ part doc kcitation f) /\ t = n).
Proof.
  intros cid fs u e i ds s doc R D K I P [N C] (f0 & F0). unfold get_source. rewrite (source_init_ok fs u _ _ _ _ R D), K.
  apply kind_in in I. rewrite I. cbn [bind fst snd].
  assert (A1 : ~ In (ch "@") ksource) by (vm_compute; intuition discriminate).
  assert (A2 : ~ In (ch "@") kcitation) by (vm_compute; intuition discriminate).
  assert (T3 : forall k x, In (k, x) (read source_keys doc) -> k = ksource \/ k = kcitation)
    by (intros k x H; apply (read_keys _ _ _ _ P) in H; destruct H as [H|[H|[]]]; subst; tauto).
  assert (T : source_texts (read source_keys doc)).
  { split; [|split; [|exact T3]].
    - intros x H. destruct (read_parts _ _ _ _ P A1 H) as (f & F & ->). destruct (N f F) as [t S].
      destruct (in_language_read _ _ S) as [l ->]. now exists t.
    - intros x H. destruct (read_parts _ _ _ _ P A2 H) as (f & F & ->). destruct (C f F) as [t S].
      rewrite (read_plain _ _ S). now exists t. }
  destruct (source_steps_ok _ T (SourceInfo None None) Logic.I Logic.I) as (j & Ej & S1 & S2 & S3). rewrite Ej. cbn [bind].
  destruct (source_steps_of (fun v => exists f n, part doc ksource f /\ in_language f n /\ v = VStr n)
             (fun v => exists f t, part doc kcitation f /\ plain_text f t /\ v = VStr t) (read source_keys doc))
    with (i := SourceInfo None None) (j := j) as (U1 & U2 & U3); [| |exact T3|discriminate|discriminate|exact Ej|].
  { intros x v H Q. destruct (read_parts _ _ _ _ P A1 H) as (f & F & ->). destruct (N f F) as [t S].
    destruct (in_language_read _ _ S) as [l Q']. rewrite Q' in Q. injection Q as <-. now exists f, t. }
  { intros x H. destruct (read_parts _ _ _ _ P A2 H) as (f & F & ->). destruct (C f F) as [t S]. exists f, t. now rewrite (read_plain _ _ S). }
  unfold citation_of. destruct (si_name j) as [v|] eqn:V.
  - destruct (U1 v eq_refl) as (f & n & F & L & ->). destruct (si_citation j) as [w|] eqn:W.
    + destruct (U2 w eq_refl) as (g & t & G & Pt & ->). exists t, n. cbn [bind fst snd]. split; [reflexivity|]. split; [now exists f|]. left. now exists g.
    + exists n, n. cbn [bind fst snd]. split; [reflexivity|]. split; [now exists f|]. right. split; [|reflexivity]. intros g G.
      destruct (U3 eq_refl) as [_ X]. apply (X (elem2dict g)). apply part_read; [exact P|exact G|now left].
  - exfalso. destruct (S3 eq_refl) as [_ Q]. apply (Q (elem2dict f0)). apply part_read; [exact P|exact F0|right; now left].
Qed.
Print Assumptions C132_citation_first_partial.
(** A source without a short name, or with one that has no language, ends the conversion, even if there
    is a citation. *)
Theorem C132_source_read_refuted :
  forall cid files doc e i ds s sdoc, proper doc -> part doc krepublication e -> reference e i ds -> described ds s ->
    files (elem2dict e) = Some sdoc -> proper sdoc ->
    (forall f, ~ part sdoc ksource f) \/ (exists f t, part sdoc ksource f /\ plain_text f t) ->
    fails cid files doc.
Proof.
  intros cid files doc e i ds s sdoc P F R D E Q H.
  assert (C : of_sources krepublication [KRegular] false) by (unfold of_sources, referring_of; cbn [In]; tauto).
  assert (X : exists er, refer cid files (RSource [KRegular] false) (elem2dict e) = Err er).
  { cbn [refer]. rewrite E. unfold get_source. rewrite (source_init_ok _ _ _ _ _ _ R D).
    destruct (existsb _ _) eqn:B; [|now exists KeyError]. apply kind_in in B. destruct B as [<-|[]]. cbn [bind fst snd].
    destruct H as [H|(f & t & G & T)].
    - destruct (source_steps _ _) as [j|er] eqn:S; [|now exists er]. cbn [bind]. unfold citation_of.
      assert (A1 : ~ In (ch "@") ksource) by (vm_compute; intuition discriminate).
      rewrite (source_steps_unnamed (read source_keys sdoc)) with (i := SourceInfo None None); [now exists KeyError| | |exact S].
      + intros x I. destruct (read_parts _ _ _ _ Q A1 I) as (f & G & _). now apply (H f).
      + intros k x I. apply (read_keys _ _ _ _ Q) in I. destruct I as [I|[I|[]]]; subst; tauto.
    - assert (I : In (ksource, VStr t) (read source_keys sdoc)).
      { rewrite <- (read_plain _ _ T). apply part_read; [exact Q|exact G|right; now left]. }
      destruct (source_steps_plain _ _ I (SourceInfo None None)) as [er ->]. now exists er. }
  destruct X as [er X]. exact (reference_fails cid files doc krepublication (RSource [KRegular] false) e er P F C X).
Qed.
Print Assumptions C132_source_read_refuted.

(** * Examples *)
Definition text_in (tag l s : pystr) : elem := Elem tag [(xml_lang, l)] (Some s) None [].
Definition ref_elem (tag i : pystr) (ds : list elem) : elem := Elem tag [(lit "type", lit "data set"); (lit "refObjectId", i)] None None ds.
Definition inside (path : list pystr) (e : elem) : elem := fold_right (fun t k => Elem t [] None None [k]) e path.
Definition en (s : string) : elem := text_in kshort (lit "en") (lit s).
Definition de (s : string) : elem := text_in kshort (lit "de") (lit s).
Lemma text_in_ok tag l c s : is_space c = false -> in_language (text_in tag l (c :: s)) (c :: s).
Proof.
  intros N. split; [exists l; now split|]. left. split; [reflexivity|]. cbn. intros B. inversion B; congruence.
Qed.
Lemma ref_elem_ok tag i ds : i <> [] -> Forall (fun e => name_ok (etag e) = true /\ etag e = kshort /\ proper e) ds -> reference (ref_elem tag i ds) i ds.
Proof.
  intros N F. assert (NR : forall n, name_ok n = true -> name_of n n) by (intros n H; now apply name_ok_spec).
  split; [cbn [ref_elem ekids]; eapply Forall_impl; [|exact F]; now intros a (_ & _ & H)|]. split.
  { exists [lit "type"; lit "refObjectId"]. split.
    - constructor; [apply NR; reflexivity|]. constructor; [apply NR; reflexivity|constructor].
    - constructor; [|constructor; [intros []|constructor]]. intros [H|[]]. vm_compute in H. discriminate. }
  split. { exists (lit "refObjectId"). split; [right; now left|apply NR; reflexivity]. } split; [exact N|].
  cbn [ref_elem ekids]. change (lit "shortDescription") with kshort. revert F. clear. induction ds as [|d ds IH]; intros F; [constructor|].
  inversion F as [|? ? (A & B & C) G]; subst. apply nk_take; [|now apply IH]. rewrite <- B. now apply name_ok_spec.
Qed.
Definition cid0 (i : pystr) : pystr := i.
Definition report_ref : elem := ref_elem (lit "referenceToExternalDocumentation") (lit "1") [en "Annual report"].
Definition process_with_report : elem := inside [lit "processDataSet"; lit "processInformation"; lit "dataSetInformation"] report_ref.
Definition expert_ref : elem := ref_elem (lit "referenceToPersonOrEntityEnteringTheData") (lit "2") [en "Institute"; de "Institut"].
Definition process_with_expert : elem := inside [lit "processDataSet"; lit "administrativeInformation"; lit "dataEntryBy"] expert_ref.
Definition owner_ref : elem := ref_elem (lit "referenceToEntitiesWithExclusiveAccess") (lit "3") [en "ACME"].
Definition process_with_owner : elem := inside [lit "processDataSet"; lit "administrativeInformation"; lit "publicationAndOwnership"] owner_ref.
Definition article_ref : elem := ref_elem (lit "referenceToUnchangedRepublication") (lit "4") [en "Article"].
Definition process_with_article : elem := inside [lit "processDataSet"; lit "administrativeInformation"; lit "publicationAndOwnership"] article_ref.
Definition contact_set (names : list elem) : elem := inside [lit "contactDataSet"; lit "contactInformation"] (Elem (lit "dataSetInformation") [] None None names).
Definition source_set (names : list elem) : elem := inside [lit "sourceDataSet"; lit "sourceInformation"] (Elem (lit "dataSetInformation") [] None None names).
Ltac kids := repeat (constructor; [split; [reflexivity|split; [reflexivity|apply properb_sound; vm_compute; reflexivity]]|]); constructor.
Ltac documented := apply properb_sound; vm_compute; reflexivity.
Lemma one_description s c r : lit s = c :: r -> is_space c = false -> described [en s] (lit s).
Proof. intros E N. right. exists (en s). split; [reflexivity|]. unfold en. rewrite E. now apply text_in_ok. Qed.

Example C129_nonvacuous :
  (exists l, get_contact cid0 company (elem2dict owner_ref) None = Ok (l, None) /\ In (lit "companyCode", VStr (lit "ACME")) l) /\
  fails cid0 (fun _ => None) process_with_expert.
Proof.
  split.
  - destruct (C129_contact_taken_over_partial cid0 company owner_ref (lit "3") [en "ACME"] (lit "ACME")) as (l & A & _ & B).
    + apply ref_elem_ok; [discriminate|kids].
    + now apply (one_description "ACME" (ch "A") (lit "CME")).
    + now exists l.
  - apply (C129_contact_taken_over_refuted cid0 _ process_with_expert kentering person expert_ref (lit "2") [en "Institute"; de "Institut"]).
    + documented.
    + unfold of_contacts, referring_of. cbn [In]. tauto.
    + apply (at_place_part [0; 0; 0]); vm_compute; reflexivity.
    + apply ref_elem_ok; [discriminate|kids].
    + left. cbn. lia.
Qed.
Example C130_nonvacuous :
  (exists l m, get_contact cid0 company (elem2dict owner_ref)
     (Some (contact_set [text_in (lit "name") (lit "en") (lit "ACME Ltd")])) = Ok (l, Some m) /\ mc_name m = VStr (lit "ACME Ltd")) /\
  fails cid0 (fun _ => Some (contact_set [text_in (lit "shortName") (lit "en") (lit "ACME")])) process_with_owner.
Proof.
  split; [do 2 eexists; split; reflexivity|].
  apply (C130_contact_listed_refuted cid0 _ process_with_owner kexclusive company owner_ref (lit "3") [en "ACME"] (lit "ACME")
           (contact_set [text_in (lit "shortName") (lit "en") (lit "ACME")])).
  - documented.
  - unfold of_contacts, referring_of. cbn [In]. tauto.
  - apply (at_place_part [0; 0; 0]); vm_compute; reflexivity.
  - apply ref_elem_ok; [discriminate|kids].
  - now apply (one_description "ACME" (ch "A") (lit "CME")).
  - reflexivity.
  - documented.
  - left. intros f F.
    assert (P : proper (contact_set [text_in (lit "shortName") (lit "en") (lit "ACME")])) by documented.
    apply (part_read contact_keys) in F; [|exact P|now left]. vm_compute in F.
    destruct F as [F|[]]. discriminate F.
Qed.
Example C131_nonvacuous : fails cid0 (fun _ => None) process_with_report /\
  (exists r, get_source cid0 [KImage] true (elem2dict report_ref) None = Ok r).
Proof.
  assert (R : reference report_ref (lit "1") [en "Annual report"]) by (apply ref_elem_ok; [discriminate|kids]).
  assert (D : described [en "Annual report"] (lit "Annual report")) by now apply (one_description "Annual report" (ch "A") (lit "nnual report")).
  split.
  - apply (C131_documents_accepted_refuted cid0 _ process_with_report kdocument [KImage; KIcon] false report_ref (lit "1") [en "Annual report"]).
    + documented.
    + unfold of_sources, referring_of. cbn [In]. tauto.
    + apply (at_place_part [0; 0; 0]); vm_compute; reflexivity.
    + exact R.
    + left. split; [reflexivity|]. exists (lit "Annual report"). split; [exact D|]. split.
      * intros [r H]. vm_compute in H. discriminate.
      * intros H. vm_compute in H. discriminate.
  - destruct (C131_documents_accepted_partial cid0 report_ref (lit "1") _ _ R D) as (_ & A & _). apply A. intros H. vm_compute in H. discriminate.
Qed.
Example C132_nonvacuous :
  (exists c, get_source cid0 [KRegular] false (elem2dict article_ref)
     (Some (source_set [text_in (lit "shortName") (lit "en") (lit "Smith, (2001)")])) = Ok (SCited (lit "4") c) /\ c_year c = Some (lit "2001")) /\
  fails cid0 (fun _ => Some (source_set [Elem (lit "sourceCitation") [] (Some (lit "Smith, (2001)")) None []])) process_with_article.
Proof.
  split; [eexists; split; vm_compute; reflexivity|].
  apply (C132_source_read_refuted cid0 _ process_with_article article_ref (lit "4") [en "Article"] (lit "Article")
           (source_set [Elem (lit "sourceCitation") [] (Some (lit "Smith, (2001)")) None []])).
  - documented.
  - apply (at_place_part [0; 0; 0]); vm_compute; reflexivity.
  - apply ref_elem_ok; [discriminate|kids].
  - now apply (one_description "Article" (ch "A") (lit "rticle")).
  - reflexivity.
  - documented.
  - left. intros f F.
    assert (P : proper (source_set [Elem (lit "sourceCitation") [] (Some (lit "Smith, (2001)")) None []])) by documented.
    apply (part_read source_keys) in F; [|exact P|right; now left]. vm_compute in F.
    destruct F as [F|[]]. discriminate F.
Qed.
