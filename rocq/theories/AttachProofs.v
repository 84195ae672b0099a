(** Lemmas: data sets of contacts and sources, as they are written and read. *)
From Coq Require Import Ascii String List Bool Arith NArith ZArith Lia.
From Verif Require Import PyBase PyBaseFacts PyValues ValidatorsSpec MultiLangModel DotDictModel DotDictProofs UtilsModel
  XmlModel XmlSpec XmlProofs XmlProps KeysModel KeysSpec KeysProofs HandleModel HandleSpec HandleProofs TemplateModel ExchangeModel ReferModel ReferSpec ReferProofs
  AsideModel AsideSpec AsideProofs OutflowModel AttachModel AttachSpec.
From Verif Require OutflowProofs ReviewProofs InflowProofs ExchangeProofs.
Import ListNotations.
Local Open Scope string_scope.
Local Open Scope list_scope.

Definition space_of (t : data_type) : pystr := match t with TContact => lit "http://lca.jrc.it/ILCD/Contact" | TSource => lit "http://lca.jrc.it/ILCD/Source" end.
(** * The documents *)
Section Documents.
  Context (show : pyval -> pystr) (now : pystr) (id version : pystr).
  Definition opt {A} (o : option A) (k : string) (v : A -> pyval) : list (pystr * pyval) := match o with Some a => [(lit k, v a)] | None => [] end.
  Definition contact_infos (n : pystr) (mail active : option pyval) (class : pystr) : list (pystr * pyval) :=
    [(lit "name", VStr n)] ++ opt mail "email" (fun x => x) ++ opt active "active" (fun x => x) ++ [(lit "classification", VStr class)].
  Definition source_infos (r : pystr) (full link : option pystr) (class : pystr) : list (pystr * pyval) :=
    [(lit "reference", VStr r)] ++ opt full "complete_reference" VStr ++ opt link "link" VStr ++ [(lit "classification", VStr class)].
  Definition contact_value n mail active class : pyval :=
    match contact_structure show now id version (contact_infos n mail active class) with Ok v => v | Err _ => VNone end.
  Definition source_value r full link class : pyval :=
    match source_structure now id version (source_infos r full link class) with Ok v => v | Err _ => VNone end.
  Lemma contact_made n mail active class : contact_structure show now id version (contact_infos n mail active class) = Ok (contact_value n mail active class).
  Proof. destruct mail, active; reflexivity. Qed.
  Lemma source_made r full link class : source_structure now id version (source_infos r full link class) = Ok (source_value r full link class).
  Proof. destruct full, link; reflexivity. Qed.
  Definition part_leaf (t : data_type) (k : string) (a : list (pystr * pystr)) (s : pystr) : elem := Elem (qualified (space_of t) (lit k)) a (cdata s) None [].
  Definition mail_leaf (v : pyval) : elem :=
    match v with VStr s => part_leaf TContact "email" [] s | _ => Elem (qualified (space_of TContact) (lit "email")) [] None None [] end.
  Definition text_or_none (v : pyval) : Prop := v = VNone \/ exists s, v = VStr s.
  Definition doc_of (v : pyval) : elem := match unparse show v with Ok e => e | Err _ => Elem [] [] None None [] end.
  Lemma contact_unparsed n mail active class : unparse show (contact_value n mail active class) = Ok (doc_of (contact_value n mail active class)).
  Proof. unfold doc_of. destruct mail, active; reflexivity. Qed.
  Lemma source_unparsed r full link class : unparse show (source_value r full link class) = Ok (doc_of (source_value r full link class)).
  Proof. unfold doc_of. destruct full, link; reflexivity. Qed.
  Lemma read_contact n mail active class : match mail with Some v => text_or_none v | None => True end ->
    read contact_keys (doc_of (contact_value n mail active class))
    = (kname, elem2dict (part_leaf TContact "common:name" [(xml_lang, lit "en")] n)) :: match mail with Some v => [(kemail, elem2dict (mail_leaf v))] | None => [] end.
  Proof.
    intros H. destruct mail as [v|]; [destruct H as [->|[s ->]]; [|destruct s as [|c s]]|]; destruct active; cbv -[elem2dict str_of]; reflexivity.
  Qed.
  Lemma read_source r full link class :
    read source_keys (doc_of (source_value r full link class))
    = (ksource, elem2dict (part_leaf TSource "common:shortName" [(xml_lang, lit "en")] r)) ::
      match full with Some s => [(kcitation, elem2dict (part_leaf TSource "sourceCitation" [] s))] | None => [] end.
  Proof. destruct full as [[|c s]|], link; cbv -[elem2dict str_of]; reflexivity. Qed.
  Lemma read_link r full link class :
    read [kuri] (doc_of (source_value r full link class)) = match link with Some s => [(kuri, VStr s)] | None => [] end.
  Proof. destruct full as [[|c s]|], link; cbv -[elem2dict str_of]; reflexivity. Qed.
End Documents.

(** * Texts *)
Lemma blank_dec o : {blank o} + {~ blank o}.
Proof.
  destruct o as [s|]; [|left; exact I]. destruct (forallb is_space s) eqn:E.
  - left. apply Forall_forall. now apply forallb_forall.
  - right. intros B. cbn in B. rewrite Forall_forall in B. rewrite <- forallb_forall in B. congruence.
Qed.
Definition said_text (o : option pystr) : pystr := if blank_dec o then [] else match o with Some s => s | None => [] end.
Lemma said_is o s : said o s -> s = said_text o.
Proof. unfold said_text. intros [[B ->]|[B ->]]; destruct (blank_dec _); try contradiction; reflexivity. Qed.
Lemma leaf_language t k s : in_language (part_leaf t k [(xml_lang, lit "en")] s) (said_text (Some s)).
Proof.
  split; [exists (lit "en"); split; reflexivity|]. unfold said_text. destruct (blank_dec (Some s)) as [B|B].
  - right. split; [|reflexivity]. cbn [part_leaf etext]. destruct s; [exact I|exact B].
  - left. split; [|exact B]. cbn [part_leaf etext]. now apply OutflowProofs.nonblank_some.
Qed.
Lemma leaf_empty t k s : blank (Some s) -> elem2dict (part_leaf t k [] s) = VDict [].
Proof.
  intros B. unfold part_leaf. cbn [elem2dict map fold_left]. unfold own_entries. cbn [fold_left].
  assert (R : real_text (cdata s) = None); [|now rewrite R].
  destruct s as [|c s]; [reflexivity|]. cbn [cdata real_text]. assert (S : isspace (c :: s) = true).
  { cbn in B. unfold isspace. apply forallb_forall. now apply Forall_forall. }
  now rewrite S.
Qed.
Lemma leaf_plain t k s : ~ blank (Some s) -> plain_text (part_leaf t k [] s) s.
Proof. intros B. repeat split; [cbn [part_leaf etext]; now apply OutflowProofs.nonblank_some|exact B]. Qed.
Definition mail_said (v : pyval) : pystr := match v with VStr s => said_text (Some s) | _ => [] end.

(** * Reading *)
Section Reading.
  Context (show : pyval -> pystr) (now : pystr) (id version : pystr) (cid : pystr -> pystr).
  Lemma mail_read v : text_or_none v -> match elem2dict (mail_leaf v) with VDict _ => VStr [] | t => t end = VStr (mail_said v).
  Proof.
    intros [->|[s ->]]; [reflexivity|]. cbn [mail_leaf mail_said]. unfold said_text. destruct (blank_dec (Some s)) as [B|B].
    - now rewrite leaf_empty.
    - now rewrite (read_plain _ _ (leaf_plain TContact "email" s B)).
  Qed.
  Lemma contact_back cf y i ds s n mail active class : reference y i ds -> described ds s ->
    match mail with Some v => text_or_none v | None => True end ->
    get_contact cid cf (elem2dict y) (Some (doc_of show (contact_value show now id version n mail active class)))
    = Ok (set_first cid cf i s ++ [(cf_id cf, VStr (cid i))] ++
          match cf_email cf with Some f => [(f, VStr (match mail with Some v => mail_said v | None => [] end))] | None => [] end,
          Some (MasterContact (cid i) (VStr (said_text (Some n))) (VStr (match mail with Some v => mail_said v | None => [] end)))).
  Proof.
    intros R D M. unfold get_contact. rewrite (contact_init_ok _ _ _ _ _ _ R D). cbn [bind fst snd]. rewrite (read_contact show now id version n mail active class M).
    destruct (in_language_read _ _ (leaf_language TContact "common:name" n)) as [l E].
    assert (N : text_item (elem2dict (part_leaf TContact "common:name" [(xml_lang, lit "en")] n)) = Ok (VStr (said_text (Some n)))) by now rewrite E.
    cbn [contact_steps]. unfold contact_step. cbn [fst snd]. rewrite str_eqb_refl, N. cbn [bind]. destruct mail as [v|].
    - cbn [contact_steps]. unfold contact_step. cbn [fst snd]. change (str_eqb kemail kname) with false. change (str_eqb kemail ksname) with false. cbn iota. cbn [bind ci_name ci_email str_or]. rewrite (mail_read v M). reflexivity.
    - reflexivity.
  Qed.
  Lemma source_back fs y i ds s r full link class : reference y i ds -> described ds s -> kind_of false s = KRegular -> In KRegular fs ->
    match full with Some t => ~ blank (Some t) | None => True end ->
    get_source cid fs false (elem2dict y) (Some (doc_of show (source_value now id version r full link class)))
    = bind (read_citation (match full with Some t => t | None => said_text (Some r) end) (said_text (Some r))) (fun c => Ok (SCited (cid i) c)).
  Proof.
    intros R D K F N. unfold get_source. rewrite (source_init_ok fs false _ _ _ _ R D), K. apply kind_in in F. rewrite F. cbn [bind fst snd].
    rewrite (read_source show now id version r full link class). destruct (in_language_read _ _ (leaf_language TSource "common:shortName" r)) as [l E].
    assert (T : text_item (elem2dict (part_leaf TSource "common:shortName" [(xml_lang, lit "en")] r)) = Ok (VStr (said_text (Some r)))) by now rewrite E.
    cbn [source_steps]. unfold source_step. cbn [fst snd]. change (str_eqb ksource kcitation) with false. cbn iota. rewrite T. cbn [bind]. destruct full as [t|].
    - cbn [source_steps]. unfold source_step. cbn [fst snd]. rewrite str_eqb_refl. cbn [bind si_citation si_name]. rewrite (read_plain _ _ (leaf_plain TSource "sourceCitation" t N)). reflexivity.
    - reflexivity.
  Qed.
  Lemma empty_back fs y i ds s r t link class : reference y i ds -> described ds s -> kind_of false s = KRegular -> In KRegular fs -> blank (Some t) ->
    get_source cid fs false (elem2dict y) (Some (doc_of show (source_value now id version r (Some t) link class))) = Err TypeError.
  Proof.
    intros R D K F N. unfold get_source. rewrite (source_init_ok fs false _ _ _ _ R D), K. apply kind_in in F. rewrite F. cbn [bind fst snd].
    rewrite (read_source show now id version r (Some t) link class). destruct (in_language_read _ _ (leaf_language TSource "common:shortName" r)) as [l E].
    assert (T : text_item (elem2dict (part_leaf TSource "common:shortName" [(xml_lang, lit "en")] r)) = Ok (VStr (said_text (Some r)))) by now rewrite E.
    cbn [source_steps]. unfold source_step. cbn [fst snd]. change (str_eqb ksource kcitation) with false. cbn iota. rewrite T. cbn [bind].
    cbn [source_steps]. unfold source_step. cbn [fst snd]. rewrite str_eqb_refl. cbn [bind si_citation si_name]. rewrite (leaf_empty TSource "sourceCitation" t N). reflexivity.
  Qed.
  Lemma link_back fs u y i ds s k r full link class : reference y i ds -> described ds s -> kind_of u s = k -> k <> KRegular -> In k fs ->
    get_source cid fs u (elem2dict y) (Some (doc_of show (source_value now id version r full link class)))
    = Ok (SImages k (match link with Some l => [VStr l] | None => [] end)).
  Proof.
    intros R D <- N F. unfold get_source. rewrite (source_init_ok fs u _ _ _ _ R D). apply kind_in in F. rewrite F. cbn [bind fst snd].
    rewrite (read_link show now id version r full link class). destruct (kind_of u s); [| |contradiction]; now destruct link.
  Qed.
End Reading.

(** * Files *)
Section Files.
  Context (show : pyval -> pystr) (now : pystr).
  Notation make_all := (make_all show now).
  Notation make_dataset := (make_dataset show now).
  Lemma stored_spec t id st : stored t id st = true <-> exists v, In (t, id, v) st.
  Proof.
    unfold stored. rewrite existsb_exists. split.
    - intros ([[t' id'] v] & I & E). cbn [fst snd] in E. apply andb_true_iff in E. destruct E as [E1 E2]. apply str_eqb_eq in E2. subst id'. exists v.
      destruct t', t; try discriminate; exact I.
    - intros (v & I). exists (t, id, v). split; [exact I|]. cbn [fst snd]. rewrite str_eqb_refl. now destruct t.
  Qed.
  Definition names_file (q : request) (f : data_type * pystr * pyval) : Prop := fst f = (q_type q, q_id q).
  Lemma make_keeps qs : forall st st', make_all st qs = Ok st' -> exists new, st' = st ++ new.
  Proof.
    induction qs as [|q qs IH]; intros st st' H.
    - injection H as <-. exists []. now rewrite app_nil_r.
    - cbn in H. apply InflowProofs.bind_ok in H. destruct H as (s1 & H1 & H2). destruct (IH _ _ H2) as [new ->]. unfold AttachModel.make_dataset in H1.
      destruct (stored _ _ _); [injection H1 as <-; now exists new|]. apply InflowProofs.bind_ok in H1. destruct H1 as (v & _ & H1). injection H1 as <-.
      rewrite <- app_assoc. now eexists.
  Qed.
  Lemma make_has qs q : forall st st', make_all st qs = Ok st' -> In q qs -> exists v, In (q_type q, q_id q, v) st'.
  Proof.
    induction qs as [|q' qs IH]; intros st st' H I; [contradiction|]. cbn in H. apply InflowProofs.bind_ok in H. destruct H as (s1 & H1 & H2).
    destruct I as [->|I]; [|exact (IH _ _ H2 I)]. destruct (make_keeps _ _ _ H2) as [new ->]. unfold AttachModel.make_dataset in H1.
    destruct (stored _ _ _) eqn:S.
    - injection H1 as <-. apply stored_spec in S. destruct S as [v S]. exists v. apply in_or_app. now left.
    - apply InflowProofs.bind_ok in H1. destruct H1 as (v & _ & H1). injection H1 as <-. exists v. rewrite <- app_assoc. apply in_or_app. right. now left.
  Qed.
  Lemma make_origin qs : forall st st' t id v, make_all st qs = Ok st' -> In (t, id, v) st' ->
    In (t, id, v) st \/ stored t id st = false /\ exists a q b, qs = a ++ q :: b /\ q_type q = t /\ q_id q = id /\ data_structure show now q = Ok v /\
      forall p, In p a -> ~ (q_type p = t /\ q_id p = id).
  Proof.
    induction qs as [|q qs IH]; intros st st' t id v H I; [injection H as <-; now left|]. cbn in H. apply InflowProofs.bind_ok in H. destruct H as (s1 & H1 & H2).
    destruct (IH _ _ _ _ _ H2 I) as [J|(S & a & q' & b & -> & Eq)].
    - unfold AttachModel.make_dataset in H1. destruct (stored (q_type q) (q_id q) st) eqn:S; [injection H1 as <-; now left|].
      apply InflowProofs.bind_ok in H1. destruct H1 as (v' & W & H1). injection H1 as <-. apply in_app_or in J. destruct J as [J|[J|[]]]; [now left|]. injection J as <- <- <-.
      right. split; [exact S|]. exists [], q, qs. repeat split; try assumption. intros p [].
    - assert (X : stored t id st = false /\ ~ (q_type q = t /\ q_id q = id)).
      { unfold AttachModel.make_dataset in H1. destruct (stored (q_type q) (q_id q) st) eqn:S'.
        - injection H1 as <-. split; [exact S|]. intros [<- <-]. congruence.
        - apply InflowProofs.bind_ok in H1. destruct H1 as (v' & _ & H1). injection H1 as <-. split.
          + destruct (stored t id st) eqn:Z; [|reflexivity]. apply stored_spec in Z. destruct Z as [w Z]. exfalso.
            assert (Y : stored t id (st ++ [(q_type q, q_id q, v')]) = true) by (apply stored_spec; exists w; apply in_or_app; now left). congruence.
          + intros [<- <-]. assert (Y : stored (q_type q) (q_id q) (st ++ [(q_type q, q_id q, v')]) = true) by (apply stored_spec; exists v'; apply in_or_app; right; now left). congruence. }
      right. split; [exact (proj1 X)|]. destruct Eq as (E1 & E2 & E3 & E4). exists (q :: a), q', b. repeat split; try assumption. intros p [<-|P]; [exact (proj2 X)|now apply E4].
  Qed.
  Lemma make_distinct qs : forall st st', NoDup (map fst st) -> make_all st qs = Ok st' -> NoDup (map fst st').
  Proof.
    induction qs as [|q qs IH]; intros st st' N H; [now injection H as <-|]. cbn in H. apply InflowProofs.bind_ok in H. destruct H as (s1 & H1 & H2).
    apply (IH s1); [|exact H2]. unfold AttachModel.make_dataset in H1. destruct (stored (q_type q) (q_id q) st) eqn:S; [now injection H1 as <-|].
    apply InflowProofs.bind_ok in H1. destruct H1 as (v & _ & H1). injection H1 as <-. rewrite map_app. cbn [map fst]. apply ExchangeProofs.nodup_snoc.
    - exact N.
    - intros I. apply in_map_iff in I. destruct I as ([k w] & E & I). cbn [fst] in E. subst k.
      assert (Y : stored (q_type q) (q_id q) st = true) by (apply stored_spec; now exists w). congruence.
  Qed.
End Files.

(** * References *)
Section Written.
  Context (show : pyval -> pystr) (ns key : pystr).
  Definition description_elem (s : pystr) : elem := Elem (qualified ns (lit "common:shortDescription")) [(xml_lang, lit "en")] (cdata s) None [].
  Definition reference_elem (q : request) : elem :=
    Elem (qualified ns key)
      [(lit "type", type_name (q_type q) ++ lit " data set"); (lit "refObjectId", q_id q); (lit "version", first_version);
       (lit "uri", lit "../" ++ folder_name (q_type q) ++ lit "/" ++ q_id q)] None None [description_elem (q_desc q)].
  Lemma reference_emitted q : emit show ns key (reference_dict q) = [reference_elem q].
  Proof. reflexivity. Qed.
  Lemma description_proper s : Forall proper [description_elem s].
  Proof. apply (OutflowProofs.emit_proper show ns (VDict [(lit "@xml:lang", VStr (lit "en")); (ktext, VStr s)]) (lit "common:shortDescription")); reflexivity. Qed.
  Lemma reference_is q : q_id q <> [] -> reference (reference_elem q) (q_id q) [description_elem (q_desc q)].
  Proof.
    intros I. split; [apply description_proper|]. split.
    - exists [lit "type"; lit "refObjectId"; lit "version"; lit "uri"]. split.
      + repeat constructor; try (vm_compute; intuition discriminate).
      + repeat constructor; vm_compute; intuition discriminate.
    - split; [exists (lit "refObjectId"); split; [right; now left|apply OutflowProofs.simple_attr; vm_compute; intuition discriminate]|].
      split; [exact I|]. exact (OutflowProofs.named_local (lit "shortDescription") _ (description_proper (q_desc q))).
  Qed.
  Lemma reference_described q : ~ blank (Some (q_desc q)) -> described [description_elem (q_desc q)] (q_desc q).
  Proof.
    intros B. right. eexists. split; [reflexivity|]. split; [exists (lit "en"); split; reflexivity|]. left. cbn [etext description_elem].
    split; [now apply OutflowProofs.nonblank_some|exact B].
  Qed.
End Written.

(** * Requests *)
Lemma attr_read e d n s : record_element e -> elem2dict e = VDict d -> attribute e n s -> getf (at_ n) d = Some (VStr s).
Proof. intros R Q A. apply (record_attr e d n R Q). now exists s. Qed.
Lemma attr_absent e d n : record_element e -> elem2dict e = VDict d -> (forall s, ~ attribute e n s) -> getf (at_ n) d = None.
Proof. intros R Q N. destruct (getf (at_ n) d) as [v|] eqn:G; [|reflexivity]. apply (record_attr e d n R Q) in G. destruct G as (s & _ & A). destruct (N s A). Qed.
Lemma attr_item_read e d n s : record_element e -> elem2dict e = VDict d -> attribute e n s -> attr_item d n = Ok s.
Proof. intros R Q A. unfold attr_item, AsideModel.item. now rewrite (attr_read e d n s R Q A). Qed.
Definition maybe_text (o : option pystr) : pyval := match o with Some s => VStr s | None => VNone end.
Lemma maybe_text_ok o : text_or_none (maybe_text o).
Proof. destruct o as [s|]; [right; now exists s|now left]. Qed.
Lemma maybe_said o : mail_said (maybe_text o) = said_text o.
Proof. destruct o as [s|]; [reflexivity|]. unfold said_text. now destruct (blank_dec None). Qed.
Lemma attr_none_read e d n o : record_element e -> elem2dict e = VDict d -> maybe_attribute e n o -> attr_none d n = maybe_text o.
Proof. intros R Q M. unfold attr_none. destruct o as [s|]; [now rewrite (attr_read e d n s R Q M)|now rewrite (attr_absent e d n R Q M)]. Qed.
Lemma attr_opt_read e d n o : record_element e -> elem2dict e = VDict d -> maybe_attribute e n o -> attr_opt d (at_ n) = o.
Proof. intros R Q M. unfold attr_opt. destruct o as [s|]; [now rewrite (attr_read e d n s R Q M)|now rewrite (attr_absent e d n R Q M)]. Qed.
Lemma attr_given e d n s : record_element e -> elem2dict e = VDict d -> attribute e n s -> s <> [] -> given d (at_ n) = true.
Proof. intros R Q A N. unfold given. rewrite (attr_read e d n s R Q A). destruct s; [congruence|reflexivity]. Qed.
Definition person (id n : pystr) (mail active : option pyval) : request := Request TContact id n (contact_infos n mail active (lit "Persons")).
Definition cited_source (id r : pystr) (full : option pystr) : request := Request TSource id r (source_infos r full None (lit "Publications and communications")).
Lemma person_is uid e d kid kname kemail i n mail id more active : record_element e -> elem2dict e = VDict d ->
  attribute e kid i -> attribute e kname n -> maybe_attribute e kemail mail -> uid i = Ok id -> more = opt active "active" (fun x => x) ->
  person_request uid d kid kname kemail more = Ok (person id n (Some (maybe_text mail)) active).
Proof.
  intros R Q A1 A2 A3 U ->. unfold person_request. rewrite (attr_item_read e d kid i R Q A1). cbn [bind]. rewrite (attr_item_read e d kname n R Q A2). cbn [bind].
  rewrite (attr_none_read e d kemail mail R Q A3). unfold contact_request. rewrite U. reflexivity.
Qed.

(** * The folder *)
Lemma uuid_length s : is_uuid s -> length s = 36.
Proof. intros (a & b & c & d & e & -> & [A _] & [B _] & [C _] & [D _] & [E _]). rewrite !app_length, A, B, C, D, E. reflexivity. Qed.
Lemma uuid_slash s : is_uuid s -> ~ In (ch "/") s.
Proof.
  intros (a & b & c & d & e & -> & [_ A] & [_ B] & [_ C] & [_ D] & [_ E]) H.
  assert (X : forall l, Forall hexchar l -> ~ In (ch "/") l).
  { intros l F I. rewrite Forall_forall in F. apply F in I. unfold hexchar in I. change (ch "/") with 47%N in I. lia. }
  assert (Y : ~ In (ch "/") (lit "-")) by (vm_compute; intuition discriminate).
  repeat (apply in_app_or in H; destruct H as [H|H]; [first [now apply Y|now apply (X _ A)|now apply (X _ B)|now apply (X _ C)|now apply (X _ D)|now apply (X _ E)]|]).
  now apply (X _ E).
Qed.
Lemma folder_length t st n k : Forall (fun f => is_uuid (snd (fst f))) st -> In (n, k) (folder_of t st) -> length n = 40.
Proof.
  intros F I. unfold folder_of in I. apply in_map_iff in I. destruct I as (f & E & I). apply filter_In in I.
  rewrite Forall_forall in F. pose proof (uuid_length _ (F f (proj1 I))) as L. apply (f_equal (fun p => length (fst p))) in E. cbn [fst] in E. rewrite <- E, app_length. exact (f_equal (fun z => z + 4) L).
Qed.
Lemma folder_file t st n : Forall (fun f => is_uuid (snd (fst f))) st -> length n <> 40 -> is_file (folder_of t st) n = false.
Proof.
  intros F N. unfold is_file. destruct (existsb _ _) eqn:E; [|reflexivity]. apply existsb_exists in E. destruct E as ([m k] & I & E). destruct k; [|discriminate].
  apply str_eqb_eq in E. subst m. exfalso. exact (N (folder_length t st n File F I)).
Qed.
Lemma file_found t st q v : Forall (fun f => is_uuid (snd (fst f))) st -> In (t, q_id q, v) st -> t = q_type q ->
  get_file (Some (folder_of t st)) (reference_of q) = Some (q_id q ++ lit ".xml").
Proof.
  intros F I T. pose proof F as F'. rewrite Forall_forall in F'. pose proof (F' _ I) as U. cbn [fst snd] in U. pose proof (uuid_length _ U) as L. unfold get_file, options. cbn [ExchangeModel.r_uri ExchangeModel.r_id ExchangeModel.r_version reference_of or_empty].
  assert (S : last (split (lit "/") (lit "../" ++ folder_name (q_type q) ++ lit "/" ++ q_id q)) [] = q_id q).
  { replace (lit "../" ++ folder_name (q_type q) ++ lit "/" ++ q_id q) with (join (lit "/") [lit ".."; folder_name (q_type q); q_id q]) by (destruct (q_type q); reflexivity).
    change (lit "/") with [ch "/"]. rewrite ReviewProofs.split_char_of_join; [reflexivity|discriminate|]. repeat constructor.
    - vm_compute; intuition discriminate.
    - destruct (q_type q); vm_compute; intuition discriminate.
    - now apply uuid_slash. }
  rewrite S. cbn [find]. rewrite (folder_file t st (q_id q) F) by lia.
  match goal with |- context [is_file _ ?n] => rewrite (folder_file t st n F) by (rewrite app_length, L; vm_compute; discriminate) end.
  assert (X : is_file (folder_of t st) (q_id q ++ lit ".xml") = true); [|now rewrite X].
  unfold is_file. apply existsb_exists. exists (q_id q ++ lit ".xml", File). split; [|apply str_eqb_refl]. unfold folder_of. apply in_map_iff.
  exists (t, q_id q, v). split; [reflexivity|]. apply filter_In. split; [exact I|]. now destruct t.
Qed.

(** * Other parts of the documents *)
Definition kactive : pystr := lit "/contactDataSet/contactInformation/dataSetInformation/contactDescriptionOrComment".
Definition id_key (t : data_type) : pystr := lit "/" ++ type_name t ++ lit "DataSet/" ++ type_name t ++ lit "Information/dataSetInformation/UUID".
Definition version_key (t : data_type) : pystr := lit "/" ++ type_name t ++ lit "DataSet/administrativeInformation/publicationAndOwnership/dataSetVersion".
Section Parts.
  Context (show : pyval -> pystr) (now : pystr) (id version : pystr).
  Lemma read_active n mail active class : match mail with Some v => text_or_none v | None => True end ->
    read [kactive] (doc_of show (contact_value show now id version n mail active class))
    = match active with Some v => [(kactive, elem2dict (part_leaf TContact "contactDescriptionOrComment" [] (lit "Active author?: " ++ str_of show v)))] | None => [] end.
  Proof. intros H. destruct mail as [v|]; [destruct H as [->|[s ->]]; [|destruct s as [|c s]]|]; destruct active; cbv -[elem2dict str_of]; reflexivity. Qed.
  Lemma contact_id n mail active class : match mail with Some v => text_or_none v | None => True end -> id <> [] -> version <> [] ->
    read [id_key TContact; version_key TContact] (doc_of show (contact_value show now id version n mail active class))
    = [(id_key TContact, elem2dict (part_leaf TContact "common:UUID" [] id)); (version_key TContact, elem2dict (part_leaf TContact "common:dataSetVersion" [] version))].
  Proof.
    intros H I V. destruct id as [|i1 ir]; [congruence|]. destruct version as [|v1 vr]; [congruence|]. clear I V.
    destruct mail as [v|]; [destruct H as [->|[s ->]]; [|destruct s as [|c s]]|]; destruct active; cbv -[elem2dict str_of]; reflexivity.
  Qed.
  Lemma source_id r full link class : id <> [] -> version <> [] ->
    read [id_key TSource; version_key TSource] (doc_of show (source_value now id version r full link class))
    = [(id_key TSource, elem2dict (part_leaf TSource "common:UUID" [] id)); (version_key TSource, elem2dict (part_leaf TSource "common:dataSetVersion" [] version))].
  Proof. intros I V. destruct id as [|i1 ir]; [congruence|]. destruct version as [|v1 vr]; [congruence|]. clear I V. destruct full as [[|c s]|], link; cbv -[elem2dict str_of]; reflexivity. Qed.
End Parts.
