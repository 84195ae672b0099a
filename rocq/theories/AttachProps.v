(** C157-C163: contacts and sources on the way from EcoSpold2 to ILCD and back. *)
From Coq Require Import Ascii String List Bool Arith NArith ZArith Lia.
From Verif Require Import PyBase PyBaseFacts PyValues ValidatorsSpec MultiLangModel DotDictModel UtilsModel UtilsSpec UtilsProps
  XmlModel XmlSpec XmlProofs XmlProps KeysModel KeysSpec KeysProofs HandleModel HandleSpec HandleProofs TemplateModel ExchangeModel ExchangeSpec ExchangeProps ReferModel ReferSpec ReferProofs ReferProps
  AsideModel AsideSpec AsideProofs OutflowModel AttachModel AttachSpec AttachProofs.
From Verif Require OutflowProofs AsideProps InflowProofs ExchangeProofs.
Import ListNotations.
Local Open Scope string_scope.
Local Open Scope list_scope.

(** The element [y] of the process is the reference of the request [q]. *)
Definition refers (show : pyval -> pystr) (y : elem) (q : request) : Prop := exists ns key, emit show ns key (reference_dict q) = [y].
(** [doc] is the file for the type [t] and the identifier [id], after the requests [qs] of one conversion. *)
Definition attached (show : pyval -> pystr) (now : pystr) (qs : list request) (t : data_type) (id : pystr) (doc : elem) : Prop :=
  exists st v, make_all show now [] qs = Ok st /\ In (t, id, v) st /\ unparse show v = Ok doc.
(** [q] is the first request for its data set. *)
Definition first_asked (qs : list request) (q : request) : Prop :=
  exists a b, qs = a ++ q :: b /\ forall p, In p a -> ~ (q_type p = q_type q /\ q_id p = q_id q).
(** [q] is made for a person named in [e]. *)
Inductive asks_person (uid : pystr -> result pystr) (e : elem) (q : request) (i n : pystr) (mail : option pystr) : Prop :=
| by_entry d : elem2dict e = VDict d -> names_person e "personId" "personName" "personEmail" i n mail -> entering uid d = Ok q -> asks_person uid e q i n mail
| by_generator d : elem2dict e = VDict d -> names_person e "personId" "personName" "personEmail" i n mail -> generating uid d = Ok q -> asks_person uid e q i n mail
| by_review d : elem2dict e = VDict d -> names_person e "reviewerId" "reviewerName" "reviewerEmail" i n mail -> reviewing uid d = Ok q -> asks_person uid e q i n mail.
(** [q] is made for the company named in [e]. *)
Definition asks_company (uid : pystr -> result pystr) (e : elem) (q : request) (i : pystr) (code : option pystr) : Prop :=
  exists d, elem2dict e = VDict d /\ record_element e /\ attribute e "companyId" i /\ i <> [] /\ maybe_attribute e "companyCode" code /\ owning uid d = Ok [q].
(** [q] is made for the source of an exchange ... *)
Definition asks_citation (uid : pystr -> result pystr) (e : elem) (q : request) (i : pystr) (author year pages : option pystr) : Prop :=
  exists d, elem2dict e = VDict d /\ names_source e "sourceId" "sourceFirstAuthor" "sourceYear" i author year /\ maybe_attribute e "pageNumbers" pages /\ citing uid d = Ok [q].
(** ... or for the publication of the data set *)
Definition asks_publication (uid : pystr -> result pystr) (e : elem) (q : request) (i : pystr) (author year : option pystr) : Prop :=
  exists d, elem2dict e = VDict d /\ names_source e "publishedSourceId" "publishedSourceFirstAuthor" "publishedSourceYear" i author year /\
    named_kids (lit "pageNumbers") (ekids e) [] /\ publishing uid d = Ok [q].

Lemma make_all_app show now a b st : make_all show now st (a ++ b) = bind (make_all show now st a) (fun s => make_all show now s b).
Proof. revert st. induction a as [|q a IH]; intros st; [reflexivity|]. cbn. destruct (make_dataset show now st q); [apply IH|reflexivity]. Qed.
(** the first request determines the file *)
Lemma attached_first show now qs q doc : first_asked qs q -> attached show now qs (q_type q) (q_id q) doc ->
  exists v, data_structure show now q = Ok v /\ unparse show v = Ok doc.
Proof.
  intros (a & b & -> & N) (st & v & M & I & U). exists v. split; [|exact U].
  destruct (make_origin show now _ _ _ _ _ _ M I) as [[]|(_ & a' & q' & b' & E & T & D & W & N')]. enough (q' = q) by now subst q'.
  clear -E T D N N'. revert a' E N'. induction a as [|p a IH]; intros [|p' a'] E N'.
  - injection E as E _. exact (eq_sym E).
  - injection E as E _. subst p'. destruct (N' q (or_introl eq_refl)). now split.
  - injection E as E _. subst q'. destruct (N p (or_introl eq_refl)). now split.
  - injection E as E1 E2. apply (IH (fun p0 I => N p0 (or_intror I)) a' E2). intros p0 I. now apply N'; right.
Qed.
Lemma person_request_is uid e q i n mail id : asks_person uid e q i n mail -> uid i = Ok id -> exists active, q = person id n (Some (maybe_text mail)) active.
Proof.
  intros [d Q (R & A1 & A2 & A3) E|d Q (R & A1 & A2 & A3) E|d Q (R & A1 & A2 & A3) E] U.
  - exists (Some (attr_none d "isActiveAuthor")). unfold entering in E. rewrite (person_is uid e d _ _ _ i n mail id [(lit "active", attr_none d "isActiveAuthor")] (Some (attr_none d "isActiveAuthor")) R Q A1 A2 A3 U eq_refl) in E. injection E as <-. reflexivity.
  - exists None. unfold generating in E. rewrite (person_is uid e d _ _ _ i n mail id [] None R Q A1 A2 A3 U eq_refl) in E. injection E as <-. reflexivity.
  - exists None. unfold reviewing in E. rewrite (person_is uid e d _ _ _ i n mail id [] None R Q A1 A2 A3 U eq_refl) in E. injection E as <-. reflexivity.
Qed.
Lemma contact_cases k cf : of_contacts k cf -> cf = ReferModel.person \/ cf = company.
Proof. unfold of_contacts, referring_of. cbn [In]. intros H. repeat destruct H as [H|H]; try discriminate H; try contradiction; injection H as _ <-; auto. Qed.
Lemma said_text_ok o : said o (said_text o).
Proof. unfold said, said_text. destruct (blank_dec o) as [B|B]; [now left|right]. split; [exact B|]. destruct o as [s|]; [reflexivity|now destruct B]. Qed.
Lemma said_nonblank s : ~ blank (Some s) -> said_text (Some s) = s.
Proof. intros B. unfold said_text. destruct (blank_dec (Some s)); [contradiction|reflexivity]. Qed.
Lemma contact_result show now cid cf id n mail active class y doc q :
  q_id q = id -> q_desc q = n -> id <> [] -> ~ blank (Some n) -> match mail with Some v => text_or_none v | None => True end ->
  refers show y q -> forall id' n' v, n' = n \/ ~ blank (Some n') -> contact_structure show now id' first_version (contact_infos n' mail active class) = Ok v -> unparse show v = Ok doc ->
  get_contact cid cf (elem2dict y) (Some doc)
    = Ok (set_first cid cf id n ++ [(cf_id cf, VStr (cid id))] ++
          match cf_email cf with Some f => [(f, VStr (match mail with Some v => mail_said v | None => [] end))] | None => [] end,
          Some (MasterContact (cid id) (VStr n') (VStr (match mail with Some v => mail_said v | None => [] end)))).
Proof.
  intros <- <- I B M (ns & key & E) id' n' v Hn V U. rewrite reference_emitted in E. injection E as <-. rewrite contact_made in V. injection V as <-. rewrite contact_unparsed in U. injection U as <-.
  assert (B' : ~ blank (Some n')) by (destruct Hn as [->|Hn]; assumption).
  rewrite (contact_back show now id' first_version cid cf _ _ _ _ n' mail active class (reference_is show ns key q I) (reference_described ns q B) M).
  now rewrite (said_nonblank n' B').
Qed.
Ltac last_at n := match goal with |- finally ?l _ _ => exists (firstn n l), (skipn (S n) l); split; [reflexivity|cbn [skipn app map fst In]; vm_compute; intuition discriminate] end.

(** * C157: persons and companies *)
(** A person comes back with identifier, name and email address, if no other reference of the data set asked for the same person before. *)
Theorem C157_person_returns_partial :
  forall uid cid show now e q i n mail id qs k cf y doc, asks_person uid e q i n mail -> uid i = Ok id -> id <> [] -> cid id = i -> ~ blank (Some n) ->
    refers show y q -> first_asked qs q -> attached show now qs TContact id doc -> of_contacts k cf ->
    exists l m s, get_contact cid cf (elem2dict y) (Some doc) = Ok (l, Some m) /\ said mail s /\ mc_id m = i /\ mc_name m = VStr n /\ mc_email m = VStr s /\
      finally l (cf_id cf) (VStr i) /\ finally l (cf_name cf) (VStr n) /\ match cf_email cf with Some f => finally l f (VStr s) | None => True end.
Proof.
  intros uid cid show now e q i n mail id qs k cf y doc A U I C B Y F D K. destruct (person_request_is uid e q i n mail id A U) as [active ->].
  destruct (attached_first show now qs _ doc F D) as (v & V & W).
  pose proof (contact_result show now cid cf id n (Some (maybe_text mail)) active (lit "Persons") y doc (person id n (Some (maybe_text mail)) active) eq_refl eq_refl I B (maybe_text_ok mail) Y id n v (or_introl eq_refl) V W) as G.
  cbn iota in G. rewrite (maybe_said mail) in G. eexists. eexists. exists (said_text mail). split; [exact G|]. split; [apply said_text_ok|]. cbn [mc_id mc_name mc_email]. rewrite C.
  destruct (contact_cases k cf K) as [->| ->]; cbn [cf_id cf_name cf_email ReferModel.person company set_first app]; repeat split.
  - last_at 3.
  - last_at 1.
  - last_at 4.
  - last_at 2.
  - last_at 1.
Qed.
Print Assumptions C157_person_returns_partial.
(** With the identifiers of this program: encrypted on the way to ILCD, and decrypted with the same key on the way back. *)
Theorem C157_identifier_returns_partial :
  forall aes key show now e q i n mail qs k cf y doc,
    let uid := fun f => uuid_from_uuid aes f key (lit "flow_conversion_1") in
    let cid := fun i => match uuid_from_uuid aes i key (lit "flow_conversion_2") with Ok f => f | Err _ => [] end in
    byte_valued aes -> is_uuid i -> asks_person uid e q i n mail -> ~ blank (Some n) -> refers show y q -> first_asked qs q ->
    attached show now qs TContact (q_id q) doc -> of_contacts k cf ->
    exists l m, get_contact cid cf (elem2dict y) (Some doc) = Ok (l, Some m) /\ mc_id m = i /\ mc_name m = VStr n /\ finally l (cf_id cf) (VStr i).
Proof.
  intros aes key show now e q i n mail qs k cf y doc uid cid Ab Ui A B Y F D K. destruct (proj1 (C21_conversion_reversible aes key i Ab Ui)) as (w & E1 & E2).
  destruct (person_request_is uid e q i n mail w A E1) as [active Eq].
  assert (N : w <> []). { intros ->. vm_compute in E2. discriminate. }
  assert (C : cid w = i) by (unfold cid; now rewrite E2). rewrite Eq in D. cbn [q_id person] in D.
  destruct (C157_person_returns_partial uid cid show now e q i n mail w qs k cf y doc A E1 N C B Y F D K) as (l & m & s & H1 & _ & H2 & H3 & _ & H4 & _).
  exists l, m. now repeat split.
Qed.
Print Assumptions C157_identifier_returns_partial.
Lemma company_request_is uid e q i code id : asks_company uid e q i code -> uid i = Ok id ->
  q = Request TContact id (match code with Some c => c | None => lit "Company" end) (contact_infos (match code with Some c => c | None => lit "Company" end) None None (lit "Organisations")).
Proof.
  intros (d & Q & R & A & N & M & E) U. unfold owning in E. rewrite (attr_given e d _ i R Q A N), (attr_item_read e d _ i R Q A) in E. cbn [bind] in E.
  rewrite (attr_opt_read e d _ code R Q M) in E. unfold contact_request in E. rewrite U in E. cbn [bind] in E. injection E as <-. reflexivity.
Qed.
Lemma company_result uid cid show now e q i code id qs y doc : asks_company uid e q i code -> uid i = Ok id -> id <> [] -> cid id = i ->
  let n := match code with Some c => c | None => lit "Company" end in ~ blank (Some n) ->
  refers show y q -> first_asked qs q -> attached show now qs TContact id doc ->
  exists l m, get_contact cid company (elem2dict y) (Some doc) = Ok (l, Some m) /\ mc_id m = i /\ mc_name m = VStr n /\
    finally l (lit "companyId") (VStr i) /\ finally l (lit "companyCode") (VStr n).
Proof.
  intros A U I C n B Y F D. pose proof (company_request_is uid e q i code id A U) as ->. fold n in Y, F. destruct (attached_first show now qs _ doc F D) as (v & V & W).
  pose proof (contact_result show now cid company id n None None (lit "Organisations") y doc (Request TContact id n (contact_infos n None None (lit "Organisations"))) eq_refl eq_refl I B Logic.I Y id n v (or_introl eq_refl) V W) as G.
  eexists. eexists. split; [exact G|]. cbn [mc_id mc_name]. rewrite C. cbn [cf_id cf_name cf_email company set_first app]. repeat split; [last_at 2|last_at 1].
Qed.
Theorem C157_company_returns_partial :
  forall uid cid show now e q i c id qs y doc, asks_company uid e q i (Some c) -> uid i = Ok id -> id <> [] -> cid id = i -> ~ blank (Some c) ->
    refers show y q -> first_asked qs q -> attached show now qs TContact id doc ->
    exists l m, get_contact cid company (elem2dict y) (Some doc) = Ok (l, Some m) /\ mc_id m = i /\ mc_name m = VStr c /\
      finally l (lit "companyId") (VStr i) /\ finally l (lit "companyCode") (VStr c).
Proof.
  intros uid cid show now e q i c id qs y doc A U I C B Y F D. exact (company_result uid cid show now e q i (Some c) id qs y doc A U I C B Y F D).
Qed.
Print Assumptions C157_company_returns_partial.
(** A company without a code comes back with the code Company. *)
Theorem C157_company_without_code_refuted :
  forall uid cid show now e q i id qs y doc, asks_company uid e q i None -> uid i = Ok id -> id <> [] -> cid id = i ->
    refers show y q -> first_asked qs q -> attached show now qs TContact id doc ->
    exists l m, get_contact cid company (elem2dict y) (Some doc) = Ok (l, Some m) /\ finally l (lit "companyCode") (VStr (lit "Company")).
Proof.
  intros uid cid show now e q i id qs y doc A U I C Y F D.
  assert (B : ~ blank (Some (lit "Company"))) by (intros B; inversion B; discriminate).
  destruct (company_result uid cid show now e q i None id qs y doc A U I C B Y F D) as (l & m & H1 & _ & _ & _ & H2). now exists l, m.
Qed.
Print Assumptions C157_company_without_code_refuted.

(** * C158: one file for each data set *)
(** what the conversion asks for *)
Definition asked (uid : pystr -> result pystr) (random_id : Z -> pystr) (q : request) : Prop :=
  (exists d, entering uid d = Ok q) \/ (exists d, reviewing uid d = Ok q) \/ (exists d l, generator_requests uid d = Ok l /\ In q l) \/
  (exists d l, citing uid d = Ok l /\ In q l) \/ (exists f link, image random_id f link = Ok q) \/ (exists link, icon random_id link = Ok q) \/ (exists db, q = original db).
Definition well_made (q : request) : Prop :=
  (q_type q = TContact /\ exists n mail active class, q_info q = contact_infos n mail active class) \/
  (q_type q = TSource /\ exists r full link class, q_info q = source_infos r full link class).
Lemma person_well uid d a b c active more q : more = opt active "active" (fun x => x) -> person_request uid d a b c more = Ok q -> well_made q.
Proof.
  intros -> E. unfold person_request in E. apply InflowProofs.bind_ok in E. destruct E as (i & _ & E). apply InflowProofs.bind_ok in E. destruct E as (n & _ & E).
  unfold contact_request in E. apply InflowProofs.bind_ok in E. destruct E as (id & _ & E). injection E as <-. left. split; [reflexivity|].
  exists n, (Some (attr_none d c)), active, (lit "Persons"). reflexivity.
Qed.
Lemma asked_well uid random_id q : asked uid random_id q -> well_made q.
Proof.
  assert (P : forall desc what link q', picture random_id desc what link = Ok q' -> well_made q').
  { intros desc what link q' E. unfold picture in E. apply InflowProofs.bind_ok in E. destruct E as (id & _ & E). injection E as <-. right. split; [reflexivity|].
    exists what, None, (Some link), (lit "Images"). reflexivity. }
  assert (S : forall i r full q', source_request uid i r (opt full "complete_reference" VStr) = Ok q' -> well_made q').
  { intros i r full q' E. unfold source_request in E. apply InflowProofs.bind_ok in E. destruct E as (id & _ & E). injection E as <-. right. split; [reflexivity|].
    exists r, full, None, (lit "Publications and communications"). reflexivity. }
  intros [(d & E)|[(d & E)|[(d & l & E & I)|[(d & l & E & I)|[(f & link & E)|[(link & E)|(db & ->)]]]]]].
  - exact (person_well uid d _ _ _ (Some (attr_none d "isActiveAuthor")) _ q eq_refl E).
  - exact (person_well uid d _ _ _ None _ q eq_refl E).
  - unfold generator_requests in E. apply InflowProofs.bind_ok in E. destruct E as (g & G & E). apply InflowProofs.bind_ok in E. destruct E as (p & Hp & E).
    apply InflowProofs.bind_ok in E. destruct E as (o & Ho & E). injection E as <-. change (g :: g :: p ++ o) with ([g; g] ++ p ++ o) in I. apply in_app_or in I. destruct I as [I|I].
    + assert (g = q) as <- by (destruct I as [I|[I|[]]]; exact I). exact (person_well uid d _ _ _ None _ g eq_refl G).
    + apply in_app_or in I. destruct I as [I|I].
      * unfold publishing in Hp. destruct (given _ _); [|injection Hp as <-; contradiction]. apply InflowProofs.bind_ok in Hp. destruct Hp as (i & _ & Hp).
        apply InflowProofs.bind_ok in Hp. destruct Hp as (q' & E & Hp). injection Hp as <-. destruct I as [<-|[]]. exact (S _ _ (Some _) q' E).
      * unfold owning in Ho. destruct (given _ _); [|injection Ho as <-; contradiction]. apply InflowProofs.bind_ok in Ho. destruct Ho as (i & _ & Ho).
        apply InflowProofs.bind_ok in Ho. destruct Ho as (q' & E & Ho). injection Ho as <-. destruct I as [<-|[]]. unfold contact_request in E.
        apply InflowProofs.bind_ok in E. destruct E as (id & _ & E). injection E as <-. left. split; [reflexivity|]. eexists. exists None, None, (lit "Organisations"). reflexivity.
  - unfold citing in E. destruct (given _ _); [|injection E as <-; contradiction]. apply InflowProofs.bind_ok in E. destruct E as (i & _ & E).
    apply InflowProofs.bind_ok in E. destruct E as (q' & E' & E). injection E as <-. destruct I as [<-|[]]. exact (S _ _ None q' E').
  - exact (P _ _ _ _ E).
  - exact (P _ _ _ _ E).
  - right. split; [reflexivity|]. exists (lit "ecoinvent Database"), None, None, (lit "Databases"). reflexivity.
Qed.
(** Any number of references can be made: for each there is a file, and each file is the one of the first reference to its data set. *)
Theorem C158_written_once :
  forall uid random_id show now qs, Forall (asked uid random_id) qs ->
    exists st, make_all show now [] qs = Ok st /\ NoDup (map fst st) /\
      (forall q, In q qs -> exists v, In (q_type q, q_id q, v) st) /\
      (forall t id v, In (t, id, v) st -> (exists doc, unparse show v = Ok doc) /\
         exists q, first_asked qs q /\ q_type q = t /\ q_id q = id /\ data_structure show now q = Ok v).
Proof.
  intros uid random_id show now qs F.
  assert (X : Forall (fun q => exists v, data_structure show now q = Ok v /\ exists doc, unparse show v = Ok doc) qs).
  { eapply Forall_impl; [|exact F]. cbn beta. intros q A. destruct (asked_well uid random_id q A) as [[T (n & mail & active & class & E)]|[T (r & full & link & class & E)]]; unfold data_structure; rewrite T, E.
    - rewrite contact_made. eexists. split; [reflexivity|]. rewrite contact_unparsed. now eexists.
    - rewrite source_made. eexists. split; [reflexivity|]. rewrite (source_unparsed show). now eexists. }
  assert (M : forall st, exists st', make_all show now st qs = Ok st').
  { clear F. induction X as [|q qs (v & V & _) X IH]; intros st; [now exists st|]. cbn. unfold make_dataset. destruct (stored _ _ _); [apply IH|]. rewrite V. cbn [bind]. apply IH. }
  destruct (M []) as [st Es]. exists st. split; [exact Es|]. split; [exact (make_distinct show now qs [] st (NoDup_nil _) Es)|]. split; [intros q I; exact (make_has show now qs q [] st Es I)|].
  intros t id v I. destruct (make_origin show now _ _ _ _ _ _ Es I) as [[]|(_ & a & q & b & E & T & D & W & N)].
  split.
  - rewrite Forall_forall in X. destruct (X q) as (v' & V & doc & Hd); [rewrite E; apply in_or_app; right; now left|]. rewrite W in V. injection V as <-. now exists doc.
  - exists q. split; [|now repeat split]. exists a, b. split; [exact E|]. subst t id. exact N.
Qed.
Print Assumptions C158_written_once.
(** So a person who is named a second time comes back with the email address given the first time: none, if there was none. *)
Theorem C158_email_refuted :
  forall uid cid show now e1 e2 q1 q2 i n1 n2 mail id qs y doc, asks_person uid e1 q1 i n1 None -> asks_person uid e2 q2 i n2 (Some mail) -> uid i = Ok id -> id <> [] ->
    ~ blank (Some n1) -> ~ blank (Some n2) -> refers show y q2 -> first_asked qs q1 -> attached show now qs TContact id doc ->
    exists l m, get_contact cid ReferModel.person (elem2dict y) (Some doc) = Ok (l, Some m) /\ mc_email m = VStr [] /\ finally l (lit "personEmail") (VStr []) /\
      mc_name m = VStr n1 /\ finally l (lit "personName") (VStr n2).
Proof.
  intros uid cid show now e1 e2 q1 q2 i n1 n2 mail id qs y doc A1 A2 U I B1 B2 Y F D.
  destruct (person_request_is uid e1 q1 i n1 None id A1 U) as [c1 ->]. destruct (person_request_is uid e2 q2 i n2 (Some mail) id A2 U) as [c2 ->].
  destruct (attached_first show now qs _ doc F D) as (v & V & W).
  pose proof (contact_result show now cid ReferModel.person id n2 (Some (maybe_text None)) c1 (lit "Persons") y doc (person id n2 (Some (maybe_text (Some mail))) c2) eq_refl eq_refl I B2 (maybe_text_ok None) Y id n1 v (or_intror B1) V W) as G.
  eexists. eexists. split; [exact G|]. cbn [mc_email mc_name]. cbn [cf_id cf_name cf_email ReferModel.person set_first app]. repeat split; [last_at 4|last_at 1].
Qed.
Print Assumptions C158_email_refuted.

(** * C159: sources *)
Lemma citation_request_is uid e q i author year pages id : asks_citation uid e q i author year pages -> uid i = Ok id ->
  q = cited_source id (source_short_ref author year pages) None.
Proof.
  intros (d & Q & (R & A & N & Ma & My) & Mp & E) U. unfold citing in E. rewrite (attr_given e d _ i R Q A N), (attr_item_read e d _ i R Q A) in E. cbn [bind] in E.
  rewrite (attr_opt_read e d _ author R Q Ma), (attr_opt_read e d _ year R Q My), (attr_opt_read e d _ pages R Q Mp) in E.
  unfold source_request in E. rewrite U in E. cbn [bind] in E. injection E as <-. reflexivity.
Qed.
Lemma publication_request_is uid e q i author year id : asks_publication uid e q i author year -> uid i = Ok id ->
  q = cited_source id (source_short_ref author year None) (Some (source_short_ref author year None)).
Proof.
  intros (d & Q & (R & A & N & Ma & My) & Kp & E) U. unfold publishing in E. rewrite (attr_given e d _ i R Q A N), (attr_item_read e d _ i R Q A) in E. cbn [bind] in E.
  assert (X : xml_name (lit "pageNumbers")) by (repeat split; try discriminate; vm_compute; intuition discriminate).
  assert (P : attr_opt d (lit "pageNumbers") = None) by (unfold attr_opt; now rewrite (InflowProofs.kids_get e d "pageNumbers" [] R Q X Kp)).
  rewrite (attr_opt_read e d _ author R Q Ma), (attr_opt_read e d _ year R Q My), P in E.
  unfold source_request in E. rewrite U in E. cbn [bind] in E. injection E as <-. reflexivity.
Qed.
Lemma early_prefix (p r a b : pystr) c : p ++ r = a ++ c :: b -> ~ In c p -> exists r', a = p ++ r'.
Proof.
  revert a. induction p as [|x p IH]; intros a E N; [now exists a|]. destruct a as [|y a].
  - injection E as E _. subst x. destruct N. now left.
  - injection E as <- E. destruct (IH a E (fun H => N (or_intror H))) as [r' ->]. now exists r'.
Qed.
Lemma cited_regular a rest : ~ image_text a -> kind_of false (a ++ ch "," :: rest) = KRegular.
Proof.
  intros N. apply kind_regular. split; [|split; [|reflexivity]].
  - intros [r E]. destruct (early_prefix (lit "Image URL from ") r a rest (ch ",") (eq_sym E)) as [r' ->]; [vm_compute; intuition discriminate|]. apply N. now exists r'.
  - unfold icon_text. intros E. assert (X : In (ch ",") (lit "Dataset Icon")) by (rewrite <- E; apply in_or_app; right; now left). vm_compute in X. intuition discriminate.
Qed.
Lemma cited_nonblank a rest : ~ blank (Some (a ++ ch "," :: rest)).
Proof. cbn [blank]. intros B. rewrite Forall_forall in B. assert (X : is_space (ch ",") = true) by (apply B, in_or_app; right; now left). discriminate X. Qed.
Lemma dated_ref a y p : exists rest, source_short_ref (Some a) (Some y) p = a ++ ch "," :: rest.
Proof. destruct p as [p|]; eexists; cbn [source_short_ref]; reflexivity. Qed.
Lemma source_result_is show now cid fs id r full q y doc : q_id q = id -> q_type q = TSource -> id <> [] -> ~ blank (Some (q_desc q)) -> kind_of false (q_desc q) = KRegular -> In KRegular fs ->
  ~ blank (Some r) -> match full with Some t => ~ blank (Some t) | None => True end ->
  refers show y q -> forall id' v class, source_structure now id' first_version (source_infos r full None class) = Ok v -> unparse show v = Ok doc ->
  get_source cid fs false (elem2dict y) (Some doc) = bind (read_citation (match full with Some t => t | None => r end) r) (fun c => Ok (SCited (cid id) c)).
Proof.
  intros <- T I B K F Br Bf (ns & key & E) id' v class V U. rewrite reference_emitted in E. injection E as <-. rewrite source_made in V. injection V as <-. rewrite (source_unparsed show) in U. injection U as <-.
  rewrite (source_back show now id' first_version cid fs _ _ _ _ r full None class (reference_is show ns key q I) (reference_described ns q B) K F Bf). now rewrite (said_nonblank r Br).
Qed.
(** what a citation must be like to be read back (C98) *)
Definition citable (author : pystr) (pages : option pystr) : Prop :=
  trimmed author /\ ExchangeSpec.one_line author /\ ~ image_text author /\
  match pages with Some p => trimmed p /\ ExchangeSpec.one_line p /\ ~ page_mark (32%N :: p) | None => ~ page_mark author end.
Lemma citable_read a y p name : citable a p -> is_year y -> read_citation (source_short_ref (Some a) (Some y) p) name = Ok (Cited a (Some y) p).
Proof.
  intros (T & O & _ & H) Y. destruct p as [p|].
  - destruct H as (Tp & Op & Hp). exact (proj1 (C98_sources_read_back_partial a y p T O Y Tp Op) Hp name).
  - assert (Te : trimmed []) by reflexivity. assert (Oe : ExchangeSpec.one_line []) by (intros []). exact (proj1 (proj2 (C98_sources_read_back_partial a y [] T O Y Te Oe)) H name).
Qed.
(** The source of an exchange, with author, year and maybe pages, comes back, if no other reference of the data set asked for the same source before ... *)
Theorem C159_citation_returns_partial :
  forall uid cid show now e q i a yr pages id qs fs y doc, asks_citation uid e q i (Some a) (Some yr) pages -> uid i = Ok id -> id <> [] -> cid id = i ->
    citable a pages -> is_year yr -> refers show y q -> first_asked qs q -> attached show now qs TSource id doc -> In KRegular fs ->
    get_source cid fs false (elem2dict y) (Some doc) = Ok (SCited i (Cited a (Some yr) pages)).
Proof.
  intros uid cid show now e q i a yr pages id qs fs y doc A U I C Ct Yr Y F D K. pose proof (citation_request_is uid e q i _ _ _ id A U) as ->.
  destruct (attached_first show now qs _ doc F D) as (v & V & W). destruct (dated_ref a yr pages) as [rest Rr]. pose proof Ct as (_ & _ & Ni & _).
  assert (B : ~ blank (Some (source_short_ref (Some a) (Some yr) pages))) by (rewrite Rr; apply cited_nonblank).
  assert (Kr : kind_of false (source_short_ref (Some a) (Some yr) pages) = KRegular) by (rewrite Rr; now apply cited_regular).
  rewrite (source_result_is show now cid fs id (source_short_ref (Some a) (Some yr) pages) None (cited_source id (source_short_ref (Some a) (Some yr) pages) None) y doc eq_refl eq_refl I B Kr K B Logic.I Y id v _ V W).
  cbv iota. rewrite (citable_read a yr pages _ Ct Yr). cbn [bind]. now rewrite C.
Qed.
Print Assumptions C159_citation_returns_partial.
(** ... and so does the publication; its pages are not written (C98). *)
Theorem C159_publication_returns_partial :
  forall uid cid show now e q i a yr id qs fs y doc, asks_publication uid e q i (Some a) (Some yr) -> uid i = Ok id -> id <> [] -> cid id = i ->
    citable a None -> is_year yr -> refers show y q -> first_asked qs q -> attached show now qs TSource id doc -> In KRegular fs ->
    get_source cid fs false (elem2dict y) (Some doc) = Ok (SCited i (Cited a (Some yr) None)).
Proof.
  intros uid cid show now e q i a yr id qs fs y doc A U I C Ct Yr Y F D K. pose proof (publication_request_is uid e q i _ _ id A U) as ->.
  destruct (attached_first show now qs _ doc F D) as (v & V & W). destruct (dated_ref a yr None) as [rest Rr]. pose proof Ct as (_ & _ & Ni & _). set (r := source_short_ref (Some a) (Some yr) None) in *.
  assert (B : ~ blank (Some r)) by (rewrite Rr; apply cited_nonblank).
  assert (Kr : kind_of false r = KRegular) by (rewrite Rr; now apply cited_regular).
  rewrite (source_result_is show now cid fs id r (Some r) (cited_source id r (Some r)) y doc eq_refl eq_refl I B Kr K B B Y id v _ V W).
  cbv iota. unfold r. rewrite (citable_read a yr None _ Ct Yr). cbn [bind]. now rewrite C.
Qed.
Print Assumptions C159_publication_returns_partial.
(** Two exchanges that cite a source with other pages: both come back with the pages of the first. *)
Theorem C159_pages_refuted :
  forall uid cid show now e1 e2 q1 q2 i a yr p1 p2 id qs fs y doc, asks_citation uid e1 q1 i (Some a) (Some yr) p1 -> asks_citation uid e2 q2 i (Some a) (Some yr) p2 ->
    uid i = Ok id -> id <> [] -> cid id = i -> citable a p1 -> is_year yr ->
    refers show y q2 -> first_asked qs q1 -> attached show now qs TSource id doc -> In KRegular fs ->
    get_source cid fs false (elem2dict y) (Some doc) = Ok (SCited i (Cited a (Some yr) p1)).
Proof.
  intros uid cid show now e1 e2 q1 q2 i a yr p1 p2 id qs fs y doc A1 A2 U I C Ct Yr Y F D K. pose proof (citation_request_is uid e1 q1 i _ _ _ id A1 U) as ->.
  pose proof (citation_request_is uid e2 q2 i _ _ _ id A2 U) as ->.
  destruct (attached_first show now qs _ doc F D) as (v & V & W). destruct (dated_ref a yr p1) as [rest Rr]. destruct (dated_ref a yr p2) as [rest2 Rr2]. pose proof Ct as (_ & _ & Ni & _).
  assert (B : ~ blank (Some (source_short_ref (Some a) (Some yr) p1))) by (rewrite Rr; apply cited_nonblank).
  assert (B2 : ~ blank (Some (source_short_ref (Some a) (Some yr) p2))) by (rewrite Rr2; apply cited_nonblank).
  assert (Kr : kind_of false (source_short_ref (Some a) (Some yr) p2) = KRegular) by (rewrite Rr2; now apply cited_regular).
  rewrite (source_result_is show now cid fs id (source_short_ref (Some a) (Some yr) p1) None (cited_source id (source_short_ref (Some a) (Some yr) p2) None) y doc eq_refl eq_refl I B2 Kr K B Logic.I Y id v _ V W).
  cbv iota. rewrite (citable_read a yr p1 _ Ct Yr). cbn [bind]. now rewrite C.
Qed.
Print Assumptions C159_pages_refuted.
(** A source without an author comes back with the author Source, and without its year and pages. *)
Theorem C159_author_refuted :
  forall uid cid show now e q i yr pages id qs fs y doc, asks_citation uid e q i None yr pages -> uid i = Ok id -> id <> [] -> cid id = i ->
    refers show y q -> first_asked qs q -> attached show now qs TSource id doc -> In KRegular fs ->
    get_source cid fs false (elem2dict y) (Some doc) = Ok (SCited i (Cited (lit "Source") None None)).
Proof.
  intros uid cid show now e q i yr pages id qs fs y doc A U I C Y F D K. pose proof (citation_request_is uid e q i _ _ _ id A U) as ->.
  destruct (attached_first show now qs _ doc F D) as (v & V & W).
  assert (B : ~ blank (Some (lit "Source"))) by (intros B; inversion B; discriminate).
  rewrite (source_result_is show now cid fs id (lit "Source") None (cited_source id (lit "Source") None) y doc eq_refl eq_refl I B eq_refl K B Logic.I Y id v _ V W).
  cbn iota. replace (read_citation (lit "Source") (lit "Source")) with (Ok (Cited (lit "Source") None None)) by (vm_compute; reflexivity). cbn [bind]. now rewrite C.
Qed.
Print Assumptions C159_author_refuted.
(** Without a year the pages are lost. *)
Theorem C159_year_refuted :
  forall uid cid show now e q i a pages id qs fs y doc, asks_citation uid e q i (Some a) None pages -> uid i = Ok id -> id <> [] -> cid id = i ->
    trimmed a -> ExchangeSpec.one_line a -> ~ year_mark a -> ~ blank (Some a) -> ~ image_text a -> ~ icon_text a ->
    refers show y q -> first_asked qs q -> attached show now qs TSource id doc -> In KRegular fs ->
    get_source cid fs false (elem2dict y) (Some doc) = Ok (SCited i (Cited a None None)).
Proof.
  intros uid cid show now e q i a pages id qs fs y doc A U I C Ta Oa Na Ba Ni Nc Y F D K. pose proof (citation_request_is uid e q i _ _ _ id A U) as ->.
  destruct (attached_first show now qs _ doc F D) as (v & V & W).
  assert (Kr : kind_of false a = KRegular) by (apply kind_regular; now repeat split).
  rewrite (source_result_is show now cid fs id a None (cited_source id a None) y doc eq_refl eq_refl I Ba Kr K Ba Logic.I Y id v _ V W).
  assert (Te : trimmed []) by reflexivity. assert (Oe : ExchangeSpec.one_line []) by (intros []).
  assert (Yr : is_year (lit "2000")) by (split; [reflexivity|repeat constructor]).
  pose proof (proj2 (proj2 (C98_sources_read_back_partial a (lit "2000") [] Ta Oa Yr Te Oe)) Na) as X. cbn [source_short_ref] in X. cbv iota. rewrite X. cbn [bind]. now rewrite C.
Qed.
Print Assumptions C159_year_refuted.

(** * C160: images and icons *)
Lemma picture_is random_id desc what link q : picture random_id desc what link = Ok q ->
  exists id, get_text_uuid random_id link = Ok id /\ q = Request TSource id desc (source_infos what None (Some link) (lit "Images")).
Proof. unfold picture. intros E. apply InflowProofs.bind_ok in E. destruct E as (id & G & E). injection E as <-. now exists id. Qed.
Lemma picture_result show now cid fs u k what link q y doc : q_id q <> [] -> ~ blank (Some (q_desc q)) -> kind_of u (q_desc q) = k -> k <> KRegular -> In k fs ->
  refers show y q -> forall id' v, source_structure now id' first_version (source_infos what None (Some link) (lit "Images")) = Ok v -> unparse show v = Ok doc ->
  get_source cid fs u (elem2dict y) (Some doc) = Ok (SImages k [VStr link]).
Proof.
  intros I B K Nk F (ns & key & E) id' v V U. rewrite reference_emitted in E. injection E as <-. rewrite source_made in V. injection V as <-. rewrite (source_unparsed show) in U. injection U as <-.
  exact (link_back show now id' first_version cid fs u _ _ _ _ k what None (Some link) (lit "Images") (reference_is show ns key q I) (reference_described ns q B) K Nk F).
Qed.
Lemma image_desc f : ~ blank (Some (lit "Image URL from " ++ f)) /\ kind_of false (lit "Image URL from " ++ f) = KImage.
Proof.
  split; [cbn [blank]; intros B; change (lit "Image URL from " ++ f) with (ch "I" :: (lit "mage URL from " ++ f)) in B; inversion B; discriminate|].
  apply kind_image. left. now exists f.
Qed.
(** The address of an image or icon comes back, if no other one asked for the same identifier before. *)
Theorem C160_pictures_return_partial :
  forall random_id cid show now q link qs y doc, q_id q <> [] -> refers show y q -> first_asked qs q -> attached show now qs TSource (q_id q) doc ->
    ((exists field, image random_id field link = Ok q) -> get_source cid [KImage; KIcon] false (elem2dict y) (Some doc) = Ok (SImages KImage [VStr link])) /\
    (icon random_id link = Ok q -> get_source cid [KImage; KIcon] false (elem2dict y) (Some doc) = Ok (SImages KIcon [VStr link])).
Proof.
  intros random_id cid show now q link qs y doc I Y F D. split.
  - intros [field E]. apply picture_is in E. destruct E as (id & G & ->). destruct (attached_first show now qs _ doc F D) as (v & V & W). destruct (image_desc field) as [B K].
    eapply (picture_result show now cid); [| | | | |exact Y|exact V|exact W]; [exact I|exact B|exact K|discriminate|now left].
  - intros E. apply picture_is in E. destruct E as (id & G & ->). destruct (attached_first show now qs _ doc F D) as (v & V & W).
    assert (B : ~ blank (Some (lit "Dataset Icon"))) by (intros B; inversion B; discriminate).
    eapply (picture_result show now cid); [| | | | |exact Y|exact V|exact W]; [exact I|exact B|reflexivity|discriminate|right; now left].
Qed.
Print Assumptions C160_pictures_return_partial.
(** Addresses that contain the same identifier: the second image comes back with the address of the first. *)
Theorem C160_addresses_refuted :
  forall random_id cid show now q1 q2 f1 f2 link1 link2 qs y doc, image random_id f1 link1 = Ok q1 -> image random_id f2 link2 = Ok q2 -> q_id q1 = q_id q2 -> q_id q2 <> [] ->
    refers show y q2 -> first_asked qs q1 -> attached show now qs TSource (q_id q2) doc ->
    get_source cid [KImage; KIcon] false (elem2dict y) (Some doc) = Ok (SImages KImage [VStr link1]).
Proof.
  intros random_id cid show now q1 q2 f1 f2 link1 link2 qs y doc E1 E2 Eq I Y F D. apply picture_is in E1. destruct E1 as (id1 & G1 & ->). apply picture_is in E2. destruct E2 as (id2 & G2 & ->).
  cbn [q_id] in Eq, D, I. subst id2. destruct (attached_first show now qs _ doc F D) as (v & V & W). destruct (image_desc f2) as [B K].
  eapply (picture_result show now cid); [| | | | |exact Y|exact V|exact W]; [exact I|exact B|exact K|discriminate|now left].
Qed.
Print Assumptions C160_addresses_refuted.

(** * C161: files are found *)
(** The reader finds the file that was written for a reference. *)
Theorem C161_files_found :
  forall show now qs st q y, make_all show now [] qs = Ok st -> Forall (fun p => is_uuid (q_id p)) qs -> In q qs -> refers show y q ->
    exists r, (forall u, ExchangeModel.r_uri r = Some u -> attribute y "uri" u) /\ (forall i, ExchangeModel.r_id r = Some i -> attribute y "refObjectId" i) /\
      (forall v, ExchangeModel.r_version r = Some v -> attribute y "version" v) /\
      ExchangeModel.r_uri r = Some (lit "../" ++ match q_type q with TContact => lit "contacts" | TSource => lit "sources" end ++ lit "/" ++ q_id q) /\ ExchangeModel.r_id r = Some (q_id q) /\ ExchangeModel.r_version r <> None /\
      get_file (Some (folder_of (q_type q) st)) r = Some (q_id q ++ lit ".xml") /\ convertible (Some (folder_of (q_type q) st)) r = true.
Proof.
  intros show now qs st q y M F I (ns & key & E). rewrite reference_emitted in E. injection E as <-. exists (reference_of q).
  destruct (make_has show now qs q [] st M I) as [v Hv].
  assert (Fs : Forall (fun f => is_uuid (snd (fst f))) st).
  { apply Forall_forall. intros [[t id] w] J. destruct (make_origin show now _ _ _ _ _ _ M J) as [[]|(_ & a & p & b & -> & _ & <- & _)].
    rewrite Forall_forall in F. apply F. apply in_or_app. right. now left. }
  pose proof (file_found (q_type q) st q v Fs Hv eq_refl) as G.
  split; [intros u H; injection H as <-; exists (lit "uri"); split; [right; right; right; now left|apply OutflowProofs.simple_attr; vm_compute; intuition discriminate]|].
  split; [intros u H; injection H as <-; exists (lit "refObjectId"); split; [right; now left|apply OutflowProofs.simple_attr; vm_compute; intuition discriminate]|].
  split; [intros u H; injection H as <-; exists (lit "version"); split; [right; right; now left|apply OutflowProofs.simple_attr; vm_compute; intuition discriminate]|].
  split; [unfold reference_of; destruct (q_type q); reflexivity|]. split; [reflexivity|]. split; [discriminate|]. split; [exact G|]. unfold convertible. rewrite G. cbn [ExchangeModel.r_id reference_of].
  rewrite Forall_forall in F. pose proof (uuid_length _ (F q I)) as L. destruct (q_id q); [discriminate L|reflexivity].
Qed.
Print Assumptions C161_files_found.

(** * C162: active authors *)
(** Whether the person who entered the data is an active author is written as a remark of the contact ... *)
Theorem C162_active_written_partial :
  forall uid show now e d q i n mail id qs doc, elem2dict e = VDict d -> names_person e "personId" "personName" "personEmail" i n mail -> entering uid d = Ok q -> uid i = Ok id ->
    first_asked qs q -> attached show now qs TContact id doc ->
    (forall s, attribute e "isActiveAuthor" s -> read [kactive] doc = [(kactive, VStr (lit "Active author?: " ++ s))]) /\
    ((forall s, ~ attribute e "isActiveAuthor" s) -> read [kactive] doc = [(kactive, VStr (lit "Active author?: " ++ show VNone))]).
Proof.
  intros uid show now e d q i n mail id qs doc Q (R & A1 & A2 & A3) E U F D. unfold entering in E.
  rewrite (person_is uid e d _ _ _ i n mail id [(lit "active", attr_none d "isActiveAuthor")] (Some (attr_none d "isActiveAuthor")) R Q A1 A2 A3 U eq_refl) in E. injection E as <-.
  destruct (attached_first show now qs _ doc F D) as (v & V & W). unfold data_structure, person in V. cbn [q_type q_id q_info] in V. rewrite contact_made in V. injection V as <-. rewrite contact_unparsed in W. injection W as <-.
  rewrite (read_active show now id first_version n (Some (maybe_text mail)) _ _ (maybe_text_ok mail)).
  assert (B : forall t, ~ blank (Some (lit "Active author?: " ++ t))).
  { intros t B. cbn [blank] in B. change (lit "Active author?: " ++ t) with (ch "A" :: (lit "ctive author?: " ++ t)) in B. inversion B; discriminate. }
  split.
  - intros s A. rewrite (attr_none_read e d "isActiveAuthor" (Some s) R Q A). cbn [maybe_text str_of]. now rewrite (read_plain _ _ (leaf_plain TContact "contactDescriptionOrComment" _ (B s))).
  - intros N. rewrite (attr_none_read e d "isActiveAuthor" None R Q N). cbn [maybe_text str_of]. now rewrite (read_plain _ _ (leaf_plain TContact "contactDescriptionOrComment" _ (B (show VNone)))).
Qed.
Print Assumptions C162_active_written_partial.
(** ... which is not read: persons who differ in that only come back the same. *)
Theorem C162_active_refuted :
  forall uid cid show now e1 e2 q1 q2 i n mail id qs1 qs2 k cf y1 y2 doc1 doc2, asks_person uid e1 q1 i n mail -> asks_person uid e2 q2 i n mail -> uid i = Ok id -> id <> [] -> ~ blank (Some n) ->
    refers show y1 q1 -> refers show y2 q2 -> first_asked qs1 q1 -> first_asked qs2 q2 -> attached show now qs1 TContact id doc1 -> attached show now qs2 TContact id doc2 -> of_contacts k cf ->
    get_contact cid cf (elem2dict y1) (Some doc1) = get_contact cid cf (elem2dict y2) (Some doc2).
Proof.
  intros uid cid show now e1 e2 q1 q2 i n mail id qs1 qs2 k cf y1 y2 doc1 doc2 A1 A2 U I B Y1 Y2 F1 F2 D1 D2 _.
  destruct (person_request_is uid e1 q1 i n mail id A1 U) as [c1 ->]. destruct (person_request_is uid e2 q2 i n mail id A2 U) as [c2 ->].
  destruct (attached_first show now qs1 _ doc1 F1 D1) as (v1 & V1 & W1). destruct (attached_first show now qs2 _ doc2 F2 D2) as (v2 & V2 & W2).
  rewrite (contact_result show now cid cf id n (Some (maybe_text mail)) c1 (lit "Persons") y1 doc1 (person id n (Some (maybe_text mail)) c1) eq_refl eq_refl I B (maybe_text_ok mail) Y1 id n v1 (or_introl eq_refl) V1 W1).
  now rewrite (contact_result show now cid cf id n (Some (maybe_text mail)) c2 (lit "Persons") y2 doc2 (person id n (Some (maybe_text mail)) c2) eq_refl eq_refl I B (maybe_text_ok mail) Y2 id n v2 (or_introl eq_refl) V2 W2).
Qed.
Print Assumptions C162_active_refuted.

(** * C163: identifiers in the files *)
(** Each file holds the identifier that is its name, and the version that references name. *)
Theorem C163_identified_partial :
  forall uid random_id show now qs st t id v doc, Forall (asked uid random_id) qs -> Forall (fun q => forall w, getf (lit "email") (q_info q) = Some w -> text_or_none w) qs ->
    make_all show now [] qs = Ok st -> In (t, id, v) st -> unparse show v = Ok doc -> ~ blank (Some id) ->
    read [id_key t; version_key t] doc = [(id_key t, VStr id); (version_key t, VStr first_version)].
Proof.
  intros uid random_id show now qs st t id v doc F T M I U B. destruct (make_origin show now _ _ _ _ _ _ M I) as [[]|(_ & a & q & b & E & <- & <- & W & _)].
  assert (J : In q qs) by (rewrite E; apply in_or_app; right; now left). rewrite Forall_forall in F, T. pose proof (asked_well uid random_id q (F q J)) as X. specialize (T q J).
  assert (N : q_id q <> []) by (intros N; rewrite N in B; apply B; constructor).
  assert (Bv : ~ blank (Some first_version)) by (intros H; inversion H; discriminate).
  pose proof (fun t k => read_plain _ _ (leaf_plain t k _ B)) as E1. pose proof (fun t k => read_plain _ _ (leaf_plain t k _ Bv)) as E2.
  unfold data_structure in W. destruct X as [[Ty (n & mail & active & class & Ei)]|[Ty (r & full & link & class & Ei)]]; rewrite Ty, Ei in *.
  - rewrite contact_made in W. injection W as <-. rewrite contact_unparsed in U. injection U as <-.
    rewrite contact_id; [now rewrite E1, E2| |exact N|discriminate]. destruct mail as [w|]; [|exact Logic.I]. apply T. reflexivity.
  - rewrite source_made in W. injection W as <-. rewrite (source_unparsed show) in U. injection U as <-. rewrite source_id; [now rewrite E1, E2|exact N|discriminate].
Qed.
Print Assumptions C163_identified_partial.

(** * Examples *)
Definition sample_uid (i : pystr) : result pystr := Ok (lit "x" ++ i).
Definition sample_cid (i : pystr) : pystr := skipn 1 i.
Definition sample_show (v : pyval) : pystr := match v with VNone => lit "None" | _ => [] end.
Definition author (a : list (string * string)) : elem := AsideProps.elem_ "dataEntryBy" ([("personId", "p1"); ("personName", "Ann")] ++ a) [].
Definition the_dict (v : pyval) : list (pystr * pyval) := match v with VDict d => d | _ => [] end.
Definition made (r : result request) : request := match r with Ok q => q | Err _ => original [] end.
Definition ann (a : list (string * string)) : request := made (entering sample_uid (the_dict (elem2dict (author a)))).
Definition file_of (qs : list request) (t : data_type) (id : pystr) : elem :=
  match make_all sample_show (lit "now") [] qs with
  | Ok st => match find (fun f => (same_type (fst (fst f)) t && str_eqb (snd (fst f)) id)%bool) st with Some f => doc_of sample_show (snd f) | None => AsideProps.elem_ "" [] [] end
  | Err _ => AsideProps.elem_ "" [] []
  end.
Definition ref_of (q : request) : elem := reference_elem (lit "p") (lit "common:reference") q.
Lemma refers_ref q : refers sample_show (ref_of q) q.
Proof. now exists (lit "p"), (lit "common:reference"). Qed.
Lemma author_person a mail : AsideProps.recordb (author a) = true -> maybe_attribute (author a) "personEmail" mail ->
  names_person (author a) "personId" "personName" "personEmail" (lit "p1") (lit "Ann") mail.
Proof.
  intros R M. split; [now apply AsideProps.recordb_sound|]. split; [apply AsideProps.attr_given; [vm_compute; reflexivity|now left]|].
  split; [apply AsideProps.attr_given; [vm_compute; reflexivity|right; now left]|exact M].
Qed.
Ltac missing := let s := fresh in let A := fresh in intros s A; apply AsideProps.attr_found in A; [|vm_compute; reflexivity]; vm_compute in A; repeat (destruct A as [A|A]; [discriminate A|]); destruct A.
Ltac in_file := eexists; eexists; split; [vm_compute; reflexivity|split; [first [now left|right; now left]|vm_compute; reflexivity]].
Ltac first_ := exists []; eexists; split; [reflexivity|intros ? []].
Example C157_nonvacuous :
  asks_person sample_uid (author [("personEmail", "ann@x.org")]) (ann [("personEmail", "ann@x.org")]) (lit "p1") (lit "Ann") (Some (lit "ann@x.org")) /\
  first_asked [ann [("personEmail", "ann@x.org")]; ann []] (ann [("personEmail", "ann@x.org")]) /\
  (exists doc, attached sample_show (lit "now") [ann [("personEmail", "ann@x.org")]; ann []] TContact (lit "xp1") doc /\
     exists l, get_contact sample_cid ReferModel.person (elem2dict (ref_of (ann [("personEmail", "ann@x.org")]))) (Some doc)
       = Ok (l, Some (MasterContact (lit "p1") (VStr (lit "Ann")) (VStr (lit "ann@x.org"))))) /\
  exists e q, asks_company sample_uid e q (lit "c1") (Some (lit "ACME")).
Proof.
  split; [|split; [first_|split]].
  - apply by_entry with (d := the_dict (elem2dict (author [("personEmail", "ann@x.org")]))); [vm_compute; reflexivity| |vm_compute; reflexivity].
    apply author_person; [vm_compute; reflexivity|]. apply AsideProps.attr_given; [vm_compute; reflexivity|right; right; now left].
  - eexists. split; [in_file|]. eexists. vm_compute. reflexivity.
  - exists (AsideProps.elem_ "dataGeneratorAndPublication" [("personId", "p1"); ("companyId", "c1"); ("companyCode", "ACME")] []). eexists. eexists.
    split; [vm_compute; reflexivity|]. split; [now apply AsideProps.recordb_sound|]. split; [apply AsideProps.attr_given; [vm_compute; reflexivity|right; now left]|].
    split; [discriminate|]. split; [apply AsideProps.attr_given; [vm_compute; reflexivity|right; right; now left]|]. vm_compute. reflexivity.
Qed.
Example C158_nonvacuous :
  Forall (asked sample_uid (fun _ => lit "r")) [ann []; original (lit "db"); ann [("personEmail", "ann@x.org")]] /\
  asks_person sample_uid (author []) (ann []) (lit "p1") (lit "Ann") None /\
  attached sample_show (lit "now") [ann []; original (lit "db"); ann [("personEmail", "ann@x.org")]] TContact (lit "xp1") (file_of [ann []] TContact (lit "xp1")) /\
  get_contact sample_cid ReferModel.person (elem2dict (ref_of (ann [("personEmail", "ann@x.org")]))) (Some (file_of [ann []] TContact (lit "xp1")))
    = Ok ([(lit "personId", VStr (lit "p1")); (lit "personName", VStr (lit "Ann")); (lit "personEmail", VStr []); (lit "personId", VStr (lit "p1")); (lit "personEmail", VStr [])],
          Some (MasterContact (lit "p1") (VStr (lit "Ann")) (VStr []))).
Proof.
  split; [|split; [|split]].
  - assert (A : forall a, AsideProps.recordb (author a) = true -> entering sample_uid (the_dict (elem2dict (author a))) = Ok (ann a) -> asked sample_uid (fun _ => lit "r") (ann a)) by (intros a _ H; left; eexists; exact H).
    apply Forall_forall. intros q [<-|[<-|[<-|[]]]]; [apply A; vm_compute; reflexivity|do 6 right; now exists (lit "db")|apply A; vm_compute; reflexivity].
  - apply by_entry with (d := the_dict (elem2dict (author []))); [vm_compute; reflexivity| |vm_compute; reflexivity]. apply author_person; [vm_compute; reflexivity|missing].
  - in_file.
  - vm_compute. reflexivity.
Qed.
Definition citing_exchange (a : list (string * string)) : elem := AsideProps.elem_ "intermediateExchange" ([("sourceId", "s1")] ++ a) [].
Definition citation (a : list (string * string)) : request := match citing sample_uid (the_dict (elem2dict (citing_exchange a))) with Ok [q] => q | _ => original [] end.
Example C159_nonvacuous :
  let a := [("sourceFirstAuthor", "Frischknecht R."); ("sourceYear", "2007"); ("pageNumbers", "12-14")] in
  let b := [("sourceFirstAuthor", "Frischknecht R."); ("sourceYear", "2007"); ("pageNumbers", "99")] in
  asks_citation sample_uid (citing_exchange a) (citation a) (lit "s1") (Some (lit "Frischknecht R.")) (Some (lit "2007")) (Some (lit "12-14")) /\
  citable (lit "Frischknecht R.") (Some (lit "12-14")) /\
  attached sample_show (lit "now") [citation a; citation b] TSource (lit "xs1") (file_of [citation a] TSource (lit "xs1")) /\
  get_source sample_cid [KRegular] false (elem2dict (ref_of (citation b))) (Some (file_of [citation a] TSource (lit "xs1")))
    = Ok (SCited (lit "s1") (Cited (lit "Frischknecht R.") (Some (lit "2007")) (Some (lit "12-14")))).
Proof.
  cbv zeta. split; [|split; [|split]].
  - eexists. split; [vm_compute; reflexivity|]. split; [|split; [apply AsideProps.attr_given; [vm_compute; reflexivity|right; right; right; now left]|vm_compute; reflexivity]].
    split; [now apply AsideProps.recordb_sound|]. split; [apply AsideProps.attr_given; [vm_compute; reflexivity|now left]|]. split; [discriminate|].
    split; apply AsideProps.attr_given; try (vm_compute; reflexivity); right; [now left|right; now left].
  - split; [reflexivity|]. split; [vm_compute; intuition discriminate|]. split; [intros [r H]; vm_compute in H; discriminate|]. split; [reflexivity|]. split; [vm_compute; intuition discriminate|].
    now apply ExchangeProofs.no_page_mark.
  - in_file.
  - vm_compute. reflexivity.
Qed.
Definition pic (l : string) : request := made (image (fun _ => lit "r") (lit "technology") (lit l)).
Example C160_nonvacuous :
  (exists doc, attached sample_show (lit "now") [pic "http://x/1.png"] TSource (q_id (pic "http://x/1.png")) doc /\
     get_source sample_cid [KImage; KIcon] false (elem2dict (ref_of (pic "http://x/1.png"))) (Some doc) = Ok (SImages KImage [VStr (lit "http://x/1.png")])) /\
  q_id (pic "http://x/0a1b2c3d-0000-1111-2222-333344445555.png") = q_id (pic "http://y/0a1b2c3d-0000-1111-2222-333344445555.jpg") /\
  q_id (pic "http://x/0a1b2c3d-0000-1111-2222-333344445555.png") <> [].
Proof. split; [|split; [vm_compute; reflexivity|vm_compute; discriminate]]. eexists. split; [in_file|]. vm_compute. reflexivity. Qed.
Example C161_nonvacuous :
  let q := original (lit "0a1b2c3d-0000-1111-2222-333344445555") in
  exists st, make_all sample_show (lit "now") [] [q; q] = Ok st /\ is_uuid (q_id q) /\ get_file (Some (folder_of TSource st)) (reference_of q) = Some (q_id q ++ lit ".xml").
Proof.
  cbv zeta. eexists. split; [vm_compute; reflexivity|]. split; [|vm_compute; reflexivity].
  exists (lit "0a1b2c3d"), (lit "0000"), (lit "1111"), (lit "2222"), (lit "333344445555"). split; [reflexivity|].
  assert (H : forall l, forallb (fun c => ((48 <=? c) && (c <=? 57) || (97 <=? c) && (c <=? 102))%N) l = true -> Forall hexchar l).
  { intros l F. rewrite forallb_forall in F. apply Forall_forall. intros c J. apply F in J. unfold hexchar. rewrite orb_true_iff, !andb_true_iff, !N.leb_le in J. exact J. }
  repeat split; apply H; vm_compute; reflexivity.
Qed.
Example C162_nonvacuous :
  read [kactive] (file_of [ann [("isActiveAuthor", "true")]] TContact (lit "xp1")) = [(kactive, VStr (lit "Active author?: true"))] /\
  read [kactive] (file_of [ann []] TContact (lit "xp1")) = [(kactive, VStr (lit "Active author?: None"))] /\
  get_contact sample_cid ReferModel.person (elem2dict (ref_of (ann []))) (Some (file_of [ann []] TContact (lit "xp1")))
    = get_contact sample_cid ReferModel.person (elem2dict (ref_of (ann [("isActiveAuthor", "true")]))) (Some (file_of [ann [("isActiveAuthor", "true")]] TContact (lit "xp1"))).
Proof. repeat split; vm_compute; reflexivity. Qed.
Example C163_nonvacuous :
  read [id_key TContact; version_key TContact] (file_of [ann []] TContact (lit "xp1")) = [(id_key TContact, VStr (lit "xp1")); (version_key TContact, VStr (lit "01.00.000"))].
Proof. vm_compute. reflexivity. Qed.
