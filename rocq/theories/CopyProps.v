(** C221-C224: which files of an ILCD archive are in the output of ILCD to ILCD (CopyModel.v, FolderModel.v). *)
From Coq Require Import Ascii String List Bool Arith NArith ZArith Reals Lia.
From Verif Require Import PyBase PyBaseFacts PyValues MultiLangModel DotDictModel DotDictProofs XmlModel XmlProofs RemapModel RemapProofs FolderModel FolderProofs FolderProps CopyModel CopyProofs.
Import ListNotations.

(** folders that list plain files under distinct names *)
Definition plain (f : option listing) (l : listing) : Prop := f = Some l /\ NoDup (map fst l) /\ forall n e, In (n, e) l -> exists c, e = AFile c.

(** ** C221: sources and contacts of the archive are in the output *)
Theorem C221_copied_partial :
  forall a o s c, plain (a_sources a) s -> plain (a_contacts a) c ->
    exists o', set_file_info a o = Ok o' /\
      (forall n t, In (n, AFile t) s -> getf n (o_sources o') = Some t) /\ (forall n, ~ In n (map fst s) -> getf n (o_sources o') = getf n (o_sources o)) /\
      (forall n t, In (n, AFile t) c -> getf n (o_contacts o') = Some t) /\ (forall n, ~ In n (map fst c) -> getf n (o_contacts o') = getf n (o_contacts o)).
Proof.
  intros a o s c (S1 & S2 & S3) (C1 & C2 & C3). destruct (copy_files_ok s S3 (o_sources o)) as (s' & S). destruct (copy_files_ok c C3 (o_contacts o)) as (c' & C).
  exists (Outcome s' c' (o_documents o)). split; [unfold set_file_info, copy_folder; rewrite S1, S; cbn [bind]; now rewrite C1, C|]. cbn [o_sources o_contacts].
  repeat split; intros; eauto using copy_files_there, copy_files_kept.
Qed.
Print Assumptions C221_copied_partial.
(** An archive without contacts or without sources, or with a folder among them, is not converted. *)
Theorem C221_missing_refuted :
  forall a o o', a_sources a = None \/ a_contacts a = None \/ (exists l n, a_sources a = Some l /\ In (n, AFolder) l) \/ (exists l n, a_contacts a = Some l /\ In (n, AFolder) l) ->
    set_file_info a o <> Ok o'.
Proof.
  intros a o o' K H. destruct (info_parts _ _ _ H) as (s & c & S & C & HS & HC & _).
  destruct K as [K|[K|[(l & n & K & I)|(l & n & K & I)]]]; try congruence; [rewrite S in K|rewrite C in K]; injection K as <-; eapply copy_files_folder; eassumption.
Qed.
Print Assumptions C221_missing_refuted.

(** ** C222: documents of the archive are in the output *)
Lemma gather_documents l : forall o o', gather l o = Ok o' -> o_documents o' = o_documents o.
Proof.
  induction l as [|a l IH]; intros o o' H; cbn [gather] in H; [now injection H as <-|]. apply bind_Ok in H as (o1 & H1 & H2).
  rewrite (IH _ _ H2). now destruct (info_parts _ _ _ H1) as (s & c & _ & _ & _ & _ & ->).
Qed.
(** The default documents stay as they are, *)
Theorem C222_default_partial :
  forall l o o' n c, gather l o = Ok o' -> getf n (o_documents o) = Some c -> getf n (o_documents o') = Some c.
Proof. intros l o o' n c H E. now rewrite (gather_documents _ _ _ H). Qed.
Print Assumptions C222_default_partial.
(** and no document of an archive comes to them. *)
Theorem C222_documents_refuted :
  forall l o o' a d n c, gather l o = Ok o' -> In a l -> a_documents a = Some d -> In (n, AFile c) d -> getf n (o_documents o) = None -> getf n (o_documents o') = None.
Proof. intros l o o' a d n c H _ _ _ E. now rewrite (gather_documents _ _ _ H). Qed.
Print Assumptions C222_documents_refuted.

(** ** C223: files of several archives in one output *)
(** A source is there with its content if no later archive has a file of its name. *)
Theorem C223_last_partial :
  forall before a after o o' s n t, gather (before ++ a :: after) o = Ok o' -> plain (a_sources a) s -> In (n, AFile t) s ->
    (forall b l, In b after -> a_sources b = Some l -> ~ In n (map fst l)) -> getf n (o_sources o') = Some t.
Proof.
  induction before as [|b before IH]; intros a after o o' s n t H P I L; cbn [app gather] in H; apply bind_Ok in H as (o1 & H1 & H2); [|exact (IH _ _ _ _ _ _ _ H2 P I L)].
  destruct P as (P1 & P2 & P3). destruct (info_parts _ _ _ H1) as (s' & c & S & _ & HS & _). rewrite P1 in S. injection S as <-.
  pose proof (copy_files_there _ _ _ _ _ HS P2 I) as E. clear H1 HS P1 I. revert o1 H2 E. induction after as [|b after IH2]; intros o1 H2 E; cbn [gather] in H2; [now injection H2 as <-|].
  apply bind_Ok in H2 as (o2 & H3 & H4). refine (IH2 (fun b0 l I => L b0 l (or_intror I)) o2 H4 _).
  destruct (info_parts _ _ _ H3) as (s2 & c2 & S2 & _ & HS2 & _). rewrite (copy_files_kept _ _ _ n HS2); [exact E|]. exact (L b s2 (or_introl eq_refl) S2).
Qed.
Print Assumptions C223_last_partial.
(** Of two sources of one name only the later is kept. *)
Theorem C223_same_name_refuted :
  forall before a mid b o o' s s2 n t t2, gather (before ++ a :: mid ++ [b]) o = Ok o' -> plain (a_sources a) s -> In (n, AFile t) s ->
    plain (a_sources b) s2 -> In (n, AFile t2) s2 -> t2 <> t -> getf n (o_sources o') = Some t2 /\ getf n (o_sources o') <> Some t.
Proof.
  intros before a mid b o o' s s2 n t t2 H _ _ P2 I2 N. assert (E : getf n (o_sources o') = Some t2).
  { replace (before ++ a :: mid ++ [b]) with ((before ++ a :: mid) ++ b :: []) in H by (rewrite <- app_assoc; reflexivity).
    refine (C223_last_partial _ _ _ _ _ s2 n t2 H P2 I2 _). intros b0 l []. }
  split; [exact E|]. rewrite E. congruence.
Qed.
Print Assumptions C223_same_name_refuted.
(** The same archive again changes nothing: all its processes may be converted to one output. *)
Lemma copy_again l : forall o, (forall n c, In (n, AFile c) l -> getf n o = Some c) -> (forall n e, In (n, e) l -> exists c, e = AFile c) -> copy_files l o = Ok o.
Proof.
  induction l as [|[m e] l IH]; intros o K P; [reflexivity|]. destruct (P m e (or_introl eq_refl)) as (c & ->). cbn [copy_files].
  assert (E : putf m c o = o).
  { assert (G : getf m o = Some c) by (apply K; now left). clear -G. induction o as [|[k d] o IH]; [discriminate|]. cbn [getf putf] in *. destruct (str_eqb k m); [now injection G as ->|]. now rewrite IH. }
  rewrite E. apply IH; intros n x I; [apply K|apply (P n x)]; now right.
Qed.
Theorem C223_again :
  forall a o o' s c, plain (a_sources a) s -> plain (a_contacts a) c -> set_file_info a o = Ok o' -> forall k, gather (repeat a k) o' = Ok o'.
Proof.
  intros a o o' s c (S1 & S2 & S3) (C1 & C2 & C3) H k. destruct (info_parts _ _ _ H) as (s' & c' & S & C & HS & HC & _). rewrite S1 in S. injection S as <-. rewrite C1 in C. injection C as <-.
  assert (E : set_file_info a o' = Ok o').
  { unfold set_file_info, copy_folder. rewrite S1, C1. rewrite (copy_again s) by (auto; intros n t I; exact (copy_files_there _ _ _ _ _ HS S2 I)). cbn [bind].
    rewrite (copy_again c) by (auto; intros n t I; exact (copy_files_there _ _ _ _ _ HC C2 I)). cbn [bind]. now destruct o'. }
  induction k as [|k IH]; [reflexivity|]. cbn [repeat gather]. now rewrite E.
Qed.
Print Assumptions C223_again.

(** ** C224: the properties of a copied flow are in the output *)
(** what is saved for a flow outside the mapping *)
Lemma saved_unmapped fp ofp mp isf df us vars x o info : remap fp ofp mp isf df us vars x = Ok o -> getf (x_flow x) mp = None -> unit_info ofp us x = Ok info ->
  exists uri, o_saved o = [(lit "flowproperties", xml (fst info)); (lit "unitgroups", xml (snd info)); (lit "flows", base_name uri)].
Proof.
  unfold remap, unit_info. intros H G I. apply bind_Ok in H as (uri & U & H). apply bind_Ok in H as ([[am un] mu] & B & H). rewrite B in I. cbn [bind] in I. rewrite G in H.
  apply bind_Ok in H as ([vs v] & _ & H). cbv zeta in H. rewrite I in H. cbn [bind] in H. apply bind_Ok in H as (s1 & S1 & H). apply bind_Ok in H as (s2 & S2 & H). injection H as <-.
  unfold save_original in S1, S2. destruct (df (lit "flow property") (xml (fst info))); [|discriminate]. destruct (df (lit "unit group") (xml (snd info))); [|discriminate].
  injection S1 as <-. injection S2 as <-. now exists uri.
Qed.
(** The only property of a flow outside the mapping is there, with its unit group. *)
Theorem C224_single_partial :
  forall fp ofp mp dp dg df fo vars x fo' o k d us info p,
    step fp ofp mp dp dg df fo vars x = Ok (fo', o) -> getf (x_flow x) mp = None -> units_of fo x = Ok (k, d, us) -> unit_info ofp us x = Ok info -> fd_props d = [p] ->
    exists d', getf k (flows fo') = Some d' /\ (forall q, In q (fd_props d') -> In (lit "flowproperties", xml (pr_ref q)) (o_saved o)) /\ In (lit "unitgroups", xml (snd info)) (o_saved o).
Proof.
  intros fp ofp mp dp dg df fo vars x fo' o k d us info p S G U I D. destruct (units_of_file _ _ _ _ _ U) as (_ & K & _).
  unfold step in S. rewrite U in S. cbn [bind] in S. apply bind_Ok in S as (o' & R & S). rewrite G, I in S. cbn [bind] in S. apply bind_Ok in S as (fo2 & P & S). injection S as <- <-.
  destruct (saved_unmapped _ _ _ _ _ _ _ _ _ _ R G I) as (uri & ->). unfold patch in P. rewrite D in P. destruct (str_eqb (pr_ref p) (fst info)) eqn:B.
  - injection P as <-. apply str_eqb_eq in B. exists d. split; [exact K|]. split; [|right; now left]. rewrite D. intros q [<-|[]]. rewrite B. now left.
  - destruct (dp (fst info)) as [a|]; [|discriminate]. destruct (dg (snd info)) as [b|]; [|discriminate]. injection P as <-. cbn [flows]. eexists. split; [apply getf_putf|].
    split; [|right; now left]. intros q [<-|[]]. now left.
Qed.
Print Assumptions C224_single_partial.
Lemma xml_inj a b : xml a = xml b -> a = b.
Proof. unfold xml. apply app_inv_tail. Qed.
(** Another property of such a flow is not saved with it. *)
Theorem C224_secondary_refuted :
  forall fp ofp mp dp dg df fo vars x fo' o k d us info p t q,
    step fp ofp mp dp dg df fo vars x = Ok (fo', o) -> getf (x_flow x) mp = None -> units_of fo x = Ok (k, d, us) -> unit_info ofp us x = Ok info -> fd_props d = p :: t -> In q t -> pr_ref q <> fst info ->
    (exists d', getf k (flows fo') = Some d' /\ In q (fd_props d')) /\ ~ In (lit "flowproperties", xml (pr_ref q)) (o_saved o).
Proof.
  intros fp ofp mp dp dg df fo vars x fo' o k d us info p t q S G U I D Q N. destruct (units_of_file _ _ _ _ _ U) as (_ & K & _).
  unfold step in S. rewrite U in S. cbn [bind] in S. apply bind_Ok in S as (o' & R & S). rewrite G, I in S. cbn [bind] in S. apply bind_Ok in S as (fo2 & P & S). injection S as <- <-.
  destruct (saved_unmapped _ _ _ _ _ _ _ _ _ _ R G I) as (uri & ->). split.
  - unfold patch in P. rewrite D in P. destruct (str_eqb (pr_ref p) (fst info)) eqn:B.
    + injection P as <-. exists d. split; [exact K|]. rewrite D. now right.
    + destruct (dp (fst info)) as [a|]; [|discriminate]. destruct (dg (snd info)) as [b|]; [|discriminate]. injection P as <-. cbn [flows]. eexists. split; [apply getf_putf|]. now right.
  - intros [E|[E|[E|[]]]]; [|discriminate E|discriminate E]. apply N. symmetry. apply xml_inj. exact (f_equal snd E).
Qed.
Print Assumptions C224_secondary_refuted.
(** Flows that the mapping names without counterpart come without any property: a process of such exchanges has no property file at all. *)
Theorem C224_unmatched_refuted :
  forall fp ofp mp isf df l vars xs vs ss, remap_all fp ofp mp isf df vars l = Ok (xs, vs, ss) ->
    (forall us x, In (us, x) l -> exists r, getf (x_flow x) mp = Some r /\ In (r_type r) [lit "NO_MATCH_MAPPING"; lit "NO MATCH"]) ->
    List.length ss = List.length l /\ forall s, In s ss -> fst s = lit "flows".
Proof.
  intros fp ofp mp isf df. induction l as [|[us x] l IH]; intros vars xs vs ss H C; cbn [remap_all] in H; [injection H as <- <- <-; split; [reflexivity|contradiction]|].
  apply bind_Ok in H as (o & R & H). apply bind_Ok in H as ([[xs1 vs1] ss1] & A & H). injection H as <- <- <-.
  destruct (IH _ _ _ _ A (fun us0 x0 I => C us0 x0 (or_intror I))) as (L & F). destruct (C us x (or_introl eq_refl)) as (r & G & T).
  unfold remap in R. apply bind_Ok in R as (uri & U & R). apply bind_Ok in R as ([[am un] mu] & B & R). rewrite G in R.
  assert (E : str_in (r_type r) no_match = true) by (destruct T as [<-|[<-|[]]]; reflexivity). rewrite E in R. injection R as <-. cbn [o_saved app List.length].
  split; [now rewrite L|]. intros s [<-|I]; [reflexivity|now apply F].
Qed.
Print Assumptions C224_unmatched_refuted.

Definition ex_archive (t : string) : archive := Archive (Some [(lit "a.xml", AFile (lit t))]) (Some []) (Some [(lit "a.pdf", AFile (lit "pdf"))]).
Example C221_nonvacuous :
  set_file_info (ex_archive "x") (Outcome [(lit "d.xml", lit "d")] [] []) = Ok (Outcome [(lit "d.xml", lit "d"); (lit "a.xml", lit "x")] [] []) /\
  plain (a_sources (ex_archive "x")) [(lit "a.xml", AFile (lit "x"))] /\ plain (a_contacts (ex_archive "x")) [] /\
  set_file_info (Archive (Some []) None None) (Outcome [] [] []) = Err FileNotFoundError.
Proof.
  split; [reflexivity|]. split; [|split; [|reflexivity]]; (split; [reflexivity|]); (split; [repeat constructor; intros []|]); intros n e I; [|contradiction].
  destruct I as [I|[]]. injection I as <- <-. now eexists.
Qed.
Example C222_nonvacuous : exists o, gather [ex_archive "x"; ex_archive "y"] (Outcome [] [] []) = Ok o /\ a_documents (ex_archive "x") <> Some [] /\ o_documents o = [].
Proof. eexists. split; [reflexivity|]. split; [discriminate|reflexivity]. Qed.
Example C223_nonvacuous : gather [ex_archive "x"; ex_archive "y"] (Outcome [] [] []) = Ok (Outcome [(lit "a.xml", lit "y")] [] []).
Proof. reflexivity. Qed.
Example C224_nonvacuous :
  exists fo o, step ilcd_unit_to_fp olcailcd_unit_to_fp [] dprop dgroup (fun _ _ => true) (oil_folder calorific) [] oil = Ok (fo, o) /\
    o_saved o = [(lit "flowproperties", xml energy); (lit "unitgroups", xml units_of_energy); (lit "flows", lit "oil.xml")].
Proof. do 2 eexists. split; reflexivity. Qed.
