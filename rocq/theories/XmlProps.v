(** Properties C24, C25 and C67: the streaming XML reader. *)
From Coq Require Import Ascii String List Bool Arith NArith ZArith Lia.
From Verif Require Import PyBase PyBaseFacts PyValues MultiLangModel DotDictModel DotDictProofs XmlModel XmlSpec XmlProofs.
Import ListNotations.

(** ** C24 *)
Theorem C24_reports_exactly_requested :
  forall keys e, proper e -> exists cs, closes [] e cs /\ read keys e = flat_map (due keys) cs.
Proof.
  intros keys e P. destruct (closes_exist e P []) as [cs C]. exists cs. split; [exact C|].
  unfold read. pose proof (gen_spec keys e P [] cs [] C) as G. rewrite app_nil_r in G. rewrite G. cbn.
  now rewrite app_nil_r.
Qed.
Print Assumptions C24_reports_exactly_requested.

(** Consequences: a requested element is reported once per occurrence, and every report was requested. *)
Theorem C24_reports_were_requested :
  forall keys e p v, proper e -> In (p, v) (read keys e) -> In p keys.
Proof.
  intros keys e p v P H. destruct (C24_reports_exactly_requested keys e P) as (cs & _ & E). rewrite E in H.
  apply in_flat_map in H. destruct H as (pe & _ & H). unfold due in H. apply in_app_or in H. destruct H as [H|H].
  - destruct (in_dec _ _ _) as [I|I]; [|destruct H]. destruct H as [H|[]]. inversion H; subst. exact I.
  - apply in_flat_map in H. destruct H as (kv & _ & H). destruct (in_dec _ _ _) as [I|I]; [|destruct H].
    destruct H as [H|[]]. inversion H; subst. exact I.
Qed.
Print Assumptions C24_reports_were_requested.

(** No state survives: after a whole document the path is the one before. *)
Theorem C24_path_restored :
  forall keys e p, proper e -> snd (gen_return keys p (events e)) = p.
Proof.
  intros keys e p P. destruct (closes_exist e P p) as [cs C].
  pose proof (gen_spec keys e P p cs [] C) as G. rewrite app_nil_r in G. now rewrite G.
Qed.
Print Assumptions C24_path_restored.

Definition sample : elem :=
  Elem (lit "{u}a") [(lit "x", lit "1")] None None
    [Elem (lit "{u}b") [] (Some (lit "one")) None []; Elem (lit "c") [(lit "y", lit "2")] None None [];
     Elem (lit "{u}b") [(lit "{w}lang", lit "en")] None None []].
Example C24_nonvacuous :
  read [lit "/a/b"; lit "/a/c/@y"; lit "/a/@x"; lit "/b"] sample
  = [(lit "/a/b", VStr (lit "one")); (lit "/a/c/@y", VStr (lit "2"));
     (lit "/a/b", VDict [(lit "@lang", VStr (lit "en")); (lit "#text", VStr [])]);
     (lit "/a/@x", VStr (lit "1"))].
Proof. reflexivity. Qed.
Example C24_sample_proper : proper sample.
Proof.
  assert (X : forall n, n <> [] -> ~ In (ch "/") n -> (forall r, n <> ch "@" :: r) -> (forall r, n <> ch "#" :: r) -> xml_name n)
    by (unfold xml_name; auto).
  assert (NA : name_of (lit "{u}a") (lit "a")) by (split; [intros [H|[]]; discriminate|right; exists (lit "u"); reflexivity]).
  assert (NB : name_of (lit "{u}b") (lit "b")) by (split; [intros [H|[]]; discriminate|right; exists (lit "u"); reflexivity]).
  assert (NC : name_of (lit "c") (lit "c")) by (split; [intros [H|[]]; discriminate|left; reflexivity]).
  assert (XA : xml_name (lit "a")) by (apply X; try discriminate; intros [H|[]]; discriminate).
  assert (XB : xml_name (lit "b")) by (apply X; try discriminate; intros [H|[]]; discriminate).
  assert (XC : xml_name (lit "c")) by (apply X; try discriminate; intros [H|[]]; discriminate).
  apply proper_elem with (lit "a"); auto. constructor; [apply proper_elem with (lit "b"); auto|].
  constructor; [apply proper_elem with (lit "c"); auto|].
  constructor; [apply proper_elem with (lit "b"); auto|constructor].
Qed.

(** ** C25 *)
Definition distinct_attributes (a : list (pystr * pystr)) : Prop :=
  exists ns, Forall2 (fun kv n => name_of (fst kv) n) a ns /\ NoDup ns.
Theorem C25_content_kept_partial :
  forall e, Forall proper (ekids e) -> distinct_attributes (eattrib e) ->
    let d := content (elem2dict e) in
    (forall k v n, In (k, v) (eattrib e) -> name_of k n -> getf (lit "@" ++ n) d = Some (VStr v)) /\
    (forall s, etext e = Some s -> s <> [] -> isspace s = false -> getf (lit "#text") d = Some (VStr s)) /\
    (forall n ks, xml_name n -> named_kids n (ekids e) ks ->
       getf n d = match ks with
                  | [] => None
                  | [k] => Some (elem2dict k)
                  | _ => Some (VList (map elem2dict ks))
                  end).
Proof.
  intros e P (ns & F & ND) d. unfold d. rewrite (content_raw e P).
  assert (LM : map (fun kv : pystr * pystr => local (fst kv)) (eattrib e) = ns).
  { clear -F. induction F as [|kv n a ns H _ IH]; simpl; auto. rewrite (name_local _ _ H). now rewrite IH. }
  split; [|split].
  - intros k v n Hin Hn. destruct e as [t a x l kids]. cbn [raw eattrib ekids] in *. rewrite fold_child_other.
    + rewrite own_other by discriminate. unfold at_entries. rewrite <- (name_local _ _ Hn).
      apply fold_at_in; auto. now rewrite LM.
    + intros I. rewrite map_map in I. cbn [fst] in I. apply in_map_iff in I. destruct I as (k' & E & I).
      rewrite Forall_forall in P. now apply (kid_not_at k' n (P k' I)).
  - intros s Hs H1 H2. change (lit "#text") with ktext. rewrite (raw_text e P). unfold text_entry. rewrite Hs.
    unfold real_text. assert (E : str_eqb s [] = false).
    { destruct (str_eqb s []) eqn:E; auto. apply str_eqb_eq in E. congruence. }
    now rewrite E, H2.
  - intros n ks Hx Hk. destruct e as [t a x l kids]. cbn [raw eattrib ekids] in *.
    rewrite (fold_child _ _ n []); auto.
    + cbn [app]. rewrite (kids_vals n kids ks P Hk). destruct ks as [|k1 [|k2 ks]]; reflexivity.
    + apply Forall_forall. intros kv I. apply in_map_iff in I. destruct I as (k & <- & I). cbn [snd].
      apply elem2dict_not_list. rewrite Forall_forall in P. now apply P.
    + destruct Hx as (_ & _ & X1 & X2). rewrite own_other by (intros ->; now apply (X2 (tl ktext))).
      cbn [grouped]. destruct (getf n (at_entries a)) eqn:G; auto. apply getf_at_some in G.
      destruct G as (k & w & _ & ->). exfalso. now apply (X1 (local k)).
Qed.
Print Assumptions C25_content_kept_partial.

(** Nothing is invented: every entry is an attribute, the text or a child (an empty text is added to
    a childless element with a language). *)
Theorem C25_nothing_invented :
  forall e key v, Forall proper (ekids e) -> getf key (content (elem2dict e)) = Some v ->
    (exists k w, In (k, w) (eattrib e) /\ key = lit "@" ++ local k) \/
    (key = lit "#text" /\ exists s, v = VStr s /\
       (etext e = Some s \/ s = [] /\ ekids e = [])) \/
    (exists k, In k (ekids e) /\ key = local (etag k)).
Proof.
  intros e key v P. rewrite (content_raw e P). intros H.
  destruct (str_dec key ktext) as [->|D].
  - right. left. split; [reflexivity|]. rewrite (raw_text e P) in H. unfold text_entry in H.
    destruct (etext e) as [s|]; cbn [real_text] in H.
    + destruct (negb (str_eqb s []) && negb (isspace s))%bool; [inversion H; eauto|].
      destruct (ekids e); [|discriminate]. destruct (has_key klang (at_entries (eattrib e))); cbn in H; [|discriminate].
      inversion H. eauto.
    + destruct (ekids e); [|discriminate]. destruct (has_key klang (at_entries (eattrib e))); cbn in H; [|discriminate].
      inversion H. eauto.
  - destruct e as [t a x l kids]. cbn [raw ekids eattrib etext] in *.
    destruct (in_dec str_dec key (map fst (map (fun k => (local (etag k), elem2dict k)) kids))) as [I|I].
    + right. right. rewrite map_map in I. cbn [fst] in I. apply in_map_iff in I. destruct I as (k & E & I). eauto.
    + rewrite fold_child_other in H by exact I. rewrite own_other in H by exact D. left. eapply getf_at_some; eauto.
Qed.
Print Assumptions C25_nothing_invented.

(** Two attributes with the same name in different namespaces: one is lost; so is the text that
    follows a child. *)
Theorem C25_content_kept_refuted :
  content (elem2dict (Elem (lit "a") [(lit "{u}x", lit "1"); (lit "x", lit "2")] None None []))
    = [(lit "@x", VStr (lit "2"))] /\
  elem2dict (Elem (lit "a") [] (Some (lit "one ")) None [Elem (lit "b") [] (Some (lit "two")) (Some (lit " three")) []])
    = elem2dict (Elem (lit "a") [] (Some (lit "one ")) None [Elem (lit "b") [] (Some (lit "two")) None []]).
Proof. split; reflexivity. Qed.
Print Assumptions C25_content_kept_refuted.
Example C25_nonvacuous :
  elem2dict sample = VDict [(lit "@x", VStr (lit "1"));
     (lit "b", VList [VStr (lit "one"); VDict [(lit "@lang", VStr (lit "en")); (lit "#text", VStr [])]]);
     (lit "c", VDict [(lit "@y", VStr (lit "2"))])] /\
  distinct_attributes (eattrib sample).
Proof.
  split; [reflexivity|]. exists [lit "x"]. split.
  - constructor; [|constructor]. split; [intros [H|[]]; discriminate|left; reflexivity].
  - constructor; [intros []|constructor].
Qed.

(** ** C67: attributes requested on their own *)
Theorem C67_requested_attribute_reported_partial :
  forall keys e cs p x k v, proper e -> closes [] e cs -> In (p, x) cs -> In (k, v) (eattrib x) ->
    In (p ++ lit "/@" ++ k) keys -> In (p ++ lit "/@" ++ k, VStr v) (read keys e).
Proof.
  intros keys e cs p x k v P C H1 H2 H3. unfold read.
  pose proof (gen_spec keys e P [] cs [] C) as G. rewrite app_nil_r in G. rewrite G. cbn [fst].
  apply in_or_app. left. apply in_flat_map. exists (p, x). split; [exact H1|]. unfold due. apply in_or_app. right.
  apply in_flat_map. exists (k, v). split; [exact H2|]. cbn [fst snd].
  destruct (in_dec _ _ _) as [I|I]; [now left|contradiction].
Qed.
Print Assumptions C67_requested_attribute_reported_partial.

(** An attribute in a namespace (such as xml:lang) is not found under its own name, although the
    element itself reports it under that name. *)
Theorem C67_requested_attribute_reported_refuted :
  let e := Elem (lit "a") [(lit "{u}lang", lit "en")] None None [] in
  read [lit "/a/@lang"] e = [] /\
  read [lit "/a"] e = [(lit "/a", VDict [(lit "@lang", VStr (lit "en")); (lit "#text", VStr [])])].
Proof. split; reflexivity. Qed.
Print Assumptions C67_requested_attribute_reported_refuted.
Example C67_nonvacuous : read [lit "/a/c/@y"] sample = [(lit "/a/c/@y", VStr (lit "2"))].
Proof. reflexivity. Qed.
