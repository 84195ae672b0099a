(** Lemmas about options, requests and file information. *)
From Coq Require Import Ascii String List Bool Arith NArith ZArith QArith Lia.
From Verif Require Import PyBase PyBaseFacts PyValues MultiLangModel DotDictModel DotDictProofs XmlModel OutputModel OutputSpec
  OutputProofs ConverterModel ConverterSpec.
Import ListNotations.
Local Close Scope Q_scope.

Lemma in_true_false_spec v : in_true_false v = true <-> boolean_like v.
Proof.
  split.
  - destruct v as [| |z|[q| | |]| | | | |]; cbn [in_true_false]; try discriminate; intros H.
    + constructor.
    + constructor. apply orb_prop in H. destruct H as [H|H]; apply Z.eqb_eq in H; auto.
    + constructor. apply orb_prop in H. destruct H as [H|H]; apply Qeq_bool_eq in H; auto.
  - destruct 1 as [b|z [->| ->]|q [H|H]]; try reflexivity; cbn [in_true_false]; apply orb_true_iff.
    + left. now apply Qeq_eq_bool.
    + right. now apply Qeq_eq_bool.
Qed.

Definition guarded (c : converter) (k : pystr) : Prop :=
  exists opts, c_options c = Some opts /\ (In k opts \/ In k always_boolean).
Lemma set_attr_spec k v c :
  (guarded c k /\ ~ boolean_like v /\ set_attr k v c = (c, Some TypeError)) \/
  ((guarded c k -> boolean_like v) /\
   set_attr k v c = ({| c_options := c_options c; c_attrs := putf k v (c_attrs c) |}, None)).
Proof.
  unfold set_attr, guarded. destruct (c_options c) as [opts|] eqn:O.
  - destruct (str_in k opts || str_in k always_boolean)%bool eqn:G; cbn [andb].
    + assert (G' : In k opts \/ In k always_boolean).
      { apply orb_prop in G. destruct G as [G|G]; apply str_in_In in G; auto. }
      destruct (in_true_false v) eqn:T; cbn [negb].
      * right. split; [|reflexivity]. intros _. now apply in_true_false_spec.
      * left. split; [eauto|]. split; [|reflexivity]. intros B. apply in_true_false_spec in B. congruence.
    + right. split; [|reflexivity]. intros (o & E & H). inversion E; subst o. exfalso.
      apply orb_false_elim in G. destruct G as [G1 G2].
      destruct H as [H|H]; apply str_in_In in H; congruence.
  - right. split; [|reflexivity]. intros (o & E & _). discriminate.
Qed.

Lemma getf_putf_ne {A} k k' (a : A) l : k' <> k -> getf k' (putf k a l) = getf k' l.
Proof.
  intros D. assert (D1 : str_eqb k' k = false) by (now apply str_eqb_neq).
  assert (D2 : str_eqb k k' = false) by (apply str_eqb_neq; congruence).
  induction l as [|[x b] l IH]; cbn [putf getf]; [now rewrite ?D1, ?D2|].
  destruct (str_eqb x k) eqn:E; cbn [getf].
  - apply str_eqb_eq in E. subst x. now rewrite ?D1, ?D2.
  - now rewrite IH.
Qed.

(** Invariant: guarded names hold booleans. *)
Definition holds_booleans (c : converter) : Prop :=
  forall k, guarded c k -> exists v, getf k (c_attrs c) = Some v /\ boolean_like v.
Lemma set_attr_options k v c : c_options (fst (set_attr k v c)) = c_options c.
Proof. destruct (set_attr_spec k v c) as [(_ & _ & ->)|(_ & ->)]; reflexivity. Qed.
Lemma set_attr_holds k v c : holds_booleans c -> holds_booleans (fst (set_attr k v c)).
Proof.
  intros H. destruct (set_attr_spec k v c) as [(_ & _ & ->)|(B & ->)]; [exact H|]. cbn [fst].
  intros k' G. cbn [c_attrs]. change (guarded c k') in G.
  destruct (str_dec k' k) as [->|D].
  - exists v. split; [apply getf_putf|auto].
  - rewrite getf_putf_ne by exact D. now apply H.
Qed.
Lemma assignments_holds l : forall c, holds_booleans c -> holds_booleans (assignments l c).
Proof. induction l as [|[k v] l IH]; intros c H; cbn [assignments]; auto. apply IH. now apply set_attr_holds. Qed.
Lemma assignments_options l : forall c, c_options (assignments l c) = c_options c.
Proof. induction l as [|[k v] l IH]; intros c; cbn [assignments]; auto. rewrite IH. apply set_attr_options. Qed.

Lemma start_configurations_ok opts : forall c,
  Forall (fun kv => boolean_like (snd kv)) opts -> holds_booleans c -> (exists o, c_options c = Some o) ->
  exists c', start_configurations opts c = (c', None) /\ holds_booleans c' /\
    exists o, c_options c = Some o /\ c_options c' = Some (o ++ map fst opts).
Proof.
  induction opts as [|[k v] opts IH]; intros c F H [o O]; cbn [start_configurations].
  - exists c. split; auto. split; auto. exists o. cbn [map]. rewrite app_nil_r. auto.
  - inversion F as [|? ? Hb Ht]; subst. cbn [snd] in Hb. rewrite O. cbn [option_map].
    destruct (set_attr_spec k v (set_options (Some (o ++ [k])) c)) as [(_ & N & _)|(_ & E)]; [contradiction|].
    rewrite E. set (c1 := {| c_options := _ |}).
    destruct (IH c1) as (c' & E' & H' & o' & O1 & O2); auto.
    + intros k' (o2 & O2 & G). inversion O2; subst o2. cbn [c1 c_attrs set_options].
      destruct (str_dec k' k) as [->|D].
      * exists v. split; [apply getf_putf|auto].
      * rewrite getf_putf_ne by exact D. apply H. exists o. split; auto. destruct G as [G|G]; auto.
        apply in_app_or in G. destruct G as [G|[G|[]]]; auto. congruence.
    + exists (o ++ [k]). reflexivity.
    + exists c'. split; auto. split; auto. exists o. split; auto. inversion O1; subst o'. rewrite O2. cbn [map fst].
      now rewrite <- app_assoc.
Qed.
Lemma new_converter_ok opts :
  Forall (fun kv => boolean_like (snd kv)) opts ->
  exists c, new_converter opts = (c, None) /\ holds_booleans c /\ c_options c = Some (map fst opts).
Proof.
  intros F. unfold new_converter. cbn -[start_configurations putf lit].
  destruct (start_configurations_ok opts (set_options (Some []) {| c_options := None;
      c_attrs := putf (lit "quiet") (VBool true) (putf (lit "convert_additional_fields") (VBool false) []) |}) F) as (c & E & H & o & O1 & O2).
  - intros k (o & O & G). cbn in O. inversion O; subst o. destruct G as [[]|[<-|[<-|[]]]]; eexists; split; try reflexivity; constructor.
  - eexists. reflexivity.
  - exists c. split; [exact E|]. split; [exact H|]. cbn in O1. inversion O1; subst o. exact O2.
Qed.

(** * Requests *)
Lemma formats_supported s : str_in s formats = true <-> supported s.
Proof.
  unfold supported, formats. rewrite str_in_In. cbn [In]. split.
  - intros [<-|[<-|[<-|[]]]]; auto.
  - intros [->|[->| ->]]; auto.
Qed.
Lemma flow_lists_spec a l : getf a flow_lists = Some l -> supported a /\ forall x, str_in x l = true <-> flow_list_of a x.
Proof.
  intros H. apply getf_In in H. destruct H as [H|[H|[H|[]]]]; inversion H; subst; split;
    try (unfold supported; auto; fail); intros x; unfold flow_list_of; cbn [str_in existsb]; rewrite orb_false_r, str_eqb_eq;
    (split; [intros E; subst x; auto 10|]).
  - intros [[_ E]|[[E|E] _]]; auto; discriminate.
  - intros [[E _]|[_ E]]; auto; discriminate.
  - intros [[E _]|[_ E]]; auto; discriminate.
Qed.
Lemma supported_lists a : supported a -> exists l, getf a flow_lists = Some l.
Proof. intros [->|[->| ->]]; eexists; reflexivity. Qed.
Lemma usable_spec a p : supported a ->
  (p_exists p = true /\ (if p_is_dir p then Ok tt else verify_file (extensions_of a) (p_name p)) = Ok tt) <-> usable_input a p.
Proof.
  intros S. unfold usable_input. split; intros [H1 H2]; split; auto.
  - destruct (p_is_dir p); [now left|]. right. unfold verify_file in H2.
    destruct (existsb _ _) eqn:E in H2; [|discriminate]. apply existsb_exists in E. destruct E as (e & I & E).
    apply suffixb_spec in E. unfold extensions_of in I. destruct (str_eqb a (lit "EcoSpold2")) eqn:A.
    + apply str_eqb_eq in A. left. split; auto. destruct I as [<-|[<-|[]]]; auto.
    + apply str_eqb_neq in A. right. split; auto. destruct I as [<-|[<-|[<-|[]]]]; auto.
  - destruct H2 as [D|H2]; [now rewrite D|]. destruct (p_is_dir p); auto.
    assert (E : existsb (fun ve => suffixb ve (p_name p)) (extensions_of a) = true).
    { apply existsb_exists. unfold extensions_of. destruct H2 as [[A H]|[A H]].
      - rewrite A. cbn -[lit suffixb]. destruct H as [H|H]; [exists (lit ".spold")|exists (lit ".SPOLD")]; (split; [cbn; auto|now apply suffixb_spec]).
      - apply str_eqb_neq in A. rewrite A.
        destruct H as [H|[H|H]]; [exists (lit ".zip")|exists (lit ".ZIP")|exists (lit ".xml")]; (split; [cbn; auto|now apply suffixb_spec]). }
    unfold verify_file. now rewrite E.
Qed.

(** * File information *)
Lemma ikey_eqb_eq a b : ikey_eqb a b = true <-> a = b.
Proof.
  split.
  - destruct a, b; cbn [ikey_eqb]; try discriminate; auto. intros H. apply andb_prop in H. destruct H as [H1 H2].
    apply str_eqb_eq in H1. apply eqb_prop in H2. congruence.
  - intros <-. destruct a; cbn [ikey_eqb]; auto. rewrite str_eqb_refl, eqb_reflx. reflexivity.
Qed.
Lemma geti_puti k k' v d : geti k (puti k' v d) = if ikey_eqb k k' then Some v else geti k d.
Proof.
  induction d as [|[x w] d IH]; cbn [puti geti]; auto.
  destruct (ikey_eqb k' x) eqn:E; cbn [geti].
  - apply ikey_eqb_eq in E. subst x. destruct (ikey_eqb k k'); auto.
  - rewrite IH. destruct (ikey_eqb k x) eqn:E2; auto. apply ikey_eqb_eq in E2. subst x.
    destruct (ikey_eqb k k') eqn:E3; auto. apply ikey_eqb_eq in E3. subst k'. 
    assert (X : ikey_eqb k k = true) by (now apply ikey_eqb_eq). congruence.
Qed.
Definition shaped (d : list (ikey * ival)) : Prop :=
  forall k v, geti k d = Some v -> if is_list_key k then exists l, v = IList l else exists x, v = IOne x.
Lemma shaped_puti k v d : shaped d ->
  (if is_list_key k then exists l, v = IList l else exists x, v = IOne x) -> shaped (puti k v d).
Proof.
  intros S H k' v' G. rewrite geti_puti in G. destruct (ikey_eqb k' k) eqn:E.
  - apply ikey_eqb_eq in E. subst k'. inversion G; subst. exact H.
  - now apply S.
Qed.
Lemma info_steps_one tbl k : is_list_key k = false -> forall rs d d', shaped d ->
  info_steps tbl d rs = Ok d' ->
  match geti k d with
  | Some v => geti k d' = Some v
  | None => exists o, found tbl k rs o /\ geti k d' = option_map IOne o
  end.
Proof.
  intros L. induction rs as [|[p t] rs IH]; intros d d' S H; cbn [info_steps] in H.
  - inversion H; subst. destruct (geti k d'); auto. exists None. split; [constructor|reflexivity].
  - destruct (info_step tbl d (p, t)) as [d1|] eqn:E; [|discriminate]. cbn [bind] in H. unfold info_step in E. cbn [fst snd] in E.
    destruct (getf p tbl) as [[k' f]|] eqn:G; [|discriminate].
    assert (S1 : shaped d1).
    { destruct (geti k' d) as [[x|l]|] eqn:K.
      - inversion E; subst. exact S.
      - destruct (is_list_key k') eqn:LK.
        + destruct (f t); [|discriminate]. cbn [bind] in E. inversion E; subst. apply shaped_puti; auto. rewrite LK. eauto.
        + inversion E; subst. exact S.
      - destruct (f t); [|discriminate]. cbn [bind] in E. inversion E; subst. apply shaped_puti; auto.
        destruct (is_list_key k'); eauto. }
    specialize (IH d1 d' S1 H).
    destruct (ikey_eqb k k') eqn:KK.
    + apply ikey_eqb_eq in KK. subst k'. rewrite L in E. destruct (geti k d) as [v|] eqn:K.
      * destruct v; inversion E; subst d1; rewrite K in IH; exact IH.
      * destruct (f t) as [v|] eqn:Ft; [|discriminate]. cbn [bind] in E. inversion E; subst d1.
        rewrite geti_puti in IH. assert (X : ikey_eqb k k = true) by (now apply ikey_eqb_eq). rewrite X in IH.
        exists (Some v). split; [econstructor; eauto|exact IH].
    + assert (Q : geti k d1 = geti k d).
      { destruct (geti k' d) as [[x|l]|].
        - inversion E; auto.
        - destruct (is_list_key k').
          + destruct (f t); [|discriminate]. cbn [bind] in E. inversion E. rewrite geti_puti, KK. reflexivity.
          + inversion E; auto.
        - destruct (f t); [|discriminate]. cbn [bind] in E. inversion E. rewrite geti_puti, KK. reflexivity. }
      rewrite Q in IH. destruct (geti k d); auto. destruct IH as (o & F & R). exists o. split; auto.
      econstructor; eauto. intros ->. assert (X : ikey_eqb k k = true) by (now apply ikey_eqb_eq). congruence.
Qed.
Lemma info_steps_list tbl k : is_list_key k = true -> forall rs d d', shaped d ->
  info_steps tbl d rs = Ok d' ->
  exists vs, all_found tbl k rs vs /\
    geti k d' = match geti k d with
                | Some (IList l) => Some (IList (l ++ vs))
                | _ => match vs with [] => None | _ => Some (IList vs) end
                end.
Proof.
  intros L. induction rs as [|[p t] rs IH]; intros d d' S H; cbn [info_steps] in H.
  - inversion H; subst. exists []. split; [constructor|]. destruct (geti k d') as [[x|l]|] eqn:G; auto.
    + apply S in G. rewrite L in G. destruct G as [l G]. discriminate.
    + now rewrite app_nil_r.
  - destruct (info_step tbl d (p, t)) as [d1|] eqn:E; [|discriminate]. cbn [bind] in H. unfold info_step in E. cbn [fst snd] in E.
    destruct (getf p tbl) as [[k' f]|] eqn:G; [|discriminate].
    assert (S1 : shaped d1).
    { destruct (geti k' d) as [[x|l]|] eqn:K.
      - inversion E; subst. exact S.
      - destruct (is_list_key k') eqn:LK.
        + destruct (f t); [|discriminate]. cbn [bind] in E. inversion E; subst. apply shaped_puti; auto. rewrite LK. eauto.
        + inversion E; subst. exact S.
      - destruct (f t); [|discriminate]. cbn [bind] in E. inversion E; subst. apply shaped_puti; auto.
        destruct (is_list_key k'); eauto. }
    specialize (IH d1 d' S1 H). destruct IH as (vs & F & R).
    destruct (ikey_eqb k k') eqn:KK.
    + assert (X : ikey_eqb k k = true) by (now apply ikey_eqb_eq).
      apply ikey_eqb_eq in KK. subst k'. rewrite L in E. destruct (geti k d) as [[x|l]|] eqn:K.
      * apply S in K. rewrite L in K. destruct K as [l K]. discriminate.
      * destruct (f t) as [v|] eqn:Ft; [|discriminate]. cbn [bind] in E. inversion E; subst d1.
        rewrite geti_puti, X in R. exists (v :: vs). split; [econstructor; eauto|]. rewrite R, <- app_assoc. reflexivity.
      * destruct (f t) as [v|] eqn:Ft; [|discriminate]. cbn [bind] in E. inversion E; subst d1.
        rewrite geti_puti, X in R. exists (v :: vs). split; [econstructor; eauto|]. exact R.
    + assert (Q : geti k d1 = geti k d).
      { destruct (geti k' d) as [[x|l]|].
        - inversion E; auto.
        - destruct (is_list_key k').
          + destruct (f t); [|discriminate]. cbn [bind] in E. inversion E. rewrite geti_puti, KK. reflexivity.
          + inversion E; auto.
        - destruct (f t); [|discriminate]. cbn [bind] in E. inversion E. rewrite geti_puti, KK. reflexivity. }
      rewrite Q in R. exists vs. split; auto. econstructor; eauto. intros ->.
      assert (X : ikey_eqb k k = true) by (now apply ikey_eqb_eq). congruence.
Qed.
Lemma info_steps_ok tbl rs : forall d,
  (forall p t, In (p, t) rs -> exists k f v, getf p tbl = Some (k, f) /\ f t = Ok v) ->
  exists d', info_steps tbl d rs = Ok d'.
Proof.
  induction rs as [|[p t] rs IH]; intros d H; cbn [info_steps]; [eauto|].
  destruct (H p t (or_introl eq_refl)) as (k & f & v & G & F).
  assert (E : exists d1, info_step tbl d (p, t) = Ok d1).
  { unfold info_step. cbn [fst snd]. rewrite G. destruct (geti k d) as [[x|l]|]; eauto.
    - destruct (is_list_key k); eauto. rewrite F. cbn [bind]. eauto.
    - rewrite F. cbn [bind]. eauto. }
  destruct E as [d1 E]. rewrite E. cbn [bind]. apply IH. intros p' t' I. apply H. now right.
Qed.

(** ** The entries for the mapping class *)
Lemma puti_keys k v d : forall k', In k' (map fst (puti k v d)) -> k' = k \/ In k' (map fst d).
Proof.
  induction d as [|[k1 w] d IH]; intros k' H; cbn [puti map fst In] in *.
  - destruct H as [H|[]]; auto.
  - destruct (ikey_eqb k k1); cbn [map fst In] in H; [tauto|]. destruct H as [H|H]; [tauto|]. destruct (IH _ H); tauto.
Qed.
Lemma info_steps_keys tbl : forall rs d d', info_steps tbl d rs = Ok d' ->
  forall k, In k (map fst d') -> In k (map fst d) \/ exists p f, getf p tbl = Some (k, f).
Proof.
  induction rs as [|[p t] rs IH]; intros d d' H k I; cbn [info_steps] in H.
  - inversion H; subst. now left.
  - destruct (info_step tbl d (p, t)) as [d1|] eqn:E; [|discriminate]. cbn [bind] in H.
    destruct (IH _ _ H k I) as [J|J]; [|now right]. unfold info_step in E. cbn [fst snd] in E.
    destruct (getf p tbl) as [[k1 f]|] eqn:G; [|discriminate].
    assert (A : forall x, d1 = puti k1 x d -> In k (map fst d) \/ exists p f, getf p tbl = Some (k, f)).
    { intros x ->. apply puti_keys in J. destruct J as [->|J]; [right; eauto|now left]. }
    destruct (geti k1 d) as [[x|l]|].
    + inversion E; subst. now left.
    + destruct (is_list_key k1); [|inversion E; subst; now left].
      destruct (f t); [|discriminate]. cbn [bind] in E. inversion E; subst. eapply A; reflexivity.
    + destruct (f t); [|discriminate]. cbn [bind] in E. inversion E; subst. eapply A; reflexivity.
Qed.
Lemma mapping_entries_get n b d : (forall b', In (KMapping n b') (map fst d) -> b' = b) ->
  getf n (mapping_entries d) = geti (KMapping n b) d.
Proof.
  induction d as [|[k v] d IH]; intros H; [reflexivity|]. cbn [map fst In] in H.
  assert (IH' : getf n (mapping_entries d) = geti (KMapping n b) d) by (apply IH; intros; apply H; auto).
  destruct k as [| |m c]; cbn [mapping_entries geti ikey_eqb getf]; [exact IH'|exact IH'|].
  destruct (str_dec n m) as [->|D].
  2:{ rewrite (proj2 (str_eqb_neq n m) D), (proj2 (str_eqb_neq m n) (fun e => D (eq_sym e))). exact IH'. }
  rewrite str_eqb_refl. cbn [andb].
  rewrite (H c (or_introl eq_refl)), Bool.eqb_reflx. reflexivity.
Qed.
