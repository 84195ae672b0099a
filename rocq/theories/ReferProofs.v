(** Proofs about references. *)
From Coq Require Import Ascii String List Bool Arith NArith ZArith Lia.
From Verif Require Import PyBase PyBaseFacts PyValues MultiLangModel DotDictModel XmlModel XmlSpec XmlProofs XmlProps
  KeysModel KeysSpec KeysProofs HandleModel HandleSpec HandleProofs ExchangeModel ReferModel ReferSpec.
Import ListNotations.

(** * Reading *)
Lemma ref_name : xml_name (lit "shortDescription").
Proof. repeat split; try discriminate. vm_compute. intuition discriminate. Qed.
Lemma reference_read e i ds : reference e i ds ->
  exists d, elem2dict e = VDict d /\ getf kref d = Some (VStr i) /\
    getf kshort d = match ds with [] => None | [k] => Some (elem2dict k) | _ => Some (VList (map elem2dict ds)) end.
Proof.
  intros (P & D & (k & I & N) & _ & K). destruct (C25_content_kept_partial e P D) as (A & _ & C).
  specialize (A _ _ _ I N). specialize (C _ _ ref_name K).
  destruct (elem2dict e) as [| | | |s| | |d|] eqn:E; cbn [content] in A, C; try (vm_compute in A; discriminate A).
  exists d. repeat split; assumption.
Qed.
Lemma in_language_read d s : in_language d s -> exists l, elem2dict d = VDict [(klang, VStr l); (ktext, VStr s)].
Proof.
  intros ((l & A & K) & T). destruct d as [t a x tl k]. cbn in A, K, T. subst. exists l. cbn [elem2dict map fold_left].
  unfold own_entries. destruct T as [[-> B]|[B ->]].
  - rewrite (real_nonblank _ B). reflexivity.
  - rewrite (real_blank _ B). reflexivity.
Qed.

(** * What the reader reports are parts of the document *)
Lemma reports_are_parts keys e : proper e -> forall n q k x, name_of (etag e) n -> In (k, x) (reports keys q e) ->
  (exists r f, k = q ++ r /\ part e (lit "/" ++ n ++ r) f /\ x = elem2dict f) \/ In (ch "@") k.
Proof.
  induction e as [t a x0 l es IH] using elem_ind2. intros P n q k x Hn H. cbn [reports] in H. apply in_app_or in H.
  inversion P as [? ? ? ? ? m Hm Xm F]; subst. cbn [etag] in Hn. destruct H as [H|H].
  - apply in_flat_map in H. destruct H as (kid & Ik & H). rewrite Forall_forall in IH, F. specialize (IH kid Ik).
    pose proof (F kid Ik) as Pk. assert (exists kn, name_of (etag kid) kn) as [kn Hk] by (inversion Pk; subst; eauto).
    rewrite (name_local _ _ Hk) in H. destruct (IH Pk kn _ k x Hk H) as [(r & f & -> & Hp & ->)|C]; [left|now right].
    exists (lit "/" ++ kn ++ r), f. split; [now rewrite <- !app_assoc|]. split; [|reflexivity].
    now apply (part_kid _ _ _ _ _ n kid).
  - unfold due in H. apply in_app_or in H. cbn [fst snd eattrib] in H. destruct H as [H|H].
    + destruct (in_dec _ _ _); [|contradiction]. destruct H as [E|[]]. injection E as <- <-. left. exists [], (Elem t a x0 l es).
      rewrite !app_nil_r. split; [reflexivity|]. split; [|reflexivity]. now constructor.
    + apply in_flat_map in H. destruct H as (kv & _ & H). destruct (in_dec _ _ _); [|contradiction].
      destruct H as [E|[]]. injection E as <- _. right. apply in_or_app. right. right. now left.
Qed.
Lemma read_parts keys e k x : proper e -> ~ In (ch "@") k -> In (k, x) (read keys e) ->
  exists f, part e k f /\ x = elem2dict f.
Proof.
  intros P N H. rewrite (read_reports keys e P) in H.
  assert (exists n, name_of (etag e) n) as [n Hn] by (inversion P; subst; cbn; eauto).
  rewrite (name_local _ _ Hn) in H. destruct (reports_are_parts keys e P n _ k x Hn H) as [(r & f & E & Hp & ->)|C]; [|contradiction].
  exists f. split; [|reflexivity]. subst k. now rewrite <- app_assoc.
Qed.
Lemma read_keys keys e k x : proper e -> In (k, x) (read keys e) -> In k keys.
Proof. intros P H. rewrite (read_reports keys e P) in H. now apply reports_keys in H. Qed.

(** * Runs *)
Lemma run_stops_rest uses rest k x reports e : rest k x = Err e -> In (k, x) reports ->
  exists e', run uses rest reports = Err e'.
Proof.
  intros D. induction reports as [|[k' x'] r IH]; [contradiction|]. intros [E|I].
  - injection E as -> ->. cbn [run]. destruct (getf k uses) as [u|]; [|now eexists].
    destruct (demand u x) as [[]|e1]; [|now eexists]. cbn [bind]. rewrite D. now eexists.
  - cbn [run]. destruct (getf k' uses) as [u'|]; [|now eexists]. destruct (demand u' x') as [[]|e1]; [|now eexists].
    cbn [bind]. destruct (rest k' x') as [[]|e2]; [|now eexists]. cbn [bind]. now apply IH.
Qed.
Lemma referring_asked k r : In (k, r) referring_of -> In k ilcd_keys.
Proof.
  intros I. assert (E : forallb (fun kr => str_in (fst kr) ilcd_keys) referring_of = true) by (vm_compute; reflexivity).
  rewrite forallb_forall in E. apply str_in_In. exact (E _ I).
Qed.

(** * Contacts *)
Lemma ref_init_ok e i ds : reference e i ds ->
  ref_init (elem2dict e) = Ok (Some i, match ds with [] => VDict [] | [k] => elem2dict k | _ => VList (map elem2dict ds) end).
Proof.
  intros R. destruct (reference_read _ _ _ R) as (d & -> & A & B). unfold ref_init. rewrite A, B.
  destruct R as (_ & _ & _ & N & _). destruct i as [|c i]; [now destruct N|]. destruct ds as [|k [|k2 ds]]; reflexivity.
Qed.
Definition set_first (cid : pystr -> pystr) (cf : contact_fields) (i s : pystr) : list (pystr * pyval) :=
  [(cf_id cf, VStr (cid i)); (cf_name cf, VStr s)] ++ match cf_email cf with Some f => [(f, VStr [])] | None => [] end.
Lemma contact_init_ok cid cf e i ds s : reference e i ds -> described ds s ->
  contact_init cid cf (elem2dict e) = Ok (Some i, set_first cid cf i s).
Proof.
  intros R D. unfold contact_init. rewrite (ref_init_ok _ _ _ R). cbn [bind fst snd]. destruct D as [[-> ->]|(d & -> & L)].
  - reflexivity.
  - destruct (in_language_read _ _ L) as [l ->]. reflexivity.
Qed.
Lemma contact_init_err cid cf e i ds : reference e i ds -> otherwise_described ds ->
  contact_init cid cf (elem2dict e) = Err AttributeError.
Proof.
  intros R D. unfold contact_init. rewrite (ref_init_ok _ _ _ R). cbn [bind fst snd]. destruct D as [L|(d & s & -> & T)].
  - destruct ds as [|a [|b ds]]; cbn in L; try lia. reflexivity.
  - now rewrite (read_plain _ _ T).
Qed.

Definition texts_of (l : list (pystr * pyval)) : Prop :=
  forall k x, In (k, x) l -> k = kname \/ k = ksname -> exists s, text_item x = Ok (VStr s).
Lemma contact_steps_ok l : texts_of l -> forall i,
  exists j, contact_steps i l = Ok j /\
    (ci_name j = ci_name i /\ (forall x, ~ In (kname, x) l) \/
     exists x s, In (kname, x) l /\ text_item x = Ok (VStr s) /\ ci_name j = Some (VStr s)).
Proof.
  induction l as [|[k x] r IH]; intros T i.
  - exists i. split; [reflexivity|]. left. split; [reflexivity|]. now intros x [].
  - assert (T' : texts_of r) by (intros k' x' I; apply T; now right). cbn [contact_steps].
    destruct (str_eqb k kname) eqn:E1.
    + unfold contact_step. cbn [fst snd]. rewrite E1. apply str_eqb_eq in E1. subst k. destruct (T kname x (or_introl eq_refl) (or_introl eq_refl)) as [s Hs]. rewrite Hs. cbn [bind].
      destruct (IH T' (ContactInfo (Some (VStr s)) (ci_short i) (ci_email i))) as (j & -> & [[Hj Hn]|(x' & s' & I & Hx & Hj)]);
        exists j; (split; [reflexivity|]); right.
      * exists x, s. split; [now left|]. now split.
      * exists x', s'. split; [now right|]. now split.
    + assert (N : k <> kname) by (intros ->; now rewrite str_eqb_refl in E1).
      assert (X : exists i', contact_step i (k, x) = Ok i' /\ ci_name i' = ci_name i).
      { unfold contact_step. cbn [fst snd]. rewrite E1. destruct (str_eqb k ksname) eqn:E2; [|now eexists].
        apply str_eqb_eq in E2. subst k.
        destruct (T ksname x (or_introl eq_refl) (or_intror eq_refl)) as [s Hs]. rewrite Hs. cbn [bind]. now eexists. }
      destruct X as (i' & -> & Hi). cbn [bind]. destruct (IH T' i') as (j & -> & [[Hj Hn]|(x' & s' & I & Hx & Hj)]);
        exists j; (split; [reflexivity|]).
      * left. split; [congruence|]. intros y [E|I]; [congruence|now apply (Hn y)].
      * right. exists x', s'. split; [now right|]. now split.
Qed.
Lemma contact_steps_plain l k s : k = kname \/ k = ksname -> In (k, VStr s) l -> forall i, exists e, contact_steps i l = Err e.
Proof.
  intros K. induction l as [|[k' x'] r IH]; [contradiction|]. intros [E|I] i; cbn [contact_steps].
  - injection E as -> ->. unfold contact_step. cbn [fst snd]. destruct K as [->| ->].
    + rewrite str_eqb_refl. now exists TypeError.
    + change (str_eqb ksname kname) with false. rewrite str_eqb_refl. now exists TypeError.
  - destruct (contact_step i (k', x')) as [i'|e]; [|now exists e]. cbn [bind]. now apply IH.
Qed.
Lemma contact_steps_unnamed l : (forall x, ~ In (kname, x) l) -> forall i j, contact_steps i l = Ok j -> ci_name j = ci_name i.
Proof.
  induction l as [|[k x] r IH]; intros N i j; cbn [contact_steps].
  - intros [= <-]. reflexivity.
  - destruct (contact_step i (k, x)) as [i'|e] eqn:S; [|discriminate]. cbn [bind]. intros H.
    rewrite (IH (fun y I => N y (or_intror I)) i' j H). unfold contact_step in S. cbn [fst snd] in S.
    destruct (str_eqb k kname) eqn:E1; [apply str_eqb_eq in E1; subst k; destruct (N x); now left|].
    destruct (str_eqb k ksname).
    + destruct (text_item x); [|discriminate]. injection S as <-. reflexivity.
    + injection S as <-. reflexivity.
Qed.

(** * Sources *)
Lemma short_text_ok e i ds s : reference e i ds -> described ds s -> short_text (elem2dict e) = Ok s.
Proof.
  intros R D. destruct (reference_read _ _ _ R) as (d & -> & _ & B). unfold short_text. rewrite B.
  destruct D as [[-> ->]|(k & -> & L)]; [reflexivity|]. destruct (in_language_read _ _ L) as [l ->]. reflexivity.
Qed.
Lemma short_text_err e i ds : reference e i ds -> otherwise_described ds -> short_text (elem2dict e) = Err TypeError.
Proof.
  intros R D. destruct (reference_read _ _ _ R) as (d & -> & _ & B). unfold short_text. rewrite B.
  destruct D as [L|(k & s & -> & T)].
  - destruct ds as [|a [|b ds]]; cbn in L; try lia. reflexivity.
  - now rewrite (read_plain _ _ T).
Qed.
Lemma kind_eqb_eq a b : kind_eqb a b = true <-> a = b.
Proof. destruct a, b; cbn; split; intros; congruence. Qed.
Lemma kind_in k fs : existsb (kind_eqb k) fs = true <-> In k fs.
Proof.
  rewrite existsb_exists. split.
  - intros (y & I & E). apply kind_eqb_eq in E. now subst.
  - intros I. exists k. split; [exact I|now apply kind_eqb_eq].
Qed.
Lemma source_init_ok fs u e i ds s : reference e i ds -> described ds s ->
  source_init fs u (elem2dict e) = if existsb (kind_eqb (kind_of u s)) fs then Ok (Some i, kind_of u s) else Err KeyError.
Proof.
  intros R D. unfold source_init. rewrite (ref_init_ok _ _ _ R). cbn [bind fst snd]. now rewrite (short_text_ok _ _ _ _ R D).
Qed.
Lemma source_init_err fs u e i ds : reference e i ds -> otherwise_described ds -> source_init fs u (elem2dict e) = Err TypeError.
Proof.
  intros R D. unfold source_init. rewrite (ref_init_ok _ _ _ R). cbn [bind fst snd]. now rewrite (short_text_err _ _ _ R D).
Qed.
Definition source_texts (l : list (pystr * pyval)) : Prop :=
  (forall x, In (ksource, x) l -> exists s, text_item x = Ok (VStr s)) /\
  (forall x, In (kcitation, x) l -> exists s, x = VStr s) /\
  (forall k x, In (k, x) l -> k = ksource \/ k = kcitation).
Definition str_opt (v : option pyval) : Prop := match v with None => True | Some (VStr _) => True | _ => False end.
Lemma source_steps_ok l : source_texts l -> forall i, str_opt (si_name i) -> str_opt (si_citation i) ->
  exists j, source_steps i l = Ok j /\ str_opt (si_name j) /\ str_opt (si_citation j) /\
    (si_name j = None -> si_name i = None /\ forall x, ~ In (ksource, x) l).
Proof.
  induction l as [|[k x] r IH]; intros (T1 & T2 & T3) i N C.
  - exists i. repeat split; trivial. now intros x [].
  - assert (T' : source_texts r). { split; [|split]; intros; [apply T1|apply T2|eapply T3]; right; eassumption. }
    cbn [source_steps]. unfold source_step. cbn [fst snd]. destruct (T3 k x (or_introl eq_refl)) as [->| ->].
    + change (str_eqb ksource kcitation) with false. destruct (T1 x (or_introl eq_refl)) as [s Hs]. rewrite Hs. cbn [bind].
      destruct (IH T' (SourceInfo (si_citation i) (Some (VStr s))) I C) as (j & H & A & B & D). exists j.
      split; [exact H|]. split; [exact A|]. split; [exact B|]. intros E. destruct (D E) as [F _]. discriminate F.
    + rewrite str_eqb_refl. destruct (T2 x (or_introl eq_refl)) as [s ->]. cbn [bind].
      destruct (IH T' (SourceInfo (Some (VStr s)) (si_name i)) N I) as (j & H & A & B & D). exists j.
      split; [exact H|]. split; [exact A|]. split; [exact B|]. intros E. destruct (D E) as [F G]. split; [exact F|].
      intros y [Q|Q]; [discriminate Q|now apply (G y)].
Qed.
Lemma source_steps_of (N C : pyval -> Prop) l :
  (forall x v, In (ksource, x) l -> text_item x = Ok v -> N v) -> (forall x, In (kcitation, x) l -> C x) ->
  (forall k x, In (k, x) l -> k = ksource \/ k = kcitation) ->
  forall i j, (forall v, si_name i = Some v -> N v) -> (forall v, si_citation i = Some v -> C v) -> source_steps i l = Ok j ->
  (forall v, si_name j = Some v -> N v) /\ (forall v, si_citation j = Some v -> C v) /\
  (si_citation j = None -> si_citation i = None /\ forall x, ~ In (kcitation, x) l).
Proof.
  induction l as [|[k x] r IH]; intros HN HC HK i j Ni Ci.
  - intros [= <-]. repeat split; auto.
  - cbn [source_steps]. unfold source_step. cbn [fst snd]. destruct (HK k x (or_introl eq_refl)) as [->| ->].
    + change (str_eqb ksource kcitation) with false. destruct (text_item x) as [v|e] eqn:T; cbn [bind]; [|discriminate]. intros H.
      destruct (IH (fun y w I => HN y w (or_intror I)) (fun y I => HC y (or_intror I)) (fun a b I => HK a b (or_intror I))
        (SourceInfo (si_citation i) (Some v)) j) as (A & B & D); [| |exact H|].
      * intros w [= <-]. now apply (HN x v); [left|].
      * exact Ci.
      * split; [exact A|]. split; [exact B|]. intros Q. destruct (D Q) as [Q1 Q2]. split; [exact Q1|]. intros y [Y|Y]; [discriminate Y|now apply (Q2 y)].
    + rewrite str_eqb_refl. cbn [bind]. intros H.
      destruct (IH (fun y w I => HN y w (or_intror I)) (fun y I => HC y (or_intror I)) (fun a b I => HK a b (or_intror I))
        (SourceInfo (Some x) (si_name i)) j) as (A & B & D); [| |exact H|].
      * exact Ni.
      * intros w [= <-]. apply HC. now left.
      * split; [exact A|]. split; [exact B|]. intros Q. destruct (D Q) as [Q1 _]. discriminate Q1.
Qed.
Lemma source_steps_plain l s : In (ksource, VStr s) l -> forall i, exists e, source_steps i l = Err e.
Proof.
  induction l as [|[k' x'] r IH]; [contradiction|]. intros [E|I] i; cbn [source_steps].
  - injection E as -> ->. now exists TypeError.
  - destruct (source_step i (k', x')) as [i'|e]; [|now exists e]. cbn [bind]. now apply IH.
Qed.
Lemma source_steps_unnamed l : (forall x, ~ In (ksource, x) l) -> (forall k x, In (k, x) l -> k = ksource \/ k = kcitation) ->
  forall i j, source_steps i l = Ok j -> si_name j = si_name i.
Proof.
  induction l as [|[k x] r IH]; intros N K i j; cbn [source_steps].
  - intros [= <-]. reflexivity.
  - destruct (K k x (or_introl eq_refl)) as [->| ->]; [destruct (N x); now left|].
    unfold source_step. cbn [fst snd]. rewrite str_eqb_refl. cbn [bind]. intros H.
    now rewrite (IH (fun y I => N y (or_intror I)) (fun k' x' I => K k' x' (or_intror I)) _ j H).
Qed.

(** * Checkers for documents without namespaces, used in examples *)
Fixpoint properb (e : elem) : bool :=
  match e with Elem t _ _ _ es => (name_ok t && forallb properb es)%bool end.
Lemma properb_sound e : properb e = true -> proper e.
Proof.
  induction e as [t a x l es IH] using elem_ind2. cbn [properb]. rewrite andb_true_iff, forallb_forall. intros [N F].
  destruct (name_ok_spec _ N) as [X M]. apply (proper_elem _ _ _ _ _ t M X). rewrite Forall_forall in *. auto.
Qed.
Fixpoint at_place (e : elem) (w : list nat) : option (pystr * elem) :=
  match w with
  | [] => Some (lit "/" ++ etag e, e)
  | i :: w' =>
      match nth_error (ekids e) i with
      | Some k => option_map (fun pf => (lit "/" ++ etag e ++ fst pf, snd pf)) (at_place k w')
      | None => None
      end
  end.
Lemma at_place_part w : forall e p f, properb e = true -> at_place e w = Some (p, f) -> part e p f.
Proof.
  induction w as [|i w IH]; intros [t a x l es] p f; cbn [properb at_place etag ekids]; rewrite andb_true_iff, forallb_forall;
    intros [N F]; destruct (name_ok_spec _ N) as [_ M].
  - intros [= <- <-]. now constructor.
  - destruct (nth_error es i) as [k|] eqn:E; [|discriminate]. apply nth_error_In in E.
    destruct (at_place k w) as [[q g]|] eqn:G; [|discriminate]. cbn [option_map fst snd]. intros H.
    assert (p = lit "/" ++ t ++ q /\ f = g) as [-> ->] by (split; congruence). apply (part_kid _ _ _ _ _ t k q g M E). now apply IH; [apply F|].
Qed.
Lemma named_filter n es : Forall (fun e => name_ok (etag e) = true) es ->
  named_kids n es (filter (fun e => str_eqb (etag e) n) es).
Proof.
  induction es as [|e es IH]; intros F; cbn [filter]; [constructor|]. inversion F as [|? ? A B]; subst.
  destruct (name_ok_spec _ A) as [_ M]. destruct (str_eqb (etag e) n) eqn:E.
  - apply str_eqb_eq in E. constructor; [now rewrite <- E|now apply IH].
  - constructor; [|now apply IH]. intros Q. rewrite <- (name_local _ _ Q), (name_local _ _ M), str_eqb_refl in E. discriminate.
Qed.
