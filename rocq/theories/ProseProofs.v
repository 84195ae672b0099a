(** Lemmas about the texts of an activity. *)
From Coq Require Import Ascii String List Bool Arith NArith ZArith Lia Permutation Sorted.
From Verif Require Import PyBase PyBaseFacts PyValues PyDigits TextSplitModel ValidatorsModel MultiLangModel MultiLangSpec MultiLangProofs MultiLangProps
  DotDictModel DotDictProofs SchemaModel SchemaTables TablesModel CommentModel CommentSpec CommentProofs CommentProps XmlModel OutflowModel ProseModel ProseSpec.
Import ListNotations.
Local Open Scope string_scope.
Local Open Scope list_scope.

(** ** Assignments *)
Definition keep (l : list triple) : list triple := filter (fun a => nonblank (entry_of a)) l.
Lemma keep_app a b : keep (a ++ b) = keep a ++ keep b.
Proof. apply filter_app. Qed.
Lemma keep_visible l : visible_of l (keep l).
Proof.
  induction l as [|a l IH]; [constructor|]. cbn [keep filter]. destruct (nonblank (entry_of a)) eqn:E.
  - apply vis_keep; [|exact IH]. apply isspace_visible. apply nonblank_has in E as (t & Ht & H). cbn in Ht. injection Ht as <-. exact H.
  - apply vis_skip; [|exact IH]. intros V. apply isspace_visible in V as [V1 V2]. unfold nonblank, entry_of in E. cbn [tx] in E.
    destruct (snd a); [now apply V1|]. rewrite V2 in E. cbn in E. discriminate.
Qed.
Lemma visible_keep l v : visible_of l v -> v = keep l.
Proof. intros H. eapply visible_of_fun; [exact H|apply keep_visible]. Qed.
Lemma keep_in l a : In a (keep l) -> In a l /\ visible_text (snd a).
Proof.
  intros H. apply filter_In in H as [H1 H2]. split; [exact H1|]. apply isspace_visible.
  apply nonblank_has in H2 as (t & Ht & H). cbn in Ht. injection Ht as <-. exact H.
Qed.
Lemma keep_all l : Forall (fun a => visible_text (snd a)) l -> keep l = l.
Proof. induction 1; [reflexivity|]. symmetry. apply visible_keep. apply vis_keep; auto. clear - IHForall. rewrite <- IHForall at 2. apply keep_visible. Qed.

(** the texts offered by a value, when it is accepted *)
Definition speaks (v : pyval) (l : list triple) : Prop :=
  forall langs ns, retrieve (lang_validate langs) v = Ok ns -> map triple_of ns = keep l.

Lemma validate_entry langs i s e : lang_validate langs (entry_at i s) = Ok e -> triple_of e = (i, fst s, snd s) /\ tx e = Some (snd s) /\ e = entry_of (i, fst s, snd s).
Proof.
  unfold lang_validate, indexed_validate, basic_validate, entry_at. cbn -[Nat.eqb str_in].
  destruct (negb (Nat.eqb (length (fst s)) 2)); [discriminate|].
  assert (H : forall e', e' = {| ix := i; lg := fst s; tx := Some (snd s) |} -> triple_of e' = (i, fst s, snd s) /\ tx e' = Some (snd s) /\ e' = entry_of (i, fst s, snd s)).
  { intros e' ->. auto. }
  destruct langs as [ls|]; [destruct (str_in (fst s) ls); [|discriminate]|]; intros [= <-]; apply H; reflexivity.
Qed.
Lemma validate_raw langs t e : lang_validate langs (raw_text t) = Ok e -> e = entry_of t.
Proof.
  destruct t as [[i k] u]. unfold lang_validate, indexed_validate, basic_validate, raw_text. cbn -[Nat.eqb str_in py_int str_of_Z].
  unfold py_int. rewrite int_of_str_of_Z. cbn -[Nat.eqb str_in].
  destruct (negb (Nat.eqb (length k) 2)); [discriminate|].
  destruct langs as [ls|]; [destruct (str_in k ls); [|discriminate]|]; intros [= <-]; reflexivity.
Qed.
Lemma keep_entries l : map triple_of (filter nonblank (map entry_of l)) = keep l.
Proof.
  induction l as [|a l IH]; [reflexivity|]. cbn [map filter keep]. destruct (nonblank (entry_of a)); cbn [map]; rewrite IH; [|reflexivity].
  now rewrite triple_entry.
Qed.
Lemma speaks_entry i s : speaks (entry_at i s) [(i, fst s, snd s)].
Proof.
  intros langs ns. unfold retrieve. change (as_list (entry_at i s)) with [entry_at i s]. cbn [mapM].
  destruct (lang_validate langs (entry_at i s)) as [e|] eqn:E; cbn [bind]; [|discriminate].
  apply validate_entry in E as (_ & _ & ->). intros [= <-]. apply (keep_entries [(i, fst s, snd s)]).
Qed.
Lemma mapM_entries {A} (val : pyval -> result entry) (f : A -> pyval) (g : A -> triple) (l : list A) es :
  (forall x e, val (f x) = Ok e -> e = entry_of (g x)) -> mapM val (map f l) = Ok es -> es = map entry_of (map g l).
Proof.
  intros Hv. revert es. induction l as [|x l IH]; cbn [map mapM]; intros es H; [now injection H as <-|].
  destruct (val (f x)) as [e|] eqn:E; cbn [bind] in H; [|discriminate].
  destruct (mapM val (map f l)) as [r|]; cbn [bind] in H; [|discriminate]. injection H as <-. f_equal; eauto.
Qed.
Lemma speaks_texts l : speaks (VList (map raw_text l)) l.
Proof.
  intros langs ns. unfold retrieve. cbn [as_list]. destruct (mapM _ _) as [es|] eqn:E; cbn [bind]; [|discriminate]. intros [= <-].
  apply (mapM_entries _ raw_text (fun t => t)) in E; [|apply validate_raw]. subst es. rewrite map_id. apply keep_entries.
Qed.
Fixpoint numbers (n : Z) (l : list speech) : list triple :=
  match l with [] => [] | s :: l' => (n, fst s, snd s) :: numbers (n + 1) l' end.
Lemma speaks_numbered n l : speaks (VList (numbered n l)) (numbers n l).
Proof.
  intros langs ns. unfold retrieve. cbn [as_list]. destruct (mapM _ _) as [es|] eqn:E; cbn [bind]; [|discriminate]. intros [= <-].
  assert (G : es = map entry_of (numbers n l)).
  { revert n es E. induction l as [|s l IH]; intros n es E; cbn [numbered numbers map mapM] in *; [now injection E as <-|].
    destruct (lang_validate langs (entry_at n s)) as [e|] eqn:Ee; cbn [bind] in E; [|discriminate].
    destruct (mapM _ (numbered _ l)) as [r|] eqn:Er; cbn [bind] in E; [|discriminate]. injection E as <-.
    apply validate_entry in Ee as (_ & _ & ->). f_equal. eauto. }
  subst es. apply keep_entries.
Qed.

Definition accepted_values (langs : option (list pystr)) (vals : list pyval) : Prop :=
  Forall (fun v => exists ns, retrieve (lang_validate langs) v = Ok ns) vals.
Lemma additions_speak langs vals ls : accepted_values langs vals -> Forall2 speaks vals ls -> additions (lang_validate langs) vals = keep (concat ls).
Proof.
  intros Ha Hs. induction Hs as [|v l vals ls Hv _ IH]; [reflexivity|]. inversion Ha as [|? ? (ns & Hn) Ha']; subst.
  unfold additions in *. cbn [flat_map concat]. rewrite Hn, (Hv _ _ Hn), (IH Ha'), keep_app. reflexivity.
Qed.

Section Fields.
  Context (E : env).
  Definition multi (k : lang_kind) : bool := match k with KMulti | KIndexedMulti => true | _ => false end.
  Lemma assign_multi k langs tc vals : multi k = true -> forall o st',
    assign_all E (CLang k langs tc) (option_map SE o) vals = Ok st' ->
    accepted_values langs vals /\ st' = option_map SE (fold_left (fun s v => fst (add_merge tc same_index_lang (lang_validate langs) s v)) vals o).
  Proof.
    intros Hk. induction vals as [|v vals IH]; intros o st' H.
    - cbn in H. injection H as <-. split; [constructor|reflexivity].
    - cbn [assign_all fold_left] in *.
      assert (Ea : add_ E (CLang k langs tc) (option_map SE o) v =
                   (option_map SE (fst (add_merge tc same_index_lang (lang_validate langs) o v)), snd (add_merge tc same_index_lang (lang_validate langs) o v))).
      { unfold add_. destruct k; try discriminate; unfold lift; destruct o; cbn [option_map pE];
          destruct (add_merge tc same_index_lang (lang_validate langs) _ v) as [[x|] y]; reflexivity. }
      rewrite Ea in H. destruct (snd (add_merge tc same_index_lang (lang_validate langs) o v)) eqn:Es; [discriminate|].
      apply IH in H as [H1 H2]. split; [|exact H2]. constructor; [|exact H1].
      unfold add_merge in Es. destruct (retrieve (lang_validate langs) v) as [ns|]; [eauto|]. cbn in Es. discriminate.
  Qed.
  Lemma assign_append k langs tc vals : multi k = false -> forall o st',
    assign_all E (CLang k langs tc) (option_map SE o) vals = Ok st' ->
    accepted_values langs vals /\ st' = option_map SE (fold_left (fun s v => fst (add_append (lang_validate langs) s v)) vals o).
  Proof.
    intros Hk. induction vals as [|v vals IH]; intros o st' H.
    - cbn in H. injection H as <-. split; [constructor|reflexivity].
    - cbn [assign_all fold_left] in *.
      assert (Ea : add_ E (CLang k langs tc) (option_map SE o) v =
                   (option_map SE (fst (add_append (lang_validate langs) o v)), snd (add_append (lang_validate langs) o v))).
      { unfold add_. destruct k; try discriminate; unfold lift; destruct o; cbn [option_map pE];
          destruct (add_append (lang_validate langs) _ v) as [[x|] y]; reflexivity. }
      rewrite Ea in H. destruct (snd (add_append (lang_validate langs) o v)) eqn:Es; [discriminate|].
      apply IH in H as [H1 H2]. split; [|exact H2]. constructor; [|exact H1].
      unfold add_append in Es. destruct (retrieve (lang_validate langs) v) as [ns|]; [eauto|]. cbn in Es. discriminate.
  Qed.
  Lemma appended langs vals : accepted_values langs vals ->
    stored (history (add_append (lang_validate langs)) vals) = map entry_of (additions (lang_validate langs) vals).
  Proof.
    induction vals as [|v vals IH] using rev_ind; intros Ha; [reflexivity|].
    apply Forall_app in Ha as [Ha Hv]. inversion Hv as [|? ? (ns & Hn) _]; subst.
    rewrite ValidatorsProofs.history_snoc, additions_snoc, Hn, map_app, <- IH by exact Ha. unfold add_append. rewrite Hn. cbn [fst stored]. f_equal.
    apply retrieve_text in Hn. clear -Hn. induction Hn as [|e ns (t & Ht & _) _ IHn]; [reflexivity|]. cbn [map]. f_equal; [|exact IHn].
    destruct e as [i l x]. cbn in Ht. subst x. reflexivity.
  Qed.

  Definition row_of (kt : pystr * pystr) : out := {| o_index := None; o_lang := Some (fst kt); o_text := snd kt |}.
  Lemma single_pieces ignore_ tc rows pss : Forall2 (fun kt ps => emits ignore_ tc (snd kt) ps) rows pss ->
    (forall k t, In (k, t) rows -> MultiLangSpec.fits ignore_ tc t \/ tc_split tc = false) ->
    concat (map (fun rp : pystr * pystr * list pystr => map (fun p => {| o_index := None; o_lang := Some (fst (fst rp)); o_text := p |}) (snd rp)) (combine rows pss)) = map row_of rows.
  Proof.
    induction 1 as [|[k t] ps rows pss He _ IH]; intros Hf; [reflexivity|]. cbn [combine map concat fst snd]. rewrite IH by (intros; apply (Hf k0); now right).
    assert (ps = [t]) as ->; [|reflexivity].
    destruct (Hf k t (or_introl eq_refl)) as [F|F]; [eapply emits_fits; eauto|]. cbn in He. destruct He as [He|(_ & He & _)]; [exact He|congruence].
  Qed.
  Lemma multi_out langs tc vals os :
    field_out E (CLang KMulti langs tc) vals = Ok os ->
    accepted_values langs vals /\
    exists rows, language_rows (tc_sep tc) (additions (lang_validate langs) vals) rows /\
      ((forall k t, In (k, t) rows -> MultiLangSpec.fits (ignore E) tc t \/ tc_split tc = false) -> os = map row_of rows).
  Proof.
    intros H.
    destruct (C10_one_text_per_language tc langs (ignore E) vals (additions (lang_validate langs) vals)) as (rows & H1 & _ & H3).
    { apply additions_calls, lang_iff. }
    destruct vals as [|v vals].
    - cbn in H. injection H as <-. split; [constructor|]. exists rows. split; [exact H1|]. intros _.
      destruct rows as [|[k t] rows]; [reflexivity|]. exfalso. destruct H1 as (_ & Hk & _).
      destruct (proj1 (Hk k) (or_introl eq_refl)) as (i & u & []).
    - set (vs := v :: vals) in *. unfold field_out in H. unfold vs in H at 1.
      destruct (assign_all E (CLang KMulti langs tc) None vs) as [st|] eqn:Ea; cbn [bind] in H; [|discriminate].
      destruct (assign_multi KMulti langs tc vs eq_refl None st Ea) as [Hv ->]. split; [exact Hv|]. exists rows. split; [exact H1|]. intros Hf.
      change (fold_left _ vs None) with (history (add_merge tc same_index_lang (lang_validate langs)) vs) in H.
      assert (Hst : exists x, history (add_merge tc same_index_lang (lang_validate langs)) vs = Some x).
      { unfold vs. clear. induction vals as [|w vals IH] using rev_ind.
        - unfold history. cbn [fold_left]. unfold add_merge. destruct (bind _ _); cbn [fst]; eauto.
        - rewrite app_comm_cons, ValidatorsProofs.history_snoc. unfold add_merge at 1. destruct (bind _ _); cbn [fst]; eauto. }
      destruct Hst as [x Hx]. rewrite Hx in H. cbn [option_map end_ on pE] in H. rewrite Hx in H3. cbn [stored] in H3.
      destruct (snd (multilang_end (ignore E) tc x)) as [l|] eqn:El; cbn [bind entries_of] in H; [|discriminate].
      injection H as <-. destruct (H3 l eq_refl) as (pss & Hp & ->). now apply (single_pieces (ignore E) tc).
  Qed.
End Fields.

(** ** Rows *)
Notation sep_ := (Some sep_default).
Lemma texts_at_map (g : Z * pystr -> pystr) ps i k : NoDup ps -> In (i, k) ps ->
  texts_at (map (fun p => (fst p, snd p, g p)) ps) i k = [g (i, k)].
Proof.
  induction ps as [|[j l] ps IH]; intros Hn Hin; [destruct Hin|]. inversion Hn; subst. cbn [map]. unfold texts_at in *. cbn [filter fst snd].
  destruct Hin as [Hin|Hin].
  - injection Hin as -> ->. rewrite Z.eqb_refl, str_eqb_refl. cbn [andb map snd]. f_equal.
    replace (filter _ _) with (@nil triple); [reflexivity|]. symmetry.
    assert (G : forall q, incl q ps -> filter (fun a : triple => (Z.eqb (fst (fst a)) i && str_eqb (snd (fst a)) k)%bool) (map (fun p => (fst p, snd p, g p)) q) = []).
    { induction q as [|[j l] q IHq]; intros Hq; [reflexivity|]. cbn [map filter fst snd].
      destruct (Z.eqb j i && str_eqb l k)%bool eqn:E.
      - apply andb_true_iff in E as [E1 E2]. apply Z.eqb_eq in E1. apply str_eqb_eq in E2. subst. exfalso. apply H1. apply Hq. now left.
      - apply IHq. intros x Hx. apply Hq. now right. }
    apply G. now intros x Hx.
  - destruct (Z.eqb j i && str_eqb l k)%bool eqn:E.
    + apply andb_true_iff in E as [E1 E2]. apply Z.eqb_eq in E1. apply str_eqb_eq in E2. subst. contradiction.
    + apply IH; auto.
Qed.
Lemma join_length_in sep (l : list pystr) x : In x l -> length x <= length (join sep l).
Proof.
  induction l as [|a l IH]; [intros []|]. destruct l as [|b l].
  - intros [->|[]]. reflexivity.
  - rewrite join_cons by discriminate. rewrite !app_length. intros [->|H]; [lia|]. specialize (IH H). lia.
Qed.

(** an indexed field reads as what was assigned to it *)
Lemma indexed_rows_same sep L ps rows : NoDup ps -> (forall i k, In (i, k) ps <-> exists u, In (i, k, u) L) ->
  language_rows (Some sep) L rows ->
  language_rows (Some sep) (map (fun p => (fst p, snd p, merged (Some sep) (texts_at L (fst p) (snd p)))) ps) rows.
Proof.
  intros Hn Hp (H1 & H2 & H3).
  set (T := map _ ps).
  assert (HT : forall i k, (exists u, In (i, k, u) T) <-> (exists u, In (i, k, u) L)).
  { intros i k. rewrite <- Hp. unfold T. split.
    - intros (u & Hu). apply in_map_iff in Hu as ([j l] & Hx & Hin). cbn in Hx. injection Hx as -> -> _. exact Hin.
    - intros Hin. eexists. apply in_map_iff. exists (i, k). split; [reflexivity|exact Hin]. }
  split; [exact H1|]. split.
  - intros k. rewrite H2. split; intros (i & u & Hu).
    + destruct (proj2 (HT i k) (ex_intro _ u Hu)) as [v Hv]. eauto.
    + destruct (proj1 (HT i k) (ex_intro _ u Hu)) as [v Hv]. eauto.
  - intros k t Hin. destruct (H3 k t Hin) as (idxs & S1 & S2 & ->). exists idxs. split; [exact S1|]. split.
    + intros i. rewrite S2. symmetry. apply HT.
    + f_equal. apply map_ext_in. intros i Hi. unfold T.
      rewrite (texts_at_map (fun p => merged (Some sep) (texts_at L (fst p) (snd p)))); [reflexivity|exact Hn|]. apply Hp, S2, Hi.
Qed.

Section Comment.
  Context (E : env) (long : nat).
  Lemma comment_read vals T :
    comment_out E long vals = Ok T ->
    accepted_values None vals /\
    forall rows, language_rows sep_ (additions (lang_validate None) vals) rows ->
      (forall k t, In (k, t) rows -> MultiLangSpec.fits (ignore E) (Lim_ long) t) ->
      language_rows sep_ T rows /\ Forall (fun a => visible_text (snd a)) T /\
      forall i k u, In (i, k, u) T -> exists v, In (i, k, v) (additions (lang_validate None) vals).
  Proof.
    unfold comment_out. intros H.
    destruct (C12_texts_in_numeric_order_partial (Lim_ long) None (ignore E) vals (additions (lang_validate None) vals)) as (ps & P1 & P2 & _ & P4).
    { apply additions_calls, lang_iff. }
    assert (G : accepted_values None vals /\
                ((forall i k, In (i, k) ps -> MultiLangSpec.fits (ignore E) (Lim_ long) (merged sep_ (texts_at (additions (lang_validate None) vals) i k))) ->
                 T = map (fun p => (fst p, snd p, merged sep_ (texts_at (additions (lang_validate None) vals) (fst p) (snd p)))) ps)).
    { destruct vals as [|v vals].
      - cbn in H. injection H as <-. split; [constructor|]. intros _. destruct ps as [|[i k] ps]; [reflexivity|].
        destruct (proj1 (P2 i k) (or_introl eq_refl)) as (u & []).
      - set (vs := v :: vals) in *. unfold field_out in H. unfold vs in H at 1.
        destruct (assign_all E (comment_class long) None vs) as [st|] eqn:Ea; cbn [bind] in H; [|discriminate].
        destruct (assign_multi E KIndexedMulti None (Lim_ long) vs eq_refl None st Ea) as [Hv ->]. split; [exact Hv|]. intros Hf.
        change (fold_left _ vs None) with (history (add_merge (Lim_ long) same_index_lang (lang_validate None)) vs) in H.
        assert (Hst : exists x, history (add_merge (Lim_ long) same_index_lang (lang_validate None)) vs = Some x).
        { unfold vs. clear. induction vals as [|w vals IH] using rev_ind.
          - unfold history. cbn [fold_left]. unfold add_merge. destruct (bind _ _); cbn [fst]; eauto.
          - rewrite app_comm_cons, ValidatorsProofs.history_snoc. unfold add_merge at 1. destruct (bind _ _); cbn [fst]; eauto. }
        destruct Hst as [x Hx]. rewrite Hx in H. cbn [option_map end_ comment_class on pE] in H.
        specialize (P4 Hf). rewrite Hx in P4. cbn [stored] in P4. rewrite P4 in H. cbn [bind entries_of] in H. injection H as <-.
        clear. induction ps as [|p ps IH]; [reflexivity|]. cbn [map flat_map triple_of_out o_index o_lang o_text app]. now rewrite IH. }
    destruct G as [Hv G]. split; [exact Hv|]. intros rows Hr Hf.
    assert (Hfit : forall i k, In (i, k) ps -> MultiLangSpec.fits (ignore E) (Lim_ long) (merged sep_ (texts_at (additions (lang_validate None) vals) i k))).
    { intros i k Hin. apply P2 in Hin as (u & Hu). destruct Hr as (R1 & R2 & R3).
      assert (Hk : In k (map fst rows)) by (apply R2; eauto). apply in_map_iff in Hk as ([k' t] & Ek & Hkt). cbn in Ek. subst k'.
      specialize (Hf k t Hkt). destruct (R3 k t Hkt) as (idxs & S1 & S2 & ->). destruct Hf as [Hf|Hf]; [now left|]. right. cbn [tc_limit Lim_] in *.
      etransitivity; [|exact Hf]. apply join_length_in. apply in_map_iff. exists i. split; [reflexivity|]. apply S2. eauto. }
    rewrite (G Hfit). split; [now apply indexed_rows_same|]. split.
    - apply Forall_forall. intros a Ha. apply in_map_iff in Ha as ([i k] & <- & Hin). cbn [fst snd].
      apply (merged_visible (Lim_ long)); [|now apply P2]. intros u Hu. eapply additions_visible; eauto.
    - intros i k u Hin. apply in_map_iff in Hin as ([i' k'] & Hx & Hin). cbn [fst snd] in Hx. injection Hx as -> -> _. now apply P2.
  Qed.
End Comment.

(** one text per language, languages in order *)
Definition key_text (a : triple) : pystr * pystr := (snd (fst a), snd a).
Lemma rows_single sep L : StronglySorted str_lt (map (fun a : triple => snd (fst a)) L) -> language_rows (Some sep) L (map key_text L).
Proof.
  intros Hs. rewrite <- (map_map key_text fst L : map fst (map key_text L) = map (fun a : triple => snd (fst a)) L) in Hs.
  split; [exact Hs|]. rewrite map_map in *. cbn [key_text fst] in *. split.
  - intros k. rewrite in_map_iff. split.
    + intros ([[i k'] t] & <- & Hin). eauto.
    + intros (i & u & Hin). exists (i, k, u). auto.
  - intros k t Hin. apply in_map_iff in Hin as ([[i k'] t'] & [= <- <-] & Hin).
    assert (Hu : forall j v, In (j, k', v) L -> j = i /\ v = t').
    { revert Hin. induction L as [|a L IH]; intros Hin j v Hj; [destruct Hin|]. inversion Hs as [|? ? Hs' Hf]; subst. rewrite Forall_forall in Hf.
      destruct Hin as [->|Hin], Hj as [Hj|Hj].
      - now injection Hj as <- <-.
      - exfalso. destruct (Hf k') as [_ Hne]; [|now apply Hne]. apply in_map_iff. exists (j, k', v). auto.
      - subst a. exfalso. destruct (Hf k') as [_ Hne]; [|now apply Hne]. apply in_map_iff. exists (i, k', t'). auto.
      - apply IH; auto. }
    exists [i]. split; [repeat constructor|]. split.
    + intros j. split; [intros [<-|[]]; eauto|]. intros (u & Hj). left. now destruct (Hu j u Hj).
    + cbn [map join].
      assert (Ht : texts_at L i k' = [t']); [|now rewrite Ht].
      clear Hu. induction L as [|a L IH]; [destruct Hin|]. inversion Hs as [|? ? Hs' Hf]; subst. rewrite Forall_forall in Hf.
      unfold texts_at in *. cbn [filter].
      destruct Hin as [->|Hin].
      * cbn [fst snd]. rewrite Z.eqb_refl, str_eqb_refl. cbn [andb map snd]. f_equal.
        replace (filter _ L) with (@nil triple); [reflexivity|]. symmetry. clear -Hf. induction L as [|b L IHL]; [reflexivity|]. cbn [filter].
        destruct (str_eqb (snd (fst b)) k') eqn:Eb.
        -- apply str_eqb_eq in Eb. exfalso. destruct (Hf k') as [_ Hne]; [|now apply Hne]. cbn [map]. left. exact Eb.
        -- rewrite andb_false_r. apply IHL. intros x Hx. apply Hf. now right.
      * destruct (str_eqb (snd (fst a)) k') eqn:Eb.
        -- apply str_eqb_eq in Eb. exfalso. destruct (Hf k') as [_ Hne]; [|now apply Hne]. apply in_map_iff. exists (i, k', t'). auto.
        -- rewrite andb_false_r. apply IH; auto.
Qed.

Fixpoint spaced (d n : Z) (l : list speech) : list pyval :=
  match l with [] => [] | s :: l' => entry_at n s :: spaced d (n + d) l' end.
Fixpoint spaced_triples (d n : Z) (l : list speech) : list triple :=
  match l with [] => [] | s :: l' => (n, fst s, snd s) :: spaced_triples d (n + d) l' end.
Lemma spaced_speak d l : forall n, Forall2 speaks (spaced d n l) (map (fun a => [a]) (spaced_triples d n l)).
Proof. induction l as [|s l IH]; intros n; cbn [spaced spaced_triples map]; constructor; [apply speaks_entry|apply IH]. Qed.
Lemma concat_single {A} (l : list A) : concat (map (fun a => [a]) l) = l.
Proof. induction l; cbn; congruence. Qed.
Lemma spaced_keys d l : forall n, map key_text (spaced_triples d n l) = l.
Proof. induction l as [|[k t] l IH]; intros n; [reflexivity|]. cbn [spaced_triples map]. rewrite IH. reflexivity. Qed.
Lemma numbered_spaced l : forall n, numbered n l = spaced 1 n l.
Proof. induction l as [|s l IH]; intros n; [reflexivity|]. cbn [numbered spaced]. now rewrite IH. Qed.
Lemma numbers_spaced l : forall n, numbers n l = spaced_triples 1 n l.
Proof. induction l as [|s l IH]; intros n; [reflexivity|]. cbn [numbers spaced_triples]. now rewrite IH. Qed.
Definition said_rows (l : list speech) : list speech := filter (fun s => nonblank (entry_of (0%Z, fst s, snd s))) l.
Lemma keep_keys l : map key_text (keep l) = said_rows (map key_text l).
Proof.
  induction l as [|a l IH]; [reflexivity|]. cbn [keep filter map said_rows].
  assert (E : nonblank (entry_of (0%Z, fst (key_text a), snd (key_text a))) = nonblank (entry_of a)) by reflexivity.
  rewrite E. unfold said_rows, keep in *. destruct (nonblank (entry_of a)); cbn [map]; rewrite IH; reflexivity.
Qed.
Lemma SS_filter_fst (l : list speech) p : StronglySorted str_lt (map fst l) -> StronglySorted str_lt (map fst (filter p l)).
Proof.
  induction l as [|a l IH]; intros H; [constructor|]. cbn [map] in H. inversion H as [|? ? H1 H2]; subst. cbn [filter]. destruct (p a); auto.
  cbn [map]. constructor; auto. rewrite Forall_forall in *. intros x Hx. apply in_map_iff in Hx as (y & <- & Hy). apply filter_In in Hy as [Hy _]. apply H2. now apply in_map.
Qed.
Lemma spaced_rows sep d n l : StronglySorted str_lt (map fst l) -> language_rows (Some sep) (keep (spaced_triples d n l)) (said_rows l).
Proof.
  intros Hs. pose proof (keep_keys (spaced_triples d n l)) as Hk. rewrite spaced_keys in Hk. rewrite <- Hk. apply rows_single.
  change (map (fun a : triple => snd (fst a)) (keep (spaced_triples d n l))) with (map (fun a : triple => fst (key_text a)) (keep (spaced_triples d n l))).
  rewrite <- (map_map key_text fst). rewrite Hk. unfold said_rows. now apply SS_filter_fst.
Qed.
Lemma said_rows_all l : Forall (fun s : speech => visible_text (snd s)) l -> said_rows l = l.
Proof.
  induction 1 as [|s l Hs _ IH]; [reflexivity|]. cbn [said_rows filter]. unfold said_rows in IH. rewrite IH.
  replace (nonblank (entry_of (0%Z, fst s, snd s))) with true; [reflexivity|]. symmetry. unfold nonblank, entry_of. cbn [tx snd].
  apply isspace_visible in Hs as [H1 H2]. rewrite H2. destruct (snd s); [contradiction|reflexivity].
Qed.

(** ** Texts of two groups *)
Lemma lang_text_ext sep L M k t : (forall i, texts_at L i k = texts_at M i k) -> lang_text sep L k t -> lang_text sep M k t.
Proof.
  intros He (idxs & H1 & H2 & ->). exists idxs. split; [exact H1|]. split.
  - intros i. rewrite H2. rewrite <- !texts_at_in, He. reflexivity.
  - f_equal. apply map_ext. intros i. now rewrite He.
Qed.
Lemma texts_at_none L i k : (forall u, ~ In (i, k, u) L) -> texts_at L i k = [].
Proof. intros H. destruct (texts_at L i k) as [|t r] eqn:E; [reflexivity|]. exfalso. apply (H t). apply texts_at_mem. rewrite E. now left. Qed.
Lemma lang_text_left sep A B k t : (forall i u, ~ In (i, k, u) B) -> lang_text sep A k t -> lang_text sep (A ++ B) k t.
Proof. intros H. apply lang_text_ext. intros i. rewrite texts_at_app, (texts_at_none B); [now rewrite app_nil_r|auto]. Qed.
Lemma lang_text_right sep A B k t : (forall i u, ~ In (i, k, u) A) -> lang_text sep B k t -> lang_text sep (A ++ B) k t.
Proof. intros H. apply lang_text_ext. intros i. rewrite texts_at_app, (texts_at_none A); auto. Qed.
Lemma SS_app {A} (R : A -> A -> Prop) a b : StronglySorted R a -> StronglySorted R b -> (forall x y, In x a -> In y b -> R x y) -> StronglySorted R (a ++ b).
Proof.
  induction 1 as [|x a Ha IH Hx]; intros Hb Hab; [exact Hb|]. cbn [app]. constructor.
  - apply IH; auto. intros; apply Hab; auto. now right.
  - apply Forall_app. split; [exact Hx|]. apply Forall_forall. intros y Hy. apply Hab; [now left|exact Hy].
Qed.
Lemma lang_text_app sep A B k ta tb : (forall i u j v, In (i, k, u) A -> In (j, k, v) B -> (i < j)%Z) ->
  (exists i u, In (i, k, u) A) -> (exists i u, In (i, k, u) B) ->
  lang_text sep A k ta -> lang_text sep B k tb -> lang_text sep (A ++ B) k (ta ++ newline ++ tb).
Proof.
  intros Hlt (i0 & u0 & HA) (j0 & v0 & HB) (ia & A1 & A2 & ->) (ib & B1 & B2 & ->). exists (ia ++ ib). split; [|split].
  - apply SS_app; auto. intros x y Hx Hy. apply A2 in Hx as [u Hu]. apply B2 in Hy as [v Hv]. eauto.
  - intros i. rewrite in_app_iff, A2, B2. split.
    + intros [[u Hu]|[u Hu]]; exists u; apply in_or_app; auto.
    + intros [u Hu]. apply in_app_or in Hu as [Hu|Hu]; eauto.
  - rewrite map_app.
    assert (Ea : map (fun i => merged sep (texts_at (A ++ B) i k)) ia = map (fun i => merged sep (texts_at A i k)) ia).
    { apply map_ext_in. intros i Hi. rewrite texts_at_app, (texts_at_none B); [now rewrite app_nil_r|].
      intros u Hu. apply A2 in Hi as [v Hv]. specialize (Hlt _ _ _ _ Hv Hu). lia. }
    assert (Eb : map (fun i => merged sep (texts_at (A ++ B) i k)) ib = map (fun i => merged sep (texts_at B i k)) ib).
    { apply map_ext_in. intros i Hi. rewrite texts_at_app, (texts_at_none A); [reflexivity|].
      intros u Hu. apply B2 in Hi as [v Hv]. specialize (Hlt _ _ _ _ Hu Hv). lia. }
    rewrite Ea, Eb. set (xs := map _ ia). set (ys := map _ ib).
    assert (Hy : ys <> []) by (assert (In j0 ib) by (apply B2; eauto); unfold ys; destruct ib; [contradiction|discriminate]).
    assert (Hx : xs <> []) by (assert (In i0 ia) by (apply A2; eauto); unfold xs; destruct ia; [contradiction|discriminate]).
    clearbody xs ys. clear -Hx Hy. induction xs as [|x xs IH]; [contradiction|]. destruct xs as [|x' xs].
    + cbn [app]. rewrite (join_cons newline x ys) by exact Hy. reflexivity.
    + cbn [app] in *. rewrite (join_cons newline x (x' :: xs)) by discriminate. rewrite (join_cons newline x (x' :: xs ++ ys)) by discriminate. rewrite <- IH by discriminate.
      rewrite <- !app_assoc. reflexivity.
Qed.
(** lines of one language in front of the rest *)
Lemma put_before_fst k h rows : map fst (put_before k h rows) = map fst rows.
Proof. unfold put_before. rewrite map_map. apply map_ext. intros [a b]. cbn [fst]. now destruct (str_eqb a k). Qed.
Lemma rows_before sep A B k h rows : (forall i l u, In (i, l, u) A -> l = k) -> (forall i u j v, In (i, k, u) A -> In (j, k, v) B -> (i < j)%Z) ->
  A <> [] -> lang_text sep A k h -> language_rows sep B rows -> In k (map fst rows) -> language_rows sep (A ++ B) (put_before k h rows).
Proof.
  intros HA Hlt Hne Hh (H1 & H2 & H3) Hk. split; [|split].
  - now rewrite put_before_fst.
  - intros l. rewrite put_before_fst, H2. split; intros (i & u & Hu); [exists i, u; apply in_or_app; auto|].
    apply in_app_or in Hu as [Hu|Hu]; [|eauto]. assert (l = k) by eauto. subst l. now apply H2.
  - intros l t Hin. unfold put_before in Hin. apply in_map_iff in Hin as ([l' t'] & Heq & Hin). cbn [fst snd] in Heq.
    destruct (str_eqb l' k) eqn:El.
    + apply str_eqb_eq in El. subst l'. injection Heq as <- <-. apply lang_text_app; auto.
      * destruct A as [|[[i l] u] A]; [contradiction|]. exists i, u. assert (l = k) by (apply (HA i l u); now left). subst l. now left.
      * now apply H2.
    + injection Heq as <- <-. apply lang_text_right; [|now apply H3]. intros i u Hu. apply HA in Hu. subst l'. rewrite str_eqb_refl in El. discriminate.
Qed.
(** and behind it *)
Lemma put_after_fst k h rows : map fst (put_after k h rows) = map fst rows.
Proof. unfold put_after. rewrite map_map. apply map_ext. intros [a b]. cbn [fst]. now destruct (str_eqb a k). Qed.
Lemma rows_after sep A B k h rows : (forall i l u, In (i, l, u) B -> l = k) -> (forall i u j v, In (i, k, u) A -> In (j, k, v) B -> (i < j)%Z) ->
  B <> [] -> lang_text sep B k h -> language_rows sep A rows -> In k (map fst rows) -> language_rows sep (A ++ B) (put_after k h rows).
Proof.
  intros HB Hlt Hne Hh (H1 & H2 & H3) Hk. split; [|split].
  - now rewrite put_after_fst.
  - intros l. rewrite put_after_fst, H2. split; intros (i & u & Hu); [exists i, u; apply in_or_app; auto|].
    apply in_app_or in Hu as [Hu|Hu]; [eauto|]. assert (l = k) by eauto. subst l. now apply H2.
  - intros l t Hin. unfold put_after in Hin. apply in_map_iff in Hin as ([l' t'] & Heq & Hin). cbn [fst snd] in Heq.
    destruct (str_eqb l' k) eqn:El.
    + apply str_eqb_eq in El. subst l'. injection Heq as <- <-. apply lang_text_app; auto.
      * now apply H2.
      * destruct B as [|[[i l] u] B]; [contradiction|]. exists i, u. assert (l = k) by (apply (HB i l u); now left). subst l. now left.
    + injection Heq as <- <-. apply lang_text_left; [|now apply H3]. intros i u Hu. apply HB in Hu. subst l'. rewrite str_eqb_refl in El. discriminate.
Qed.
Lemma rows_ext sep L M rows : (forall i k, texts_at L i k = texts_at M i k) -> language_rows sep L rows -> language_rows sep M rows.
Proof.
  intros He (H1 & H2 & H3). split; [exact H1|]. split.
  - intros k. rewrite H2. split; intros (i & u & Hu).
    + apply texts_at_mem in Hu. rewrite He in Hu. apply texts_at_mem in Hu. eauto.
    + apply texts_at_mem in Hu. rewrite <- He in Hu. apply texts_at_mem in Hu. eauto.
  - intros k t Hin. eapply lang_text_ext; [intros i; apply He|]. now apply H3.
Qed.
(** lines with increasing numbers *)
Definition lines (k : pystr) (l : list (Z * pystr)) : list triple := map (fun ih => (fst ih, k, snd ih)) l.
Lemma lines_text sep k l : StronglySorted Z.lt (map fst l) -> lang_text (Some sep) (lines k l) k (join newline (map snd l)).
Proof.
  intros Hs. exists (map fst l). split; [exact Hs|]. split.
  - intros i. unfold lines. rewrite in_map_iff. split.
    + intros ([j h] & <- & Hin). exists h. apply in_map_iff. exists (j, h). auto.
    + intros (u & Hu). apply in_map_iff in Hu as ([j h] & [= -> ->] & Hin). exists (i, u). auto.
  - f_equal. rewrite map_map. apply map_ext_in. intros [i h] Hin. cbn [fst snd].
    assert (Et : texts_at (lines k l) i k = [h]); [|now rewrite Et].
    induction l as [|[j g] l IH]; [destruct Hin|]. inversion Hs as [|? ? Hs' Hf]; subst. rewrite Forall_forall in Hf.
    unfold texts_at, lines in *. cbn [map filter fst snd]. rewrite str_eqb_refl, andb_true_r. destruct Hin as [[= -> ->]|Hin].
    + rewrite Z.eqb_refl. cbn [map snd]. f_equal. clear -Hf. induction l as [|[j g] l IH]; [reflexivity|]. cbn [map filter fst snd].
      destruct (Z.eqb_spec j i) as [->|Hne].
      * exfalso. specialize (Hf i (or_introl eq_refl)). lia.
      * cbn [andb]. apply IH. intros x Hx. apply Hf. now right.
    + destruct (Z.eqb_spec j i) as [->|Hne].
      * exfalso. assert (In i (map fst l)) by (apply in_map_iff; exists (i, h); auto). specialize (Hf i H). lia.
      * apply IH; auto.
Qed.

(** ** The file, and reading it *)
Definition row_val (kt : speech) : pyval := VDict [(klang, VStr (fst kt)); (ktext, VStr (snd kt))].
Lemma reported_rows show ns key rows : Forall (fun kt : speech => visible_text (snd kt)) rows ->
  reported show ns key (map row_of rows) = map row_val rows.
Proof.
  intros H. unfold reported. induction H as [|[k t] rows Hv _ IH]; [reflexivity|]. cbn [map flat_map]. rewrite map_app, IH.
  cbn [fst snd] in Hv. apply isspace_visible in Hv as [Hn Hs].
  transitivity ([row_val (k, t)] ++ map row_val rows); [|reflexivity]. apply (f_equal (fun z => z ++ map row_val rows)).
  assert (Ec : cdata t = Some t) by (destruct t; [contradiction|reflexivity]).
  assert (Er : real_text (Some t) = Some t) by (unfold real_text; rewrite Hs; destruct t; [contradiction|reflexivity]).
  transitivity (map elem2dict [Elem (qualified ns key) [(lit "{http://www.w3.org/XML/1998/namespace}lang", k)] (cdata t) None []]); [reflexivity|].
  rewrite Ec. cbn [map elem2dict fold_left]. unfold own_entries. rewrite Er. reflexivity.
Qed.
Lemma said_row kt : said (row_val kt) = Ok kt.
Proof. destruct kt. reflexivity. Qed.

(** steps that give every text a number of its own *)
Definition gstep {A} (skip : pystr -> bool) (rd : pystr -> result (list A * pystr)) (c d : Z) (n : Z) (s : speech) : result (list A * list pyval * Z) :=
  if skip (snd s) then Ok ([], [], n) else bind (rd (snd s)) (fun r => Ok (fst r, [entry_at (n + c) (fst s, snd r)], n + d)%Z).
Definition never (s : pystr) : bool := false.
Definition is_none (s : pystr) : bool := str_eqb s (lit "none").
Definition checked (read_ : pystr -> notes * pystr) (t : pystr) : result (notes * pystr) := bind (settle (fst (read_ t))) (fun x => Ok (x, snd (read_ t))).
Lemma marked_g rd n s : marked rd n s = gstep never (checked rd) 1 2 n s.
Proof. unfold marked, gstep, checked, never. destruct (rd (snd s)) as [x t]. cbn [fst snd]. destruct (settle x); reflexivity. Qed.
Lemma plain_g n s : plain_step n s = gstep never (fun t => Ok ([], t)) 0 1 n s.
Proof. destruct s. unfold plain_step, gstep, never. cbn [bind fst snd]. now rewrite Z.add_0_r. Qed.
Lemma twice_g n s : twice_step n s = gstep is_none (fun t => Ok ([], t)) 1 2 n s.
Proof. destruct s. unfold twice_step, gstep, is_none. cbn [bind fst snd]. destruct (str_eqb _ _); reflexivity. Qed.
Lemma constants_g n s : constants_step n s = gstep never (checked modelling_constants) 0 1 n s.
Proof. unfold constants_step, gstep, checked, never. destruct (modelling_constants (snd s)) as [x t]. cbn [fst snd]. rewrite Z.add_0_r. destruct (settle x); reflexivity. Qed.
Lemma prefix_g p n s : prefix_step p n s = gstep never (fun t => Ok ([], p ++ t)) 0 1 n s.
Proof. destruct s. unfold prefix_step, gstep, never. cbn [bind fst snd]. now rewrite Z.add_0_r. Qed.
Lemma unless_g p n s : unless_none p n s = gstep is_none (fun t => Ok ([], p ++ t)) 0 1 n s.
Proof. destruct s. unfold unless_none, gstep, is_none. cbn [bind fst snd]. rewrite Z.add_0_r. destruct (str_eqb _ _); reflexivity. Qed.
Lemma deviation_g n s : deviation_step n s = gstep is_none (fun t => Ok (optional (fun x => x) (fst (deviation_comment t)), snd (deviation_comment t))) 0 1 n s.
Proof. destruct s as [l t]. unfold deviation_step, gstep, is_none. cbn [bind fst snd]. rewrite Z.add_0_r. destruct (str_eqb _ _); [reflexivity|]. now destruct (deviation_comment t). Qed.
Lemma receive_ext {A} (f g : Z -> speech -> result (list A * list pyval * Z)) l : (forall n s, f n s = g n s) -> forall n, receive f n l = receive g n l.
Proof.
  intros H. induction l as [|v l IH]; intros n; [reflexivity|]. cbn [receive]. destruct (said v) as [s|]; [|reflexivity]. cbn [bind]. rewrite H.
  destruct (g n s) as [[[x vs] m]|]; [|reflexivity]. cbn [bind]. now rewrite IH.
Qed.
Lemma receive_app {A} (f : Z -> speech -> result (list A * list pyval * Z)) a b : forall n,
  receive f n (a ++ b) = bind (receive f n a) (fun r => bind (receive f (snd r) b) (fun q => Ok (fst (fst r) ++ fst (fst q), snd (fst r) ++ snd (fst q), snd q))).
Proof.
  induction a as [|v a IH]; intros n; cbn [app receive].
  - cbn [bind fst snd]. destruct (receive f n b) as [[[x y] z]|]; reflexivity.
  - destruct (said v) as [s|]; [|reflexivity]. cbn [bind]. destruct (f n s) as [[[x vs] n1]|]; [|reflexivity]. cbn [bind]. rewrite IH.
    destruct (receive f n1 a) as [[[x1 v1] n2]|]; [|reflexivity]. cbn [bind fst snd]. destruct (receive f n2 b) as [[[x2 v2] n3]|]; [|reflexivity].
    cbn [bind fst snd]. now rewrite !app_assoc.
Qed.
Lemma receive_g {A} skip (rd : pystr -> result (list A * pystr)) f c d rows : forall n,
  (forall kt, In kt rows -> skip (snd kt) = false -> rd (snd kt) = Ok (f (snd kt))) ->
  let kept := filter (fun kt : speech => negb (skip (snd kt))) rows in
  receive (gstep skip rd c d) n (map row_val rows) =
  Ok (flat_map (fun kt => fst (f (snd kt))) kept, spaced d (n + c) (map (fun kt => (fst kt, snd (f (snd kt)))) kept), n + d * Z.of_nat (length kept))%Z.
Proof.
  induction rows as [|kt rows IH]; intros n Hr; cbv zeta.
  - cbn. f_equal. f_equal. lia.
  - cbn [map receive]. rewrite said_row. cbn [bind]. unfold gstep at 1. cbn [filter].
    destruct (skip (snd kt)) eqn:Es; cbn [negb].
    + cbn [bind]. rewrite IH by (intros; apply Hr; auto; now right). reflexivity.
    + rewrite (Hr kt (or_introl eq_refl) Es). cbn [bind]. rewrite IH by (intros; apply Hr; auto; now right). cbn [bind flat_map map length spaced].
      rewrite <- app_assoc || idtac. cbn [app]. f_equal. f_equal; [|lia]. f_equal. f_equal. f_equal. lia.
Qed.
Lemma receive_fixed {A} i rows : forall n, receive (A := A) (fun n s => Ok ([], [entry_at i s], n)) n (map row_val rows) = Ok ([], map (entry_at i) rows, n).
Proof. induction rows as [|kt rows IH]; intros n; [reflexivity|]. cbn [map receive]. rewrite said_row. cbn [bind]. rewrite IH. reflexivity. Qed.

(** ** A comment on its way back *)
Section Return.
  Context (E : env) (long : nat).
  Definition sent_rows (l : list speech) : Prop := StronglySorted str_lt (map fst l) /\ Forall (fun kt => visible_text (snd kt)) l.
  (** [f]: what reading does to a text *)
  Lemma comment_returns skip (rd : pystr -> result (notes * pystr)) f c d rows n x vs n2 T :
    sent_rows rows ->
    (forall kt, In kt rows -> skip (snd kt) = false -> rd (snd kt) = Ok (f (snd kt))) ->
    receive (gstep skip rd c d) n (map row_val rows) = Ok (x, vs, n2) ->
    comment_out E long vs = Ok T -> (0 <= c)%Z -> (0 <= d)%Z ->
    let out := said_rows (map (fun kt => (fst kt, snd (f (snd kt)))) (filter (fun kt => negb (skip (snd kt))) rows)) in
    (forall k t, In (k, t) out -> MultiLangSpec.fits (ignore E) (Lim_ long) t) ->
    language_rows sep_ T out /\ Forall (fun a => visible_text (snd a)) T /\ (forall i k u, In (i, k, u) T -> (n <= i)%Z) /\ x = flat_map (fun kt => fst (f (snd kt))) (filter (fun kt => negb (skip (snd kt))) rows).
  Proof.
    intros [Hs Hv] Hr Hx HT Hc Hd out Hf. rewrite (receive_g skip rd f c d rows n Hr) in Hx. injection Hx as <- <- <-.
    apply comment_read in HT as [Ha HT].
    set (l := map (fun kt : speech => (fst kt, snd (f (snd kt)))) (filter (fun kt : speech => negb (skip (snd kt))) rows)) in *.
    rewrite (additions_speak None _ _ Ha (spaced_speak d l (n + c))), concat_single in HT.
    assert (R : language_rows sep_ (keep (spaced_triples d (n + c) l)) out).
    { apply spaced_rows. unfold l. rewrite map_map. cbn [fst]. now apply SS_filter_fst. }
    destruct (HT out R Hf) as (H1 & H2 & H3). repeat (split; [assumption|]). split; [|reflexivity].
    intros i k u Hin. apply H3 in Hin as (v & Hin). apply keep_in in Hin as [Hin _]. clear -Hin Hc Hd. assert (Hm : (n <= n + c)%Z) by lia. revert Hin Hm. generalize (n + c)%Z.
    induction l as [|s l IH]; intros z Hin Hm; [destruct Hin|]. cbn [spaced_triples] in Hin. destruct Hin as [[= -> _ _]|Hin]; [exact Hm|]. apply IH in Hin; lia.
  Qed.
End Return.

(** ** What was sent *)
Definition shown_rows (f : ifield) (rows : list speech) : list speech :=
  match rows with [] => if defaulted f then [english (lit "none")] else [] | _ => rows end.
Lemma rows_sent L rows : (forall i k u, In (i, k, u) L -> visible_text u) -> language_rows sep_ L rows -> sent_rows rows.
Proof.
  intros HL Hr. split; [apply Hr|]. apply Forall_forall. intros [k t] Hin. exact (language_rows_visible _ _ _ HL Hr k t Hin).
Qed.
Lemma keep_vis l i k u : In (i, k, u) (keep l) -> visible_text u.
Proof. intros H. now apply keep_in in H as [_ H]. Qed.
Lemma none_visible : visible_text (lit "none").
Proof. exists 110%N. vm_compute. auto. Qed.
Lemma shown_sent f rows : sent_rows rows -> sent_rows (shown_rows f rows).
Proof.
  intros H. destruct rows; [|exact H]. cbn [shown_rows]. destruct (defaulted f); [|exact H]. split; [repeat constructor|]. constructor; [|constructor]. exact none_visible.
Qed.
Lemma sent_field E show ns n m a f os ls langs tc :
  sent E n m a f = Ok os -> iclass f = CLang KMulti langs tc -> tc_sep tc = sep_ -> Forall2 speaks (values n m a f) ls ->
  exists rows, language_rows sep_ (keep (concat ls)) rows /\ sent_rows rows /\
    ((forall k t, In (k, t) rows -> MultiLangSpec.fits (ignore E) tc t \/ tc_split tc = false) ->
     os = map row_of (shown_rows f rows) /\ reported show ns (lit "field") os = map row_val (shown_rows f rows)).
Proof.
  unfold sent. intros H Hc Hsep Hs. rewrite Hc in H. destruct (field_out E (CLang KMulti langs tc) (values n m a f)) as [l|] eqn:El; cbn [bind] in H; [|discriminate].
  injection H as <-. destruct (multi_out E _ _ _ _ El) as [Ha (rows & Hr & Hl)]. rewrite (additions_speak _ _ _ Ha Hs), Hsep in Hr.
  exists rows. split; [exact Hr|]. pose proof (rows_sent _ _ (fun i k u => keep_vis _ i k u) Hr) as Hsr. split; [exact Hsr|]. intros Hf.
  rewrite Hl by eauto.
  assert (E1 : match map row_of rows with [] => if defaulted f then [none_entry] else [] | _ :: _ => map row_of rows end = map row_of (shown_rows f rows)).
  { destruct rows as [|r rows]; [|reflexivity]. cbn [map shown_rows]. now destruct (defaulted f). }
  rewrite E1. split; [reflexivity|]. apply reported_rows. apply (shown_sent f rows Hsr).
Qed.
Lemma sent_unlimited E show ns n m a f os ls :
  iclass f = CLang KMulti (Some Languages) Unlimited_ -> sent E n m a f = Ok os -> Forall2 speaks (values n m a f) ls ->
  exists rows, language_rows sep_ (keep (concat ls)) rows /\ sent_rows rows /\ reported show ns (lit "field") os = map row_val (shown_rows f rows).
Proof.
  intros Hc H Hs. destruct (sent_field E show ns _ _ _ _ _ _ _ _ H Hc eq_refl Hs) as (rows & H1 & H2 & H3).
  exists rows. split; [exact H1|]. split; [exact H2|]. apply H3. intros k t _. right. reflexivity.
Qed.
Lemma texts_speak l : exists ls, Forall2 speaks (texts l) ls /\ concat ls = l.
Proof.
  destruct l as [|t l]; [exists []; split; [constructor|reflexivity]|]. exists [t :: l]. split; [|apply app_nil_r].
  constructor; [apply (speaks_texts (t :: l))|constructor].
Qed.
Lemma speaks_map (g : speech -> Z) l : Forall2 speaks (map (fun s => entry_at (g s) s) l) (map (fun s : speech => [(g s, fst s, snd s)]) l).
Proof. induction l; cbn [map]; constructor; auto. apply speaks_entry. Qed.
Lemma keep_reads c rows : reads c rows <-> language_rows sep_ (keep c) rows.
Proof.
  split.
  - intros (v & Hv & Hr). rewrite <- (visible_keep _ _ Hv). exact Hr.
  - intros Hr. exists (keep c). split; [apply keep_visible|exact Hr].
Qed.
Lemma keep_done T : Forall (fun a : triple => visible_text (snd a)) T -> forall rows, language_rows sep_ T rows -> reads T rows.
Proof. intros H rows Hr. apply keep_reads. now rewrite keep_all. Qed.

(** the rows of two groups, the first of one language only and before the other *)
Lemma two_groups sep A B k h rows R :
  (forall i l u, In (i, l, u) A -> l = k) -> (forall i u j v, In (i, k, u) A -> In (j, k, v) B -> (i < j)%Z) ->
  A <> [] -> lang_text (Some sep) A k h -> language_rows (Some sep) B rows -> language_rows (Some sep) (A ++ B) R ->
  (forall t, In (k, t) rows -> In (k, h ++ newline ++ t) R) /\
  (~ In k (map fst rows) -> In (k, h) R) /\
  (forall l t, In (l, t) rows -> l <> k -> In (l, t) R) /\
  (forall l t, In (l, t) R -> (l = k /\ ((~ In k (map fst rows) /\ t = h) \/ exists u, In (k, u) rows /\ t = h ++ newline ++ u)) \/ (l <> k /\ In (l, t) rows)).
Proof.
  intros HA Hlt Hne Hh (H1 & H2 & H3) (R1 & R2 & R3).
  assert (Hin : forall l t u, In (l, t) R -> lang_text (Some sep) (A ++ B) l u -> t = u).
  { intros l t u Hl Hu. pose proof (R3 l t Hl) as Ht. destruct Ht as (ia & S1 & S2 & ->), Hu as (ib & S3 & S4 & ->). f_equal. f_equal.
    apply (SS_unique Z.lt); auto; try lia. intros i. rewrite S2, S4. reflexivity. }
  assert (Hex : forall l, (exists i u, In (i, l, u) (A ++ B)) -> exists t, In (l, t) R).
  { intros l Hl. apply R2 in Hl. apply in_map_iff in Hl as ([l' t] & <- & Hl). eauto. }
  assert (HkA : exists i u, In (i, k, u) A).
  { destruct A as [|[[i l] u] A]; [contradiction|]. exists i, u. assert (l = k) by (apply (HA i l u); now left). subst l. now left. }
  assert (Hk1 : forall t, In (k, t) rows -> lang_text (Some sep) (A ++ B) k (h ++ newline ++ t)).
  { intros t Ht. apply lang_text_app; auto. apply H2. apply in_map_iff. exists (k, t). auto. }
  assert (Hk2 : ~ In k (map fst rows) -> lang_text (Some sep) (A ++ B) k h).
  { intros Hk. apply lang_text_left; [|exact Hh]. intros i u Hu. apply Hk, H2. eauto. }
  assert (Hl3 : forall l t, In (l, t) rows -> l <> k -> lang_text (Some sep) (A ++ B) l t).
  { intros l t Ht Hl. apply lang_text_right; [|now apply H3]. intros i u Hu. apply Hl. eauto. }
  assert (HkR : exists t, In (k, t) R).
  { apply Hex. destruct HkA as (i & u & Hu). exists i, u. apply in_or_app. auto. }
  split; [|split; [|split]].
  - intros t Ht. destruct HkR as [t' Ht']. rewrite <- (Hin _ _ _ Ht' (Hk1 t Ht)). exact Ht'.
  - intros Hk. destruct HkR as [t' Ht']. rewrite <- (Hin _ _ _ Ht' (Hk2 Hk)). exact Ht'.
  - intros l t Ht Hl. destruct (Hex l) as [t' Ht'].
    { assert (Hm : In l (map fst rows)) by (apply in_map_iff; exists (l, t); auto). apply H2 in Hm as (i & u & Hu). exists i, u. apply in_or_app. auto. }
    rewrite <- (Hin _ _ _ Ht' (Hl3 l t Ht Hl)). exact Ht'.
  - intros l t Ht. destruct (str_eqb l k) eqn:El.
    + apply str_eqb_eq in El. subst l. left. split; [reflexivity|]. destruct (in_dec (list_eq_dec N.eq_dec) k (map fst rows)) as [Hk|Hk].
      * right. apply in_map_iff in Hk as ([k' u] & Ek & Hu). cbn [fst] in Ek. subst k'. exists u. split; [exact Hu|]. eapply Hin; eauto.
      * left. split; [exact Hk|]. eapply Hin; eauto.
    + right. assert (Hl : l <> k) by (intros ->; rewrite str_eqb_refl in El; discriminate). split; [exact Hl|].
      assert (Hm : exists i u, In (i, l, u) (A ++ B)) by (apply R2, in_map_iff; exists (l, t); auto). destruct Hm as (i & u & Hm).
      apply in_app_or in Hm as [Hm|Hm]; [exfalso; apply Hl; eauto|].
      assert (Hr : In l (map fst rows)) by (apply H2; eauto). apply in_map_iff in Hr as ([l' t'] & El' & Hr). cbn [fst] in El'. subst l'.
      rewrite (Hin _ _ _ Ht (Hl3 l t' Hr Hl)). exact Hr.
Qed.
Lemma sorted_rows_ext (r s : list speech) : StronglySorted str_lt (map fst r) -> StronglySorted str_lt (map fst s) -> (forall kt, In kt r <-> In kt s) -> r = s.
Proof.
  revert s. induction r as [|a r IH]; intros s Hr Hs H.
  - destruct s as [|b s]; [reflexivity|]. destruct (proj2 (H b) (or_introl eq_refl)).
  - destruct s as [|b s]; [destruct (proj1 (H a) (or_introl eq_refl))|]. cbn [map] in Hr, Hs. inversion Hr as [|? ? Hr1 Hr2]; subst. inversion Hs as [|? ? Hs1 Hs2]; subst.
    rewrite Forall_forall in Hr2, Hs2.
    assert (Eab : a = b).
    { destruct (proj1 (H a) (or_introl eq_refl)) as [->|Ha]; [reflexivity|]. destruct (proj2 (H b) (or_introl eq_refl)) as [->|Hb]; [reflexivity|].
      destruct (Hs2 (fst a) (in_map fst _ _ Ha)) as [L1 N1]. destruct (Hr2 (fst b) (in_map fst _ _ Hb)) as [L2 N2]. exfalso. apply N1. now apply str_leb_antisym. }
    subst b. f_equal. apply IH; auto. intros kt. split; intros Hk.
    + destruct (proj1 (H kt) (or_intror Hk)) as [<-|Hx]; [|exact Hx]. exfalso. destruct (Hr2 (fst a) (in_map fst _ _ Hk)) as [_ N]. now apply N.
    + destruct (proj2 (H kt) (or_intror Hk)) as [<-|Hx]; [|exact Hx]. exfalso. destruct (Hs2 (fst a) (in_map fst _ _ Hk)) as [_ N]. now apply N.
Qed.
Lemma said_in l s : In s (said_rows l) <-> In s l /\ visible_text (snd s).
Proof.
  unfold said_rows. rewrite filter_In. split; intros [H1 H2]; split; auto.
  - apply nonblank_has in H2 as (t & Ht & H). cbn in Ht. injection Ht as <-. now apply isspace_visible.
  - unfold nonblank, entry_of. cbn [tx snd]. apply isspace_visible in H2 as [V1 V2]. rewrite V2. destruct (snd s); [contradiction|reflexivity].
Qed.
(** lines put in front and taken out again *)
Lemma head_returns sep A B k h rows R (f : pystr -> pystr) (g : pystr -> pystr) :
  (forall i l u, In (i, l, u) A -> l = k) -> (forall i u j v, In (i, k, u) A -> In (j, k, v) B -> (i < j)%Z) ->
  A <> [] -> lang_text (Some sep) A k h -> language_rows (Some sep) B rows -> language_rows (Some sep) (A ++ B) R ->
  (forall kt, In kt rows -> visible_text (snd kt)) -> (forall t, In (k, t) rows -> visible_text (g t)) ->
  (~ In k (map fst rows) -> ~ visible_text (f h)) ->
  (forall t, In (k, t) rows -> f (h ++ newline ++ t) = g t) -> (forall l t, In (l, t) rows -> l <> k -> f t = t) ->
  said_rows (map (fun kt => (fst kt, f (snd kt))) R) = map (fun kt => if str_eqb (fst kt) k then (fst kt, g (snd kt)) else kt) rows.
Proof.
  intros HA Hlt Hne Hh HB HR Hv Hg Hblank Hf Hfo.
  destruct (two_groups sep A B k h rows R HA Hlt Hne Hh HB HR) as (T1 & T2 & T3 & T4).
  apply sorted_rows_ext.
  - apply SS_filter_fst. rewrite map_map. cbn [fst]. apply HR.
  - rewrite map_map. erewrite map_ext; [apply HB|]. intros [l t]. cbn [fst snd]. now destruct (str_eqb l k).
  - intros [l t]. rewrite said_in, !in_map_iff. cbn [fst snd]. split.
    + intros [([l' t'] & [= -> Et] & Hin) Hvis]. cbn [fst snd] in Et. subst t. apply T4 in Hin as [[-> [[Hk ->]|(u & Hu & ->)]]|[Hl Hu]].
      * exfalso. exact (Hblank Hk Hvis).
      * exists (k, u). cbn [fst snd]. rewrite str_eqb_refl, (Hf u Hu). auto.
      * exists (l, t'). cbn [fst snd]. rewrite (Hfo l t' Hu Hl). destruct (str_eqb l k) eqn:El; [apply str_eqb_eq in El; contradiction|]. auto.
    + intros ([l' t'] & Et & Hin). cbn [fst snd] in Et. destruct (str_eqb l' k) eqn:El.
      * apply str_eqb_eq in El. subst l'. injection Et as <- <-. split; [|now apply Hg]. exists (k, h ++ newline ++ t'). cbn [fst snd]. rewrite (Hf t' Hin). auto.
      * injection Et as -> ->. assert (Hl : l <> k) by (intros ->; rewrite str_eqb_refl in El; discriminate).
        split; [|exact (Hv (l, t) Hin)]. exists (l, t). cbn [fst snd]. rewrite (Hfo l t Hin Hl). auto.
Qed.
Lemma map_id_rows (k : pystr) (rows : list speech) : map (fun kt : speech => if str_eqb (fst kt) k then (fst kt, (fun t => t) (snd kt)) else kt) rows = rows.
Proof. induction rows as [|[a b] rows IH]; [reflexivity|]. cbn [map fst snd]. rewrite IH. now destruct (str_eqb a k). Qed.

(** ** Notes *)
Lemma settle_same n x : settle n = Ok x -> x = n.
Proof. unfold settle. destruct (existsb _ n); [discriminate|]. now intros [= <-]. Qed.
Lemma checked_same rd t y : checked rd t = Ok y -> y = rd t.
Proof.
  unfold checked. destruct (settle (fst (rd t))) as [x|] eqn:E; cbn [bind]; [|discriminate]. apply settle_same in E. subst x. intros [= <-]. now destruct (rd t).
Qed.
Lemma receive_checked skip rd c d rows : forall n r, receive (gstep skip (checked rd) c d) n (map row_val rows) = Ok r ->
  forall kt, In kt rows -> skip (snd kt) = false -> checked rd (snd kt) = Ok (rd (snd kt)).
Proof.
  induction rows as [|b rows IH]; intros n r H kt Hin Hs; [destruct Hin|]. cbn [map receive] in H. rewrite said_row in H. cbn [bind] in H.
  destruct (gstep skip (checked rd) c d n b) as [[[x vs] n1]|] eqn:Eg; cbn [bind] in H; [|discriminate].
  destruct (receive (gstep skip (checked rd) c d) n1 (map row_val rows)) as [q|] eqn:Eq; cbn [bind] in H; [|discriminate].
  destruct Hin as [<-|Hin]; [|eauto]. unfold gstep in Eg. rewrite Hs in Eg. destruct (checked rd (snd b)) as [y|] eqn:Ey; cbn [bind] in Eg; [|discriminate].
  now rewrite <- (checked_same _ _ _ Ey).
Qed.
Lemma filter_never (rows : list speech) : filter (fun kt => negb (never (snd kt))) rows = rows.
Proof. induction rows as [|a rows IH]; [reflexivity|]. exact (f_equal (cons a) IH). Qed.
Lemma within_fits ignore_ long rows : within ignore_ long rows -> forall k t, In (k, t) rows -> MultiLangSpec.fits ignore_ (Lim_ long) t.
Proof. intros H k t Hin. exact (H k t Hin). Qed.
Lemma marked_trip E long rd k0 rows (r : notes * list pyval * Z) T : sent_rows rows -> (1000 <= k0)%Z ->
  receive (marked rd) k0 (map row_val rows) = Ok r -> comment_out E long (snd (fst r)) = Ok T ->
  let out := said_rows (map (fun kt => (fst kt, snd (rd (snd kt)))) rows) in
  within (ignore E) long out ->
  reads T out /\ above 999 T /\ fst (fst r) = flat_map (fun kt => fst (rd (snd kt))) rows.
Proof.
  intros Hr Hk H HT out Hw. rewrite (receive_ext _ _ _ (marked_g rd)) in H. destruct r as [[x vs] n2]. cbn [fst snd] in *.
  pose proof (comment_returns E long never (checked rd) rd 1 2 rows k0 x vs n2 T Hr (receive_checked _ _ _ _ _ _ _ H) H HT ltac:(lia) ltac:(lia)) as G.
  cbv zeta in G. rewrite !filter_never in G. destruct (G (within_fits _ _ _ Hw)) as (G1 & G2 & G3 & G4).
  split; [now apply keep_done|]. split; [|exact G4]. intros i k u Hin. apply G3 in Hin. lia.
Qed.
Lemma plain_trip E long skip c d k0 rows r T : sent_rows rows -> (1000 <= k0)%Z -> (0 <= c)%Z -> (0 <= d)%Z ->
  receive (gstep skip (fun t => Ok ([] : notes, t)) c d) k0 (map row_val rows) = Ok r -> comment_out E long (snd (fst r)) = Ok T ->
  let out := filter (fun kt => negb (skip (snd kt))) rows in
  within (ignore E) long out -> reads T out /\ above 999 T.
Proof.
  intros Hr Hk Hc Hd H HT out Hw. destruct r as [[x vs] n2]. cbn [fst snd] in *.
  pose proof (comment_returns E long skip _ (fun t => ([], t)) c d rows k0 x vs n2 T Hr (fun kt _ _ => eq_refl) H HT Hc Hd) as G.
  cbv zeta in G. cbn [snd] in G.
  assert (Eo : said_rows (map (fun kt : pystr * pystr => (fst kt, snd kt)) (filter (fun kt : pystr * pystr => negb (skip (snd kt))) rows)) = out).
  { fold out. assert (Em : map (fun kt : pystr * pystr => (fst kt, snd kt)) out = out) by (clear; induction out as [|[p q] o IH]; cbn; congruence).
    rewrite Em. apply said_rows_all. apply Forall_forall. intros s Hs. apply filter_In in Hs as [Hs _]. destruct Hr as [_ Hv]. rewrite Forall_forall in Hv. auto. }
  rewrite Eo in G. destruct (G (within_fits _ _ _ Hw)) as (G1 & G2 & G3 & _).
  split; [now apply keep_done|]. intros i k u Hin. apply G3 in Hin. lia.
Qed.
Lemma flat_single {A} (g : pystr -> list A) (R : list speech) k h : StronglySorted str_lt (map fst R) -> In (k, h) R ->
  (forall l t, In (l, t) R -> l <> k -> g t = []) -> flat_map (fun kt => g (snd kt)) R = g h.
Proof.
  induction R as [|[l t] R IH]; intros Hs Hin Hg; [destruct Hin|]. cbn [map fst] in Hs. inversion Hs as [|? ? Hs' Hf]; subst. rewrite Forall_forall in Hf. cbn [flat_map snd].
  assert (Hne : forall l' t', In (l', t') R -> l' <> l).
  { intros l' t' H ->. destruct (Hf l) as [_ N]; [|now apply N]. apply in_map_iff. exists (l, t'). auto. }
  destruct Hin as [[= -> ->]|Hin].
  - replace (flat_map _ R) with (@nil A); [apply app_nil_r|]. symmetry.
    assert (G : forall l' t', In (l', t') R -> g t' = []) by (intros; eapply Hg; [now right; eauto|eauto]). clear -G. induction R as [|[a b] R IH]; [reflexivity|]. cbn [flat_map snd].
    rewrite (G a b) by now left. apply IH. intros; eapply G; right; eauto.
  - rewrite (Hg l t (or_introl eq_refl)) by (intros ->; exact (Hne k h Hin eq_refl)). apply IH; auto. intros; eapply Hg; eauto. now right.
Qed.
Lemma flat_none {A} (g : pystr -> list A) (R : list speech) : (forall l t, In (l, t) R -> g t = []) -> flat_map (fun kt => g (snd kt)) R = [].
Proof. induction R as [|[l t] R IH]; intros H; [reflexivity|]. cbn [flat_map snd]. rewrite (H l t) by now left. apply IH. intros; eapply H; right; eauto. Qed.
(** which notes come from which field *)
Definition from (S : list slot) (n : notes) : Prop := Forall (fun sv => In (fst sv) S) n.
Lemma receive_notes (f : Z -> speech -> result (notes * list pyval * Z)) P l : (forall n s r, f n s = Ok r -> Forall P (fst (fst r))) ->
  forall n r, receive f n l = Ok r -> Forall P (fst (fst r)).
Proof.
  intros Hf. induction l as [|v l IH]; intros n r H; cbn [receive] in H; [injection H as <-; constructor|].
  destruct (said v) as [s|]; cbn [bind] in H; [|discriminate]. destruct (f n s) as [[[x vs] n1]|] eqn:Ef; cbn [bind] in H; [|discriminate].
  destruct (receive f n1 l) as [[[y ws] n2]|] eqn:El; cbn [bind] in H; [|discriminate]. injection H as <-. cbn [fst].
  apply Forall_app. split; [exact (Hf _ _ _ Ef)|exact (IH _ _ El)].
Qed.
Lemma marked_from rd S l : (forall t, from S (fst (rd t))) -> forall n (r : notes * list pyval * Z), receive (marked rd) n l = Ok r -> from S (fst (fst r)).
Proof.
  intros Hrd. apply receive_notes. intros n s r. rewrite marked_g. unfold gstep, never. destruct (checked rd (snd s)) as [y|] eqn:Ey; cbn [bind]; [|discriminate].
  intros [= <-]. cbn [fst]. rewrite (checked_same _ _ _ Ey). apply Hrd.
Qed.
Lemma from_str S sl v : incl sl S -> from S (str_notes sl v).
Proof. intros H. destruct v; [|constructor]. apply Forall_forall. intros [a b] Hin. apply in_map_iff in Hin as (s & [= <- <-] & Hs). cbn. auto. Qed.
Ltac slots := apply Forall_forall; let a := fresh in let b := fresh in let H := fresh in intros [a b] H; cbn [In map] in H;
  repeat (destruct H as [H|H]; [injection H as <- <-; cbn; auto 12|]); destruct H.
Lemma time_from t : from [Validity] (fst (time_comment t)).
Proof. unfold time_comment. destruct (get_str _ _ _). cbn [fst]. apply from_str. firstorder. Qed.
Lemma tech_from t : from [IncludedStart; IncludedEnd; TechLevel] (fst (tech_comment t)).
Proof.
  unfold tech_comment.
  destruct (match search_with match_start t with Some g => _ | None => _ end) as [n1 t1] eqn:E1.
  destruct (match search_with (match_line false mark_end) t1 with Some g => _ | None => _ end) as [n2 t2] eqn:E2.
  destruct (get_str tech_ mark_level t2) as [v t3]. cbn [fst]. repeat (apply Forall_app; split).
  - destruct (search_with match_start t); injection E1 as <- _; slots.
  - destruct (search_with (match_line false mark_end) t1); injection E2 as <- _; slots.
  - apply from_str. intros x [<-|[]]. cbn. auto.
Qed.
Definition general_slots : list slot := [ActivityNameId; IndexNameId; MasterNameId; SpecialType; IndexSpecialType; Inheritance; ParentId; ChildDataset; Tag].
Lemma general_from t : from general_slots (fst (general_comment t)).
Proof.
  unfold general_comment. destruct (get_uuid mark_linkable t) as [u t1]. destruct (get_str special_activity_ mark_subtype t1) as [v t2].
  destruct (get_str child_type_ mark_inheritance t2) as [h t3]. destruct (get_uuid mark_parent t3) as [p t4]. destruct (get_list_str mark_tag t4) as [g t5]. cbn [fst].
  repeat (apply Forall_app; split).
  - destruct u; slots.
  - apply from_str. intros x [<-|[<-|[<-|[]]]]; cbn; auto 12.
  - apply from_str. intros x [<-|[]]; cbn; auto 12.
  - destruct p; slots.
  - apply Forall_forall. intros [a b] Hin. apply in_map_iff in Hin as (s & [= <- <-] & Hs). cbn. auto 12.
Qed.
Lemma constants_from l n (r : notes * list pyval * Z) : receive constants_step n l = Ok r -> from [Energy] (fst (fst r)).
Proof.
  apply receive_notes. intros n' s r'. rewrite constants_g. unfold gstep, never. destruct (checked modelling_constants (snd s)) as [y|] eqn:Ey; cbn [bind]; [|discriminate].
  intros [= <-]. cbn [fst]. rewrite (checked_same _ _ _ Ey). unfold modelling_constants. destruct (get_str _ _ _). cbn [fst]. apply from_str. intros x [<-|[]]; cbn; auto.
Qed.
Definition kept_slots : list slot := [ActivityNameId; SpecialType; Inheritance; ParentId; Validity; TechLevel; Energy].
Lemma last_assigned x n : In x kept_slots -> forall d, last_note x n d = match assigned x n with Some v => v | None => d end.
Proof.
  intros Hx. induction n as [|[y v] n IH]; intros d; [reflexivity|]. cbn [last_note assigned]. rewrite IH. destruct (assigned x n); [reflexivity|].
  destruct (slot_eq_dec y x) as [->|Hne].
  - cbn [In kept_slots] in Hx. repeat (destruct Hx as [<-|Hx]; [reflexivity|]). destruct Hx.
  - destruct x, y; try reflexivity; contradiction.
Qed.
Lemma assigned_app x a b : assigned x (a ++ b) = match assigned x b with Some v => Some v | None => assigned x a end.
Proof. induction a as [|[y v] a IH]; cbn [app assigned]; [now destruct (assigned x b)|]. rewrite IH. now destruct (assigned x b). Qed.
Lemma assigned_from S n x : from S n -> ~ In x S -> assigned x n = None.
Proof.
  intros H Hx. induction H as [|[y v] n Hy _ IH]; [reflexivity|]. cbn [assigned]. rewrite IH. destruct (slot_eq_dec y x) as [->|]; [contradiction|reflexivity].
Qed.
Lemma notes_for_app x a b : notes_for x (a ++ b) = notes_for x a ++ notes_for x b.
Proof. unfold notes_for. apply flat_map_app. Qed.
Lemma notes_for_none x n : assigned x n = None -> notes_for x n = [].
Proof.
  induction n as [|[y v] n IH]; cbn [assigned]; intros H; [reflexivity|]. cbn [notes_for flat_map]. destruct (assigned x n); [discriminate|].
  destruct (slot_eq_dec y x) as [->|Hne]; [discriminate|]. unfold notes_for in *. rewrite IH by reflexivity. destruct x, y, v; try reflexivity; contradiction.
Qed.

(** ** Included activities behind the comment *)
Lemma included_last x A a b :
  In x (map fst tech) -> one_line a -> one_line b -> plain [lit "Activity End: "; lit "Technology Level: "] a -> plain [lit "Activity Start: "; lit "Technology Level: "] b ->
  Forall (plain tech_marks) A ->
  tech_comment (closed_lines (line_level x :: A ++ [line_start a]) ++ line_end b) = ([(IncludedStart, Some a); (IncludedEnd, Some b); (TechLevel, Some x)], closed_lines A).
Proof.
  intros Hx Ha Hb Pa Pb FA.
  destruct (table_value _ _ Hx) as (v & E & Hin).
  assert (G : good_mark mark_level) by (split; [apply notin_b; vm_compute; reflexivity|discriminate]).
  assert (G1 : good_mark mark_start) by (split; [apply notin_b; vm_compute; reflexivity|discriminate]).
  assert (G2 : good_mark mark_end) by (split; [apply notin_b; vm_compute; reflexivity|discriminate]).
  pose proof (proj1 (proj2 (proj2 (proj2 C33_tables_round_trip))) x v E) as Hr.
  assert (Hc : (negb (existsb (N.eqb 10) v) && negb (infixb mark_start (mark_level ++ v)) && negb (infixb mark_end (mark_level ++ v)))%bool = true).
  { assert (Hall : forallb (fun kv => (negb (existsb (N.eqb 10) (snd kv)) && negb (infixb mark_start (mark_level ++ snd kv)) &&
                     negb (infixb mark_end (mark_level ++ snd kv)))%bool) tech = true) by (vm_compute; reflexivity).
    rewrite forallb_forall in Hall. exact (Hall _ Hin). }
  apply andb_true_iff in Hc as [Hc N2]. apply andb_true_iff in Hc as [Hv N1].
  apply negb_true_iff in Hv, N1, N2. apply notin_b in Hv. apply not_infixb in N1, N2.
  unfold line_level, line_start, line_end, shown. rewrite E.
  assert (A1 : Forall (fun l => ~ occurs mark_start l) ((mark_level ++ v) :: A)) by (constructor; auto; eapply Forall_impl; [|exact FA]; intros l Hl; apply Hl; cbn; auto).
  assert (A2 : Forall (fun l => ~ occurs mark_end l) ((mark_level ++ v) :: A)) by (constructor; auto; eapply Forall_impl; [|exact FA]; intros l Hl; apply Hl; cbn; auto).
  assert (A3 : Forall (fun l => ~ occurs mark_level l) A) by (eapply Forall_impl; [|exact FA]; intros l Hl; apply Hl; cbn; auto).
  assert (HM0 := match_start_mark).
  assert (HM1 : forall s v r, match_line true mark_start s = Some (v, r) -> prefixb mark_start s = true /\ length r < length s)
    by (intros s w r H; apply match_line_mark in H; [exact H|discriminate]).
  assert (HM2 : forall s v r, match_line false mark_end s = Some (v, r) -> prefixb mark_end s = true /\ length r < length s)
    by (intros s w r H; apply match_line_mark in H; [exact H|discriminate]).
  assert (Qa : ~ occurs mark_start (mark_end ++ b)).
  { intros Ho. assert (Hq : quiet mark_start mark_end) by (apply quiet_b_ok; vm_compute; reflexivity).
    revert Ho. apply quiet_not_occurs; auto; [discriminate|]. apply Pb. cbn. auto. }
  change ((mark_level ++ v) :: A ++ [mark_start ++ a]) with (((mark_level ++ v) :: A) ++ [mark_start ++ a]).
  rewrite closed_app, (closed_cons (mark_start ++ a)). set (P := (mark_level ++ v) :: A) in *. change (closed_lines []) with (@nil N).
  repeat (rewrite <- app_assoc; cbn [app]).
  assert (Q1 : quiet mark_start (closed_lines P)) by (apply quiet_lines; auto; apply G1).
  assert (Q2 : quiet mark_end (closed_lines P)) by (apply quiet_lines; auto; apply G2).
  assert (S1 : search_with match_start (closed_lines P ++ mark_start ++ a ++ 10%N :: mark_end ++ b) = Some a).
  { rewrite (search_quiet mark_start _ HM0) by exact Q1. eapply search_hit. unfold match_start. rewrite (match_line_hit true mark_start a _ Ha), prefixb_app. reflexivity. }
  assert (S2 : remove_all (match_line true mark_start) (closed_lines P ++ mark_start ++ a ++ 10%N :: mark_end ++ b) = closed_lines P ++ mark_end ++ b).
  { rewrite (remove_all_quiet mark_start _ HM1) by exact Q1. rewrite (remove_all_hit mark_start _ HM1 _ _ _ (match_line_hit true mark_start a _ Ha)).
    now rewrite (remove_all_none mark_start _ HM1). }
  assert (S3 : search_with (match_line false mark_end) (closed_lines P ++ mark_end ++ b) = Some b).
  { rewrite (search_quiet mark_end _ HM2) by exact Q2. eapply search_hit. exact (match_line_hit_end mark_end b Hb). }
  assert (S4 : remove_all (match_line false mark_end) (closed_lines P ++ mark_end ++ b) = closed_lines P).
  { rewrite (remove_all_quiet mark_end _ HM2) by exact Q2. rewrite (remove_all_hit mark_end _ HM2 _ _ _ (match_line_hit_end mark_end b Hb)).
    rewrite (remove_all_none mark_end _ HM2); [apply app_nil_r|]. intros (p & q & Ex). destruct p; discriminate. }
  pose proof (str_step mark_level G [] A [] (Forall_nil _) A3 ltac:(intros (p & q & Ex); destruct p; discriminate) tech_ v Hv) as Hs.
  rewrite Hr in Hs. cbn [app] in Hs. fold P in Hs. rewrite !app_nil_r in Hs.
  unfold tech_comment. rewrite S1, S2, S3, S4, Hs. reflexivity.
Qed.
Lemma texts_at_swap A B i k : (forall j l u v, In (j, l, u) A -> ~ In (j, l, v) B) -> texts_at (A ++ B) i k = texts_at (B ++ A) i k.
Proof.
  intros H. rewrite !texts_at_app. destruct (texts_at A i k) as [|t r] eqn:E; [now rewrite app_nil_r|].
  rewrite (texts_at_none B); [now rewrite app_nil_r|]. intros u Hu. apply (H i k t u); [|exact Hu]. apply texts_at_mem. rewrite E. now left.
Qed.
Lemma rows_swap sep A B rows : (forall j l u v, In (j, l, u) A -> ~ In (j, l, v) B) -> language_rows sep (A ++ B) rows -> language_rows sep (B ++ A) rows.
Proof. intros H. apply rows_ext. intros i k. now apply texts_at_swap. Qed.


(** the running number only grows *)
Lemma receive_up {A} (f : Z -> speech -> result (list A * list pyval * Z)) l : (forall n s r, f n s = Ok r -> (n <= snd r)%Z) ->
  forall n r, receive f n l = Ok r -> (n <= snd r)%Z.
Proof.
  intros Hf. induction l as [|v l IH]; intros n r H; cbn [receive] in H.
  - injection H as <-. cbn. lia.
  - destruct (said v) as [s|]; cbn [bind] in H; [|discriminate]. destruct (f n s) as [[[x vs] n1]|] eqn:Ef; cbn [bind] in H; [|discriminate].
    destruct (receive f n1 l) as [[[y ws] n2]|] eqn:El; cbn [bind] in H; [|discriminate]. injection H as <-. cbn [snd].
    apply Hf in Ef. apply IH in El. cbn [snd] in *. lia.
Qed.
Lemma gstep_up {A} skip (rd : pystr -> result (list A * pystr)) c d : (0 <= d)%Z -> forall n s r, gstep skip rd c d n s = Ok r -> (n <= snd r)%Z.
Proof.
  intros Hd n s r. unfold gstep. destruct (skip (snd s)); [intros [= <-]; cbn; lia|]. destruct (rd (snd s)); cbn [bind]; [|discriminate]. intros [= <-]. cbn [snd]. lia.
Qed.
Lemma step_up {A} (f : Z -> speech -> result (list A * list pyval * Z)) skip rd c d : (0 <= d)%Z -> (forall n s, f n s = gstep skip rd c d n s) -> forall l n r, receive f n l = Ok r -> (n <= snd r)%Z.
Proof. intros Hd Hf l n r H. eapply receive_up; [|exact H]. intros n' s r'. rewrite Hf. now apply gstep_up. Qed.
Lemma synonym_up l n r : receive synonym_step n l = Ok r -> (n <= snd r)%Z.
Proof. apply receive_up. clear. intros n s r [= <-]. cbn [snd]. lia. Qed.

(** ** The whole trip *)
Section Trip.
  Context (E : env) (show : pyval -> pystr) (ns : pystr) (long : nat) (gap : ifield -> N) (name_id : pystr -> pystr) (vote : pystr) (n m : Z).
  Notation trip' := (trip E show ns long gap name_id vote n m).
  Notation sent' := (sent E n m).
  Notation hear O f := (reported show ns (lit "field") (O f)).

  Record journey (a a' : activity) (O : ifield -> list out) (r1 r2 r3 r4 r5 r6 r8 r9 ra rb r10 rc r11 : notes * list pyval * Z) (r7 : list pystr * list pyval * Z) : Prop := {
    j_sent : forall f, sent' a f = Ok (O f);
    j_r1 : receive (A := slot * option pystr) (fixed_step 1) 1000 (hear O BaseName ++ hear O MixAndLocation) = Ok r1;
    j_names : spoken_out E name_class (snd (fst r1)) = Ok (f_names a');
    j_r2 : exists k, (1000 <= k)%Z /\ receive synonym_step k (hear O Synonyms) = Ok r2;
    j_synonyms : spoken_out E synonym_class (snd (fst r2)) = Ok (f_synonyms a');
    j_r3 : exists k, (1000 <= k)%Z /\ receive (marked general_comment) k (hear O GeneralComment) = Ok r3;
    j_general : comment_out E long (snd (fst r3)) = Ok (f_general a');
    j_r4 : exists k, (1000 <= k)%Z /\ receive (marked time_comment) k (hear O TimeDescription) = Ok r4;
    j_time : comment_out E long (snd (fst r4)) = Ok (f_time a');
    j_r5 : exists k, (1000 <= k)%Z /\ receive plain_step k (hear O Restrictions) = Ok r5;
    j_geography : comment_out E long (snd (fst r5)) = Ok (f_geography a');
    j_r6 : exists k, (1000 <= k)%Z /\ receive (marked tech_comment) k (hear O TechDescription) = Ok r6;
    j_technology : comment_out E long (snd (fst r6)) = Ok (f_technology a');
    j_r7 : exists k, (1000 <= k)%Z /\ receive deviation_step k (hear O DevPrinciple) = Ok r7;
    j_r8 : exists k, (1000 <= k)%Z /\ receive twice_step k (hear O DevApproaches) = Ok r8;
    j_allocation : comment_out E long (snd (fst r8)) = Ok (f_allocation a');
    j_r9 : exists k, (1000 <= k)%Z /\ receive constants_step k (hear O ModellingConstants) = Ok r9;
    j_ra : exists k, (1000 <= k)%Z /\ receive (unless_none (lit "Deviations from Cut-Off and Completeness Principles: ")) k (hear O DevCutOff) = Ok ra;
    j_rb : exists k, (1000 <= k)%Z /\ receive (unless_none (lit "Deviations from Data Selection and Combination Principles: ")) k (hear O DevSelection) = Ok rb;
    j_r10 : exists k, (1000 <= k)%Z /\ (snd r7 <= k)%Z /\ receive (prefix_step (lit "Data Treatment and Extrapolations Principles: ")) k (hear O Treatment) = Ok r10;
    j_rc : exists k, (1000 <= k)%Z /\ receive (unless_none (lit "Deviations from Data Treatment and Extrapolations Principles: ")) k (hear O DevTreatment) = Ok rc;
    j_extrapolations : spoken_out E (long_class long) (snd (fst r7) ++ snd (fst ra) ++ snd (fst rb) ++ snd (fst r10) ++ snd (fst rc)) = Ok (f_extrapolations a');
    j_r11 : exists k, (1000 <= k)%Z /\ receive (A := slot * option pystr) (fixed_step 0) k (hear O Sampling) = Ok r11;
    j_sampling : spoken_out E (long_class long) (snd (fst r9) ++ snd (fst r11)) = Ok (f_sampling a');
    j_notes : let x := fst (fst r3) ++ fst (fst r4) ++ fst (fst r6) ++ fst (fst r9) in
      spoken_out E (long_class long) (map (fun t => entry_at 1 (english t)) (notes_for IncludedStart x)) = Ok (f_start a') /\
      spoken_out E (long_class long) (map (fun t => entry_at 2 (english t)) (notes_for IncludedEnd x)) = Ok (f_end a') /\
      text_out E tag_class (notes_for Tag x) = Ok (f_tags a') /\
      f_parent a' = last_note ParentId x None /\ f_inherit a' = last_note Inheritance x (Some (lit "0")) /\ f_subtype a' = last_note SpecialType x (Some (lit "0")) /\
      f_level a' = last_note TechLevel x (Some (lit "3")) /\ f_validity a' = last_note Validity x (Some (lit "true")) /\
      (exists name, first_name (hear O BaseName) = Ok name /\ f_link a' = last_note ActivityNameId x (Some (name_id name))) /\
      f_energy a' = match last_note Energy x None with Some c => if str_eqb c (lit "0") then Some vote else Some c | None => Some vote end;
    j_location : exists loc, text_out E location_class (map snd (f_places a)) = Ok loc /\
      spoken_out E place_class (map (fun t => entry_at 1 (english t)) loc) = Ok (f_places a');
    j_model : exists ap i mm, approaches_out a = Ok ap /\ system_model_of (last (map Some (fst (fst r7))) None) ap = (Some mm, Some i) /\ f_model a' = english mm;
    j_rest : f_scenario a' = [english (lit "Business-as-Usual")] /\ f_scenario_comment a' = [] /\ f_volumes a' = []
  }.

  Lemma mapM_ok_in {A B} (g : A -> result B) l r x : mapM g l = Ok r -> In x l -> exists y, g x = Ok y.
  Proof.
    revert r. induction l as [|a l IH]; intros r H Hin; [destruct Hin|]. cbn [mapM] in H. destruct (g a) as [y|] eqn:Ey; cbn [bind] in H; [|discriminate].
    destruct (mapM g l) as [ys|]; cbn [bind] in H; [|discriminate]. destruct Hin as [<-|Hin]; eauto.
  Qed.
  Tactic Notation "step" hyp(H) ident(r) ident(e) := match type of H with bind ?x _ = Ok _ => destruct x as [r|] eqn:e; cbn [bind] in H; [|discriminate] end.
  Lemma trip_inv a a' : trip' a = Ok a' -> exists O r1 r2 r3 r4 r5 r6 r8 r9 ra rb r10 rc r11 r7, journey a a' O r1 r2 r3 r4 r5 r6 r8 r9 ra rb r10 rc r11 r7.
  Proof.
    unfold trip. intros H. destruct (there E n m a) as [d|] eqn:Ed; cbn [bind] in H; [|discriminate].
    unfold there in Ed. step Ed ap Eap. step Ed outs Eouts. step Ed loc Eloc. injection Ed as <-.
    set (O := fun f => match sent' a f with Ok l => l | Err _ => [] end) in *.
    assert (HO : forall f, sent' a f = Ok (O f)).
    { intros f. destruct (mapM_ok_in _ _ _ f Eouts) as [y Hy]; [destruct f; cbn [In]; auto 20|]. unfold O. now rewrite Hy. }
    clearbody O. unfold back, heard in H. cbn [d_texts d_approaches d_location] in H.
    step H r1 Er1. step H names Enames. step H r2 Er2. step H syn Esyn. step H r3 Er3. step H gener Egener. step H r4 Er4. step H tim Etim. step H r5 Er5. step H geo Egeo. step H r6 Er6. step H tec Etec.
    step H r7 Er7. step H r8 Er8. step H all Eall. step H r9 Er9. step H ra Era. step H rb Erb. step H r10 Er10. step H rc Erc. step H ext Eext. step H r11 Er11. step H sam Esam.
    step H sta Esta. step H en Een. step H tags Etags. step H places Eplaces. step H name Ename.
    destruct (system_model_of (last (map Some (fst (fst r7))) None) ap) as [[mm|] [i|]] eqn:Em; try discriminate. injection H as <-.
    pose proof (synonym_up _ _ _ Er2) as U2.
    pose proof (step_up _ _ _ 1 2 ltac:(lia) (marked_g general_comment) _ _ _ Er3) as U3.
    pose proof (step_up _ _ _ 1 2 ltac:(lia) (marked_g time_comment) _ _ _ Er4) as U4.
    pose proof (step_up _ _ _ 0 1 ltac:(lia) plain_g _ _ _ Er5) as U5.
    pose proof (step_up _ _ _ 1 2 ltac:(lia) (marked_g tech_comment) _ _ _ Er6) as U6.
    pose proof (step_up _ _ _ 0 1 ltac:(lia) deviation_g _ _ _ Er7) as U7.
    pose proof (step_up _ _ _ 1 2 ltac:(lia) twice_g _ _ _ Er8) as U8.
    pose proof (step_up _ _ _ 0 1 ltac:(lia) constants_g _ _ _ Er9) as U9.
    pose proof (step_up _ _ _ 0 1 ltac:(lia) (unless_g _) _ _ _ Era) as Ua.
    pose proof (step_up _ _ _ 0 1 ltac:(lia) (unless_g _) _ _ _ Erb) as Ub.
    pose proof (step_up _ _ _ 0 1 ltac:(lia) (prefix_g _) _ _ _ Er10) as U10.
    pose proof (step_up _ _ _ 0 1 ltac:(lia) (unless_g _) _ _ _ Erc) as Uc.
    assert (Hg : forall f, (0 <= Z.of_N (gap f))%Z) by (intros; lia).
    pose proof (Hg Synonyms). pose proof (Hg GeneralComment). pose proof (Hg TimeDescription). pose proof (Hg Restrictions). pose proof (Hg TechDescription).
    pose proof (Hg DevPrinciple). pose proof (Hg DevApproaches). pose proof (Hg ModellingConstants). pose proof (Hg DevCutOff). pose proof (Hg DevSelection).
    pose proof (Hg Treatment). pose proof (Hg DevTreatment). pose proof (Hg Sampling). clear Hg.
    exists O, r1, r2, r3, r4, r5, r6, r8, r9, ra, rb, r10, rc, r11, r7.
    split; cbn [f_names f_places f_synonyms f_start f_end f_allocation f_general f_technology f_time f_geography f_tags f_link f_parent f_inherit f_subtype f_energy f_level f_validity f_scenario f_scenario_comment f_model f_sampling f_extrapolations f_volumes]; auto; try (eexists; split; [|eassumption]; lia).
    - eexists. split; [|split; [|eassumption]]; lia.
    - cbv zeta. repeat (split; [solve [assumption|reflexivity]|]). split; [|reflexivity]. exists name. auto.
    - exists loc. auto.
    - exists ap, i, mm. auto.
  Qed.
End Trip.
