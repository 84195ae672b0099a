From Coq Require Import Ascii String List Bool Arith NArith ZArith Lia Sorted Permutation.
From Verif Require Import PyBase PyBaseFacts PyValues PyDigits TextSplitModel TextSplitProofs SplitterProofs
  ValidatorsModel ValidatorsSpec ValidatorsProofs MultiLangModel MultiLangSpec.
Import ListNotations.

Definition triple_of (e : entry) : triple := (ix e, lg e, match tx e with Some t => t | None => [] end).
Definition has_text (e : entry) : Prop := exists t, tx e = Some t /\ t <> [] /\ isspace t = false.
Definition key (e : entry) : Z * pystr := (ix e, lg e).
Definition tkey (a : triple) : Z * pystr := fst a.

Lemma nonblank_has e : nonblank e = true -> has_text e.
Proof.
  unfold nonblank, has_text. destruct (tx e) as [t|]; [|discriminate].
  rewrite andb_true_iff, !negb_true_iff. intros [H1 H2]. exists t. repeat split; auto.
  intros ->. discriminate.
Qed.

Lemma same_key a b : same_index_lang a b = true <-> key a = key b.
Proof.
  unfold same_index_lang, key. rewrite andb_true_iff, Z.eqb_eq, str_eqb_eq.
  split; [intros [-> ->]; reflexivity | intros [= -> ->]; auto].
Qed.

Lemma texts_at_app L M i k : texts_at (L ++ M) i k = texts_at L i k ++ texts_at M i k.
Proof. unfold texts_at. now rewrite filter_app, map_app. Qed.

Lemma texts_at_mem L i k t : In t (texts_at L i k) <-> In (i, k, t) L.
Proof.
  unfold texts_at. rewrite in_map_iff. split.
  - intros ([[i' k'] u] & <- & H). apply filter_In in H as [H1 H2]. cbn in *.
    apply andb_true_iff in H2 as [H2 H3]. apply Z.eqb_eq in H2. apply str_eqb_eq in H3. now subst.
  - intros H. exists (i, k, t). split; auto. apply filter_In. split; auto. cbn.
    now rewrite Z.eqb_refl, str_eqb_refl.
Qed.

Lemma texts_at_in L i k : texts_at L i k <> [] <-> exists u, In (i, k, u) L.
Proof.
  split.
  - intros H. destruct (texts_at L i k) as [|t r] eqn:E; [contradiction|].
    exists t. apply texts_at_mem. rewrite E. now left.
  - intros [u H] E. apply texts_at_mem in H. now rewrite E in H.
Qed.

(** Invariant of the store after the additions [L]. *)
Record Inv (tc : textclass) (L : list triple) (x : list entry) : Prop := {
  inv_nodup : NoDup (map key x);
  inv_keys : forall k, In k (map key x) <-> In k (map tkey L);
  inv_text : forall e, In e x -> tx e = Some (merged (tc_sep tc) (texts_at L (ix e) (lg e)));
}.

Lemma merged_snoc tc l t : l <> [] ->
  merged (tc_sep tc) (l ++ [t]) = text_add tc (merged (tc_sep tc) l) t.
Proof.
  intros H. unfold merged, text_add. destruct (tc_sep tc) as [s|]; [now apply join_snoc | apply last_snoc].
Qed.

Lemma merge1_inv tc L x n t :
  tx n = Some t -> Inv tc L x ->
  exists y, merge1 tc same_index_lang n x = Ok y /\ Inv tc (L ++ [(ix n, lg n, t)]) y.
Proof.
  intros Hn [Hd Hk Ht].
  assert (G : forall x2 x1, x = x1 ++ x2 -> ~ In (key n) (map key x1) ->
    exists y2, merge1 tc same_index_lang n x2 = Ok y2 /\
      Inv tc (L ++ [(ix n, lg n, t)]) (x1 ++ y2)).
  { induction x2 as [|m x2 IH]; intros x1 E Hx1; cbn [merge1].
    - exists [n]. split; [reflexivity|]. rewrite app_nil_r in E. subst x1.
      split.
      + rewrite map_app. cbn. apply NoDup_app_snoc || idtac.
        clear -Hd Hx1. induction (map key x) as [|a l IH]; cbn; [repeat constructor; auto|].
        inversion Hd; subst. constructor.
        * rewrite in_app_iff. intros [?|[<-|[]]]; auto. apply Hx1. now left.
        * apply IH; auto. intros ?. apply Hx1. now right.
      + intros k. rewrite !map_app, !in_app_iff, Hk. cbn. unfold key, tkey. reflexivity.
      + intros e He. apply in_app_iff in He as [He|[<-|[]]].
        * rewrite texts_at_app. rewrite (Ht e He). f_equal. f_equal.
          unfold texts_at at 3. cbn [filter fst snd].
          destruct (Z.eqb (ix n) (ix e) && str_eqb (lg n) (lg e)) eqn:Ee; [|cbn; now rewrite app_nil_r].
          exfalso. apply Hx1. apply in_map_iff. exists e. split; auto. symmetry.
          now apply same_key.
        * rewrite texts_at_app. unfold texts_at at 2. cbn [filter fst snd].
          rewrite Z.eqb_refl, str_eqb_refl. cbn [andb map snd].
          assert (E0 : texts_at L (ix n) (lg n) = []).
          { destruct (texts_at L (ix n) (lg n)) eqn:E0; auto. exfalso.
            assert (exists u, In (ix n, lg n, u) L) as [u Hu] by (apply texts_at_in; rewrite E0; discriminate).
            apply Hx1, Hk. change (key n) with (tkey (ix n, lg n, u)). now apply in_map. }
          rewrite E0. cbn. rewrite Hn. unfold merged. destruct (tc_sep tc); reflexivity.
    - destruct (same_index_lang n m) eqn:Em.
      + apply same_key in Em. assert (Hm : In m x) by (rewrite E, in_app_iff; right; now left).
        pose proof (Ht m Hm) as Htm. rewrite Htm, Hn. eexists. split; [reflexivity|].
        unfold key in Em. injection Em as Ei El.
        assert (Hne : texts_at L (ix n) (lg n) <> []).
        { apply texts_at_in. assert (Hkm : In (key m) (map tkey L)) by (apply Hk; now apply in_map).
          apply in_map_iff in Hkm as ([[i k] u] & Hu & HL). cbn in Hu. unfold key in Hu.
          injection Hu as -> ->. exists u. now rewrite Ei, El. }
        set (m' := {| ix := ix m; lg := lg m; tx := Some (text_add tc (merged (tc_sep tc) (texts_at L (ix m) (lg m))) t) |}).
        assert (Hmap : map key (x1 ++ m' :: x2) = map key x) by (rewrite E, !map_app; reflexivity).
        split.
        * now rewrite Hmap.
        * intros k. rewrite Hmap, map_app, in_app_iff, Hk. cbn. split; auto.
          intros [H|[<-|[]]]; auto. apply Hk. unfold tkey; cbn. rewrite Ei, El. change (ix m, lg m) with (key m).
          now apply in_map.
        * intros e He. rewrite texts_at_app.
          assert (Hcase : e = m' \/ (In e x /\ key e <> key n)).
          { apply in_app_iff in He as [He|[He|He]]; auto; right.
            - split; [rewrite E, in_app_iff; auto|]. intros F. apply Hx1. rewrite <- F. now apply in_map.
            - split; [rewrite E, in_app_iff; right; now right|]. intros F.
              rewrite E, map_app in Hd. cbn in Hd. apply NoDup_remove_2 in Hd. apply Hd.
              rewrite in_app_iff. right. replace (key m) with (key e); [now apply in_map|].
              rewrite F. unfold key. now rewrite Ei, El. }
          destruct Hcase as [->|[Hex Hek]].
          -- cbn [m' ix lg tx]. unfold texts_at at 3. cbn [filter fst snd].
             rewrite Ei, El, Z.eqb_refl, str_eqb_refl. cbn [andb map snd]. f_equal.
             symmetry. apply merged_snoc. now rewrite <- Ei, <- El.
          -- rewrite (Ht e Hex). f_equal. f_equal. unfold texts_at at 3. cbn [filter fst snd].
             destruct (Z.eqb (ix n) (ix e) && str_eqb (lg n) (lg e)) eqn:Ee; [|cbn; now rewrite app_nil_r].
             exfalso. apply Hek. symmetry. now apply same_key.
      + destruct (IH (x1 ++ [m])) as (y2 & Hy & HI).
        * now rewrite <- app_assoc.
        * rewrite map_app, in_app_iff. cbn. intros [H|[H|[]]]; auto.
          assert (same_index_lang n m = true) by (apply same_key; auto). congruence.
        * rewrite Hy. cbn [bind]. exists (m :: y2). split; auto.
          rewrite <- app_assoc in HI. exact HI. }
  destruct (G x [] eq_refl) as (y & Hy & HI); [intros []|]. eauto.
Qed.

Lemma merge_all_inv tc ns : forall L x, Forall has_text ns -> Inv tc L x ->
  exists y, merge_all tc same_index_lang ns x = Ok y /\ Inv tc (L ++ map triple_of ns) y.
Proof.
  induction ns as [|n ns IH]; intros L x Hns HI; cbn [merge_all map].
  - exists x. rewrite app_nil_r. auto.
  - inversion Hns as [|? ? (t & Ht & _) Hns']; subst.
    destruct (merge1_inv tc L x n t Ht HI) as (y & Hy & HI'). rewrite Hy. cbn [bind].
    destruct (IH _ _ Hns' HI') as (z & Hz & HI''). exists z. split; auto.
    unfold triple_of at 1. rewrite Ht. now rewrite <- app_assoc in HI''.
Qed.

Lemma retrieve_text validate v ns : retrieve validate v = Ok ns -> Forall has_text ns.
Proof.
  unfold retrieve. destruct (mapM validate (as_list v)) as [es|]; cbn [bind]; [|discriminate].
  intros [= <-]. apply Forall_forall. intros e He. apply filter_In in He as [_ He]. now apply nonblank_has.
Qed.

(** All additions accepted in a history. *)
Definition additions (validate : pyval -> result entry) (vs : list pyval) : list triple :=
  flat_map (fun v => match retrieve validate v with Ok ns => map triple_of ns | Err _ => [] end) vs.

Lemma additions_snoc validate vs v :
  additions validate (vs ++ [v]) =
  additions validate vs ++ match retrieve validate v with Ok ns => map triple_of ns | Err _ => [] end.
Proof. unfold additions. rewrite flat_map_app. cbn. now rewrite app_nil_r. Qed.

Lemma additions_text validate vs i k u : In (i, k, u) (additions validate vs) -> u <> [] /\ isspace u = false.
Proof.
  unfold additions. intros H. apply in_flat_map in H as (v & _ & H).
  destruct (retrieve validate v) as [ns|] eqn:E; [|destruct H].
  apply retrieve_text in E. apply in_map_iff in H as (e & He & Hin).
  rewrite Forall_forall in E. destruct (E e Hin) as (t & Ht & H1 & H2).
  unfold triple_of in He. rewrite Ht in He. injection He as _ _ <-. auto.
Qed.

Lemma add_merge_inv tc validate vs :
  Inv tc (additions validate vs) (stored (history (add_merge tc same_index_lang validate) vs)).
Proof.
  induction vs as [|v vs IH] using rev_ind.
  - split; cbn; [constructor | reflexivity | intros ? []].
  - rewrite history_snoc, additions_snoc. unfold add_merge at 1.
    destruct (retrieve validate v) as [ns|e] eqn:E; cbn [bind].
    + destruct (merge_all_inv tc ns _ _ (retrieve_text _ _ _ E) IH) as (y & Hy & HI).
      rewrite Hy. exact HI.
    + cbn. now rewrite app_nil_r.
Qed.

(** rejections do not change the store *)
Lemma add_merge_err tc validate st v :
  (forall e, retrieve validate v = Err e ->
     stored (fst (add_merge tc same_index_lang validate st v)) = stored st /\
     snd (add_merge tc same_index_lang validate st v) = Some e).
Proof. intros e E. unfold add_merge. rewrite E. auto. Qed.

(** ** Reading a multi-language field *)
Lemma merged_nonempty tc L i k : (forall u, In (i, k, u) L -> u <> [] /\ isspace u = false) ->
  (exists u, In (i, k, u) L) ->
  merged (tc_sep tc) (texts_at L i k) <> [].
Proof.
  intros Hu Hex. apply texts_at_in in Hex.
  assert (Ha : forall t, In t (texts_at L i k) -> t <> []).
  { intros t Ht. apply texts_at_mem in Ht. now destruct (Hu t Ht). }
  destruct (texts_at L i k) as [|t l]; [now destruct Hex|].
  unfold merged. destruct (tc_sep tc) as [s|].
  - destruct l as [|t' l]; [apply Ha; now left|]. rewrite join_cons by discriminate.
    specialize (Ha t (or_introl eq_refl)). destruct t; [now destruct Ha | discriminate].
  - apply Ha. apply last_In. discriminate.
Qed.

(** [group_langs] accumulates, per language, the texts in the given order. *)
Definition lang_texts (x : list entry) (k : pystr) : list pystr :=
  map (fun e => match tx e with Some t => t | None => [] end) (filter (fun e => str_eqb (lg e) k) x).

Definition DInv (x : list entry) (d : list (pystr * pystr)) : Prop :=
  NoDup (map fst d) /\
  (forall k, In k (map fst d) <-> In k (map lg x)) /\
  (forall k t, In (k, t) d -> t = join newline (lang_texts x k)).

Lemma dict_add_keys d k t : map fst (dict_add d k t) = if str_in k (map fst d) then map fst d else map fst d ++ [k].
Proof.
  induction d as [|[k' t'] d IH]; cbn [dict_add map fst].
  - reflexivity.
  - destruct (str_eqb k' k) eqn:E.
    + apply str_eqb_eq in E as ->. cbn [map fst]. unfold str_in. cbn [existsb]. now rewrite str_eqb_refl.
    + cbn [map fst]. rewrite IH. unfold str_in. cbn [existsb].
      assert (E2 : str_eqb k k' = false) by (apply str_eqb_neq in E; apply str_eqb_neq; congruence).
      rewrite E2. cbn [orb]. now destruct (existsb (str_eqb k) (map fst d)).
Qed.

Lemma dict_add_other d k t k' t' : k' <> k -> In (k', t') (dict_add d k t) <-> In (k', t') d.
Proof.
  intros Hk. induction d as [|[a b] d IH]; cbn [dict_add].
  - cbn. split; [intros [[= <- <-]|[]]; contradiction | intros []].
  - destruct (str_eqb a k) eqn:E.
    + apply str_eqb_eq in E as ->. cbn. split; intros [[= <- <-]|H]; auto; contradiction.
    + cbn [In]. rewrite IH. reflexivity.
Qed.

Lemma dict_add_self d k t t' : NoDup (map fst d) -> In (k, t') (dict_add d k t) ->
  (~ In k (map fst d) /\ t' = t) \/
  (exists t0, In (k, t0) d /\ t' = if str_eqb t0 [] then t0 ++ t else t0 ++ ([10%N] ++ t)).
Proof.
  induction d as [|[a b] d IH]; cbn [dict_add]; intros Hn H.
  - destruct H as [[= <-]|[]]. left. auto.
  - cbn [map fst] in Hn. inversion Hn; subst. destruct (str_eqb a k) eqn:E.
    + apply str_eqb_eq in E as ->. right. destruct H as [[= <-]|H].
      * exists b. split; [now left|reflexivity].
      * exfalso. apply H2. change k with (fst (k, t')). now apply in_map.
    + destruct H as [[= <- <-]|H]; [rewrite str_eqb_refl in E; discriminate|].
      destruct (IH H3 H) as [[H1 ->]|(t0 & Ht0 & ->)].
      * left. split; auto. cbn. intros [->|F]; [rewrite str_eqb_refl in E; discriminate | contradiction].
      * right. exists t0. split; [now right | reflexivity].
Qed.

Lemma join_nonempty sep l : l <> [] -> Forall (fun s : pystr => s <> []) l -> join sep l <> [].
Proof.
  intros Hl Hf. destruct l as [|a [|b l]]; [now destruct Hl | now inversion Hf |].
  rewrite join_cons by discriminate. inversion Hf; subst. destruct a; [contradiction | discriminate].
Qed.

Lemma group_langs_ok : forall x2 x1 d, Forall (fun e => exists t, tx e = Some t /\ t <> []) (x1 ++ x2) ->
  DInv x1 d -> exists d', group_langs d x2 = Ok d' /\ DInv (x1 ++ x2) d'.
Proof.
  induction x2 as [|e x2 IH]; intros x1 d Hf HD; cbn [group_langs].
  - exists d. rewrite app_nil_r. auto.
  - assert (He : exists t, tx e = Some t /\ t <> []).
    { rewrite Forall_forall in Hf. apply Hf. rewrite in_app_iff. right. now left. }
    destruct He as (t & Ht & Hne). rewrite Ht.
    replace (x1 ++ e :: x2) with ((x1 ++ [e]) ++ x2) in * by (now rewrite <- app_assoc).
    apply IH; auto. destruct HD as (Hn & Hk & HT).
    assert (Hlt : forall k, lang_texts (x1 ++ [e]) k =
              lang_texts x1 k ++ if str_eqb (lg e) k then [t] else []).
    { intros k. unfold lang_texts. rewrite filter_app, map_app. f_equal. cbn.
      destruct (str_eqb (lg e) k); cbn; now rewrite ?Ht. }
    assert (Hx1 : forall k, Forall (fun s : pystr => s <> []) (lang_texts x1 k)).
    { intros k. apply Forall_forall. intros s Hs. unfold lang_texts in Hs.
      apply in_map_iff in Hs as (e' & <- & He'). apply filter_In in He' as [He' _].
      rewrite Forall_forall in Hf. destruct (Hf e') as (t' & -> & H'); auto.
      rewrite !in_app_iff. auto. }
    repeat split.
    + rewrite dict_add_keys. destruct (str_in (lg e) (map fst d)) eqn:E; auto.
      assert (~ In (lg e) (map fst d)) by (intros F; apply str_in_In in F; congruence).
      clear -Hn H. induction (map fst d) as [|a l IH]; cbn; [repeat constructor; auto|].
      inversion Hn; subst. constructor.
      * rewrite in_app_iff. intros [?|[<-|[]]]; auto. apply H. now left.
      * apply IH; auto. intros ?. apply H. now right.
    + rewrite dict_add_keys. rewrite map_app, in_app_iff, <- Hk. cbn.
      destruct (str_in (lg e) (map fst d)) eqn:E; [auto|]. rewrite in_app_iff. cbn. auto.
    + rewrite dict_add_keys. rewrite map_app, in_app_iff, <- Hk. cbn.
      destruct (str_in (lg e) (map fst d)) eqn:E.
      * intros [H|[<-|[]]]; auto. now apply str_in_In.
      * rewrite in_app_iff. cbn. auto.
    + intros k t' Hin. rewrite Hlt. destruct (str_dec k (lg e)) as [->|Hne'].
      * rewrite str_eqb_refl.
        destruct (dict_add_self _ _ _ _ Hn Hin) as [[Hnk ->]|(t0 & Ht0 & ->)].
        -- assert (E0 : lang_texts x1 (lg e) = []).
           { destruct (lang_texts x1 (lg e)) as [|s l] eqn:E0; auto. exfalso. apply Hnk, Hk.
             unfold lang_texts in E0. destruct (filter (fun e0 => str_eqb (lg e0) (lg e)) x1) as [|e' l'] eqn:E1; [discriminate|].
             assert (In e' (filter (fun e0 => str_eqb (lg e0) (lg e)) x1)) by (rewrite E1; now left).
             apply filter_In in H as [H1 H2]. apply str_eqb_eq in H2. rewrite <- H2. now apply in_map. }
           rewrite E0. reflexivity.
        -- pose proof (HT _ _ Ht0) as E0.
           assert (Hl : lang_texts x1 (lg e) <> []).
           { assert (Hk' : In (lg e) (map lg x1)) by (apply Hk; change (lg e) with (fst (lg e, t0)); now apply in_map).
             apply in_map_iff in Hk' as (e' & He' & Hin'). unfold lang_texts.
             assert (Hf' : In e' (filter (fun e0 => str_eqb (lg e0) (lg e)) x1)).
             { apply filter_In. split; auto. rewrite He'. apply str_eqb_refl. }
             destruct (filter _ x1); [destruct Hf' | discriminate]. }
           assert (Hj : join newline (lang_texts x1 (lg e)) <> []) by (apply join_nonempty; auto).
           rewrite <- E0 in Hj. apply str_eqb_neq in Hj. rewrite Hj.
           rewrite join_snoc by assumption. now rewrite <- E0.
      * assert (E : str_eqb (lg e) k = false) by (apply str_eqb_neq; congruence).
        rewrite E, app_nil_r. apply HT. now apply dict_add_other in Hin.
Qed.

Lemma ix_leb_total a b : ix_leb a b = true \/ ix_leb b a = true.
Proof. unfold ix_leb. rewrite !Z.leb_le. lia. Qed.
Lemma ix_leb_trans a b c : ix_leb a b = true -> ix_leb b c = true -> ix_leb a c = true.
Proof. unfold ix_leb. rewrite !Z.leb_le. lia. Qed.
Lemma kv_leb_total a b : kv_leb a b = true \/ kv_leb b a = true.
Proof. apply str_leb_total. Qed.
Lemma kv_leb_trans a b c : kv_leb a b = true -> kv_leb b c = true -> kv_leb a c = true.
Proof. apply str_leb_trans. Qed.

Lemma SS_filter {A} (R : A -> A -> Prop) p l : StronglySorted R l -> StronglySorted R (filter p l).
Proof.
  induction 1; cbn; [constructor|]. destruct (p a); auto. constructor; auto.
  rewrite Forall_forall in *. intros y Hy. apply filter_In in Hy as [Hy _]. auto.
Qed.
Lemma SS_map {A B} (f : A -> B) (R : A -> A -> Prop) (S : B -> B -> Prop) l :
  (forall a b, R a b -> S (f a) (f b)) -> StronglySorted R l -> StronglySorted S (map f l).
Proof.
  intros H. induction 1; cbn; constructor; auto.
  rewrite Forall_forall in *. intros y Hy. apply in_map_iff in Hy as (x & <- & Hx). auto.
Qed.

(** sorted + distinct keys = strictly sorted *)
Lemma SS_strict {A B} (f : A -> B) (R : A -> A -> Prop) (S : B -> B -> Prop) l :
  (forall a b, In a l -> In b l -> R a b -> f a <> f b -> S (f a) (f b)) -> NoDup (map f l) -> StronglySorted R l ->
  StronglySorted S (map f l).
Proof.
  induction l as [|a l IH]; intros H Hn Hs; cbn; [constructor|].
  inversion Hs; subst. cbn in Hn. inversion Hn; subst. constructor.
  - apply IH; auto. intros x y Hx Hy. apply H; now right.
  - apply Forall_forall. intros y Hy. apply in_map_iff in Hy as (b & <- & Hb).
    rewrite Forall_forall in H3. apply H; auto; [now left | now right |].
    intros F. apply H4. rewrite F. now apply in_map.
Qed.

Lemma NoDup_map_filter {A B} (f : A -> B) p l : NoDup (map f l) -> NoDup (map f (filter p l)).
Proof.
  induction l as [|a l IH]; cbn; auto. intros H. inversion H; subst.
  destruct (p a); cbn; auto. constructor; auto. intros F. apply H2.
  apply in_map_iff in F as (x & Hx & Hin). apply filter_In in Hin as [Hin _].
  rewrite <- Hx. now apply in_map.
Qed.

Lemma multilang_rows tc L x :
  Inv tc L x -> (forall i k u, In (i, k, u) L -> u <> [] /\ isspace u = false) ->
  exists d, group_langs [] (isort ix_leb x) = Ok d /\
            language_rows (tc_sep tc) L (isort kv_leb d).
Proof.
  intros [Hd Hk Ht] HL.
  assert (Hp : Permutation (isort ix_leb x) x) by apply isort_perm.
  assert (Hmem : forall e, In e x -> exists u, In (ix e, lg e, u) L).
  { intros e He. assert (H : In (key e) (map tkey L)) by (apply Hk; now apply in_map).
    apply in_map_iff in H as ([[i k] u] & Hu & Hin). unfold tkey, key in Hu. cbn in Hu.
    injection Hu as -> ->. eauto. }
  assert (Hfor : Forall (fun e => exists t, tx e = Some t /\ t <> []) ([] ++ isort ix_leb x)).
  { apply Forall_forall. intros e He. cbn in He. assert (He' : In e x) by (eapply Permutation_in; eauto).
    eexists. split; [now apply Ht|]. apply merged_nonempty; auto. intros u Hu. eapply HL; eauto. }
  destruct (group_langs_ok (isort ix_leb x) [] [] Hfor) as (d & Hg & Hn & Hkk & HT).
  { repeat split; cbn; intuition. constructor. }
  exists d. split; auto. cbn [app] in *.
  assert (Hpd : Permutation (isort kv_leb d) d) by apply isort_perm.
  split; [|split].
  - apply (SS_strict fst (fun a b => kv_leb a b = true)).
    + intros a b _ _ H1 H2. split; auto.
    + eapply Permutation_NoDup; [|exact Hn]. apply Permutation_map, Permutation_sym, Hpd.
    + apply isort_sorted; [apply kv_leb_total | apply kv_leb_trans].
  - intros k. transitivity (In k (map fst d)).
    { split; apply Permutation_in; [|apply Permutation_sym]; apply Permutation_map, Hpd. }
    rewrite Hkk. transitivity (In k (map lg x)).
    { split; apply Permutation_in; [|apply Permutation_sym]; apply Permutation_map, Hp. }
    split.
    + intros H. apply in_map_iff in H as (e & <- & He). destruct (Hmem e He) as [u Hu]. eauto.
    + intros (i & u & H). assert (F : In (i, k) (map key x)).
      { apply Hk. change (i, k) with (tkey (i, k, u)). now apply in_map. }
      apply in_map_iff in F as (e & [= <- <-] & He). now apply in_map.
  - intros k t Hin. assert (Hin' : In (k, t) d) by (eapply Permutation_in; eauto).
    rewrite (HT k t Hin'). unfold lang_text.
    set (es := filter (fun e => str_eqb (lg e) k) (isort ix_leb x)).
    exists (map ix es). repeat split.
    + apply (SS_strict ix (fun a b => ix_leb a b = true)).
      * intros a b _ _ H1 H2. unfold ix_leb in H1. apply Z.leb_le in H1. lia.
      * assert (Hnd : NoDup (map key es)).
        { apply NoDup_map_filter. eapply Permutation_NoDup; [|exact Hd].
          apply Permutation_map, Permutation_sym, Hp. }
        assert (Hall : forall e, In e es -> lg e = k).
        { intros e He. apply filter_In in He as [_ He]. now apply str_eqb_eq in He. }
        clear - Hnd Hall. induction es as [|e l IH]; cbn in *; [constructor|].
        inversion Hnd; subst. constructor; auto. intros F. apply H1.
        apply in_map_iff in F as (e' & He' & Hin). apply in_map_iff. exists e'. split; auto.
        unfold key. rewrite He', (Hall e' (or_intror Hin)), (Hall e (or_introl eq_refl)). reflexivity.
      * apply SS_filter, isort_sorted; [apply ix_leb_total | apply ix_leb_trans].
    + intros H. apply in_map_iff in H as (e & <- & He). apply filter_In in He as [He Hl].
      apply str_eqb_eq in Hl. subst k. apply Hmem. eapply Permutation_in; eauto.
    + intros [u Hu]. assert (F : In (i, k) (map key x)).
      { apply Hk. change (i, k) with (tkey (i, k, u)). now apply in_map. }
      apply in_map_iff in F as (e & [= <- <-] & He). apply in_map. apply filter_In. split.
      * eapply Permutation_in; [apply Permutation_sym, Hp | auto].
      * apply str_eqb_refl.
    + f_equal. unfold lang_texts. fold es. rewrite map_map. apply map_ext_in. intros e He.
      apply filter_In in He as [He Hl]. apply str_eqb_eq in Hl. subst k.
      assert (He' : In e x) by (eapply Permutation_in; eauto). now rewrite (Ht e He').
Qed.

(** ** Acceptance of entries *)
Lemma isspace_visible t : (t <> [] /\ isspace t = false) <-> visible_text t.
Proof.
  unfold visible_text, isspace. split.
  - intros [H1 H2]. destruct t as [|c t]; [contradiction|].
    cbn [negb andb] in H2. clear H1. revert H2. generalize (c :: t). clear. intros l.
    induction l as [|a l IH]; cbn; [discriminate|]. destruct (is_space a) eqn:E; cbn; intros H.
    + destruct (IH H) as (x & Hx & E'). eauto.
    + eauto.
  - intros (c & Hc & E). split; [intros ->; destruct Hc|].
    destruct t as [|a t]; [reflexivity|]. cbn [negb andb].
    destruct (forallb is_space (a :: t)) eqn:F; auto.
    rewrite forallb_forall in F. apply F in Hc. congruence.
Qed.

Lemma keys_ok_iff keys d :
  forallb (fun kv : pystr * pyval => str_in (fst kv) keys) d = true <-> (forall k x, In (k, x) d -> In k keys).
Proof.
  rewrite forallb_forall. split.
  - intros H k x Hin. apply str_in_In. now apply (H (k, x)).
  - intros H [k x] Hin. apply str_in_In. now apply (H k x).
Qed.

Lemma lookup_field k d : lookup k d = field k d.
Proof. reflexivity. Qed.

Lemma basic_iff keys v t : basic_validate keys v = Ok t <->
  exists d, v = VDict d /\ (forall k x, In (k, x) d -> In k keys) /\ field ktext d = Some (VStr t).
Proof.
  unfold basic_validate. split.
  - destruct v as [| | | | | | |d|]; try discriminate.
    destruct (forallb (fun kv => str_in (fst kv) keys) d) eqn:E; [|discriminate]. pose proof (proj1 (keys_ok_iff _ _) E) as Hk.
    rewrite lookup_field. destruct (field ktext d) as [x|] eqn:F; [|discriminate].
    destruct x; cbn; try discriminate. intros [= ->]. eauto 10.
  - intros (d & -> & Hk & Hf). pose proof (proj2 (keys_ok_iff _ _) Hk) as E. rewrite E, lookup_field, Hf. reflexivity.
Qed.

Lemma indexed_iff keys v e : indexed_validate keys v = Ok e <->
  exists d iv t, v = VDict d /\ (forall k x, In (k, x) d -> In k keys) /\
    field kindex d = Some iv /\ py_int iv = Some (ix e) /\ lg e = [] /\
    field ktext d = Some (VStr t) /\ tx e = Some t.
Proof.
  unfold indexed_validate. split.
  - destruct (basic_validate keys v) as [t|] eqn:E; cbn [bind]; [|discriminate].
    apply basic_iff in E as (d & -> & Hk & Ht). cbn [dict_of]. rewrite lookup_field.
    destruct (field kindex d) as [iv|] eqn:Ei; [|discriminate].
    destruct (py_int iv) as [z|] eqn:Ez; [|discriminate]. intros [= <-]. cbn. eauto 15.
  - intros (d & iv & t & -> & Hk & Hi & Hz & Hl & Ht & He).
    rewrite (proj2 (basic_iff keys (VDict d) t)) by eauto. cbn [bind dict_of].
    rewrite lookup_field, Hi, Hz. destruct e; cbn in *; subst. reflexivity.
Qed.

Lemma lang_iff langs v e : lang_validate langs v = Ok e <->
  lang_addition langs v (triple_of e) /\ tx e <> None.
Proof.
  unfold lang_validate, lang_addition, triple_of. cbn [fst snd]. split.
  - destruct (indexed_validate _ v) as [e0|] eqn:E; cbn [bind]; [|discriminate].
    apply indexed_iff in E as (d & iv & t & -> & Hk & Hi & Hz & Hl & Ht & He). cbn [dict_of].
    rewrite lookup_field. destruct (field klang d) as [x|] eqn:El; [|discriminate].
    destruct x; try discriminate.
    destruct (length s =? 2) eqn:E2; cbn [negb]; [|discriminate]. apply Nat.eqb_eq in E2.
    intros H. assert (H' : e = {| ix := ix e0; lg := s; tx := tx e0 |} /\
       match langs with Some ls => In s ls | None => True end).
    { destruct langs as [ls|]; [|injection H as <-; auto].
      destruct (str_in s ls) eqn:Es; [|discriminate]. injection H as <-. split; auto. now apply str_in_In. }
    destruct H' as [-> Hls]. cbn. rewrite He. split; [|discriminate].
    exists d, iv. repeat (split; [assumption || reflexivity|]). exact Ht.
  - intros [(d & iv & -> & Hk & Hi & Hz & Hl & H2 & Hls & Ht) Hn].
    destruct e as [i l [t|]]; [|now contradiction Hn]. cbn [ix lg tx] in *.
    rewrite (proj2 (indexed_iff [kindex; klang; ktext] (VDict d) {| ix := i; lg := []; tx := Some t |}))
      by (exists d, iv, t; auto 10).
    cbn [bind dict_of ix tx]. rewrite lookup_field. unfold klang. rewrite Hl.
    rewrite (proj2 (Nat.eqb_eq _ _) H2). cbn [negb].
    destruct langs as [ls|]; [|reflexivity]. now rewrite (proj2 (str_in_In _ _) Hls).
Qed.

Lemma index_iff v e : indexed_validate [kindex; ktext] v = Ok e <->
  index_addition v (triple_of e) /\ tx e <> None.
Proof.
  rewrite indexed_iff. unfold index_addition, triple_of. cbn [fst snd]. split.
  - intros (d & iv & t & -> & Hk & Hi & Hz & Hl & Ht & He). rewrite He. split; [|discriminate].
    exists d, iv. repeat (split; [assumption || reflexivity|]). exact Ht.
  - intros [(d & iv & -> & Hk & Hi & Hz & Hl & Ht) Hn].
    destruct e as [i l [t|]]; [|now contradiction Hn]. cbn in *. eauto 15.
Qed.

Lemma filter_visible es : Forall (fun e => tx e <> None) es ->
  visible_of (map triple_of es) (map triple_of (filter nonblank es)).
Proof.
  induction 1 as [|e es He _ IH]; cbn; [constructor|].
  destruct (tx e) as [t|] eqn:Et; [|now contradiction He].
  destruct (nonblank e) eqn:E; cbn.
  - apply vis_keep; auto. unfold triple_of. rewrite Et. cbn. apply isspace_visible.
    destruct (nonblank_has e E) as (u & Hu & H1 & H2). rewrite Et in Hu. injection Hu as ->. auto.
  - apply vis_skip; auto. unfold triple_of. rewrite Et. cbn. intros F. apply isspace_visible in F as [F1 F2].
    unfold nonblank in E. rewrite Et, F2 in E. apply str_eqb_neq in F1. rewrite F1 in E. discriminate.
Qed.

Definition entry_of (a : triple) : entry := {| ix := fst (fst a); lg := snd (fst a); tx := Some (snd a) |}.
Lemma triple_entry a : triple_of (entry_of a) = a.
Proof. destruct a as [[i k] t]. reflexivity. Qed.

Section Calls.
  Variables (validate : pyval -> result entry) (P : pyval -> triple -> Prop).
  Hypothesis valid_iff : forall v e, validate v = Ok e <-> P v (triple_of e) /\ tx e <> None.

  Lemma retrieve_call v : call_adds P v (match retrieve validate v with Ok ns => map triple_of ns | Err _ => [] end).
  Proof.
    unfold retrieve, call_adds. change (offered v) with (as_list v).
    destruct (mapM validate (as_list v)) as [es|x] eqn:E; cbn [bind].
    - left. apply mapM_forall2 in E. exists (map triple_of es). split.
      + clear -E valid_iff. induction E; cbn; constructor; auto. now apply valid_iff in H.
      + apply filter_visible. clear -E valid_iff. induction E; constructor; auto. now apply valid_iff in H.
    - right. split; auto. intros all Ha.
      assert (mapM validate (as_list v) = Ok (map entry_of all)); [|congruence].
      apply mapM_forall2. clear -Ha valid_iff. induction Ha; cbn; constructor; auto.
      apply valid_iff. rewrite triple_entry. split; auto. discriminate.
  Qed.

  Lemma additions_calls vs : calls_add P vs (additions validate vs).
  Proof.
    induction vs as [|v vs (ls & H1 & H2)].
    - exists []. split; [constructor|reflexivity].
    - eexists (_ :: ls). split; [constructor; [apply retrieve_call | exact H1]|].
      cbn. now rewrite <- H2.
  Qed.
End Calls.

Lemma visible_of_fun a : forall b c, visible_of a b -> visible_of a c -> b = c.
Proof.
  induction a as [|x a IH]; intros b c Hb Hc; inversion Hb; inversion Hc; subst; auto; try contradiction.
  f_equal; auto.
Qed.
Lemma call_adds_fun (P : pyval -> triple -> Prop) v a b :
  (forall w x y, P w x -> P w y -> x = y) -> call_adds P v a -> call_adds P v b -> a = b.
Proof.
  intros Hf [(x & Hx & Vx)|(Hx & ->)] [(y & Hy & Vy)|(Hy & ->)]; auto.
  - assert (x = y); [|subst; eapply visible_of_fun; eauto].
    clear -Hf Hx Hy. revert y Hy. induction Hx; intros y' Hy; inversion Hy; subst; auto.
    f_equal; eauto.
  - now apply Hy in Hx.
  - now apply Hx in Hy.
Qed.
Lemma calls_add_fun (P : pyval -> triple -> Prop) vs A B :
  (forall w x y, P w x -> P w y -> x = y) -> calls_add P vs A -> calls_add P vs B -> A = B.
Proof.
  intros Hf (la & H1 & ->) (lb & H2 & ->). f_equal. revert lb H2.
  induction H1; intros lb H2; inversion H2; subst; auto. f_equal; auto. eapply call_adds_fun; eauto.
Qed.
Lemma lang_addition_fun langs w x y : lang_addition langs w x -> lang_addition langs w y -> x = y.
Proof.
  intros (d & iv & -> & _ & Hi & Hz & Hl & _ & _ & Ht) (d' & iv' & [= <-] & _ & Hi' & Hz' & Hl' & _ & _ & Ht').
  destruct x as [[i k] t], y as [[i' k'] t']. cbn in *. rewrite Hi in Hi'. injection Hi' as <-.
  rewrite Hz in Hz'. rewrite Hl in Hl'. rewrite Ht in Ht'. congruence.
Qed.
Lemma index_addition_fun w x y : index_addition w x -> index_addition w y -> x = y.
Proof.
  intros (d & iv & -> & _ & Hi & Hz & Hl & Ht) (d' & iv' & [= <-] & _ & Hi' & Hz' & Hl' & Ht').
  destruct x as [[i k] t], y as [[i' k'] t']. cbn in *. rewrite Hi in Hi'. injection Hi' as <-.
  rewrite Hz in Hz'. rewrite Ht in Ht'. congruence.
Qed.

Lemma lang_additions langs vs L : calls_add (lang_addition langs) vs L -> L = additions (lang_validate langs) vs.
Proof.
  intros H. eapply calls_add_fun; [apply lang_addition_fun | exact H |].
  apply additions_calls. apply lang_iff.
Qed.
Lemma index_additions vs L : calls_add index_addition vs L -> L = additions (indexed_validate [kindex; ktext]) vs.
Proof.
  intros H. eapply calls_add_fun; [apply index_addition_fun | exact H |].
  apply additions_calls. apply index_iff.
Qed.
Lemma additions_visible validate vs i k u : In (i, k, u) (additions validate vs) -> visible_text u.
Proof. intros H. apply isspace_visible. eapply additions_text; eauto. Qed.

(** ** Emission *)
Lemma text_end_same ignore tc t u : text_end ignore tc t = Ok u -> u = t.
Proof.
  unfold text_end. destruct (tc_limit tc); [|now intros [= <-]].
  intros H. now apply limited_end_iff in H as [-> _].
Qed.

Lemma text_end_fits ignore tc t : fits ignore tc t -> text_end ignore tc t = Ok t.
Proof.
  unfold fits, text_end. destruct (tc_limit tc) as [[n|lo hi|n]|]; auto; intros H;
    apply limited_end_iff; split; auto; destruct H as [H|H]; auto; right; cbn.
  - apply orb_true_iff. right. now apply Nat.leb_le.
  - apply andb_true_iff. split; apply Nat.leb_le; lia.
  - now apply N.leb_le.
Qed.

Definition row := (option Z * option pystr * option pystr)%type.
Definition row_out (r : row) (t : pystr) : out := {| o_index := fst (fst r); o_lang := snd (fst r); o_text := t |}.

Lemma end_validate_ok ignore tc rows : forall os, snd (end_validate ignore tc rows) = Ok os ->
  exists pss, Forall2 (fun r ps => exists t, snd r = Some t /\ emits ignore tc t ps) rows pss /\
    os = concat (map (fun rp => map (row_out (fst rp)) (snd rp)) (combine rows pss)).
Proof.
  induction rows as [|[[i l] [t|]] rows IH]; cbn [end_validate]; intros os H.
  - cbn in H. injection H as <-. exists []. split; constructor.
  - set (here := if tc_split tc && negb ignore && (upper (tc_limit tc) <? length t)
        then bind (text_to_list t (upper (tc_limit tc)))
                  (mapM (fun n => bind (text_end ignore tc n)
                           (fun n' => Ok {| o_index := i; o_lang := l; o_text := n' |})))
        else bind (text_end ignore tc t) (fun t' => Ok [{| o_index := i; o_lang := l; o_text := t' |}])) in *.
    destruct here as [o1|x] eqn:Eh; cbn [snd] in H; [|discriminate].
    destruct (end_validate ignore tc rows) as [y r] eqn:Ey. cbn [snd] in *.
    destruct r as [o2|]; cbn [bind] in H; [|discriminate]. injection H as <-.
    destruct (IH o2 eq_refl) as (pss & Hp & ->).
    assert (G : exists ps, emits ignore tc t ps /\ o1 = map (row_out (i, l, Some t)) ps).
    { unfold here in Eh. destruct (tc_split tc && negb ignore && (upper (tc_limit tc) <? length t)) eqn:Ec.
      - apply andb_true_iff in Ec as [Ec Ec3]. apply andb_true_iff in Ec as [Ec1 Ec2].
        apply negb_true_iff in Ec2. apply Nat.ltb_lt in Ec3.
        destruct (text_to_list t (upper (tc_limit tc))) as [ps|] eqn:Es; cbn [bind] in Eh; [|discriminate].
        exists ps. split; [right; auto|]. apply mapM_forall2 in Eh.
        clear -Eh. induction Eh as [|n o ns os H _ IH]; cbn; [reflexivity|]. rewrite <- IH. f_equal.
        destruct (text_end ignore tc n) eqn:E; cbn [bind] in H; [|discriminate].
        apply text_end_same in E as ->. now injection H as <-.
      - destruct (text_end ignore tc t) eqn:E; cbn [bind] in Eh; [|discriminate].
        apply text_end_same in E as ->. injection Eh as <-. exists [t]. split; [now left|reflexivity]. }
    destruct G as (ps & Hps & ->). exists (ps :: pss). split; [|reflexivity].
    constructor; [exists t; auto | exact Hp].
  - discriminate.
Qed.

Lemma end_validate_fits ignore tc rows :
  Forall (fun r : row => exists t, snd r = Some t /\ fits ignore tc t) rows ->
  snd (end_validate ignore tc rows) = Ok (map (fun r => row_out r (match snd r with Some t => t | None => [] end)) rows).
Proof.
  induction 1 as [|[[i l] u] rows (t & Ht & Hf) _ IH]; [reflexivity|]. cbn in Ht. subst u.
  cbn [end_validate map].
  assert (E : tc_split tc && negb ignore && (upper (tc_limit tc) <? length t) = false).
  { destruct Hf as [->|Hf]; [now rewrite andb_false_r|].
    destruct (tc_limit tc) as [[n|lo hi|n]|]; cbn [upper]; [| | |now rewrite Hf];
      rewrite (proj2 (Nat.ltb_ge _ _)) by lia; apply andb_false_r. }
  rewrite E. rewrite (text_end_fits _ _ _ Hf). cbn [bind].
  destruct (end_validate ignore tc rows) as [y r]. cbn [snd] in *. rewrite IH. reflexivity.
Qed.

Lemma emits_fits ignore tc t ps : fits ignore tc t -> emits ignore tc t ps -> ps = [t].
Proof.
  intros [->|Hf] [H|(H1 & H2 & H3 & H4)]; auto; try discriminate.
  destruct (tc_limit tc) as [[n|lo hi|n]|]; cbn [upper] in H3; try lia. congruence.
Qed.

(** ** Blank entries *)
Lemma merged_visible tc L i k : (forall u, In (i, k, u) L -> visible_text u) -> (exists u, In (i, k, u) L) ->
  visible_text (merged (tc_sep tc) (texts_at L i k)).
Proof.
  intros Hu Hex. apply texts_at_in in Hex.
  assert (Ha : forall t, In t (texts_at L i k) -> visible_text t) by (intros t Ht; apply Hu; now apply texts_at_mem).
  destruct (texts_at L i k) as [|t l]; [contradiction|].
  unfold merged. destruct (tc_sep tc) as [s|].
  - destruct (Ha t (or_introl eq_refl)) as (c & Hc & Es). exists c. split; auto.
    destruct l as [|t' l]; [exact Hc|]. rewrite join_cons by discriminate. apply in_or_app. now left.
  - apply Ha, last_In. discriminate.
Qed.

Lemma join_visible sep l : l <> [] -> Forall visible_text l -> visible_text (join sep l).
Proof.
  intros Hl Hf. destruct l as [|t l]; [contradiction|]. inversion Hf; subst.
  destruct H1 as (c & Hc & Es). exists c. split; auto.
  destruct l as [|t' l]; [exact Hc|]. rewrite join_cons by discriminate. apply in_or_app. now left.
Qed.

Lemma in_outs {R} (mk : R -> pystr -> out) o rows pss :
  In o (concat (map (fun rp : R * list pystr => map (mk (fst rp)) (snd rp)) (combine rows pss))) ->
  exists r ps p, In (r, ps) (combine rows pss) /\ In p ps /\ o = mk r p.
Proof.
  intros H. apply in_concat in H as (l & Hl & Ho). apply in_map_iff in Hl as ([r ps] & <- & Hrp).
  apply in_map_iff in Ho as (p & <- & Hp). eauto 10.
Qed.
Lemma combine_forall2 {A B} (R : A -> B -> Prop) la lb a b : Forall2 R la lb -> In (a, b) (combine la lb) -> R a b.
Proof. induction 1; cbn; [intros []|]. intros [[= <- <-]|H1]; auto. Qed.

(** An emitted text is visible unless it is a piece of an over-long text. *)
Definition piece_of_long (ignore : bool) (tc : textclass) (p : pystr) : Prop :=
  exists t ps, ignore = false /\ tc_split tc = true /\ upper (tc_limit tc) < length t /\
    text_to_list t (upper (tc_limit tc)) = Ok ps /\ In p ps.

Lemma end_validate_visible ignore tc rows os :
  Forall (fun r : row => forall t, snd r = Some t -> visible_text t) rows ->
  snd (end_validate ignore tc rows) = Ok os ->
  Forall (fun o => visible_text (o_text o) \/ piece_of_long ignore tc (o_text o)) os.
Proof.
  intros Hr H. apply end_validate_ok in H as (pss & Hp & ->). apply Forall_forall. intros o Ho.
  apply in_outs in Ho as (r & ps & p & Hin & Hps & ->). cbn.
  pose proof (combine_forall2 _ _ _ _ _ Hp Hin) as (t & Ht & [->|(H1 & H2 & H3 & H4)]).
  - destruct Hps as [<-|[]]. left. rewrite Forall_forall in Hr. apply in_combine_l in Hin. eapply Hr; eauto.
  - right. exists t, ps. auto.
Qed.

Lemma inv_visible tc validate vs x : Inv tc (additions validate vs) x ->
  forall e, In e x -> exists t, tx e = Some t /\ visible_text t.
Proof.
  intros [Hd Hk Ht] e He. eexists. split; [now apply Ht|]. apply merged_visible.
  - intros u Hu. eapply additions_visible; eauto.
  - assert (H : In (key e) (map tkey (additions validate vs))) by (apply Hk; now apply in_map).
    apply in_map_iff in H as ([[i k] u] & Hu & Hin). cbn in Hu. unfold tkey, key in Hu. cbn in Hu.
    injection Hu as -> ->. eauto.
Qed.

Lemma language_rows_visible sep L rows : (forall i k u, In (i, k, u) L -> visible_text u) ->
  language_rows sep L rows -> forall k t, In (k, t) rows -> visible_text t.
Proof.
  intros HL (H1 & H2 & H3) k t Hin. destruct (H3 k t Hin) as (idxs & Hs & Hi & E). rewrite E.
  apply join_visible.
  - assert (Hk : In k (map fst rows)) by (change k with (fst (k, t)); now apply in_map).
    apply H2 in Hk as (i & u & Hu). assert (In i idxs) by (apply Hi; eauto).
    destruct idxs; [destruct H | discriminate].
  - apply Forall_forall. intros y Hy. apply in_map_iff in Hy as (i & <- & Hin').
    apply (merged_visible {| tc_sep := sep; tc_limit := None; tc_split := false |}); [|now apply Hi].
    intros u Hu. eapply HL; eauto.
Qed.

(** ** Indexed strings: same store as with an empty language *)
Lemma merge1_same tc n x : lg n = [] -> Forall (fun e => lg e = []) x ->
  merge1 tc same_index n x = merge1 tc same_index_lang n x.
Proof.
  intros Hn. induction 1 as [|m x Hm _ IH]; cbn [merge1]; [reflexivity|].
  assert (E : same_index n m = same_index_lang n m).
  { unfold same_index, same_index_lang. rewrite Hn, Hm. now rewrite str_eqb_refl, andb_true_r. }
  rewrite E, IH. reflexivity.
Qed.
Lemma merge1_lg tc c n x y : lg n = [] -> Forall (fun e => lg e = []) x -> merge1 tc c n x = Ok y ->
  Forall (fun e => lg e = []) y.
Proof.
  intros Hn Hx. revert y. induction Hx as [|m x Hm Hx IH]; intros y; cbn [merge1].
  - intros [= <-]. constructor; auto.
  - destruct (c n m).
    + destruct (tx m), (tx n); try discriminate. intros [= <-]. constructor; auto.
    + destruct (merge1 tc c n x) as [r|]; cbn [bind]; [|discriminate]. intros [= <-]. constructor; auto.
Qed.
Lemma merge_all_same tc ns : forall x, Forall (fun e => lg e = []) ns -> Forall (fun e => lg e = []) x ->
  merge_all tc same_index ns x = merge_all tc same_index_lang ns x /\
  forall y, merge_all tc same_index ns x = Ok y -> Forall (fun e => lg e = []) y.
Proof.
  induction ns as [|n ns IH]; intros x Hn Hx; cbn [merge_all].
  - split; [reflexivity|]. now intros y [= <-].
  - inversion Hn; subst. rewrite merge1_same by assumption.
    destruct (merge1 tc same_index_lang n x) as [r|] eqn:E; cbn [bind]; [|split; [reflexivity|discriminate]].
    apply IH; auto. eapply merge1_lg; [| |exact E]; auto.
Qed.
Lemma indexed_lg keys v e : indexed_validate keys v = Ok e -> lg e = [].
Proof. intros H. apply indexed_iff in H as (d & iv & t & H). tauto. Qed.
Lemma retrieve_lg keys v ns : retrieve (indexed_validate keys) v = Ok ns -> Forall (fun e => lg e = []) ns.
Proof.
  unfold retrieve. destruct (mapM _ _) as [es|] eqn:E; cbn [bind]; [|discriminate]. intros [= <-].
  apply mapM_forall2 in E. apply Forall_forall. intros e He. apply filter_In in He as [He _].
  clear -E He. induction E; [destruct He|]. destruct He as [<-|He]; auto. eapply indexed_lg; eauto.
Qed.
Lemma indexed_history_same tc keys vs :
  history (add_merge tc same_index (indexed_validate keys)) vs =
  history (add_merge tc same_index_lang (indexed_validate keys)) vs /\
  Forall (fun e => lg e = []) (stored (history (add_merge tc same_index (indexed_validate keys)) vs)).
Proof.
  induction vs as [|v vs [IH1 IH2]] using rev_ind; [split; [reflexivity|constructor]|].
  rewrite !history_snoc, <- IH1. set (st := history _ vs) in *.
  unfold add_merge. destruct (retrieve (indexed_validate keys) v) as [ns|] eqn:E; cbn [bind].
  - destruct (merge_all_same tc ns (stored st) (retrieve_lg _ _ _ E) IH2) as [H1 H2].
    rewrite <- H1. split; [reflexivity|].
    destruct (merge_all tc same_index ns (stored st)) as [y|]; cbn; auto.
  - cbn. auto.
Qed.

Definition pair_out (i : option Z) (k : option pystr) (t : pystr) : out := {| o_index := i; o_lang := k; o_text := t |}.

Lemma emission ignore tc {R} (rows : list R) (f : R -> row) (txt : R -> pystr) :
  (forall r, snd (f r) = Some (txt r)) ->
  ((forall r, In r rows -> fits ignore tc (txt r)) ->
     snd (end_validate ignore tc (map f rows)) = Ok (map (fun r => row_out (f r) (txt r)) rows)) /\
  (forall os, snd (end_validate ignore tc (map f rows)) = Ok os ->
     exists pss, Forall2 (fun r ps => emits ignore tc (txt r) ps) rows pss /\
       os = concat (map (fun rp => map (row_out (f (fst rp))) (snd rp)) (combine rows pss))).
Proof.
  intros Hf. split.
  - intros H. rewrite end_validate_fits.
    + rewrite map_map. f_equal. apply map_ext. intros r. now rewrite Hf.
    + apply Forall_forall. intros x Hx. apply in_map_iff in Hx as (r & <- & Hr). rewrite Hf. eauto.
  - intros os H. apply end_validate_ok in H as (pss & Hp & ->). exists pss. split.
    + clear -Hp Hf. revert pss Hp. induction rows as [|r rows IH]; intros pss Hp; inversion Hp; subst; constructor; auto.
      destruct H1 as (t & Ht & He). rewrite Hf in Ht. injection Ht as <-. exact He.
    + f_equal. clear. revert pss. induction rows as [|r rows IH]; intros [|ps pss]; cbn; auto. now rewrite IH.
Qed.

Lemma indexed_rows tc vs :
  let x := stored (history (add_merge tc same_index (indexed_validate [kindex; ktext])) vs) in
  let L := additions (indexed_validate [kindex; ktext]) vs in
  exists idxs, StronglySorted Z.lt idxs /\ (forall i, In i idxs <-> exists u, In (i, [], u) L) /\
    map (fun e => (Some (ix e), None, tx e) : row) (isort ix_leb x) =
    map (fun i => (Some i, None, Some (merged (tc_sep tc) (texts_at L i [])))) idxs.
Proof.
  intros x L. destruct (indexed_history_same tc [kindex; ktext] vs) as [H1 H2].
  fold x in H2. assert (HI : Inv tc L x) by (unfold x; rewrite H1; apply add_merge_inv).
  destruct HI as [Hd Hk Ht]. exists (map ix (isort ix_leb x)).
  assert (Hp : Permutation (isort ix_leb x) x) by apply isort_perm.
  assert (Hlg : forall e, In e (isort ix_leb x) -> In e x /\ lg e = []).
  { intros e He. assert (In e x) by (eapply Permutation_in; eauto). rewrite Forall_forall in H2. auto. }
  repeat split.
  - apply (SS_strict ix (fun a b => ix_leb a b = true)).
    + intros a b _ _ Ha Hb. unfold ix_leb in Ha. apply Z.leb_le in Ha. lia.
    + eapply Permutation_NoDup; [apply Permutation_map, Permutation_sym, Hp|].
      clear -Hd H2. induction H2; cbn in *; [constructor|]. inversion Hd; subst. constructor; auto.
      intros F. apply H3. apply in_map_iff in F as (e & He & Hin). apply in_map_iff. exists e. split; auto.
      unfold key. rewrite He, H. rewrite Forall_forall in H2. now rewrite (H2 e Hin).
    + apply isort_sorted; [apply ix_leb_total | apply ix_leb_trans].
  - intros H. apply in_map_iff in H as (e & <- & He). destruct (Hlg e He) as [He' Hl].
    assert (Hin : In (key e) (map tkey L)) by (apply Hk; now apply in_map).
    apply in_map_iff in Hin as ([[i k] u] & Hu & Hin). unfold tkey, key in Hu. cbn in Hu.
    injection Hu as -> ->. rewrite Hl in Hin. eauto.
  - intros [u Hu]. assert (F : In (i, []) (map key x)).
    { apply Hk. change (i, []) with (tkey (i, [], u)). now apply in_map. }
    apply in_map_iff in F as (e & [= <- _] & He). apply in_map. eapply Permutation_in; [apply Permutation_sym, Hp | auto].
  - rewrite map_map. apply map_ext_in. intros e He. destruct (Hlg e He) as [He' Hl].
    now rewrite (Ht e He'), Hl.
Qed.

Lemma imrows tc langs vs :
  let x := stored (history (add_merge tc same_index_lang (lang_validate langs)) vs) in
  let L := additions (lang_validate langs) vs in
  exists ps, NoDup ps /\ (forall i k, In (i, k) ps <-> exists u, In (i, k, u) L) /\
    StronglySorted (fun a b => str_leb (str_of_Z (fst a) ++ snd a) (str_of_Z (fst b) ++ snd b) = true) ps /\
    map (fun e => (Some (ix e), Some (lg e), tx e)) (isort im_leb x) =
    map (fun p => (Some (fst p), Some (snd p), Some (merged (tc_sep tc) (texts_at L (fst p) (snd p))))) ps.
Proof.
  intros x L. destruct (add_merge_inv tc (lang_validate langs) vs) as [Hd Hk Ht]. fold x L in Hd, Hk, Ht.
  exists (map key (isort im_leb x)).
  assert (Hp : Permutation (isort im_leb x) x) by apply isort_perm.
  repeat split.
  - eapply Permutation_NoDup; [apply Permutation_map, Permutation_sym, Hp | exact Hd].
  - intros H. assert (H' : In (i, k) (map key x)) by (eapply Permutation_in; [apply Permutation_map, Hp | exact H]).
    apply Hk in H'. apply in_map_iff in H' as ([[i' k'] u] & Hu & Hin). unfold tkey in Hu. cbn in Hu.
    injection Hu as -> ->. eauto.
  - intros [u Hu]. eapply Permutation_in; [apply Permutation_map, Permutation_sym, Hp|].
    apply Hk. change (i, k) with (tkey (i, k, u)). now apply in_map.
  - apply (SS_map key (fun a b => im_leb a b = true)); [auto|].
    apply isort_sorted; intros; [apply str_leb_total | eapply str_leb_trans; eauto].
  - rewrite map_map. apply map_ext_in. intros e He.
    assert (He' : In e x) by (eapply Permutation_in; eauto). now rewrite (Ht e He').
Qed.

(** decimal strings of equal length: lexicographic order is numeric order *)
Lemma dval_bound s acc : Forall isdig s ->
  (fold_left (fun a c => 10 * a + (c - 48)) s acc < (acc + 1) * 10 ^ N.of_nat (length s))%N.
Proof.
  revert acc. induction s as [|c s IH]; intros acc H; cbn [fold_left length].
  - change (10 ^ N.of_nat 0)%N with 1%N. lia.
  - inversion H; subst. specialize (IH (10 * acc + (c - 48))%N H3). unfold isdig in H2.
    rewrite Nat2N.inj_succ, N.pow_succ_r'. assert (c - 48 <= 9)%N by lia. nia.
Qed.
Lemma dval_lower s acc : (acc * 10 ^ N.of_nat (length s) <= fold_left (fun a c => 10 * a + (c - 48)) s acc)%N.
Proof.
  revert acc. induction s as [|c s IH]; intros acc; cbn [fold_left length].
  - change (10 ^ N.of_nat 0)%N with 1%N. lia.
  - specialize (IH (10 * acc + (c - 48))%N). rewrite Nat2N.inj_succ, N.pow_succ_r'. nia.
Qed.
Lemma leb_digits a : forall b u v acc, Forall isdig a -> Forall isdig b -> length a = length b ->
  str_leb (a ++ u) (b ++ v) = true ->
  (fold_left (fun a c => 10 * a + (c - 48)) a acc < fold_left (fun a c => 10 * a + (c - 48)) b acc)%N \/
  (a = b /\ str_leb u v = true).
Proof.
  induction a as [|x a IH]; intros [|y b] u v acc Ha Hb Hl H; cbn in Hl; try discriminate.
  - right. auto.
  - cbn [app str_leb] in H. inversion Ha; subst. inversion Hb; subst.
    cbn [fold_left]. destruct (N.eqb x y) eqn:E.
    + apply N.eqb_eq in E as ->. destruct (IH b u v (10 * acc + (y - 48))%N) as [G|[-> G]]; auto.
    + left. apply N.ltb_lt in H. pose proof (dval_bound a (10 * acc + (x - 48)) H3) as B1.
      pose proof (dval_lower b (10 * acc + (y - 48))) as B2.
      injection Hl as Hl. rewrite Hl in B1. unfold isdig in *.
      assert (10 * acc + (x - 48) + 1 <= 10 * acc + (y - 48))%N by lia. nia.
Qed.
Lemma leb_index i j u v : (0 <= i)%Z -> (0 <= j)%Z -> length (str_of_Z i) = length (str_of_Z j) ->
  str_leb (str_of_Z i ++ u) (str_of_Z j ++ v) = true -> (i < j)%Z \/ (i = j /\ str_leb u v = true).
Proof.
  intros Hi Hj Hl H.
  assert (E : forall z, (0 <= z)%Z -> str_of_Z z = str_of_N (Z.to_N z)) by (intros [| |]; [reflexivity|reflexivity|lia]).
  rewrite (E i Hi), (E j Hj) in *.
  destruct (leb_digits _ _ u v 0%N (str_of_N_digits _) (str_of_N_digits _) Hl H) as [G|[G1 G2]].
  - left. fold (dval (str_of_N (Z.to_N i))) in G. fold (dval (str_of_N (Z.to_N j))) in G.
    rewrite !str_of_N_val in G. lia.
  - right. split; auto. apply str_of_N_inj in G1. lia.
Qed.

(** ** Fields without merging *)
Lemma append_history validate vs :
  map triple_of (stored (history (add_append validate) vs)) = additions validate vs /\
  Forall (fun e => tx e <> None) (stored (history (add_append validate) vs)).
Proof.
  induction vs as [|v vs [IH1 IH2]] using rev_ind; [split; [reflexivity|constructor]|].
  rewrite history_snoc, additions_snoc. unfold add_append at 1 3.
  destruct (retrieve validate v) as [ns|] eqn:E; cbn [fst stored].
  - rewrite map_app, IH1. split; [reflexivity|]. apply Forall_app. split; auto.
    apply retrieve_text in E. eapply Forall_impl; [|exact E]. cbn. intros e (t & -> & _). discriminate.
  - rewrite app_nil_r. auto.
Qed.

Lemma triple_inj_text e : tx e <> None -> entry_of (triple_of e) = e.
Proof. destruct e as [i l [t|]]; [reflexivity|]. intros H. now contradiction H. Qed.

Lemma append_history_eq validate vs :
  stored (history (add_append validate) vs) = map entry_of (additions validate vs).
Proof.
  destruct (append_history validate vs) as [<- H]. rewrite map_map. symmetry.
  induction H; cbn; auto. now rewrite triple_inj_text, IHForall.
Qed.

Lemma stable_unique L S T : stable_by_index L S -> stable_by_index L T -> S = T.
Proof.
  assert (P : forall L S, stable_by_index L S -> forall a, In a S <-> In a L).
  { intros L0 S0 [_ H] a. specialize (H (fst (fst a))).
    assert (In a S0 <-> In a (filter (fun b => Z.eqb (fst (fst b)) (fst (fst a))) S0))
      by (rewrite filter_In, Z.eqb_refl; tauto).
    rewrite H0, H, filter_In, Z.eqb_refl. tauto. }
  revert L T. induction S as [|a S IH]; intros L T HS HT.
  - destruct T as [|b T]; auto. exfalso.
    assert (In b []) by (apply (P _ _ HS), (P _ _ HT); now left). destruct H.
  - destruct T as [|b T].
    { exfalso. assert (In a []) by (apply (P _ _ HT), (P _ _ HS); now left). destruct H. }
    destruct HS as [S1 S2], HT as [T1 T2].
    assert (E : forall i, filter (fun a => Z.eqb (fst (fst a)) i) (a :: S) = filter (fun a => Z.eqb (fst (fst a)) i) (b :: T))
      by (intros i; now rewrite S2, T2).
    assert (Hab : fst (fst a) = fst (fst b)).
    { assert (Ha : In a (b :: T)).
      { assert (In a (filter (fun c => Z.eqb (fst (fst c)) (fst (fst a))) (b :: T)))
          by (rewrite <- E; apply filter_In; split; [now left | apply Z.eqb_refl]).
        now apply filter_In in H. }
      assert (Hb : In b (a :: S)).
      { assert (In b (filter (fun c => Z.eqb (fst (fst c)) (fst (fst b))) (a :: S)))
          by (rewrite E; apply filter_In; split; [now left | apply Z.eqb_refl]).
        now apply filter_In in H. }
      inversion S1; inversion T1; subst. rewrite Forall_forall in *.
      destruct Ha as [<-|Ha]; auto. destruct Hb as [<-|Hb]; auto.
      specialize (H6 _ Ha). specialize (H2 _ Hb). cbv beta in *. lia. }
    assert (a = b).
    { specialize (E (fst (fst a))). cbn [filter] in E. rewrite Z.eqb_refl in E.
      rewrite <- Hab, Z.eqb_refl in E. now injection E. }
    subst b. f_equal. apply (IH S).
    + split; [now inversion S1 | reflexivity].
    + split; [now inversion T1|]. intros i. specialize (E i). cbn [filter] in E.
      destruct (Z.eqb (fst (fst a)) i); [now injection E | congruence].
Qed.

Lemma isort_map {A B} (f : A -> B) (la : A -> A -> bool) (lb : B -> B -> bool) l :
  (forall x y, lb (f x) (f y) = la x y) -> isort lb (map f l) = map f (isort la l).
Proof.
  intros H. induction l as [|a l IH]; cbn; auto. rewrite IH. clear IH.
  induction (isort la l) as [|b r IH]; cbn; auto. rewrite H. destruct (la a b); cbn; auto. now rewrite IH.
Qed.

Definition t_leb (a b : triple) : bool := Z.leb (fst (fst a)) (fst (fst b)).
Lemma stable_sort L : stable_by_index L (isort t_leb L).
Proof.
  split.
  - assert (H : StronglySorted (fun a b => t_leb a b = true) (isort t_leb L)).
    { apply isort_sorted; unfold t_leb; intros; rewrite ?Z.leb_le in *; lia. }
    clear -H. induction H; constructor; auto. eapply Forall_impl; [|exact H0].
    cbn. unfold t_leb. intros b Hb. now apply Z.leb_le in Hb.
  - intros i. apply isort_stable. intros a b Ha Hb. apply Z.eqb_eq in Ha, Hb. unfold t_leb. apply Z.leb_le. lia.
Qed.

Lemma nolang_rows_eq validate vs S : stable_by_index (additions validate vs) S ->
  nolang_rows (stored (history (add_append validate) vs)) =
  map (fun a : triple => (None, Some (snd (fst a)), Some (snd a))) S.
Proof.
  intros HS. rewrite (stable_unique _ _ _ HS (stable_sort _)).
  unfold nolang_rows. rewrite append_history_eq.
  rewrite (isort_map entry_of t_leb ix_leb) by reflexivity. now rewrite map_map.
Qed.

(** ** Reading *)
Fixpoint run {S R} (add : option S -> pyval -> upd S) (fin : S -> S * result R)
  (st : option S) (us : list use) : option S * list (result R) :=
  match us with
  | [] => (st, [])
  | Add v :: r => run add fin (fst (add st v)) r
  | Read :: r =>
      match st with
      | None => let '(s, l) := run add fin None r in (s, Err AttributeError :: l)
      | Some s => let '(s', x) := fin s in let '(s2, l) := run add fin (Some s') r in (s2, x :: l)
      end
  end.
Definition value {S R} (fin : S -> S * result R) (st : option S) : result R :=
  match st with None => Err AttributeError | Some s => snd (fin s) end.

Lemma run_pure {S R} (add : option S -> pyval -> upd S) (fin : S -> S * result R) :
  (forall s, fst (fin s) = s) ->
  forall us past, run add fin (history add past) us =
    (history add (past ++ added us), map (fun p => value fin (history add p)) (before_reads past us)).
Proof.
  intros Hf. induction us as [|[v|] us IH]; intros past; cbn [run added before_reads map].
  - now rewrite app_nil_r.
  - rewrite <- history_snoc, IH. now rewrite <- app_assoc.
  - destruct (history add past) as [s|] eqn:E.
    + destruct (fin s) as [s' x] eqn:Ef. assert (s' = s) by (specialize (Hf s); now rewrite Ef in Hf). subst s'.
      rewrite <- E, IH. rewrite E. cbn [value]. now rewrite Ef.
    + rewrite <- E, IH. now rewrite E.
Qed.

(** ** Named strings *)
Definition named_of (e : entry) : pystr * pystr := (lg e, match tx e with Some t => t | None => [] end).
Definition named_entry (a : pystr * pystr) : entry := {| ix := 0; lg := fst a; tx := Some (snd a) |}.

Lemma named_iff x v e : named_validate x v = Ok e <->
  named_addition v (named_of e) /\ tx e <> None /\ ix e = 0%Z /\ ~ In (lg e) (map lg x).
Proof.
  unfold named_validate, named_addition, named_of. cbn [fst snd]. split.
  - destruct (basic_validate _ v) as [t|] eqn:E; cbn [bind]; [|discriminate].
    apply basic_iff in E as (d & -> & Hk & Ht). cbn [dict_of]. rewrite lookup_field.
    destruct (field kname d) as [n|] eqn:En; [|discriminate].
    destruct (existsb _ x) eqn:Ee; [discriminate|].
    destruct n; cbn [str_validate bind]; try discriminate. intros [= <-]. cbn.
    repeat split; try discriminate.
    + exists d. auto.
    + intros F. apply in_map_iff in F as (m & Hm & Hin).
      assert (existsb (fun e => str_eqb (lg e) s) x = true); [|congruence].
      apply existsb_exists. exists m. split; auto. rewrite Hm. apply str_eqb_refl.
  - intros [(d & -> & Hk & Hn & Ht) (H1 & H2 & H3)]. destruct e as [i l [t|]]; [|now contradiction H1].
    cbn [ix lg tx] in *. subst i.
    rewrite (proj2 (basic_iff [kname; ktext] (VDict d) t)) by (exists d; auto).
    cbn [bind dict_of]. rewrite lookup_field. unfold kname. rewrite Hn.
    destruct (existsb _ x) eqn:Ee; [|reflexivity]. exfalso. apply existsb_exists in Ee as (m & Hm & E).
    apply str_eqb_eq in E. apply H3. rewrite <- E. now apply in_map.
Qed.

Lemma named_addition_fun v a b : named_addition v a -> named_addition v b -> a = b.
Proof.
  intros (d & -> & _ & H1 & H2) (d' & [= <-] & _ & H3 & H4). destruct a, b; cbn in *. congruence.
Qed.

Lemma named_retrieve_iff x vs : forall dupl ns,
  named_retrieve x dupl vs = Ok ns <->
  exists es, Forall2 (fun v e => named_validate x v = Ok e) vs es /\ NoDup (map lg es) /\
    (forall e, In e es -> ~ In (lg e) dupl) /\ ns = filter nonblank es.
Proof.
  induction vs as [|v vs IH]; intros dupl ns; cbn [named_retrieve].
  - split.
    + intros [= <-]. exists []. repeat split; constructor || intros ? [].
    + intros (es & H & _ & _ & ->). inversion H. reflexivity.
  - split.
    + destruct (named_validate x v) as [e|] eqn:E; cbn [bind]; [|discriminate].
      destruct (str_in (lg e) dupl) eqn:Ed; [discriminate|].
      destruct (named_retrieve x (dupl ++ [lg e]) vs) as [r|] eqn:Er; cbn [bind]; [|discriminate].
      intros [= <-]. apply IH in Er as (es & H1 & H2 & H3 & ->).
      exists (e :: es). repeat split.
      * constructor; auto.
      * cbn. constructor; auto. intros F. apply in_map_iff in F as (e' & He' & Hin).
        apply (H3 e' Hin). rewrite He'. apply in_or_app. right. now left.
      * intros e' [<-|Hin]; [intros F; apply str_in_In in F; congruence|].
        intros F. apply (H3 e' Hin). apply in_or_app. now left.
    + intros (es & H1 & H2 & H3 & ->). inversion H1; subst. rewrite H4. cbn [bind].
      destruct (str_in (lg y) dupl) eqn:Ed.
      * exfalso. apply str_in_In in Ed. apply (H3 y); [now left | auto].
      * cbn in H2. inversion H2; subst.
        rewrite (proj2 (IH (dupl ++ [lg y]) (filter nonblank l'))); [reflexivity|].
        exists l'. repeat split; auto. intros e He F. apply in_app_or in F as [F|[F|[]]].
        -- apply (H3 e); [now right | auto].
        -- apply H5. rewrite F. now apply in_map.
Qed.

Lemma filter_visible_named es : Forall (fun e => tx e <> None) es ->
  visible_named (map named_of es) (map named_of (filter nonblank es)).
Proof.
  induction 1 as [|e es He _ IH]; cbn; [constructor|].
  destruct (tx e) as [t|] eqn:Et; [|now contradiction He].
  destruct (nonblank e) eqn:E; cbn.
  - apply visn_keep; auto. unfold named_of. rewrite Et. cbn. apply isspace_visible.
    destruct (nonblank_has e E) as (u & Hu & H1 & H2). rewrite Et in Hu. injection Hu as ->. auto.
  - apply visn_skip; auto. unfold named_of. rewrite Et. cbn. intros F. apply isspace_visible in F as [F1 F2].
    unfold nonblank in E. rewrite Et, F2 in E. apply str_eqb_neq in F1. rewrite F1 in E. discriminate.
Qed.

Lemma named_history_sound vs :
  named_history vs (map named_of (stored (history named_add vs))) /\
  Forall (fun e => tx e <> None /\ ix e = 0%Z) (stored (history named_add vs)).
Proof.
  induction vs as [|v vs [IH1 IH2]] using rev_ind; [split; constructor|].
  rewrite history_snoc. set (x := history named_add vs) in *. unfold named_add.
  destruct (named_retrieve (stored x) [] (as_list v)) as [ns|] eqn:E; cbn [fst stored].
  - apply named_retrieve_iff in E as (es & H1 & H2 & H3 & ->).
    assert (Hes : Forall (fun e => named_addition v (named_of e) \/ True) es) by (apply Forall_forall; auto).
    assert (Htx : Forall (fun e => tx e <> None /\ ix e = 0%Z) es).
    { clear -H1. induction H1; constructor; auto. apply named_iff in H. tauto. }
    split.
    + rewrite map_app. eapply nh_yes; [exact IH1 | | apply filter_visible_named].
      * split; [|split].
        -- change (offered v) with (as_list v). clear -H1. induction H1; cbn; constructor; auto.
           apply named_iff in H. tauto.
        -- rewrite map_map. cbn. exact H2.
        -- intros s Hs F. rewrite map_map in Hs, F. cbn in Hs, F. apply in_map_iff in Hs as (e & <- & He).
           clear -H1 He F. induction H1; [destruct He|]. destruct He as [<-|He]; auto.
           apply named_iff in H. tauto.
      * eapply Forall_impl; [|exact Htx]. cbn. tauto.
    + apply Forall_app. split; auto. apply Forall_forall. intros e He. apply filter_In in He as [He _].
      rewrite Forall_forall in Htx. auto.
  - split; auto. apply nh_no; auto. intros all (H1 & H2 & H3).
    assert (named_retrieve (stored x) [] (as_list v) = Ok (filter nonblank (map named_entry all))); [|congruence].
    apply named_retrieve_iff. exists (map named_entry all). repeat split; auto.
    + change (offered v) with (as_list v) in H1. rewrite map_map in H3. cbn in H3.
      assert (H3' : forall a, In a all -> ~ In (fst a) (map lg (stored x))).
      { intros a Ha. apply H3. now apply in_map. }
      clear -H1 H3'. induction H1; cbn; constructor.
      * apply named_iff. cbn. split; [destruct y; auto|]. repeat split; try discriminate. apply H3'. now left.
      * apply IHForall2. intros a Ha. apply H3'. now right.
    + rewrite map_map. cbn. exact H2.
Qed.

Lemma named_history_fun vs : forall S T, named_history vs S -> named_history vs T -> S = T.
Proof.
  assert (V : forall a b c, visible_named a b -> visible_named a c -> b = c).
  { induction a as [|x a IH]; intros b c Hb Hc; inversion Hb; inversion Hc; subst; auto; try contradiction.
    f_equal; auto. }
  induction vs as [|v vs IH] using rev_ind; intros S T HS HT.
  - inversion HS; inversion HT; subst; auto; destruct vs; discriminate.
  - inversion HS as [E|vs1 S1 v1 a1 l1 N1 O1 V1 E|vs1 S1 v1 N1 O1 E];
      [destruct vs; discriminate| |];
    (inversion HT as [E'|vs2 S2 v2 a2 l2 N2 O2 V2 E'|vs2 S2 v2 N2 O2 E'];
      [destruct vs; discriminate| |]);
    apply app_inj_tail in E as [-> ->]; apply app_inj_tail in E' as [-> ->]; subst;
    pose proof (IH _ _ N1 N2); subst; auto.
    + assert (a1 = a2).
      { destruct O1 as (F1 & _), O2 as (F2 & _). clear -F1 F2. revert a2 F2.
        induction F1; intros a2 F2; inversion F2; subst; auto. f_equal; auto. eapply named_addition_fun; eauto. }
      subst. f_equal. eapply V; eauto.
    + exfalso. eapply O2; eauto.
    + exfalso. eapply O1; eauto.
Qed.

Lemma named_history_nodup vs S : named_history vs S -> NoDup (map fst S) /\ Forall (fun a => visible_text (snd a)) S.
Proof.
  induction 1 as [|vs S v all l H [IH1 IH2] (H1 & H2 & H3) Hv|]; auto; [split; constructor|].
  assert (Hl : NoDup (map fst l) /\ (forall s, In s (map fst l) -> In s (map fst all)) /\ Forall (fun a => visible_text (snd a)) l).
  { clear -H2 Hv. induction Hv; cbn in *; [repeat split; auto; constructor | |]; inversion H2; subst;
      destruct (IHHv H4) as (I1 & I2 & I3).
    - split; [constructor; auto|]. split; [intros s [<-|Hs]; auto|constructor; auto].
    - split; [auto|]. split; auto. }
  destruct Hl as (L1 & L2 & L3). split; [|apply Forall_app; auto].
  rewrite map_app. clear -IH1 L1 L2 H3. induction (map fst S) as [|a r IH]; cbn; auto.
  inversion IH1; subst. constructor.
  - rewrite in_app_iff. intros [F|F]; auto. apply L2 in F. apply (H3 a F). now left.
  - apply IH; auto. intros s Hs F. apply (H3 s Hs). now right.
Qed.

(** ** Uniqueness of the specified rows *)
Lemma SS_unique {A} (R : A -> A -> Prop) : (forall a, ~ R a a) -> (forall a b, R a b -> ~ R b a) ->
  forall l m, StronglySorted R l -> StronglySorted R m -> (forall x, In x l <-> In x m) -> l = m.
Proof.
  intros Irr Asym l m Hl. revert m. induction Hl as [|a l Hl IH Ha]; intros m Hm E.
  - destruct m as [|b m]; auto. exfalso. apply (E b). now left.
  - destruct Hm as [|b m Hm Hb]; [exfalso; apply (E a); now left|].
    rewrite Forall_forall in Ha, Hb.
    assert (a = b).
    { destruct (proj1 (E a) (or_introl eq_refl)) as [->|Hin]; auto.
      destruct (proj2 (E b) (or_introl eq_refl)) as [->|Hin']; auto.
      exfalso. eapply Asym; [apply Ha, Hin' | apply Hb, Hin]. }
    subst b. f_equal. apply IH; auto. intros x. split; intros Hx.
    + destruct (proj1 (E x) (or_intror Hx)) as [<-|?]; auto. exfalso. eapply Irr, Ha, Hx.
    + destruct (proj2 (E x) (or_intror Hx)) as [<-|?]; auto. exfalso. eapply Irr, Hb, Hx.
Qed.
Lemma lang_text_unique sep L k t u : lang_text sep L k t -> lang_text sep L k u -> t = u.
Proof.
  intros (l & H1 & H2 & ->) (m & H3 & H4 & ->). replace m with l; auto.
  apply (SS_unique Z.lt); auto; try (intros; lia). intros x. now rewrite H2, H4.
Qed.
Lemma language_rows_unique sep L r s : language_rows sep L r -> language_rows sep L s -> r = s.
Proof.
  intros (H1 & H2 & H3) (H4 & H5 & H6).
  assert (E : map fst r = map fst s).
  { apply (SS_unique str_lt); auto.
    - intros a [_ F]. now apply F.
    - intros a b [F1 F2] [F3 _]. apply F2. now apply str_leb_antisym.
    - intros k. now rewrite H2, H5. }
  clear H1 H2 H4 H5. revert s E H6. induction r as [|[k t] r IH]; intros [|[k' u] s] E H6; cbn in E; try discriminate; auto.
  injection E as <- E. f_equal.
  - f_equal. eapply lang_text_unique; [apply H3 | apply H6]; now left.
  - apply IH; auto; intros; [apply H3 | apply H6]; now right.
Qed.

Lemma filter_map_comm {A B} (f : A -> B) p q l : (forall a, p (f a) = q a) ->
  filter p (map f l) = map f (filter q l).
Proof.
  intros H. induction l as [|a l IH]; cbn; auto. rewrite H. destruct (q a); cbn; now rewrite IH.
Qed.
