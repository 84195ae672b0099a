(** Proofs about EcoSpold2 fields that take several ILCD fields. *)
From Coq Require Import Ascii String List Bool Arith NArith ZArith Lia Sorted.
From Verif Require Import PyBase PyBaseFacts PyValues ValidatorsModel MultiLangModel MultiLangSpec MultiLangProofs MultiLangProps DotDictModel DotDictProofs SchemaModel
  TablesModel CommentModel CommentSpec CommentProofs CommentProps OutflowModel ProseModel ProseSpec ProseProofs ProseTrips ProseProps RegainSpec CollectModel CollectSpec.
Import ListNotations.
Local Open Scope string_scope.
Local Open Scope list_scope.

(** what a field contributes to where it goes *)
Definition content (f : tfield) (t : pystr) : option pystr :=
  match target f with
  | Some PName => a_name f t
  | Some PGeneral => to_general f t
  | Some PGeography => to_geography f t
  | Some PExtrapolations => to_extrapolations f t
  | Some PSampling => match f with FSampling => the_sampling f t | _ => to_sampling f t end
  | None => None
  end.
Definition own (f : tfield) : bool := match f with FSampling => true | _ => false end.
Definition named (f : tfield) : bool := match f with FBase | FRoutes | FMix | FUnit => true | _ => false end.
Definition unmarked (f : tfield) (t : pystr) : Prop :=
  match f with
  | FGeneral => plain general_marks t
  | FConstants => ~ occurs (lit "Energy: ") t
  | FDevPrinciple => ~ occurs (lit "Original ecoinvent System Model: ") t
  | _ => True
  end.
Definition entry_opt (k : pystr) (o : option (Z * pystr)) : list pyval := optional (fun it => entry_at (fst it) (k, snd it)) o.
Definition good (f : tfield) (n n' : Z) (o : option (Z * pystr)) : Prop :=
  forall i t, o = Some (i, t) -> if own f then i = 0%Z else if named f then i = 1%Z else (n <= i < n')%Z.

Lemma handled f n s vs n' : unmarked f (snd s) -> handle f n s = Ok (vs, n') ->
  (n <= n')%Z /\ exists o, vs = entry_opt (fst s) o /\ good f n n' o /\ option_map snd o = content f (snd s).
Proof.
  destruct s as [k t]. cbn [fst snd]. intros Hu H.
  assert (X : forall i u m, (n <= m)%Z -> (if own f then i = 0%Z else if named f then i = 1%Z else (n <= i < m)%Z) -> content f t = Some u -> ([entry_at i (k, u)], m) = (vs, n') ->
     (n <= n')%Z /\ exists o, vs = entry_opt k o /\ good f n n' o /\ option_map snd o = content f t).
  { intros i u m Hm Hi Hc [= <- <-]. split; [exact Hm|]. exists (Some (i, u)). split; [reflexivity|]. split; [|cbn [option_map snd]; auto]. intros j w [= <- <-]. exact Hi. }
  assert (Y : content f t = None -> ([] : list pyval, n) = (vs, n') -> (n <= n')%Z /\ exists o, vs = entry_opt k o /\ good f n n' o /\ option_map snd o = content f t).
  { intros Hc [= <- <-]. split; [lia|]. exists None. split; [reflexivity|]. split; [intros ? ? [=]|]. cbn [option_map]. auto. }
  destruct f; cbn [handle] in H; unfold fixed_step, prefix_step, double_step, plain_step, unless_none, constants_step, deviation_step, marked, prefixed in H; cbn [fst snd bind] in H;
    cbn [unmarked] in Hu; try (injection H as H1 H2; eapply X; [| | |rewrite <- H1, <- H2; reflexivity]; cbn [own named]; try lia; reflexivity).
  - rewrite (proj1 C73_plain_text_untouched_partial t Hu) in H. cbn [settle existsb bind fst snd] in H. injection H as H1 H2. eapply X; [| | |rewrite <- H1, <- H2; reflexivity]; cbn [own named]; try lia; reflexivity.
  - destruct (str_eqb t (lit "none")) eqn:En.
    + cbn [bind fst snd] in H. apply Y; [|now injection H as <- <-]. unfold content. cbn [target to_extrapolations]. unfold not_none. now rewrite En.
    + rewrite (proj2 (proj2 (proj2 (proj2 C73_plain_text_untouched_partial))) t Hu) in H. cbn [optional bind fst snd] in H. injection H as H1 H2.
      eapply X; [| | |rewrite <- H1, <- H2; reflexivity]; cbn [own named]; try lia. unfold content. cbn [target to_extrapolations]. unfold not_none. now rewrite En.
  - destruct (str_eqb t (lit "none")) eqn:En; cbn [bind fst snd] in H.
    + apply Y; [|now injection H as <- <-]. unfold content. cbn [target to_extrapolations]. unfold not_none. now rewrite En.
    + injection H as H1 H2. eapply X; [| | |rewrite <- H1, <- H2; reflexivity]; cbn [own named]; try lia. unfold content. cbn [target to_extrapolations]. unfold not_none. now rewrite En.
  - destruct (str_eqb t (lit "none")) eqn:En; cbn [bind fst snd] in H.
    + apply Y; [|now injection H as <- <-]. unfold content. cbn [target to_extrapolations]. unfold not_none. now rewrite En.
    + injection H as H1 H2. eapply X; [| | |rewrite <- H1, <- H2; reflexivity]; cbn [own named]; try lia. unfold content. cbn [target to_extrapolations]. unfold not_none. now rewrite En.
  - destruct (str_eqb t (lit "none")) eqn:En; cbn [bind fst snd] in H.
    + apply Y; [|now injection H as <- <-]. unfold content. cbn [target to_extrapolations]. unfold not_none. now rewrite En.
    + injection H as H1 H2. eapply X; [| | |rewrite <- H1, <- H2; reflexivity]; cbn [own named]; try lia. unfold content. cbn [target to_extrapolations]. unfold not_none. now rewrite En.
  - rewrite (proj1 (proj2 (proj2 (proj2 C73_plain_text_untouched_partial))) t Hu) in H. cbn [settle existsb bind fst snd] in H. injection H as H1 H2.
    eapply X; [| | |rewrite <- H1, <- H2; reflexivity]; cbn [own named]; try lia; reflexivity.
  - apply Y; [reflexivity|now injection H as <- <-].
  - apply Y; [reflexivity|now injection H as <- <-].
Qed.
Lemma heard_tongue p s : heard_as p = Ok s -> s = (tongue p, p_text p).
Proof. unfold heard_as, tongue. destruct (p_lang p), (p_field p); intros H; try discriminate; now injection H as <-. Qed.
Lemma some_inj {A} (a b : A) : Some a = Some b -> a = b.
Proof. now intros [= ->]. Qed.
Lemma content_visible f t u : visible_text t -> content f t = Some u -> visible_text u.
Proof.
  intros (c & Hc & Hs) H. exists c. split; [|exact Hs].
  assert (X : exists h, u = h ++ t).
  { destruct f; unfold content in H; cbn [target a_name to_general to_geography to_extrapolations to_sampling the_sampling] in H; unfold not_none in H;
      try (destruct (str_eqb t (lit "none")); [discriminate|]); try discriminate; apply some_inj in H; subst u; try (exists []; reflexivity); eexists; reflexivity. }
  destruct X as (h & ->). apply in_or_app. now right.
Qed.

(** ** The texts of one place *)
Definition here (q : place) (f : tfield) : bool := match target f with Some q' => place_eqb q' q | None => false end.
Definition held (q : place) (b : bool) (f : tfield) (t : pystr) : option pystr := if (here q f && eqb (own f) b)%bool then content f t else None.
Definition of_kind (b : bool) (k : pystr) (a : triple) : bool := (str_eqb (snd (fst a)) k && eqb (Z.eqb (fst (fst a)) 0) b)%bool.
Record holds (q : place) (n : Z) (doc : list piece) (L : list triple) : Prop := {
  h_visible : Forall (fun a : triple => visible_text (snd a)) L;
  h_texts : forall b k, map snd (filter (of_kind b k) L) = paragraphs (held q b) k doc;
  h_sorted : forall k, StronglySorted Z.lt (map (fun a => fst (fst a)) (filter (of_kind false k) L));
  h_low : forall a, In a L -> fst (fst a) = 0%Z \/ (n <= fst (fst a))%Z }.
Definition alone (a : triple) : list triple := [a].

Lemma values_at_app q a b : values_at q (a ++ b) = values_at q a ++ values_at q b.
Proof. apply flat_map_app. Qed.
Lemma values_at_map q f vs : values_at q (map (pair (target f)) vs) = if here q f then vs else [].
Proof.
  unfold here. induction vs as [|v vs IH]; [now destruct (target f) as [r|]; [destruct (place_eqb r q)|]|]. cbn [map values_at flat_map fst snd] in *. fold (values_at q (map (pair (target f)) vs)). rewrite IH.
  destruct (target f) as [r|]; [destruct (place_eqb r q)|]; reflexivity.
Qed.
Lemma collected q doc : q <> PName -> forall n l, (0 < n)%Z -> Forall ordinary doc -> collect n doc = Ok l ->
  exists L, Forall2 speaks (values_at q l) (map alone L) /\ holds q n doc L.
Proof.
  intros Hq. induction doc as [|p doc IH]; intros n l Hn Ho H.
  - injection H as <-. exists []. split; [constructor|]. split; [constructor|reflexivity|intros k; constructor|intros a []].
  - inversion Ho as [|? ? [Hv Hm] Ho']; subst. cbn [collect] in H. destruct (heard_as p) as [s|] eqn:Es; cbn [bind] in H; [|discriminate]. apply heard_tongue in Es. subst s.
    set (f := p_field p) in *. set (n0 := (n + Z.of_N (p_gap p))%Z) in *.
    destruct (handle f n0 (tongue p, p_text p)) as [[vs n1]|] eqn:Eh; cbn [bind fst snd] in H; [|discriminate].
    destruct (collect n1 doc) as [l'|] eqn:Ec; cbn [bind] in H; [|discriminate]. injection H as <-.
    apply handled in Eh; [|destruct f; exact Hm]. cbn [fst snd] in Eh. destruct Eh as (Hle & o & -> & Hg & Hc).
    assert (Hn0 : (n <= n0)%Z) by (unfold n0; lia).
    destruct (IH n1 l') as (L & HL & Hh); [lia|exact Ho'|exact Ec|]. destruct Hh as [V T S W].
    rewrite values_at_app, values_at_map.
    assert (HP : forall b k, paragraphs (held q b) k (p :: doc) = (if str_eqb (tongue p) k then optional (fun t => t) (held q b f (p_text p)) else []) ++ paragraphs (held q b) k doc) by reflexivity.
    destruct (here q f) eqn:Eq.
    2:{ exists L. split; [exact HL|]. split; [exact V| |exact S|].
        - intros b k. rewrite T, HP. unfold held at 2. rewrite Eq. cbn [andb optional]. now destruct (str_eqb (tongue p) k).
        - intros a Ha. destruct (W a Ha); [now left|right; lia]. }
    assert (Hnm : named f = false).
    { unfold here in Eq. destruct f; try reflexivity; cbn in Eq; destruct q; try discriminate; now contradiction Hq. }
    destruct o as [[i u]|].
    2:{ exists L. cbn [entry_opt optional app]. split; [exact HL|]. split; [exact V| |exact S|].
        - intros b k. rewrite T, HP. unfold held at 2. rewrite Eq, <- Hc. cbn [option_map andb]. destruct (eqb (own f) b); now destruct (str_eqb (tongue p) k).
        - intros a Ha. destruct (W a Ha); [now left|right; lia]. }
    specialize (Hg i u eq_refl). rewrite Hnm in Hg. cbn [option_map snd] in Hc. symmetry in Hc.
    exists ((i, tongue p, u) :: L). cbn [entry_opt optional app map fst snd]. split; [constructor; [apply (speaks_entry i (tongue p, u))|exact HL]|].
    assert (Hi0 : Z.eqb i 0 = own f). { destruct (own f); [subst i; reflexivity|apply Z.eqb_neq; lia]. }
    split.
    + constructor; [exact (content_visible _ _ _ Hv Hc)|exact V].
    + intros b k. rewrite HP, <- T. unfold held at 1. rewrite Eq, Hc. cbn [filter]. unfold of_kind at 1. cbn [fst snd]. rewrite Hi0. cbn [andb].
      destruct (str_eqb (tongue p) k), (eqb (own f) b); reflexivity.
    + intros k. cbn [filter]. unfold of_kind at 1. cbn [fst snd]. rewrite Hi0. destruct (str_eqb (tongue p) k); cbn [andb]; [|apply S].
      destruct (own f) eqn:Ew; cbn [eqb]; [apply S|]. cbn [map fst]. constructor; [apply S|]. apply Forall_forall. intros j Hj. apply in_map_iff in Hj as (a & <- & Ha).
      apply filter_In in Ha as [Ha Hk]. unfold of_kind in Hk. apply andb_prop in Hk as [_ Hk]. destruct (W a Ha) as [Z0|Z0]; [rewrite Z0 in Hk; discriminate|lia].
    + intros a [<-|Ha]; cbn [fst].
      * destruct (own f); [now left|right; lia].
      * destruct (W a Ha); [now left|right; lia].
Qed.

(** the paragraphs of a language *)
Definition joined (q : place) (doc : list piece) (k : pystr) : list pystr := paragraphs (held q true) k doc ++ paragraphs (held q false) k doc.
Lemma filter_filter {A} (f g : A -> bool) l : filter f (filter g l) = filter (fun x => (g x && f x)%bool) l.
Proof. induction l as [|x l IH]; [reflexivity|]. cbn [filter]. destruct (g x); cbn [andb filter]; [destruct (f x)|]; now rewrite IH. Qed.
Definition number_text (a : triple) : Z * pystr := (fst (fst a), snd a).
Lemma lines_filter b k L : lines k (map number_text (filter (of_kind b k) L)) = filter (of_kind b k) L.
Proof.
  unfold lines. rewrite map_map. induction L as [|[[i l] u] L IH]; [reflexivity|]. cbn [filter]. destruct (of_kind b k (i, l, u)) eqn:E; [|exact IH]. cbn [map]. rewrite IH. f_equal.
  unfold of_kind in E. apply andb_prop in E as [E _]. cbn [fst snd] in E. apply str_eqb_eq in E. now subst.
Qed.
Lemma filter_never {A} (f : A -> bool) l : (forall x, f x = false) -> filter f l = [].
Proof. intros H. induction l as [|x l IH]; [reflexivity|]. cbn [filter]. now rewrite H. Qed.
Lemma texts_split k L i : texts_at L i k = texts_at (filter (of_kind true k) L ++ filter (of_kind false k) L) i k.
Proof.
  rewrite texts_at_app. unfold texts_at. rewrite !filter_filter, <- map_app. f_equal. destruct (Z.eqb i 0) eqn:Ei.
  - rewrite (filter_never (fun x => of_kind false k x && _)%bool), app_nil_r.
    + apply filter_ext. intros [[j l] u]. unfold of_kind. cbn [fst snd]. apply Z.eqb_eq in Ei. subst i. destruct (Z.eqb j 0), (str_eqb l k); reflexivity.
    + intros [[j l] u]. unfold of_kind. cbn [fst snd]. apply Z.eqb_eq in Ei. subst i. destruct (Z.eqb j 0), (str_eqb l k); reflexivity.
  - rewrite (filter_never (fun x => of_kind true k x && _)%bool). cbn [app].
    + apply filter_ext. intros [[j l] u]. unfold of_kind. cbn [fst snd]. destruct (Z.eqb j i) eqn:Ej; [|now rewrite andb_false_r].
      apply Z.eqb_eq in Ej. subst j. rewrite Ei. destruct (str_eqb l k); reflexivity.
    + intros [[j l] u]. unfold of_kind. cbn [fst snd]. destruct (Z.eqb j i) eqn:Ej; [|now rewrite andb_false_r].
      apply Z.eqb_eq in Ej. subst j. rewrite Ei. cbn [eqb]. now rewrite andb_false_r.
Qed.
Lemma one_or_none {A} (l : list A) : length l <= 1 -> l = [] \/ exists x, l = [x].
Proof. destruct l as [|x [|y l]]; cbn; intros H; [now left|right; eauto|lia]. Qed.
Lemma held_text q n doc L k : (0 < n)%Z -> holds q n doc L -> length (paragraphs (held q true) k doc) <= 1 -> lang_text sep_ L k (join newline (joined q doc k)).
Proof.
  intros Hn [V T S W] H1. eapply lang_text_ext; [intros i; symmetry; apply texts_split|].
  assert (E1 : joined q doc k = map snd (map number_text (filter (of_kind true k) L) ++ map number_text (filter (of_kind false k) L))).
  { unfold joined. rewrite <- (T true k), <- (T false k), map_app, !map_map. reflexivity. }
  assert (E2 : filter (of_kind true k) L ++ filter (of_kind false k) L = lines k (map number_text (filter (of_kind true k) L) ++ map number_text (filter (of_kind false k) L))).
  { unfold lines. rewrite map_app. fold (lines k (map number_text (filter (of_kind true k) L))). fold (lines k (map number_text (filter (of_kind false k) L))). now rewrite !lines_filter. }
  rewrite E1, E2. clear E1 E2. apply lines_text. rewrite map_app, !map_map. cbn [number_text fst].
  assert (H0 : length (filter (of_kind true k) L) <= 1) by (rewrite <- (T true) in H1; now rewrite map_length in H1).
  assert (F0 : forall a, In a (filter (of_kind true k) L) -> fst (fst a) = 0%Z).
  { intros a Ha. apply filter_In in Ha as [_ Ha]. unfold of_kind in Ha. apply andb_prop in Ha as [_ Ha]. destruct (Z.eqb (fst (fst a)) 0) eqn:E0; [now apply Z.eqb_eq|discriminate]. }
  destruct (one_or_none _ H0) as [E1|(x & E1)]; rewrite E1 in *; cbn [map app]; [apply S|]. constructor; [apply S|]. rewrite (F0 x) by now left.
  apply Forall_forall. intros j Hj. apply in_map_iff in Hj as (a & <- & Ha). apply filter_In in Ha as [Ha Hk]. unfold of_kind in Hk. apply andb_prop in Hk as [_ Hk].
  destruct (W a Ha) as [Z0|Z0]; [rewrite Z0 in Hk; discriminate|lia].
Qed.
Lemma held_rows q n doc L rows : (0 < n)%Z -> holds q n doc L -> (forall k, length (paragraphs (held q true) k doc) <= 1) -> language_rows sep_ (keep (concat (map alone L))) rows -> gathers (joined q doc) rows.
Proof.
  intros Hn Hh H1 HR. assert (Ec : concat (map alone L) = L) by (clear; induction L as [|a L IH]; [reflexivity|cbn [map concat alone app]; now rewrite IH]).
  rewrite Ec, (keep_all _ (h_visible _ _ _ _ Hh)) in HR. destruct HR as (R1 & R2 & R3). split; [exact R1|].
  assert (K : forall k, In k (map fst rows) <-> joined q doc k <> []).
  { intros k. rewrite R2. unfold joined. rewrite <- !(h_texts _ _ _ _ Hh), <- map_app. split.
    - intros (i & u & Hu) C. apply map_eq_nil, app_eq_nil in C as [C1 C2].
      assert (X : In (i, k, u) (filter (of_kind (Z.eqb i 0) k) L)) by (apply filter_In; split; [exact Hu|]; unfold of_kind; cbn [fst snd]; rewrite str_eqb_refl; now destruct (Z.eqb i 0)).
      destruct (Z.eqb i 0); [rewrite C1 in X|rewrite C2 in X]; destruct X.
    - intros C. destruct (filter (of_kind true k) L ++ filter (of_kind false k) L) as [|[[i l] u] r] eqn:E; [exfalso; apply C; exact (f_equal (map snd) E)|]. exists i, u.
      assert (X : In (i, l, u) (filter (of_kind true k) L ++ filter (of_kind false k) L)) by (rewrite E; now left).
      apply in_app_or in X. destruct X as [X|X]; apply filter_In in X as [X Y]; unfold of_kind in Y; apply andb_prop in Y as [Y _]; cbn [fst snd] in Y; apply str_eqb_eq in Y; now subst. }
  intros k t. split.
  - intros Hin. assert (Hk : In k (map fst rows)) by (apply in_map_iff; exists (k, t); auto). split; [now apply K|].
    exact (lang_text_unique _ _ _ _ _ (R3 _ _ Hin) (held_text q n doc L k Hn Hh (H1 k))).
  - intros [Hk ->]. apply K in Hk. apply in_map_iff in Hk as ([k' t] & Ek & Hin). cbn [fst] in Ek. subst k'.
    now rewrite <- (lang_text_unique _ _ _ _ _ (R3 _ _ Hin) (held_text q n doc L k Hn Hh (H1 k))).
Qed.

Lemma paragraphs_ext w v k doc : (forall f t, w f t = v f t) -> paragraphs w k doc = paragraphs v k doc.
Proof. intros H. unfold paragraphs. induction doc as [|p doc IH]; [reflexivity|]. cbn [flat_map]. now rewrite IH, H. Qed.
Lemma paragraphs_none w k doc : (forall f t, w f t = None) -> paragraphs w k doc = [].
Proof. intros H. unfold paragraphs. induction doc as [|p doc IH]; [reflexivity|]. cbn [flat_map]. rewrite IH, H. now destruct (str_eqb (tongue p) k). Qed.
Lemma joined_general doc k : joined PGeneral doc k = paragraphs to_general k doc.
Proof. unfold joined. rewrite paragraphs_none by (intros [] t; reflexivity). apply paragraphs_ext. intros [] t; reflexivity. Qed.
Lemma joined_geography doc k : joined PGeography doc k = paragraphs to_geography k doc.
Proof. unfold joined. rewrite paragraphs_none by (intros [] t; reflexivity). apply paragraphs_ext. intros [] t; reflexivity. Qed.
Lemma joined_extrapolations doc k : joined PExtrapolations doc k = paragraphs to_extrapolations k doc.
Proof. unfold joined. rewrite paragraphs_none by (intros [] t; reflexivity). apply paragraphs_ext. intros [] t; reflexivity. Qed.
Lemma joined_sampling doc k : joined PSampling doc k = paragraphs the_sampling k doc ++ paragraphs to_sampling k doc.
Proof. unfold joined. f_equal; apply paragraphs_ext; intros [] t; reflexivity. Qed.

Lemma gathers_ext a b rows : (forall k, a k = b k) -> gathers a rows -> gathers b rows.
Proof. intros H [G1 G2]. split; [exact G1|]. intros k t. now rewrite <- H. Qed.
Lemma short_within ign long a rows : short ign long a -> gathers a rows -> within ign long rows.
Proof. intros H [_ G] k t Hin. apply G in Hin as [_ ->]. apply H. Qed.

(** ** The fields *)
Section Places.
  Context (E : env) (long : nat).
  Lemma described n doc o : describe E long n doc = Ok o -> exists l, collect n doc = Ok l /\
    spoken_out E name_class (values_at PName l) = Ok (t_names o) /\ comment_out E long (values_at PGeneral l) = Ok (t_general o) /\
    comment_out E long (values_at PGeography l) = Ok (t_geography o) /\ spoken_out E (long_class long) (values_at PExtrapolations l) = Ok (t_extrapolations o) /\
    spoken_out E (long_class long) (values_at PSampling l) = Ok (t_sampling o).
  Proof.
    unfold describe. intros H. destruct (collect n doc) as [l|] eqn:El; cbn [bind] in H; [|discriminate]. exists l. split; [reflexivity|].
    destruct (spoken_out E name_class (values_at PName l)) as [a|]; cbn [bind] in H; [|discriminate].
    destruct (comment_out E long (values_at PGeneral l)) as [b|]; cbn [bind] in H; [|discriminate].
    destruct (comment_out E long (values_at PGeography l)) as [c|]; cbn [bind] in H; [|discriminate].
    destruct (spoken_out E (long_class long) (values_at PExtrapolations l)) as [d|]; cbn [bind] in H; [|discriminate].
    destruct (spoken_out E (long_class long) (values_at PSampling l)) as [e|]; cbn [bind] in H; [|discriminate].
    injection H as <-. cbn. auto 8.
  Qed.
  Lemma spoken_place q n doc l out : q <> PName -> (0 < n)%Z -> Forall ordinary doc -> collect n doc = Ok l -> (forall k, length (paragraphs (held q true) k doc) <= 1) ->
    spoken_out E (long_class long) (values_at q l) = Ok out -> short (ignore E) long (joined q doc) -> gathers (joined q doc) out.
  Proof.
    intros Hq Hn Ho Hc H1 Hs Hw. destruct (collected q doc Hq n l Hn Ho Hc) as (L & HL & Hh).
    assert (X : exists rows, language_rows sep_ (keep (concat (map alone L))) rows).
    { unfold spoken_out in Hs. destruct (field_out E (long_class long) (values_at q l)) as [os|] eqn:Eo; cbn [bind] in Hs; [|discriminate].
      destruct (multi_out E None (Lim_ long) _ os Eo) as (Ha & R & R1 & _). rewrite (additions_speak None _ _ Ha HL) in R1. eauto. }
    destruct X as (rows & HR). pose proof (held_rows q n doc L rows Hn Hh H1 HR) as G.
    now rewrite (spoken_long E long _ _ rows out Hs HL HR (short_within _ _ _ _ Hw G)).
  Qed.
  Lemma rows_exist vals : exists rows, language_rows sep_ (additions (lang_validate None) vals) rows.
  Proof.
    destruct (C10_one_text_per_language (Lim_ 0) None true vals (additions (lang_validate None) vals)) as (rows & H1 & _); [apply additions_calls, lang_iff|eauto].
  Qed.
  Lemma comment_place q n doc l out : q <> PName -> (0 < n)%Z -> Forall ordinary doc -> collect n doc = Ok l -> (forall k, length (paragraphs (held q true) k doc) <= 1) ->
    comment_out E long (values_at q l) = Ok out -> short (ignore E) long (joined q doc) -> exists rows, reads out rows /\ gathers (joined q doc) rows.
  Proof.
    intros Hq Hn Ho Hc H1 Hs Hw. destruct (collected q doc Hq n l Hn Ho Hc) as (L & HL & Hh). apply comment_read in Hs as [Ha HT].
    destruct (rows_exist (values_at q l)) as (rows & HR). specialize (HT rows HR). rewrite (additions_speak None _ _ Ha HL) in HR.
    pose proof (held_rows q n doc L rows Hn Hh H1 HR) as G. exists rows. split; [|exact G].
    destruct (HT (within_fits _ _ _ (short_within _ _ _ _ Hw G))) as (T1 & T2 & _). now apply keep_done.
  Qed.
  (** names *)
  Lemma names_assigned doc : forall n l, collect n doc = Ok l ->
    values_at PName l = map (entry_at 1) (flat_map (fun p => optional (fun t => (tongue p, t)) (a_name (p_field p) (p_text p))) doc).
  Proof.
    induction doc as [|p doc IH]; intros n l H; [injection H as <-; reflexivity|]. cbn [collect] in H.
    destruct (heard_as p) as [s|] eqn:Es; cbn [bind] in H; [|discriminate]. apply heard_tongue in Es. subst s.
    destruct (handle (p_field p) (n + Z.of_N (p_gap p)) (tongue p, p_text p)) as [[vs n1]|] eqn:Eh; cbn [bind fst snd] in H; [|discriminate].
    destruct (collect n1 doc) as [l'|] eqn:Ec; cbn [bind] in H; [|discriminate]. injection H as <-. rewrite values_at_app, values_at_map, (IH _ _ Ec).
    cbn [flat_map]. rewrite map_app. f_equal. destruct (p_field p); try reflexivity; cbn [handle fixed_step bind fst snd] in Eh; injection Eh as <- _; reflexivity.
  Qed.
End Places.
