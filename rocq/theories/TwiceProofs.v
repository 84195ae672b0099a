(** Facts about programs on schema-driven structures and about parts that occur together in a document. *)
From Coq Require Import Ascii String List Bool Arith NArith ZArith.
From Verif Require Import PyBase PyBaseFacts PyValues MultiLangModel DotDictModel DotDictSpec DotDictProofs XmlModel XmlSpec XmlProofs KeysProofs
  TwiceModel TwiceSpec.
Import ListNotations.

Lemma bare_name key k : bare key = Some k <-> names key k.
Proof.
  split.
  - destruct key as [|x s]; [discriminate|]. unfold bare. destruct (N.eqb x (ch "@")) eqn:A; cbn [orb].
    { apply N.eqb_eq in A. subst. intros [= ->]. now left. }
    destruct (N.eqb x (ch "#")) eqn:B.
    { apply N.eqb_eq in B. subst. intros [= ->]. right. now left. }
    intros [= <-]. right. right. split; [reflexivity|]. split; [discriminate|]. apply N.eqb_neq in A, B.
    intros r. split; congruence.
  - intros [->|[->|(-> & H1 & H2)]]; [reflexivity|reflexivity|].
    destruct k as [|x k]; [congruence|]. unfold bare.
    destruct (N.eqb x (ch "@")) eqn:E1; [apply N.eqb_eq in E1; subst; destruct (H2 k); congruence|].
    destruct (N.eqb x (ch "#")) eqn:E2; [apply N.eqb_eq in E2; subst; destruct (H2 k); congruence|]. reflexivity.
Qed.
Lemma getf_other {A} k k' (a : A) l : k' <> k -> getf k' (putf k a l) = getf k' l.
Proof.
  intros N. induction l as [|[k0 b] l IH]; cbn [putf getf].
  - destruct (str_eqb k k') eqn:E; [|reflexivity]. apply str_eqb_eq in E. congruence.
  - destruct (str_eqb k0 k) eqn:E; cbn [getf]; [|now rewrite IH].
    apply str_eqb_eq in E. subst. destruct (str_eqb k k') eqn:F; [|reflexivity]. apply str_eqb_eq in F. congruence.
Qed.

Section Facts.
  Context (U : universe).
  Notation dd := (dd U). Notation DD := (DD U). Notation HL := (HL U). Notation HV := (HV U).
  Notation cls := (cls U). Notation flds := (flds U).

  (** * Classes *)
  Definition classed (x : dd) : Prop := forall k h, In (k, h) (flds x) -> exists f, row U (cls x) k f /\ typed U f h.
  Lemma well_classed_deep d : well_classed U d <-> deep U classed d.
  Proof.
    split.
    - intros H x P k h I. exact (H x k h P I).
    - intros H x k h P I. exact (H x P k h I).
  Qed.
  Lemma fresh_classed c : deep U classed (DD c []).
  Proof. apply deep_split. split; [intros k h []|intros k l x []]. Qed.
  Lemma classed_get d k h f : classed d -> getf k (flds d) = Some h -> row U (cls d) k f -> typed U f h.
  Proof. intros H G R. apply getf_In in G. destruct (H k h G) as (f' & R' & T). unfold row in *. congruence. Qed.
  Lemma classed_put d k h f : classed d -> row U (cls d) k f -> typed U f h -> classed (DD (cls d) (putf k h (flds d))).
  Proof.
    intros C R H k' h' I. cbn in *. apply In_putf in I. destruct I as [[-> E]|I]; [|exact (C k' h' I)]. subst. eauto.
  Qed.
  Lemma child_classed d k l x : deep U classed d -> getf k (flds d) = Some (HL l) -> In x l -> deep U classed x.
  Proof. intros Hd G I. apply getf_In in G. apply deep_split in Hd. destruct Hd as [_ Hd]. eauto. Qed.
  Lemma set_one_classed bld k f d a d' e :
    deep U classed d -> row U (cls d) k f ->
    (forall c x, f_type f = TSub c -> bld c a = Ok x -> deep U classed x /\ cls x = c) ->
    set_one U bld k f d a = (d', e) -> deep U classed d' /\ cls d' = cls d.
  Proof.
    intros Hd R Hb. unfold set_one.
    assert (I : classed d) by (apply Hd; constructor).
    assert (Hd' : deep U classed (DD (cls d) (flds d))) by (destruct d; exact Hd).
    destruct (getf k (flds d)) as [h|] eqn:G.
    - destruct (truthy U h && f_unique f)%bool; [intros [= <- <-]; auto|].
      pose proof (classed_get d k h f I G R) as Ty. unfold typed in Ty.
      destruct (f_type f) as [v|c] eqn:T; destruct h as [v' st|l]; try (now destruct Ty).
      + destruct (vadd U v' st (arg_pyval U a)) as [st' e'] eqn:Ad. intros [= <- <-]. split; [|reflexivity].
        apply deep_put; [exact Hd'| |intros ? ? [=]]. apply (classed_put d k _ f); auto. unfold typed. now rewrite T.
      + destruct Ty as [_ Ty]. destruct (bld c a) as [x|e'] eqn:B; [|intros [= <- <-]; auto]. intros [= <- <-].
        destruct (Hb c x eq_refl B) as [X1 X2]. split; [|reflexivity]. apply deep_put; [exact Hd'| |].
        * apply (classed_put d k _ f); auto. unfold typed. rewrite T. split; [destruct l; discriminate|].
          intros y Y. apply in_app_iff in Y. destruct Y as [Y|[<-|[]]]; auto.
        * intros l0 x0 [= <-] Y. apply in_app_iff in Y. destruct Y as [Y|[<-|[]]]; [|exact X1]. exact (child_classed d k l x0 Hd G Y).
    - destruct (f_type f) as [v|c] eqn:T.
      + destruct (vadd U v None (arg_pyval U a)) as [st' [e'|]]; intros [= <- <-]; auto. split; [|reflexivity].
        apply deep_put; [exact Hd'| |intros ? ? [=]]. apply (classed_put d k _ f); auto. unfold typed. now rewrite T.
      + destruct (bld c a) as [x|e'] eqn:B; intros [= <- <-]; auto. destruct (Hb c x eq_refl B) as [X1 X2].
        split; [|reflexivity]. apply deep_put; [exact Hd'| |].
        * apply (classed_put d k _ f); auto. unfold typed. rewrite T. split; [discriminate|]. intros y [<-|[]]. exact X2.
        * intros l0 x0 [= <-] [<-|[]]. exact X1.
  Qed.
  Lemma set_many_classed bld k f l : forall d d' e,
    deep U classed d -> row U (cls d) k f ->
    (forall a c x, In a l -> f_type f = TSub c -> bld c a = Ok x -> deep U classed x /\ cls x = c) ->
    set_many U bld k f d l = (d', e) -> deep U classed d' /\ cls d' = cls d.
  Proof.
    induction l as [|a l IH]; cbn [set_many]; intros d d' e Hd R Hb; [intros [= <- <-]; auto|].
    destruct (set_one U bld k f d a) as [d1 [e1|]] eqn:E.
    - intros [= <- <-]. apply (set_one_classed bld k f d a _ _ Hd R) in E; auto. intros c x. apply Hb. now left.
    - intros E2. destruct (set_one_classed bld k f d a d1 None Hd R) as [Hd1 C]; auto.
      { intros c x. apply Hb. now left. }
      apply IH in E2; auto; [destruct E2 as [E2 E3]; split; [exact E2|congruence]|now rewrite C|]. intros b c x B. apply Hb. now right.
  Qed.
  Lemma parts_suit t a b : suits U t a -> In b (parts_of U a) -> suits U t b.
  Proof.
    intros S I. destruct a; cbn [parts_of] in I; try (destruct I as [<-|[]]; exact S).
    inversion S as [| | | | |? ? H]; subst; [|now apply H]. constructor.
  Qed.
  Lemma build_classed a : forall c d, suits U (TSub c) a -> build U c a = Ok d -> deep U classed d /\ cls d = c.
  Proof.
    assert (H : (forall c d, suits U (TSub c) a -> build U c a = Ok d -> deep U classed d /\ cls d = c) /\
                Forall (fun b => forall c d, suits U (TSub c) b -> build U c b = Ok d -> deep U classed d /\ cls d = c) (parts_of U a));
      [|exact (proj1 H)].
    induction a as [|s|l IH|l IH|x] using arg_ind2.
    - assert (H : forall c d, suits U (TSub c) (ANone U) -> build U c (ANone U) = Ok d -> deep U classed d /\ cls d = c);
        [|split; [exact H|constructor; [exact H|constructor]]].
      intros c d _ [= <-]. split; [apply fresh_classed|reflexivity].
    - assert (H : forall c d, suits U (TSub c) (AScalar U s) -> build U c (AScalar U s) = Ok d -> deep U classed d /\ cls d = c);
        [discriminate|split; [exact H|constructor; [exact H|constructor]]].
    - assert (H : forall c d, suits U (TSub c) (ADict U l) -> build U c (ADict U l) = Ok d -> deep U classed d /\ cls d = c);
        [|split; [exact H|constructor; [exact H|constructor]]].
      intros c d S. inversion S as [| | | |? ? Sl|]; subst. rewrite build_dict.
      assert (F : deep U classed (DD c [])) by apply fresh_classed. assert (K : cls (DD c []) = c) by reflexivity.
      revert F K. generalize (DD c []). clear S. revert Sl. induction l as [|[k x] l IHl]; intros Sl d0 F K; cbn [fill].
      + intros [= <-]; auto.
      + inversion IH as [|? ? [_ P1] P2]; subst. destruct (set_item U d0 k x) as [d1 [e1|]] eqn:E; [discriminate|].
        assert (B : deep U classed d1 /\ cls d1 = cls d0).
        { unfold set_item in E. rewrite set_item_many in E. destruct (bare k) as [k'|] eqn:B; [|discriminate].
          destruct (getf k' (valid U (cls d0))) as [f|] eqn:R; [|discriminate].
          apply (set_many_classed (build U) k' f (parts_of U x) d0 d1 None); auto.
          intros b c1 y Ib T Y. rewrite Forall_forall in P1. apply (P1 b Ib); auto. rewrite <- T.
          apply (parts_suit _ x); auto. apply (Sl k x k' f); auto; [now left|]. now apply bare_name. }
        destruct B as [B1 B2]. apply (IHl P2); auto. intros key z k' f I. apply (Sl key z k' f). now right.
    - split; [discriminate|]. cbn [parts_of]. rewrite Forall_forall in IH |- *. intros b Ib. exact (proj1 (IH b Ib)).
    - assert (H : forall c d, suits U (TSub c) (AStruct U x) -> build U c (AStruct U x) = Ok d -> deep U classed d /\ cls d = c);
        [|split; [exact H|constructor; [exact H|constructor]]].
      intros c d S [= <-]. inversion S; subst. split; [now apply well_classed_deep|reflexivity].
  Qed.
  Lemma set_item_classed d key a d' e :
    deep U classed d -> (forall k f, names key k -> row U (cls d) k f -> suits U (f_type f) a) ->
    set_item U d key a = (d', e) -> deep U classed d' /\ cls d' = cls d.
  Proof.
    intros Hd S. unfold set_item. rewrite set_item_many. destruct (bare key) as [k|] eqn:B; [|intros [= <- <-]; auto].
    destruct (getf k (valid U (cls d))) as [f|] eqn:R; [|intros [= <- <-]; auto].
    apply set_many_classed; auto. intros b c x I T. apply build_classed. rewrite <- T. apply (parts_suit _ a); auto.
    apply (S k f); auto. now apply bare_name.
  Qed.
  (** Reading a field: nothing changes, or a single-valued structure that was absent is created. *)
  Lemma get_item_cases d k d' r : get_item U d k = (d', r) ->
    (d' = d /\ exists e, r = Err e) \/
    (exists f x l, k <> lit "__name__" /\ row U (cls d) k f /\ f_unique f = true /\ getf k (flds d) = Some (HL (x :: l)) /\
       d' = d /\ r = Ok x) \/
    (exists f c, k <> lit "__name__" /\ row U (cls d) k f /\ f_unique f = true /\ f_type f = TSub c /\ getf k (flds d) = None /\
       d' = DD (cls d) (putf k (HL [DD c []]) (flds d)) /\ r = Ok (DD c [])).
  Proof.
    unfold get_item. destruct (str_eqb k (lit "__name__")) eqn:K; [intros [= <- <-]; left; eauto|].
    assert (K' : k <> lit "__name__") by (intros ->; rewrite str_eqb_refl in K; discriminate).
    destruct (getf k (valid U (cls d))) as [f|] eqn:R; [|intros [= <- <-]; left; eauto].
    destruct (getf k (flds d)) as [[v st|l]|] eqn:G; [intros [= <- <-]; left; eauto| |].
    - destruct (f_unique f) eqn:Un; [|intros [= <- <-]; left; eauto].
      destruct l as [|x l]; [intros [= <- <-]; left; eauto|]. intros [= <- <-]. right. left. exists f, x, l. auto 10.
    - destruct (f_type f) as [v|c] eqn:T; [intros [= <- <-]; left; eauto|].
      destruct (f_unique f) eqn:Un; [|intros [= <- <-]; left; eauto]. intros [= <- <-]. right. right. exists f, c. auto 10.
  Qed.
  Lemma enter_cases d s d' r : enter U d s = (d', r) ->
    (d' = d /\ exists e, r = Err e) \/
    (exists i x l, getf (step_name s) (flds d) = Some (HL l) /\ nth_error l i = Some x /\ d' = d /\ r = Ok (step_name s, i, x)) \/
    (exists f c, s = Attr (step_name s) /\ row U (cls d) (step_name s) f /\ f_type f = TSub c /\ getf (step_name s) (flds d) = None /\
       d' = DD (cls d) (putf (step_name s) (HL [DD c []]) (flds d)) /\ r = Ok (step_name s, 0, DD c [])).
  Proof.
    destruct s as [k|k i]; cbn [enter step_name].
    - destruct (get_item U d k) as [d1 r1] eqn:E. apply get_item_cases in E.
      destruct E as [[-> [e ->]]|[(f & x & l & K & R & Un & G & -> & ->)|(f & c & K & R & Un & T & G & -> & ->)]].
      + intros [= <- <-]. left. eauto.
      + intros [= <- <-]. right. left. exists 0, x, (x :: l). auto.
      + intros [= <- <-]. right. right. exists f, c. auto 10.
    - unfold get. destruct (getf k (flds d)) as [[v st|l]|]; cbn [bind].
      + destruct (vend U v st); intros [= <- <-]; left; eauto.
      + destruct (nth_error l i) as [x|] eqn:N; intros [= <- <-]; [right; left; eauto 10|left; eauto].
      + intros [= <- <-]. left. eauto.
  Qed.
  Lemma create_classed d k f c : deep U classed d -> row U (cls d) k f -> f_type f = TSub c ->
    deep U classed (DD (cls d) (putf k (HL [DD c []]) (flds d))).
  Proof.
    intros Hd R T. apply deep_put; [destruct d; exact Hd| |intros l x [= <-] [<-|[]]; apply fresh_classed].
    apply (classed_put d k _ f); auto; [apply Hd; constructor|]. unfold typed. rewrite T. split; [discriminate|].
    intros y [<-|[]]. reflexivity.
  Qed.
  Lemma put_child_classed d k i x l y : deep U classed d -> deep U classed x ->
    getf k (flds d) = Some (HL l) -> nth_error l i = Some y -> cls x = cls y ->
    deep U classed (put_child U d k i x) /\ cls (put_child U d k i x) = cls d.
  Proof.
    intros Hd Hx G N E. unfold put_child. rewrite G.
    assert (I : classed d) by (apply Hd; constructor). split; [|reflexivity].
    apply deep_put; [destruct d; exact Hd| |].
    - destruct (I k (HL l) (getf_In _ _ _ G)) as (f & R & T). apply (classed_put d k _ f); auto. unfold typed in *.
      destruct (f_type f) as [v|c]; [exact T|]. destruct T as [T1 T2]. split.
      + intros A. apply (f_equal (@length _)) in A. rewrite put_nth_length in A. destruct l; [congruence|discriminate].
      + intros z Z. apply put_nth_In in Z. destruct Z as [->|Z]; [|auto]. rewrite E. apply T2. eapply nth_error_In; eauto.
    - intros l0 z [= <-] Iz. apply put_nth_In in Iz. destruct Iz as [->|Iz]; [exact Hx|]. exact (child_classed d k l z Hd G Iz).
  Qed.
  Lemma at_path_classed f p : forall d d' e,
    (forall x x' e', leads U (cls d) (map step_name p) (cls x) -> deep U classed x -> f x = (x', e') ->
       deep U classed x' /\ cls x' = cls x) ->
    deep U classed d -> at_path U p f d = (d', e) -> deep U classed d' /\ cls d' = cls d.
  Proof.
    induction p as [|s p IH]; cbn [at_path map]; intros d d' e Hf Hd.
    - intros E. apply (Hf d d' e); auto. constructor.
    - destruct (enter U d s) as [d1 r] eqn:E. apply enter_cases in E.
      destruct E as [[-> [e1 ->]]|[(i & x & l & G & N & -> & ->)|(w & c & _ & R & T & G & -> & ->)]].
      + intros [= <- <-]. auto.
      + destruct (at_path U p f x) as [x' e'] eqn:A. intros [= <- <-].
        assert (I : classed d) by (apply Hd; constructor).
        destruct (I _ _ (getf_In _ _ _ G)) as (w & R & T). unfold typed in T. destruct (f_type w) as [v|c] eqn:Tw; [easy|].
        destruct T as [_ T]. assert (Nx := nth_error_In _ _ N).
        destruct (IH x x' e') as [X1 X2]; auto.
        { intros y y' e0 L. apply Hf. econstructor; eauto. now rewrite <- (T x Nx). }
        { eapply child_classed; eauto. }
        eapply put_child_classed; eauto.
      + destruct (at_path U p f (DD c [])) as [x' e'] eqn:A. intros [= <- <-].
        destruct (IH (DD c []) x' e') as [X1 X2]; auto.
        { intros y y' e0 L. apply Hf. econstructor; eauto. }
        { apply fresh_classed. }
        assert (C := create_classed d _ w c Hd R T).
        destruct (put_child_classed _ (step_name s) 0 x' [DD c []] (DD c []) C X1) as [P1 P2]; auto.
        cbn. apply getf_putf.
  Qed.
  Lemma read_only_classed k d d' e : deep U classed d -> read_only U k d = (d', e) -> deep U classed d' /\ cls d' = cls d.
  Proof.
    intros Hd. unfold read_only. destruct (get_item U d k) as [d1 r] eqn:E. apply get_item_cases in E.
    destruct E as [[-> [e1 ->]]|[(f & x & l & K & R & Un & G & -> & ->)|(f & c & K & R & Un & T & G & -> & ->)]];
      intros [= <- <-]; auto. split; [|reflexivity]. now apply create_classed with (f := f).
  Qed.
  Lemma exec_classed o d d' e : deep U classed d -> suitable U (cls d) o -> exec U o d = (d', e) -> deep U classed d' /\ cls d' = cls d.
  Proof.
    intros Hd S. destruct o as [p k a|p k]; unfold exec; intros E; eapply at_path_classed in E; eauto.
    - intros x x' e' L Hx. apply set_item_classed; auto. intros k' f. now apply S.
    - intros x x' e' L Hx. now apply read_only_classed.
  Qed.
  Lemma runs_classed os : forall d d' e, deep U classed d -> Forall (suitable U (cls d)) os -> runs U os d = (d', e) ->
    deep U classed d' /\ cls d' = cls d.
  Proof.
    induction os as [|o os IH]; cbn [runs]; intros d d' e Hd S; [intros [= <- <-]; auto|]. inversion S; subst.
    destruct (exec U o d) as [d1 [e1|]] eqn:E.
    - intros [= <- <-]. eapply exec_classed; eauto.
    - intros E2. destruct (exec_classed o d d1 None) as [H3 H4]; auto. rewrite <- H4 in *. now apply (IH d1 d' e).
  Qed.

  (** * What is stored stays *)
  Definition grown (d d' : dd) : Prop :=
    cls d' = cls d /\
    forall k h, getf k (flds d) = Some h ->
      match h with
      | DotDictModel.HV _ v st => exists st', getf k (flds d') = Some (HV v st') /\ (forall f, row U (cls d) k f -> f_unique f = true -> st' = st)
      | DotDictModel.HL _ l => exists l', getf k (flds d') = Some (HL (l ++ l'))
      end.
  Lemma grown_refl d : grown d d.
  Proof. split; [reflexivity|]. intros k [v st|l] G; [eauto|]. exists []. now rewrite app_nil_r. Qed.
  Lemma grown_trans a b c : grown a b -> grown b c -> grown a c.
  Proof.
    intros [A1 A2] [B1 B2]. split; [congruence|]. intros k [v st|l] G.
    - destruct (A2 _ _ G) as (st1 & G1 & E1). destruct (B2 _ _ G1) as (st2 & G2 & E2). exists st2. split; [exact G2|].
      intros f R Un. rewrite (E2 f), (E1 f); auto. now rewrite A1.
    - destruct (A2 _ _ G) as (l1 & G1). destruct (B2 _ _ G1) as (l2 & G2). exists (l1 ++ l2). now rewrite app_assoc.
  Qed.
  Lemma grown_new d k h : getf k (flds d) = None -> grown d (DD (cls d) (putf k h (flds d))).
  Proof.
    intros N. split; [reflexivity|]. intros k' h' G. assert (E : k' <> k) by congruence. cbn.
    destruct h' as [v st|l]; [exists st|exists []]; rewrite getf_other by auto; [auto|]. now rewrite app_nil_r.
  Qed.
  Lemma set_one_grown bld k f d a d' e : row U (cls d) k f -> set_one U bld k f d a = (d', e) -> grown d d'.
  Proof.
    intros R. unfold set_one. destruct (getf k (flds d)) as [h|] eqn:G.
    - destruct (truthy U h && f_unique f)%bool eqn:T; [intros [= <- <-]; apply grown_refl|].
      destruct (f_type f) as [v|c]; destruct h as [v' st|l]; try (intros [= <- <-]; apply grown_refl).
      + destruct (vadd U v' st (arg_pyval U a)) as [st' e']. intros [= <- <-]. split; [reflexivity|]. cbn. intros k' h' G'.
        destruct (str_eqb k' k) eqn:K.
        * apply str_eqb_eq in K. subst. assert (h' = HV v' st) by congruence. subst. exists st'. rewrite getf_putf. split; [reflexivity|].
          intros f' R' Un. unfold row in *. assert (f' = f) by congruence. subst. cbn in T. congruence.
        * assert (K' : k' <> k) by (intros ->; rewrite str_eqb_refl in K; discriminate).
          destruct h' as [v0 st0|l0]; [exists st0|exists []]; rewrite getf_other by auto; [auto|]. now rewrite app_nil_r.
      + destruct (bld c a) as [x|e']; intros [= <- <-]; [|apply grown_refl]. split; [reflexivity|]. cbn. intros k' h' G'.
        destruct (str_eqb k' k) eqn:K.
        * apply str_eqb_eq in K. subst. assert (h' = HL l) by congruence. subst. exists [x]. now rewrite getf_putf.
        * assert (K' : k' <> k) by (intros ->; rewrite str_eqb_refl in K; discriminate).
          destruct h' as [v0 st0|l0]; [exists st0|exists []]; rewrite getf_other by auto; [auto|]. now rewrite app_nil_r.
    - destruct (f_type f) as [v|c].
      + destruct (vadd U v None (arg_pyval U a)) as [st' [e'|]]; intros [= <- <-]; [apply grown_refl|now apply grown_new].
      + destruct (bld c a) as [x|e']; intros [= <- <-]; [now apply grown_new|apply grown_refl].
  Qed.
  Lemma set_many_grown bld k f l : forall d d' e, row U (cls d) k f -> set_many U bld k f d l = (d', e) -> grown d d'.
  Proof.
    induction l as [|a l IH]; cbn [set_many]; intros d d' e R; [intros [= <- <-]; apply grown_refl|].
    destruct (set_one U bld k f d a) as [d1 [e1|]] eqn:E.
    - intros [= <- <-]. eapply set_one_grown; eauto.
    - intros E2. assert (G := set_one_grown bld k f d a d1 None R E). apply (grown_trans d d1 d' G). apply (IH d1 d' e); auto.
      now rewrite (proj1 G).
  Qed.
  Lemma set_item_grown d key a d' e : set_item U d key a = (d', e) -> grown d d'.
  Proof.
    unfold set_item. rewrite set_item_many. destruct (bare key) as [k|]; [|intros [= <- <-]; apply grown_refl].
    destruct (getf k (valid U (cls d))) as [f|] eqn:R; [|intros [= <- <-]; apply grown_refl]. now apply set_many_grown.
  Qed.
  Lemma read_only_grown k d d' e : read_only U k d = (d', e) -> grown d d'.
  Proof.
    unfold read_only. destruct (get_item U d k) as [d1 r] eqn:E. apply get_item_cases in E.
    destruct E as [[-> [e1 ->]]|[(f & x & l & K & R & Un & G & -> & ->)|(f & c & K & R & Un & T & G & -> & ->)]];
      intros [= <- <-]; try apply grown_refl. now apply grown_new.
  Qed.

  (** The structure reached by following first elements. *)
  Fixpoint at_one (p : list pystr) (d x : dd) : Prop :=
    match p with
    | [] => x = d
    | s :: p' => exists y l, getf s (flds d) = Some (HL (y :: l)) /\ at_one p' y x
    end.
  Lemma holds_at p k d h : holds U p k d h <-> exists x, at_one p d x /\ getf k (flds x) = Some h.
  Proof.
    split.
    - induction 1 as [k d h G|s p k d x l h G H (y & A & B)]; [exists d; cbn; auto|]. exists y. split; [|exact B]. cbn. eauto.
    - revert d. induction p as [|s p IH]; intros d (x & A & B); cbn in A; [subst; now constructor|].
      destruct A as (y & l & G & A). econstructor; eauto.
  Qed.
  (** what a program leaves of a structure on the way *)
  Definition kept (x x' : dd) : Prop :=
    cls x' = cls x /\
    (forall k h, getf k (flds x) = Some h -> truthy U h = true -> exists h', getf k (flds x') = Some h' /\ truthy U h' = true) /\
    (forall k f v st, getf k (flds x) = Some (HV v st) -> row U (cls x) k f -> f_unique f = true -> getf k (flds x') = Some (HV v st)).
  Lemma kept_refl x : kept x x.
  Proof. split; [reflexivity|]. split; eauto. Qed.
  Lemma kept_trans x y z : kept x y -> kept y z -> kept x z.
  Proof.
    intros (A1 & A2 & A3) (B1 & B2 & B3). split; [congruence|]. split.
    - intros k h G T. destruct (A2 k h G T) as (h1 & G1 & T1). eauto.
    - intros k f v st G R Un. apply (B3 k f); auto; [eauto|now rewrite A1].
  Qed.
  Lemma grown_kept x x' : grown x x' -> kept x x'.
  Proof.
    intros [C G]. split; [exact C|]. split.
    - intros k [v st|l] H T; apply G in H.
      + destruct H as (st' & H & _). exists (HV v st'). auto.
      + destruct H as (l' & H). exists (HL (l ++ l')). split; [exact H|]. destruct l; [discriminate|reflexivity].
    - intros k f v st H R Un. apply G in H. destruct H as (st' & H & E). now rewrite <- (E f R Un).
  Qed.
  Definition steady (f : dd -> outcome U) : Prop :=
    forall d d' e, f d = (d', e) -> forall p x, at_one p d x -> exists x', at_one p d' x' /\ kept x x'.
  Lemma grown_at d d' p x : grown d d' -> at_one p d x -> exists x', at_one p d' x' /\ kept x x'.
  Proof.
    intros G A. destruct p as [|s p]; cbn in A.
    - subst. exists d'. split; [reflexivity|]. now apply grown_kept.
    - destruct A as (y & l & H & A). apply (proj2 G) in H. destruct H as (l' & H). cbn in H.
      exists x. split; [cbn; eauto|apply kept_refl].
  Qed.
  Lemma put_child_kept d k i x : kept d (put_child U d k i x).
  Proof.
    unfold put_child. destruct (getf k (flds d)) as [[v st|l]|] eqn:G; try apply kept_refl. split; [reflexivity|]. cbn. split.
    - intros k' h G' T. destruct (str_eqb k' k) eqn:K.
      + apply str_eqb_eq in K. subst. rewrite getf_putf. eexists. split; [reflexivity|]. assert (h = HL l) by congruence. subst.
        destruct l, i; cbn in *; congruence.
      + assert (K' : k' <> k) by (intros ->; rewrite str_eqb_refl in K; discriminate). rewrite getf_other by auto. eauto.
    - intros k' f v st G' R Un. assert (K' : k' <> k) by congruence. now rewrite getf_other.
  Qed.
  Lemma at_path_steady f p : steady f -> steady (at_path U p f).
  Proof.
    intros Hf. induction p as [|s p IH]; cbn [at_path]; [exact Hf|]. intros d d' e E q x A.
    destruct (enter U d s) as [d1 r] eqn:En. apply enter_cases in En.
    assert (D : d' = d1 /\ d1 = d \/
      exists i y l y' e', grown d d1 /\ getf (step_name s) (flds d1) = Some (HL l) /\ nth_error l i = Some y /\
        at_path U p f y = (y', e') /\ d' = put_child U d1 (step_name s) i y').
    { destruct En as [[-> [e1 ->]]|[(i & y & l & G & N & -> & ->)|(w & c & _ & R & T & G & -> & ->)]].
      - left. split; congruence.
      - right. destruct (at_path U p f y) as [y' e'] eqn:E1. injection E as <- <-. exists i, y, l, y', e'. auto using grown_refl.
      - right. destruct (at_path U p f (DD c [])) as [y' e'] eqn:E1. injection E as <- <-.
        exists 0, (DD c []), [DD c []], y', e'. split; [now apply grown_new|]. cbn. rewrite getf_putf. auto. }
    destruct D as [[-> ->]|(i & y & l & y' & e' & Gr & G & N & E1 & ->)]; [exists x; split; [exact A|apply kept_refl]|].
    destruct (grown_at d d1 q x Gr A) as (x1 & A1 & K1).
    assert (Z : exists x2, at_one q (put_child U d1 (step_name s) i y') x2 /\ kept x1 x2).
    { destruct q as [|s' q]; cbn in A1.
      - subst x1. eexists. split; [reflexivity|]. apply put_child_kept.
      - destruct A1 as (z & l1 & G1 & A1). unfold put_child. rewrite G. cbn.
        destruct (str_eqb s' (step_name s)) eqn:K.
        + apply str_eqb_eq in K. subst s'. rewrite getf_putf. assert (l = z :: l1) by congruence. subst l.
          destruct i as [|i]; cbn in N |- *.
          * injection N as ->. destruct (IH y y' e' E1 q x1 A1) as (x2 & A2 & K2). exists x2. split; [eauto|exact K2].
          * exists x1. split; [eauto|apply kept_refl].
        + assert (K' : s' <> step_name s) by (intros ->; rewrite str_eqb_refl in K; discriminate).
          rewrite getf_other by auto. exists x1. split; [eauto|apply kept_refl]. }
    destruct Z as (x2 & A2 & K2). exists x2. split; [exact A2|]. eapply kept_trans; eauto.
  Qed.
  Lemma exec_steady o : steady (exec U o).
  Proof.
    destruct o as [p k a|p k]; unfold exec; apply at_path_steady; intros d d' e E q x A.
    - apply (grown_at d); auto. eapply set_item_grown; eauto.
    - apply (grown_at d); auto. eapply read_only_grown; eauto.
  Qed.
  Lemma runs_steady os : steady (runs U os).
  Proof.
    induction os as [|o os IH]; cbn [runs]; intros d d' e E p x A.
    - injection E as <- <-. exists x. split; [exact A|apply kept_refl].
    - destruct (exec U o d) as [d1 [e1|]] eqn:E1.
      + injection E as <- <-. eapply exec_steady; eauto.
      + destruct (exec_steady o _ _ _ E1 p x A) as (x1 & A1 & K1). destruct (IH _ _ _ E p x1 A1) as (x2 & A2 & K2).
        exists x2. split; [exact A2|]. eapply kept_trans; eauto.
  Qed.

  (** * A single-valued field is assigned once *)
  Lemma at_one_class p : forall c' d x, deep U classed d -> leads_one U (cls d) p c' -> at_one p d x -> cls x = c' /\ deep U classed x.
  Proof.
    induction p as [|s p IH]; intros c' d x Hd L A; cbn in A; inversion L as [|? ? f c1 ? ? R T Un N L']; subst.
    - auto.
    - destruct A as (y & l & G & A). assert (I : classed d) by (apply Hd; constructor).
      assert (Ty := classed_get d s _ f I G R). unfold typed in Ty. rewrite T in Ty. destruct Ty as [_ Ty].
      apply (IH c' y x); auto; [eapply child_classed; eauto; now left|]. rewrite (Ty y); [exact L'|now left].
  Qed.
  Lemma at_one_present p : forall c' d x, deep U classed d -> leads_one U (cls d) p c' -> at_one p d x -> present U (map Attr p) d x.
  Proof.
    induction p as [|s p IH]; intros c' d x Hd L A; cbn in A |- *; inversion L as [|? ? f c1 ? ? R T Un N L']; subst.
    - reflexivity.
    - destruct A as (y & l & G & A). exists s, 0, y. split.
      + unfold get_item. destruct (str_eqb s (lit "__name__")) eqn:K; [apply str_eqb_eq in K; congruence|].
        unfold row in R. now rewrite R, G, Un.
      + assert (I : classed d) by (apply Hd; constructor).
        assert (Ty := classed_get d s _ f I G R). unfold typed in Ty. rewrite T in Ty. destruct Ty as [_ Ty].
        apply (IH c' y x); auto; [eapply child_classed; eauto; now left|]. rewrite (Ty y); [exact L'|now left].
  Qed.
  Lemma set_full d key k f a h : bare key = Some k -> row U (cls d) k f -> f_unique f = true -> getf k (flds d) = Some h ->
    truthy U h = true -> a <> AList U [] -> set_item U d key a = (d, Some ValueError).
  Proof.
    intros B R Un G T A. unfold set_item. rewrite set_item_many, B. unfold row in R. rewrite R.
    destruct (parts_of U a) as [|b l] eqn:P.
    - destruct a; try discriminate. cbn in P. congruence.
    - cbn [set_many]. unfold set_one. now rewrite G, T, Un.
  Qed.
  Lemma full_rejects d p c' key k f a h : deep U classed d -> leads_one U (cls d) p c' -> bare key = Some k -> row U c' k f ->
    f_unique f = true -> holds U p k d h -> truthy U h = true -> a <> AList U [] ->
    exec U (OSet U (map Attr p) key a) d = (d, Some ValueError).
  Proof.
    intros Hd L B R Un H T A. apply holds_at in H. destruct H as (x & Ax & G).
    destruct (at_one_class p c' d x Hd L Ax) as [C _]. unfold exec.
    apply (at_path_present U _ _ d x).
    - eapply at_one_present; eauto.
    - rewrite (set_full x key k f a h); auto. now rewrite C.
    - rewrite (set_full x key k f a h); auto. now rewrite C.
  Qed.
  Lemma set_one_stored bld k f d a d' : set_one U bld k f d a = (d', None) -> exists h, getf k (flds d') = Some h /\ truthy U h = true.
  Proof.
    unfold set_one. destruct (getf k (flds d)) as [h|] eqn:G.
    - destruct (truthy U h && f_unique f)%bool; [discriminate|]. destruct (f_type f) as [v|c]; destruct h as [v' st|l]; try discriminate.
      + destruct (vadd U v' st (arg_pyval U a)) as [st' e']. intros [= <- ->]. cbn. rewrite getf_putf. eauto.
      + destruct (bld c a) as [x|e']; [|discriminate]. intros [= <-]. cbn. rewrite getf_putf. eexists. split; [reflexivity|].
        now destruct l.
    - destruct (f_type f) as [v|c].
      + destruct (vadd U v None (arg_pyval U a)) as [st' [e'|]]; [discriminate|]. intros [= <-]. cbn. rewrite getf_putf. eauto.
      + destruct (bld c a) as [x|e']; [|discriminate]. intros [= <-]. cbn. rewrite getf_putf. eauto.
  Qed.
  Lemma set_item_stored d key k a d' : bare key = Some k -> a <> AList U [] -> set_item U d key a = (d', None) ->
    exists h, getf k (flds d') = Some h /\ truthy U h = true.
  Proof.
    intros B A. unfold set_item. rewrite set_item_many, B. destruct (getf k (valid U (cls d))) as [f|] eqn:R; [|discriminate].
    destruct (parts_of U a) as [|b l] eqn:P; [destruct a; try discriminate; cbn in P; congruence|]. cbn [set_many].
    destruct (set_one U (build U) k f d b) as [d1 [e|]] eqn:E; [discriminate|]. intros E2.
    destruct (set_one_stored _ _ _ _ _ _ E) as (h & G & T).
    assert (Gr : grown d1 d').
    { eapply set_many_grown; eauto. unfold row. rewrite (proj1 (set_one_grown _ _ _ _ _ _ _ R E)). exact R. }
    apply grown_kept in Gr. destruct Gr as (_ & Gr & _). eapply Gr; eauto.
  Qed.
  Lemma assign_stored p : forall d key k a d', bare key = Some k -> a <> AList U [] ->
    exec U (OSet U (map Attr p) key a) d = (d', None) -> exists h, holds U p k d' h /\ truthy U h = true.
  Proof.
    unfold exec. induction p as [|s p IH]; intros d key k a d' B A E; cbn [map at_path] in E.
    - destruct (set_item_stored d key k a d' B A E) as (h & G & T). exists h. split; [now constructor|exact T].
    - cbn [enter] in E. destruct (get_item U d s) as [d1 [y|e1]] eqn:En; [|discriminate].
      destruct (at_path U (map Attr p) (fun x => set_item U x key a) y) as [y' e'] eqn:E1. injection E as <- ->.
      destruct (IH _ _ _ _ _ B A E1) as (h & H & T). exists h. split; [|exact T].
      apply get_item_cases in En.
      destruct En as [[-> [e1 [=]]]|[(f & x & l & K & R & Un & G & -> & [= ->])|(f & c & K & R & Un & Ty & G & -> & [= ->])]].
      + econstructor; [|exact H]. unfold put_child. rewrite G. cbn. apply getf_putf.
      + econstructor; [|exact H]. unfold put_child. cbn. rewrite getf_putf. cbn. apply getf_putf.
  Qed.

  (** * A value is judged alone *)
  Definition vacant (p : list pystr) (k : pystr) (d : dd) : Prop := forall h, ~ holds U p k d h.
  Lemma vacant_here k d : vacant [] k d <-> getf k (flds d) = None.
  Proof.
    split.
    - intros H. destruct (getf k (flds d)) as [h|] eqn:G; [|reflexivity]. destruct (H h). now constructor.
    - intros G h H. inversion H; subst. congruence.
  Qed.
  Lemma vacant_below s p k d : vacant (s :: p) k d <-> forall x l, getf s (flds d) = Some (HL (x :: l)) -> vacant p k x.
  Proof.
    split.
    - intros H x l G h A. apply (H h). econstructor; eauto.
    - intros H h A. inversion A; subst. eapply H; eauto.
  Qed.
  Lemma vacant_fresh p k c : vacant p k (DD c []).
  Proof. intros h H. inversion H; discriminate. Qed.
  (** the first field on the way *)
  Definition top (p : list pystr) (k : pystr) : pystr := match p with [] => k | s :: _ => s end.
  Lemma vacant_same p k d d' : getf (top p k) (flds d') = getf (top p k) (flds d) -> vacant p k d -> vacant p k d'.
  Proof.
    intros E. destruct p as [|s p]; cbn in E.
    - rewrite !vacant_here. congruence.
    - rewrite !vacant_below. intros H x l G. apply (H x l). congruence.
  Qed.
  Lemma set_one_other bld k f d a d' e k' : k' <> k -> set_one U bld k f d a = (d', e) -> getf k' (flds d') = getf k' (flds d).
  Proof.
    intros N. unfold set_one. destruct (getf k (flds d)) as [h|] eqn:G.
    - destruct (truthy U h && f_unique f)%bool; [now intros [= <- <-]|]. destruct (f_type f) as [v|c]; destruct h as [v' st|l];
        try (now intros [= <- <-]).
      + destruct (vadd U v' st (arg_pyval U a)) as [st' e']. intros [= <- <-]. cbn. now apply getf_other.
      + destruct (bld c a) as [x|e']; intros [= <- <-]; [|reflexivity]. cbn. now apply getf_other.
    - destruct (f_type f) as [v|c].
      + destruct (vadd U v None (arg_pyval U a)) as [st' [e'|]]; intros [= <- <-]; [reflexivity|]. cbn. now apply getf_other.
      + destruct (bld c a) as [x|e']; intros [= <- <-]; [|reflexivity]. cbn. now apply getf_other.
  Qed.
  Lemma set_many_other bld k f l k' : k' <> k -> forall d d' e, set_many U bld k f d l = (d', e) -> getf k' (flds d') = getf k' (flds d).
  Proof.
    intros N. induction l as [|a l IH]; cbn [set_many]; intros d d' e; [now intros [= <- <-]|].
    destruct (set_one U bld k f d a) as [d1 [e1|]] eqn:E; apply (set_one_other bld k f d a _ _ k' N) in E.
    - now intros [= <- <-].
    - intros E2. apply IH in E2. congruence.
  Qed.
  Lemma set_item_other d key a d' e k' : (forall k, bare key = Some k -> k' <> k) -> set_item U d key a = (d', e) ->
    getf k' (flds d') = getf k' (flds d).
  Proof.
    intros N. unfold set_item. rewrite set_item_many. destruct (bare key) as [k|]; [|now intros [= <- <-]].
    destruct (getf k (valid U (cls d))) as [f|]; [|now intros [= <- <-]]. apply set_many_other. auto.
  Qed.
  (** [clear f t]: [f] leaves alone the fields whose way does not meet the names in [t] *)
  Definition clear (g : dd -> outcome U) (p : list pystr) (k : pystr) : Prop :=
    forall d d' e, g d = (d', e) -> vacant p k d -> vacant p k d'.
  Lemma at_path_clear g p : forall q k,
    (forall r, map step_name p <> q ++ k :: r) ->
    (forall q', q = map step_name p ++ q' -> clear g q' k) -> clear (at_path U p g) q k.
  Proof.
    induction p as [|s p IH]; intros q k N1 N2; cbn [at_path map app] in *; [now apply N2|].
    intros d d' e E V. destruct (enter U d s) as [d1 r] eqn:En. apply enter_cases in En.
    destruct (list_eq_dec N.eq_dec (step_name s) (top q k)) as [Eq|Ne].
    - destruct q as [|s' q]; cbn in Eq; [destruct (N1 (map step_name p)); cbn; congruence|]. subst s'.
      rewrite vacant_below in V |- *.
      assert (IH' : clear (at_path U p g) q k).
      { apply IH; [intros r0 A; destruct (N1 r0); cbn; congruence|]. intros q' A. apply N2. congruence. }
      destruct En as [[-> [e1 ->]]|[(i & y & l & G & N & -> & ->)|(w & c & _ & R & T & G & -> & ->)]].
      + injection E as <- <-. exact V.
      + destruct (at_path U p g y) as [y' e'] eqn:E1. injection E as <- <-. unfold put_child. rewrite G. cbn. rewrite getf_putf.
        intros x0 l0 [= E0]. destruct l as [|z l]; [destruct i; discriminate|]. destruct i as [|i]; cbn in N, E0.
        * injection N as ->. injection E0 as <- <-. apply (IH' y y' e' E1). eapply V; eauto.
        * injection E0 as <- <-. eapply V; eauto.
      + destruct (at_path U p g (DD c [])) as [y' e'] eqn:E1. injection E as <- <-. unfold put_child. cbn. rewrite getf_putf. cbn.
        rewrite getf_putf. cbn. intros x0 l0 [= <- <-]. apply (IH' _ _ _ E1). apply vacant_fresh.
    - apply (vacant_same q k d); [|exact V].
      destruct En as [[-> [e1 ->]]|[(i & y & l & G & N & -> & ->)|(w & c & _ & R & T & G & -> & ->)]].
      + now injection E as <- <-.
      + destruct (at_path U p g y) as [y' e'] eqn:E1. injection E as <- <-. unfold put_child. rewrite G. cbn. apply getf_other. congruence.
      + destruct (at_path U p g (DD c [])) as [y' e'] eqn:E1. injection E as <- <-. unfold put_child. cbn. rewrite getf_putf. cbn.
        rewrite getf_other by congruence. apply getf_other. congruence.
  Qed.
  Lemma exec_clear o p k : apart U o p k -> clear (exec U o) p k.
  Proof.
    destruct o as [p' key a|p' k']; cbn [apart exec]; intros H.
    - destruct H as [H1 H2]. apply at_path_clear; [exact H1|].
      intros q' Q d d' e E. apply vacant_same. apply (set_item_other d key a d' e); auto. intros k' B T.
      apply bare_name in B. destruct q' as [|s q']; cbn in T; subst.
      + apply (H2 k' [] B). now rewrite app_nil_r.
      + apply (H2 k' (q' ++ [k]) B). now rewrite <- app_assoc.
    - apply at_path_clear.
      + intros r A. apply (H (r ++ [k'])). rewrite A, <- app_assoc. reflexivity.
      + intros q' Q d d' e E V. unfold read_only in E. destruct (get_item U d k') as [d1 r] eqn:G. apply get_item_cases in G.
        destruct G as [[-> [e1 ->]]|[(f & x & l & K & R & Un & G & -> & ->)|(f & c & K & R & Un & T & G & -> & ->)]];
          injection E as <- <-; auto.
        destruct (list_eq_dec N.eq_dec k' (top q' k)) as [Eq|Ne]; [|apply (vacant_same q' k d); [cbn; apply getf_other; congruence|exact V]].
        destruct q' as [|s q']; cbn in Eq; subst.
        * destruct (H []). now rewrite app_nil_r.
        * apply vacant_below. cbn. rewrite getf_putf. intros x l [= <- <-]. apply vacant_fresh.
  Qed.
  Lemma runs_clear os p k : Forall (fun o => apart U o p k) os -> clear (runs U os) p k.
  Proof.
    induction 1 as [|o os H _ IH]; cbn [runs]; intros d d' e E V; [now injection E as <- <-|].
    destruct (exec U o d) as [d1 [e1|]] eqn:E1; [injection E as <- <-|]; apply (exec_clear o p k H) in E1; auto.
    apply (IH d1 d' e); auto.
  Qed.
  Lemma set_alone d key k a : bare key = Some k -> getf k (flds d) = None ->
    snd (set_item U d key a) = snd (set_item U (DD (cls d) []) key a).
  Proof.
    intros B G. unfold set_item. rewrite !set_item_many, B. cbn [DotDictModel.cls].
    destruct (getf k (valid U (cls d))) as [f|]; [|reflexivity].
    assert (H : forall l d1 d2, cls d1 = cls d2 -> getf k (flds d1) = getf k (flds d2) ->
              snd (set_many U (build U) k f d1 l) = snd (set_many U (build U) k f d2 l)); [|apply H; auto].
    clear. induction l as [|a l IH]; intros d1 d2 C E; cbn [set_many]; [reflexivity|]. unfold set_one. rewrite <- E.
    destruct (getf k (flds d1)) as [h|].
    - destruct (truthy U h && f_unique f)%bool; [reflexivity|]. destruct (f_type f) as [v|c]; destruct h as [v' st|l0]; try reflexivity.
      + destruct (vadd U v' st (arg_pyval U a)) as [st' [e'|]]; [reflexivity|]. apply IH; [exact C|]. cbn. now rewrite !getf_putf.
      + destruct (build U c a) as [x|e']; [|reflexivity]. apply IH; [exact C|]. cbn. now rewrite !getf_putf.
    - destruct (f_type f) as [v|c].
      + destruct (vadd U v None (arg_pyval U a)) as [st' [e'|]]; [reflexivity|]. apply IH; [exact C|]. cbn. now rewrite !getf_putf.
      + destruct (build U c a) as [x|e']; [|reflexivity]. apply IH; [exact C|]. cbn. now rewrite !getf_putf.
  Qed.
  Lemma exec_alone p : forall c' d key k a, deep U classed d -> leads_one U (cls d) p c' -> bare key = Some k -> vacant p k d ->
    snd (exec U (OSet U (map Attr p) key a) d) = snd (set_item U (DD c' []) key a).
  Proof.
    unfold exec. induction p as [|s p IH]; intros c' d key k a Hd L B V; inversion L as [|? ? f c1 ? ? R T Un N L']; subst; cbn [map at_path].
    - apply (set_alone d key k); auto. now apply vacant_here.
    - cbn [enter]. rewrite vacant_below in V. assert (I : classed d) by (apply Hd; constructor).
      unfold get_item. destruct (str_eqb s (lit "__name__")) eqn:K; [apply str_eqb_eq in K; congruence|].
      assert (R' := R). unfold row in R'. rewrite R'. destruct (getf s (flds d)) as [h|] eqn:G.
      + assert (Ty := classed_get d s h f I G R). unfold typed in Ty. rewrite T in Ty. destruct h as [v st|l]; [easy|].
        destruct Ty as [T1 T2]. rewrite Un. destruct l as [|x l]; [easy|].
        rewrite <- (IH c' x key k a); auto.
        * now destruct (at_path U (map Attr p) (fun x0 => set_item U x0 key a) x).
        * eapply child_classed; eauto. now left.
        * rewrite (T2 x); [exact L'|now left].
        * eapply V; eauto.
      + rewrite T, Un. rewrite <- (IH c' (DD c1 []) key k a); auto.
        * now destruct (at_path U (map Attr p) (fun x0 => set_item U x0 key a) (DD c1 [])).
        * apply fresh_classed.
        * apply vacant_fresh.
  Qed.

  (** * Several structures *)
  Lemma do_act_made roots a s s' e : well_made U roots s -> act_suits U roots a -> do_act U a s = (s', e) -> well_made U roots s'.
  Proof.
    intros W S. unfold do_act. destruct (getf (fst a) s) as [d|] eqn:G; [|now intros [= <- <-]].
    destruct (exec U (snd a) d) as [d' e'] eqn:E. intros [= <- <-] r x H. destruct (W _ _ G) as [W1 W2].
    destruct (exec_classed (snd a) d d' e') as [K1 K2]; auto; [now apply well_classed_deep|].
    destruct (list_eq_dec N.eq_dec r (fst a)) as [->|N].
    - rewrite getf_putf in H. injection H as <-. split; [now apply well_classed_deep|congruence].
    - rewrite getf_other in H by auto. now apply W.
  Qed.
  Lemma do_act_steady a s s' e r d p x : do_act U a s = (s', e) -> getf r s = Some d -> at_one p d x ->
    exists d' x', getf r s' = Some d' /\ at_one p d' x' /\ kept x x'.
  Proof.
    unfold do_act. intros E G A. destruct (getf (fst a) s) as [d0|] eqn:G0.
    - destruct (exec U (snd a) d0) as [d1 e1] eqn:E1. injection E as <- <-.
      destruct (list_eq_dec N.eq_dec r (fst a)) as [->|N].
      + rewrite getf_putf. assert (d0 = d) by congruence. subst. destruct (exec_steady _ _ _ _ E1 p x A) as (x' & A' & K). eauto.
      + rewrite getf_other by auto. exists d, x. auto using kept_refl.
    - injection E as <- <-. exists d, x. auto using kept_refl.
  Qed.
  (** the place is taken *)
  Definition taken (t : place) (s : whole U) : Prop :=
    exists d h, getf (p_root t) s = Some d /\ holds U (p_path t) (p_field t) d h /\ truthy U h = true.
  Lemma do_act_taken a s s' e t : do_act U a s = (s', e) -> taken t s -> taken t s'.
  Proof.
    intros E (d & h & G & H & T). apply holds_at in H. destruct H as (x & A & B).
    destruct (do_act_steady _ _ _ _ _ _ _ _ E G A) as (d' & x' & G' & A' & K). destruct K as (_ & K & _).
    destruct (K _ _ B T) as (h' & B' & T'). exists d', h'. split; [exact G'|]. split; [|exact T']. apply holds_at. eauto.
  Qed.
  Lemma names_self k : names k k -> bare k = Some k.
  Proof. apply bare_name. Qed.
  Lemma do_act_takes t a s s' : names (p_field t) (p_field t) -> a <> AList U [] -> do_act U (set_place U t a) s = (s', None) -> taken t s'.
  Proof.
    intros Nm A. unfold do_act, set_place. cbn [fst snd]. destruct (getf (p_root t) s) as [d|] eqn:G; [|discriminate].
    destruct (exec U _ d) as [d' e'] eqn:E. intros [= <- ->].
    destruct (assign_stored (p_path t) d (p_field t) (p_field t) a d' (names_self _ Nm) A E) as (h & H & T).
    exists d', h. rewrite getf_putf. auto.
  Qed.
  Lemma do_act_refused roots t c a s : well_made U roots s -> single U roots t c -> taken t s -> a <> AList U [] ->
    do_act U (set_place U t a) s = (s, Some ValueError).
  Proof.
    intros W (Nm & c0 & f & R0 & L & R & Un) (d & h & G & H & T) A. unfold do_act, set_place. cbn [fst snd]. rewrite G.
    destruct (W _ _ G) as [W1 W2]. assert (c0 = cls d) by congruence. subst c0.
    rewrite (full_rejects d (p_path t) c (p_field t) (p_field t) f a h); auto; [|now apply well_classed_deep|now apply names_self].
    now rewrite putf_same.
  Qed.
  Lemma do_acts_app l1 l2 s : do_acts U (l1 ++ l2) s = match do_acts U l1 s with (s', None) => do_acts U l2 s' | r => r end.
  Proof.
    revert s. induction l1 as [|a l1 IH]; intros s; cbn [do_acts app]; [reflexivity|].
    destruct (do_act U a s) as [s' [e|]]; [reflexivity|apply IH].
  Qed.
  Lemma do_acts_made roots l : Forall (act_suits U roots) l -> forall s s' e, well_made U roots s -> do_acts U l s = (s', e) -> well_made U roots s'.
  Proof.
    induction 1 as [|a l S _ IH]; cbn [do_acts]; intros s s' e W; [now intros [= <- <-]|].
    destruct (do_act U a s) as [s1 [e1|]] eqn:E; apply (do_act_made roots) in E; auto; [now intros [= <- <-]|]. now apply IH.
  Qed.
  Lemma do_acts_taken t l : forall s s' e, taken t s -> do_acts U l s = (s', e) -> taken t s'.
  Proof.
    induction l as [|a l IH]; cbn [do_acts]; intros s s' e T; [now intros [= <- <-]|].
    destruct (do_act U a s) as [s1 [e1|]] eqn:E; apply (do_act_taken _ _ _ _ t) in E; auto; [now intros [= <- <-]|]. now apply IH.
  Qed.
  Lemma do_acts_takes t a l s s' : names (p_field t) (p_field t) -> a <> AList U [] -> In (set_place U t a) l ->
    do_acts U l s = (s', None) -> taken t s'.
  Proof.
    intros Nm A I E. apply in_split in I. destruct I as (l1 & l2 & ->). rewrite do_acts_app in E. cbn [do_acts] in E.
    destruct (do_acts U l1 s) as [s1 [e1|]]; [discriminate|]. destruct (do_act U (set_place U t a) s1) as [s2 [e2|]] eqn:E2; [discriminate|].
    apply do_act_takes in E2; auto. eapply do_acts_taken; eauto.
  Qed.
  Lemma do_acts_refused roots t c a l s s' : well_made U roots s -> Forall (act_suits U roots) l -> single U roots t c -> taken t s ->
    a <> AList U [] -> In (set_place U t a) l -> do_acts U l s <> (s', None).
  Proof.
    intros W F Sg T A I E. apply in_split in I. destruct I as (l1 & l2 & ->). rewrite do_acts_app in E. cbn [do_acts] in E.
    destruct (do_acts U l1 s) as [s1 [e1|]] eqn:E1; [discriminate|].
    apply Forall_app in F. destruct F as [F1 F2].
    rewrite (do_act_refused roots t c a s1) in E; auto; [discriminate|exact (do_acts_made roots l1 F1 s s1 None W E1)|exact (do_acts_taken t l1 s s1 None T E1)].
  Qed.

  (** * Conversions *)
  Section Converting.
    Context (roots : list (pystr * nat)) (fine : pystr -> act U -> Prop).
    Hypothesis fine_suits : forall k a, fine k a -> act_suits U roots a.
    Lemma all_suit k l : Forall (fine k) l -> Forall (act_suits U roots) l.
    Proof. apply Forall_impl. apply fine_suits. Qed.
    Lemma converts_made r s s' : converts U fine r s s' -> well_made U roots s -> well_made U roots s'.
    Proof.
      induction 1 as [s|k x r l s s1 s2 Hd F E C IH]; intros W; [exact W|]. apply IH.
      exact (do_acts_made roots l (all_suit k l F) s s1 None W E).
    Qed.
    Lemma converts_taken t r s s' : converts U fine r s s' -> taken t s -> taken t s'.
    Proof.
      induction 1 as [s|k x r l s s1 s2 Hd F E C IH]; intros T; [exact T|]. apply IH. eapply do_acts_taken; eauto.
    Qed.
    Lemma converts_app r1 r2 s s' : converts U fine (r1 ++ r2) s s' -> exists s1, converts U fine r1 s s1 /\ converts U fine r2 s1 s'.
    Proof.
      revert s. induction r1 as [|[k x] r1 IH]; intros s C; [exists s; split; [constructor|exact C]|].
      cbn [app] in C. inversion C as [|? ? ? l ? s1 ? Hd F E C']; subst. destruct (IH s1 C') as (s2 & C1 & C2).
      exists s2. split; [|exact C2]. econstructor; eauto.
    Qed.
    Lemma never_twice t c r1 k1 x1 r2 k2 x2 r3 s s' :
      single U roots t c -> In t (places k1) -> In t (places k2) -> well_made U roots s ->
      ~ converts U fine (r1 ++ (k1, x1) :: r2 ++ (k2, x2) :: r3) s s'.
    Proof.
      intros Sg P1 P2 W C. apply converts_app in C. destruct C as (s1 & C1 & C). apply converts_made in C1; auto.
      inversion C as [|? ? ? l1 ? s2 ? Hd1 F1 E1 C']; subst. destruct (Hd1 t P1) as (a1 & A1 & I1).
      assert (T2 : taken t s2) by (eapply do_acts_takes; eauto; exact (proj1 Sg)).
      assert (W2 : well_made U roots s2) by exact (do_acts_made roots l1 (all_suit _ l1 F1) s1 s2 None C1 E1).
      apply converts_app in C'. destruct C' as (s3 & C3 & C'). assert (T3 := converts_taken t _ _ _ C3 T2).
      assert (W3 := converts_made _ _ _ C3 W2).
      inversion C' as [|? ? ? l2 ? s4 ? Hd2 F2 E2 C'']; subst. destruct (Hd2 t P2) as (a2 & A2 & I2).
      exact (do_acts_refused roots t c a2 l2 s3 s4 W3 (all_suit _ l2 F2) Sg T3 A2 I2 E2).
    Qed.
  End Converting.
  (** the place is free *)
  Definition free (t : place) (s : whole U) : Prop := forall d, getf (p_root t) s = Some d -> vacant (p_path t) (p_field t) d.
  Lemma do_act_free a s s' e t : act_apart U a t -> do_act U a s = (s', e) -> free t s -> free t s'.
  Proof.
    intros Ap. unfold do_act. destruct (getf (fst a) s) as [d|] eqn:G; [|now intros [= <- <-]].
    destruct (exec U (snd a) d) as [d1 e1] eqn:E. intros [= <- <-] F x H.
    destruct (list_eq_dec N.eq_dec (p_root t) (fst a)) as [Eq|N].
    - rewrite Eq, getf_putf in H. injection H as <-. destruct Ap as [Ap|Ap]; [congruence|].
      apply (exec_clear _ _ _ Ap _ _ _ E). apply F. congruence.
    - rewrite getf_other in H by auto. now apply F.
  Qed.
  Lemma do_acts_free l t : Forall (fun a => act_apart U a t) l -> forall s s' e, do_acts U l s = (s', e) -> free t s -> free t s'.
  Proof.
    induction 1 as [|a l A _ IH]; cbn [do_acts]; intros s s' e; [now intros [= <- <-]|].
    destruct (do_act U a s) as [s1 [e1|]] eqn:E; [intros [= <- <-]|intros E2 F]; [eapply do_act_free; eauto|].
    eapply IH; eauto. eapply do_act_free; eauto.
  Qed.
  Lemma do_act_alone roots t c a s d : well_made U roots s -> single U roots t c -> getf (p_root t) s = Some d -> free t s ->
    snd (do_act U (set_place U t a) s) = snd (set_item U (DD c []) (p_field t) a).
  Proof.
    intros W (Nm & c0 & f & R0 & L & R & Un) G F. unfold do_act, set_place. cbn [fst snd]. rewrite G.
    destruct (W _ _ G) as [W1 W2]. assert (c0 = cls d) by congruence. subst c0.
    rewrite <- (exec_alone (p_path t) c d (p_field t) (p_field t) a); auto;
      [|now apply well_classed_deep|now apply names_self].
    now destruct (exec U (OSet U (map Attr (p_path t)) (p_field t) a) d).
  Qed.
  Lemma new_made roots : well_made U roots (new_whole U roots) /\ forall t, free t (new_whole U roots).
  Proof.
    assert (H : forall r d, getf r (new_whole U roots) = Some d -> exists c, d = DD c [] /\ getf r roots = Some c).
    { unfold new_whole. intros r d. induction roots as [|[n c] l IH]; cbn [map getf fst snd]; [discriminate|].
      destruct (str_eqb n r); [|exact IH]. intros [= <-]. eauto. }
    split.
    - intros r d G. destruct (H r d G) as (c & -> & G'). split; [apply well_classed_deep, fresh_classed|exact G'].
    - intros t d G. destruct (H _ d G) as (c & -> & _). apply vacant_fresh.
  Qed.
End Facts.

(** * Parts that occur together *)
Lemma given_reports keys e p : given e p -> forall pre, In (pre ++ p) keys ->
  exists v, In (pre ++ p, v) (reports keys (pre ++ lit "/" ++ local (etag e)) e).
Proof.
  induction 1 as [e n Hn|e n a v Hn I|t a x l es n k p Hn I G IH]; intros pre K.
  - rewrite (name_local _ _ Hn). eexists. now apply reports_self.
  - rewrite (name_local _ _ Hn). exists (VStr v). destruct e as [t a0 x l es]. cbn [reports]. apply in_or_app. right.
    unfold due. apply in_or_app. right. cbn [fst snd eattrib] in *. apply in_flat_map. exists (a, v). split; [exact I|]. cbn [fst snd].
    rewrite <- !app_assoc. destruct (in_dec _ _ _) as [J|J]; [now left|]. destruct J. exact K.
  - cbn [etag]. rewrite (name_local _ _ Hn). destruct (IH (pre ++ lit "/" ++ n)) as [v Hv].
    { rewrite <- !app_assoc. exact K. }
    exists v. cbn [reports]. apply in_or_app. left. apply in_flat_map. exists k. split; [exact I|]. rewrite <- !app_assoc in *. exact Hv.
Qed.
Definition in_order (p q : pystr) (r : list (pystr * pyval)) : Prop := exists a v b w c, r = a ++ (p, v) :: b ++ (q, w) :: c.
Lemma in_order_app p q r1 r2 r3 : in_order p q r2 -> in_order p q (r1 ++ r2 ++ r3).
Proof. intros (a & v & b & w & c & ->). exists (r1 ++ a), v, b, w, (c ++ r3). rewrite <- !app_assoc. cbn. rewrite <- !app_assoc. reflexivity. Qed.
Lemma in_order_two p q v w a a1 a2 b b1 b2 c d : in_order p q (a ++ a1 ++ ((p, v) :: a2) ++ b ++ b1 ++ ((q, w) :: b2) ++ c ++ d).
Proof.
  exists (a ++ a1), v, (a2 ++ b ++ b1), w, (b2 ++ c ++ d). repeat (rewrite <- !app_assoc; cbn [app]). reflexivity.
Qed.
Lemma both_reports keys e p q : both e p q -> forall pre, In (pre ++ p) keys -> In (pre ++ q) keys ->
  in_order (pre ++ p) (pre ++ q) (reports keys (pre ++ lit "/" ++ local (etag e)) e) \/
  in_order (pre ++ q) (pre ++ p) (reports keys (pre ++ lit "/" ++ local (etag e)) e).
Proof.
  induction 1 as [t a x l es es1 k1 es2 k2 es3 n p q Hn -> G1 G2|t a x l es n k p q Hn I B IH|e p q B IH]; intros pre K1 K2.
  - left. cbn [etag]. rewrite (name_local _ _ Hn).
    destruct (given_reports keys k1 p G1 (pre ++ lit "/" ++ n)) as [v Hv]; [rewrite <- !app_assoc; exact K1|].
    destruct (given_reports keys k2 q G2 (pre ++ lit "/" ++ n)) as [w Hw]; [rewrite <- !app_assoc; exact K2|].
    apply in_split in Hv. destruct Hv as (a1 & a2 & Ev). apply in_split in Hw. destruct Hw as (b1 & b2 & Ew).
    cbn [reports]. rewrite flat_map_app. cbn [flat_map]. rewrite flat_map_app. cbn [flat_map]. rewrite Ev, Ew.
    rewrite <- !app_assoc in *. apply in_order_two.
  - cbn [etag]. rewrite (name_local _ _ Hn).
    assert (Z : forall p q, in_order p q (reports keys ((pre ++ lit "/" ++ n) ++ lit "/" ++ local (etag k)) k) ->
              in_order p q (reports keys (pre ++ lit "/" ++ n) (Elem t a x l es))).
    { intros p0 q0 O. apply in_split in I. destruct I as (e1 & e2 & ->). cbn [reports]. rewrite flat_map_app. cbn [flat_map].
      rewrite <- !app_assoc in *. apply in_order_app. exact O. }
    destruct (IH (pre ++ lit "/" ++ n)) as [O|O]; try (rewrite <- !app_assoc; assumption).
    + left. apply Z in O. rewrite <- !app_assoc in *. exact O.
    + right. apply Z in O. rewrite <- !app_assoc in *. exact O.
  - destruct (IH pre K2 K1); auto.
Qed.
Lemma both_read keys e p q : proper e -> both e p q -> In p keys -> In q keys -> in_order p q (read keys e) \/ in_order q p (read keys e).
Proof. intros P B K1 K2. rewrite (read_reports keys e P). exact (both_reports keys e p q B [] K1 K2). Qed.

(** * The places of the table in the schemas *)
From Verif Require Import ValidatorsModel SchemaModel SchemaTables.
Definition name_okb (k : pystr) : bool := match bare k with Some k' => str_eqb k' k | None => false end.
Fixpoint follow (c : nat) (p : list pystr) : option nat :=
  match p with
  | [] => Some c
  | s :: p' =>
      match getf s (schema c) with
      | None => None
      | Some f =>
          match f_type f with
          | TVal _ => None
          | TSub c1 => if (f_unique f && negb (str_eqb s (lit "__name__")))%bool then follow c1 p' else None
          end
      end
  end.
Definition place_class (roots : list (pystr * nat)) (t : place) : option nat :=
  match getf (p_root t) roots with
  | None => None
  | Some c0 =>
      match follow c0 (p_path t) with
      | None => None
      | Some c =>
          match getf (p_field t) (schema c) with
          | None => None
          | Some f => if (f_unique f && name_okb (p_field t))%bool then Some c else None
          end
      end
  end.
Definition found (roots : list (pystr * nat)) (t : place) : bool := match place_class roots t with Some _ => true | None => false end.
Definition all_found (roots : list (pystr * nat)) : bool := forallb (fun kt => forallb (found roots) (snd kt)) assigns.
Lemma follow_leads E p : forall c c', follow c p = Some c' -> leads_one (lavoisier E) c p c'.
Proof.
  induction p as [|s p IH]; intros c c' F; cbn [follow] in F.
  - injection F as <-. constructor.
  - destruct (getf s (schema c)) as [f|] eqn:G; [|discriminate]. destruct (f_type f) as [v|c1] eqn:T; [discriminate|].
    destruct (f_unique f) eqn:Un; cbn [andb] in F; [|discriminate].
    destruct (str_eqb s (lit "__name__")) eqn:N; cbn [negb] in F; [discriminate|].
    econstructor; eauto. intros ->. rewrite str_eqb_refl in N. discriminate.
Qed.
Lemma place_class_single E roots t c : place_class roots t = Some c -> single (lavoisier E) roots t c.
Proof.
  unfold place_class. destruct (getf (p_root t) roots) as [c0|] eqn:G0; [|discriminate].
  destruct (follow c0 (p_path t)) as [c1|] eqn:F; [|discriminate].
  destruct (getf (p_field t) (schema c1)) as [f|] eqn:G; [|discriminate].
  destruct (f_unique f) eqn:Un; cbn [andb]; [|discriminate]. unfold name_okb.
  destruct (bare (p_field t)) as [k|] eqn:B; [|discriminate]. destruct (str_eqb k (p_field t)) eqn:K; [|discriminate].
  intros [= <-]. apply str_eqb_eq in K. subst. split; [now apply bare_name|]. exists c0, f. split; [exact G0|].
  split; [now apply follow_leads|]. split; [exact G|exact Un].
Qed.
Lemma places_listed k t : In t (places k) -> exists l, In (k, l) assigns /\ In t l.
Proof.
  unfold places. destruct (getf k assigns) as [l|] eqn:G; [|easy]. intros I. exists l. split; [|exact I]. now apply getf_In.
Qed.
Lemma found_single E roots k t : all_found roots = true -> In t (places k) -> exists c, single (lavoisier E) roots t c.
Proof.
  intros A I. destruct (places_listed k t I) as (l & J & K). unfold all_found in A. rewrite forallb_forall in A.
  specialize (A _ J). rewrite forallb_forall in A. specialize (A _ K). unfold found in A.
  destruct (place_class roots t) as [c|] eqn:P; [|discriminate]. exists c. now apply place_class_single.
Qed.
Lemma ilcd_found : all_found ilcd_roots = true.
Proof. vm_compute. reflexivity. Qed.
Lemma olca_found : all_found olca_roots = true.
Proof. vm_compute. reflexivity. Qed.
