(** Proofs about the schema-driven structure. *)
From Coq Require Import Ascii String List Bool Arith NArith ZArith Lia Sorting.Sorted Sorting.Permutation.
From Verif Require Import PyBase PyBaseFacts PyValues ValidatorsModel DotDictModel DotDictSpec.
Import ListNotations.

(** * Association lists *)
Section AssocFacts.
  Context {A : Type}.
  Implicit Types (l : list (pystr * A)).
  Lemma getf_In k l a : getf k l = Some a -> In (k, a) l.
  Proof.
    induction l as [|[k' b] l IH]; simpl; [discriminate|].
    destruct (str_eqb k' k) eqn:E.
    - apply str_eqb_eq in E. subst. intros [= ->]. auto.
    - auto.
  Qed.
  Lemma getf_None k l : getf k l = None <-> ~ In k (map fst l).
  Proof.
    induction l as [|[k' b] l IH]; simpl; [tauto|].
    destruct (str_eqb k' k) eqn:E.
    - apply str_eqb_eq in E. subst. split; [discriminate|]. intros H; exfalso; apply H; auto.
    - rewrite IH. split.
      + intros H [F|F]; [|auto]. subst. rewrite str_eqb_refl in E. discriminate.
      + intros H F. apply H; auto.
  Qed.
  Lemma getf_Some k l : In k (map fst l) -> exists a, getf k l = Some a.
  Proof.
    intros H. destruct (getf k l) eqn:E; [eauto|]. apply getf_None in E. contradiction.
  Qed.
  Lemma In_getf k a l : NoDup (map fst l) -> In (k, a) l -> getf k l = Some a.
  Proof.
    induction l as [|[k' b] l IH]; simpl; [tauto|]. intros N [E|E].
    - inversion E; subst. now rewrite str_eqb_refl.
    - inversion N; subst. destruct (str_eqb k' k) eqn:F; [|auto].
      apply str_eqb_eq in F. subst. exfalso. apply H1. now apply (in_map fst) in E.
  Qed.
  Lemma putf_keys k a l : map fst (putf k a l) = if existsb (fun x => str_eqb x k) (map fst l) then map fst l else map fst l ++ [k].
  Proof.
    induction l as [|[k' b] l IH]; simpl; auto.
    destruct (str_eqb k' k) eqn:E; simpl; auto. rewrite IH. now destruct existsb.
  Qed.
  Lemma existsb_key k (l : list pystr) : existsb (fun x => str_eqb x k) l = true <-> In k l.
  Proof.
    rewrite existsb_exists. split.
    - intros (x & H & E). apply str_eqb_eq in E. now subst.
    - intros H. exists k. split; auto. apply str_eqb_refl.
  Qed.
  Lemma putf_present k a l : In k (map fst l) -> map fst (putf k a l) = map fst l.
  Proof. intros H. rewrite putf_keys. now rewrite (proj2 (existsb_key k (map fst l)) H). Qed.
  Lemma putf_absent k a l : ~ In k (map fst l) -> putf k a l = l ++ [(k, a)].
  Proof.
    induction l as [|[k' b] l IH]; simpl; auto. intros H.
    destruct (str_eqb k' k) eqn:E.
    - apply str_eqb_eq in E. subst. exfalso; auto.
    - rewrite IH; auto.
  Qed.
  Lemma NoDup_snoc (l : list pystr) k : NoDup l -> ~ In k l -> NoDup (l ++ [k]).
  Proof.
    induction l as [|x l IH]; simpl; intros N H.
    - constructor; auto.
    - inversion N; subst. constructor.
      + rewrite in_app_iff. simpl. intros [F|[F|[]]]; auto.
      + apply IH; auto.
  Qed.
  Lemma putf_NoDup k a l : NoDup (map fst l) -> NoDup (map fst (putf k a l)).
  Proof.
    intros N. rewrite putf_keys. destruct existsb eqn:E; auto.
    apply NoDup_snoc; auto. intros F. apply existsb_key in F. congruence.
  Qed.
  Lemma In_putf k a l k' b : In (k', b) (putf k a l) -> (k' = k /\ b = a) \/ In (k', b) l.
  Proof.
    induction l as [|[k0 b0] l IH]; simpl.
    - intros [E|[]]. inversion E; auto.
    - destruct (str_eqb k0 k) eqn:F; simpl.
      + apply str_eqb_eq in F. subst. intros [E|E]; [inversion E; auto|auto].
      + intros [E|E]; auto. destruct (IH E); auto.
  Qed.
  Lemma In_putf_other k a l k' b : k' <> k -> (In (k', b) (putf k a l) <-> In (k', b) l).
  Proof.
    intros D. induction l as [|[k0 b0] l IH]; simpl.
    - split; [|tauto]. intros [E|[]]. inversion E; congruence.
    - destruct (str_eqb k0 k) eqn:F; simpl.
      + apply str_eqb_eq in F. subst. split; intros [E|E]; auto; inversion E; congruence.
      + rewrite IH. tauto.
  Qed.
  Lemma In_putf_same k a l : In (k, a) (putf k a l).
  Proof.
    induction l as [|[k0 b0] l IH]; simpl; auto.
    destruct (str_eqb k0 k) eqn:F; simpl; auto.
    apply str_eqb_eq in F. subst. auto.
  Qed.
  Lemma putf_same k a l : getf k l = Some a -> putf k a l = l.
  Proof.
    induction l as [|[k0 b0] l IH]; simpl; [discriminate|].
    destruct (str_eqb k0 k) eqn:F.
    - intros [= ->]. reflexivity.
    - intros H. now rewrite IH.
  Qed.
  Lemma getf_putf k a l : getf k (putf k a l) = Some a.
  Proof.
    induction l as [|[k0 b0] l IH]; simpl; [now rewrite str_eqb_refl|].
    destruct (str_eqb k0 k) eqn:F; simpl; now rewrite F.
  Qed.
  Lemma putf_putf k a b l : putf k a (putf k b l) = putf k a l.
  Proof.
    induction l as [|[k0 b0] l IH]; simpl; [now rewrite str_eqb_refl|].
    destruct (str_eqb k0 k) eqn:F; simpl; rewrite F; congruence.
  Qed.
  Lemma putf_app_last k a l : ~ In k (map fst l) -> forall b, putf k a (l ++ [(k, b)]) = l ++ [(k, a)].
  Proof.
    induction l as [|[k0 b0] l IH]; simpl; intros H b.
    - now rewrite str_eqb_refl.
    - destruct (str_eqb k0 k) eqn:E.
      + apply str_eqb_eq in E. subst. exfalso; auto.
      + rewrite IH; auto.
  Qed.
End AssocFacts.

Section MapRFacts.
  Context {A B : Type} (f : A -> result B).
  Lemma mapR_ok l ys : mapR f l = Ok ys <-> Forall2 (fun x y => f x = Ok y) l ys.
  Proof.
    revert ys. induction l as [|x l IH]; simpl; intros ys.
    - split; [intros [= <-]; constructor | intros H; inversion H; auto].
    - unfold bind. destruct (f x) eqn:E.
      + destruct (mapR f l) eqn:F.
        * split.
          -- intros [= <-]. constructor; auto. now apply IH.
          -- intros H; inversion H; subst. apply IH in H4. congruence.
        * split; [discriminate|]. intros H; inversion H; subst. apply IH in H4. congruence.
      + split; [discriminate|]. intros H; inversion H; subst. congruence.
  Qed.
  Lemma mapR_all l : (forall x, In x l -> exists y, f x = Ok y) -> exists ys, mapR f l = Ok ys.
  Proof.
    induction l as [|x l IH]; simpl; intros H; [eauto|].
    destruct (H x) as [y Hy]; auto. rewrite Hy. simpl.
    destruct IH as [ys Hys]; auto. rewrite Hys. simpl. eauto.
  Qed.
End MapRFacts.

(** * Structures *)
Section Facts.
  Context (U : universe).
  Notation dd := (dd U). Notation held := (held U). Notation arg := (arg U).
  Notation DD := (DD U). Notation HV := (HV U). Notation HL := (HL U).
  Notation cls := (cls U). Notation flds := (flds U).
  Notation part := (part U). Notation produced := (produced U).
  Notation build := (build U). Notation valid := (valid U).

  Section ArgInd.
    Context (P : arg -> Prop).
    Hypothesis h1 : P (ANone U).
    Hypothesis h2 : forall s, P (AScalar U s).
    Hypothesis h3 : forall l, Forall (fun kv => P (snd kv)) l -> P (ADict U l).
    Hypothesis h4 : forall l, Forall P l -> P (AList U l).
    Hypothesis h5 : forall d, P (AStruct U d).
    Fixpoint arg_ind2 (a : arg) : P a :=
      match a with
      | ANone _ => h1
      | AScalar _ s => h2 s
      | ADict _ l => h3 l ((fix go l : Forall (fun kv => P (snd kv)) l :=
                              match l with
                              | [] => Forall_nil _
                              | kv :: l' => Forall_cons kv (arg_ind2 (snd kv)) (go l')
                              end) l)
      | AList _ l => h4 l ((fix go l : Forall P l :=
                              match l with
                              | [] => Forall_nil _
                              | x :: l' => Forall_cons x (arg_ind2 x) (go l')
                              end) l)
      | AStruct _ d => h5 d
      end.
  End ArgInd.

  Section DdInd.
    Context (P : dd -> Prop).
    Hypothesis h : forall c fs, (forall k l x, In (k, HL l) fs -> In x l -> P x) -> P (DD c fs).
    Fixpoint dd_ind2 (d : dd) : P d :=
      match d with
      | DotDictModel.DD _ c fs =>
          h c fs ((fix go (fs : list (pystr * held)) : forall k l x, In (k, HL l) fs -> In x l -> P x :=
                     match fs with
                     | [] => fun k l x H _ => match H with end
                     | (k0, h0) :: fs' => fun k l x H Hx =>
                         match H with
                         | or_introl E =>
                             (match h0 as h0' return (k0, h0') = (k, HL l) -> P x with
                              | DotDictModel.HV _ _ _ => fun E => False_ind _ (eq_ind (k0, HV _ _) (fun p => match snd p with DotDictModel.HV _ _ _ => True | _ => False end) I _ E)
                              | DotDictModel.HL _ l0 => fun E =>
                                  (fix go2 (l0 : list dd) : In x l0 -> P x :=
                                     match l0 with
                                     | [] => fun H => match H with end
                                     | y :: l0' => fun H => match H with
                                                            | or_introl E => eq_ind y P (dd_ind2 y) x E
                                                            | or_intror H => go2 l0' H
                                                            end
                                     end) l0 (eq_ind_r (fun l1 => In x l1) Hx (f_equal (fun p => match snd p with DotDictModel.HL _ l1 => l1 | _ => l end) E))
                              end) E
                         | or_intror H' => go fs' k l x H' Hx
                         end
                     end) fs)
      end.
  End DdInd.

  (** Invariant of one structure. *)
  Definition fits (f : field (vclass U)) (h : held) : Prop :=
    match f_type f, h with
    | TVal v, DotDictModel.HV _ v' st => v' = v /\ exists vs, added U v vs st /\ (f_unique f = true -> length vs = 1)
    | TSub _, DotDictModel.HL _ l => l <> [] /\ (f_unique f = true -> length l = 1)
    | _, _ => False
    end.
  Definition inv (d : dd) : Prop :=
    NoDup (map fst (flds d)) /\
    forall k h, In (k, h) (flds d) -> exists f, row U (cls d) k f /\ fits f h.
  Definition deep (P : dd -> Prop) (d : dd) : Prop := forall x, part d x -> P x.

  Lemma deep_split P d : deep P d <-> P d /\ forall k l x, In (k, HL l) (flds d) -> In x l -> deep P x.
  Proof.
    split.
    - intros H. split; [apply H; constructor|]. intros k l x H1 H2 y Hy. apply H. econstructor; eauto.
    - intros [H1 H2] x Hx. inversion Hx; subst; auto. eapply H2; eauto.
  Qed.

  Lemma deep_put P c fs k h :
    deep P (DD c fs) -> P (DD c (putf k h fs)) ->
    (forall l x, h = HL l -> In x l -> deep P x) ->
    deep P (DD c (putf k h fs)).
  Proof.
    intros H1 H2 H3. apply deep_split. split; auto. simpl. intros k' l x Hin Hx.
    apply In_putf in Hin. destruct Hin as [[-> <-]|Hin]; [eauto|].
    apply deep_split in H1. destruct H1 as [_ H1]. eauto.
  Qed.

  Lemma fresh_inv c : inv (DD c []).
  Proof. split; simpl; [constructor|tauto]. Qed.
  Lemma fresh_deep c : deep inv (DD c []).
  Proof. apply deep_split. split; [apply fresh_inv|simpl; tauto]. Qed.

  Lemma added_snoc v vs st x : added U v vs st -> added U v (vs ++ [x]) (fst (vadd U v st x)).
  Proof.
    intros (a & rest & -> & H1 & ->). exists a, (rest ++ [x]). split; [reflexivity|]. split; auto.
    now rewrite fold_left_app.
  Qed.

  Lemma inv_get d k h f : inv d -> getf k (flds d) = Some h -> row U (cls d) k f -> fits f h.
  Proof.
    intros [_ H] E R. apply getf_In in E. destruct (H _ _ E) as (f' & R' & F).
    unfold row in *. congruence.
  Qed.

  Lemma inv_put d k h f :
    inv d -> row U (cls d) k f -> fits f h -> inv (DD (cls d) (putf k h (flds d))).
  Proof.
    intros [H1 H2] R F. split; simpl.
    - now apply putf_NoDup.
    - intros k' h' Hin. apply In_putf in Hin. destruct Hin as [[-> ->]|Hin]; eauto.
  Qed.

  Lemma eta d : d = DD (cls d) (flds d).
  Proof. now destruct d. Qed.

  Lemma set_one_deep bld k f d a d' e :
    deep inv d -> row U (cls d) k f ->
    (forall c x, bld c a = Ok x -> deep inv x) ->
    set_one U bld k f d a = (d', e) -> deep inv d' /\ cls d' = cls d.
  Proof.
    intros Hd R Hb. unfold set_one.
    assert (I : inv d) by (apply Hd; constructor).
    assert (Hd' : deep inv (DD (cls d) (flds d))) by (rewrite <- eta; auto).
    destruct (getf k (flds d)) as [h|] eqn:G.
    - pose proof (inv_get _ _ _ _ I G R) as F.
      destruct (truthy U h && f_unique f)%bool eqn:T; [intros [= <- <-]; auto|].
      unfold fits in F. destruct (f_type f) as [v|c] eqn:Ty; destruct h as [v' st|l].
      + destruct F as [-> (vs & A & Hu)].
        destruct (vadd U v st (arg_pyval U a)) as [st' e'] eqn:Ad. intros [= <- <-].
        split; auto. apply deep_put; auto; [|intros ? ? [=]].
        apply (inv_put d k _ f); auto. unfold fits. rewrite Ty. split; auto.
        exists (vs ++ [arg_pyval U a]). split.
        * apply added_snoc with (x := arg_pyval U a) in A. now rewrite Ad in A.
        * simpl in T. rewrite T. discriminate.
      + intros [= <- <-]; auto.
      + intros [= <- <-]; auto.
      + destruct F as [Hl Hu]. destruct (bld c a) as [x|e'] eqn:B; [|intros [= <- <-]; auto].
        intros [= <- <-]. split; auto. apply deep_put; auto.
        * apply (inv_put d k _ f); auto. unfold fits. rewrite Ty. split.
          -- destruct l; discriminate.
          -- destruct l; [congruence|]. simpl in T. rewrite T. discriminate.
        * intros l0 x0 [= <-] Hin. apply in_app_iff in Hin. destruct Hin as [Hin|[<-|[]]].
          -- apply deep_split in Hd. destruct Hd as [_ Hd]. apply getf_In in G. eauto.
          -- eauto.
    - destruct (f_type f) as [v|c] eqn:Ty.
      + destruct (vadd U v None (arg_pyval U a)) as [st' [e'|]] eqn:Ad; intros [= <- <-]; auto.
        split; auto. apply deep_put; auto; [|intros ? ? [=]].
        apply (inv_put d k _ f); auto. unfold fits. rewrite Ty. split; auto.
        exists [arg_pyval U a]. split; auto. exists (arg_pyval U a), []. rewrite Ad. simpl. auto.
      + destruct (bld c a) as [x|e'] eqn:B; intros [= <- <-]; auto.
        split; auto. apply deep_put; auto.
        * apply (inv_put d k _ f); auto. unfold fits. rewrite Ty. split; [discriminate|auto].
        * intros l0 x0 [= <-] [<-|[]]. eauto.
  Qed.

  Lemma set_many_deep bld k f l : forall d d' e,
    deep inv d -> row U (cls d) k f ->
    Forall (fun a => forall c x, bld c a = Ok x -> deep inv x) l ->
    set_many U bld k f d l = (d', e) -> deep inv d' /\ cls d' = cls d.
  Proof.
    induction l as [|a l IH]; simpl; intros d d' e Hd R Hb.
    - intros [= <- <-]; auto.
    - inversion Hb; subst.
      destruct (set_one U bld k f d a) as [d1 [e1|]] eqn:E.
      + intros [= <- <-]. eapply set_one_deep; eauto.
      + intros E2. destruct (set_one_deep _ _ _ _ _ _ _ Hd R H1 E) as [Hd1 C].
        apply IH in E2; auto; [destruct E2; split; auto; congruence|]. now rewrite C.
  Qed.

  Definition parts_of (a : arg) : list arg := match a with AList _ l => l | _ => [a] end.

  Lemma set_item_many bld d key a :
    set_item_with U bld d key a =
      match bare key with
      | None => (d, Some IndexError)
      | Some k => match getf k (valid (cls d)) with
                  | None => (d, Some AttributeError)
                  | Some f => set_many U bld k f d (parts_of a)
                  end
      end.
  Proof.
    unfold set_item_with. destruct bare; auto. destruct getf; auto.
    destruct a; simpl; auto; destruct set_one as [? [?|]]; auto.
  Qed.

  Lemma set_item_deep bld d key a d' e :
    deep inv d ->
    Forall (fun x => forall c y, bld c x = Ok y -> deep inv y) (parts_of a) ->
    set_item_with U bld d key a = (d', e) -> deep inv d' /\ cls d' = cls d.
  Proof.
    intros Hd Hb. rewrite set_item_many.
    destruct bare as [k|]; [|intros [= <- <-]; auto].
    destruct (getf k (valid (cls d))) as [f|] eqn:R; [|intros [= <- <-]; auto].
    now apply set_many_deep.
  Qed.

  (** [T({...})] *)
  Fixpoint fill (d : dd) (l : list (pystr * arg)) : result dd :=
    match l with
    | [] => Ok d
    | (k, x) :: l' => match set_item U d k x with
                      | (d', None) => fill d' l'
                      | (_, Some e) => Err e
                      end
    end.
  Lemma build_dict c l : build c (ADict U l) = fill (DD c []) l.
  Proof.
    change (build c (ADict U l)) with
      ((fix go (d : dd) (l : list (pystr * arg)) {struct l} : result dd :=
           match l with
           | [] => Ok d
           | (k, x) :: l' => match set_item_with U build d k x with
                             | (d', None) => go d' l'
                             | (_, Some e) => Err e
                             end
           end) (DD c []) l).
    generalize (DD c []). induction l as [|[k x] l IH]; intros d; [reflexivity|].
    cbn [fill]. unfold set_item. destruct set_item_with as [d' [e|]]; auto.
  Qed.

  Lemma build_deep a : (forall x, In x (structs U a) -> deep inv x) ->
    Forall (fun b => forall c d, build c b = Ok d -> deep inv d) (parts_of a) /\
    (forall c d, build c a = Ok d -> deep inv d).
  Proof.
    induction a as [|s|l IH|l IH|d] using arg_ind2; intros Hs.
    - assert (H : forall c d, build c (ANone U) = Ok d -> deep inv d)
        by (intros c d [= <-]; apply fresh_deep).
      split; [constructor; [exact H|constructor] | exact H].
    - assert (H : forall c d, build c (AScalar U s) = Ok d -> deep inv d) by (intros c d [=]).
      split; [constructor; [exact H|constructor] | exact H].
    - assert (H : forall c d, build c (ADict U l) = Ok d -> deep inv d).
      { intros c d. rewrite build_dict.
        assert (F : deep inv (DD c [])) by apply fresh_deep. revert F. generalize (DD c []).
        induction l as [|[k x] l IHl]; intros d0 F; cbn [fill].
        - intros [= <-]; auto.
        - inversion IH; subst. destruct (set_item U d0 k x) as [d1 [e1|]] eqn:E; [discriminate|].
          cbn [snd] in H1. destruct H1 as [P1 _].
          { intros y Hy. apply Hs. simpl. apply in_app_iff. auto. }
          destruct (set_item_deep _ _ _ _ _ _ F P1 E) as [F1 _].
          apply IHl; auto. intros y Hy. apply Hs. simpl. apply in_app_iff. auto. }
      split; [constructor; [exact H|constructor] | exact H].
    - split; [|intros c d [=]]. cbn [parts_of]. rewrite Forall_forall in IH |- *.
      intros b Hb. apply IH; auto. intros y Hy. apply Hs. simpl. apply in_flat_map. eauto.
    - assert (H : forall c d0, build c (AStruct U d) = Ok d0 -> deep inv d0)
        by (intros c d0 [= <-]; apply Hs; simpl; auto).
      split; [constructor; [exact H|constructor] | exact H].
  Qed.

  Lemma set_item_keeps d key a d' e :
    deep inv d -> (forall x, In x (structs U a) -> deep inv x) ->
    set_item U d key a = (d', e) -> deep inv d' /\ cls d' = cls d.
  Proof. intros Hd Hs. apply set_item_deep; auto. now apply build_deep. Qed.

  Lemma get_item_keeps d k d' r :
    deep inv d -> get_item U d k = (d', r) -> deep inv d' /\ cls d' = cls d.
  Proof.
    intros Hd. unfold get_item.
    destruct str_eqb; [intros [= <- <-]; auto|].
    destruct (getf k (valid (cls d))) as [f|] eqn:R; [|intros [= <- <-]; auto].
    destruct (getf k (flds d)) as [[v st|l]|] eqn:G.
    - intros [= <- <-]; auto.
    - destruct (f_unique f); [destruct l|]; intros [= <- <-]; auto.
    - destruct (f_type f) as [v|c] eqn:Ty; [intros [= <- <-]; auto|].
      destruct (f_unique f) eqn:Hu; [|intros [= <- <-]; auto].
      intros [= <- <-]. split; auto. apply deep_put.
      + now rewrite <- eta.
      + apply (inv_put d k _ f); auto. { apply Hd; constructor. }
        unfold fits. rewrite Ty. split; [discriminate|auto].
      + intros l0 x0 [= <-] [<-|[]]. apply fresh_deep.
  Qed.

  Lemma put_nth_length {A} i (x : A) l : length (put_nth i x l) = length l.
  Proof. revert i; induction l; destruct i; simpl; auto. Qed.
  Lemma put_nth_In {A} i (x y : A) l : In y (put_nth i x l) -> y = x \/ In y l.
  Proof.
    revert i; induction l as [|z l IH]; destruct i; simpl; auto; intros [H|H]; auto.
    apply IH in H. tauto.
  Qed.
  Lemma put_nth_same {A} i (x : A) l : nth_error l i = Some x -> put_nth i x l = l.
  Proof. revert i; induction l as [|z l IH]; destruct i; simpl; try congruence. intros H; now rewrite IH. Qed.

  Lemma put_child_keeps d k i x :
    deep inv d -> deep inv x -> deep inv (put_child U d k i x) /\ cls (put_child U d k i x) = cls d.
  Proof.
    intros Hd Hx. unfold put_child.
    destruct (getf k (flds d)) as [[v st|l]|] eqn:G; auto.
    assert (I : inv d) by (apply Hd; constructor).
    split; auto. apply deep_put.
    - now rewrite <- eta.
    - destruct (proj2 I k _ (getf_In _ _ _ G)) as (f & R & F).
      apply (inv_put d k _ f); auto. unfold fits in *. destruct (f_type f); auto.
      destruct F as [F1 F2]. rewrite put_nth_length. split; auto.
      destruct l; [congruence|]. destruct i; discriminate.
    - intros l0 y [= <-] Hy. apply put_nth_In in Hy. destruct Hy as [->|Hy]; auto.
      apply deep_split in Hd. destruct Hd as [_ Hd]. apply getf_In in G. eauto.
  Qed.

  Lemma get_item_child d k d' x :
    get_item U d k = (d', Ok x) ->
    exists l, getf k (flds d') = Some (HL (x :: l)).
  Proof.
    unfold get_item. destruct str_eqb; [discriminate|].
    destruct (getf k (valid (cls d))) as [f|]; [|discriminate].
    destruct (getf k (flds d)) as [[v st|l]|] eqn:G; [discriminate| |].
    - destruct (f_unique f); [destruct l|]; intros [= <- <-]; eauto.
    - destruct (f_type f) as [v|c]; [discriminate|]. destruct (f_unique f); [|discriminate].
      intros [= <- <-]. exists []. cbn [flds]. apply getf_putf.
  Qed.

  Lemma enter_child d s d' k i x :
    enter U d s = (d', Ok (k, i, x)) -> exists l, getf k (flds d') = Some (HL l) /\ nth_error l i = Some x.
  Proof.
    destruct s as [k0|k0 i0]; simpl.
    - destruct (get_item U d k0) as [d1 [y|e]] eqn:E; [|discriminate].
      intros [= <- <- <- <-]. apply get_item_child in E. destruct E as [l E]. exists (y :: l). auto.
    - unfold get. destruct (getf k0 (flds d)) as [[v st|l]|] eqn:G; simpl.
      + destruct (vend U v st); discriminate.
      + destruct (nth_error l i0) eqn:E; [|discriminate]. intros [= <- <- <- <-]. eauto.
      + discriminate.
  Qed.
  Lemma enter_keeps d s d' r :
    deep inv d -> enter U d s = (d', r) -> deep inv d' /\ cls d' = cls d.
  Proof.
    intros Hd. destruct s as [k|k i]; simpl.
    - destruct (get_item U d k) as [d1 [y|e]] eqn:E; intros [= <- <-]; eapply get_item_keeps; eauto.
    - destruct (get U d k) as [[| |l]|e]; try (intros [= <- <-]; auto; fail).
      destruct (nth_error l i); intros [= <- <-]; auto.
  Qed.

  Lemma at_path_keeps f :
    (forall d d' e, deep inv d -> f d = (d', e) -> deep inv d' /\ cls d' = cls d) ->
    forall p d d' e, deep inv d -> at_path U p f d = (d', e) -> deep inv d' /\ cls d' = cls d.
  Proof.
    intros Hf. induction p as [|s p IH]; simpl; intros d d' e Hd; [eauto|].
    destruct (enter U d s) as [d1 [[[k i] x]|e1]] eqn:E.
    - destruct (enter_keeps _ _ _ _ Hd E) as [Hd1 C].
      destruct (at_path U p f x) as [x' e'] eqn:E2. intros [= <- <-].
      assert (Hx : deep inv x).
      { destruct (enter_child _ _ _ _ _ _ E) as (l & G & N). apply getf_In in G.
        apply nth_error_In in N. apply deep_split in Hd1. destruct Hd1 as [_ Hd1]. eauto. }
      destruct (IH _ _ _ Hx E2) as [Hx' _].
      destruct (put_child_keeps d1 k i x' Hd1 Hx') as [H1 H2]. split; auto. congruence.
    - intros [= <- <-]. eapply enter_keeps; eauto.
  Qed.

  Lemma exec_keeps o d d' e :
    deep inv d -> (forall x, In x (op_structs U o) -> deep inv x) ->
    exec U o d = (d', e) -> deep inv d' /\ cls d' = cls d.
  Proof.
    intros Hd Hs. destruct o as [p k a|p k]; unfold exec.
    - apply at_path_keeps; auto. intros d0 d1 e1 H0. apply set_item_keeps; auto.
    - apply at_path_keeps; auto. intros d0 d1 e1 H0. unfold read_only.
      destruct (get_item U d0 k) as [d2 [y|e2]] eqn:E; intros [= <- <-]; eapply get_item_keeps; eauto.
  Qed.

  Lemma produced_inv d : produced d -> deep inv d.
  Proof.
    induction 1 as [c|c a d Hs IH E|o d d' e Hd IH Hs IHs E].
    - apply fresh_deep.
    - eapply build_deep; eauto.
    - eapply exec_keeps; eauto.
  Qed.

  Lemma produced_part d x : produced d -> part d x -> inv x.
  Proof. intros H. now apply produced_inv. Qed.

  (** * Failed assignments *)
  Lemma set_one_atomic bld k f d a d' e :
    (forall v, f_type f = TVal v -> rejects_cleanly U v) ->
    inv d -> row U (cls d) k f ->
    set_one U bld k f d a = (d', Some e) -> d' = d.
  Proof.
    intros Ha I R. unfold set_one.
    destruct (getf k (flds d)) as [h|] eqn:G.
    - pose proof (inv_get _ _ _ _ I G R) as F.
      destruct (truthy U h && f_unique f)%bool; [congruence|].
      unfold fits in F. destruct (f_type f) as [v|c] eqn:Ty; destruct h as [v' st|l]; try congruence.
      + destruct F as [-> (vs & A & _)].
        destruct (vadd U v st (arg_pyval U a)) as [st' e'] eqn:Ad. intros [= <- ->].
        rewrite (Ha v eq_refl _ _ _ _ _ A Ad).
        rewrite putf_same; auto. now rewrite <- eta.
      + destruct (bld c a); congruence.
    - destruct (f_type f) as [v|c].
      + destruct (vadd U v None (arg_pyval U a)) as [st' [e'|]]; congruence.
      + destruct (bld c a); congruence.
  Qed.

  Lemma set_one_ok bld k f d a d' : set_one U bld k f d a = (d', None) -> deep inv d -> row U (cls d) k f ->
    (forall c x, bld c a = Ok x -> deep inv x) -> deep inv d' /\ cls d' = cls d.
  Proof. intros. eapply set_one_deep; eauto. Qed.

  (** a failing list assignment has the effect of its longest successful prefix *)
  Lemma set_many_prefix bld k f l : forall d d' e,
    (forall v, f_type f = TVal v -> rejects_cleanly U v) ->
    Forall (fun a => forall c x, bld c a = Ok x -> deep inv x) l ->
    deep inv d -> row U (cls d) k f ->
    set_many U bld k f d l = (d', Some e) ->
    exists l1 a l2, l = l1 ++ a :: l2 /\ set_many U bld k f d l1 = (d', None) /\
                    set_one U bld k f d' a = (d', Some e).
  Proof.
    induction l as [|a l IH]; simpl; intros d d' e Ha Hb Hd R; [discriminate|].
    inversion Hb; subst.
    destruct (set_one U bld k f d a) as [d1 [e1|]] eqn:E.
    - intros [= <- <-]. assert (d1 = d).
      { eapply set_one_atomic; eauto. apply Hd; constructor. }
      subst. exists [], a, l. auto.
    - intros E2. destruct (set_one_deep _ _ _ _ _ _ _ Hd R H1 E) as [Hd1 C].
      destruct (IH d1 d' e) as (l1 & b & l2 & -> & P1 & P2); auto; [now rewrite C|].
      exists (a :: l1), b, l2. simpl. rewrite E. auto.
  Qed.

  (** entering an existing path changes nothing *)
  Fixpoint present (p : list step) (d x : dd) : Prop :=
    match p with
    | [] => x = d
    | s :: p' => exists k i y, enter U d s = (d, Ok (k, i, y)) /\ present p' y x
    end.
  Lemma put_child_same d k i x l :
    getf k (flds d) = Some (HL l) -> nth_error l i = Some x -> put_child U d k i x = d.
  Proof.
    intros G N. unfold put_child. rewrite G. rewrite put_nth_same; auto. rewrite putf_same; auto.
    now rewrite <- eta.
  Qed.
  Lemma at_path_present f p : forall d x, present p d x ->
    forall e, snd (f x) = Some e -> fst (f x) = x -> at_path U p f d = (d, Some e).
  Proof.
    induction p as [|s p IH]; simpl; intros d x H e E1 E2.
    - subst. destruct (f d); simpl in *; congruence.
    - destruct H as (k & i & y & E & H). rewrite E. rewrite (IH _ _ H e); auto.
      destruct (enter_child _ _ _ _ _ _ E) as (l & G & N). now rewrite (put_child_same _ _ _ _ _ G N).
  Qed.

  Lemma present_part p : forall d x, present p d x -> part d x.
  Proof.
    induction p as [|s p IH]; simpl; intros d x H.
    - subst. constructor.
    - destruct H as (k & i & y & E & H). destruct (enter_child _ _ _ _ _ _ E) as (l & G & N).
      econstructor; [eapply getf_In; eauto|eapply nth_error_In; eauto|auto].
  Qed.

  (** * Documents *)
  Definition item_of (kh : pystr * held) : result (pystr * doc U) :=
    match kh with
    | (k, DotDictModel.HV _ v st) => bind (vend U v st) (fun o => Ok (k, DLeaf U o))
    | (k, DotDictModel.HL _ l) => bind (mapR (get_dict U) l) (fun ds => Ok (k, DList U ds))
    end.
  Lemma get_dict_eq c fs :
    get_dict U (DD c fs) =
      if mandatory_present U c fs
      then bind (mapR item_of fs) (fun items =>
           bind (mapR (with_order U c) items) (fun keyed =>
           Ok (DNode U (to_dict (map (rename U c) (map snd (isort (order_leb U) keyed)))))))
      else Err AttributeError.
  Proof. reflexivity. Qed.

  Lemma mandatory_present_iff c fs :
    mandatory_present U c fs = true <->
    forall k f, In (k, f) (valid c) -> f_mandatory f = true -> In k (map fst fs).
  Proof.
    unfold mandatory_present. rewrite forallb_forall. split.
    - intros H k f Hin M. specialize (H _ Hin). simpl in H. rewrite M in H. simpl in H.
      unfold has_field in H. destruct (getf k fs) eqn:E; [|discriminate].
      apply getf_In in E. now apply (in_map fst) in E.
    - intros H [k f] Hin. simpl. destruct (f_mandatory f) eqn:M; auto. simpl.
      unfold has_field. destruct (getf_Some k fs) as [a ->]; auto. eapply H; eauto.
  Qed.

  Lemma item_key kh kv : item_of kh = Ok kv -> fst kv = fst kh.
  Proof.
    destruct kh as [k [v st|l]]; simpl.
    - destruct (vend U v st); simpl; [|discriminate]. now intros [= <-].
    - destruct (mapR (get_dict U) l); simpl; [|discriminate]. now intros [= <-].
  Qed.
  Lemma items_keys fs items : Forall2 (fun x y => item_of x = Ok y) fs items -> map fst items = map fst fs.
  Proof. induction 1; simpl; auto. rewrite IHForall2. f_equal. now apply item_key. Qed.

  Lemma Forall2_in_l {A B} (R : A -> B -> Prop) l m x : Forall2 R l m -> In x l -> exists y, In y m /\ R x y.
  Proof. induction 1; simpl; [tauto|]. intros [->|H1]; [eauto|]. destruct (IHForall2 H1) as (z & ? & ?); eauto. Qed.
  Lemma Forall2_in_r {A B} (R : A -> B -> Prop) l m y : Forall2 R l m -> In y m -> exists x, In x l /\ R x y.
  Proof. induction 1; simpl; [tauto|]. intros [->|H1]; [eauto|]. destruct (IHForall2 H1) as (z & ? & ?); eauto. Qed.

  Theorem get_dict_iff d :
    (exists o, get_dict U d = Ok o) <-> complete U d /\ ends_well U d /\ ordered U d.
  Proof.
    induction d as [c fs IH] using dd_ind2. rewrite get_dict_eq. split.
    - intros [o H].
      destruct (mandatory_present U c fs) eqn:M; [|discriminate].
      destruct (mapR item_of fs) as [items|] eqn:E; [|discriminate]. simpl in H.
      destruct (mapR (with_order U c) items) as [keyed|] eqn:K; [|discriminate]. clear H.
      apply mapR_ok in E. apply mapR_ok in K.
      assert (Sub : forall k l x, In (k, HL l) fs -> In x l -> exists o, get_dict U x = Ok o).
      { intros k l x H1 H2. destruct (Forall2_in_l _ _ _ _ E H1) as (kv & _ & G). simpl in G.
        destruct (mapR (get_dict U) l) as [ds|] eqn:D; [|discriminate]. apply mapR_ok in D.
        destruct (Forall2_in_l _ _ _ _ D H2) as (y & _ & Hy). eauto. }
      split; [|split].
      + intros x k f P. inversion P; subst.
        * simpl. rewrite mandatory_present_iff in M. apply M.
        * simpl in *. destruct (proj1 (IH _ _ _ H H0) (Sub _ _ _ H H0)) as [A _]. now apply A.
      + intros x k v st P. inversion P; subst.
        * simpl. intros Hin. destruct (Forall2_in_l _ _ _ _ E Hin) as (kv & _ & G). simpl in G.
          destruct (vend U v st); [eauto|discriminate].
        * simpl in *. destruct (proj1 (IH _ _ _ H H0) (Sub _ _ _ H H0)) as (_ & A & _). now apply A.
      + intros x k P. inversion P; subst.
        * simpl. rewrite <- (items_keys _ _ E). intros Hin. apply in_map_iff in Hin.
          destruct Hin as (kv & <- & Hin). destruct (Forall2_in_l _ _ _ _ K Hin) as (y & _ & G).
          unfold with_order in G. destruct (order_of U c (fst kv)); [eauto|discriminate].
        * simpl in *. destruct (proj1 (IH _ _ _ H H0) (Sub _ _ _ H H0)) as (_ & _ & A). now apply A.
    - intros (C & W & O).
      assert (M : mandatory_present U c fs = true).
      { apply mandatory_present_iff. intros k f. apply (C (DD c fs)). constructor. }
      rewrite M.
      destruct (mapR_all item_of fs) as [items E].
      { intros [k [v st|l]] Hin; simpl.
        - destruct (W (DD c fs) k v st) as [o ->]; [constructor|auto|simpl; eauto].
        - destruct (mapR_all (get_dict U) l) as [ds ->]; [|simpl; eauto].
          intros x Hx. apply (IH k l x Hin Hx). split; [|split].
          + intros y k0 f P. apply C. econstructor; eauto.
          + intros y k0 v st P. apply W. econstructor; eauto.
          + intros y k0 P. apply O. econstructor; eauto. }
      rewrite E. simpl. apply mapR_ok in E.
      destruct (mapR_all (with_order U c) items) as [keyed K].
      { intros kv Hin. unfold with_order. destruct (O (DD c fs) (fst kv)) as [o Ho].
        - constructor.
        - simpl. rewrite <- (items_keys _ _ E). now apply in_map.
        - simpl in Ho. rewrite Ho. eauto. }
      rewrite K. simpl. eauto.
  Qed.

  Lemma get_name_label k f : get_name U k f = label U k f.
  Proof.
    unfold get_name, label, attribute_, text_.
    destruct (f_xml_type f) as [t|]; [|destruct (f_xml_nms f); reflexivity].
    destruct (str_eqb t (lit "attribute")); [reflexivity|].
    destruct (str_eqb t (lit "nms:common")) eqn:E.
    - apply str_eqb_eq in E. subst t. reflexivity.
    - destruct (str_eqb t (lit "text")); [reflexivity|]. now rewrite <- app_assoc.
  Qed.

  Lemma to_dict_app {A} (l : list (pystr * A)) : forall acc,
    NoDup (map fst (acc ++ l)) ->
    fold_left (fun acc kv => putf (fst kv) (snd kv) acc) l acc = acc ++ l.
  Proof.
    induction l as [|[k a] l IH]; intros acc N; simpl.
    - now rewrite app_nil_r.
    - rewrite putf_absent.
      + rewrite IH; rewrite <- app_assoc; auto.
      + rewrite map_app in N. simpl in N. apply NoDup_remove_2 in N. intros F. apply N.
        rewrite in_app_iff. auto.
  Qed.
  Lemma to_dict_nodup {A} (l : list (pystr * A)) : NoDup (map fst l) -> to_dict l = l.
  Proof. intros N. unfold to_dict. rewrite to_dict_app; auto. Qed.

  Lemma NoDup_map_inj {A B} (f : A -> B) l : NoDup (map f l) ->
    forall x y, In x l -> In y l -> f x = f y -> x = y.
  Proof.
    induction l as [|z l IH]; simpl; [tauto|]. intros N x y Hx Hy E. inversion N; subst.
    destruct Hx as [->|Hx], Hy as [->|Hy]; auto.
    - exfalso. apply H1. rewrite E. now apply in_map.
    - exfalso. apply H1. rewrite <- E. now apply in_map.
  Qed.

  Lemma filter_keyed (p : Z -> bool) (c : nat) items keyed :
    Forall2 (fun x y => with_order U c x = Ok y) items keyed ->
    filter (fun k => match order_of U c k with Some o => p o | None => false end) (map fst items)
      = map (fun x => fst (snd x)) (filter (fun x => p (fst x)) keyed).
  Proof.
    induction 1 as [|kv y l m E _ IH]; simpl; auto.
    unfold with_order in E. destruct (order_of U c (fst kv)) as [o|]; [|discriminate].
    inversion E; subst. simpl. destruct (p o); simpl; congruence.
  Qed.

  Definition kv_order (c : nat) (kv : pystr * doc U) : option Z := order_of U c (fst kv).

  Theorem get_dict_entries c fs o :
    deep inv (DD c fs) -> distinct_labels U c ->
    get_dict U (DD c fs) = Ok o ->
    exists items,
      o = DNode U (map (fun kv => match getf (fst kv) (valid c) with
                                  | Some f => (label U (fst kv) f, as_text U f (snd kv))
                                  | None => kv end) items) /\
      Permutation (map fst items) (map fst fs) /\
      StronglySorted (order_le U c) (map fst items) /\
      (forall z, filter (order_is U c z) (map fst items) = filter (order_is U c z) (map fst fs)) /\
      (forall k v, In (k, v) items -> exists h, In (k, h) fs /\ shows U h v).
  Proof.
    intros Hd DL. rewrite get_dict_eq.
    destruct (mandatory_present U c fs); [|discriminate].
    destruct (mapR item_of fs) as [items0|] eqn:E; [|discriminate]. cbn [bind].
    destruct (mapR (with_order U c) items0) as [keyed|] eqn:K; [|discriminate].
    apply mapR_ok in E. apply mapR_ok in K. cbn [bind]. intros [= <-].
    assert (tot : forall x y, order_leb U x y = true \/ order_leb U y x = true)
      by (intros x y; unfold order_leb; rewrite !Z.leb_le; lia).
    assert (trn : forall x y z, order_leb U x y = true -> order_leb U y z = true -> order_leb U x z = true)
      by (intros x y z; unfold order_leb; rewrite !Z.leb_le; lia).
    assert (KS : map snd keyed = items0).
    { clear -K. induction K as [|kv y l m H _ IH]; simpl; auto. rewrite IH. f_equal.
      unfold with_order in H. destruct order_of; inversion H; auto. }
    assert (KO : forall x, In x keyed -> order_of U c (fst (snd x)) = Some (fst x)).
    { intros x Hx. destruct (Forall2_in_r _ _ _ _ K Hx) as (kv & _ & H).
      unfold with_order in H. destruct (order_of U c (fst kv)) eqn:Eo; inversion H; subst; auto. }
    pose proof (isort_perm (order_leb U) keyed) as PM.
    set (S := isort (order_leb U) keyed) in *.
    assert (SO : forall x, In x S -> order_of U c (fst (snd x)) = Some (fst x)).
    { intros x Hx. apply KO. eapply Permutation_in; eauto. }
    exists (map snd S).
    assert (PK : Permutation (map fst (map snd S)) (map fst fs)).
    { rewrite <- (items_keys _ _ E), <- KS. now apply Permutation_map, Permutation_map. }
    assert (I : inv (DD c fs)) by (apply Hd; constructor). destruct I as [ND IF]. simpl in ND, IF.
    split; [|split; [|split; [|split]]].
    - f_equal. rewrite to_dict_nodup.
      + apply map_ext_in. intros [k v] Hkv. unfold rename, as_text, text_. cbn [fst snd].
        destruct (getf k (valid c)); auto. now rewrite get_name_label.
      + assert (KV : forall k, In k (map fst (map snd S)) -> exists f, getf k (valid c) = Some f).
        { intros k Hk. apply (Permutation_in _ PK) in Hk. apply in_map_iff in Hk.
          destruct Hk as ([k' h] & <- & Hk). destruct (IF _ _ Hk) as (f & R & _). exists f. exact R. }
        assert (NK : NoDup (map fst (map snd S))) by (eapply Permutation_NoDup; [symmetry; exact PK|auto]).
        revert KV NK. generalize (map snd S). clear -DL.
        induction l as [|[k v] l IH]; intros KV NK; simpl; constructor.
        * inversion NK; subst. intros F. apply in_map_iff in F. destruct F as (p & Ep & Hp).
          apply in_map_iff in Hp. destruct Hp as ([k' v'] & <- & Hp).
          destruct (KV k) as (f & Ef); [simpl; auto|].
          destruct (KV k') as (f' & Ef'); [simpl; right; now apply (in_map fst) in Hp|].
          unfold rename in Ep. cbn [fst snd] in Ep. rewrite Ef, Ef' in Ep. cbn [fst] in Ep.
          rewrite !get_name_label in Ep.
          assert ((k', f') = (k, f)).
          { eapply (NoDup_map_inj _ _ DL); eauto using getf_In. }
          inversion H; subst. apply H1. now apply (in_map fst) in Hp.
        * inversion NK; subst. apply IH; auto. intros k0 Hk0. apply KV. simpl; auto.
    - exact PK.
    - pose proof (isort_sorted (order_leb U) tot trn keyed) as SS. fold S in SS.
      clear -SS SO. induction SS as [|x l _ IH F]; simpl; constructor.
      + apply IH. intros y Hy. apply SO. simpl; auto.
      + rewrite Forall_forall in *. intros k Hk. rewrite map_map in Hk. apply in_map_iff in Hk.
        destruct Hk as (y & <- & Hy). exists (fst x), (fst y). split; [apply SO; simpl; auto|].
        split; [apply SO; simpl; auto|]. specialize (F _ Hy). unfold order_leb in F. now apply Z.leb_le.
    - intros z. rewrite <- (items_keys _ _ E).
      unfold order_is. rewrite (filter_keyed (fun o => Z.eqb o z) c _ _ K).
      rewrite <- (isort_stable (order_leb U) (fun x => Z.eqb (fst x) z) keyed).
      + fold S. clear -SO. induction S as [|x l IH]; simpl; auto.
        rewrite (SO x); [|simpl; auto]. destruct (Z.eqb (fst x) z); simpl; rewrite IH; auto;
          intros y Hy; apply SO; simpl; auto.
      + intros a b. rewrite !Z.eqb_eq. unfold order_leb. rewrite Z.leb_le. lia.
    - intros k v Hkv. apply in_map_iff in Hkv. destruct Hkv as (x & Ex & Hx).
      apply (Permutation_in _ PM) in Hx. apply (in_map snd) in Hx. rewrite KS in Hx. rewrite Ex in Hx.
      destruct (Forall2_in_r _ _ _ _ E Hx) as ([k' h] & Hin & G).
      pose proof (item_key _ _ G) as EK. simpl in EK. subst k'. exists h. split; auto.
      destruct h as [c0 st|l]; simpl in *.
      + destruct (vend U c0 st) as [o|]; [|discriminate]. inversion G; subst. eauto.
      + destruct (mapR (get_dict U) l) as [ds|] eqn:D; [|discriminate]. inversion G; subst.
        apply mapR_ok in D. eauto.
  Qed.
End Facts.
