(** Proofs about data set aside. *)
From Coq Require Import Ascii String List Bool Arith NArith ZArith Lia.
From Verif Require Import PyBase PyBaseFacts PyValues MultiLangModel ValidatorsModel DotDictModel DotDictProofs SchemaModel SchemaTables
  XmlModel XmlSpec XmlProofs XmlProps KeysModel KeysSpec KeysProofs UtilsModel HandleModel HandleSpec HandleProofs ClassModel ReferProofs AsideModel AsideSpec.
Import ListNotations.
Local Open Scope string_scope.
Local Open Scope list_scope.

(** * Attributes *)
Lemma attr_names e : distinct_attributes (eattrib e) -> forall k v, In (k, v) (eattrib e) -> name_of k (local k).
Proof.
  intros (ns & F & _) k v I. induction F as [|kv n a ns' H F IH]; [contradiction|]. destruct I as [->|I]; [|now apply IH].
  cbn in H. now rewrite (name_local _ _ H).
Qed.
Lemma record_dict e : record_element e -> exists d, elem2dict e = VDict d.
Proof.
  intros (P & D & N). destruct (C25_content_kept_partial e P D) as (A & _).
  destruct (eattrib e) as [|[k v] a] eqn:Q; [congruence|].
  assert (Nm : name_of k (local k)). { apply (attr_names e) with (v := v); rewrite Q; [exact D|now left]. }
  specialize (A k v _ (or_introl eq_refl) Nm).
  destruct (elem2dict e) as [| | | | | | |d|]; [..|now exists d|]; exfalso; unfold content in A; cbn in A; discriminate A.
Qed.
Lemma record_attr e d n : record_element e -> elem2dict e = VDict d -> forall v,
  getf (at_ n) d = Some v <-> exists s, v = VStr s /\ attribute e n s.
Proof.
  intros (P & D & N) Q v. destruct (C25_content_kept_partial e P D) as (A & _). rewrite Q in A. cbn [content] in A. split.
  - intros G. destruct (C25_nothing_invented e (at_ n) v P) as [(k & w & I & K)|[[K _]|(k & I & K)]].
    + rewrite Q. exact G.
    + pose proof (attr_names _ D _ _ I) as Nm. specialize (A _ _ _ I Nm). rewrite <- K, G in A. injection A as ->.
      exists w. split; [reflexivity|]. exists k. split; [exact I|]. unfold at_ in K. apply app_inv_head in K. now rewrite K.
    + discriminate K.
    + exfalso. rewrite Forall_forall in P. specialize (P k I). inversion P as [? ? ? ? ? m Hm (_ & _ & X & _) F]; subst.
      cbn [etag] in K. rewrite (name_local _ _ Hm) in K. exact (X _ (eq_sym K)).
  - intros (s & -> & k & I & Nm). exact (A _ _ _ I Nm).
Qed.
Lemma record_none e d n : record_element e -> elem2dict e = VDict d ->
  (getf (at_ n) d = None <-> forall s, ~ attribute e n s).
Proof.
  intros R Q. pose proof (record_attr e d n R Q) as A. destruct (getf (at_ n) d) as [v|].
  - split; [discriminate|]. intros H. destruct (proj1 (A v) eq_refl) as (s & _ & I). now destruct (H s).
  - split; [|reflexivity]. intros _ s I. specialize (A (VStr s)). assert (X : None = Some (VStr s)) by (apply A; now exists s). discriminate X.
Qed.
Lemma record_text e d n v : record_element e -> elem2dict e = VDict d -> getf (at_ n) d = Some v -> exists s, v = VStr s.
Proof. intros R Q G. apply (record_attr e d n R Q) in G. destruct G as (s & -> & _). now exists s. Qed.
Lemma attribute_one e n s t : distinct_attributes (eattrib e) -> attribute e n s -> attribute e n t -> s = t.
Proof.
  intros (ns & F & ND) (k & I & K) (k' & I' & K').
  induction F as [|kv m a ns' H F IH]; [contradiction|]. inversion ND as [|? ? Nin ND']; subst.
  assert (X : forall kk vv, In (kk, vv) a -> name_of kk (lit n) -> In (lit n) ns').
  { clear -F. intros kk vv. revert F. generalize ns' a. intros l b F. induction F as [|kv' m' a' l' H' F' IH']; [contradiction|].
    intros [E|E] Nm; [left|right; now apply IH']. subst kv'. cbn in H'. now rewrite <- (name_local _ _ H'), (name_local _ _ Nm). }
  destruct I as [->|I], I' as [E|I'].
  - now injection E as _ ->.
  - exfalso. cbn in H. apply Nin. rewrite <- (name_local _ _ H), (name_local _ _ K). exact (X _ _ I' K').
  - subst kv. exfalso. cbn in H. apply Nin. rewrite <- (name_local _ _ H), (name_local _ _ K'). exact (X _ _ I K).
  - now apply IH.
Qed.

(** * Steps *)
Section Steps.
  Context (E : env).
  Notation U := (lavoisier E).
  Definition okd (d : dd U) : Prop := forall k h f v, getf k (flds U d) = Some h -> getf k (schema (cls U d)) = Some f ->
    f_type f = TVal v -> exists st, h = HV U v st.
  Definition accepted (v : vc) (x : pyval) : Prop := forall st, snd (add_ E v st x) = None.
  Definition fine (c : nat) (j : jot) : Prop :=
    match j with
    | JSet f x => exists w v, getf f (schema c) = Some w /\ bare f = Some f /\ f_type w = TVal v /\ f_unique w = false /\
                    (forall l, x <> VList l) /\ accepted v (arg_pyval U (arg_of E x))
    | _ => False
    end.
  Lemma getf_putf_other {A} k k' (a : A) l : str_eqb k' k = false -> getf k (putf k' a l) = getf k l.
  Proof.
    intros D. induction l as [|[q b] l IH]; cbn; [now rewrite D|]. destruct (str_eqb q k') eqn:Q; cbn.
    - apply str_eqb_eq in Q. subst. now rewrite D.
    - now rewrite IH.
  Qed.
  Lemma put_okd d k v st f : okd d -> getf k (schema (cls U d)) = Some f -> f_type f = TVal v ->
    okd (DD U (cls U d) (putf k (HV U v st) (flds U d))).
  Proof.
    intros O R T k' h f' v' G R' T'. cbn [flds cls] in G, R'. destruct (str_eqb k k') eqn:Q.
    - apply str_eqb_eq in Q. subst k'. rewrite getf_putf in G. injection G as <-. exists st. congruence.
    - rewrite (getf_putf_other _ _ _ _ Q) in G. exact (O _ _ _ _ G R' T').
  Qed.
  (** an accepted value is noted *)
  Lemma set_fine d f x : okd d -> fine (cls U d) (JSet f x) ->
    exists st v w, do_jot E (JSet f x) d = (DD U (cls U d) (putf f (HV U v st) (flds U d)), None) /\
      getf f (schema (cls U d)) = Some w /\ f_type w = TVal v /\
      exists st0, st = fst (add_ E v st0 (arg_pyval U (arg_of E x))).
  Proof.
    intros O (w & v & R & B & T & N & L & A). cbn [do_jot]. unfold set_item, set_item_with. rewrite B.
    assert (R' : @getf (field (vclass U)) f (valid U (cls U d)) = Some w) by exact R. rewrite R'.
    assert (X : set_one U (build U) f w d (arg_of E x) =
      let st0 := match getf f (flds U d) with Some (HV _ _ st) => st | _ => None end in
      (DD U (cls U d) (putf f (HV U v (fst (add_ E v st0 (arg_pyval U (arg_of E x))))) (flds U d)), None)).
    { assert (N' : @f_unique (vclass U) w = false) by exact N. assert (T' : @f_type (vclass U) w = TVal v) by exact T.
      unfold set_one. destruct (getf f (flds U d)) as [h|] eqn:G.
      - rewrite N', andb_false_r, T'. destruct (O _ _ _ _ G R T) as [st ->]. cbv zeta.
        change (vadd U v st) with (add_ E v st). specialize (A st). destruct (add_ E v st _) as [st' e]. cbn [fst snd] in A |- *. rewrite A. reflexivity.
      - rewrite T'. cbv zeta. change (vadd U v None) with (add_ E v None). specialize (A None).
        destruct (add_ E v None (arg_pyval U (arg_of E x))) as [st' e] eqn:Q. cbn [snd] in A. rewrite A.
        assert (Q' : fst (add_ E v (@None vs) (arg_pyval U (arg_of E x))) = st') by (rewrite Q; reflexivity).
        rewrite <- Q'. reflexivity. }
    cbv zeta in X. set (st0 := match getf f (flds U d) with Some (HV _ _ st) => st | _ => None end) in X.
    exists (fst (add_ E v st0 (arg_pyval U (arg_of E x)))), v, w. split; [|split; [exact R|split; [exact T|now exists st0]]].
    revert X. destruct (arg_of E x) eqn:Q; intros X; try exact X. exfalso. destruct x as [| | | | |xl| | |]; try discriminate Q. now apply (L xl).
  Qed.
  Lemma jots_fine l : forall d, okd d -> Forall (fine (cls U d)) l ->
    exists d', jots E l d = (d', None) /\ okd d' /\ cls U d' = cls U d.
  Proof.
    induction l as [|j l IH]; intros d O F; [now exists d|]. inversion F as [|? ? Fj Fl]; subst. cbn [jots].
    destruct j as [f x|f|e]; [|contradiction ..]. destruct (set_fine d f x O Fj) as (st & v & w & -> & R & T & _).
    destruct (IH (DD U (cls U d) (putf f (HV U v st) (flds U d)))) as (d' & Hd & O' & C').
    - now apply put_okd with (f := w).
    - exact Fl.
    - exists d'. split; [exact Hd|]. now split.
  Qed.
  Lemma jots_app l : forall l' d, jots E (l ++ l') d = match jots E l d with (d', None) => jots E l' d' | o => o end.
  Proof.
    induction l as [|j l IH]; intros l' d; [reflexivity|]. cbn [app jots]. destruct (do_jot E j d) as [d' [e|]]; [reflexivity|]. apply IH.
  Qed.
  Lemma jots_stop l j l' d : (forall d', exists e, snd (do_jot E j d') = Some e) -> exists e, snd (jots E (l ++ j :: l') d) = Some e.
  Proof.
    intros S. rewrite jots_app. destruct (jots E l d) as [d' [e|]]; [now exists e|]. cbn [jots].
    destruct (S d') as [e H]. destruct (do_jot E j d') as [d'' o]. cbn in H. subst o. now exists e.
  Qed.
  (** whatever happens, a structure of good shape stays one *)
  Definition simple (c : nat) (j : jot) : Prop :=
    match j with JSet f _ => exists w v, getf f (schema c) = Some w /\ bare f = Some f /\ f_type w = TVal v | JGet _ => False | JRaise _ => True end.
  Lemma set_one_okd d f w v a : okd d -> getf f (schema (cls U d)) = Some w -> f_type w = TVal v ->
    forall o, set_one U (build U) f w d a = o -> okd (fst o) /\ cls U (fst o) = cls U d.
  Proof.
    intros O R T o <-. assert (T' : @f_type (vclass U) w = TVal v) by exact T. unfold set_one. destruct (getf f (flds U d)) as [h|] eqn:G.
    - destruct (_ && _)%bool; [now split|]. rewrite T'. destruct (O _ _ _ _ G R T) as [st ->].
      destruct (vadd U v st _) as [st' e]. cbn [fst cls]. split; [|reflexivity]. now apply put_okd with (f := w).
    - rewrite T'. destruct (vadd U v None _) as [st' [e|]]; [now split|]. cbn [fst cls]. split; [|reflexivity].
      now apply put_okd with (f := w).
  Qed.
  Lemma set_many_okd f w v l : forall d, okd d -> getf f (schema (cls U d)) = Some w -> f_type w = TVal v ->
    okd (fst (set_many U (build U) f w d l)) /\ cls U (fst (set_many U (build U) f w d l)) = cls U d.
  Proof.
    induction l as [|a l IH]; intros d O R T; [now split|]. cbn [set_many].
    destruct (set_one_okd d f w v a O R T _ eq_refl) as [O' C']. destruct (set_one U (build U) f w d a) as [d' [e|]]; cbn [fst] in *; [now split|].
    destruct (IH d' O') as [A B]; [now rewrite C'|exact T|]. split; [exact A|congruence].
  Qed.
  Lemma do_okd j d : okd d -> simple (cls U d) j -> okd (fst (do_jot E j d)) /\ cls U (fst (do_jot E j d)) = cls U d.
  Proof.
    intros O S. destruct j as [f x|f|e]; [|contradiction|now split]. destruct S as (w & v & R & B & T). cbn [do_jot].
    unfold set_item, set_item_with. rewrite B.
    assert (R' : @getf (field (vclass U)) f (valid U (cls U d)) = Some w) by exact R. rewrite R'.
    destruct (arg_of E x); try (exact (set_one_okd d f w v _ O R T _ eq_refl)). now apply set_many_okd with (v := v).
  Qed.
  Lemma jots_okd l : forall d, okd d -> Forall (simple (cls U d)) l -> okd (fst (jots E l d)) /\ cls U (fst (jots E l d)) = cls U d.
  Proof.
    induction l as [|j l IH]; intros d O F; [now split|]. inversion F as [|? ? Fj Fl]; subst. cbn [jots].
    destruct (do_okd j d O Fj) as [O' C']. destruct (do_jot E j d) as [d' [e|]]; cbn [fst] in *; [now split|].
    rewrite <- C' in Fl. destruct (IH d' O' Fl) as [A B]. split; [exact A|congruence].
  Qed.
End Steps.

(** * Accepted values *)
Definition takes_text (c : nat) (f : pystr) : bool :=
  match getf f (schema c), bare f with
  | Some w, Some k => (str_eqb k f && negb (f_unique w) && match f_type w with TVal CStr => true | TVal CAnyList => true | _ => false end)%bool
  | _, _ => false
  end.
Definition takes_any (c : nat) (f : pystr) : bool :=
  match getf f (schema c), bare f with
  | Some w, Some k => (str_eqb k f && negb (f_unique w) && match f_type w with TVal CAnyList => true | _ => false end)%bool
  | _, _ => false
  end.
Definition takes_bool (c : nat) (f : pystr) : bool :=
  match getf f (schema c), bare f with
  | Some w, Some k => (str_eqb k f && negb (f_unique w) && match f_type w with TVal (CBool _) => true | _ => false end)%bool
  | _, _ => false
  end.
Definition takes_real (c : nat) (f : pystr) : bool :=
  match getf f (schema c), bare f with
  | Some w, Some k => (str_eqb k f && negb (f_unique w) && match f_type w with TVal CReal => true | _ => false end)%bool
  | _, _ => false
  end.
Section Accepted.
  Context (E : env).
  Lemma lift_ok {A} inj proj (add : option A -> pyval -> upd A) st x :
    (forall st, snd (add st x) = None) -> snd (lift inj proj add st x) = None.
  Proof.
    intros H. unfold lift. specialize (H (match st with Some y => proj y | None => None end)).
    destruct (add _ x) as [st' e]. exact H.
  Qed.
  Lemma replace_ok {A} (validate : pyval -> result A) st x a : validate x = Ok a -> snd (add_replace validate st x) = None.
  Proof. intros H. unfold add_replace. now rewrite H. Qed.
  Lemma text_fine c f s : takes_text c f = true -> fine E c (JSet f (VStr s)).
  Proof.
    unfold takes_text, fine. destruct (getf f (schema c)) as [w|]; [|discriminate]. destruct (bare f) as [k|]; [|discriminate].
    rewrite !andb_true_iff, negb_true_iff. intros [[K N] T]. apply str_eqb_eq in K. subst k.
    destruct (f_type w) as [v|] eqn:Tw; [|discriminate]. exists w, v. do 5 (split; [easy|]).
    cbn [arg_of arg_pyval scalar_pyval]. destruct v; try discriminate T; intros st; cbn [add_]; apply lift_ok; intros st'.
    - now apply replace_ok with (a := s).
    - reflexivity.
  Qed.
  Lemma any_fine c f x : takes_any c f = true -> (forall l, x <> VList l) -> fine E c (JSet f x).
  Proof.
    unfold takes_any, fine. destruct (getf f (schema c)) as [w|]; [|discriminate]. destruct (bare f) as [k|]; [|discriminate].
    rewrite !andb_true_iff, negb_true_iff. intros [[K N] T] L. apply str_eqb_eq in K. subst k.
    destruct (f_type w) as [v|] eqn:Tw; [|discriminate]. exists w, v. do 5 (split; [easy|]).
    destruct v; try discriminate T; intros st; cbn [add_]; apply lift_ok; intros st'. reflexivity.
  Qed.
  Lemma bool_fine c f s : takes_bool c f = true -> yes_or_no s -> fine E c (JSet f (VStr s)).
  Proof.
    unfold takes_bool, fine. destruct (getf f (schema c)) as [w|]; [|discriminate]. destruct (bare f) as [k|]; [|discriminate].
    rewrite !andb_true_iff, negb_true_iff. intros [[K N] T] Y. apply str_eqb_eq in K. subst k.
    destruct (f_type w) as [v|] eqn:Tw; [|discriminate]. exists w, v. do 5 (split; [easy|]).
    cbn [arg_of arg_pyval scalar_pyval]. destruct v; try discriminate T; intros st; cbn [add_]; apply lift_ok; intros st'.
    assert (X : exists b, bool_validate (VStr s) = Ok b).
    { destruct Y as [<-|[<-|[<-|[<-|[]]]]]; eexists; vm_compute; reflexivity. }
    destruct X as [b X]. now apply replace_ok with (a := b).
  Qed.
  Lemma real_fine c f s x : takes_real c f = true -> py_float (VStr s) = Some x -> fine E c (JSet f (VStr s)).
  Proof.
    unfold takes_real, fine. destruct (getf f (schema c)) as [w|]; [|discriminate]. destruct (bare f) as [k|]; [|discriminate].
    rewrite !andb_true_iff, negb_true_iff. intros [[K N] T] Y. apply str_eqb_eq in K. subst k.
    destruct (f_type w) as [v|] eqn:Tw; [|discriminate]. exists w, v. do 5 (split; [easy|]).
    cbn [arg_of arg_pyval scalar_pyval]. destruct v; try discriminate T; intros st; cbn [add_]; apply lift_ok; intros st'.
    apply replace_ok with (a := x). unfold real_validate. now rewrite Y.
  Qed.
  Lemma flag_fine c e d n : record_element e -> elem2dict e = VDict d ->
    takes_text c (lit n) = true \/ takes_bool c (lit n) = true /\ (forall s, attribute e n s -> yes_or_no s) -> Forall (fine E c) (flag d n).
  Proof.
    intros R Q T. unfold flag. destruct (getf (at_ n) d) as [v|] eqn:G; [|constructor]. destruct (truth v); [|constructor].
    apply (record_attr e d n R Q) in G. destruct G as (s & -> & A). constructor; [|constructor].
    destruct T as [T|[T B]]; [now apply text_fine|apply bool_fine; [exact T|now apply B]].
  Qed.
  Definition flag_ok (c : nat) (bs : list string) (n : string) : bool :=
    (takes_text c (lit n) || takes_bool c (lit n) && existsb (String.eqb n) bs)%bool.
  Lemma flags_fine c e d bs l : record_element e -> elem2dict e = VDict d -> booleans e bs -> forallb (flag_ok c bs) l = true ->
    Forall (fine E c) (flags d l).
  Proof.
    intros R Q B. induction l as [|n l IH]; [constructor|]. cbn [forallb flags flat_map]. rewrite andb_true_iff. intros [H F].
    apply Forall_app. split; [|now apply IH]. apply (flag_fine c e d n R Q). unfold flag_ok in H. apply orb_true_iff in H.
    destruct H as [H|H]; [now left|]. apply andb_true_iff in H. destruct H as [H I]. right. split; [exact H|]. intros s.
    apply existsb_exists in I. destruct I as (n' & I & X). apply String.eqb_eq in X. subst n'. now apply B.
  Qed.
End Accepted.

(** * Exchanges *)
Notation Flow := ILCD1_ECS2ToILCD1DataNotConverted_Flow.
Notation Property := ILCD1_ECS2ToILCD1DataNotConverted_Flow_Property.
Notation Volume := ILCD1_ECS2ToILCD1DataNotConverted_Flow_ProductionVolume.
Notation Param := ILCD1_ECS2ToILCD1DataNotConverted_Parameter.
Notation Aside := ILCD1_ECS2ToILCD1DataNotConverted.
Lemma new_okd E c : okd E (DD (lavoisier E) c []).
Proof. intros k h f v G. discriminate G. Qed.
Lemma named_all n es : Forall proper es -> exists ks, named_kids n es ks /\ Forall proper ks /\ incl ks es.
Proof.
  induction 1 as [|k es P F (ks & K & Q & I)]; [exists []; repeat split; [constructor|constructor|now intros x []]|].
  inversion P as [? ? ? ? ? m Hm _ _]; subst. destruct (list_eq_dec N.eq_dec m n) as [->|D].
  - exists (Elem t a x l kids :: ks). split; [now constructor|]. split; [now constructor|]. intros y [->|Y]; [now left|right; now apply I].
  - exists ks. split; [|split; [exact Q|intros y Y; right; now apply I]]. apply nk_skip; [|exact K]. intros C. apply D.
    now rewrite <- (name_local _ _ Hm), <- (name_local _ _ C).
Qed.
Lemma kids_read e d n : record_element e -> elem2dict e = VDict d -> xml_name (lit n) ->
  exists ks, named_kids (lit n) (ekids e) ks /\ Forall proper ks /\
    getf (lit n) d = match ks with [] => None | [k] => Some (elem2dict k) | _ => Some (VList (map elem2dict ks)) end.
Proof.
  intros (P & D & _) Q X. destruct (named_all (lit n) _ P) as (ks & K & Pk & _). exists ks. split; [exact K|]. split; [exact Pk|].
  destruct (C25_content_kept_partial e P D) as (_ & _ & C). specialize (C _ _ X K). now rewrite Q in C.
Qed.
Lemma named_one n es ks ks' : named_kids n es ks -> named_kids n es ks' -> ks = ks'.
Proof.
  intros H. revert ks'. induction H; intros ks' H'; inversion H'; subst; try contradiction; [reflexivity|f_equal|]; auto.
Qed.
Ltac xname := repeat split; try discriminate; vm_compute; intuition discriminate.
Section Exchanges.
  Context (E : env).
  Lemma tags_fine e d : exchange e -> elem2dict e = VDict d -> Forall (fine E Flow) (tag_jots d).
  Proof.
    intros (R & _ & ts & K & T) Q. assert (X : xml_name (lit "tag")) by xname.
    destruct (kids_read e d "tag" R Q X) as (ks & K' & _ & G). rewrite <- (named_one _ _ _ _ K K') in G. unfold tag_jots. rewrite G.
    assert (A : forall s, fine E Flow (jot_of "tag" (return_text (english (VStr s))))).
    { intros s. change (jot_of "tag" (return_text (english (VStr s)))) with (JSet (lit "tag") (VStr s)). apply text_fine. vm_compute. reflexivity. }
    destruct ts as [|t [|t2 ts]].
    - constructor.
    - inversion T as [|? ? [s P] _]; subst. rewrite (read_plain _ _ P). cbn [ensure_list]. destruct (str_eqb s []); repeat constructor. apply A.
    - cbn [ensure_list]. revert T. generalize (t :: t2 :: ts). intros l T. rewrite map_map, map_map. apply Forall_map.
      eapply Forall_impl; [|exact T]. intros k [s P]. cbv beta. rewrite (read_plain _ _ P). apply A.
  Qed.
  Lemma coefficients_fine e d : record_element e -> elem2dict e = VDict d -> Forall (fine E Flow) (coefficient_jots d).
  Proof.
    intros R Q. assert (X : xml_name (lit "transferCoefficient")) by xname.
    destruct (kids_read e d "transferCoefficient" R Q X) as (ks & _ & P & G). unfold coefficient_jots. rewrite G.
    assert (A : forall x, (forall l, x <> VList l) -> fine E Flow (JSet (lit "transferCoefficient") x)).
    { intros x. apply any_fine. vm_compute. reflexivity. }
    destruct ks as [|k [|k2 ks]]; [constructor| |].
    - inversion P as [|? ? Pk _]; subst. assert (K : Forall proper (ekids k)) by now inversion Pk.
      destruct (elem2dict_shape k K) as [(s & -> & _)| ->]; cbn [iterate]; apply Forall_map, Forall_map, Forall_forall; intros y _; apply A; discriminate.
    - cbn [iterate]. apply Forall_map, Forall_map. eapply Forall_impl; [|exact P]. intros y Py. apply A. now apply elem2dict_not_list.
  Qed.
  Lemma context_fine e d : record_element e -> elem2dict e = VDict d -> ~ allocation_context e -> context_jot d = [].
  Proof.
    intros R Q N. unfold context_jot. destruct (getf _ d) as [v|] eqn:G; [|reflexivity].
    apply (record_attr e d _ R Q) in G. destruct G as (s & -> & A). cbn [truth]. destruct (str_eqb s []) eqn:S; [reflexivity|].
    destruct N. exists s. split; [exact A|]. intros ->. discriminate S.
  Qed.
  Lemma context_there e d : record_element e -> elem2dict e = VDict d -> allocation_context e ->
    context_jot d = [JGet (lit "specificAllocationPropertyContextId")].
  Proof.
    intros R Q (s & A & N). unfold context_jot. rewrite (proj2 (record_attr e d _ R Q (VStr s)) (ex_intro _ s (conj eq_refl A))).
    cbn [truth]. destruct (str_eqb s []) eqn:S; [apply str_eqb_eq in S; contradiction|reflexivity].
  Qed.
  Lemma read_stops d : cls _ d = Flow -> exists e, snd (do_jot E (JGet (lit "specificAllocationPropertyContextId")) d) = Some e.
  Proof.
    intros C. cbn [do_jot]. unfold get_item. change (str_eqb (lit "specificAllocationPropertyContextId") (lit "__name__")) with false.
    cbv iota. rewrite C.
    assert (R : exists w v, @getf (field (vclass (lavoisier E))) (lit "specificAllocationPropertyContextId") (valid (lavoisier E) Flow) = Some w /\ f_type w = TVal v /\ f_unique w = false).
    { do 2 eexists. repeat split; vm_compute; reflexivity. }
    destruct R as (w & v & -> & T & N). destruct (getf _ (flds _ d)) as [[v' st|l]|].
    - now eexists.
    - rewrite N. now eexists.
    - rewrite T. now eexists.
  Qed.
  Lemma fields_fine (v : pyval) f : takes_text Flow f = true -> (exists s, v = VStr s) -> fine E Flow (JSet f v).
  Proof. intros T [s ->]. now apply text_fine. Qed.
End Exchanges.
Definition known_field (c : nat) (f : pystr) : bool :=
  match getf f (schema c), bare f with
  | Some w, Some k => (str_eqb k f && match f_type w with TVal _ => true | _ => false end)%bool
  | _, _ => false
  end.
Lemma known_simple c f x : known_field c f = true -> simple c (JSet f x).
Proof.
  unfold known_field, simple. destruct (getf f (schema c)) as [w|]; [|discriminate]. destruct (bare f) as [k|]; [|discriminate].
  rewrite andb_true_iff. intros [K T]. apply str_eqb_eq in K. subst k. destruct (f_type w) as [v|] eqn:Tw; [|discriminate].
  exists w, v. now repeat split.
Qed.
Lemma flags_simple c d l : forallb (fun n => known_field c (lit n)) l = true -> Forall (simple c) (flags d l).
Proof.
  induction l as [|n l IH]; [constructor|]. cbn [forallb flags flat_map]. rewrite andb_true_iff. intros [H F].
  apply Forall_app. split; [|now apply IH]. unfold flag. destruct (getf _ d) as [v|]; [|constructor]. destruct (truth v); [|constructor].
  constructor; [|constructor]. now apply known_simple.
Qed.
Lemma jot_of_simple c f r : known_field c (lit f) = true -> simple c (jot_of f r).
Proof. intros K. destruct r as [v|e]; [now apply known_simple|exact I]. Qed.
Lemma jots_stop_at E l j l' d : okd E d -> Forall (simple (cls _ d)) l ->
  (forall d', cls _ d' = cls _ d -> exists e, snd (do_jot E j d') = Some e) -> exists e, snd (jots E (l ++ j :: l') d) = Some e.
Proof.
  intros O F S. rewrite jots_app. destruct (jots_okd E l d O F) as [_ C]. destruct (jots E l d) as [d' [e|]]; [now exists e|].
  cbn [fst] in C. cbn [jots]. destruct (S d' C) as [e H]. destruct (do_jot E j d') as [d'' o]. cbn in H. subst o. now exists e.
Qed.
Section Flows.
  Context (E : env).
  Notation text v := (exists s, v = VStr s).
  (** an exchange with its own fields [l] *)
  Definition own (l : list string) (bs : list string) : bool := forallb (flag_ok Flow bs) l.
  Lemma flow_fine id fid e d l bs : text id -> text fid -> exchange e -> elem2dict e = VDict d -> ~ allocation_context e ->
    booleans e bs -> own l bs = true -> snd (jots E (flow_jots id fid d ++ flags d l) (DD _ Flow [])) = None.
  Proof.
    intros Hi Hf X Q N B O. pose proof X as (R & B' & _).
    destruct (jots_fine E (flow_jots id fid d ++ flags d l) (DD _ Flow []) (new_okd E Flow)) as (d' & -> & _); [|reflexivity].
    cbn [cls]. unfold flow_jots. rewrite !Forall_app. split; [split; [|split; [|split; [|split]]]|].
    - constructor; [|constructor; [|constructor]]; (apply fields_fine; [vm_compute; reflexivity|assumption]).
    - now apply tags_fine with (e := e).
    - apply (flags_fine E Flow e d _ _ R Q B'). vm_compute. reflexivity.
    - rewrite (context_fine e d R Q N). constructor.
    - now apply coefficients_fine with (e := e).
    - exact (flags_fine E Flow e d _ _ R Q B O).
  Qed.
  Lemma flow_stops id fid e d l : record_element e -> elem2dict e = VDict d -> allocation_context e ->
    exists x, snd (jots E (flow_jots id fid d ++ l) (DD _ Flow [])) = Some x.
  Proof.
    intros R Q A. unfold flow_jots. rewrite (context_there e d R Q A).
    replace ((([JSet (lit "id") id; JSet (lit "fId") fid] ++ tag_jots d ++
      flags d ["unitContextId"; "isCalculatedAmount"; "sourceIdOverwrittenByChild"; "specificAllocationPropertyIdOverwrittenByChild"] ++
      [JGet (lit "specificAllocationPropertyContextId")] ++ coefficient_jots d) ++ l))
    with (([JSet (lit "id") id; JSet (lit "fId") fid] ++ tag_jots d ++
      flags d ["unitContextId"; "isCalculatedAmount"; "sourceIdOverwrittenByChild"; "specificAllocationPropertyIdOverwrittenByChild"]) ++
      JGet (lit "specificAllocationPropertyContextId") :: (coefficient_jots d ++ l)) by (now rewrite <- !app_assoc).
    apply jots_stop_at; [apply new_okd| |intros d'; apply read_stops].
    cbn [cls]. rewrite !Forall_app. split; [|split].
    - constructor; [|constructor; [|constructor]]; (apply known_simple; vm_compute; reflexivity).
    - unfold tag_jots. destruct (ensure_list _ false) as [ts|x]; [|repeat constructor]. apply Forall_map, Forall_forall.
      intros t _. apply jot_of_simple. vm_compute. reflexivity.
    - apply flags_simple. vm_compute. reflexivity.
  Qed.
End Flows.

(** * Texts joined to one *)
Definition strv (r : result pyval) : Prop := exists s, r = Ok (VStr s).
Lemma plus_all_ok l : forall s, Forall strv l -> strv (plus_all (VStr s) l).
Proof.
  induction l as [|r l IH]; intros s F; [now exists s|]. inversion F as [|? ? [t ->] F']; subst. cbn [plus_all bind plus]. now apply IH.
Qed.
Lemma plus_all_err l : forall a, Exists (fun r => (exists e, r = Err e) \/ r = Ok VNone) l -> exists e, plus_all a l = Err e.
Proof.
  induction l as [|r l IH]; intros a H; [inversion H|]. inversion H as [? ? [[e ->]| ->]|? ? H']; subst; cbn [plus_all bind].
  - now exists e.
  - destruct a; now exists TypeError.
  - destruct r as [b|e]; [|now exists e]. cbn [bind]. destruct (plus a b) as [c|e]; [|now exists e]. cbn [bind]. now apply IH.
Qed.
Lemma text_strv s : strv (text_of s).
Proof. now exists (lit s). Qed.
Lemma item_strv e d n : record_element e -> elem2dict e = VDict d -> (exists s, attribute e n s) -> strv (item d (at_ n)).
Proof.
  intros R Q [s A]. unfold item. rewrite (proj2 (record_attr e d n R Q (VStr s)) (ex_intro _ s (conj eq_refl A))). now exists s.
Qed.
Lemma item_none e d n : record_element e -> elem2dict e = VDict d -> (forall s, ~ attribute e n s) -> item d (at_ n) = Err KeyError.
Proof. intros R Q A. unfold item. now rewrite (proj2 (record_none e d n R Q) A). Qed.
Lemma get_or_strv e d n s : record_element e -> elem2dict e = VDict d -> strv (get_or d n s).
Proof.
  intros R Q. unfold get_or. destruct (getf (at_ n) d) as [v|] eqn:G; [|now eexists].
  destruct (record_text e d n v R Q G) as [t ->]. now exists t.
Qed.
Lemma given_iff e d n : record_element e -> elem2dict e = VDict d ->
  (given d (at_ n) = true <-> exists s, attribute e n s /\ s <> []).
Proof.
  intros R Q. unfold given. pose proof (record_attr e d n R Q) as A. destruct (getf (at_ n) d) as [v|].
  - destruct (proj1 (A v) eq_refl) as (s & -> & I). cbn [truth]. split.
    + intros H. exists s. split; [exact I|]. intros ->. discriminate H.
    + intros (t & I' & N). destruct R as (_ & D & _). rewrite (attribute_one e n s t D I I').
      destruct (str_eqb t []) eqn:S; [apply str_eqb_eq in S; contradiction|reflexivity].
  - split; [discriminate|]. intros (s & I & _). specialize (A (VStr s)). assert (X : None = Some (VStr s)) by (apply A; now exists s). discriminate X.
Qed.
Lemma joined_strv e d i n : record_element e -> elem2dict e = VDict d -> (exists s, attribute e i s) -> (exists s, attribute e n s) ->
  strv (joined d i n).
Proof.
  intros R Q I N. unfold joined. destruct (item_strv e d i R Q I) as [s ->]. cbn [bind]. apply plus_all_ok.
  constructor; [apply text_strv|]. constructor; [now apply item_strv with (e := e)|constructor].
Qed.
Lemma jot_of_fine E c f r : takes_text c (lit f) = true -> strv r -> fine E c (jot_of f r).
Proof. intros T [s ->]. now apply text_fine. Qed.
Lemma joined_if_fine E c e d b f i n : record_element e -> elem2dict e = VDict d -> takes_text c (lit f) = true ->
  (b = true -> (exists s, attribute e i s) /\ exists s, attribute e n s) -> Forall (fine E c) (joined_if b d f i n).
Proof.
  intros R Q T H. unfold joined_if. destruct b; [|constructor]. constructor; [|constructor]. destruct (H eq_refl) as [I N].
  apply jot_of_fine; [exact T|]. now apply joined_strv with (e := e).
Qed.
Lemma joined_if_simple c b d f i n : known_field c (lit f) = true -> Forall (simple c) (joined_if b d f i n).
Proof. intros T. unfold joined_if. destruct b; [|constructor]. constructor; [|constructor]. now apply jot_of_simple. Qed.
Lemma given_attr e d n : record_element e -> elem2dict e = VDict d -> given d (at_ n) = true -> exists s, attribute e n s.
Proof. intros R Q G. apply (given_iff e d n R Q) in G. destruct G as (s & A & _). now exists s. Qed.
Lemma shown_strv show v : (exists s, v = VStr s) \/ (exists d, v = VDict d) \/ (exists l, v = VList l) -> strv (shown show v).
Proof. intros [[s ->]|[[d ->]|[l ->]]]; unfold shown; cbn [iterate bind]; now eexists. Qed.
Lemma kid_shape e d n v : record_element e -> elem2dict e = VDict d -> xml_name (lit n) -> getf (lit n) d = Some v ->
  (exists s, v = VStr s) \/ (exists d, v = VDict d) \/ (exists l, v = VList l).
Proof.
  intros R Q X G. destruct (kids_read e d n R Q X) as (ks & _ & P & G'). rewrite G in G'. destruct ks as [|k [|k2 ks]]; [discriminate| |].
  - injection G' as ->. inversion P as [|? ? Pk _]; subst. assert (K : Forall proper (ekids k)) by now inversion Pk.
    destruct (elem2dict_shape k K) as [(s & -> & _)| ->]; eauto.
  - injection G' as ->. eauto.
Qed.

(** * Administrative data *)
Section Admin.
  Context (E : env) (show : list pyval -> pystr).
  Notation U := (lavoisier E).
  Lemma entry_by_fine e d : by_person e -> elem2dict e = VDict d -> Forall (fine E Aside) (entry_by_jots d).
  Proof.
    intros (R & P) Q. unfold entry_by_jots. apply (joined_if_fine E Aside e d); [exact R|exact Q|vm_compute; reflexivity|].
    intros G. split; [exact P|now apply given_attr with (d := d)].
  Qed.
  Lemma generator_fine e d : by_person e -> elem2dict e = VDict d -> ~ company_context_only e -> Forall (fine E Aside) (generator_jots d).
  Proof.
    intros (R & P) Q N. unfold generator_jots. rewrite !Forall_app. split; [|split; [|split; [|split]]];
      apply (joined_if_fine E Aside e d); try exact R; try exact Q; try (vm_compute; reflexivity); intros G;
      try (apply andb_true_iff in G; destruct G as [G G']).
    - split; [exact P|now apply given_attr with (d := d)].
    - split; [exact P|now apply given_attr with (d := d)].
    - split; [exact P|now apply given_attr with (d := d)].
    - split; [now apply given_attr with (d := d)|now apply given_attr with (d := d)].
    - split; [|now apply given_attr with (d := d)]. destruct (getf (at_ "companyId") d) as [v|] eqn:C.
      + apply (record_attr e d _ R Q) in C. destruct C as (s & _ & A). now exists s.
      + exfalso. apply N. split; [now apply (given_iff e d _ R Q)|]. now apply (record_none e d _ R Q).
  Qed.
  Lemma raise_stops x d : exists y, snd (do_jot E (JRaise x) d) = Some y.
  Proof. now exists x. Qed.
  Lemma generator_stops e d z : record_element e -> elem2dict e = VDict d -> company_context_only e -> okd E z -> cls U z = Aside ->
    exists x, snd (jots E (generator_jots d) z) = Some x.
  Proof.
    intros R Q [A N] O C. unfold generator_jots.
    assert (L : joined_if (given d (at_ "companyContextId")) d "companyContextId" "companyId" "companyContextId" = [JRaise KeyError]).
    { unfold joined_if. rewrite (proj2 (given_iff e d _ R Q) A). unfold joined. now rewrite (item_none e d _ R Q N). }
    rewrite L, !app_assoc. apply jots_stop_at; [exact O| |intros; apply raise_stops]. rewrite C, !Forall_app.
    repeat split; apply joined_if_simple; vm_compute; reflexivity.
  Qed.
  Lemma generator_simple d : Forall (simple Aside) (generator_jots d).
  Proof. unfold generator_jots. rewrite !Forall_app. repeat split; apply joined_if_simple; vm_compute; reflexivity. Qed.
  Lemma file_fine e d : record_element e -> elem2dict e = VDict d -> Forall (fine E Aside) (file_jots show d).
  Proof.
    intros R Q. unfold file_jots. constructor; [|constructor; [|constructor]]; apply jot_of_fine; try (vm_compute; reflexivity).
    - destruct (get_or_strv e d "majorRelease" "-" R Q) as [s ->]. cbn [bind]. apply plus_all_ok.
      repeat constructor; try apply text_strv; now apply get_or_strv with (e := e).
    - assert (X : xml_name (lit "contextName")) by xname.
      assert (S : strv (shown show (match getf (lit "contextName") d with Some v => v | None => VList [] end))).
      { apply shown_strv. destruct (getf (lit "contextName") d) as [v|] eqn:G; [exact (kid_shape e d _ v R Q X G)|right; right; now exists []]. }
      destruct S as [s ->]. cbn [bind]. apply plus_all_ok.
      repeat constructor; try apply text_strv; now apply get_or_strv with (e := e).
  Qed.
  Lemma names_read e d : required_context e -> elem2dict e = VDict d -> exists s, bind (item d (lit "requiredContextName")) (shown show) = Ok (VStr s).
  Proof.
    intros (R & (ns & K & N) & _) Q. assert (X : xml_name (lit "requiredContextName")) by xname.
    destruct (kids_read e d "requiredContextName" R Q X) as (ks & K' & P & G). rewrite <- (named_one _ _ _ _ K K') in *.
    unfold item. destruct (getf _ d) as [v|] eqn:Gv.
    - cbn [bind]. apply shown_strv. exact (kid_shape e d _ v R Q X Gv).
    - destruct ns as [|n1 [|n2 ns]]; [contradiction|discriminate G|discriminate G].
  Qed.
  Lemma context_fine_ e d : required_context e -> elem2dict e = VDict d -> (exists s, attribute e "requiredContextFileLocation" s) ->
    Forall (fine E Aside) (context_jots show d).
  Proof.
    intros C Q L. pose proof C as (R & _ & A1 & A2 & A3). unfold context_jots. constructor; [|constructor].
    apply jot_of_fine; [vm_compute; reflexivity|]. destruct (names_read e d C Q) as [s S].
    destruct (item d (lit "requiredContextName")) as [v|]; [|discriminate S]. cbn [bind] in S |- *. rewrite S. cbn [bind]. apply plus_all_ok.
    repeat constructor; try apply text_strv; try (now apply item_strv with (e := e)); try (now apply get_or_strv with (e := e)).
    destruct L as [t A]. rewrite (proj2 (record_attr e d _ R Q (VStr t)) (ex_intro _ t (conj eq_refl A))). now exists t.
  Qed.
  Lemma context_stops e d z : record_element e -> elem2dict e = VDict d -> (forall s, ~ attribute e "requiredContextFileLocation" s) ->
    exists x, snd (jots E (context_jots show d) z) = Some x.
  Proof.
    intros R Q N. unfold context_jots.
    assert (X : exists x, bind (item d (lit "requiredContextName")) (fun v => bind (shown show v) (fun a => plus_all a
       [bar; item d (at_ "majorRelease"); bar; item d (at_ "minorRelease"); bar; get_or d "majorRevision" "-";
        bar; get_or d "minorRevision" "-"; bar; item d (at_ "requiredContextId");
        bar; Ok (match getf (at_ "requiredContextFileLocation") d with Some v => v | None => VNone end)])) = Err x).
    { destruct (item d (lit "requiredContextName")) as [v|x]; [|now exists x]. cbn [bind]. destruct (shown show v) as [a|x]; [|now exists x].
      cbn [bind]. apply plus_all_err. rewrite (proj2 (record_none e d _ R Q) N). do 11 apply Exists_cons_tl. apply Exists_cons_hd. now right. }
    destruct X as [x ->]. now exists x.
  Qed.
  Lemma context_simple d : Forall (simple Aside) (context_jots show d).
  Proof. constructor; [|constructor]. apply jot_of_simple. vm_compute. reflexivity. Qed.
  Lemma review_fine e d : review_element e -> elem2dict e = VDict d -> Forall (fine E Aside) (review_jots d).
  Proof.
    intros (R & A) Q. unfold review_jots. constructor; [|constructor].
    destruct (item_strv e d "reviewedMajorRelease" R Q) as [s ->]; [apply A; cbn; tauto|]. cbn [bind].
    match goal with |- fine _ _ (jot_of _ (bind ?p _)) => assert (P : strv p) end.
    { apply plus_all_ok. repeat constructor; try apply text_strv; (apply item_strv with (e := e); [exact R|exact Q|apply A; cbn; tauto]). }
    destruct P as [t ->]. cbn [bind].
    destruct (item_strv e d "reviewerId" R Q) as [i ->]; [apply A; cbn; tauto|]. cbn [bind].
    destruct (item_strv e d "reviewDate" R Q) as [u ->]; [apply A; cbn; tauto|]. cbn [bind jot_of].
    apply any_fine; [vm_compute; reflexivity|discriminate].
  Qed.
End Admin.

(** * Runs *)
Definition keeping_known (h : keeping) : bool := match h with KNote f | KText f => known_field Aside (lit f) | _ => true end.
Lemma keepings_known k h : getf k keepings = Some h -> keeping_known h = true.
Proof.
  intros G. apply HandleProofs.In_getf in G.
  assert (C : forallb (fun kh => keeping_known (snd kh)) keepings = true) by (vm_compute; reflexivity).
  rewrite forallb_forall in C. exact (C _ G).
Qed.
Section Runs.
  Context (E : env) (show : list pyval -> pystr).
  Notation U := (lavoisier E).
  Definition good (d : dd U) : Prop := okd E d /\ cls U d = Aside.
  Lemma note0_good : good (note0 E).
  Proof. split; [apply new_okd|reflexivity]. Qed.
  Lemma simple_good l d : good d -> Forall (simple Aside) l -> good (fst (jots E l d)).
  Proof.
    intros [O C] F. rewrite <- C in F. destruct (jots_okd E l d O F) as [O' C']. split; [exact O'|congruence].
  Qed.
  Lemma keep_good h x d : keeping_known h = true -> good d -> good (fst (keep E show h x d)).
  Proof.
    intros K G. destruct h; cbn [keep fst]; try exact G; try (apply simple_good; [exact G|]).
    - constructor; [|constructor]. now apply known_simple.
    - constructor; [|constructor]. now apply jot_of_simple.
    - unfold entry_by_jots. apply joined_if_simple. vm_compute. reflexivity.
    - apply generator_simple.
    - unfold file_jots. repeat constructor; (apply jot_of_simple; vm_compute; reflexivity).
    - apply context_simple.
    - unfold review_jots. repeat constructor. apply jot_of_simple; vm_compute; reflexivity.
  Qed.
  Lemma set_aside_good rest r : forall d d', good d -> set_aside E show rest r d = Ok d' -> good d'.
  Proof.
    induction r as [|[k x] r IH]; intros d d' G; cbn [set_aside]; [intros [= <-]; exact G|].
    destruct (rest k x) as [[]|]; [|discriminate]. cbn [bind]. destruct (getf k keepings) as [h|] eqn:K; [|now apply IH].
    pose proof (keep_good h x d (keepings_known k h K) G) as G'. destruct (keep E show h x d) as [d1 [e|]]; [discriminate|].
    now apply IH.
  Qed.
  Lemma set_aside_stops rest k h x r : getf k keepings = Some h ->
    (forall d, good d -> exists e, snd (keep E show h x d) = Some e) -> In (k, x) r ->
    forall d, good d -> exists e, set_aside E show rest r d = Err e.
  Proof.
    intros K S. induction r as [|[k' x'] r IH]; [contradiction|]. intros I d G. cbn [set_aside].
    destruct (rest k' x') as [[]|e]; [|now exists e]. cbn [bind]. destruct I as [Q|I].
    - injection Q as -> ->. rewrite K. destruct (S d G) as [e H]. destruct (keep E show h x d) as [d1 o]. cbn in H. subst o. now exists e.
    - destruct (getf k' keepings) as [h'|] eqn:K'; [|now apply IH].
      pose proof (keep_good h' x' d (keepings_known k' h' K') G) as G'. destruct (keep E show h' x' d) as [d1 [e|]]; [now exists e|].
      now apply IH.
  Qed.
  Lemma set_aside_passes rest r : (forall k x, In (k, x) r -> rest k x = Ok tt) ->
    (forall k x h d, In (k, x) r -> getf k keepings = Some h -> good d -> snd (keep E show h x d) = None) ->
    forall d, good d -> exists d', set_aside E show rest r d = Ok d'.
  Proof.
    induction r as [|[k x] r IH]; intros R S d G; cbn [set_aside]; [now exists d|].
    rewrite (R k x (or_introl eq_refl)). cbn [bind].
    assert (R' : forall k x, In (k, x) r -> rest k x = Ok tt) by (intros; apply R; now right).
    assert (S' : forall k x h d, In (k, x) r -> getf k keepings = Some h -> good d -> snd (keep E show h x d) = None)
      by (intros ? ? ? ? I; apply S; now right).
    destruct (getf k keepings) as [h|] eqn:K; [|now apply IH].
    pose proof (keep_good h x d (keepings_known k h K) G) as G'. pose proof (S k x h d (or_introl eq_refl) K G) as N.
    destruct (keep E show h x d) as [d1 o]. cbn in N. subst o. now apply IH.
  Qed.
  Lemma fine_passes l d : good d -> Forall (fine E Aside) l -> snd (jots E l d) = None.
  Proof. intros [O C] F. rewrite <- C in F. destruct (jots_fine E l d O F) as (d' & -> & _). reflexivity. Qed.
End Runs.

(** * What stays *)
Definition away (f : pystr) (j : jot) : Prop := match j with JSet g _ => str_eqb g f = false | _ => True end.
Section Stays.
  Context (E : env) (show : list pyval -> pystr).
  Notation U := (lavoisier E).
  Lemma set_one_away f g w v d a : okd E d -> getf g (schema (cls U d)) = Some w -> f_type w = TVal v -> str_eqb g f = false ->
    getf f (flds U (fst (set_one U (build U) g w d a))) = getf f (flds U d).
  Proof.
    intros O R T N. assert (T' : @f_type (vclass U) w = TVal v) by exact T. unfold set_one. destruct (getf g (flds U d)) as [h|] eqn:G.
    - destruct (_ && _)%bool; [reflexivity|]. rewrite T'. destruct (O _ _ _ _ G R T) as [st ->].
      destruct (vadd U v st _) as [st' e]. cbn [fst flds]. now apply getf_putf_other.
    - rewrite T'. destruct (vadd U v None _) as [st' [e|]]; [reflexivity|]. cbn [fst flds]. now apply getf_putf_other.
  Qed.
  Lemma set_many_away f g w v l : forall d, okd E d -> getf g (schema (cls U d)) = Some w -> f_type w = TVal v -> str_eqb g f = false ->
    getf f (flds U (fst (set_many U (build U) g w d l))) = getf f (flds U d).
  Proof.
    induction l as [|a l IH]; intros d O R T N; [reflexivity|]. cbn [set_many].
    pose proof (set_one_away f g w v d a O R T N) as S. destruct (set_one_okd E d g w v a O R T _ eq_refl) as [O' C'].
    destruct (set_one U (build U) g w d a) as [d' [e|]]; cbn [fst] in *; [exact S|]. rewrite IH; [exact S|exact O'|now rewrite C'|exact T|exact N].
  Qed.
  Lemma do_away f j d : okd E d -> simple (cls U d) j -> away f j -> getf f (flds U (fst (do_jot E j d))) = getf f (flds U d).
  Proof.
    intros O S A. destruct j as [g x|g|e]; [|contradiction|reflexivity]. destruct S as (w & v & R & B & T). cbn [do_jot away] in *.
    unfold set_item, set_item_with. rewrite B. assert (R' : @getf (field (vclass U)) g (valid U (cls U d)) = Some w) by exact R. rewrite R'.
    destruct (arg_of E x); try (now apply set_one_away with (v := v)). now apply set_many_away with (v := v).
  Qed.
  Lemma jots_away f l : forall d, okd E d -> Forall (simple (cls U d)) l -> Forall (away f) l ->
    getf f (flds U (fst (jots E l d))) = getf f (flds U d).
  Proof.
    induction l as [|j l IH]; intros d O F A; [reflexivity|]. inversion F as [|? ? Fj Fl]; subst. inversion A as [|? ? Aj Al]; subst. cbn [jots].
    pose proof (do_away f j d O Fj Aj) as S. destruct (do_okd E j d O Fj) as [O' C']. destruct (do_jot E j d) as [d' [e|]]; cbn [fst] in *; [exact S|].
    rewrite <- C' in Fl. now rewrite (IH d' O' Fl Al).
  Qed.
  Definition others : list string :=
    ["dataEntryBy_personContextId"; "dataGeneratorAndPublication_personContextId"; "publishedSourceIdOverwrittenByChild";
     "publishedSourceContextId"; "companyIdOverwrittenByChild"; "companyContextId"; "version"; "fileInfo"; "requiredContext"; "review"].
  Definition apart (f : pystr) : bool := forallb (fun g => negb (str_eqb (lit g) f)) others.
  Lemma apart_away f g r : apart f = true -> In g others -> away f (jot_of g r).
  Proof.
    unfold apart. rewrite forallb_forall. intros A I. specialize (A g I). apply negb_true_iff in A. destruct r; [exact A|exact Logic.I].
  Qed.
  Lemma joined_away f b d g i n : apart f = true -> In g others -> Forall (away f) (joined_if b d g i n).
  Proof. intros A I. unfold joined_if. destruct b; constructor; [|constructor]. now apply apart_away. Qed.
  Definition writes (f : pystr) (h : keeping) : bool :=
    match h with KNote g | KText g => str_eqb (lit g) f | _ => false end.
  Lemma keep_away f h x d : keeping_known h = true -> apart f = true -> writes f h = false -> good E d ->
    getf f (flds U (fst (keep E show h x d))) = getf f (flds U d).
  Proof.
    intros K A W G. pose proof G as [O C]. destruct h; cbn [keep fst]; try reflexivity; (apply jots_away; [exact O|rewrite C|]);
      cbn [writes keeping_known] in *.
    - constructor; [now apply known_simple|constructor].
    - constructor; [exact W|constructor].
    - constructor; [now apply jot_of_simple|constructor].
    - constructor; [|constructor]. destruct (return_text x); [exact W|exact Logic.I].
    - unfold entry_by_jots. apply joined_if_simple. vm_compute. reflexivity.
    - unfold entry_by_jots. apply joined_away; [exact A|cbn; tauto].
    - apply generator_simple.
    - unfold generator_jots. rewrite !Forall_app. repeat split; (apply joined_away; [exact A|cbn; tauto]).
    - unfold file_jots. repeat constructor; (apply jot_of_simple; vm_compute; reflexivity).
    - unfold file_jots. repeat constructor; (apply apart_away; [exact A|cbn; tauto]).
    - apply context_simple.
    - unfold context_jots. repeat constructor; (apply apart_away; [exact A|cbn; tauto]).
    - unfold review_jots. repeat constructor. apply jot_of_simple; vm_compute; reflexivity.
    - unfold review_jots. repeat constructor; (apply apart_away; [exact A|cbn; tauto]).
  Qed.
  Lemma set_aside_away f rest r : apart f = true -> (forall k x h, In (k, x) r -> getf k keepings = Some h -> writes f h = false) ->
    forall d d', good E d -> set_aside E show rest r d = Ok d' -> getf f (flds U d') = getf f (flds U d).
  Proof.
    intros A. induction r as [|[k x] r IH]; intros W d d' G; cbn [set_aside]; [intros [= <-]; reflexivity|].
    assert (W' : forall k x h, In (k, x) r -> getf k keepings = Some h -> writes f h = false) by (intros ? ? ? I; eapply W; right; exact I).
    destruct (rest k x) as [[]|]; [|discriminate]. cbn [bind]. destruct (getf k keepings) as [h|] eqn:K; [|now apply IH].
    pose proof (keep_good E show h x d (keepings_known k h K) G) as G'.
    pose proof (keep_away f h x d (keepings_known k h K) A (W k x h (or_introl eq_refl) K) G) as S.
    destruct (keep E show h x d) as [d1 [e|]]; [discriminate|]. cbn [fst] in *. intros H. now rewrite (IH W' d1 d' G' H).
  Qed.
  Lemma set_aside_app rest r : forall r' d, set_aside E show rest (r ++ r') d = bind (set_aside E show rest r d) (set_aside E show rest r').
  Proof.
    induction r as [|[k x] r IH]; intros r' d; [reflexivity|]. cbn [app set_aside]. destruct (rest k x) as [[]|e]; [|reflexivity]. cbn [bind].
    destruct (getf k keepings) as [h|]; [|apply IH]. destruct (keep E show h x d) as [d1 [e|]]; [reflexivity|apply IH].
  Qed.
End Stays.

(** * What the reader reports of attributes *)
Lemma attributes_reported keys e : proper e -> forall n q k x, name_of (etag e) n -> In (k, x) (reports keys q e) ->
  (exists r f, k = q ++ r /\ part e (lit "/" ++ n ++ r) f /\ x = elem2dict f) \/
  (exists r f m s, k = q ++ r ++ lit "/@" ++ m /\ part e (lit "/" ++ n ++ r) f /\ In (m, s) (eattrib f) /\ x = VStr s).
Proof.
  induction e as [t a x0 l es IH] using elem_ind2. intros P n q k x Hn H. cbn [reports] in H. apply in_app_or in H.
  inversion P as [? ? ? ? ? m Hm Xm F]; subst. cbn [etag] in Hn. destruct H as [H|H].
  - apply in_flat_map in H. destruct H as (kid & Ik & H). rewrite Forall_forall in IH, F. specialize (IH kid Ik).
    pose proof (F kid Ik) as Pk. assert (exists kn, name_of (etag kid) kn) as [kn Hk] by (inversion Pk; subst; eauto).
    rewrite (name_local _ _ Hk) in H. destruct (IH Pk kn _ k x Hk H) as [(r & f & -> & Hp & ->)|(r & f & m' & s & -> & Hp & I & ->)]; [left|right].
    + exists (lit "/" ++ kn ++ r), f. split; [now rewrite <- !app_assoc|]. split; [|reflexivity]. now apply (part_kid _ _ _ _ _ n kid).
    + exists (lit "/" ++ kn ++ r), f, m', s. split; [now rewrite <- !app_assoc|]. split; [|now split]. now apply (part_kid _ _ _ _ _ n kid).
  - unfold due in H. apply in_app_or in H. cbn [fst snd eattrib] in H. destruct H as [H|H].
    + destruct (in_dec _ _ _); [|contradiction]. destruct H as [Q|[]]. injection Q as <- <-. left. exists [], (Elem t a x0 l es).
      rewrite !app_nil_r. split; [reflexivity|]. split; [|reflexivity]. now constructor.
    + apply in_flat_map in H. destruct H as ([m' s] & I & H). destruct (in_dec _ _ _); [|contradiction].
      destruct H as [Q|[]]. injection Q as <- <-. right. exists [], (Elem t a x0 l es), m', s. split; [reflexivity|]. rewrite app_nil_r.
      split; [now constructor|]. now split.
Qed.
Lemma read_reported keys e k x : proper e -> In (k, x) (read keys e) ->
  (exists f, part e k f /\ x = elem2dict f) \/
  (exists p f m s, k = p ++ lit "/@" ++ m /\ part e p f /\ In (m, s) (eattrib f) /\ x = VStr s).
Proof.
  intros P H. rewrite (read_reports keys e P) in H.
  assert (exists n, name_of (etag e) n) as [n Hn] by (inversion P; subst; cbn; eauto).
  rewrite (name_local _ _ Hn) in H.
  destruct (attributes_reported keys e P n _ k x Hn H) as [(r & f & Q & Hp & ->)|(r & f & m & s & Q & Hp & I & ->)].
  - left. exists f. split; [|reflexivity]. subst k. now rewrite <- app_assoc.
  - right. exists (lit "/" ++ n ++ r), f, m, s. split; [|now split]. subst k. now rewrite <- !app_assoc.
Qed.
