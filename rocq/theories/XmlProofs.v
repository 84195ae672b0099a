From Coq Require Import Ascii String List Bool Arith NArith ZArith Lia.
From Verif Require Import PyBase PyBaseFacts PyValues MultiLangModel DotDictModel DotDictProofs XmlModel XmlSpec.
Import ListNotations.

Fixpoint elem_ind2 (P : elem -> Prop)
  (H : forall t a x l kids, Forall P kids -> P (Elem t a x l kids)) (e : elem) : P e :=
  match e with
  | Elem t a x l kids => H t a x l kids
      ((fix go (ks : list elem) : Forall P ks :=
          match ks with [] => Forall_nil _ | k :: ks' => Forall_cons k (elem_ind2 P H k) (go ks') end) kids)
  end.

(** * Names *)
Lemma take_until_app c a b : ~ In c a -> take_until c (a ++ c :: b) = a.
Proof.
  induction a as [|x a IH]; intros H; simpl.
  - now rewrite N.eqb_refl.
  - destruct (N.eqb x c) eqn:E; [apply N.eqb_eq in E; subst; exfalso; apply H; now left|].
    rewrite IH; auto. intros F. apply H. now right.
Qed.
Lemma take_until_no c a : ~ In c a -> take_until c a = a.
Proof.
  induction a as [|x a IH]; intros H; simpl; auto.
  destruct (N.eqb x c) eqn:E; [apply N.eqb_eq in E; subst; exfalso; apply H; now left|].
  rewrite IH; auto. intros F. apply H. now right.
Qed.
Lemma drop_until_app c a b : ~ In c a -> drop_until c (a ++ c :: b) = b.
Proof.
  induction a as [|x a IH]; intros H; simpl.
  - now rewrite N.eqb_refl.
  - destruct (N.eqb x c) eqn:E; [apply N.eqb_eq in E; subst; exfalso; apply H; now left|].
    apply IH. intros F. apply H. now right.
Qed.
Lemma rpart_last_app c a b : ~ In c b -> rpart_last c (a ++ c :: b) = b.
Proof.
  intros H. unfold rpart_last. rewrite rev_app_distr. simpl. rewrite <- app_assoc. simpl.
  rewrite take_until_app by (now rewrite <- in_rev). apply rev_involutive.
Qed.
Lemma rpart_last_no c b : ~ In c b -> rpart_last c b = b.
Proof.
  intros H. unfold rpart_last. rewrite take_until_no by (now rewrite <- in_rev). apply rev_involutive.
Qed.
Lemma rpart_first_app c a b : ~ In c b -> rpart_first c (a ++ c :: b) = a.
Proof.
  intros H. unfold rpart_first. rewrite rev_app_distr. simpl. rewrite <- app_assoc. simpl.
  rewrite drop_until_app by (now rewrite <- in_rev). apply rev_involutive.
Qed.
Lemma infix1 c s : infixb [c] s = true <-> In c s.
Proof.
  induction s as [|x s IH]; simpl.
  - split; [discriminate|tauto].
  - rewrite andb_true_r, orb_true_iff, IH, N.eqb_eq. split; intros [H|H]; auto.
Qed.
Lemma name_rpart t n : name_of t n -> rpart_last (ch "}") t = n.
Proof.
  intros [H [->|(ns & ->)]].
  - now apply rpart_last_no.
  - change (lit "{" ++ ns ++ lit "}" ++ n) with (ch "{" :: ns ++ ch "}" :: n).
    rewrite app_comm_cons. now apply rpart_last_app.
Qed.
Lemma name_local t n : name_of t n -> local t = n.
Proof.
  intros H. unfold local. destruct (infixb (lit "}") t) eqn:E; [now apply name_rpart|].
  destruct H as [H [->|(ns & ->)]]; auto. exfalso.
  assert (I : infixb [ch "}"] (lit "{" ++ ns ++ lit "}" ++ n) = true).
  { apply infix1. apply in_or_app. right. apply in_or_app. right. now left. }
  exact (eq_true_false_abs _ I E).
Qed.

(** * The stream *)
Lemma str_in_dec x l : str_in x l = if in_dec (list_eq_dec N.eq_dec) x l then true else false.
Proof.
  destruct (in_dec (list_eq_dec N.eq_dec) x l) as [H|H].
  - now apply str_in_In.
  - destruct (str_in x l) eqn:E; auto. apply str_in_In in E. contradiction.
Qed.
Lemma worth_always e : worth_reporting e = true.
Proof.
  unfold worth_reporting. assert (T : text_flag (etext e) = true) by (destruct (etext e); reflexivity).
  rewrite T. now rewrite orb_true_r.
Qed.
Lemma gen_end keys p e evs :
  gen_return keys p (EEnd e :: evs) =
  (due keys (p, e) ++ fst (gen_return keys (rpart_first (ch "/") p) evs), snd (gen_return keys (rpart_first (ch "/") p) evs)).
Proof.
  cbn [gen_return]. rewrite worth_always, andb_true_r, str_in_dec. unfold due. cbn [fst snd].
  destruct (gen_return keys (rpart_first (ch "/") p) evs) as [r q]. cbn [fst snd]. f_equal.
  rewrite <- app_assoc. f_equal.
  - now destruct (in_dec (list_eq_dec N.eq_dec) _ _).
  - f_equal. apply flat_map_ext. intros [k v]. cbn [fst snd]. rewrite str_in_dec. now destruct (in_dec (list_eq_dec N.eq_dec) _ _).
Qed.

Theorem gen_spec keys e : proper e -> forall p cs evs, closes p e cs ->
  gen_return keys p (events e ++ evs)
  = (flat_map (due keys) cs ++ fst (gen_return keys p evs), snd (gen_return keys p evs)).
Proof.
  induction e as [t a x l kids IH] using elem_ind2. intros P p cs evs C.
  inversion P as [? ? ? ? ? n Hn Hx Hk]; subst. inversion C as [? ? ? ? ? n' css Hn' Hc]; subst.
  assert (n' = n) by (rewrite <- (name_rpart _ _ Hn), <- (name_rpart _ _ Hn'); reflexivity). subst n'.
  cbn [events]. rewrite <- app_comm_cons, <- app_assoc. cbn [gen_return etag]. rewrite (name_rpart _ _ Hn).
  set (q := p ++ lit "/" ++ n) in *.
  assert (K : forall ks css evs, Forall (fun e => proper e -> forall p cs evs, closes p e cs ->
        gen_return keys p (events e ++ evs)
        = (flat_map (due keys) cs ++ fst (gen_return keys p evs), snd (gen_return keys p evs))) ks ->
      Forall proper ks -> closes_all q ks css ->
      gen_return keys q (flat_map events ks ++ evs)
      = (flat_map (due keys) css ++ fst (gen_return keys q evs), snd (gen_return keys q evs))).
  { clear. induction ks as [|k ks IHk]; intros css evs F G C; inversion C; subst; cbn [flat_map].
    - cbn [app]. now destruct (gen_return keys q evs).
    - inversion F as [|? ? F1 F2]; inversion G as [|? ? G1 G2]; subst. rewrite <- app_assoc.
      erewrite F1; [|assumption|eassumption]. erewrite IHk by eassumption. cbn [fst snd].
      now rewrite flat_map_app, app_assoc. }
  rewrite (K kids css ([EEnd (Elem t a x l kids)] ++ evs) IH Hk Hc).
  cbn [app]. rewrite gen_end. cbn [fst snd].
  assert (R : rpart_first (ch "/") q = p).
  { subst q. change (lit "/" ++ n) with (ch "/" :: n). apply rpart_first_app. apply Hx. }
  rewrite R. rewrite flat_map_app. cbn [flat_map]. rewrite app_nil_r, <- app_assoc. reflexivity.
Qed.
Lemma closes_exist e : proper e -> forall p, exists cs, closes p e cs.
Proof.
  induction e as [t a x l kids IH] using elem_ind2. intros P p. inversion P as [? ? ? ? ? n Hn Hx Hk]; subst.
  assert (K : exists css, closes_all (p ++ lit "/" ++ n) kids css).
  { clear -IH Hk. induction kids as [|k ks IHk]; [eexists; constructor|].
    inversion IH as [|? ? F1 F2]; inversion Hk as [|? ? G1 G2]; subst.
    destruct (F1 G1 (p ++ lit "/" ++ n)) as [c Hc].
    destruct (IHk F2 G2) as [cs Hcs]. eexists. econstructor; eauto. }
  destruct K as [css K]. eexists. econstructor; eauto.
Qed.

(** * Dictionaries *)
Lemma getf_putf_other {A} k (v : A) l k' : k' <> k -> getf k' (putf k v l) = getf k' l.
Proof.
  intros D. induction l as [|[k0 b] l IH]; simpl.
  - destruct (str_eqb k k') eqn:E; auto. apply str_eqb_eq in E. congruence.
  - destruct (str_eqb k0 k) eqn:E; simpl.
    + destruct (str_eqb k0 k') eqn:E2; auto. apply str_eqb_eq in E, E2. congruence.
    + now rewrite IH.
Qed.
Definition str_dec := list_eq_dec N.eq_dec.
Definition grouped (vs : list pyval) : option pyval :=
  match vs with [] => None | [v] => Some v | _ => Some (VList vs) end.
Definition not_list (v : pyval) : Prop := forall l, v <> VList l.
Definition vals (n : pystr) (kvs : list (pystr * pyval)) : list pyval :=
  map snd (filter (fun kv => str_eqb (fst kv) n) kvs).
Lemma fold_child_other kvs : forall r n, ~ In n (map fst kvs) -> getf n (fold_left add_child kvs r) = getf n r.
Proof.
  induction kvs as [|[k v] kvs IH]; intros r n H; simpl; auto. rewrite IH; [|intros F; apply H; now right].
  unfold add_child. cbn [fst snd]. assert (n <> k) by (intros ->; apply H; now left).
  destruct (getf k r) as [[]|]; now apply getf_putf_other.
Qed.
Lemma fold_child kvs : forall r n pre,
  Forall (fun kv => not_list (snd kv)) kvs -> Forall not_list pre ->
  getf n r = grouped pre -> getf n (fold_left add_child kvs r) = grouped (pre ++ vals n kvs).
Proof.
  induction kvs as [|[k v] kvs IH]; intros r n pre F P G; simpl.
  - unfold vals. simpl. now rewrite app_nil_r.
  - inversion F as [|? ? Fv Fr]; subst. cbn [snd] in Fv. unfold vals. cbn [filter fst].
    destruct (str_eqb k n) eqn:E.
    + apply str_eqb_eq in E. subst k. cbn [map snd]. change (v :: map snd _) with ([v] ++ vals n kvs).
      rewrite app_assoc. apply IH; auto.
      * apply Forall_app. split; auto.
      * unfold add_child. cbn [fst snd]. rewrite G. destruct pre as [|p1 [|p2 pre]]; cbn [grouped].
        -- apply getf_putf.
        -- inversion P as [|? ? P1 _]; subst. destruct p1; try apply getf_putf. exfalso. now apply (P1 l).
        -- rewrite getf_putf. reflexivity.
    + apply IH; auto. unfold add_child. cbn [fst snd].
      assert (n <> k) by (intros ->; rewrite str_eqb_refl in E; discriminate).
      destruct (getf k r) as [[]|]; rewrite getf_putf_other by assumption; exact G.
Qed.

(** entries of attributes *)
Definition at_entries (a : list (pystr * pystr)) : list (pystr * pyval) :=
  fold_left (fun r kv => putf (lit "@" ++ local (fst kv)) (VStr (snd kv)) r) a [].
Lemma fold_at_other a : forall r key, ~ In key (map (fun kv => lit "@" ++ local (fst kv)) a) ->
  getf key (fold_left (fun r kv => putf (lit "@" ++ local (fst kv)) (VStr (snd kv)) r) a r) = getf key r.
Proof.
  induction a as [|[k v] a IH]; intros r key H; [reflexivity|]. cbn [fold_left]. rewrite IH.
  - apply getf_putf_other. intros ->. apply H. now left.
  - intros F. apply H. now right.
Qed.
Lemma fold_at_in a : forall r k v, NoDup (map (fun kv : pystr * pystr => local (fst kv)) a) -> In (k, v) a ->
  getf (lit "@" ++ local k) (fold_left (fun r kv => putf (lit "@" ++ local (fst kv)) (VStr (snd kv)) r) a r) = Some (VStr v).
Proof.
  induction a as [|[k0 v0] a IH]; intros r k v N H; [destruct H|]. cbn [fold_left]. inversion N as [|? ? N1 N2]; subst.
  destruct H as [H|H].
  - inversion H; subst. rewrite fold_at_other; [apply getf_putf|].
    intros F. apply in_map_iff in F. destruct F as (kv & E & F). apply app_inv_head in E.
    apply N1. cbn [fst]. rewrite <- E. now apply (in_map (fun kv : pystr * pystr => local (fst kv))).
  - now apply IH.
Qed.
Lemma getf_at_some a key v : getf key (at_entries a) = Some v ->
  exists k w, In (k, w) a /\ key = lit "@" ++ local k.
Proof.
  unfold at_entries. intros H.
  destruct (in_dec str_dec key (map (fun kv => lit "@" ++ local (fst kv)) a)) as [I|I].
  - apply in_map_iff in I. destruct I as ([k w] & <- & I). exists k, w. auto.
  - rewrite fold_at_other in H by exact I. discriminate.
Qed.
Lemma at_text a : getf ktext (at_entries a) = None.
Proof.
  destruct (getf ktext (at_entries a)) eqn:E; auto. apply getf_at_some in E. destruct E as (k & w & _ & E). discriminate.
Qed.

(** what [own_entries] holds *)
Definition text_entry (a : list (pystr * pystr)) (x : option pystr) (nk : bool) : option pyval :=
  match real_text x with
  | Some s => Some (VStr s)
  | None => if (nk && has_key klang (at_entries a))%bool then Some (VStr []) else None
  end.
Lemma own_text a x nk : getf ktext (own_entries a x nk) = text_entry a x nk.
Proof.
  unfold own_entries, text_entry. change (fold_left _ a []) with (at_entries a).
  destruct (real_text x) as [s|].
  - assert (H : has_key ktext (putf ktext (VStr s) (at_entries a)) = true) by (unfold has_key; now rewrite getf_putf).
    rewrite H. cbn [negb]. rewrite andb_false_r. apply getf_putf.
  - assert (H : has_key ktext (at_entries a) = false) by (unfold has_key; now rewrite at_text).
    rewrite H. cbn [negb]. rewrite andb_true_r. destruct (nk && _)%bool; [apply getf_putf|apply at_text].
Qed.
Lemma own_other a x nk key : key <> ktext -> getf key (own_entries a x nk) = getf key (at_entries a).
Proof.
  intros D. unfold own_entries. change (fold_left _ a []) with (at_entries a).
  destruct (real_text x) as [s|]; destruct (_ && _ && _)%bool; repeat rewrite getf_putf_other by exact D; reflexivity.
Qed.

Lemma content_only r : content (only_text r) = r \/
  exists v, r = [(ktext, v)] /\ only_text r = v.
Proof.
  unfold only_text. destruct r as [|[k v] [|kv r]]; auto. destruct (str_eqb k ktext) eqn:E; auto.
  apply str_eqb_eq in E. subst. right. eauto.
Qed.
Definition raw (e : elem) : list (pystr * pyval) :=
  match e with
  | Elem _ attrib text _ kids =>
      fold_left add_child (map (fun k => (local (etag k), elem2dict k)) kids)
                           (own_entries attrib text (match kids with [] => true | _ => false end))
  end.
Lemma elem2dict_raw e : elem2dict e = only_text (raw e).
Proof. destruct e. reflexivity. Qed.
Lemma proper_kid_name k : proper k -> xml_name (local (etag k)).
Proof. intros H. destruct H as [t a x l kids n Hn Hx _]. cbn [etag]. now rewrite (name_local _ _ Hn). Qed.
Lemma kid_not_text k : proper k -> local (etag k) <> ktext.
Proof. intros H E. apply proper_kid_name in H. destruct H as (_ & _ & _ & H). now apply (H (tl ktext)). Qed.
Lemma kid_not_at k n : proper k -> local (etag k) <> lit "@" ++ n.
Proof. intros H E. apply proper_kid_name in H. destruct H as (_ & _ & H & _). now apply (H n). Qed.
Lemma raw_text e : Forall proper (ekids e) ->
  getf ktext (raw e) = text_entry (eattrib e) (etext e) (match ekids e with [] => true | _ => false end).
Proof.
  destruct e as [t a x l kids]. cbn [raw ekids eattrib etext]. intros H. rewrite fold_child_other; [apply own_text|].
  intros F. rewrite map_map in F. cbn [fst] in F. apply in_map_iff in F. destruct F as (k & E & F).
  rewrite Forall_forall in H. now apply (kid_not_text k (H k F)).
Qed.
Lemma text_entry_str a x nk v : text_entry a x nk = Some v -> exists s, v = VStr s.
Proof.
  unfold text_entry. destruct (real_text x); [intros [= <-]; eauto|]. destruct (_ && _)%bool; [|discriminate].
  intros [= <-]; eauto.
Qed.
Lemma elem2dict_shape e : Forall proper (ekids e) ->
  (exists s, elem2dict e = VStr s /\ raw e = [(ktext, VStr s)]) \/ elem2dict e = VDict (raw e).
Proof.
  intros H. rewrite elem2dict_raw. unfold only_text. destruct (raw e) as [|[k v] [|kv r]] eqn:R; auto.
  destruct (str_eqb k ktext) eqn:E; auto. apply str_eqb_eq in E. subst k.
  pose proof (raw_text e H) as T. rewrite R in T. cbn [getf] in T. rewrite str_eqb_refl in T.
  symmetry in T. apply text_entry_str in T. destruct T as [s ->]. left. eauto.
Qed.
Lemma elem2dict_not_list e : proper e -> not_list (elem2dict e).
Proof.
  intros H. assert (K : Forall proper (ekids e)) by now inversion H.
  destruct (elem2dict_shape e K) as [(s & -> & _)| ->]; intros l; discriminate.
Qed.
Lemma content_raw e : Forall proper (ekids e) -> content (elem2dict e) = raw e.
Proof. intros H. destruct (elem2dict_shape e H) as [(s & -> & ->)| ->]; reflexivity. Qed.

Lemma kids_vals n kids ks : Forall proper kids -> named_kids n kids ks ->
  vals n (map (fun k => (local (etag k), elem2dict k)) kids) = map elem2dict ks.
Proof.
  intros P H. induction H as [|k kids r Hk _ IH|k kids r Hk _ IH].
  - reflexivity.
  - inversion P; subst. unfold vals. cbn [map filter fst]. rewrite (name_local _ _ Hk), str_eqb_refl.
    cbn [map snd]. f_equal. now apply IH.
  - inversion P; subst. unfold vals. cbn [map filter fst].
    destruct (str_eqb (local (etag k)) n) eqn:E; [|now apply IH].
    apply str_eqb_eq in E. exfalso. apply Hk. subst n.
    match goal with H : proper k |- _ => destruct H as [t a x l kk n Hn Hx _] end. cbn [etag].
    now rewrite (name_local _ _ Hn).
Qed.
