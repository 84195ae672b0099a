(** C07, C25, C29, C53, C66: what single counterexamples of these properties are examples of. *)
From Coq Require Import Ascii String List Bool Arith NArith ZArith Lia.
From Verif Require Import PyBase PyBaseFacts PyValues Regex MultiLangModel DotDictModel DotDictProofs ValidatorsModel ValidatorsSpec ValidatorsProofs ValidatorsProps
  UtilsModel XmlModel XmlProofs OutputModel DriverModel DriverSpec DriverProofs.
Import ListNotations.

(** ** C07: whatever follows an identifier, the field is accepted *)
Theorem C07_anything_after_refuted :
  forall u junk, is_uuid u -> junk <> [] -> UUID (VStr (u ++ junk)) = Ok (u ++ junk) /\ ~ is_uuid (u ++ junk).
Proof.
  intros u junk H N. pose proof (is_uuid_len _ H) as L. split.
  - apply C07_uuid_field_exact. split; [reflexivity|]. rewrite firstn_app, L, Nat.sub_diag, firstn_O, app_nil_r, <- L, firstn_all. exact H.
  - intros X. apply is_uuid_len in X. rewrite app_length, L in X. destruct junk; [congruence|]. cbn in X. lia.
Qed.
Print Assumptions C07_anything_after_refuted.

(** ** C53: so with versions, CAS numbers and names of variables *)
Theorem C53_anything_after_refuted :
  forall a b junk, digits 2 a -> digits 2 b -> Version (VStr (a ++ lit "." ++ b ++ junk)) = Ok (a ++ lit "." ++ b ++ junk).
Proof.
  intros a b junk A B. apply C53_version_field_exact. split; [reflexivity|]. exists (a ++ lit "." ++ b), junk. split; [now rewrite <- !app_assoc|]. exists a, b. auto.
Qed.
Print Assumptions C53_anything_after_refuted.
Theorem C53_cas_after_refuted :
  forall n a b c junk, (1 <= n <= 6)%nat -> digits n a -> digits 2 b -> digits 1 c ->
    CASNumber (VStr (a ++ lit "-" ++ b ++ lit "-" ++ c ++ junk)) = Ok (a ++ lit "-" ++ b ++ lit "-" ++ c ++ junk).
Proof.
  intros n a b c junk N A B C. apply C53_cas_field_exact. split; [reflexivity|]. exists (a ++ lit "-" ++ b ++ lit "-" ++ c), junk. split; [now rewrite <- !app_assoc|]. exists n, a, b, c. auto.
Qed.
Print Assumptions C53_cas_after_refuted.

(** ** C25: texts between elements are lost *)
Fixpoint without_tails (e : elem) : elem := match e with Elem t a x _ ks => Elem t a x None (map without_tails ks) end.
(** Documents that differ in them only are read as the same. *)
Theorem C25_tails_refuted : forall e, elem2dict e = elem2dict (without_tails e).
Proof.
  intros e. induction e as [t a x l ks IH] using elem_ind2. cbn [without_tails elem2dict]. rewrite map_map. f_equal. replace (match map without_tails ks with [] => true | _ => false end) with (match ks with [] => true | _ => false end) by now destruct ks.
  f_equal. clear -IH. induction ks as [|k ks IHk]; [reflexivity|]. cbn [map]. inversion IH as [|? ? H1 H2]; subst. apply (f_equal2 cons); [|now apply IHk].
  rewrite <- H1. now destruct k.
Qed.
Print Assumptions C25_tails_refuted.
(** Of two attributes that differ in the namespace only the later one is read. *)
Theorem C25_namespaces_refuted :
  forall t a b x y text tail ks, local a = local b -> elem2dict (Elem t [(a, x); (b, y)] text tail ks) = elem2dict (Elem t [(b, y)] text tail ks).
Proof.
  intros t a b x y text tail ks E. cbn [elem2dict]. unfold own_entries. cbn [fold_left fst snd]. rewrite E. cbn [putf]. replace (str_eqb (lit "@" ++ local b) (lit "@" ++ local b)) with true; [reflexivity|]. symmetry. now apply str_eqb_eq.
Qed.
Print Assumptions C25_namespaces_refuted.

(** ** C66: an element without text is left out alone, and is an error among others *)
Theorem C66_among_others_refuted :
  forall d a b, d <> [] -> lookup ktext d = None -> (forall n, In n a -> lookup ktext (dict_of (dict_or_text n)) <> None) ->
    ensure_list (VDict d) true = Ok [] /\ ensure_list (VList (a ++ VDict d :: b)) true = Err KeyError.
Proof.
  intros d a b N L A. destruct d as [|x d]; [congruence|]. split; [unfold ensure_list; now rewrite L|]. cbn [ensure_list]. rewrite map_app. cbn [map].
  change (dict_or_text (VDict (x :: d))) with (VDict (x :: d)).
  induction a as [|n a IH]; cbn [map app keep_texts].
  - cbn [dict_of]. now rewrite L.
  - destruct (lookup ktext (dict_of (dict_or_text n))) as [t|] eqn:E; [|exfalso; exact (A n (or_introl eq_refl) E)]. rewrite IH by (intros m I; apply A; now right). reflexivity.
Qed.
Print Assumptions C66_among_others_refuted.

(** ** C29: data sets of one identifier *)
Section Archive.
  Context {File Struct Doc Cls Attrs : Type} (p : plant File Struct Doc Cls Attrs).
  Lemma archived_keys xs z : archived p xs z -> forall us, map (p_uuid p) xs = map (@Ok pystr) us -> (List.length z <= List.length xs)%nat /\ forall u, In u us -> In (u ++ lit ".xml") (map fst z).
  Proof.
    induction 1 as [|xs x z u d A IH HD HU]; intros us E; [destruct us; [split; [reflexivity|intros ? []]|discriminate]|].
    destruct us as [|u0 us0] using rev_ind; [destruct xs; discriminate|]. clear IHus0. rewrite !map_app in E. cbn [map] in E. apply app_inj_tail in E as (E1 & E2). assert (u0 = u) by congruence. subst u0.
    destruct (IH us0 E1) as (L & K). rewrite app_length. cbn [List.length]. rewrite <- (map_length fst (putf _ _ _)), <- (map_length fst z) in *. rewrite putf_keys. split.
    - destruct (existsb _ _); [lia|rewrite app_length; cbn [List.length]; lia].
    - intros v I. destruct (existsb (fun y => str_eqb y (u ++ lit ".xml")) (map fst z)) eqn:X.
      + apply in_app_iff in I as [I|[<-|[]]]; [now apply K|]. apply existsb_exists in X as (y & Y & X). apply str_eqb_eq in X. now subst y.
      + apply in_app_iff. apply in_app_iff in I as [I|[<-|[]]]; [left; now apply K|right; now left].
  Qed.
  (** As soon as two data sets have the same identifier, there are fewer documents in the archive than data sets. *)
  Theorem C29_same_identifier_refuted :
    forall xs z us, archived p xs z -> map (p_uuid p) xs = map (@Ok pystr) us -> ~ NoDup us -> (List.length z < List.length xs)%nat.
  Proof.
    intros xs z us A. revert us. induction A as [|xs x z u d A IH HD HU]; intros us E N; [destruct us; [exfalso; apply N; constructor|discriminate]|].
    destruct us as [|u0 us0] using rev_ind; [destruct xs; discriminate|]. clear IHus0. rewrite !map_app in E. cbn [map] in E. apply app_inj_tail in E as (E1 & E2). assert (u0 = u) by congruence. subst u0.
    destruct (archived_keys _ _ A us0 E1) as (L & K). rewrite app_length. cbn [List.length]. rewrite <- (map_length fst (putf _ _ _)), <- (map_length fst z) in *. rewrite putf_keys.
    destruct (in_dec (list_eq_dec N.eq_dec) u us0) as [I|I].
    - replace (existsb (fun y => str_eqb y (u ++ lit ".xml")) (map fst z)) with true; [lia|]. symmetry. apply existsb_exists. exists (u ++ lit ".xml"). split; [now apply K|now apply str_eqb_eq].
    - assert (N' : ~ NoDup us0). { intros D. apply N. apply NoDup_rev in D. rewrite <- (rev_involutive us0), <- (rev_involutive [u]), <- rev_app_distr. apply NoDup_rev. cbn. constructor; [rewrite <- in_rev; exact I|exact D]. }
      specialize (IH us0 E1 N'). destruct (existsb _ _); [lia|rewrite app_length; cbn [List.length]; lia].
  Qed.
  (** The one in the archive is the last. *)
  Theorem C29_last_refuted :
    forall xs x z u, archived p (xs ++ [x]) z -> p_uuid p x = Ok u -> exists d, p_doc p x = Ok d /\ getf (u ++ lit ".xml") z = Some d.
  Proof.
    intros xs x z u A U. inversion A as [E|xs' x' z' u' d A' D U' E]; [destruct xs; discriminate|]. apply app_inj_tail in E as (-> & ->). assert (u' = u) by congruence. subst u'. exists d. split; [exact D|]. apply getf_putf.
  Qed.
End Archive.
Print Assumptions C29_same_identifier_refuted.
Print Assumptions C29_last_refuted.
