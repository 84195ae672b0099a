(** Lemmas: documents as they are written. *)
From Coq Require Import Ascii String List Bool Arith NArith ZArith Lia.
From Verif Require Import PyBase PyBaseFacts PyDigits PyValues MultiLangModel DotDictModel DotDictProofs UtilsModel ConverterModel
  XmlModel XmlSpec XmlProofs XmlProps KeysModel KeysSpec KeysProofs HandleModel HandleSpec OutputProofs HandleProofs ReferProofs
  ClassProofs AsideModel AsideSpec AsideProofs ReferModel ReferSpec InflowModel InflowSpec InflowProofs OutflowModel OutflowSpec.
From Verif Require ReviewProofs.
Import ListNotations.
Local Open Scope string_scope.
Local Open Scope list_scope.

(** * Elements at a path *)
Fixpoint under (ns : list pystr) (e : elem) : list elem :=
  match ns with
  | [] => [e]
  | n :: ns' => flat_map (under ns') (filter (fun k => str_eqb (local (etag k)) n) (ekids e))
  end.
Definition path (ns : list pystr) : pystr := flat_map (fun n => lit "/" ++ n) ns.
Definition below (s : pystr) : Prop := s = [] \/ exists r, s = ch "/" :: r.
Lemma path_below ns : below (path ns).
Proof. destruct ns as [|n ns]; [now left|right]. now exists (n ++ path ns). Qed.
Lemma split_name n : ~ In (ch "/") n -> forall n' r r', ~ In (ch "/") n' -> below r -> below r' -> n ++ r = n' ++ r' -> n = n' /\ r = r'.
Proof.
  induction n as [|c n IH]; intros N [|c' n'] r r' N' B B' E.
  - now split.
  - exfalso. cbn in E. subst r. destruct B as [Z|[x Z]]; [discriminate|]. injection Z as -> _. apply N'. now left.
  - exfalso. cbn in E. subst r'. destruct B' as [Z|[x Z]]; [discriminate|]. injection Z as -> _. apply N. now left.
  - cbn in E. injection E as -> E. destruct (IH (fun I => N (or_intror I)) n' r r' (fun I => N' (or_intror I)) B B' E) as [-> ->]. now split.
Qed.
Lemma closes_below e : proper e -> forall p cs, closes p e cs ->
  Forall (fun c : pystr * elem => exists r : pystr, fst c = p ++ lit "/" ++ local (etag e) ++ r /\ below r) cs.
Proof.
  induction e as [t a x l kids IH] using elem_ind2. intros P p cs C. inversion P as [? ? ? ? ? n Hn Hx Hk]; subst.
  inversion C as [? ? ? ? ? n' css Hn' Hc]; subst. cbn [etag]. rewrite (name_local _ _ Hn'). apply Forall_app. split.
  - clear C P. revert css Hc. remember (p ++ lit "/" ++ n') as q eqn:Q. induction kids as [|k kids IHk]; intros css Hc; inversion Hc as [|? ? c cs1 C1 C2]; subst; [constructor|].
    inversion IH as [|? ? I1 I2]; subst. inversion Hk as [|? ? K1 K2]; subst. apply Forall_app. split; [|now apply IHk].
    specialize (I1 K1 _ _ C1). rewrite Forall_forall in *. intros y Y. destruct (I1 y Y) as (r & -> & _).
    exists (lit "/" ++ local (etag k) ++ r). split; [now rewrite <- !app_assoc|]. right. now exists (local (etag k) ++ r).
  - repeat constructor. cbn [fst]. exists []. split; [now rewrite app_nil_r|now left].
Qed.
Lemma path_inj p n r n' r' : ~ In (ch "/") n -> ~ In (ch "/") n' -> below r -> below r' ->
  p ++ lit "/" ++ n ++ r = p ++ lit "/" ++ n' ++ r' -> n = n' /\ r = r'.
Proof. intros N N' B B' E. apply app_inv_head in E. apply app_inv_head in E. now apply split_name. Qed.
Lemma closes_under e : proper e -> forall ns n p cs, closes p e cs -> Forall (fun m => ~ In (ch "/") m) (n :: ns) ->
  map snd (filter (fun c : pystr * elem => str_eqb (fst c) (p ++ lit "/" ++ n ++ path ns)) cs) = if str_eqb (local (etag e)) n then under ns e else [].
Proof.
  induction e as [t a x l kids IH] using elem_ind2. intros P ns n p cs C F. pose proof (closes_below _ P _ _ C) as B.
  inversion P as [? ? ? ? ? n0 Hn Hx Hk]; subst. inversion F as [|? ? F1 F2]; subst.
  inversion C as [? ? ? ? ? m css Hm Hc]; subst. cbn [etag] in *. rewrite (name_local _ _ Hm) in *.
  assert (Nm : ~ In (ch "/") m). { assert (n0 = m) as <-; [|now destruct Hx as (_ & ? & _)]. rewrite <- (name_local _ _ Hn). now apply name_local. }
  destruct (str_eqb m n) eqn:E.
  2:{ rewrite filter_none; [reflexivity|]. intros c I. cbn beta. rewrite Forall_forall in B. destruct (B c I) as (r & -> & Br).
      destruct (str_eqb (p ++ lit "/" ++ m ++ r) (p ++ lit "/" ++ n ++ path ns)) eqn:Q; [|reflexivity]. apply str_eqb_eq in Q.
      destruct (path_inj p m r n (path ns) Nm F1 Br (path_below ns) Q) as [-> _]. now rewrite str_eqb_refl in E. }
  apply str_eqb_eq in E. subst m. clear B C P. rewrite filter_app, map_app. cbn [filter fst].
  destruct ns as [|n1 ns].
  - cbn [path flat_map under]. rewrite app_nil_r, str_eqb_refl. cbn [map snd].
    enough (Z : filter (fun c : pystr * elem => str_eqb (fst c) (p ++ lit "/" ++ n)) css = []) by now rewrite Z. apply filter_none. intros c I. cbn beta.
    assert (X : exists r k : pystr, fst c = (p ++ lit "/" ++ n) ++ lit "/" ++ k ++ r).
    { clear -I Hc Hk. remember (p ++ lit "/" ++ n) as q eqn:Q. clear Q. revert css Hc I.
      induction kids as [|k kids IHk]; intros css Hc I; inversion Hc as [|? ? c1 cs1 C1 C2]; subst; [contradiction|]. inversion Hk as [|? ? K1 K2]; subst.
      apply in_app_or in I. destruct I as [I|I]; [|now apply (IHk K2 _ C2)].
      pose proof (closes_below k K1 _ _ C1) as B. rewrite Forall_forall in B. destruct (B c I) as (r & -> & _). now exists r, (local (etag k)). }
    destruct X as (r & k & ->). destruct (str_eqb _ _) eqn:Q; [|reflexivity]. apply str_eqb_eq in Q. apply (f_equal (@length N)) in Q.
    rewrite !app_length in Q. cbn in Q. lia.
  - assert (Self : str_eqb (p ++ lit "/" ++ n) (p ++ lit "/" ++ n ++ path (n1 :: ns)) = false).
    { destruct (str_eqb _ _) eqn:Q; [|reflexivity]. apply str_eqb_eq in Q. apply (f_equal (@length N)) in Q. cbn [path flat_map] in Q. rewrite !app_length in Q. cbn in Q. lia. }
    rewrite Self. cbn [map]. rewrite app_nil_r. clear Self. cbn [under ekids].
    replace (p ++ lit "/" ++ n ++ path (n1 :: ns)) with ((p ++ lit "/" ++ n) ++ lit "/" ++ n1 ++ path ns)
      by (change (path (n1 :: ns)) with ((lit "/" ++ n1) ++ path ns); rewrite <- !app_assoc; reflexivity).
    revert css Hc. generalize (p ++ lit "/" ++ n). intros q. induction kids as [|k kids IHk]; intros css Hc; inversion Hc as [|? ? c1 cs1 C1 C2]; subst; [reflexivity|].
    inversion IH as [|? ? I1 I2]; subst. inversion Hk as [|? ? K1 K2]; subst. cbn [filter]. rewrite filter_app, map_app, (I1 K1 ns n1 q c1 C1 F2), (IHk I2 K2 _ C2).
    destruct (str_eqb (local (etag k)) n1); reflexivity.
Qed.
Lemma occurring_under doc n ns : proper doc -> local (etag doc) = n -> Forall (fun m => ~ In (ch "/") m) (n :: ns) -> occurring doc (path (n :: ns)) (under ns doc).
Proof.
  intros P E F. destruct (closes_exist doc P []) as [cs C]. exists cs. split; [exact C|]. pose proof (closes_under doc P ns n [] cs C F) as X.
  rewrite E, str_eqb_refl in X. rewrite <- X. cbn [path flat_map app]. now rewrite <- app_assoc.
Qed.
Lemma named_local n es : Forall proper es -> named_kids n es (filter (fun e => str_eqb (local (etag e)) n) es).
Proof.
  induction 1 as [|e es P F IH]; [constructor|]. cbn [filter]. inversion P as [? ? ? ? ? m Hm _ _]; subst. cbn [etag]. rewrite (name_local _ _ Hm).
  destruct (str_eqb m n) eqn:Q.
  - apply str_eqb_eq in Q. subst m. now constructor.
  - apply nk_skip; [|exact IH]. cbn [etag]. intros Z. rewrite <- (name_local _ _ Hm), (name_local _ _ Z), str_eqb_refl in Q. discriminate.
Qed.
Lemma named_under e n : Forall proper (ekids e) -> named_kids n (ekids e) (flat_map (fun k => [k]) (filter (fun e => str_eqb (local (etag e)) n) (ekids e))).
Proof.
  intros F. pose proof (named_local n _ F) as X. replace (flat_map (fun k => [k]) _) with (filter (fun e => str_eqb (local (etag e)) n) (ekids e)); [exact X|].
  clear. induction (filter _ _) as [|k l IH]; [reflexivity|]. cbn. now rewrite <- IH.
Qed.

(** * Written elements *)
Definition bare_key (k : pystr) : pystr := if prefixb (lit "common:") k then skipn 7 k else k.
Fixpoint good (v : pyval) : bool :=
  match v with
  | VDict d => forallb (fun kv => ((negb (is_child (fst kv)) || name_ok (bare_key (fst kv))) && good (snd kv))%bool) d
  | VList l | VTuple l => forallb good l
  | _ => true
  end.
Lemma qualified_name ns k : name_ok (bare_key k) = true -> name_of (qualified ns k) (bare_key k) /\ xml_name (bare_key k).
Proof.
  intros H. destruct (name_ok_spec _ H) as [X [N _]]. split; [|exact X]. split; [exact N|]. right. unfold qualified, bare_key.
  destruct (prefixb _ k); eexists; reflexivity.
Qed.
Lemma qualified_local ns k : name_ok (bare_key k) = true -> local (qualified ns k) = bare_key k.
Proof. intros H. apply name_local. now apply qualified_name. Qed.
Section Written.
  Context (show : pyval -> pystr) (ns : pystr).
  Lemma emit_leaf key x : name_ok (bare_key key) = true -> Forall proper [Elem (qualified ns key) [] x None []].
  Proof. intros K. destruct (qualified_name ns key K) as [A B]. repeat constructor. now apply (proper_elem _ _ _ _ _ (bare_key key)). Qed.
  Lemma emit_proper v : forall key, name_ok (bare_key key) = true -> good v = true -> Forall proper (emit show ns key v).
  Proof.
    revert v. fix IH 1. intros v key K G. destruct v as [| b | z | f | s | l | l | d |]; try exact (emit_leaf key _ K).
    - cbn [emit good] in *. induction l as [|v l IHl]; [constructor|]. cbn [flat_map forallb] in *. apply andb_true_iff in G. destruct G as [G1 G2].
      apply Forall_app. split; [exact (IH v key K G1)|exact (IHl G2)].
    - cbn [emit good] in *. induction l as [|v l IHl]; [constructor|]. cbn [flat_map forallb] in *. apply andb_true_iff in G. destruct G as [G1 G2].
      apply Forall_app. split; [exact (IH v key K G1)|exact (IHl G2)].
    - cbn [emit]. destruct (qualified_name ns key K) as [A B]. repeat constructor. apply (proper_elem _ _ _ _ _ (bare_key key)); [exact A|exact B|].
      cbn [good] in G. generalize (attributes show d) (own_text show d). intros _ _. clear A B K. induction d as [|[k v] d IHd]; [constructor|]. cbn [flat_map forallb fst snd] in *.
      apply andb_true_iff in G. destruct G as [G1 G2]. apply andb_true_iff in G1. destruct G1 as [G0 G1]. apply Forall_app. split; [|exact (IHd G2)].
      destruct (is_child k); [|constructor]. exact (IH v k G0 G1).
  Qed.
End Written.

(** * Properties *)
Definition row_okb (r : to_row) : bool :=
  (match r_id r with [] => false | _ => true end && negb (forallb is_space (r_name r)) && match r_name r with [] => false | _ => true end)%bool.
Lemma rows_ok : forallb (fun kr => row_okb (snd kr)) to_fp = true.
Proof. vm_compute. reflexivity. Qed.
Lemma row_ok k r : getf k to_fp = Some r -> r_id r <> [] /\ ~ blank (Some (r_name r)) /\ r_name r <> [].
Proof.
  intros G. assert (I : In r (map snd to_fp)). { revert G. generalize to_fp. induction l as [|[k' r'] l IH]; [discriminate|]. cbn [getf map snd]. destruct (str_eqb k' k); [intros E; injection E as ->; now left|right; now apply IH]. }
  apply in_map_iff in I. destruct I as (kr & <- & I). pose proof rows_ok as T. rewrite forallb_forall in T. specialize (T _ I). cbv beta in T. unfold row_okb in T.
  apply andb_true_iff in T. destruct T as [T C]. apply andb_true_iff in T. destruct T as [A B]. clear I G. revert A B C. generalize (snd kr). clear kr k. intros r A B C. repeat split.
  - destruct (r_id r); [discriminate A|discriminate].
  - apply negb_true_iff in B. intros Z. cbn in Z. rewrite <- not_true_iff_false in B. apply B. apply forallb_forall. now rewrite Forall_forall in Z.
  - destruct (r_name r); [discriminate C|discriminate].
Qed.
Lemma cdata_some s : s <> [] -> cdata s = Some s.
Proof. now destruct s. Qed.
Lemma nonblank_some s : ~ blank (Some s) -> cdata s = Some s.
Proof. intros B. apply cdata_some. intros ->. apply B. constructor. Qed.
Definition flow_space : pystr := lit "http://lca.jrc.it/ILCD/Flow".
Lemma getf_app {A} k (a b : list (pystr * A)) : getf k (a ++ b) = match getf k a with Some v => Some v | None => getf k b end.
Proof. induction a as [|[k' v] a IH]; [reflexivity|]. cbn [app getf]. destruct (str_eqb k' k); [reflexivity|exact IH]. Qed.
Lemma attributes_app show a b : attributes show (a ++ b) = attributes show a ++ attributes show b.
Proof. apply flat_map_app. Qed.
Definition kids_of show ns (d : list (pystr * pyval)) : list elem :=
  flat_map (fun kv => if is_child (fst kv) then emit show ns (fst kv) (snd kv) else []) d.
Lemma kids_app show ns a b : kids_of show ns (a ++ b) = kids_of show ns a ++ kids_of show ns b.
Proof. apply flat_map_app. Qed.
Section Properties.
  Context (show : pyval -> pystr).
  Notation emit_ := (emit show flow_space).
  Definition ref_kids (desc : pystr) : list elem :=
    [Elem (qualified flow_space (lit "common:shortDescription")) [(xml_lang, lit "en")] (cdata desc) None []].
  Definition ref_attrs (type_ folder id version : pystr) : list (pystr * pystr) :=
    [(lit "type", type_ ++ lit " data set"); (lit "refObjectId", id); (lit "version", version); (lit "uri", lit "../" ++ folder ++ lit "/" ++ id)].
  Lemma emit_ref key t f i v d : emit_ key (ref_dict t f i v d) = [Elem (qualified flow_space key) (ref_attrs t f i v) None None (ref_kids d)].
  Proof. reflexivity. Qed.
  Definition comment_elem (ls : pystr * pystr) : elem :=
    Elem (qualified flow_space (lit "generalComment")) [(xml_lang, fst ls)] (cdata (snd ls)) None [].
  Definition property_kids (p : draft) : list elem :=
    [Elem (qualified flow_space (lit "referenceToFlowPropertyDataSet"))
          (ref_attrs (lit "flow property") (lit "flowproperties") (r_id (d_row p)) (r_version (d_row p))) None None (ref_kids (r_name (d_row p)))] ++
    emit_ (lit "meanValue") (d_mean p) ++
    flat_map (fun kv => emit_ (fst kv) (snd kv)) (d_uncertainty p) ++ map comment_elem (d_comment p).
  Definition property_elem (n : nat) (p : draft) : elem :=
    Elem (qualified flow_space (lit "flowProperty")) [(lit "dataSetInternalID", str_of_Z (Z.of_nat n))] None None (property_kids p).
  Definition ufield (kv : pystr * pyval) : Prop :=
    In (fst kv) uncertainty_fields /\ ((exists s, snd kv = VStr s) \/ exists f, snd kv = VFloat f).
  Lemma ufield_key k : In k uncertainty_fields -> exists s, k = lit s /\ In s ["minimumValue"; "maximumValue"; "uncertaintyDistributionType"; "relativeStandardDeviation95In"].
  Proof. intros I. apply in_map_iff in I. destruct I as (s & <- & I). now exists s. Qed.
  Lemma ufields_plain l : Forall ufield l -> attributes show l = [] /\ getf ktext l = None /\
    kids_of show flow_space l = flat_map (fun kv => emit_ (fst kv) (snd kv)) l.
  Proof.
    induction 1 as [|[k v] l [I _] F (A & B & C)]; [now repeat split|]. cbn [fst] in I. destruct (ufield_key k I) as (s & -> & J).
    unfold attributes, kids_of in *. cbn [flat_map getf fst snd]. rewrite A, C. destruct J as [<-|[<-|[<-|[<-|[]]]]]; repeat split; exact B.
  Qed.
  Lemma comment_kids c : kids_of show flow_space
      match c with
      | [] => []
      | _ => [(lit "generalComment", VList (map (fun ls : pystr * pystr => VDict [(lit "@xml:lang", VStr (fst ls)); (ktext, VStr (snd ls))]) c))]
      end = map comment_elem c.
  Proof.
    destruct c as [|a c]; [reflexivity|]. unfold kids_of. cbn [flat_map fst snd]. change (is_child (lit "generalComment")) with true. cbn [emit]. rewrite app_nil_r.
    induction (a :: c) as [|ls l IH]; [reflexivity|]. cbn [map flat_map]. rewrite IH. reflexivity.
  Qed.
  Lemma emit_property n p : Forall ufield (d_uncertainty p) -> emit_ (lit "flowProperty") (property_dict n p) = [property_elem n p].
  Proof.
    intros U. destruct (ufields_plain _ U) as (A & B & C). unfold property_dict, property_elem. cbn [emit]. f_equal.
    set (c := match d_comment p with [] => _ | _ => _ end).
    assert (Ca : attributes show c = []) by (unfold c; destruct (d_comment p); reflexivity).
    assert (Ct : getf ktext c = None) by (unfold c; destruct (d_comment p); reflexivity).
    assert (Ck : kids_of show flow_space c = map comment_elem (d_comment p)) by (rewrite <- comment_kids; unfold c; destruct (d_comment p); reflexivity).
    match goal with |- Elem _ _ _ _ (flat_map _ ?d) = _ => change (Elem (qualified flow_space (lit "flowProperty")) (attributes show d) (own_text show d) None (kids_of show flow_space d) = Elem (qualified flow_space (lit "flowProperty")) [(lit "dataSetInternalID", str_of_Z (Z.of_nat n))] None None (property_kids p)) end.
    f_equal.
    - rewrite !attributes_app, A, Ca. reflexivity.
    - unfold own_text. rewrite !getf_app, B, Ct. reflexivity.
    - rewrite !kids_app, C, Ck. unfold property_kids.
      match goal with |- kids_of _ _ ?l ++ _ = _ => change (kids_of show flow_space l) with (emit_ (lit "referenceToFlowPropertyDataSet") (VList [ref_dict (lit "flow property") (lit "flowproperties") (r_id (d_row p)) (r_version (d_row p)) (r_name (d_row p))]) ++ emit_ (lit "meanValue") (d_mean p) ++ []) end.
      cbn [emit flat_map]. fold (emit show flow_space). rewrite emit_ref, !app_nil_r, <- !app_assoc. reflexivity.
  Qed.
  Lemma property_dicts_elems l : forall n, Forall (fun bp => legal_draft (snd bp)) l ->
    exists ks, flat_map (emit_ (lit "flowProperty")) (property_dicts n l) = map (fun np => property_elem (fst np) (snd np)) ks /\
      Forall (fun np => (n <= fst np)%nat /\ legal_draft (snd np)) ks /\ NoDup (map fst ks) /\
      map snd ks = map snd (filter fst l).
  Proof.
    induction l as [|[b p] l IH]; intros n F; [exists []; repeat split; constructor|]. inversion F as [|? ? F1 F2]; subst. cbn [snd] in F1.
    destruct (IH (S n) F2) as (ks & E & A & N & S). cbn [property_dicts filter fst]. rewrite flat_map_app, E. destruct b.
    - exists ((n, p) :: ks). cbn [flat_map]. rewrite (emit_property n p), app_nil_r; [|apply F1]. cbn [app map fst snd]. repeat split; [|constructor|now rewrite S].
      + constructor; [split; [cbn; lia|exact F1]|]. eapply Forall_impl; [|exact A]. cbn. intros a [H1 H2]. split; [lia|exact H2].
      + intros I. apply in_map_iff in I. destruct I as (np & Q & I). rewrite Forall_forall in A. apply A in I. lia.
      + exact N.
    - exists ks. repeat split; try assumption. eapply Forall_impl; [|exact A]. cbn. intros a [H1 H2]. split; [lia|exact H2].
  Qed.

  Lemma ref_kids_proper d : Forall proper (ref_kids d).
  Proof. apply (emit_proper show flow_space (VDict [(lit "@xml:lang", VStr (lit "en")); (ktext, VStr d)]) (lit "common:shortDescription")); reflexivity. Qed.
  Lemma comment_proper ls : proper (comment_elem ls).
  Proof.
    pose proof (emit_proper show flow_space (VDict [(lit "@xml:lang", VStr (fst ls)); (ktext, VStr (snd ls))]) (lit "generalComment") eq_refl eq_refl) as F.
    now inversion F.
  Qed.
  Lemma ufield_proper kv : ufield kv -> exists x, emit_ (fst kv) (snd kv) = [Elem (qualified flow_space (fst kv)) [] x None []] /\ name_ok (bare_key (fst kv)) = true /\ bare_key (fst kv) = fst kv.
  Proof.
    destruct kv as [k v]. intros [I V]. cbn [fst snd] in *. destruct (ufield_key k I) as (s & -> & J).
    assert (X : exists x, emit_ (lit s) v = [Elem (qualified flow_space (lit s)) [] x None []]) by (destruct V as [[t ->]|[t ->]]; cbn [emit]; eexists; reflexivity).
    destruct X as [x X]. exists x. split; [exact X|]. destruct J as [<-|[<-|[<-|[<-|[]]]]]; split; reflexivity.
  Qed.
  Lemma property_kids_proper p : legal_draft p -> Forall proper (property_kids p).
  Proof.
    intros (_ & (f & M) & U & _). unfold property_kids. apply Forall_app. split; [|apply Forall_app; split; [|apply Forall_app; split]].
    - repeat constructor. apply (proper_elem _ _ _ _ _ (lit "referenceToFlowPropertyDataSet")); [..|apply ref_kids_proper];
        destruct (qualified_name flow_space (lit "referenceToFlowPropertyDataSet") eq_refl); assumption.
    - rewrite M. apply emit_proper; reflexivity.
    - clear M f. induction U as [|kv l H U IH]; [constructor|]. cbn [flat_map]. apply Forall_app. split; [|exact IH].
      destruct (ufield_proper kv H) as (x & -> & N & _). now apply emit_leaf.
    - apply Forall_forall. intros e I. apply in_map_iff in I. destruct I as (ls & <- & _). apply comment_proper.
  Qed.
  Lemma property_elem_proper n p : legal_draft p -> proper (property_elem n p).
  Proof.
    intros L. destruct (qualified_name flow_space (lit "flowProperty") eq_refl) as [A B].
    apply (proper_elem _ _ _ _ _ (bare_key (lit "flowProperty"))); [exact A|exact B|now apply property_kids_proper].
  Qed.
  (** the children of a property called [s] *)
  Definition called (s : pystr) (l : list elem) : list elem := filter (fun e => str_eqb (local (etag e)) s) l.
  Lemma called_uncertainty s l : ~ In s uncertainty_fields -> Forall ufield l -> called s (flat_map (fun kv => emit_ (fst kv) (snd kv)) l) = [].
  Proof.
    intros N. induction 1 as [|kv l H U IH]; [reflexivity|]. cbn [flat_map]. unfold called in *. rewrite filter_app, IH, app_nil_r.
    destruct (ufield_proper kv H) as (x & -> & K & E). cbn [filter etag]. rewrite (qualified_local _ _ K), E.
    destruct (str_eqb (fst kv) s) eqn:Q; [|reflexivity]. apply str_eqb_eq in Q. subst s. destruct H as [H _]. contradiction.
  Qed.
  Lemma called_comments s c : called s (map comment_elem c) = if str_eqb (lit "generalComment") s then map comment_elem c else [].
  Proof.
    induction c as [|ls c IH]; [now destruct (str_eqb _ s)|]. cbn [map]. unfold called in *. cbn [filter]. rewrite IH.
    change (local (etag (comment_elem ls))) with (lit "generalComment"). now destruct (str_eqb (lit "generalComment") s).
  Qed.
  Lemma property_kids_called s p : legal_draft p -> ~ In s uncertainty_fields -> called s (property_kids p) =
    (if str_eqb (lit "referenceToFlowPropertyDataSet") s
     then [Elem (qualified flow_space (lit "referenceToFlowPropertyDataSet"))
             (ref_attrs (lit "flow property") (lit "flowproperties") (r_id (d_row p)) (r_version (d_row p))) None None (ref_kids (r_name (d_row p)))] else []) ++
    (if str_eqb (lit "meanValue") s then emit_ (lit "meanValue") (d_mean p) else []) ++
    (if str_eqb (lit "generalComment") s then map comment_elem (d_comment p) else []).
  Proof.
    intros (_ & (f & M) & U & _) N. unfold property_kids. unfold called. rewrite !filter_app. fold (called s (flat_map (fun kv => emit_ (fst kv) (snd kv)) (d_uncertainty p))).
    rewrite (called_uncertainty s _ N U). fold (called s (map comment_elem (d_comment p))). rewrite called_comments, M. cbn [app].
    reflexivity.
  Qed.
  Definition pdata_of (n : nat) (p : draft) : pdata :=
    PData (str_of_Z (Z.of_nat n)) (r_id (d_row p)) (r_name (d_row p)) (show (d_mean p)) (d_comment p).
  Lemma simple_attr k : ~ In (ch "}") k -> name_of k k.
  Proof. intros N. split; [exact N|now left]. Qed.
  Lemma property_record n p : legal_draft p -> record_element (property_elem n p).
  Proof.
    intros L. split; [now apply property_kids_proper|]. split; [|discriminate]. exists [lit "dataSetInternalID"]. split; [|repeat constructor; intros []].
    repeat constructor. vm_compute. intuition discriminate.
  Qed.
  Lemma property_flow n p : legal_draft p ->
    exists s, flow_property (property_elem n p) (str_of_Z (Z.of_nat n)) (r_id (d_row p)) [s] /\ in_language s (r_name (d_row p)).
  Proof.
    intros L. pose proof (property_kids_proper p L) as P. pose proof (property_record n p L) as R.
    assert (Row := L). destruct Row as ((k & Row) & _). destruct (row_ok _ _ Row) as (Ri & Rn & _).
    pose proof (fun s => named_local s (property_kids p) P) as NK.
    exists (Elem (qualified flow_space (lit "common:shortDescription")) [(xml_lang, lit "en")] (cdata (r_name (d_row p))) None []). split.
    + split; [exact R|]. split; [exists (lit "dataSetInternalID"); split; [now left|]; apply simple_attr; vm_compute; intuition discriminate|].
      eexists. split.
      * unfold child. specialize (NK (lit "referenceToFlowPropertyDataSet")). fold (called (lit "referenceToFlowPropertyDataSet") (property_kids p)) in NK.
        rewrite property_kids_called in NK; [|exact L|vm_compute; intuition discriminate]. exact NK.
      * split; [apply ref_kids_proper|]. split.
        { exists [lit "type"; lit "refObjectId"; lit "version"; lit "uri"]. split.
          - repeat constructor; try (vm_compute; intuition discriminate).
          - repeat constructor; vm_compute; intuition discriminate. }
        split; [exists (lit "refObjectId"); split; [right; now left|apply simple_attr; vm_compute; intuition discriminate]|].
        split; [exact Ri|]. exact (named_local (lit "shortDescription") _ (ref_kids_proper (r_name (d_row p)))).
    + split; [exists (lit "en"); split; reflexivity|]. left. cbn [etext]. split; [now apply nonblank_some|exact Rn].
  Qed.
  Lemma property_written n p : legal_draft p -> ~ blank (Some (show (d_mean p))) -> property_is (property_elem n p) (pdata_of n p).
  Proof.
    intros L B. pose proof (property_kids_proper p L) as P. assert (Row := L). destruct Row as (_ & (f & M) & _ & Cm).
    pose proof (fun s => named_local s (property_kids p) P) as NK.
    split; [exact (property_flow n p L)|split].
    - exists (Elem (qualified flow_space (lit "meanValue")) [] (cdata (show (d_mean p))) None []). split.
      + unfold child. specialize (NK (lit "meanValue")). fold (called (lit "meanValue") (property_kids p)) in NK.
        rewrite property_kids_called in NK; [|exact L|vm_compute; intuition discriminate]. rewrite M in NK |- *. exact NK.
      + repeat split; [cbn [etext pdata_of pd_value]; now apply nonblank_some|exact B].
    - exists (map comment_elem (d_comment p)). split.
      + specialize (NK (lit "generalComment")). fold (called (lit "generalComment") (property_kids p)) in NK.
        rewrite property_kids_called in NK; [|exact L|vm_compute; intuition discriminate]. exact NK.
      + cbn [pdata_of pd_comments]. clear -Cm. induction Cm as [|ls l H F IH]; [constructor|]. cbn [map]. constructor; [|exact IH].
        right. split; [split; reflexivity|]. split; [now apply nonblank_some|exact H].
  Qed.
End Properties.

(** * The document *)
Lemma property_good n p : legal_draft p -> good (property_dict n p) = true.
Proof.
  intros (_ & (f & M) & U & _). unfold property_dict. rewrite M. cbn [good]. rewrite !forallb_app. apply andb_true_iff. split; [reflexivity|].
  apply andb_true_iff. split.
  - apply forallb_forall. intros [k v] I. rewrite Forall_forall in U. destruct (U _ I) as [J V]. cbn [fst snd] in *.
    assert (G : good v = true) by (destruct V as [[s ->]|[s ->]]; reflexivity). rewrite G, andb_true_r.
    destruct (ufield_key k J) as (s & -> & H). destruct H as [<-|[<-|[<-|[<-|[]]]]]; reflexivity.
  - destruct (d_comment p) as [|a c]; [reflexivity|]. cbn [forallb fst snd]. rewrite andb_true_r. change (good (VList ?l)) with (forallb good l).
    apply andb_true_iff. split; [reflexivity|]. apply forallb_forall. intros v I. apply in_map_iff in I. destruct I as (ls & <- & _). reflexivity.
Qed.
Lemma properties_good l : forall n, Forall (fun bp => legal_draft (snd bp)) l -> forallb good (property_dicts n l) = true.
Proof.
  induction l as [|[b p] l IH]; intros n F; [reflexivity|]. inversion F as [|? ? F1 F2]; subst. cbn [property_dicts]. rewrite forallb_app, (IH _ F2), andb_true_r.
  destruct b; [|reflexivity]. cbn [forallb]. now rewrite (property_good n p F1).
Qed.
Lemma class_good c : good (class_dict c) = true.
Proof.
  unfold class_dict. cbn [good forallb fst snd]. repeat (apply andb_true_iff; split); try reflexivity.
  apply forallb_forall. intros v I. apply in_map_iff in I. destruct I as ([[l i] t] & <- & _). reflexivity.
Qed.
Section Document.
  Context (show : pyval -> pystr) (uuid version now : pystr).
  Definition leaf (k : string) (a : list (pystr * pystr)) (s : pystr) : elem := Elem (qualified flow_space (lit k)) a (cdata s) None [].
  Definition root (v : pyval) : list (pystr * pyval) := match v with VDict [(_, VDict d)] => d | _ => [] end.
  Definition info_of (n syn : pystr) (cls : list class_entry) (comment kind : pystr) (props : list pyval) : flow_info :=
    FlowInfo (VStr n) syn cls VNone comment (VStr kind) props.
  Definition flow_root n syn cls comment kind props : elem :=
    Elem (qualified flow_space (lit "flowDataSet")) [(lit "version", lit "1.1")] None None
         (kids_of show flow_space (root (flow_structure uuid version now (info_of n syn cls comment kind props)))).
  Definition class_part (cls : list class_entry) : list (pystr * pyval) :=
    match cls with [] => [] | l => [(lit "classificationInformation", VDict [(lit "common:classification", VList (map class_dict l))])] end.
  Lemma flow_entries n syn cls comment kind props :
    root (flow_structure uuid version now (info_of n syn cls comment kind props)) =
    [(lit "@version", VStr (lit "1.1")); (lit "@xmlns", VStr flow_space); (lit "@xmlns:common", VStr common_space);
     (lit "flowInformation",
      VDict [(lit "dataSetInformation",
              VDict ([(lit "common:UUID", VStr uuid); (lit "name", VDict [(lit "baseName", english_text (VStr n))]); (lit "common:synonyms", VStr syn)] ++
                     class_part cls ++ [(lit "common:generalComment", VStr comment)]));
             (lit "quantitativeReference", VDict [(lit "referenceToReferenceFlowProperty", VStr (lit "0"))])]);
     (lit "modellingAndValidation", VDict [(lit "LCIMethod", VDict [(lit "typeOfDataSet", VStr kind)])]);
     (lit "administrativeInformation",
      VDict [(lit "dataEntryBy",
            VDict [(lit "common:timeStamp", VStr now);
                   (lit "common:referenceToDataSetFormat",
                    ref_dict (lit "source") (lit "sources") (lit "a97a0155-0234-4b87-b4ce-a45da52f2a40") (lit "03.00.000") (lit "ILCD Format"))]);
           (lit "publicationAndOwnership", VDict [(lit "common:dataSetVersion", VStr version)])]);
     (lit "flowProperties", VDict [(lit "flowProperty", VList props)])].
  Proof. destruct cls as [|c cls]; reflexivity. Qed.
  Lemma flow_unparsed n syn cls comment kind props :
    unparse show (flow_structure uuid version now (info_of n syn cls comment kind props)) = Ok (flow_root n syn cls comment kind props).
  Proof. destruct cls as [|c cls]; reflexivity. Qed.
  Lemma flow_good n syn cls comment kind props : forallb good props = true ->
    good (VDict (root (flow_structure uuid version now (info_of n syn cls comment kind props)))) = true.
  Proof.
    intros P. assert (C : forallb good (map class_dict cls) = true).
    { apply forallb_forall. intros v I. apply in_map_iff in I. destruct I as (c & <- & _). apply class_good. }
    rewrite flow_entries. unfold class_part. destruct cls as [|c cls].
    - cbn [good forallb fst snd]. rewrite P. reflexivity.
    - revert C. generalize (map class_dict (c :: cls)). intros l C. cbn [good forallb fst snd app]. rewrite P, C. reflexivity.
  Qed.
  Lemma flow_proper n syn cls comment kind props : forallb good props = true -> proper (flow_root n syn cls comment kind props).
  Proof.
    intros P. pose proof (flow_good n syn cls comment kind props P) as G. apply (emit_proper show flow_space _ (lit "flowDataSet") eq_refl) in G.
    inversion G as [|? ? G1 G2]; subst. destruct (qualified_name flow_space (lit "flowDataSet") eq_refl) as [A B].
    apply (proper_elem _ _ _ _ _ (bare_key (lit "flowDataSet"))); [exact A|exact B|]. now inversion G1.
  Qed.
  Lemma flow_places n syn cls comment kind props : let e := flow_root n syn cls comment kind props in
    map (fun k => local (etag k)) (ekids e) = map lit ["flowInformation"; "modellingAndValidation"; "administrativeInformation"; "flowProperties"] /\
    under (map lit ["modellingAndValidation"; "LCIMethod"; "typeOfDataSet"]) e = [leaf "typeOfDataSet" [] kind] /\
    under (map lit ["flowInformation"; "dataSetInformation"; "name"; "baseName"]) e = [leaf "baseName" [(xml_lang, lit "en")] n] /\
    under (map lit ["flowInformation"; "dataSetInformation"; "CASNumber"]) e = [] /\
    under (map lit ["flowInformation"; "dataSetInformation"; "UUID"]) e = [leaf "common:UUID" [] uuid] /\
    under (map lit ["flowInformation"; "dataSetInformation"; "synonyms"]) e = [leaf "common:synonyms" [] syn] /\
    under (map lit ["flowInformation"; "quantitativeReference"; "referenceToReferenceFlowProperty"]) e = [leaf "referenceToReferenceFlowProperty" [] (lit "0")] /\
    under (map lit ["administrativeInformation"; "publicationAndOwnership"; "dataSetVersion"]) e = [leaf "common:dataSetVersion" [] version] /\
    under (map lit ["flowProperties"; "flowProperty"]) e
    = flat_map (fun k => [k]) (called (lit "flowProperty") (flat_map (emit show flow_space (lit "flowProperty")) props ++ [])) ++ [].
  Proof. cbv zeta. unfold flow_root. rewrite flow_entries. destruct cls as [|c cls]; repeat split; reflexivity. Qed.
End Document.

(** * The exchange *)
Lemma x_name : xml_name (lit "name"). Proof. xname2. Qed.
Lemma x_synonym : xml_name (lit "synonym"). Proof. xname2. Qed.
Lemma x_casNumber : xml_name (lit "casNumber"). Proof. xname2. Qed.
Lemma x_activityLinkId : xml_name (lit "activityLinkId"). Proof. xname2. Qed.
Lemma x_ecomment : xml_name (lit "comment"). Proof. xname2. Qed.
Lemma x_volume_comment : xml_name (lit "productionVolumeComment"). Proof. xname2. Qed.
Lemma spoken_lists ks ls : Forall2 spoken ks ls -> ls <> [] ->
  exists v, (match ks with [] => None | [k] => Some (elem2dict k) | _ => Some (VList (map elem2dict ks)) end) = Some v /\
            ensure_list v false = Ok (map spoken_value ls).
Proof.
  intros F N. destruct F as [|k l ks ls H F]; [congruence|]. destruct F as [|k2 l2 ks ls H2 F].
  - eexists. split; [reflexivity|]. destruct (spoken_read k l H) as [[[-> E]| ->] B]; cbn [ensure_list map].
    + destruct (snd l) eqn:Q; [congruence|]. cbn [str_eqb]. unfold english, spoken_value. rewrite E, ?Q. reflexivity.
    + reflexivity.
  - eexists. split; [reflexivity|]. cbn [ensure_list]. f_equal.
    assert (G : Forall2 spoken (k :: k2 :: ks) (l :: l2 :: ls)) by (constructor; [assumption|constructor; assumption]). clear -G.
    induction G as [|a b ks0 ls0 H0 F0 IH]; [reflexivity|]. cbn [map]. now rewrite IH, (spoken_dict a b H0).
Qed.
Lemma texts_get x d n ls : record_element x -> elem2dict x = VDict d -> xml_name (lit n) -> texts_of x n ls ->
  match ls with
  | [] => getf (lit n) d = None
  | _ => exists v, getf (lit n) d = Some v /\ ensure_list v false = Ok (map spoken_value ls)
  end.
Proof.
  intros R Q X (ks & K & F). pose proof (kids_get x d n ks R Q X K) as G. destruct ls as [|l ls]; [now inversion F; subst|].
  destruct (spoken_lists ks (l :: ls) F ltac:(discriminate)) as (v & E & L). exists v. split; [now rewrite G|exact L].
Qed.
Lemma texts_spoken ls : texts (map spoken_value ls) = Ok (map (fun l => VStr (snd l)) ls).
Proof. unfold texts. induction ls as [|l ls IH]; [reflexivity|]. cbn [map mapM]. rewrite IH. reflexivity. Qed.
Lemma strs_texts (ls : list (pystr * pystr)) : strs (map (fun l => VStr (snd l)) ls) = Ok (map snd ls).
Proof. unfold strs. induction ls as [|l ls IH]; [reflexivity|]. cbn [map mapM]. rewrite IH. reflexivity. Qed.
Lemma truth_spoken ls : filter truth (map spoken_value ls) = map spoken_value ls.
Proof. induction ls as [|l ls IH]; [reflexivity|]. cbn [map filter]. now rewrite IH. Qed.
Section Exchange.
  Context (x : elem) (d : list (pystr * pyval)) (fid : pystr) (names syns : list (pystr * pystr)).
  Context (P : product_exchange x fid names syns) (Q : elem2dict x = VDict d).
  Lemma names_texts : names <> [] -> name_texts d = Ok (map (fun l => VStr (snd l)) names).
  Proof.
    intros N. destruct P as (R & _ & T & _). pose proof (texts_get x d "name" names R Q x_name T) as G. unfold name_texts, item.
    destruct names as [|l ls]; [congruence|]. destruct G as (v & -> & E). cbn [bind]. rewrite E. cbn [bind]. apply texts_spoken.
  Qed.
  Lemma synonyms_text : synonym_text d = Ok (join (lit "; ") (map snd syns)).
  Proof.
    destruct P as (R & _ & _ & T & _). pose proof (texts_get x d "synonym" syns R Q x_synonym T) as G. unfold synonym_text.
    destruct syns as [|l ls]; [now rewrite G|]. destruct G as (v & -> & E). rewrite E. cbn [bind].
    rewrite truth_spoken, texts_spoken. cbn [bind]. rewrite strs_texts. reflexivity.
  Qed.
  Lemma no_cas : cas_number d = VNone.
  Proof.
    destruct P as (R & _ & _ & _ & C & _). pose proof (kids_get x d "casNumber" [] R Q x_casNumber C) as G.
    unfold cas_number, given. now rewrite G.
  Qed.
  Lemma exchange_id : getf (at_ "intermediateExchangeId") d = Some (VStr fid).
  Proof. destruct P as (R & A & _). apply (record_attr x d _ R Q). now exists fid. Qed.
End Exchange.
Definition flow_note (fid : pystr) : pystr := lit "Ecospold 2 exchange, IntermediateExchangeID = " ++ fid.
Lemma no_slash l : forallb (fun m => negb (existsb (N.eqb (ch "/")) m)) l = true -> Forall (fun m => ~ In (ch "/") m) l.
Proof.
  rewrite forallb_forall. intros H. apply Forall_forall. intros m I J. specialize (H m I). apply negb_true_iff in H.
  assert (X : existsb (N.eqb (ch "/")) m = true); [|congruence]. apply existsb_exists. exists (ch "/"). split; [exact J|apply N.eqb_refl].
Qed.
Section Flow.
  Context (uid : pystr -> result pystr) (show : pyval -> pystr) (now : pystr).
  Lemma flow_made x d fid l n names syns id key row ps kind version cls :
    product_exchange x fid ((l, n) :: names) syns -> elem2dict x = VDict d -> uid fid = Ok id -> getf key to_fp = Some row ->
    flow_file uid show now d cls (Some kind) key ps version
    = Ok (id, flow_root show id version now n (join (lit "; ") (map snd syns)) cls (flow_note fid) kind
                (property_dict 0 (unit_draft row) :: property_dicts 1 ps)).
  Proof.
    intros P Q U R. unfold flow_file, make_flow. rewrite (names_texts x d fid _ _ P Q ltac:(discriminate)), (synonyms_text x d fid _ _ P Q). cbn [bind map snd].
    unfold unit_property. rewrite R. cbn [bind]. unfold item. rewrite (exchange_id x d fid _ _ P Q). cbn [bind]. rewrite U. cbn [bind fst snd].
    rewrite (no_cas x d fid _ _ P Q). fold (flow_note fid). pose proof (flow_unparsed show id version now n (join (lit "; ") (map snd syns)) cls (flow_note fid) kind (property_dict 0 (unit_draft row) :: property_dicts 1 ps)) as F.
    unfold info_of in F. rewrite F. reflexivity.
  Qed.
  Lemma unit_legal key row : getf key to_fp = Some row -> legal_draft (unit_draft row).
  Proof.
    intros G. split; [now exists key|]. split; [now eexists|]. split; [constructor|]. repeat constructor. cbn. intros B. inversion B as [|? ? Z]. discriminate Z.
  Qed.
  Lemma called_properties ks : called (lit "flowProperty") (map (fun np => property_elem show (fst np) (snd np)) ks) = map (fun np => property_elem show (fst np) (snd np)) ks.
  Proof.
    induction ks as [|np ks IH]; [reflexivity|]. cbn [map]. unfold called in *. cbn [filter]. rewrite IH.
    change (local (etag (property_elem show (fst np) (snd np)))) with (lit "flowProperty"). now rewrite str_eqb_refl.
  Qed.
  Lemma flat_self {A} (l : list A) : flat_map (fun k => [k]) l = l.
  Proof. induction l as [|a l IH]; [reflexivity|]. cbn. now rewrite IH. Qed.
  Context (id version n syn : pystr) (cls : list class_entry) (comment kind : pystr) (row : to_row) (ps : list (bool * draft)).
  Context (key : pystr) (Row : getf key to_fp = Some row) (L : Forall (fun bp => legal_draft (snd bp)) ps).
  Notation doc := (flow_root show id version now n syn cls comment kind (property_dict 0 (unit_draft row) :: property_dicts 1 ps)).
  Lemma doc_proper : proper doc.
  Proof. apply flow_proper. cbn [forallb]. rewrite (property_good 0 _ (unit_legal key row Row)). now apply properties_good. Qed.
  Lemma doc_at (l : list string) : Forall (fun m => ~ In (ch "/") m) (lit "flowDataSet" :: map lit l) ->
    occurring doc (path (lit "flowDataSet" :: map lit l)) (under (map lit l) doc).
  Proof. intros F. apply occurring_under; [exact doc_proper|reflexivity|exact F]. Qed.
  Lemma doc_type : occurring doc at_type [leaf "typeOfDataSet" [] kind].
  Proof.
    pose proof (doc_at ["modellingAndValidation"; "LCIMethod"; "typeOfDataSet"] ltac:(apply no_slash; reflexivity)) as O.
    destruct (flow_places show id version now n syn cls comment kind (property_dict 0 (unit_draft row) :: property_dicts 1 ps)) as (_ & E & _). rewrite E in O. exact O.
  Qed.
  Lemma doc_name : occurring doc at_name [leaf "baseName" [(xml_lang, lit "en")] n].
  Proof.
    pose proof (doc_at ["flowInformation"; "dataSetInformation"; "name"; "baseName"] ltac:(apply no_slash; reflexivity)) as O.
    destruct (flow_places show id version now n syn cls comment kind (property_dict 0 (unit_draft row) :: property_dicts 1 ps)) as (_ & _ & E & _). rewrite E in O. exact O.
  Qed.
  Lemma doc_cas : occurring doc at_cas [].
  Proof.
    pose proof (doc_at ["flowInformation"; "dataSetInformation"; "CASNumber"] ltac:(apply no_slash; reflexivity)) as O.
    destruct (flow_places show id version now n syn cls comment kind (property_dict 0 (unit_draft row) :: property_dicts 1 ps)) as (_ & _ & _ & E & _). rewrite E in O. exact O.
  Qed.
  Lemma doc_uuid : occurring doc (lit "/flowDataSet/flowInformation/dataSetInformation/UUID") [leaf "common:UUID" [] id].
  Proof.
    pose proof (doc_at ["flowInformation"; "dataSetInformation"; "UUID"] ltac:(apply no_slash; reflexivity)) as O.
    destruct (flow_places show id version now n syn cls comment kind (property_dict 0 (unit_draft row) :: property_dicts 1 ps)) as (_ & _ & _ & _ & E & _). rewrite E in O. exact O.
  Qed.
  Lemma doc_synonyms : occurring doc at_synonyms [leaf "common:synonyms" [] syn].
  Proof.
    pose proof (doc_at ["flowInformation"; "dataSetInformation"; "synonyms"] ltac:(apply no_slash; reflexivity)) as O.
    destruct (flow_places show id version now n syn cls comment kind (property_dict 0 (unit_draft row) :: property_dicts 1 ps)) as (_ & _ & _ & _ & _ & E & _). rewrite E in O. exact O.
  Qed.
  Lemma doc_reference : occurring doc at_reference [leaf "referenceToReferenceFlowProperty" [] (lit "0")].
  Proof.
    pose proof (doc_at ["flowInformation"; "quantitativeReference"; "referenceToReferenceFlowProperty"] ltac:(apply no_slash; reflexivity)) as O.
    destruct (flow_places show id version now n syn cls comment kind (property_dict 0 (unit_draft row) :: property_dicts 1 ps)) as (_ & _ & _ & _ & _ & _ & E & _). rewrite E in O. exact O.
  Qed.
  Lemma doc_version : occurring doc (lit "/flowDataSet/administrativeInformation/publicationAndOwnership/dataSetVersion") [leaf "common:dataSetVersion" [] version].
  Proof.
    pose proof (doc_at ["administrativeInformation"; "publicationAndOwnership"; "dataSetVersion"] ltac:(apply no_slash; reflexivity)) as O.
    destruct (flow_places show id version now n syn cls comment kind (property_dict 0 (unit_draft row) :: property_dicts 1 ps)) as (_ & _ & _ & _ & _ & _ & _ & E & _). rewrite E in O. exact O.
  Qed.
  Lemma doc_properties : exists ks, occurring doc at_property (property_elem show 0 (unit_draft row) :: map (fun np => property_elem show (fst np) (snd np)) ks) /\
    Forall (fun np => (1 <= fst np)%nat /\ legal_draft (snd np)) ks /\ NoDup (map fst ks) /\ map snd ks = map snd (filter fst ps).
  Proof.
    destruct (property_dicts_elems show ps 1 L) as (ks & E & A & N & S). exists ks. split; [|now repeat split].
    pose proof (doc_at ["flowProperties"; "flowProperty"] ltac:(apply no_slash; reflexivity)) as O.
    destruct (flow_places show id version now n syn cls comment kind (property_dict 0 (unit_draft row) :: property_dicts 1 ps)) as (_ & _ & _ & _ & _ & _ & _ & _ & X).
    rewrite X in O. cbn [flat_map] in O. rewrite E, emit_property in O; [|apply (unit_legal key row Row)].
    rewrite flat_self, !app_nil_r in O. change ([property_elem show 0 (unit_draft row)] ++ map (fun np => property_elem show (fst np) (snd np)) ks)
      with (map (fun np => property_elem show (fst np) (snd np)) ((0%nat, unit_draft row) :: ks)) in O. rewrite called_properties in O. exact O.
  Qed.
End Flow.

(** * Comments *)
Lemma spoken_lists_true ks ls : Forall2 spoken ks ls -> ls <> [] ->
  exists v, (match ks with [] => None | [k] => Some (elem2dict k) | _ => Some (VList (map elem2dict ks)) end) = Some v /\
            ensure_list v true = Ok (map spoken_value ls).
Proof.
  intros F N.
  assert (B : Forall (fun ls : pystr * pystr => snd ls <> []) ls).
  { clear -F. induction F as [|k ls ks l S F IH]; constructor; [|exact IH]. now destruct (spoken_read _ _ S). }
  assert (M : map dict_or_text (map elem2dict ks) = map spoken_value ls).
  { clear -F. induction F as [|k ls ks l S F IH]; [reflexivity|]. cbn [map]. now rewrite (spoken_dict _ _ S), IH. }
  destruct ks as [|k [|k2 ks]].
  - inversion F; subst. congruence.
  - inversion F as [|? l ? l' S F']; subst. inversion F'; subst. eexists. split; [reflexivity|]. exact (spoken_list _ _ S).
  - eexists. split; [reflexivity|]. cbn [ensure_list]. now rewrite M, (keep_spoken _ B).
Qed.
Definition volume_note (ls : pystr * pystr) : note := (VStr (fst ls), lit "Production Volume Comment: " ++ snd ls).
Definition link_text (s : pystr) : pystr := lit "Ecoinvent activity linkable id: " ++ s.
Section Notes.
  Context (language : pyval).
  Lemma add_volume_all l : mapM (add_note language (lit "Production Volume Comment: ")) (map spoken_value l) = Ok (map volume_note l).
  Proof. induction l as [|ls l IH]; [reflexivity|]. cbn [map mapM]. rewrite IH. reflexivity. Qed.
  Lemma given_attribute x d n : record_element x -> elem2dict x = VDict d -> (exists s, attribute x n s /\ s <> []) -> given d (at_ n) = true.
  Proof.
    intros R Q (s & A & N). assert (G : getf (at_ n) d = Some (VStr s)) by (apply (record_attr x d _ R Q); now exists s). unfold given. rewrite G. now apply nonempty_truth.
  Qed.
  Lemma not_given_attribute x d n : record_element x -> elem2dict x = VDict d -> (forall s, attribute x n s -> s = []) -> given d (at_ n) = false.
  Proof.
    intros R Q A. unfold given. destruct (getf (at_ n) d) as [v|] eqn:G; [|reflexivity]. apply (record_attr x d n R Q) in G. destruct G as (s & -> & H). now rewrite (A s H).
  Qed.
  Lemma notes_of x d fid names syns cs vs (b : bool) : product_exchange x fid names syns -> elem2dict x = VDict d ->
    texts_of x "comment" cs -> texts_of x "productionVolumeComment" vs ->
    (if b then exists s, attribute x "productionVolumeAmount" s /\ s <> [] else forall s, attribute x "productionVolumeAmount" s -> s = []) ->
    exchange_notes language d = Ok (map note_of cs ++ if b then map volume_note vs else []).
  Proof.
    intros P Q (ks & K & F) V A. assert (PP := P). destruct P as (R & _ & _ & _ & _ & L). unfold exchange_notes.
    assert (C1 : bind (ensure_list (match getf (lit "comment") d with Some v => v | None => VDict [] end) true) (mapM (add_note language (lit ""))) = Ok (map note_of cs)).
    { rewrite (kids_get x d "comment" ks R Q x_ecomment K). destruct cs as [|c cs]; [now inversion F; subst|].
      destruct (spoken_lists_true ks (c :: cs) F ltac:(discriminate)) as (v & E & T). rewrite E, T. cbn [bind]. apply add_spoken_all. }
    rewrite C1. cbn [bind].
    assert (C2 : bind (ensure_list (match getf (lit "productionVolumeComment") d with Some v => v | None => VDict [] end) false) (mapM (add_note language (lit "Production Volume Comment: "))) = Ok (map volume_note vs)).
    { pose proof (texts_get x d "productionVolumeComment" vs R Q x_volume_comment V) as G. destruct vs as [|c vs]; [now rewrite G|].
      destruct G as (v & -> & T). rewrite T. cbn [bind]. apply add_volume_all. }
    assert (C3 : given d (lit "activityLinkId") = false).
    { unfold given. now rewrite (kids_get x d "activityLinkId" [] R Q x_activityLinkId L). }
    rewrite C3. destruct b.
    - rewrite (given_attribute x d "productionVolumeAmount" R Q A), C2. cbn [bind]. now rewrite app_nil_r.
    - rewrite (not_given_attribute x d "productionVolumeAmount" R Q A). reflexivity.
  Qed.
End Notes.
(** * Synonyms without a text *)
Lemma empty_synonym x d ks k : record_element x -> elem2dict x = VDict d -> named_kids (lit "synonym") (ekids x) ks -> (2 <= length ks)%nat ->
  In k ks -> empty_element k -> exists e, synonym_text d = Err e.
Proof.
  intros R Q K L I E. unfold synonym_text. rewrite (kids_get x d "synonym" ks R Q x_synonym K). destruct ks as [|a [|b ks]]; cbn [length] in L; try lia.
  cbn [ensure_list bind]. remember (a :: b :: ks) as l eqn:El. clear El K L a b ks.
  assert (J : In (english (VDict [])) (filter truth (map dict_or_text (map elem2dict l)))).
  { apply filter_In. split; [|reflexivity]. apply in_map_iff. exists (VDict []). split; [reflexivity|]. apply in_map_iff. exists k. split; [|exact I].
    destruct k as [t at_ tx tl kk]. destruct E as (Ea & Ek & Eb). cbn [eattrib ekids etext] in *. subst. cbn [elem2dict map fold_left]. unfold own_entries. cbn [fold_left].
    assert (real_text tx = None) as ->; [|reflexivity]. destruct tx as [s|]; [|reflexivity]. cbn in Eb. unfold real_text.
    destruct (negb (str_eqb s []) && negb (isspace s))%bool eqn:Z; [|reflexivity]. exfalso. apply andb_true_iff in Z. destruct Z as [Z1 Z2].
    apply negb_true_iff in Z1, Z2. unfold isspace in Z2. destruct s as [|c s]; [discriminate|]. rewrite <- not_true_iff_false in Z2. apply Z2.
    apply forallb_forall. now rewrite Forall_forall in Eb. }
  unfold texts. destruct (mapM text_item _) as [ts|e] eqn:T; [|now exists e]. cbn [bind]. apply PyBaseFacts.mapM_forall2 in T.
  assert (U : In (VDict []) ts).
  { clear -J T. induction T as [|u v l0 ts0 H T IH]; [contradiction|]. destruct J as [->|J]; [left; now injection H|right; now apply IH]. }
  destruct (mapM_err_in (fun v => match v with VStr s => Ok s | _ => Err TypeError end) ts (VDict []) U ltac:(now exists TypeError)) as [e Z].
  unfold strs. rewrite Z. now exists e.
Qed.
(** * Versions *)
Definition three (a b c : N) : bool :=
  match dec_digits [a; b; c] with Some n => str_eqb (pad3 (str_of_N n)) [a; b; c] | None => false end.
Lemma all_three : forallb (fun a => forallb (fun b => forallb (three a b) (map digit (map N.of_nat (seq 0 10)))) (map digit (map N.of_nat (seq 0 10)))) (map digit (map N.of_nat (seq 0 10))) = true.
Proof. vm_compute. reflexivity. Qed.
Lemma a_digit c : decimal c -> In c (map digit (map N.of_nat (seq 0 10))).
Proof.
  intros [A B]. rewrite map_map. apply in_map_iff. exists (N.to_nat (c - 48)). split; [unfold digit; rewrite Nnat.N2Nat.id; lia|]. apply in_seq. lia.
Qed.
Lemma three_digits a b c : decimal a -> decimal b -> decimal c -> exists n, dec_digits [a; b; c] = Some n /\ pad3 (str_of_N n) = [a; b; c].
Proof.
  intros A B C. pose proof all_three as T. rewrite forallb_forall in T. specialize (T a (a_digit a A)). rewrite forallb_forall in T. specialize (T b (a_digit b B)).
  rewrite forallb_forall in T. specialize (T c (a_digit c C)). unfold three in T. destruct (dec_digits [a; b; c]) as [n|]; [|discriminate]. exists n. split; [reflexivity|]. now apply str_eqb_eq.
Qed.
Lemma no_dot l : Forall decimal l -> ~ In (ch ".") l.
Proof. intros F I. rewrite Forall_forall in F. destruct (F _ I) as [A _]. vm_compute in A. now apply A. Qed.
Lemma version_parts a b c : Forall decimal a -> Forall decimal b -> Forall decimal c -> split (lit ".") (a ++ lit "." ++ b ++ lit "." ++ c) = [a; b; c].
Proof. intros A B C. apply (ReviewProofs.split_char_of_join (ch ".") [a; b; c]); [discriminate|]. repeat constructor; now apply no_dot. Qed.
Lemma version_short a b : Forall decimal a -> Forall decimal b -> split (lit ".") (a ++ lit "." ++ b) = [a; b].
Proof. intros A B. apply (ReviewProofs.split_char_of_join (ch ".") [a; b]); [discriminate|]. repeat constructor; now apply no_dot. Qed.
Lemma pad3_length s : (length s <= 3)%nat -> length (pad3 s) = 3%nat.
Proof. intros H. unfold pad3. rewrite app_length, repeat_length. lia. Qed.
Lemma pad3_digits s : Forall decimal s -> Forall decimal (pad3 s).
Proof. intros F. unfold pad3. apply Forall_app. split; [|exact F]. apply Forall_forall. intros c I. apply repeat_spec in I. subst. split; vm_compute; discriminate. Qed.
