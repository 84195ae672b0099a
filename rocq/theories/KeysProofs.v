(** Proofs about the paths asked for by the mappings. *)
From Coq Require Import Ascii String List Bool Arith NArith ZArith Lia.
From Verif Require Import PyBase PyBaseFacts PyValues MultiLangModel DotDictModel SchemaModel SchemaTables
  XmlModel XmlSpec XmlProofs KeysModel KeysSpec.
Import ListNotations.

(** * The reports of a document, by recursion *)
Fixpoint reports (keys : list pystr) (q : pystr) (e : elem) : list (pystr * pyval) :=
  match e with
  | Elem t a x l es => flat_map (fun k => reports keys (q ++ lit "/" ++ local (etag k)) k) es ++ due keys (q, e)
  end.
Lemma closes_reports keys e : forall p cs, closes p e cs ->
  flat_map (due keys) cs = reports keys (p ++ lit "/" ++ local (etag e)) e.
Proof.
  induction e as [t a x l kids IH] using elem_ind2. intros p cs C.
  inversion C as [? ? ? ? ? n css Hn Hc]; subst. cbn [etag reports]. rewrite (name_local _ _ Hn).
  set (q := p ++ lit "/" ++ n) in *. rewrite flat_map_app. cbn [flat_map]. rewrite app_nil_r. f_equal.
  clear -IH Hc. clearbody q. revert css Hc. induction kids as [|k ks IHk]; intros css Hc; inversion Hc; subst; [reflexivity|].
  inversion IH as [|? ? F1 F2]; subst. cbn [flat_map]. rewrite flat_map_app. f_equal; [now apply F1|now apply IHk].
Qed.
Lemma read_reports keys e : proper e -> read keys e = reports keys (lit "/" ++ local (etag e)) e.
Proof.
  intros P. destruct (closes_exist e P []) as [cs C]. refine (eq_trans _ (closes_reports keys e [] cs C)).
  unfold read. pose proof (gen_spec keys e P [] cs [] C) as G. rewrite app_nil_r in G. rewrite G. cbn.
  now rewrite app_nil_r.
Qed.

(** * Shapes *)
Lemma shape_ind2 (P : shape -> Prop) :
  (forall a ks, Forall (fun nk => P (snd nk)) ks -> P (Shape a ks)) -> forall s, P s.
Proof.
  intros H. fix IH 1. intros [a ks]. apply H. induction ks as [|[n s] ks IHk]; constructor; [exact (IH s)|exact IHk].
Qed.
(** [p] without the leading [pre] *)
Fixpoint after (pre p : pystr) : option pystr :=
  match pre, p with
  | [], _ => Some p
  | c :: pre', d :: p' => if N.eqb c d then after pre' p' else None
  | _, [] => None
  end.
Lemma after_spec pre : forall p r, after pre p = Some r <-> p = pre ++ r.
Proof.
  induction pre as [|c pre IH]; intros p r; cbn [after app]; [split; [now intros [= ->]|now intros ->]|].
  destruct p as [|d p]; [split; discriminate|]. destruct (N.eqb_spec c d) as [<-|N].
  - rewrite IH. split; [now intros ->|now intros [= ->]].
  - split; [discriminate|]. intros [= -> _]. contradiction.
Qed.
Fixpoint routeb (s : shape) (p : pystr) : bool :=
  match s with
  | Shape a ks =>
      (existsb (fun x => str_eqb p (lit "/@" ++ x)) a
       || existsb (fun nk => match after (lit "/" ++ fst nk) p with
                             | Some [] => true
                             | Some r => routeb (snd nk) r
                             | None => false
                             end) ks)%bool
  end.
Lemma route_nonempty s p : route s p -> p <> [].
Proof. now intros []. Qed.
Lemma routeb_spec s : forall p, route s p <-> routeb s p = true.
Proof.
  induction s as [a ks IH] using shape_ind2. intros p. rewrite Forall_forall in IH. cbn [routeb]. rewrite orb_true_iff. split.
  - intros R. inversion R as [? x H1|? n s' H1|? n s' r H1 H2]; subst; cbn [s_attrs s_kids] in H1.
    + left. apply existsb_exists. exists x. split; [exact H1|apply str_eqb_refl].
    + right. apply existsb_exists. exists (n, s'). split; [exact H1|]. cbn [fst snd].
      now rewrite (proj2 (after_spec (lit "/" ++ n) _ []) (eq_sym (app_nil_r _))).
    + right. apply existsb_exists. exists (n, s'). split; [exact H1|]. cbn [fst snd].
      rewrite (proj2 (after_spec (lit "/" ++ n) (lit "/" ++ n ++ r) r) (app_assoc _ _ _)).
      apply (IH _ H1) in H2. cbn [snd] in H2. now destruct r.
  - intros [H|H]; apply existsb_exists in H.
    + destruct H as (x & I & H). apply str_eqb_eq in H. subst p. now constructor.
    + destruct H as ([n s'] & I & H). cbn [fst snd] in H. destruct (after (lit "/" ++ n) p) as [r|] eqn:E; [|discriminate].
      apply after_spec in E. subst p. destruct r as [|c r].
      * rewrite app_nil_r. now apply (route_child _ n s').
      * rewrite <- app_assoc. apply (route_below _ n s'); [exact I|]. now apply (IH _ I).
Qed.

Definition name_ok (n : pystr) : bool :=
  match n with
  | [] => false
  | c :: _ => (negb (existsb (N.eqb (ch "/")) n) && negb (existsb (N.eqb (ch "}")) n)
               && negb (N.eqb c (ch "@")) && negb (N.eqb c (ch "#")))%bool
  end.
Fixpoint names_ok (s : shape) : bool :=
  match s with Shape a ks => forallb (fun nk => (name_ok (fst nk) && names_ok (snd nk))%bool) ks end.
Lemma not_existsb c n : existsb (N.eqb c) n = false -> ~ In c n.
Proof.
  intros H I. assert (existsb (N.eqb c) n = true); [|congruence]. apply existsb_exists. exists c.
  split; [exact I|apply N.eqb_refl].
Qed.
Lemma name_ok_spec n : name_ok n = true -> xml_name n /\ name_of n n.
Proof.
  destruct n as [|c n]; [discriminate|]. cbn [name_ok]. rewrite !andb_true_iff, !negb_true_iff.
  intros [[[H1 H2] H3] H4]. apply not_existsb in H1, H2. apply N.eqb_neq in H3, H4.
  split; [split; [discriminate|split; [exact H1|split]]|split; [exact H2|now left]]; intros r E; injection E as E _; contradiction.
Qed.
Lemma names_kid s n s' : names_ok s = true -> In (n, s') (s_kids s) -> name_ok n = true /\ names_ok s' = true.
Proof.
  destruct s as [a ks]. cbn [names_ok s_kids]. intros H I. rewrite forallb_forall in H. apply H in I.
  cbn [fst snd] in I. now apply andb_true_iff in I.
Qed.
Lemma fits_proper e : forall s n, names_ok s = true -> fits s e -> name_of (etag e) n -> name_ok n = true -> proper e.
Proof.
  induction e as [t a x l kids IH] using elem_ind2. intros s n N F Hn K. inversion F as [? ? ? ? ? ? Fa Fk]; subst.
  destruct (name_ok_spec _ K) as [X _]. apply (proper_elem _ _ _ _ _ n Hn X).
  rewrite Forall_forall in *. intros k Ik. destruct (Fk _ Ik) as (m & s' & I & Hm & F').
  destruct (names_kid _ _ _ N I) as [K' N']. now apply (IH k Ik s' m).
Qed.
Lemma document_proper top e : names_ok top = true -> document top e -> proper e.
Proof.
  intros N (n & s & I & Hn & F). destruct (names_kid _ _ _ N I) as [K N']. now apply (fits_proper e s n).
Qed.

(** * Only paths of the format are reported *)
Lemma reports_keys keys e : forall q p v, In (p, v) (reports keys q e) -> In p keys.
Proof.
  induction e as [t a x l kids IH] using elem_ind2. intros q p v H. cbn [reports] in H.
  apply in_app_or in H. destruct H as [H|H].
  - apply in_flat_map in H. destruct H as (k & Ik & H). rewrite Forall_forall in IH. now apply (IH k Ik) in H.
  - unfold due in H. apply in_app_or in H. destruct H as [H|H]; cbn [fst snd] in H.
    + destruct (in_dec _ _ _) as [I|I]; [|destruct H]. destruct H as [H|[]]. now inversion H; subst.
    + apply in_flat_map in H. destruct H as (kv & _ & H). destruct (in_dec _ _ _) as [I|I]; [|destruct H].
      destruct H as [H|[]]. now inversion H; subst.
Qed.
Lemma reports_route keys e : forall s q p v, Forall (fun k => ~ In (ch "{") k) keys -> fits s e ->
  In (p, v) (reports keys q e) -> p = q \/ exists r, route s r /\ p = q ++ r.
Proof.
  induction e as [t a x l kids IH] using elem_ind2. intros s q p v B F H. cbn [reports] in H.
  inversion F as [? ? ? ? ? ? Fa Fk]; subst. rewrite Forall_forall in *. apply in_app_or in H. destruct H as [H|H].
  - apply in_flat_map in H. destruct H as (k & Ik & H). destruct (Fk _ Ik) as (n & s' & I & Hn & F').
    rewrite (name_local _ _ Hn) in H. right.
    destruct (IH k Ik s' _ _ _ (proj2 (Forall_forall _ _) B) F' H) as [->|(r & R & ->)].
    + exists (lit "/" ++ n). split; [now apply (route_child _ n s')|reflexivity].
    + exists (lit "/" ++ n ++ r). split; [now apply (route_below _ n s')|now rewrite <- !app_assoc].
  - unfold due in H. apply in_app_or in H. destruct H as [H|H]; cbn [fst snd] in H.
    + destruct (in_dec _ _ _) as [I|I]; [|destruct H]. destruct H as [H|[]]. left. now inversion H.
    + apply in_flat_map in H. destruct H as ([k w] & Ik & H). cbn [fst snd eattrib] in *.
      destruct (in_dec _ _ _) as [I|I]; [|destruct H].
      destruct H as [H|[]]. inversion H; subst. destruct (Fa _ Ik) as [A|(ns & m & E)]; cbn [fst] in *.
      * right. exists (lit "/@" ++ k). split; [now constructor|reflexivity].
      * exfalso. apply (B _ I). rewrite E, !in_app_iff. right. right. left. now left.
Qed.
Lemma read_route keys top e p v : names_ok top = true -> Forall (fun k => ~ In (ch "{") k) keys -> document top e ->
  In (p, v) (read keys e) -> In p keys /\ route top p.
Proof.
  intros N B D H. rewrite (read_reports _ _ (document_proper _ _ N D)) in H. split; [now apply reports_keys in H|].
  destruct D as (n & s & I & Hn & F). rewrite (name_local _ _ Hn) in H.
  destruct (reports_route _ _ _ _ _ _ B F H) as [->|(r & R & ->)].
  - now apply (route_child _ n s).
  - rewrite <- app_assoc. now apply (route_below _ n s).
Qed.

(** * Every path of the format can be reported *)
Lemma due_self keys q e : In q keys -> In (q, elem2dict e) (due keys (q, e)).
Proof.
  intros I. unfold due. apply in_or_app. left. cbn [fst snd]. destruct (in_dec _ _ _) as [J|J]; [now left|contradiction].
Qed.
Lemma reports_self keys q e : In q keys -> In (q, elem2dict e) (reports keys q e).
Proof. intros I. destruct e. cbn [reports]. apply in_or_app. right. now apply due_self. Qed.
Lemma route_document keys s r : route s r -> names_ok s = true -> forall q n, In (q ++ r) keys ->
  exists e v, etag e = n /\ fits s e /\ In (q ++ r, v) (reports keys q e).
Proof.
  intros R. induction R as [s a A|s m s' I|s m s' p I R IH]; intros N q n K.
  - exists (Elem n [(a, [])] None None []), (VStr []). split; [reflexivity|]. split.
    + constructor; [constructor; [now left|constructor]|constructor].
    + cbn [reports flat_map app]. unfold due. cbn [fst snd eattrib flat_map]. apply in_or_app. right.
      destruct (in_dec _ _ _) as [J|J]; [now left|contradiction].
  - destruct (names_kid _ _ _ N I) as [M _]. destruct (name_ok_spec _ M) as [_ Hm].
    set (k := Elem m [] None None []). exists (Elem n [] None None [k]), (elem2dict k). split; [reflexivity|]. split.
    + constructor; [constructor|]. constructor; [|constructor]. exists m, s'. split; [exact I|]. split; [exact Hm|].
      constructor; constructor.
    + cbn [reports flat_map]. apply in_or_app. left. rewrite app_nil_r.
      change (etag k) with m. rewrite (name_local _ _ Hm). now apply reports_self.
  - destruct (names_kid _ _ _ N I) as [M N']. destruct (name_ok_spec _ M) as [_ Hm].
    assert (E : q ++ lit "/" ++ m ++ p = (q ++ lit "/" ++ m) ++ p) by now rewrite <- !app_assoc.
    rewrite E in K. destruct (IH N' (q ++ lit "/" ++ m) m K) as (k & v & T & F & H).
    exists (Elem n [] None None [k]), v. split; [reflexivity|]. split.
    + constructor; [constructor|]. constructor; [|constructor]. exists m, s'. rewrite T. auto.
    + cbn [reports flat_map]. apply in_or_app. left. rewrite app_nil_r, T, (name_local _ _ Hm), E. exact H.
Qed.
Lemma route_read keys top p : names_ok top = true -> s_attrs top = [] -> route top p -> In p keys ->
  exists e v, document top e /\ In (p, v) (read keys e).
Proof.
  intros N A R K. inversion R as [? a H|? n s' I|? n s' r I R']; subst.
  - rewrite A in H. destruct H.
  - destruct (names_kid _ _ _ N I) as [M _]. destruct (name_ok_spec _ M) as [_ Hm].
    set (e := Elem n [] None None []). assert (D : document top e).
    { exists n, s'. split; [exact I|]. split; [exact Hm|]. constructor; constructor. }
    exists e, (elem2dict e). split; [exact D|]. rewrite (read_reports _ _ (document_proper _ _ N D)).
    change (etag e) with n. rewrite (name_local _ _ Hm). now apply reports_self.
  - destruct (names_kid _ _ _ N I) as [M N']. destruct (name_ok_spec _ M) as [_ Hm].
    assert (E : lit "/" ++ n ++ r = (lit "/" ++ n) ++ r) by now rewrite <- !app_assoc.
    rewrite E in K. destruct (route_document keys s' r R' N' (lit "/" ++ n) n K) as (e & v & T & F & H).
    assert (D : document top e) by (exists n, s'; rewrite T; auto).
    exists e, v. split; [exact D|]. rewrite (read_reports _ _ (document_proper _ _ N D)), T, (name_local _ _ Hm), E. exact H.
Qed.
(** Both directions *)
Lemma reachable keys top : names_ok top = true -> s_attrs top = [] -> Forall (fun k => ~ In (ch "{") k) keys ->
  forall p, (exists e v, document top e /\ In (p, v) (read keys e)) <-> In p keys /\ route top p.
Proof.
  intros N A B p. split.
  - intros (e & v & D & H). destruct (read_route _ _ _ _ _ N B D H) as [K R]. now split.
  - intros [K R]. now apply route_read.
Qed.

(** * Fields nobody asks for *)
Scheme alike_mut := Minimality for alike Sort Prop
  with alike_all_mut := Minimality for alike_all Sort Prop
  with alike_attrs_mut := Minimality for alike_attrs Sort Prop.
Combined Scheme alike_ind3 from alike_mut, alike_all_mut, alike_attrs_mut.
Lemma below_trans q n h : below (q ++ lit "/" ++ n) h -> below q h.
Proof. intros [r ->]. exists (n ++ lit "/" ++ r). now rewrite <- !app_assoc. Qed.
Lemma below_step q n : below q (q ++ lit "/" ++ n).
Proof. now exists n. Qed.
Lemma alike_eq hidden :
  (forall q e e', alike hidden q e e' -> (forall h, In h hidden -> ~ below q h) -> e = e') /\
  (forall q es es', alike_all hidden q es es' -> (forall h, In h hidden -> ~ below q h) -> es = es') /\
  (forall q a a', alike_attrs hidden q a a' -> (forall h, In h hidden -> ~ below q h) -> a = a').
Proof.
  cut (forall q, (forall e e', alike hidden q e e' -> (forall h, In h hidden -> ~ below q h) -> e = e') /\
    (forall es es', alike_all hidden q es es' -> (forall h, In h hidden -> ~ below q h) -> es = es') /\
    (forall a a', alike_attrs hidden q a a' -> (forall h, In h hidden -> ~ below q h) -> a = a')).
  { intros E. repeat split; intros q; apply E. }
  apply (alike_ind3 hidden (fun q e e' => (forall h, In h hidden -> ~ below q h) -> e = e')
    (fun q es es' => (forall h, In h hidden -> ~ below q h) -> es = es')
    (fun q a a' => (forall h, In h hidden -> ~ below q h) -> a = a')).
  - intros q t a a' x l es es' _ IHa _ IHk H. now rewrite (IHa H), (IHk H).
  - reflexivity.
  - intros q k k' n es es' _ _ _ IHk _ IHes H. rewrite (IHes H), IHk; [reflexivity|].
    intros h Ih B. apply (H h Ih). now apply below_trans in B.
  - intros q k n es es' _ I _ _ H. destruct (H _ I (below_step q n)).
  - intros q k n es es' _ I _ _ H. destruct (H _ I (below_step q n)).
  - reflexivity.
  - intros q kv a a' _ IH H. now rewrite (IH H).
  - intros q k v a a' I _ _ H. destruct (H _ I). exists (lit "@" ++ k). reflexivity.
  - intros q k v a a' I _ _ H. destruct (H _ I). exists (lit "@" ++ k). reflexivity.
Qed.
Lemma reports_none keys e : forall q, (forall k, In k keys -> k <> q /\ ~ below q k) -> reports keys q e = [].
Proof.
  induction e as [t a x l kids IH] using elem_ind2. intros q H. cbn [reports].
  assert (K : flat_map (fun k => reports keys (q ++ lit "/" ++ local (etag k)) k) kids = []).
  { clear -IH H. induction kids as [|k ks IHk]; [reflexivity|]. inversion IH as [|? ? F1 F2]; subst. cbn [flat_map].
    rewrite (F1 (q ++ lit "/" ++ local (etag k))), (IHk F2); [reflexivity|]. intros p Ip. destruct (H p Ip) as [_ B]. split.
    - intros ->. apply B, below_step.
    - intros B'. apply B. now apply below_trans in B'. }
  rewrite K. cbn [app]. unfold due. cbn [fst snd eattrib].
  destruct (in_dec (list_eq_dec N.eq_dec) q keys) as [I|I]; [now destruct (H q I)|]. cbn [app]. clear -H. induction a as [|[k v] a IHa]; [reflexivity|].
  cbn [flat_map fst snd]. destruct (in_dec (list_eq_dec N.eq_dec) _ keys) as [I|I]; [|exact IHa]. destruct (H _ I) as [_ B]. destruct B.
  exists (lit "@" ++ k). reflexivity.
Qed.
Definition unasked (keys hidden : list pystr) : Prop :=
  forall k h, In k keys -> In h hidden -> k <> h /\ ~ below h k /\ ~ below k h.
Lemma alike_reports keys hidden : unasked keys hidden ->
  (forall q e e', alike hidden q e e' -> reports keys q e = reports keys q e') /\
  (forall q es es', alike_all hidden q es es' ->
     flat_map (fun k => reports keys (q ++ lit "/" ++ local (etag k)) k) es
     = flat_map (fun k => reports keys (q ++ lit "/" ++ local (etag k)) k) es') /\
  (forall q a a', alike_attrs hidden q a a' ->
     flat_map (fun kv : pystr * pystr => if in_dec (list_eq_dec N.eq_dec) (q ++ lit "/@" ++ fst kv) keys
                        then [(q ++ lit "/@" ++ fst kv, VStr (snd kv))] else []) a
     = flat_map (fun kv => if in_dec (list_eq_dec N.eq_dec) (q ++ lit "/@" ++ fst kv) keys
                        then [(q ++ lit "/@" ++ fst kv, VStr (snd kv))] else []) a').
Proof.
  intros U.
  set (ats := fun q (kv : pystr * pystr) => if in_dec (list_eq_dec N.eq_dec) (q ++ lit "/@" ++ fst kv) keys
                        then [(q ++ lit "/@" ++ fst kv, VStr (snd kv))] else []).
  set (kid := fun q k => reports keys (q ++ lit "/" ++ local (etag k)) k).
  cut (forall q,
    (forall e e', alike hidden q e e' -> alike hidden q e e' /\ reports keys q e = reports keys q e') /\
    (forall es es', alike_all hidden q es es' -> alike_all hidden q es es' /\ flat_map (kid q) es = flat_map (kid q) es') /\
    (forall a a', alike_attrs hidden q a a' -> alike_attrs hidden q a a' /\ flat_map (ats q) a = flat_map (ats q) a')).
  { intros E. repeat split; intros q x y H; apply (E q) in H; apply H. }
  apply (alike_ind3 hidden (fun q e e' => alike hidden q e e' /\ reports keys q e = reports keys q e')
    (fun q es es' => alike_all hidden q es es' /\ flat_map (kid q) es = flat_map (kid q) es')
    (fun q a a' => alike_attrs hidden q a a' /\ flat_map (ats q) a = flat_map (ats q) a')); unfold kid, ats.
  - intros q t a a' x l es es' A1 [A2 IHa] K1 [K2 IHk].
    assert (A : alike hidden q (Elem t a x l es) (Elem t a' x l es')) by now constructor.
    split; [exact A|]. cbn [reports]. rewrite IHk. f_equal. unfold due. cbn [fst snd eattrib]. f_equal; [|exact IHa].
    destruct (in_dec (list_eq_dec N.eq_dec) q keys) as [I|I]; [|reflexivity].
    rewrite (proj1 (alike_eq hidden) _ _ _ A); [reflexivity|]. intros h Ih. now destruct (U _ _ I Ih) as (_ & _ & ?).
  - split; [constructor|reflexivity].
  - intros q k k' n es es' Hn Ht A [_ IHk] As [_ IHes]. split; [now apply (alike_both _ _ _ _ n)|].
    cbn [flat_map]. rewrite Ht, (name_local _ _ Hn), IHk, IHes. reflexivity.
  - intros q k n es es' Hn I As [_ IHes]. split; [now apply (alike_drop _ _ _ n)|].
    cbn [flat_map]. rewrite (name_local _ _ Hn), reports_none; [exact IHes|].
    intros p Ip. destruct (U _ _ Ip I) as (? & ? & _). now split.
  - intros q k n es es' Hn I As [_ IHes]. split; [now apply (alike_add _ _ _ n)|].
    cbn [flat_map]. rewrite (name_local _ _ Hn), reports_none; [exact IHes|].
    intros p Ip. destruct (U _ _ Ip I) as (? & ? & _). now split.
  - split; [constructor|reflexivity].
  - intros q kv a a' A [_ IH]. split; [now constructor|]. cbn [flat_map]. now rewrite IH.
  - intros q k v a a' I A [_ IH]. split; [now constructor|]. cbn [flat_map fst snd].
    destruct (in_dec (list_eq_dec N.eq_dec) _ keys) as [J|J]; [|exact IH]. now destruct (U _ _ J I) as [X _].
  - intros q k v a a' I A [_ IH]. split; [now constructor|]. cbn [flat_map fst snd].
    destruct (in_dec (list_eq_dec N.eq_dec) _ keys) as [J|J]; [|exact IH]. now destruct (U _ _ J I) as [X _].
Qed.
Lemma alike_read keys hidden e e' : unasked keys hidden -> proper e -> proper e' -> alike_documents hidden e e' ->
  read keys e = read keys e'.
Proof.
  intros U P P' (T & n & Hn & A). rewrite (read_reports _ _ P), (read_reports _ _ P'), <- T, (name_local _ _ Hn).
  now apply (proj1 (alike_reports keys hidden U)).
Qed.

(** * Decision procedures for the concrete lists *)
Definition belowb (p q : pystr) : bool := prefixb (p ++ lit "/") q.
Lemma belowb_spec p q : belowb p q = true <-> below p q.
Proof.
  unfold belowb, below. rewrite prefixb_spec. split; intros [r ->]; exists r; now rewrite <- !app_assoc.
Qed.
Definition unaskedb (keys hidden : list pystr) : bool :=
  forallb (fun k => forallb (fun h => negb (str_eqb k h || belowb h k || belowb k h)) hidden) keys.
Lemma unaskedb_spec keys hidden : unaskedb keys hidden = true -> unasked keys hidden.
Proof.
  unfold unaskedb. rewrite forallb_forall. intros H k h Ik Ih. apply H in Ik. rewrite forallb_forall in Ik.
  apply Ik in Ih. apply negb_true_iff in Ih. rewrite !orb_false_iff in Ih. destruct Ih as [[H1 H2] H3].
  split; [intros ->; now rewrite str_eqb_refl in H1|]. split; intros B; apply belowb_spec in B; congruence.
Qed.
Definition no_brace (keys : list pystr) : bool := forallb (fun k => negb (existsb (N.eqb (ch "{")) k)) keys.
Lemma no_brace_spec keys : no_brace keys = true -> Forall (fun k => ~ In (ch "{") k) keys.
Proof.
  unfold no_brace. rewrite forallb_forall, Forall_forall. intros H k Ik. apply H in Ik. apply negb_true_iff in Ik.
  now apply not_existsb.
Qed.
Definition touched (keys : list pystr) (p : pystr) : Prop := exists k, In k keys /\ (k = p \/ below k p \/ below p k).
Definition touchedb (keys : list pystr) (p : pystr) : bool :=
  existsb (fun k => (str_eqb k p || belowb k p || belowb p k)%bool) keys.
Lemma touchedb_spec keys p : touchedb keys p = true -> touched keys p.
Proof.
  unfold touchedb. rewrite existsb_exists. intros (k & Ik & H). exists k. split; [exact Ik|].
  apply orb_true_iff in H. destruct H as [H|H]; [apply orb_true_iff in H; destruct H as [H|H]|].
  - left. now apply str_eqb_eq.
  - right. left. now apply belowb_spec.
  - right. right. now apply belowb_spec.
Qed.
Definition outside (parts : list pystr) (p : pystr) : Prop := forall h, In h parts -> p <> h /\ ~ below h p.
(** Every path at or under [q], where the shape is [s], is touched or in one of the parts. *)
Fixpoint coveredb (keys parts : list pystr) (s : shape) (q : pystr) : bool :=
  (str_in q keys || str_in q parts ||
   match s with
   | Shape a ks =>
       touchedb keys q
       && forallb (fun x => let p := q ++ lit "/@" ++ x in (str_in p parts || touchedb keys p)%bool) a
       && forallb (fun nk => coveredb keys parts (snd nk) (q ++ lit "/" ++ fst nk)) ks
   end)%bool.
Lemma coveredb_spec keys parts s : forall q, coveredb keys parts s q = true ->
  (outside parts q -> touched keys q) /\ (forall r, route s r -> outside parts (q ++ r) -> touched keys (q ++ r)).
Proof.
  induction s as [a ks IH] using shape_ind2. intros q H. rewrite Forall_forall in IH. cbn [coveredb] in H.
  rewrite !orb_true_iff, !andb_true_iff in H. destruct H as [[H|H]|[[H1 H2] H3]].
  - apply str_in_In in H. split; [intros _; exists q; auto|]. intros r R _. exists q. split; [exact H|]. right. left.
    inversion R; subst; [exists (lit "@" ++ a0)|exists n|exists (n ++ p)]; reflexivity.
  - apply str_in_In in H. split; [intros O; now destruct (O q H)|]. intros r R O. destruct (O q H) as [_ B]. destruct B.
    inversion R; subst; [exists (lit "@" ++ a0)|exists n|exists (n ++ p)]; reflexivity.
  - split; [intros _; now apply touchedb_spec|]. rewrite forallb_forall in H2, H3.
    intros r R O. inversion R as [? x I|? n s' I|? n s' p I R']; subst; cbn [s_attrs s_kids] in I.
    + specialize (H2 _ I). cbv zeta in H2. apply orb_true_iff in H2. destruct H2 as [H2|H2]; [|now apply touchedb_spec].
      apply str_in_In in H2. now destruct (O _ H2).
    + now apply (IH _ I (q ++ lit "/" ++ n) (H3 _ I)).
    + assert (E : q ++ lit "/" ++ n ++ p = (q ++ lit "/" ++ n) ++ p) by now rewrite <- !app_assoc.
      rewrite E in *. now apply (IH _ I (q ++ lit "/" ++ n) (H3 _ I)).
Qed.
Lemma outside_touched keys top parts : s_attrs top = [] ->
  forallb (fun nk => coveredb keys parts (snd nk) (lit "/" ++ fst nk)) (s_kids top) = true ->
  forall p, route top p -> outside parts p -> touched keys p.
Proof.
  intros A H p R O. rewrite forallb_forall in H. inversion R as [? x I|? n s' I|? n s' r I R']; subst.
  - rewrite A in I. destruct I.
  - now apply (coveredb_spec _ _ _ _ (H _ I)).
  - cbn [fst snd] in H. assert (E : lit "/" ++ n ++ r = (lit "/" ++ n) ++ r) by now rewrite <- !app_assoc. rewrite E in *.
    now apply (coveredb_spec _ _ _ _ (H _ I)).
Qed.

(** * The fuel of [class_shape] is enough *)
Definition used_before (c : nat) : bool :=
  forallb (fun kf => match f_type (snd kf) with TSub c' => (c' <? c)%nat | TVal _ => true end) (schema c).
Lemma tables_ordered : forallb used_before (seq 0 (List.length tables)) = true.
Proof. vm_compute. reflexivity. Qed.
Lemma schema_ordered c k f c' : In (k, f) (schema c) -> f_type f = TSub c' -> c' < c.
Proof.
  intros I T. assert (L : c < List.length tables).
  { destruct (Nat.lt_ge_cases c (List.length tables)) as [L|L]; [exact L|]. unfold schema in I.
    rewrite nth_overflow in I by exact L. destruct I. }
  pose proof tables_ordered as H. rewrite forallb_forall in H. specialize (H c). rewrite in_seq in H.
  specialize (H ltac:(lia)). unfold used_before in H. rewrite forallb_forall in H. apply H in I. cbn [snd] in I.
  rewrite T in I. now apply Nat.ltb_lt.
Qed.
Lemma flat_map_ext_In {A B} (f g : A -> list B) l : (forall x, In x l -> f x = g x) -> flat_map f l = flat_map g l.
Proof.
  induction l as [|x l IH]; intros H; [reflexivity|]. cbn [flat_map]. rewrite (H x (or_introl eq_refl)), IH; [reflexivity|].
  intros y Y. apply H. now right.
Qed.
Local Opaque schema.
Lemma unfold_enough c : forall f, c <= f -> unfold f c = unfold c c.
Proof.
  induction c as [c IH] using lt_wf_ind. intros f L. destruct f as [|f]; [now replace c with 0 by lia|].
  destruct c as [|c].
  - cbn [unfold]. apply (f_equal (Shape _)), flat_map_ext_In. intros [k fd] I. cbn [fst snd].
    destruct (is_element fd); [|reflexivity].
    destruct (f_type fd) eqn:T; [reflexivity|]. pose proof (schema_ordered _ _ _ _ I T). lia.
  - cbn [unfold]. apply (f_equal (Shape _)), flat_map_ext_In. intros [k fd] I. cbn [fst snd].
    destruct (is_element fd); [|reflexivity].
    destruct (f_type fd) eqn:T; [reflexivity|]. pose proof (schema_ordered _ _ _ _ I T).
    rewrite (IH c0 ltac:(lia) f), (IH c0 ltac:(lia) c) by lia. reflexivity.
Qed.
(** The shape of a class is what its table says, with the shapes of the classes it names. *)
Lemma class_shape_eq c : class_shape c =
  Shape (plain_attrs (schema c))
    (flat_map (fun kf => if is_element (snd kf)
                         then [(fst kf, match f_type (snd kf) with TVal _ => leaf | TSub c' => class_shape c' end)]
                         else []) (schema c)).
Proof.
  unfold class_shape. destruct c as [|c]; cbn [unfold]; apply (f_equal (Shape _)), flat_map_ext_In; intros [k fd] I; cbn [fst snd];
    (destruct (is_element fd); [|reflexivity]); destruct (f_type fd) eqn:T; try reflexivity;
    pose proof (schema_ordered _ _ _ _ I T); [lia|].
  now rewrite unfold_enough by lia.
Qed.

(** * Checking a document without namespaces *)
Fixpoint fitsb (e : elem) (s : shape) : bool :=
  match e with
  | Elem _ a _ _ es =>
      (forallb (fun kv => str_in (fst kv) (s_attrs s)) a
       && forallb (fun k => (name_ok (etag k) && existsb (fun nk => (str_eqb (etag k) (fst nk) && fitsb k (snd nk))%bool)
                                                         (s_kids s))%bool) es)%bool
  end.
Lemma fitsb_sound e : forall s, fitsb e s = true -> fits s e.
Proof.
  induction e as [t a x l kids IH] using elem_ind2. intros s H. cbn [fitsb] in H. apply andb_true_iff in H. destruct H as [H1 H2].
  rewrite forallb_forall in H1, H2. constructor; apply Forall_forall.
  - intros kv I. left. now apply str_in_In, H1.
  - intros k I. rewrite Forall_forall in IH. pose proof (H2 k I) as H. apply andb_true_iff in H. destruct H as [N H].
    apply existsb_exists in H. destruct H as ([n s'] & J & H). cbn [fst snd] in H. apply andb_true_iff in H.
    destruct H as [E F]. apply str_eqb_eq in E. exists n, s'. split; [exact J|]. split; [|now apply IH].
    rewrite <- E. now apply name_ok_spec.
Qed.
Definition documentb (top : shape) (e : elem) : bool :=
  (name_ok (etag e) && existsb (fun nk => (str_eqb (etag e) (fst nk) && fitsb e (snd nk))%bool) (s_kids top))%bool.
Lemma documentb_sound top e : documentb top e = true -> document top e.
Proof.
  unfold documentb. intros H. apply andb_true_iff in H. destruct H as [N H]. apply existsb_exists in H.
  destruct H as ([n s'] & J & H). cbn [fst snd] in H. apply andb_true_iff in H. destruct H as [E F]. apply str_eqb_eq in E.
  exists n, s'. split; [exact J|]. split; [|now apply fitsb_sound]. rewrite <- E. now apply name_ok_spec.
Qed.
