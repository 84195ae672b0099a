(** Proofs about the first step of the handlers. *)
From Coq Require Import Ascii String List Bool Arith NArith ZArith Lia.
From Verif Require Import PyBase PyBaseFacts PyValues MultiLangModel DotDictModel XmlModel XmlSpec XmlProofs KeysModel
  KeysSpec KeysProofs HandleModel HandleSpec.
Import ListNotations.

(** * The reader *)
Lemma real_blank t : blank t -> real_text t = None.
Proof.
  destruct t as [s|]; [|reflexivity]. cbn. intros B. destruct s as [|c s]; [reflexivity|].
  assert (I : isspace (c :: s) = true). { unfold isspace. now apply forallb_forall, Forall_forall. }
  now rewrite I.
Qed.
Lemma real_nonblank s : ~ blank (Some s) -> real_text (Some s) = Some s.
Proof.
  cbn. intros B. destruct s as [|c s]; [destruct B; constructor|].
  destruct (isspace (c :: s)) eqn:I; [|reflexivity]. destruct B. unfold isspace in I.
  rewrite forallb_forall in I. now apply Forall_forall.
Qed.
Lemma read_plain e s : plain_text e s -> elem2dict e = VStr s.
Proof.
  destruct e as [t a x l k]. intros (A & K & T & B). cbn in A, K, T. subst. cbn [elem2dict map fold_left].
  unfold own_entries. cbn [fold_left]. rewrite (real_nonblank _ B). reflexivity.
Qed.
Lemma read_language e l : language_text e l ->
  exists s, elem2dict e = VDict [(klang, VStr l); (ktext, VStr s)].
Proof.
  destruct e as [t a x tl k]. intros (A & K). cbn in A, K. subst. cbn [elem2dict map fold_left].
  unfold own_entries. destruct (real_text x) as [s|]; eexists; reflexivity.
Qed.
Lemma read_empty e : empty_element e -> elem2dict e = VDict [].
Proof.
  destruct e as [t a x tl k]. intros (A & K & B). cbn in A, K, B. subst. cbn [elem2dict map fold_left].
  unfold own_entries. cbn [fold_left]. now rewrite (real_blank _ B).
Qed.

(** * Parts of a document are reported *)
Lemma due_here keys q e : In q keys -> In (q, elem2dict e) (due keys (q, e)).
Proof. intros I. unfold due. cbn [fst snd]. apply in_or_app. left. destruct (in_dec _ _ _) as [|N]; [now left|contradiction]. Qed.
Lemma reports_part keys e p f : part e p f -> forall n r q, name_of (etag e) n -> p = lit "/" ++ n ++ r ->
  In (q ++ r) keys -> In (q ++ r, elem2dict f) (reports keys q e).
Proof.
  induction 1 as [e m Hm|t a x l es m k p f Hm Hk Hp IH]; intros n r q Hn E I.
  - assert (n = m) by (rewrite <- (name_local _ _ Hn), <- (name_local _ _ Hm); reflexivity). subst m.
    apply app_inv_head in E. assert (r = []). { destruct r; [reflexivity|]. exfalso.
      apply (f_equal (@length N)) in E. rewrite app_length in E. cbn in E. lia. }
    subst r. rewrite app_nil_r in *. destruct e as [t a x l es]. cbn [reports]. apply in_or_app. right. now apply due_here.
  - cbn [etag] in Hn. assert (n = m) by (rewrite <- (name_local _ _ Hn), <- (name_local _ _ Hm); reflexivity). subst m.
    apply app_inv_head, app_inv_head in E. subst r. cbn [reports]. apply in_or_app. left. apply in_flat_map. exists k.
    split; [exact Hk|].
    assert (X : exists n' r', name_of (etag k) n' /\ p = lit "/" ++ n' ++ r').
    { inversion Hp; subst; [exists n0, []; now rewrite app_nil_r|cbn; now exists n0, p0]. }
    destruct X as (n' & r' & Hn' & ->). rewrite (name_local _ _ Hn').
    specialize (IH n' r' (q ++ lit "/" ++ n') Hn' eq_refl). rewrite !app_assoc in IH. rewrite !app_assoc.
    apply IH. now rewrite !app_assoc in I.
Qed.
Lemma part_read keys e p f : proper e -> part e p f -> In p keys -> In (p, elem2dict f) (read keys e).
Proof.
  intros P H I. rewrite (read_reports keys e P).
  assert (X : exists n r, name_of (etag e) n /\ p = lit "/" ++ n ++ r).
  { inversion H; subst; [exists n, []; now rewrite app_nil_r|cbn; now exists n, p0]. }
  destruct X as (n & r & Hn & E). rewrite (name_local _ _ Hn).
  pose proof (reports_part keys e p f H n r (lit "/" ++ n) Hn E) as R. rewrite <- app_assoc, <- E in R. now apply R.
Qed.

(** * Runs *)
Lemma run_stops uses rest k u x reports e : getf k uses = Some u -> demand u x = Err e -> In (k, x) reports ->
  exists e', run uses rest reports = Err e'.
Proof.
  intros G D. induction reports as [|[k' x'] r IH]; [contradiction|]. intros [E|I].
  - injection E as -> ->. cbn [run]. rewrite G, D. now exists e.
  - cbn [run]. destruct (getf k' uses) as [u'|]; [|now eexists]. destruct (demand u' x') as [[]|e1]; [|now eexists].
    cbn [bind]. destruct (rest k' x') as [[]|e2]; [|now eexists]. cbn [bind]. now apply IH.
Qed.
Lemma run_passes uses rest reports :
  (forall k x, In (k, x) reports -> exists u, getf k uses = Some u /\ demand u x = Ok tt) ->
  (forall k x, In (k, x) reports -> rest k x = Ok tt) -> run uses rest reports = Ok tt.
Proof.
  induction reports as [|[k x] r IH]; [reflexivity|]. intros H R. cbn [run].
  destruct (H k x (or_introl eq_refl)) as (u & -> & ->). cbn [bind]. rewrite (R k x (or_introl eq_refl)). cbn [bind].
  apply IH; intros; [apply H|apply R]; now right.
Qed.

(** * The tables *)
Fixpoint distinctb (l : list pystr) : bool :=
  match l with [] => true | k :: r => (negb (str_in k r) && distinctb r)%bool end.
Lemma distinctb_spec l : distinctb l = true -> NoDup l.
Proof.
  induction l as [|k r IH]; [constructor|]. cbn. rewrite andb_true_iff, negb_true_iff. intros [A B]. constructor; [|now apply IH].
  intros I. apply str_in_In in I. congruence.
Qed.
Lemma getf_In {A} (uses : list (pystr * A)) k u : NoDup (map fst uses) -> In (k, u) uses -> getf k uses = Some u.
Proof.
  induction uses as [|[k' u'] r IH]; [contradiction|]. cbn. intros D. inversion D as [|? ? N D']; subst. intros [E|I].
  - injection E as -> ->. now rewrite str_eqb_refl.
  - destruct (str_eqb k' k) eqn:Q; [|now apply IH]. apply str_eqb_eq in Q. subst k'. destruct N.
    apply in_map_iff. now exists (k, u).
Qed.
Lemma In_getf {A} (uses : list (pystr * A)) k u : getf k uses = Some u -> In (k, u) uses.
Proof.
  induction uses as [|[k' u'] r IH]; [discriminate|]. cbn. destruct (str_eqb k' k) eqn:Q.
  - intros [= ->]. apply str_eqb_eq in Q. subst. now left.
  - intros H. right. now apply IH.
Qed.
Lemma ilcd_table_keys : map fst ilcd_uses = ilcd_keys.
Proof. vm_compute. reflexivity. Qed.
Lemma ecs_table_keys : map fst ecs_uses = ecs_keys.
Proof. vm_compute. reflexivity. Qed.
Lemma ilcd_distinct : NoDup (map fst ilcd_uses).
Proof. apply distinctb_spec. vm_compute. reflexivity. Qed.
Lemma ecs_distinct : NoDup (map fst ecs_uses).
Proof. apply distinctb_spec. vm_compute. reflexivity. Qed.
