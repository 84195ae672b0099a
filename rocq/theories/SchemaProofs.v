(** Facts about the concrete validator classes and schemas. *)
From Coq Require Import Ascii String List Bool Arith NArith ZArith QArith Lia.
From Verif Require Import PyBase PyBaseFacts PyValues Regex ValidatorsModel MultiLangModel
  DotDictModel DotDictSpec DotDictProofs SchemaModel SchemaTables.
Import ListNotations.

Section Clean.
  Context {A : Type} (add : option A -> pyval -> upd A).
  (** a method that sets the attribute when it succeeds, and keeps it when it fails *)
  Definition tidy : Prop :=
    (forall v st, add None v = (st, None) -> exists a, st = Some a) /\
    (forall a v st, add (Some a) v = (st, None) -> exists b, st = Some b) /\
    (forall a v st e, add (Some a) v = (st, Some e) -> st = Some a).
End Clean.

Lemma tidy_replace {A} (f : pyval -> result A) : tidy (add_replace f).
Proof.
  unfold tidy, add_replace. split; [|split]; intros *; destruct (f v); intros [= <-]; eauto.
Qed.
Lemma tidy_separator sep f : tidy (add_separator sep f).
Proof.
  unfold tidy, add_separator. split; [|split]; intros *; destruct (f v); intros [= <-]; eauto.
Qed.
Lemma tidy_list {A} (f : pyval -> result A) : tidy (add_list f).
Proof.
  unfold tidy, add_list. split; [|split]; intros *; destruct (f v); try (destruct a); intros [= <-]; eauto.
Qed.
Lemma tidy_unique f : tidy (add_unique f).
Proof.
  unfold tidy, add_unique. split; [|split]; intros *; destruct (f v); intros [= <-]; eauto.
Qed.
Lemma tidy_compare {A} (g : A -> A -> bool) (f : pyval -> result A) : tidy (add_compare g f).
Proof.
  unfold tidy, add_compare. split; [|split]; intros *; destruct (f v); intros [= <-]; eauto.
Qed.
Lemma tidy_merge tc c f : tidy (add_merge tc c f).
Proof.
  unfold tidy, add_merge. split; [|split]; intros *; destruct bind; intros [= <-]; eauto.
Qed.
Lemma tidy_append f : tidy (add_append f).
Proof.
  unfold tidy, add_append. split; [|split]; intros *; destruct retrieve; intros [= <-]; eauto.
Qed.
Lemma tidy_named : tidy named_add.
Proof.
  unfold tidy, named_add. split; [|split]; intros *; destruct named_retrieve; intros [= <-]; eauto.
Qed.
Lemma tidy_any : tidy any_add.
Proof. unfold tidy, any_add. split; [|split]; intros *; intros [= <-]; eauto. Qed.

(** The instance state produced by a [lift]ed method, and its history on the proper type. *)
Definition lifted {A} (inj : A -> vs) (proj : vs -> option A) (add : option A -> pyval -> upd A)
  (m : option vs -> pyval -> upd vs) : Prop :=
  m = lift inj proj add /\ tidy add /\ forall a, proj (inj a) = Some a.

Section Lifted.
  Context (E : env) (sch : nat -> list (pystr * field vc)).
  Notation U := (structure_universe E sch).
  Context {A : Type} (inj : A -> vs) (proj : vs -> option A) (add : option A -> pyval -> upd A) (c : vc).
  Hypothesis L : lifted inj proj add (add_ E c).

  Lemma lifted_fold rest : forall a,
    exists b, fold_left (fun s x => fst (add_ E c s x)) rest (Some (inj a)) = Some (inj b) /\
              fold_left (fun s x => fst (add s x)) rest (Some a) = Some b.
  Proof.
    destruct L as (EQ & (T1 & T2 & T3) & P). rewrite EQ.
    induction rest as [|x rest IH]; intros a; [exists a; auto|]. cbn [fold_left].
    unfold lift at 2. rewrite P.
    destruct (add (Some a) x) as [st [e|]] eqn:F.
    - pose proof (T3 _ _ _ _ F). subst. apply IH.
    - destruct (T2 _ _ _ F) as [b ->]. apply IH.
  Qed.
  Lemma lifted_added vs0 st :
    added U c vs0 st ->
    exists a x rest, vs0 = x :: rest /\ snd (add None x) = None /\
      st = Some (inj a) /\ fold_left (fun s x => fst (add s x)) vs0 None = Some a.
  Proof.
    intros (x & rest & -> & H1 & H2).
    change (snd (add_ E c None x) = None) in H1.
    change (st = fold_left (fun s x => fst (add_ E c s x)) rest (fst (add_ E c None x))) in H2.
    destruct L as (EQ & (T1 & T2 & T3) & P). rewrite EQ in H1. unfold lift in H1 at 1.
    destruct (add None x) as [s e] eqn:F. cbn [snd] in H1. subst e.
    destruct (T1 _ _ F) as [a ->].
    assert (F2 : fst (add_ E c None x) = Some (inj a)) by (rewrite EQ; unfold lift; now rewrite F).
    rewrite F2 in H2. destruct (lifted_fold rest a) as (b & B1 & B2).
    exists b, x, rest. cbn [fold_left]. rewrite F. cbn [fst snd].
    split; [reflexivity|]. split; [reflexivity|]. split; [congruence|exact B2].
  Qed.
  Lemma lifted_clean : rejects_cleanly U c.
  Proof.
    intros vs0 st x st' e H F. destruct (lifted_added _ _ H) as (a & _ & _ & _ & _ & -> & _).
    change (add_ E c (Some (inj a)) x = (st', Some e)) in F. destruct L as (EQ & (T1 & T2 & T3) & P).
    rewrite EQ in F. unfold lift in F. rewrite P in F.
    destruct (add (Some a) x) as [s o] eqn:G. inversion F; subst.
    now rewrite (T3 _ _ _ _ G).
  Qed.
End Lifted.

Lemma lifted_SF E c f : add_ E c = lift SF pF (add_replace f) -> lifted SF pF (add_replace f) (add_ E c).
Proof. intros H. split; [exact H|split; [apply tidy_replace|reflexivity]]. Qed.

Theorem all_clean E sch c : rejects_cleanly (structure_universe E sch) c.
Proof.
  destruct c;
    try (eapply lifted_clean; split; [reflexivity|split; [|reflexivity]];
         solve [apply tidy_replace | apply tidy_list | apply tidy_unique | apply tidy_compare | apply tidy_merge
               | apply tidy_named | apply tidy_any]).
  - eapply lifted_clean. split; [reflexivity|split; [|reflexivity]].
    destruct sep; [apply tidy_separator|apply tidy_replace].
  - eapply lifted_clean. split; [reflexivity|split; [|reflexivity]].
    destruct k; first [apply tidy_merge|apply tidy_append].
Qed.

(** * The tables *)
Section Nodup.
  Fixpoint nodupb (l : list pystr) : bool :=
    match l with [] => true | x :: l' => negb (str_in x l') && nodupb l' end.
  Lemma nodupb_ok l : nodupb l = true -> NoDup l.
  Proof.
    induction l as [|x l IH]; simpl; intros H; constructor.
    - apply andb_true_iff in H. destruct H as [H _]. apply negb_true_iff in H. intros F.
      apply str_in_In in F. congruence.
    - apply IH. now apply andb_true_iff in H.
  Qed.
End Nodup.

Lemma schema_all (P : list (pystr * field vc) -> Prop) : P [] -> Forall P tables -> forall c, P (schema c).
Proof.
  intros H0 H c. unfold schema. destruct (nth_in_or_default c tables []) as [H1| ->]; auto.
  rewrite Forall_forall in H. auto.
Qed.

Definition labels_of (t : list (pystr * field vc)) : list pystr :=
  map (fun kf => label (lavoisier {| is_word := fun _ => true; fromiso := fun _ => None; ignore := false |})
                       (fst kf) (snd kf)) t.

Lemma tables_labels : forallb (fun t => nodupb (labels_of t)) tables = true.
Proof. vm_compute. reflexivity. Qed.
Lemma schema_labels E c : distinct_labels (lavoisier E) c.
Proof.
  unfold distinct_labels. cbn [valid lavoisier structure_universe].
  apply (schema_all (fun t => NoDup (map (fun kf => label (lavoisier E) (fst kf) (snd kf)) t))).
  - constructor.
  - apply Forall_forall. intros t Ht. pose proof tables_labels as H. rewrite forallb_forall in H.
    apply H in Ht. apply nodupb_ok in Ht. exact Ht.
Qed.

Lemma tables_keys : forallb (fun t => nodupb (map fst t)) tables = true.
Proof. vm_compute. reflexivity. Qed.
Lemma schema_keys c : NoDup (map fst (schema c)).
Proof.
  apply (schema_all (fun t => NoDup (map fst t))); [constructor|].
  apply Forall_forall. intros t Ht. pose proof tables_keys as H. rewrite forallb_forall in H.
  now apply nodupb_ok, H.
Qed.
