(** Properties of a flow: lemmas. *)
From Coq Require Import Ascii String List Bool Arith NArith ZArith Reals Lia Lra.
From Verif Require Import PyBase PyBaseFacts PyValues DotDictModel DotDictProofs AmountModel AmountSpec AmountProofs CommentSpec CommentProofs
  PropertyModel PropertySpec.
Import ListNotations.
Local Open Scope R_scope.

Lemma str_in_false x l : ~ In x l -> str_in x l = false.
Proof. intro H. destruct (str_in x l) eqn:E; [|reflexivity]. apply str_in_In in E. contradiction. Qed.
Lemma infixb_false m s : ~ occurs m s -> infixb m s = false.
Proof. intro H. destruct (infixb m s) eqn:E; [|reflexivity]. apply infixb_occurs in E. contradiction. Qed.

Lemma content_not_flow_unit name : infixb (lit "content") name = true -> str_in name flow_unit_names = false.
Proof.
  intro H. apply str_in_false. intro I. cbn [In flow_unit_names] in I.
  repeat destruct I as [I|I]; try contradiction; rewrite <- I in H; vm_compute in H; discriminate H.
Qed.
Lemma per_flow_unit_correction flow name p : per_flow_unit name p -> correction_of flow name p = FlowUnit.
Proof.
  intros [H|(H1 & H2 & H3)]; unfold correction_of.
  - replace (str_in name flow_unit_names) with true; [reflexivity|]. symmetry. apply str_in_In.
    cbn [In flow_unit_names] in *. tauto.
  - apply infixb_occurs in H1. rewrite (content_not_flow_unit _ H1), (str_in_false name dry_mass_names H2), H1.
    destruct H3 as [-> | ->]; reflexivity.
Qed.
Lemma per_dry_mass_correction flow name p : per_dry_mass name p -> correction_of flow name p = DryMass.
Proof.
  intros [H|(H1 & H2)]; unfold correction_of.
  - assert (C : infixb (lit "content") name = true)
      by (cbn [In] in H; repeat destruct H as [H|H]; try contradiction; rewrite <- H; vm_compute; reflexivity).
    rewrite (content_not_flow_unit _ C). replace (str_in name dry_mass_names) with true; [reflexivity|].
    symmetry. apply str_in_In. exact H.
  - apply infixb_occurs in H1. rewrite (content_not_flow_unit _ H1), H1, H2. now destruct (str_in name dry_mass_names).
Qed.
Lemma unknown_correction flow name p : unknown_property name -> correction_of flow name p = Drop.
Proof.
  intros (H1 & H2 & H3 & H4 & H5). unfold correction_of.
  rewrite (str_in_false name flow_unit_names H1), (infixb_false _ _ H2), (infixb_false _ _ H3), (infixb_false _ _ H4), (infixb_false _ _ H5).
  cbn [andb]. rewrite str_in_false; [reflexivity|]. intro I. apply H2. apply infixb_occurs.
  cbn [In dry_mass_names] in I. repeat destruct I as [I|I]; try contradiction; rewrite <- I; vm_compute; reflexivity.
Qed.

Lemma correct_flow_unit_value flow p p' : am_f flow <> 0 -> correct_flow_unit flow p = Ok p' ->
  value p' = value p / am_f flow /\ p_considered p' = p_considered p.
Proof.
  intros F H. unfold correct_flow_unit in H. destruct (Req_EM_T (am_f flow) 1) as [E|E].
  - injection H as <-. rewrite E. split; [field|reflexivity].
  - apply bind_inv in H as (a & Ha & H). injection H as <-. unfold divide in Ha. cbn in Ha.
    unfold q_div in Ha. cbn in Ha. destruct (Req_EM_T (am_f flow) 0); [contradiction|]. injection Ha as <-. split; reflexivity.
Qed.
Lemma correct_dry_mass_value d p p' : correct_dry_mass (Some d) p = Ok p' ->
  value p' = value p * value d /\ p_considered p' = p_considered p /\
  q_unit (am_a (p_amount p')) = q_unit (q_mul (am_a (p_amount p)) (am_a (p_amount d))).
Proof.
  intro H. cbn in H. apply bind_inv in H as (a & Ha & H). injection H as <-. unfold multiply in Ha.
  apply bind_inv in Ha as (k & _ & Ha). injection Ha as <-. repeat split.
Qed.
Lemma correct_flow_amount_value flow p p' : correct_flow_amount flow p = Ok p' ->
  value p' = value p * Rabs (am_m flow) /\ p_considered p' = p_considered p.
Proof.
  intro H. unfold correct_flow_amount in H. apply bind_inv in H as (a & Ha & H). injection H as <-.
  unfold multiply in Ha. cbn in Ha. injection Ha as <-. split; [|reflexivity]. unfold value, am_m. cbn. unfold am_m.
  destruct (Rle_dec 0 (magnitude (am_a flow))) as [L|L].
  - rewrite Rabs_pos_eq by exact L. ring.
  - rewrite Rabs_left by lra. ring.
Qed.

Lemma Forall2_In_l {A B} (R : A -> B -> Prop) l l' a : Forall2 R l l' -> In a l -> exists b, In b l' /\ R a b.
Proof. induction 1; cbn; [tauto|]. intros [<-|I]; [eauto|]. destruct (IHForall2 I) as (b & ? & ?). eauto. Qed.
Lemma Forall2_In_r {A B} (R : A -> B -> Prop) l l' b : Forall2 R l l' -> In b l' -> exists a, In a l /\ R a b.
Proof. induction 1; cbn; [tauto|]. intros [<-|I]; [eauto|]. destruct (IHForall2 I) as (a & ? & ?). eauto. Qed.

Lemma add_water_In np ps : In np ps -> In np (add_water ps).
Proof.
  intro H. unfold add_water. destruct (getf (lit "water content") ps); [exact H|].
  destruct (getf (lit "dry mass") ps); [|exact H]. destruct (getf (lit "wet mass") ps); [|exact H].
  apply in_app_iff. now left.
Qed.
Lemma drop_double_In np ps : fst np <> lit "water in wet mass" -> In np ps -> In np (drop_double ps).
Proof.
  intros D H. unfold drop_double. destruct (getf (lit "water content") ps); [|exact H]. apply filter_In. split; [exact H|].
  apply negb_true_iff. destruct (str_eqb (fst np) (lit "water in wet mass")) eqn:E; [|reflexivity].
  apply str_eqb_eq in E. contradiction.
Qed.
Lemma drop_double_incl np ps : In np (drop_double ps) -> In np ps.
Proof. unfold drop_double. destruct (getf (lit "water content") ps); [|tauto]. intro H. apply filter_In in H. tauto. Qed.

(** every property of the source is in the result, corrected *)
Lemma equivalent_In flow props ps name p :
  get_ilcd_equivalent flow props = Ok ps -> In (name, p) props -> name <> lit "water in wet mass" ->
  exists dry p', dry_mass flow props = Ok dry /\ correct flow dry (name, p) = Ok (name, p') /\ In (name, p') ps.
Proof.
  intros H I D. unfold get_ilcd_equivalent in H. apply bind_inv in H as (dry & Hd & H). apply bind_inv in H as (qs & Hq & H).
  injection H as <-. apply mapM_forall2 in Hq. destruct (Forall2_In_l _ _ _ _ Hq I) as ([n p'] & I' & C).
  assert (n = name) by (unfold correct in C; apply bind_inv in C as (x & _ & C); cbn in C; now injection C as <- <-). subst n.
  exists dry, p'. split; [exact Hd|]. split; [exact C|]. apply drop_double_In; [exact D|]. now apply add_water_In.
Qed.
(** and nothing else is, but for the estimated water content *)
Lemma equivalent_only flow props ps name p' :
  get_ilcd_equivalent flow props = Ok ps -> In (name, p') ps ->
  (exists dry p, dry_mass flow props = Ok dry /\ In (name, p) props /\ correct flow dry (name, p) = Ok (name, p')) \/
  name = lit "water content".
Proof.
  intros H I. unfold get_ilcd_equivalent in H. apply bind_inv in H as (dry & Hd & H). apply bind_inv in H as (qs & Hq & H).
  injection H as <-. apply drop_double_incl in I. apply mapM_forall2 in Hq.
  assert (J : In (name, p') qs \/ name = lit "water content").
  { unfold add_water in I. destruct (getf (lit "water content") qs); [now left|].
    destruct (getf (lit "dry mass") qs); [|now left]. destruct (getf (lit "wet mass") qs); [|now left].
    apply in_app_iff in I as [I|[I|[]]]; [now left|]. right. now injection I as <- _. }
  destruct J as [J|J]; [left|now right]. destruct (Forall2_In_r _ _ _ _ Hq J) as ([n p] & I' & C).
  assert (n = name) by (unfold correct in C; apply bind_inv in C as (x & _ & C); cbn in C; now injection C as <- <-). subst n.
  exists dry, p. auto.
Qed.
