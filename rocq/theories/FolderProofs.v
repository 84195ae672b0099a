(** Lemmas for C217-C220. *)
From Coq Require Import Ascii String List Bool Arith NArith ZArith Reals Lia.
From Verif Require Import PyBase PyBaseFacts PyValues MultiLangModel DotDictModel DotDictProofs XmlModel XmlProofs RemapModel RemapSpec RemapProofs RemapProps FolderModel FolderSpec.
Import ListNotations.

Section F.
  Context (fp ofp : fp_table) (mp : list (pystr * row)) (dp : pystr -> option (ns * pystr)) (dg : pystr -> option unit_group) (df : pystr -> pystr -> bool).

  Lemma crowded_unread fo olca d us p n g grp : In p (fd_props d) -> getf (pr_ref p) (properties fo) = Some (n, g) -> getf g (groups fo) = Some grp ->
    crowded grp -> get_unit olca (see fo d) <> Ok us.
  Proof.
    intros I P G (C1 & C2) H. apply C111_namespaces_refuted in H as (_ & F). rewrite Forall_forall in F. cbn [see f_props] in F.
    destruct (F (see_prop fo p)) as (g' & E & K); [now apply in_map|]. unfold see_prop in E. rewrite P in E. cbn [p_group] in E. rewrite G in E. injection E as <-.
    destruct K as [(K1 & _)|(_ & K2)]; [congruence|]. lia.
  Qed.

  Lemma there_keys fo fo' : (forall u, getf u (flows fo) = None <-> getf u (flows fo') = None) -> forall u, there fo u = there fo' u.
  Proof.
    intros H u. unfold there. specialize (H u). destruct (getf u (flows fo)), (getf u (flows fo')); try reflexivity; destruct H as (H1 & H2); [now discriminate H2|now discriminate H1].
  Qed.
  Lemma uri_keys fo fo' x : (forall u, there fo u = there fo' u) -> get_uri (there fo) x = get_uri (there fo') x.
  Proof.
    intros H. unfold get_uri. replace (find (there fo) (flow_places x)) with (find (there fo') (flow_places x)); [reflexivity|].
    induction (flow_places x) as [|u l IH]; [reflexivity|]. cbn [find]. rewrite <- (H u), IH. reflexivity.
  Qed.
  (** the file of the exchange is one of the folder *)
  Lemma units_of_file fo x k d us : units_of fo x = Ok (k, d, us) -> get_uri (there fo) x = Ok k /\ getf k (flows fo) = Some d /\ get_unit (x_unit x) (see fo d) = Ok us.
  Proof.
    unfold units_of. intros H. apply bind_Ok in H as (k' & U & H). destruct (getf k' (flows fo)) as [d'|] eqn:E; [|discriminate].
    apply bind_Ok in H as (us' & G & H). injection H as <- <- <-. auto.
  Qed.
  (** what a step does to the folder *)
  Lemma step_folder fo vars x fo' o : step fp ofp mp dp dg df fo vars x = Ok (fo', o) ->
    exists k d us, units_of fo x = Ok (k, d, us) /\ remap fp ofp mp (there fo) df us vars x = Ok o /\
      (fo' = fo \/ (getf (x_flow x) mp = None /\ exists info p l a b, unit_info ofp us x = Ok info /\ fd_props d = p :: l /\ pr_ref p <> fst info /\ dp (fst info) = Some a /\ dg (snd info) = Some b /\
         fo' = Folder (putf k (FlowDoc (fd_ns d) (fd_main d) (PropRef (pr_id p) (pr_mean p) (fst info) :: l)) (flows fo)) (putf (fst info) a (properties fo)) (putf (snd info) b (groups fo)))).
  Proof.
    unfold step. intros H. apply bind_Ok in H as ([[k d] us] & U & H). apply bind_Ok in H as (o' & R & H). exists k, d, us. split; [exact U|].
    destruct (getf (x_flow x) mp) as [r|] eqn:G; [injection H as <- <-; split; [exact R|now left]|].
    apply bind_Ok in H as (info & I & H). apply bind_Ok in H as (fo2 & P & H). injection H as <- <-. split; [exact R|].
    unfold patch in P. destruct (fd_props d) as [|p l] eqn:D; [discriminate|]. destruct (str_eqb (pr_ref p) (fst info)) eqn:E; [injection P as <-; now left|].
    destruct (dp (fst info)) as [a|] eqn:A; [|discriminate]. destruct (dg (snd info)) as [b|] eqn:B; [|discriminate]. injection P as <-. right. split; [reflexivity|].
    exists info, p, l, a, b. apply str_eqb_neq in E. repeat split; auto.
  Qed.
  Lemma step_there fo vars x fo' o : step fp ofp mp dp dg df fo vars x = Ok (fo', o) -> forall u, there fo u = there fo' u.
  Proof.
    intros H. destruct (step_folder _ _ _ _ _ H) as (k & d & us & U & _ & [->|(_ & info & p & l & a & b & _ & _ & _ & _ & _ & ->)]); [reflexivity|].
    apply there_keys. intros u. cbn [flows]. destruct (units_of_file _ _ _ _ _ U) as (_ & K & _). destruct (str_eqb u k) eqn:E.
    - apply str_eqb_eq in E. subst u. rewrite getf_putf, K. split; discriminate.
    - apply str_eqb_neq in E. rewrite getf_putf_other by exact E. reflexivity.
  Qed.

  (** a flow file that can no longer be read *)
  Definition blocked (fo : folder) (k : pystr) : Prop :=
    exists d p n g grp, getf k (flows fo) = Some d /\ In p (fd_props d) /\ getf (pr_ref p) (properties fo) = Some (n, g) /\ getf g (groups fo) = Some grp /\
      crowded grp /\ dp (pr_ref p) = Some (n, g) /\ dg g = Some grp.
  Lemma blocked_step fo vars x fo' o k : blocked fo k -> step fp ofp mp dp dg df fo vars x = Ok (fo', o) -> blocked fo' k /\ get_uri (there fo) x <> Ok k.
  Proof.
    intros (d & p & n & g & grp & D & I & P & G & C & P' & G') H. destruct (step_folder _ _ _ _ _ H) as (k2 & d2 & us & U & _ & K).
    destruct (units_of_file _ _ _ _ _ U) as (U1 & U2 & U3).
    assert (N : k2 <> k) by (intros ->; rewrite D in U2; injection U2 as <-; exact (crowded_unread _ _ _ _ _ _ _ _ I P G C U3)).
    split; [|rewrite U1; congruence]. destruct K as [->|(_ & info & p2 & l2 & a & b & _ & _ & _ & A & B & ->)]; [now exists d, p, n, g, grp|].
    exists d, p, n, g, grp. cbn [flows properties groups]. rewrite getf_putf_other by congruence. repeat split; auto; try apply C.
    - destruct (str_eqb (pr_ref p) (fst info)) eqn:E.
      + apply str_eqb_eq in E. rewrite E, getf_putf. rewrite <- A, <- E. exact P'.
      + apply str_eqb_neq in E. now rewrite getf_putf_other.
    - destruct (str_eqb g (snd info)) eqn:E.
      + apply str_eqb_eq in E. rewrite E, getf_putf. rewrite <- B, <- E. exact G'.
      + apply str_eqb_neq in E. now rewrite getf_putf_other.
  Qed.
  Lemma blocked_run y k : forall l fo vars r, blocked fo k -> In y l -> get_uri (there fo) y = Ok k -> run fp ofp mp dp dg df fo vars l <> Ok r.
  Proof.
    induction l as [|x l IH]; intros fo vars r B I U H; [contradiction|]. cbn [run] in H. apply bind_Ok in H as ([fo' o] & S & H).
    destruct (blocked_step _ _ _ _ _ _ B S) as (B' & N). destruct I as [<-|I]; [contradiction|].
    apply bind_Ok in H as (r' & H & _). refine (IH fo' _ _ B' I _ H). rewrite <- U. symmetry. apply uri_keys. exact (step_there _ _ _ _ _ S).
  Qed.
End F.

Lemma on_kid_spec i f l l' : on_kid i f l = Ok l' -> exists e e', nth_error l i = Some e /\ f e = Ok e' /\ nth_error l' i = Some e' /\ length l' = length l /\ (forall j, j <> i -> nth_error l' j = nth_error l j).
Proof.
  revert i l'. induction l as [|e l IH]; intros i l' H; [destruct i; discriminate|]. destruct i as [|i]; cbn [on_kid] in H.
  - apply bind_Ok in H as (e' & F & H). injection H as <-. exists e, e'. repeat split; auto. intros [|j] N; [contradiction|reflexivity].
  - apply bind_Ok in H as (r & F & H). injection H as <-. destruct (IH _ _ F) as (a & a' & A & B & C & D & E). exists a, a'. repeat split; auto; [cbn; now rewrite D|].
    intros [|j] N; [reflexivity|]. cbn. apply E. congruence.
Qed.
(** a change below a place changes nothing outside of it *)
Lemma down_label i f e e' : down i f e = Ok e' -> label e' = label e /\ exists k k', nth_error (ekids e) i = Some k /\ nth_error (ekids e') i = Some k' /\ f k = Ok k' /\
  (forall j p, j <> i -> label_at (j :: p) e' = label_at (j :: p) e).
Proof.
  unfold down. intros H. apply bind_Ok in H as (l & K & H). injection H as <-. destruct (on_kid_spec _ _ _ _ K) as (a & a' & A & B & C & D & E).
  destruct e as [t at_ x y ks]. cbn [with_kids ekids label] in *. split; [now rewrite D|]. exists a, a'. repeat split; auto.
  intros j p N. unfold label_at. cbn [at_path ekids]. now rewrite (E j N).
Qed.
Lemma on_kid_some i f l e e' : nth_error l i = Some e -> f e = Ok e' -> exists l', on_kid i f l = Ok l'.
Proof.
  revert i. induction l as [|a l IH]; intros [|i] A F; try discriminate; cbn [nth_error on_kid] in *.
  - injection A as ->. rewrite F. cbn [bind]. eauto.
  - destruct (IH _ A F) as (l' & ->). cbn [bind]. eauto.
Qed.
Lemma down_some i f e k k' : nth_error (ekids e) i = Some k -> f k = Ok k' -> exists e', down i f e = Ok e'.
Proof. intros A F. unfold down. destruct (on_kid_some _ _ _ _ _ A F) as (l & ->). cbn [bind]. eauto. Qed.
