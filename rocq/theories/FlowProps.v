(** Exchanges, flow versions, allocation, energy basis and additional files: theorems. *)
From Coq Require Import Ascii String List Bool Arith NArith ZArith Lia.
From Verif Require Import PyBase PyBaseFacts PyDigits PyValues DotDictModel DotDictProofs FlowModel FlowSpec FlowProofs.
Import ListNotations.

(** ** C40: numbers of exchanges *)
Theorem C40_distinct_numbers : forall l ns st,
  number_flows numbering0 l = (ns, st) ->
  NoDup ns /\ List.length ns = List.length l /\
  (forall k, In k (n_refs st) <-> exists i x, nth_error l i = Some x /\ nth_error ns i = Some k /\ reference_product x) /\
  NoDup (n_refs st).
Proof.
  intros l ns st E.
  assert (En : ns = seq 1 (List.length l)) by (pose proof (number_flows_ns l numbering0) as H; rewrite E in H; exact H).
  assert (Er : n_refs st = map fst (filter (fun p => is_reference (snd p)) (combine (seq 1 (List.length l)) l)))
    by (pose proof (number_flows_refs l numbering0) as H; rewrite E in H; exact H).
  subst ns. split; [apply seq_NoDup|]. split; [apply seq_length|]. split.
  - intro k. rewrite Er, in_refs. split; intros (i & x & H1 & H2 & H3).
    + exists i, x. split; [exact H1|]. split; [|exact H2]. subst k. apply seq_nth_error. apply nth_error_Some. congruence.
    + exists i, x. split; [exact H1|]. split; [exact H3|].
      rewrite seq_nth_error in H2 by (apply nth_error_Some; congruence). congruence.
  - rewrite Er.
    assert (G : forall (m : list flow_in) s, NoDup (map fst (filter (fun p => is_reference (snd p)) (combine (seq s (List.length m)) m)))).
    { induction m as [|x m IH]; intro s; cbn; [constructor|]. destruct (is_reference x); cbn; [|apply IH].
      constructor; [|apply IH]. rewrite in_refs. intros (i & y & _ & _ & H). lia. }
    apply G.
Qed.
Print Assumptions C40_distinct_numbers.
Definition ex_flow d g : flow_in := {| fi_dir := d; fi_group := lit g; fi_text := lit "steel, 1.0 kg" |}.
Example C40_nonvacuous :
  exists st, number_flows numbering0 [ex_flow Input "5"; ex_flow Output "0"; ex_flow Output "4"] = ([1; 2; 3], st) /\ n_refs st = [2].
Proof. eexists. split; vm_compute; reflexivity. Qed.

(** ** C89: the functional unit *)
(** Full statement: the functional unit is written exactly when there is one reference product.
    Every odd number of reference products gives a functional unit, that of the last one. *)
Theorem C89_functional_unit_refuted : forall l,
  Nat.odd (count_refs l) = true -> 3 <= count_refs l ->
  n_unit (snd (number_flows numbering0 l)) = last_text l None /\ last_text l None <> None.
Proof.
  intros l O C. rewrite (number_flows_unit l numbering0 None). cbn [n_unit numbering0].
  rewrite <- Nat.negb_odd, O. cbn. split; [reflexivity|].
  assert (G : forall m d, 1 <= count_refs m \/ d <> None -> last_text m d <> None).
  { induction m as [|x m IH]; intros d H; [cbn in *; destruct H; [lia|exact H]|].
    rewrite last_text_cons. rewrite count_refs_cons in H. apply IH. destruct (is_reference x); [right; discriminate|].
    exact H. }
  apply G. left. lia.
Qed.
Print Assumptions C89_functional_unit_refuted.
Theorem C89_functional_unit_partial : forall l,
  count_refs l <= 2 ->
  n_unit (snd (number_flows numbering0 l)) = if Nat.eqb (count_refs l) 1 then last_text l None else None.
Proof.
  intros l C. rewrite (number_flows_unit l numbering0 None). cbn [n_unit numbering0].
  destruct (count_refs l) as [|[|[|n]]]; [reflexivity|reflexivity|reflexivity|lia].
Qed.
Print Assumptions C89_functional_unit_partial.
Example C89_nonvacuous :
  n_unit (snd (number_flows numbering0 [ex_flow Input "5"; ex_flow Output "0"])) = Some (lit "steel, 1.0 kg") /\
  count_refs [ex_flow Output "0"; ex_flow Output "0"; ex_flow Output "0"] = 3.
Proof. split; vm_compute; reflexivity. Qed.

(** ** C93: the kind of flow *)
Theorem C93_kind_of_flow : forall x b k,
  kind_of_flow x b = Some k ->
  In k [lit "Product flow"; lit "Waste flow"; lit "Elementary flow"] /\
  (k = lit "Elementary flow" <-> b = None /\ fi_group x = lit "4") /\
  (reference_product x -> k = lit "Waste flow" <-> b = Some (lit "Waste")).
Proof.
  intros x b k H. unfold kind_of_flow in H.
  assert (S : forall o : pystr, Some o = Some k -> o = k) by (intros o X; now injection X).
  destruct b as [b|].
  - apply S in H. destruct (str_eqb b (lit "Waste")) eqn:E; rewrite <- H; clear H.
    + apply str_eqb_eq in E. rewrite E. split; [right; left; reflexivity|].
      split; [split; [discriminate|intros [X _]; discriminate X]|]. intros _. split; reflexivity.
    + split; [left; reflexivity|]. split; [split; [discriminate|intros [X _]; discriminate X]|].
      intros _. split; [discriminate|]. intro X. injection X as X. rewrite X in E. discriminate E.
  - unfold reference_product. destruct (fi_dir x) eqn:D.
    + apply S in H. destruct (str_eqb (fi_group x) (lit "4")) eqn:E; rewrite <- H; clear H.
      * apply str_eqb_eq in E. split; [right; right; left; reflexivity|]. split; [|intros [X _]; discriminate X].
        split; [intros _; split; [reflexivity|exact E]|reflexivity].
      * split; [left; reflexivity|]. split; [|intros [X _]; discriminate X].
        split; [discriminate|]. intros [_ X]. rewrite X in E. discriminate E.
    + apply getf_In in H. cbn [In] in H.
      repeat destruct H as [H|H]; try contradiction; apply pair_equal_spec in H as [G <-];
        rewrite <- G; clear G.
      * split; [left; reflexivity|]. split; [split; [discriminate|intros [_ X]; discriminate X]|].
        intros _. split; intro X; discriminate X.
      * split; [left; reflexivity|]. split; [split; [discriminate|intros [_ X]; discriminate X]|].
        intros _. split; intro X; discriminate X.
      * split; [right; left; reflexivity|]. split; [split; [discriminate|intros [_ X]; discriminate X]|].
        intros [_ X]. discriminate X.
      * split; [right; right; left; reflexivity|]. split; [split; [split; reflexivity|reflexivity]|].
        intros [_ X]. discriminate X.
      * split; [left; reflexivity|]. split; [split; [discriminate|intros [_ X]; discriminate X]|].
        intros _. split; intro X; discriminate X.
Qed.
Print Assumptions C93_kind_of_flow.
Theorem C93_every_exchange_has_a_kind : forall x b,
  legal_group x -> exists k, kind_of_flow x b = Some k.
Proof.
  intros x b H. unfold kind_of_flow. destruct b as [b|]; [eauto|]. destruct (fi_dir x) eqn:D; [eauto|].
  unfold legal_group in H. rewrite D in H. cbn [In] in H.
  repeat destruct H as [H|H]; try contradiction; rewrite <- H; eexists; vm_compute; reflexivity.
Qed.
Print Assumptions C93_every_exchange_has_a_kind.
Example C93_nonvacuous :
  kind_of_flow (ex_flow Output "3") None = Some (lit "Waste flow") /\
  kind_of_flow (ex_flow Output "0") (Some (lit "Waste")) = Some (lit "Waste flow").
Proof. split; vm_compute; reflexivity. Qed.

(** ** C41: versions of flows *)
(** Full statement: in a run over any files, every use of a product refers to a file with its properties. *)
Theorem C41_versions_partial : forall (P : Type) (eqb : P -> P -> bool) (d : folder P) uses vs st d',
  decides eqb -> use_flows eqb [] d uses = (vs, st, d') ->
  well_referenced d' uses vs /\ versions_identify uses vs.
Proof.
  intros P eqb d uses vs st d' H E. destruct (use_flows_ok eqb H _ _ _ _ _ _ (Inv_nil d) E) as (I & L & A & _).
  split.
  - split; [exact L|]. intros i fid fp v H1 H2. destruct (I fid) as (_ & _ & B). apply B. eauto.
  - intros i j fid fp fq v w H1 H2 H3 H4. pose proof (A _ _ _ _ H1 H3) as J1. pose proof (A _ _ _ _ H2 H4) as J2.
    destruct (I fid) as (N1 & N2 & _). split; intros <-.
    + exact (NoDup_fst_inj _ _ _ _ N1 J1 J2).
    + exact (NoDup_snd_inj _ _ _ _ N2 J1 J2).
Qed.
Print Assumptions C41_versions_partial.

Lemma version_val k t : dval (repeat (ch "0") k ++ t) = dval t.
Proof. induction k as [|k IH]; [reflexivity|]. exact IH. Qed.
Theorem C41_version_texts_distinct : forall v w, version_text v = version_text w -> v = w.
Proof.
  intros v w H. unfold version_text in H. apply app_inv_head in H. apply (f_equal dval) in H.
  rewrite !version_val, !str_of_N_val in H. lia.
Qed.
Print Assumptions C41_version_texts_distinct.

(** The files of a whole run: right when every product has the same properties throughout. *)
Theorem C41_same_properties_partial : forall (P : Type) (eqb : P -> P -> bool) (c : pystr -> P) files vss d',
  decides eqb -> Forall (consistent c) files -> use_files eqb [] files = (vss, d') ->
  forall n uses vs, nth_error files n = Some uses -> nth_error vss n = Some vs -> well_referenced d' uses vs.
Proof.
  intros P eqb c files vss d' H C E n uses vs H1 H2.
  destruct (use_files_consistent eqb H c _ _ _ _ C E) as (-> & F & _ & J).
  rewrite nth_error_map, H1 in H2. cbn in H2. injection H2 as <-.
  split; [apply repeat_length|]. intros i fid fp v G1 G2.
  pose proof (nth_error_In _ _ G1) as I1. pose proof (nth_error_In _ _ G2) as I2.
  apply repeat_spec in I2 as ->. pose proof (nth_error_In _ _ H1) as I0.
  specialize (J _ _ _ I0 I1). rewrite Forall_forall in C. rewrite (C _ I0 _ _ I1).
  destruct (file_content (fid, 1) d') as [q|] eqn:Q; [|now elim J].
  f_equal. apply F in Q; [exact Q|]. intros ? ? X. discriminate X.
Qed.
Print Assumptions C41_same_properties_partial.

(** A second file with other properties of the product overwrites the data set that the first file refers to. *)
Theorem C41_versions_refuted : forall (P : Type) (eqb : P -> P -> bool) fid (p q : P),
  decides eqb -> p <> q ->
  exists d', use_files eqb [] [[(fid, p)]; [(fid, q)]] = ([[1]; [1]], d') /\
    file_content (fid, 1) d' = Some q /\ ~ well_referenced d' [(fid, p)] [1].
Proof.
  intros P eqb fid p q H N. eexists. split; [reflexivity|].
  assert (X : file_name_eqb (fid, 1) (fid, 1) = true) by now apply file_name_eqb_spec.
  assert (Y : file_content (fid, 1) ([((fid, 1), p)] ++ [((fid, 1), q)]) = Some q) by (rewrite file_content_app, X; reflexivity).
  split; [exact Y|]. intros [_ W]. specialize (W 0 fid p 1 eq_refl eq_refl). apply N.
  refine (f_equal (fun o => match o with Some x => x | None => p end) (eq_trans (eq_sym W) Y)).
Qed.
Print Assumptions C41_versions_refuted.
Example C41_nonvacuous :
  decides Nat.eqb /\
  use_flows Nat.eqb [] [] [(lit "a", 7); (lit "a", 8); (lit "b", 7); (lit "a", 7)]
  = ([1; 2; 1; 1], [(lit "a", [(1, 7); (2, 8)]); (lit "b", [(1, 7)])], [((lit "a", 1), 7); ((lit "a", 2), 8); ((lit "b", 1), 7)]) /\
  version_text 12 = lit "01.00.012".
Proof. split; [intros a b; apply Nat.eqb_eq|]. split; vm_compute; reflexivity. Qed.

(** ** C87: allocation *)
(** Full statement: an exchange that the source allocates by one of its properties gets an allocation in ILCD.
    No document with the attributes of the schema gets one. *)
Theorem C87_allocation_refuted : forall master l,
  Forall schema_flow l ->
  allocation_table match master with Some p => set_master_property p class_attrs0 | None => class_attrs0 end l = [] /\
  get_allocations (allocation_table match master with Some p => set_master_property p class_attrs0 | None => class_attrs0 end l) l = Ok tt.
Proof.
  intros master l H. rewrite (allocation_table_empty l master H). split; [reflexivity|].
  clear H. induction l as [|x l IH]; [reflexivity|exact IH].
Qed.
Print Assumptions C87_allocation_refuted.
(** With the attribute that is read, the conversion stops. *)
Theorem C87_allocation_error : forall c x p a v,
  getf (lit "@specificAllocationProperty") (af_attrs x) = Some p -> af_props x = a ++ [(p, v)] ->
  allocation_table c [x] <> [] /\ get_allocations (allocation_table c [x]) [x] = Err ValueError.
Proof.
  intros c x p a v H E.
  assert (G : exists m, allocation_table c [x] = putf (af_id x) (v * af_amount x)%Z m).
  { unfold allocation_table. cbn. unfold add_allocation, allocation_property. rewrite H, E, fold_left_app. cbn.
    rewrite str_eqb_refl. eauto. }
  destruct G as (m & G). rewrite G. split.
  - intro X. apply (f_equal (getf (af_id x))) in X. rewrite getf_putf in X. discriminate X.
  - cbn. unfold get_allocation. now rewrite getf_putf.
Qed.
Print Assumptions C87_allocation_error.
(** What is left: an exchange that nothing allocates has no allocation and is converted. *)
Theorem C87_no_allocation_partial : forall l,
  Forall schema_flow l -> Forall (fun x => source_property None x = None) l ->
  get_allocations (allocation_table class_attrs0 l) l = Ok tt.
Proof. intros l H _. exact (proj2 (C87_allocation_refuted None l H)). Qed.
Print Assumptions C87_no_allocation_partial.
Definition ex_alloc a : alloc_flow :=
  {| af_attrs := [(a, lit "p1")]; af_id := lit "x1"; af_amount := 3; af_props := [(lit "p1", 5%Z)] |}.
Example C87_nonvacuous :
  source_property None (ex_alloc schema_attribute) = Some (lit "p1") /\
  allocation_table class_attrs0 [ex_alloc schema_attribute] = [] /\
  allocation_table class_attrs0 [ex_alloc (lit "@specificAllocationProperty")] = [(lit "x1", 15%Z)].
Proof. repeat split; vm_compute; reflexivity. Qed.

(** ** C90: the energy basis of the flow property *)
Definition with_basis (b : option energy_basis) : attrs :=
  match b with Some x => set_energy (Some (basis_text x)) energy_attrs0 | None => energy_attrs0 end.
(** Full statement: [unit_property (with_basis b) energy_uuid = Ok (expected_property b)]. *)
Theorem C90_energy_basis_refuted :
  unit_property (with_basis (Some Gross)) energy_uuid = Ok (expected_property (Some Net)) /\
  expected_property (Some Net) <> expected_property (Some Gross).
Proof. split; [vm_compute; reflexivity|discriminate]. Qed.
Print Assumptions C90_energy_basis_refuted.
Theorem C90_energy_basis_partial : forall b,
  b <> Some Gross -> unit_property (with_basis b) energy_uuid = Ok (expected_property b).
Proof. intros [[]|] H; try (vm_compute; reflexivity). now elim H. Qed.
Print Assumptions C90_energy_basis_partial.
(** The table itself distinguishes them: with the attribute that is read the property is the right one. *)
Theorem C90_table : forall b, unit_property (putf (lit "_energy") (Some (basis_text b)) energy_attrs0) energy_uuid = Ok (expected_property (Some b)).
Proof. intros []; vm_compute; reflexivity. Qed.
Print Assumptions C90_table.
Example C90_nonvacuous : unit_property (with_basis None) energy_uuid = Ok (lit "Net calorific value").
Proof. vm_compute. reflexivity. Qed.

(** ** C91: the additional data sets *)
(** Full statement: every reference of a run leads to a file of its output folder. No address names a file as it stands. *)
Theorem C91_addresses_refuted : forall fld uuid v, resolve (uri_of fld uuid v) <> file_of fld uuid v.
Proof.
  intros fld uuid v H. apply (f_equal (@List.length N)) in H. unfold resolve, uri_of, file_of in H.
  cbn in H. rewrite !app_length in H. cbn in H. rewrite !app_length in H. cbn in H. lia.
Qed.
Print Assumptions C91_addresses_refuted.
Theorem C91_addresses_partial : forall fld uuid v, resolve (uri_of fld uuid v) ++ lit ".xml" = file_of fld uuid v.
Proof. intros. unfold resolve, uri_of, file_of. cbn. rewrite <- !app_assoc. cbn. now rewrite <- !app_assoc. Qed.
Print Assumptions C91_addresses_partial.

Theorem C91_output_complete_partial : forall l n r w,
  Forall (fun r => r_fails r = false) l -> nth_error l n = Some r -> nth_error (session [] l) n = Some w ->
  complete_output (r_refs r) w /\ NoDup w.
Proof.
  induction l as [|r0 l IH]; intros n r w F H1 H2; [now destruct n|].
  inversion F as [|? ? F0 F1]; subst. cbn in H2. destruct (make_all [] [] (r_refs r0)) as [k w0] eqn:E.
  rewrite F0 in H2. destruct n; cbn in *.
  - injection H1 as <-. injection H2 as <-. destruct (make_all_spec _ _ _ _ _ E) as (_ & B & C). split.
    + intro x. rewrite B. cbn. intuition.
    + apply C; [constructor|intros ? []].
  - eapply IH; eauto.
Qed.
Print Assumptions C91_output_complete_partial.
(** After a run that failed, the data sets it had written are missing from the next output. *)
Theorem C91_output_complete_refuted : forall refs x next,
  In x refs -> In x next ->
  exists w1 w2, session [] [{| r_refs := refs; r_fails := true |}; {| r_refs := next; r_fails := false |}] = [w1; w2] /\
    In x w1 /\ ~ In x w2 /\ ~ complete_output next w2.
Proof.
  intros refs x next H1 H2. cbn. destruct (make_all [] [] refs) as [k w] eqn:E. cbn.
  destruct (make_all k [] next) as [k2 w2] eqn:E2. exists w, w2.
  destruct (make_all_spec _ _ _ _ _ E) as (A & B & _). destruct (make_all_spec _ _ _ _ _ E2) as (_ & B2 & _).
  assert (Hk : In x k) by (apply A; now right).
  assert (Hw : ~ In x w2) by (rewrite B2; cbn; tauto).
  split; [reflexivity|]. split; [apply B; right; split; [exact H1|tauto]|]. split; [exact Hw|].
  intro C. apply Hw. now apply C.
Qed.
Print Assumptions C91_output_complete_refuted.
Example C91_nonvacuous :
  session [] [{| r_refs := [lit "a"; lit "b"; lit "a"]; r_fails := true |}; {| r_refs := [lit "b"; lit "c"]; r_fails := false |}]
  = [[lit "a"; lit "b"]; [lit "c"]] /\
  getf (lit "source") folder_of = Some (lit "sources") /\
  uri_of (lit "flows") (lit "u") (Some (version_text 1)) = lit "../flows/u_01.00.001".
Proof. repeat split; vm_compute; reflexivity. Qed.
