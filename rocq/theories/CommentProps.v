(** Facts kept inside comments and code tables: theorems. *)
From Coq Require Import Ascii String List Bool Arith NArith ZArith Lia Sorted.
From Verif Require Import PyBase PyBaseFacts PyDigits PyValues Regex RegexFacts ValidatorsModel MultiLangModel MultiLangSpec
  DotDictModel DotDictProofs SchemaModel SchemaTables TablesModel CommentModel CommentSpec CommentProofs.
Import ListNotations.

(** ** C33: codes survive the way to ILCD and back *)
Lemma table_forall (t : table) (P : pystr -> pystr -> Prop) :
  Forall (fun kv => P (fst kv) (snd kv)) t -> forall x v, getf x t = Some v -> P x v.
Proof.
  intros H x v E. rewrite Forall_forall in H. apply getf_In in E. exact (H (x, v) E).
Qed.
Lemma round_trips_b t u :
  forallb (fun kv => match getf (snd kv) u with Some x => str_eqb x (fst kv) | None => false end) t = true -> round_trips t u.
Proof.
  intros H x v E. apply getf_In in E. rewrite forallb_forall in H. specialize (H _ E). cbn [fst snd] in H.
  destruct (getf v u) as [y|]; [|discriminate]. apply str_eqb_eq in H. now subst.
Qed.

Theorem C33_tables_round_trip :
  round_trips special_activity special_activity_ /\ round_trips child_type child_type_ /\
  round_trips energy energy_ /\ round_trips tech tech_ /\ round_trips time_period time_period_ /\
  round_trips type_process type_process_ /\ round_trips status_publication status_publication_ /\
  round_trips access access_.
Proof. repeat split; apply round_trips_b; vm_compute; reflexivity. Qed.
Print Assumptions C33_tables_round_trip.

(** The facts written at the top of the general comment. *)
Record activity_facts := { a_link : option pystr; a_subtype : option pystr; a_inherit : option pystr; a_parent : option pystr }.
Definition opt_line (o : option pystr) (f : pystr -> pystr) : list pystr := match o with Some x => [f x] | None => [] end.
Definition facts_lines (f : activity_facts) : list pystr :=
  opt_line (a_link f) line_linkable ++ opt_line (a_subtype f) line_subtype ++
  match a_inherit f with Some x => match line_inheritance x with Some l => [l] | None => [] end | None => [] end ++
  opt_line (a_parent f) line_parent.
Definition legal_facts (f : activity_facts) : Prop :=
  (forall x, a_link f = Some x -> is_uuid x) /\ (forall x, a_parent f = Some x -> is_uuid x) /\
  (forall x, a_subtype f = Some x -> In x (map fst special_activity)) /\
  (forall x, a_inherit f = Some x -> In x (map fst child_type)).

Lemma marks_good : Forall good_mark general_marks.
Proof. repeat constructor; try discriminate; apply notin_b; vm_compute; reflexivity. Qed.
Ltac mark_good := apply (proj1 (Forall_forall _ _) marks_good); cbn [In general_marks]; auto 8.

Definition other_marks (m : pystr) : list pystr := filter (fun x => negb (str_eqb x m)) general_marks.
Lemma other_in m x : In x general_marks -> x <> m -> In x (other_marks m).
Proof. intros H1 H2. apply filter_In. split; auto. apply negb_true_iff. now apply str_eqb_neq. Qed.

Lemma uuid_line_plain mark u m : In mark general_marks -> In m general_marks -> m <> mark -> is_uuid u -> ~ occurs m (mark ++ u).
Proof.
  intros H1 H2 Hne Hu.
  assert (Hm : exists m', m = m' ++ [32%N]).
  { cbn [In general_marks] in H2. destruct H2 as [<-|[<-|[<-|[<-|[<-|[]]]]]];
      [exists (lit "Activity Linkable Id:")|exists (lit "Activity Subtype:")|exists (lit "Inheritance:")|exists (lit "Parent Id:")|exists (lit "Tag:")]; reflexivity. }
  destruct Hm as [m' ->]. intros Ho. apply occurs_before in Ho; [|now apply uuid_no_space].
  revert Ho. apply not_infixb.
  cbn [In general_marks] in H1. cbn [In general_marks] in H2.
  destruct H1 as [<-|[<-|[<-|[<-|[<-|[]]]]]]; destruct H2 as [H2|[H2|[H2|[H2|[H2|[]]]]]]; rewrite <- H2 in *; try (vm_compute; reflexivity); now contradiction Hne.
Qed.

Lemma uuid_opt m o B rest : good_mark m -> Forall (fun l => ~ occurs m l) B -> ~ occurs m rest ->
  (forall x, o = Some x -> is_uuid x) ->
  get_uuid m (closed_lines (opt_line o (fun x => m ++ x) ++ B) ++ rest) = (o, closed_lines B ++ rest).
Proof.
  intros Hm HB HR Ho. destruct o as [v|]; cbn [opt_line app].
  - apply (uuid_step m Hm [] B rest); auto.
  - apply uuid_absent; auto. apply quiet_after; auto.
Qed.
Lemma str_opt keys m o B rest : good_mark m -> Forall (fun l => ~ occurs m l) B -> ~ occurs m rest ->
  (forall x, o = Some x -> one_line x) ->
  get_str keys m (closed_lines (opt_line o (fun x => m ++ x) ++ B) ++ rest) = (option_map (fun v => getf v keys) o, closed_lines B ++ rest).
Proof.
  intros Hm HB HR Ho. destruct o as [v|]; cbn [opt_line app option_map].
  - apply (str_step m Hm [] B rest); auto.
  - apply str_absent; auto. apply quiet_after; auto.
Qed.

(** lines of the table values: no other mark, no line feed *)
Definition clean_line (mark v : pystr) : bool :=
  (negb (existsb (N.eqb 10) v) && forallb (fun m => str_eqb m mark || negb (infixb m (mark ++ v))) general_marks)%bool.
Lemma clean_line_ok mark v : clean_line mark v = true ->
  one_line v /\ forall m, In m general_marks -> m <> mark -> ~ occurs m (mark ++ v).
Proof.
  unfold clean_line. intros H. apply andb_true_iff in H as [H1 H2]. split.
  - apply notin_b. now apply negb_true_iff.
  - intros m Hm Hne. rewrite forallb_forall in H2. specialize (H2 m Hm). apply orb_true_iff in H2 as [H2|H2].
    + apply str_eqb_eq in H2. contradiction.
    + apply not_infixb. now apply negb_true_iff.
Qed.
Lemma subtypes_clean : forallb (fun kv => clean_line mark_subtype (snd kv)) special_activity = true.
Proof. vm_compute. reflexivity. Qed.
Lemma inherit_clean : forallb (fun kv => clean_line mark_inheritance (snd kv)) child_type = true.
Proof. vm_compute. reflexivity. Qed.
Lemma table_value (t : table) x : In x (map fst t) -> exists v, getf x t = Some v /\ In (x, v) t.
Proof.
  intros H. destruct (getf x t) as [v|] eqn:E.
  - exists v. split; [reflexivity|]. now apply getf_In.
  - exfalso. now apply (getf_None x t).
Qed.

(** Every fact is read back, except the inheritance depth of a child data set, and the rest of the comment
    is kept. *)
Theorem C33_comment_facts_read_back_partial :
  forall f rest, legal_facts f -> plain general_marks rest ->
    exists n, general_comment (closed_lines (facts_lines f) ++ rest) = (n, rest) /\
      assigned ActivityNameId n = option_map Some (a_link f) /\
      assigned IndexNameId n = option_map Some (a_link f) /\
      assigned MasterNameId n = option_map Some (a_link f) /\
      assigned SpecialType n = option_map Some (a_subtype f) /\
      assigned IndexSpecialType n = option_map Some (a_subtype f) /\
      assigned ParentId n = option_map Some (a_parent f) /\
      (a_parent f = None -> assigned Inheritance n = option_map Some (a_inherit f) /\ assigned ChildDataset n = None) /\
      (a_parent f <> None -> assigned Inheritance n = Some (Some (lit "-1")) /\ assigned ChildDataset n <> None) /\
      assigned Tag n = None.
Proof.
  intros [l s i p] rest (Hl & Hp & Hs & Hi) HR. cbn [a_link a_subtype a_inherit a_parent] in *.
  assert (NR : forall m, In m general_marks -> ~ occurs m rest) by exact HR.
  (* the values written *)
  set (sv := option_map (shown special_activity) s).
  set (iv := match i with Some x => getf x child_type | None => None end).
  assert (Es : opt_line s line_subtype = opt_line sv (fun x => mark_subtype ++ x)) by (unfold sv; destruct s; reflexivity).
  assert (Ei : match i with Some x => match line_inheritance x with Some l => [l] | None => [] end | None => [] end
               = opt_line iv (fun x => mark_inheritance ++ x)).
  { unfold iv. destruct i as [x|]; [|reflexivity]. unfold line_inheritance.
    destruct (table_value child_type x (Hi x eq_refl)) as (v & E & Hin). rewrite E.
    assert (Hv : forallb (fun kv => negb (str_eqb (snd kv) [])) child_type = true) by (vm_compute; reflexivity).
    rewrite forallb_forall in Hv. specialize (Hv _ Hin). destruct v; [discriminate|reflexivity]. }
  assert (Cs : forall v, sv = Some v -> clean_line mark_subtype v = true).
  { unfold sv. destruct s as [x|]; [|discriminate]. cbn [option_map]. intros v E. injection E as <-.
    destruct (table_value special_activity x (Hs x eq_refl)) as (v & E & Hin). unfold shown. rewrite E.
    exact (proj1 (forallb_forall _ _) subtypes_clean _ Hin). }
  assert (Ci : forall v, iv = Some v -> clean_line mark_inheritance v = true).
  { unfold iv. destruct i as [x|]; [|discriminate]. intros v E. apply getf_In in E.
    exact (proj1 (forallb_forall _ _) inherit_clean _ E). }
  unfold facts_lines. cbn [a_link a_subtype a_inherit a_parent]. rewrite Es, Ei.
  change line_linkable with (fun x => mark_linkable ++ x). change line_parent with (fun x => mark_parent ++ x).
  (* which marks may occur in which line *)
  assert (Nsub : forall m, In m general_marks -> m <> mark_subtype -> Forall (fun x => ~ occurs m x) (opt_line sv (fun x => mark_subtype ++ x))).
  { intros m Hm Hne. destruct sv as [v|]; cbn [opt_line]; constructor; [|constructor].
    now apply (proj2 (clean_line_ok _ _ (Cs v eq_refl))). }
  assert (Ninh : forall m, In m general_marks -> m <> mark_inheritance -> Forall (fun x => ~ occurs m x) (opt_line iv (fun x => mark_inheritance ++ x))).
  { intros m Hm Hne. destruct iv as [v|]; cbn [opt_line]; constructor; [|constructor].
    now apply (proj2 (clean_line_ok _ _ (Ci v eq_refl))). }
  assert (Npar : forall m, In m general_marks -> m <> mark_parent -> Forall (fun x => ~ occurs m x) (opt_line p (fun x => mark_parent ++ x))).
  { intros m Hm Hne. destruct p as [v|]; cbn [opt_line]; constructor; [|constructor].
    apply uuid_line_plain; auto. cbn. auto 8. }
  unfold general_comment.
  rewrite (uuid_opt mark_linkable l); [|mark_good| | |exact Hl].
  2:{ repeat (apply Forall_app; split); [apply Nsub|apply Ninh|apply Npar]; try discriminate; cbn; auto 8. }
  2:{ apply NR. cbn; auto 8. }
  rewrite (str_opt special_activity_ mark_subtype sv); [|mark_good| | |intros v E; apply (clean_line_ok _ _ (Cs v E))].
  2:{ repeat (apply Forall_app; split); [apply Ninh|apply Npar]; try discriminate; cbn; auto 8. }
  2:{ apply NR. cbn; auto 8. }
  rewrite (str_opt child_type_ mark_inheritance iv); [|mark_good| | |intros v E; apply (clean_line_ok _ _ (Ci v E))].
  2:{ apply Npar; try discriminate; cbn; auto 8. }
  2:{ apply NR. cbn; auto 8. }
  rewrite <- (app_nil_r (opt_line p _)).
  rewrite (uuid_opt mark_parent p); [|mark_good|constructor|apply NR; cbn; auto 8|exact Hp].
  change (closed_lines [] ++ rest) with rest.
  rewrite (list_absent mark_tag); [|mark_good|apply NR; cbn; auto 8].
  eexists. split; [reflexivity|].
  (* the codes *)
  assert (Gs : option_map (fun v => getf v special_activity_) sv = option_map Some s).
  { unfold sv. destruct s as [x|]; [|reflexivity]. cbn [option_map]. f_equal.
    destruct (table_value special_activity x (Hs x eq_refl)) as (v & E & _). unfold shown. rewrite E.
    now apply (proj1 C33_tables_round_trip). }
  assert (Gi : option_map (fun v => getf v child_type_) iv = option_map Some i).
  { unfold iv. destruct i as [x|]; [|reflexivity].
    destruct (table_value child_type x (Hi x eq_refl)) as (v & E & _). rewrite E. cbn [option_map]. f_equal.
    now apply (proj1 (proj2 C33_tables_round_trip)). }
  rewrite Gs, Gi. destruct l, s, i, p; cbn; repeat split; try discriminate; auto; congruence.
Qed.
Print Assumptions C33_comment_facts_read_back_partial.
(** A child data set of geographical inheritance comes back as "unspecified". *)
Theorem C33_inheritance_of_child_refuted :
  exists f rest, legal_facts f /\ plain general_marks rest /\
    let n := fst (general_comment (closed_lines (facts_lines f) ++ rest)) in
    a_inherit f = Some (lit "1") /\ assigned Inheritance n = Some (Some (lit "-1")).
Proof.
  exists {| a_link := None; a_subtype := None; a_inherit := Some (lit "1");
            a_parent := Some (lit "00000000-0000-0000-0000-000000000000") |}, (lit "comment").
  split; [|split; [|vm_compute; split; reflexivity]].
  - unfold legal_facts. cbn [a_link a_parent a_subtype a_inherit]. repeat split; try discriminate.
    + intros x E. injection E as <-. apply looks_uuid_iff. vm_compute. reflexivity.
    + intros x E. injection E as <-. vm_compute. auto.
  - intros m Hm. apply not_infixb. cbn [In general_marks] in Hm.
    destruct Hm as [<-|[<-|[<-|[<-|[<-|[]]]]]]; vm_compute; reflexivity.
Qed.
Print Assumptions C33_inheritance_of_child_refuted.

(** validity, energy and technology level *)
Lemma table_one_line (t : table) : forallb (fun kv => negb (existsb (N.eqb 10) (snd kv))) t = true ->
  forall x v, getf x t = Some v -> one_line v.
Proof.
  intros H x v E. apply getf_In in E. rewrite forallb_forall in H. specialize (H _ E).
  apply notin_b. now apply negb_true_iff.
Qed.
Theorem C33_fields_read_back :
  (forall x rest, In x (map fst time_period) -> ~ occurs (lit "Validity: ") rest ->
     time_comment (line_validity x ++ newline ++ rest) = ([(Validity, Some x)], rest) /\
     time_comment (line_validity x) = ([(Validity, Some x)], [])) /\
  (forall x, In x (map fst energy) ->
     modelling_constants (line_energy x) = ([(Energy, Some x)], lit "Modelling Constants: ")) /\
  (forall x rest, In x (map fst tech) -> plain [lit "Technology Level: "; lit "Activity Start: "; lit "Activity End: "] rest ->
     tech_comment (line_level x ++ newline ++ rest) = ([(TechLevel, Some x)], rest)).
Proof.
  split; [|split].
  - intros x rest Hx HR. destruct (table_value _ _ Hx) as (v & E & Hin).
    assert (Hv : one_line v) by (apply (table_one_line time_period) with (x := x); [vm_compute; reflexivity|exact E]).
    assert (G : good_mark mark_validity) by (split; [apply notin_b; vm_compute; reflexivity|discriminate]).
    pose proof (proj1 (proj2 (proj2 (proj2 (proj2 C33_tables_round_trip)))) x v E) as Hr.
    unfold time_comment, line_validity, shown. rewrite E. split.
    + rewrite <- app_assoc. pose proof (str_at_line time_period_ mark_validity [] v rest G (quiet_nil _) Hv HR) as Hs.
      cbn [app] in Hs. rewrite Hs, Hr. reflexivity.
    + pose proof (str_at time_period_ mark_validity [] v G (quiet_nil _) Hv) as Hs. cbn [app] in Hs. rewrite Hs, Hr. reflexivity.
  - intros x Hx. destruct (table_value _ _ Hx) as (v & E & Hin).
    assert (Hv : one_line v) by (apply (table_one_line energy) with (x := x); [vm_compute; reflexivity|exact E]).
    assert (G : good_mark mark_energy) by (split; [apply notin_b; vm_compute; reflexivity|discriminate]).
    pose proof (proj1 (proj2 (proj2 C33_tables_round_trip)) x v E) as Hr.
    unfold modelling_constants, line_energy, shown. rewrite E. rewrite str_at; auto.
    + rewrite Hr. reflexivity.
    + apply quiet_b_ok. vm_compute. reflexivity.
  - intros x rest Hx HR. destruct (table_value _ _ Hx) as (v & E & Hin).
    assert (G : good_mark mark_level) by (split; [apply notin_b; vm_compute; reflexivity|discriminate]).
    pose proof (proj1 (proj2 (proj2 (proj2 C33_tables_round_trip))) x v E) as Hr.
    assert (Hc : (negb (existsb (N.eqb 10) v) && negb (infixb mark_start (mark_level ++ v)) && negb (infixb mark_end (mark_level ++ v)))%bool = true).
    { assert (Hall : forallb (fun kv => (negb (existsb (N.eqb 10) (snd kv)) && negb (infixb mark_start (mark_level ++ snd kv)) &&
                       negb (infixb mark_end (mark_level ++ snd kv)))%bool) tech = true) by (vm_compute; reflexivity).
      rewrite forallb_forall in Hall. exact (Hall _ Hin). }
    apply andb_true_iff in Hc as [Hc N2]. apply andb_true_iff in Hc as [Hv N1].
    apply negb_true_iff in Hv, N1, N2. apply notin_b in Hv. apply not_infixb in N1, N2.
    unfold line_level, shown. rewrite E.
    assert (G1 : good_mark mark_start) by (split; [apply notin_b; vm_compute; reflexivity|discriminate]).
    assert (G2 : good_mark mark_end) by (split; [apply notin_b; vm_compute; reflexivity|discriminate]).
    replace ((mark_level ++ v) ++ newline ++ rest) with (closed_lines [mark_level ++ v] ++ rest)
      by (rewrite closed_cons; cbn [closed_lines map concat]; rewrite <- app_assoc; reflexivity).
    assert (O1 : ~ occurs mark_start (closed_lines [mark_level ++ v] ++ rest))
      by (apply (quiet_after mark_start G1); [constructor; auto|apply HR; cbn; auto]).
    assert (O2 : ~ occurs mark_end (closed_lines [mark_level ++ v] ++ rest))
      by (apply (quiet_after mark_end G2); [constructor; auto|apply HR; cbn; auto]).
    unfold tech_comment.
    rewrite (search_none mark_start); [|intros s a b H; now apply match_start_mark in H|exact O1].
    rewrite (search_none mark_end); [|intros s a b H; apply match_line_mark in H; [exact H|discriminate]|exact O2].
    assert (HL : ~ occurs mark_level rest) by (apply HR; cbn; auto).
    pose proof (str_step mark_level G [] [] rest (Forall_nil _) (Forall_nil _) HL tech_ v Hv) as Hs.
    rewrite Hr in Hs. change ([] ++ [mark_level ++ v]) with [mark_level ++ v] in Hs. rewrite Hs. reflexivity.
Qed.
Print Assumptions C33_fields_read_back.

(** Access restrictions: "public" and "licensees" come back, the other two as "licensees". *)
Theorem C33_access_partial :
  forall x, In x [lit "0"; lit "1"] ->
    last (read_access false (written_license x) (written_access x)) VNone = VStr x.
Proof. intros x Hx. cbn [In] in Hx. destruct Hx as [<-|[<-|[]]]; vm_compute; reflexivity. Qed.
Print Assumptions C33_access_partial.
Theorem C33_access_refuted :
  exists x y, In x (map fst access) /\ last (read_access false (written_license x) (written_access x)) VNone = VStr y /\ y <> x.
Proof. exists (lit "2"), (lit "1"). vm_compute. repeat split; auto; try congruence. Qed.
Print Assumptions C33_access_refuted.
(** The text always starts with the default, so it is read as "licensees"; the license type, which two codes share, decides. *)
Theorem C33_access_text_refuted :
  forall x, In x (map fst access) ->
    read_access false (written_license x) (written_access x) = [VStr (lit "1"); VStr (if str_eqb x (lit "0") then lit "0" else lit "1")] /\
    exists t, written_access x = Some (lit "Licensees; " ++ t).
Proof.
  intros x Hx. cbn [In map access fst] in Hx.
  destruct Hx as [<-|[<-|[<-|[<-|[]]]]]; (split; [vm_compute; reflexivity|eexists; vm_compute; reflexivity]).
Qed.
Print Assumptions C33_access_text_refuted.
Example C33_nonvacuous :
  general_comment (lit "Activity Linkable Id: 0a0b0c0d-0000-1111-2222-333344445555" ++ newline ++
                   lit "Activity Subtype: market activity" ++ newline ++ lit "Inheritance: child from: " ++ newline ++ lit "free text") =
  ([(ActivityNameId, Some (lit "0a0b0c0d-0000-1111-2222-333344445555")); (IndexNameId, Some (lit "0a0b0c0d-0000-1111-2222-333344445555"));
    (MasterNameId, Some (lit "0a0b0c0d-0000-1111-2222-333344445555"));
    (SpecialType, Some (lit "1")); (IndexSpecialType, Some (lit "1")); (SpecialType, Some (lit "1")); (Inheritance, Some (lit "-1"))],
   lit "free text").
Proof. vm_compute. reflexivity. Qed.

(** ** C75: identifiers kept in comments *)
(** Anything that is not a complete identifier followed by a line feed is left alone. *)
Theorem C75_only_identifiers_are_taken :
  forall m t u t', In m [lit "Activity Linkable Id: "; lit "Parent Id: "] -> get_uuid m t = (Some u, t') ->
    is_uuid u /\ occurs (m ++ u ++ newline) t.
Proof.
  intros m t u t' _ H. unfold get_uuid in H.
  destruct (search_with (match_uuid m) t) as [g|] eqn:E; [|discriminate]. injection H as <- _.
  revert E. induction t as [|c t IH]; cbn [search_with]; intros E.
  - destruct (match_uuid m []) as [[v r]|] eqn:M; [|discriminate]. injection E as <-. unfold match_uuid in M.
    destruct (prefixb m []); [|discriminate]. rewrite skipn_nil in M. vm_compute in M. discriminate.
  - destruct (match_uuid m (c :: t)) as [[v r]|] eqn:M.
    + injection E as <-. unfold match_uuid in M.
      destruct (prefixb m (c :: t)) eqn:P; [|discriminate]. apply prefixb_spec in P as [w Hw]. rewrite Hw in M.
      rewrite skipn_app_len in M.
      destruct (looks_uuid (firstn 36 w)) eqn:L; [|discriminate].
      destruct (skipn 36 w) as [|d q] eqn:Q; [discriminate|]. destruct (N.eqb_spec d nl) as [->|]; [|discriminate].
      injection M as <- <-. apply looks_uuid_iff in L. split; [exact L|].
      exists [], q. rewrite Hw. cbn [app]. rewrite <- !app_assoc. f_equal. rewrite <- (firstn_skipn 36 w) at 1. rewrite Q. reflexivity.
    + destruct (IH E) as [Hu (a & b & ->)]. split; [exact Hu|]. now exists (c :: a), b.
Qed.
Print Assumptions C75_only_identifiers_are_taken.
(** The identifier of the parent is lost when nothing follows it in the comment. *)
Theorem C75_parent_identifier_refuted :
  exists f, legal_facts f /\ a_parent f <> None /\
    general_comment (join newline (facts_lines f)) = ([], join newline (facts_lines f)).
Proof.
  exists {| a_link := None; a_subtype := None; a_inherit := None;
            a_parent := Some (lit "00000000-0000-0000-0000-000000000000") |}.
  split; [|split; [discriminate|vm_compute; reflexivity]].
  unfold legal_facts. cbn [a_link a_parent a_subtype a_inherit]. repeat split; try discriminate.
  intros x E. injection E as <-. apply looks_uuid_iff. vm_compute. reflexivity.
Qed.
Print Assumptions C75_parent_identifier_refuted.
(** Nothing is lost when the comment goes on. *)
Theorem C75_identifiers_read_back_partial :
  forall f body, legal_facts f -> body <> [] -> plain general_marks (join newline body) ->
    exists n, general_comment (join newline (facts_lines f ++ body)) = (n, join newline body) /\
      assigned ActivityNameId n = option_map Some (a_link f) /\ assigned ParentId n = option_map Some (a_parent f).
Proof.
  intros f body Hf Hb HR. rewrite join_newline by exact Hb.
  destruct (C33_comment_facts_read_back_partial f _ Hf HR) as (n & H & H1 & _ & _ & _ & _ & H2 & _).
  exists n. auto.
Qed.
Print Assumptions C75_identifiers_read_back_partial.
Example C75_nonvacuous :
  get_uuid (lit "Parent Id: ") (lit "a" ++ newline ++ lit "Parent Id: 00000000-0000-0000-0000-000000000001" ++ newline ++ lit "b")
  = (Some (lit "00000000-0000-0000-0000-000000000001"), lit "a" ++ newline ++ lit "b") /\
  get_uuid (lit "Parent Id: ") (lit "Parent Id: none" ++ newline) = (None, lit "Parent Id: none" ++ newline).
Proof. split; vm_compute; reflexivity. Qed.

(** ** C73: free text *)
Theorem C73_plain_text_untouched_partial :
  (forall t, plain general_marks t -> general_comment t = ([], t)) /\
  (forall t, ~ occurs (lit "Validity: ") t -> time_comment t = ([], t)) /\
  (forall t, plain [lit "Technology Level: "; lit "Activity Start: "; lit "Activity End: "] t -> tech_comment t = ([], t)) /\
  (forall t, ~ occurs (lit "Energy: ") t -> modelling_constants t = ([], lit "Modelling Constants: " ++ t)) /\
  (forall t, ~ occurs (lit "Original ecoinvent System Model: ") t ->
     deviation_comment t = (None, lit "Deviations from LCI Method Principles: " ++ t)).
Proof.
  assert (Q : forall m p t, quiet_b m p = true -> m <> [] -> ~ occurs m t -> ~ occurs m (p ++ t)).
  { intros m p t H1 H2 H3. apply quiet_not_occurs; auto. now apply quiet_b_ok. }
  split; [|split; [|split; [|split]]].
  - intros t H. unfold general_comment.
    rewrite (uuid_absent mark_linkable); [|mark_good|apply H; cbn; auto 8].
    rewrite (str_absent _ mark_subtype); [|mark_good|apply H; cbn; auto 8].
    rewrite (str_absent _ mark_inheritance); [|mark_good|apply H; cbn; auto 8].
    rewrite (uuid_absent mark_parent); [|mark_good|apply H; cbn; auto 8].
    rewrite (list_absent mark_tag); [|mark_good|apply H; cbn; auto 8]. reflexivity.
  - intros t H. unfold time_comment. rewrite str_absent; [reflexivity| |exact H].
    split; [apply notin_b; vm_compute; reflexivity|discriminate].
  - intros t H. unfold tech_comment.
    rewrite (search_none mark_start); [|intros s a b M; now apply match_start_mark in M|apply H; cbn; auto].
    rewrite (search_none mark_end); [|intros s a b M; apply match_line_mark in M; [exact M|discriminate]|apply H; cbn; auto].
    rewrite str_absent; [reflexivity| |apply H; cbn; auto].
    split; [apply notin_b; vm_compute; reflexivity|discriminate].
  - intros t H. unfold modelling_constants. rewrite str_absent; [reflexivity| |].
    + split; [apply notin_b; vm_compute; reflexivity|discriminate].
    + apply Q; [vm_compute; reflexivity|discriminate|exact H].
  - intros t H. apply model_absent. apply Q; [vm_compute; reflexivity|discriminate|exact H].
Qed.
Print Assumptions C73_plain_text_untouched_partial.
(** A comment that uses the words of a mark is taken for a fact, whatever follows the mark: the value assigned is
    None when it is not one of the known texts, and every code field refuses None. *)
Theorem C73_marks_in_free_text_refuted :
  (forall pre v, quiet mark_validity pre -> one_line v -> ~ In v (map snd time_period) ->
     time_comment (pre ++ lit "Validity: " ++ v) = ([(Validity, None)], pre)) /\
  (forall ls neg, exists e, collection ls neg VNone = Err e) /\ (exists e, bool_validate VNone = Err e).
Proof.
  split; [|split].
  - intros pre v Hq Hv Hn. unfold time_comment.
    change (lit "Validity: ") with mark_validity. rewrite str_at; auto.
    + destruct (getf v time_period_) as [c|] eqn:E; [|reflexivity]. exfalso. apply Hn.
      apply getf_In in E. vm_compute in E. vm_compute.
      destruct E as [E|[E|[]]]; injection E as <- <-; auto.
    + split; [apply notin_b; vm_compute; reflexivity|discriminate].
  - intros ls neg. exists TypeError. reflexivity.
  - exists ValueError. reflexivity.
Qed.
Print Assumptions C73_marks_in_free_text_refuted.
Example C73_nonvacuous :
  time_comment (lit "Period. Validity: 2010 to 2020") = ([(Validity, None)], lit "Period. ") /\
  quiet mark_validity (lit "Period. ") /\
  plain general_marks (lit "an ordinary comment").
Proof.
  split; [vm_compute; reflexivity|]. split; [apply quiet_b_ok; vm_compute; reflexivity|].
  intros m Hm. apply not_infixb. cbn [In general_marks] in Hm.
  destruct Hm as [<-|[<-|[<-|[<-|[<-|[]]]]]]; vm_compute; reflexivity.
Qed.

(** ** C34: translated codes are legal *)
Definition takesb (E : env) (valid : list (pystr * DotDictModel.field vc)) (name : pystr) (v : pyval) : bool :=
  match getf name valid with
  | Some f => match f_type f with
              | TVal c => match add_ E c None v with (Some _, None) => true | _ => false end
              | _ => false
              end
  | None => false
  end.
Lemma takesb_ok E valid name v : takesb E valid name v = true -> takes E valid name v.
Proof.
  unfold takesb, takes. destruct (getf name valid) as [f|]; [|discriminate].
  destruct (f_type f) as [c|c] eqn:T; [|discriminate].
  destruct (add_ E c None v) as [[st|] [e|]] eqn:A; try discriminate. intros _. now exists f, c, st.
Qed.
Lemma table_takes E valid name (t : table) :
  forallb (fun kv => takesb E valid name (VStr (snd kv))) t = true ->
  forall x v, getf x t = Some v -> takes E valid name (VStr v).
Proof.
  intros H x v G. apply getf_In in G. rewrite forallb_forall in H. apply takesb_ok. exact (H _ G).
Qed.

(** From EcoSpold2 to ILCD *)
Theorem C34_to_ilcd :
  forall E,
    (forall x v, getf x type_process = Some v -> takes E ILCD1_LCIMethodAndAllocation_VALID (lit "typeOfDataSet") (VStr v)) /\
    (forall x v, getf x system_model = Some v -> takes E ILCD1_LCIMethodAndAllocation_VALID (lit "LCIMethodPrinciple") (VStr v)) /\
    (forall x v, getf x system_model_2 = Some v -> takes E ILCD1_LCIMethodAndAllocation_VALID (lit "LCIMethodApproaches") (VStr v)) /\
    (forall x v, getf x status_publication = Some v -> takes E ILCD1_PublicationAndOwnership_VALID (lit "workflowAndPublicationStatus") (VStr v)) /\
    (forall x v, getf x restrictions = Some v -> takes E ILCD1_PublicationAndOwnership_VALID (lit "licenseType") (VStr v)).
Proof. intros E. repeat split; apply table_takes; vm_compute; reflexivity. Qed.
Print Assumptions C34_to_ilcd.
(** From ILCD to EcoSpold2 *)
Theorem C34_to_ecospold_partial :
  forall E,
    (forall x v, getf x type_process_ = Some v -> takes E ECS2_Activity_VALID (lit "type") (VStr v)) /\
    (forall x v, getf x special_activity_ = Some v ->
       takes E ECS2_Activity_VALID (lit "specialActivityType") (VStr v) /\
       takes E ECS2_ActivityIndexEntryMaster_VALID (lit "specialActivityType") (VStr v)) /\
    (forall x v, getf x child_type_ = Some v -> takes E ECS2_Activity_VALID (lit "inheritanceDepth") (VStr v)) /\
    (forall x v, getf x energy_ = Some v -> takes E ECS2_Activity_VALID (lit "energyValues") (VStr v)) /\
    (forall x v, getf x tech_ = Some v -> takes E ECS2_Technology_VALID (lit "technologyLevel") (VStr v)) /\
    (forall x v, getf x time_period_ = Some v -> takes E ECS2_TimePeriod_VALID (lit "isDataValidForEntirePeriod") (VStr v)) /\
    (forall x v, getf x restrictions_ = Some v -> takes E ECS2_DataGeneratorAndPublication_VALID (lit "accessRestrictedTo") (VStr v)) /\
    (forall x v, getf x system_model_1_ = Some v -> takes E ECS2_Representativeness_VALID (lit "systemModelId") (VStr v)) /\
    (forall x v, getf x system_model_2_ = Some v -> exists i, getf v system_model_1_ = Some i).
Proof.
  intros E. repeat split; try (apply table_takes; vm_compute; reflexivity).
  - revert x v H. apply table_takes; vm_compute; reflexivity.
  - revert x v H. apply table_takes; vm_compute; reflexivity.
  - intros x v G. apply getf_In in G.
    assert (H : forallb (fun kv => match getf (snd kv) system_model_1_ with Some _ => true | None => false end) system_model_2_ = true) by (vm_compute; reflexivity).
    rewrite forallb_forall in H. specialize (H _ G). cbn [snd] in H. destruct (getf v system_model_1_) as [i|]; [eauto|discriminate].
Qed.
Print Assumptions C34_to_ecospold_partial.
(** Every legal ILCD value has a translation. *)
Theorem C34_every_ilcd_value_translated :
  (forall x, In x TypeOfProcessValues -> In x (map fst type_process_)) /\
  (forall x, In x LCIMethodApproachesValues -> In x (map fst system_model_2_)) /\
  (forall x, In x WorkflowAndPublicationStatusValues -> In x (map fst status_publication_)) /\
  (forall x, In x LicenseTypeValues -> In x (map fst restrictions_)).
Proof.
  assert (H : forall l (t : table), forallb (fun x => str_in x (map fst t)) l = true -> forall x, In x l -> In x (map fst t)).
  { intros l t H x Hx. rewrite forallb_forall in H. apply str_in_In. auto. }
  repeat split; apply H; vm_compute; reflexivity.
Qed.
Print Assumptions C34_every_ilcd_value_translated.
(** Every code of EcoSpold2 has a translation, except activity type 3, inheritance depth 0 and the numeric booleans of XML. *)
Theorem C34_every_ecs2_code_partial :
  map fst time_period = [lit "true"; lit "false"] /\
  map fst type_process = [lit "1"; lit "2"] /\
  map fst child_type = [lit "-1"; lit "1"; lit "2"; lit "3"] /\
  (forall n, (n < 11)%N -> In (str_of_N n) (map fst special_activity)) /\
  (forall n, (n < 3)%N -> In (str_of_N n) (map fst energy)) /\
  (forall n, (n < 6)%N -> In (str_of_N n) (map fst tech)) /\
  (forall n, (n < 3)%N -> In (str_of_N n) (map fst status_publication)) /\
  (forall n, (n < 4)%N -> In (str_of_N n) (map fst restrictions) /\ In (str_of_N n) (map fst access)).
Proof.
  assert (H : forall (t : table) k, forallb (fun n => str_in (str_of_N (N.of_nat n)) (map fst t)) (seq 0 k) = true ->
              forall n, (n < N.of_nat k)%N -> In (str_of_N n) (map fst t)).
  { intros t k H n L. rewrite forallb_forall in H. apply str_in_In. rewrite <- (N2Nat.id n). apply H. apply in_seq. lia. }
  split; [reflexivity|]. split; [reflexivity|]. split; [reflexivity|].
  split; [apply (H special_activity 11%nat); vm_compute; reflexivity|].
  split; [apply (H energy 3%nat); vm_compute; reflexivity|].
  split; [apply (H tech 6%nat); vm_compute; reflexivity|].
  split; [apply (H status_publication 3%nat); vm_compute; reflexivity|].
  intros n L. split; [apply (H restrictions 4%nat)|apply (H access 4%nat)]; try (vm_compute; reflexivity); exact L.
Qed.
Print Assumptions C34_every_ecs2_code_partial.
(** Exceptions: an LCI result of kind 3, the publication status "entirely published", the reference to entities
    with exclusive access, and any system model outside the table. *)
Theorem C34_codes_refuted :
  forall E,
    getf (lit "3") type_process = None /\ refuses E ILCD1_LCIMethodAndAllocation_VALID (lit "typeOfDataSet") VNone /\
    takes E ECS2_Activity_VALID (lit "type") (VStr (lit "3")) /\
    getf (lit "Data set finalised; entirely published") status_publication_ = Some (lit "2") /\
    refuses E ECS2_DataGeneratorAndPublication_VALID (lit "dataPublishedIn") (VStr (lit "2")) /\
    refuses E ECS2_DataGeneratorAndPublication_VALID (lit "accessRestrictedTo") (VInt 3) /\
    In (VInt 3) (read_access true None None) /\
    (forall x, ~ In x (map fst system_model) -> getf x system_model = None) /\
    refuses E ILCD1_LCIMethodAndAllocation_VALID (lit "LCIMethodPrinciple") VNone.
Proof.
  assert (R : forall E valid name v,
    match getf name valid with
    | Some f => match f_type f with
                | TVal c => match add_ E c None v with (None, Some _) => true | _ => false end
                | _ => false
                end
    | None => false
    end = true -> refuses E valid name v).
  { intros E valid name v. unfold refuses. destruct (getf name valid) as [f|]; [|discriminate].
    destruct (f_type f) as [c|c] eqn:T; [|discriminate].
    destruct (add_ E c None v) as [[st|] [e|]] eqn:A; try discriminate. intros _. now exists f, c, e. }
  intros E. split; [vm_compute; reflexivity|]. split; [apply R; vm_compute; reflexivity|].
  split; [apply takesb_ok; vm_compute; reflexivity|]. split; [vm_compute; reflexivity|].
  split; [apply R; vm_compute; reflexivity|]. split; [apply R; vm_compute; reflexivity|].
  split; [left; reflexivity|]. split; [|apply R; vm_compute; reflexivity].
  intros x Hx. now apply getf_None.
Qed.
Print Assumptions C34_codes_refuted.
Example C34_nonvacuous :
  forall E, takes E ILCD1_LCIMethodAndAllocation_VALID (lit "typeOfDataSet") (VStr (lit "LCI result")) /\
    getf (lit "2") type_process = Some (lit "LCI result").
Proof. intros E. split; [apply takesb_ok|]; vm_compute; reflexivity. Qed.

(** ** C45: the energy basis *)
Theorem C45_energy_vote_partial :
  forall given net gross,
    (given = None \/ given = Some 0%Z ->
       (3 * gross <= net -> energy_basis given net gross = inr (lit "1")) /\
       (net < 3 * gross -> 3 * net <= gross -> energy_basis given net gross = inr (lit "2")) /\
       (net < 3 * gross -> gross < 3 * net -> energy_basis given net gross = inr (lit "0"))) /\
    (forall z, given = Some z -> z <> 0%Z -> energy_basis given net gross = inl z).
Proof.
  intros given net gross. split.
  - intros Hg. assert (E : energy_basis given net gross = inr (energy_vote net gross)) by (destruct Hg as [-> | ->]; reflexivity).
    rewrite E. unfold energy_vote. repeat split; intros.
    + now rewrite (proj2 (Nat.leb_le _ _)).
    + rewrite (proj2 (Nat.leb_gt _ _)) by lia. now rewrite (proj2 (Nat.leb_le _ _)).
    + rewrite (proj2 (Nat.leb_gt _ _)) by lia. now rewrite (proj2 (Nat.leb_gt _ _)) by lia.
  - intros z -> Hz. unfold energy_basis. destruct z; [contradiction|reflexivity|reflexivity].
Qed.
Print Assumptions C45_energy_vote_partial.
(** An explicit "undefined" in the source is overruled: it counts as no value; and without any heating value the
    basis is "net". *)
Theorem C45_explicit_undefined_refuted :
  (exists net gross, energy_basis (Some 0%Z) net gross <> inl 0%Z /\ energy_basis (Some 0%Z) net gross <> inr (lit "0")) /\
  energy_basis None 0 0 = inr (lit "1").
Proof. split; [exists 3, 1; split; discriminate|reflexivity]. Qed.
Print Assumptions C45_explicit_undefined_refuted.
Example C45_nonvacuous : energy_basis None 2 1 = inr (lit "0") /\ energy_basis (Some 2%Z) 9 0 = inl 2%Z.
Proof. split; reflexivity. Qed.

(** ** C49: data set version *)
Definition plain_release (a b c d : N) : release :=
  {| major_release := Some (str_of_N a); minor_release := Some (str_of_N b);
     major_revision := Some (str_of_N c); minor_revision := Some (str_of_N d) |}.
Lemma written_eq x a d :
  match major_release x with Some s => s | None => lit "0" end = str_of_N a ->
  match minor_revision x with Some s => s | None => lit "0" end = str_of_N d ->
  written_version x = (48%N :: str_of_N a) ++ lit "." ++ (48%N :: str_of_N d) ++ lit "." ++ lit "000".
Proof.
  intros Ha Hd. unfold written_version. cbv zeta. rewrite Ha, Hd.
  change (lit ".000") with (lit "." ++ lit "000"). change (lit ".0") with (lit "." ++ [48%N]). change (lit "0") with [48%N].
  repeat (rewrite <- app_assoc; cbn [app]). reflexivity.
Qed.
(** For a one-digit major release the version is accepted, and the major release and the minor revision come back. *)
Theorem C49_version_partial :
  forall a b c d, (a < 10)%N ->
    Version (VStr (written_version (plain_release a b c d))) = Ok (written_version (plain_release a b c d)) /\
    read_version (written_version (plain_release a b c d)) = Ok (Z.of_N a, 0, 0, Z.of_N d)%Z.
Proof.
  intros a b c d Ha. rewrite (written_eq (plain_release a b c d) a d eq_refl eq_refl). split.
  - unfold Version, pattern. rewrite (proj2 (version_match _)); [reflexivity|].
    pose proof (str_of_N_nonnil a) as Na. pose proof (str_of_N_nonnil d) as Nd.
    pose proof (str_of_N_digits a) as Da. pose proof (str_of_N_digits d) as Dd.
    assert (La : length (str_of_N a) <= 1) by (apply (str_of_N_len a 0); exact Ha).
    destruct (str_of_N a) as [|x [|]]; [contradiction| |cbn in La; lia].
    destruct (str_of_N d) as [|y r]; [contradiction|].
    exists 48%N, x, 48%N, y, (r ++ lit "." ++ lit "000"). split; [reflexivity|].
    inversion Da; subst. inversion Dd; subst. repeat split; auto using isdig_udigit.
  - unfold read_version. rewrite version_parts.
    + cbn [nth_error bind]. rewrite !int_zero_pad. reflexivity.
    + intros [Hz|Hin]; [discriminate|]. exact (digits_no_dot _ (str_of_N_digits a) Hin).
    + intros [Hz|Hin]; [discriminate|]. exact (digits_no_dot _ (str_of_N_digits d) Hin).
    + apply notin_b. vm_compute. reflexivity.
Qed.
Print Assumptions C49_version_partial.
(** Every larger major release is refused; the minor release and the major revision are always lost. *)
Theorem C49_version_refuted :
  (forall a b c d, (10 <= a)%N -> Version (VStr (written_version (plain_release a b c d))) = Err ValueError) /\
  (forall a b c d b' c', written_version (plain_release a b c d) = written_version (plain_release a b' c' d)).
Proof.
  split; [|reflexivity]. intros a b c d Ha.
  rewrite (written_eq (plain_release a b c d) a d eq_refl eq_refl). unfold Version, pattern.
  destruct (re_matches version_re _) eqn:E; [|reflexivity]. exfalso.
  apply version_match in E as (c1 & c2 & c3 & c4 & rest & E & _).
  assert (La : 1 < length (str_of_N a)).
  { apply Nat.nle_gt. intros H. apply (str_of_N_len a 0) in H. change (10 ^ N.of_nat 1)%N with 10%N in H. lia. }
  pose proof (str_of_N_digits a) as Da.
  destruct (str_of_N a) as [|x [|y r]]; cbn in La; [lia|lia|].
  cbn [app] in E. injection E as _ _ Ey _. inversion Da as [|? ? _ D2]. inversion D2 as [|? ? D3 _]. subst. unfold isdig in D3. lia.
Qed.
Print Assumptions C49_version_refuted.
Example C49_nonvacuous :
  written_version (plain_release 3 1 0 12) = lit "03.012.000" /\
  read_version (lit "03.012.000") = Ok (3, 0, 0, 12)%Z /\
  Version (VStr (written_version (plain_release 10 0 0 0))) = Err ValueError.
Proof. repeat split; vm_compute; reflexivity. Qed.

(** ** C74: tags *)
Definition good_tag (x : pystr) : Prop := x <> [] /\ one_line x /\ ~ occurs (lit "; ") x /\ ~ occurs (lit "Tag: ") x.
Theorem C74_one_tag_partial :
  forall x rest, good_tag x -> ~ occurs (lit "Tag: ") rest ->
    get_list_str (lit "Tag: ") (tags_text [x] ++ newline ++ rest) = ([x], newline ++ rest).
Proof.
  intros x rest (Hx & H1 & H2 & _) HR.
  assert (G : good_mark mark_tag) by mark_good.
  assert (HA : Forall (fun l => ~ occurs mark_tag l) [[]]).
  { constructor; [|constructor]. apply not_infixb. vm_compute. reflexivity. }
  pose proof (list_step mark_tag G [[]] [] rest HA (Forall_nil _) HR x H1) as H.
  replace (tags_text [x] ++ newline ++ rest) with (closed_lines ([[]] ++ [mark_tag ++ x]) ++ rest).
  - refine (eq_trans H _). f_equal.
    unfold split. rewrite split_last; [reflexivity|discriminate|exact H2].
  - destruct x as [|c x]; [contradiction|]. unfold tags_text, closed_lines, text_tag. cbn [flat_map app join map concat].
    change nl with 10%N. repeat (rewrite <- app_assoc; cbn [app newline]). reflexivity.
Qed.
Print Assumptions C74_one_tag_partial.
(** Of two or more tags only the first one comes back, with an empty one. *)
Theorem C74_more_tags_refuted :
  forall x y ys rest, good_tag x -> good_tag y -> fst (get_list_str (lit "Tag: ") (tags_text (x :: y :: ys) ++ newline ++ rest)) = [x; []].
Proof.
  intros x y ys rest (Hx & H1 & H2 & H3) (Hy & _).
  destruct x as [|c x]; [contradiction|]. destruct y as [|d y]; [contradiction|].
  assert (E : exists w, tags_text ((c :: x) :: (d :: y) :: ys) ++ newline ++ rest = newline ++ mark_tag ++ ((c :: x) ++ lit "; ") ++ 10%N :: w).
  { unfold tags_text. cbn [flat_map text_tag app]. set (l := flat_map _ ys).
    rewrite join_cons by discriminate. change sep_default with (lit "; ").
    destruct l as [|z l].
    - cbn [join]. eexists. repeat (rewrite <- app_assoc; cbn [app newline]). change nl with 10%N. reflexivity.
    - rewrite join_cons by discriminate. eexists. repeat (rewrite <- app_assoc; cbn [app newline]). change nl with 10%N. reflexivity. }
  destruct E as [w E]. refine (eq_trans (f_equal (fun t => fst (get_list_str mark_tag t)) E) _). cbv beta. clear E. unfold get_list_str.
  assert (HM : forall s v r, match_line true mark_tag s = Some (v, r) -> prefixb mark_tag s = true /\ length r < length s)
    by (intros s v r H; apply match_line_mark in H; [exact H|discriminate]).
  assert (Ho : one_line ((c :: x) ++ lit "; ")).
  { intros Hin. apply in_app_or in Hin as [Hin|Hin]; [now apply H1|]. revert Hin. apply notin_b. vm_compute. reflexivity. }
  rewrite (search_quiet mark_tag _ HM) by (apply quiet_b_ok; vm_compute; reflexivity).
  rewrite (search_hit _ _ _ _ (match_line_hit true mark_tag _ w Ho)). cbn [fst].
  rewrite <- (app_nil_r ((c :: x) ++ lit "; ")), <- app_assoc. rewrite split_semicolon by exact H2. reflexivity.
Qed.
Print Assumptions C74_more_tags_refuted.
Example C74_nonvacuous :
  tags_text [lit "a"; lit "b"] = newline ++ lit "Tag: a; " ++ newline ++ lit "Tag: b" /\
  get_list_str (lit "Tag: ") (tags_text [lit "a"; lit "b"] ++ newline ++ lit "text") = ([lit "a"; []], newline ++ lit "text").
Proof. split; vm_compute; reflexivity. Qed.

(** ** C76: layout of a comment *)
(** The text of a comment field: the marked lines in the order of their indexes, then everything else. *)
Theorem C76_marked_lines_first :
  forall sep L en t (hs : list (Z * pystr)),
    lang_text sep L en t ->
    StronglySorted Z.lt (map fst hs) ->
    (forall i u, In (i, u) hs -> texts_at L i en = [u]) ->
    (forall i u, In (i, en, u) L -> In i (map fst hs) \/ forall j, In j (map fst hs) -> (j < i)%Z) ->
    exists idxs, t = join newline (map snd hs ++ map (fun i => merged sep (texts_at L i en)) idxs) /\
      StronglySorted Z.lt idxs /\
      forall i, In i idxs <-> (exists u, In (i, en, u) L) /\ ~ In i (map fst hs).
Proof.
  intros sep L en t hs (idxs & Hs & Hin & ->) Hh Ht Hlt.
  (* the sorted list of indexes starts with those of hs *)
  assert (K : forall (A B : list Z), StronglySorted Z.lt A -> StronglySorted Z.lt B -> (forall i, In i A -> In i B) ->
              (forall i, In i B -> In i A \/ forall j, In j A -> (j < i)%Z) -> exists C, B = A ++ C).
  { intros A. induction A as [|a A IH]; intros B SA SB HAB HBA; [now exists B|].
    destruct B as [|b B]; [destruct (HAB a (or_introl eq_refl))|].
    inversion SA as [|? ? SA' FA]; subst. inversion SB as [|? ? SB' FB]; subst. rewrite Forall_forall in FA, FB.
    assert (a = b).
    { destruct (HAB a (or_introl eq_refl)) as [E|Hb]; [now symmetry|]. specialize (FB a Hb).
      destruct (HBA b (or_introl eq_refl)) as [[E|Hb2]|Hb2]; [lia|specialize (FA b Hb2); lia|].
      specialize (Hb2 a (or_introl eq_refl)). lia. }
    subst b. destruct (IH B) as [C ->]; auto.
    - intros i Hi. destruct (HAB i (or_intror Hi)) as [<-|H]; [specialize (FA a Hi); lia|exact H].
    - intros i Hi. destruct (HBA i (or_intror Hi)) as [[<-|H]|H]; [specialize (FB a Hi); lia|now left|].
      right. intros j Hj. apply H. now right.
    - now exists C. }
  destruct (K (map fst hs) idxs) as [C EC]; auto.
  - intros i Hi. apply in_map_iff in Hi as ([j u] & <- & Hj). apply Hin. exists u. cbn [fst].
    assert (In u (texts_at L j en)) by (rewrite (Ht j u Hj); now left).
    unfold texts_at in H. apply in_map_iff in H as ([[i' k'] u'] & E & H). cbn in E. subst u'.
    apply filter_In in H as [H1 H2]. cbn in H2. apply andb_true_iff in H2 as [H2 H3].
    apply Z.eqb_eq in H2. apply str_eqb_eq in H3. now subst.
  - intros i Hi. apply Hin in Hi as [u Hu]. exact (Hlt i u Hu).
  - exists C. split; [|split].
    + rewrite EC, map_app. f_equal. f_equal. rewrite map_map. apply map_ext_in. intros [i u] Hi. cbn [fst snd].
      rewrite (Ht i u Hi). destruct sep; reflexivity.
    + rewrite EC in Hs. clear -Hs. induction (map fst hs) as [|x l IH]; [exact Hs|]. inversion Hs; subst. now apply IH.
    + intros i. rewrite <- Hin. rewrite EC. rewrite in_app_iff.
      assert (Hd : In i (map fst hs) -> In i C -> False).
      { rewrite EC in Hs. clear -Hs. induction (map fst hs) as [|x l IH]; [intros []|].
        inversion Hs as [|? ? S1 F1]; subst. rewrite Forall_forall in F1. intros [<-|H] Hc.
        - specialize (F1 x (proj2 (in_app_iff _ _ _) (or_intror Hc))). lia.
        - now apply IH. }
      tauto.
Qed.
Print Assumptions C76_marked_lines_first.
Example C76_nonvacuous :
  let L := [((-9)%Z, lit "en", lit "Activity Subtype: IO activity"); (1%Z, lit "en", lit "free"); ((-10)%Z, lit "en", lit "Activity Linkable Id: x")] in
  lang_text (Some sep_default) L (lit "en")
    (lit "Activity Linkable Id: x" ++ newline ++ lit "Activity Subtype: IO activity" ++ newline ++ lit "free").
Proof.
  intros L. exists [(-10); (-9); 1]%Z. split; [repeat constructor; lia|]. split; [|vm_compute; reflexivity].
  intros i. split.
  - intros [<-|[<-|[<-|[]]]]; eexists; cbn; eauto.
  - intros [u [E|[E|[E|[]]]]]; injection E as <- _; cbn; auto.
Qed.

(** ** C77: synonyms *)
Theorem C77_synonyms_partial :
  forall xs, xs <> [] -> Forall (fun x => ~ occurs (lit "; ") x) xs -> read_synonyms (written_synonyms xs) = xs.
Proof. intros xs H1 H2. unfold read_synonyms, written_synonyms. now apply split_of_join. Qed.
Print Assumptions C77_synonyms_partial.
Theorem C77_synonyms_refuted :
  forall x, occurs (lit "; ") x -> read_synonyms (written_synonyms [x]) <> [x].
Proof.
  intros x (a & b & ->). unfold read_synonyms, written_synonyms. cbn [join]. intros H.
  assert (L : forall s acc, occurs (lit "; ") s -> 1 < length (split_aux (lit "; ") 0 acc s)).
  { clear. induction s as [|c s IH]; intros acc (u & v & E).
    - destruct u; discriminate.
    - cbn [split_aux]. destruct (prefixb (lit "; ") (c :: s)) eqn:P.
      + cbn [length]. pose proof (split_aux_nonnil (lit "; ") (length (lit "; ") - 1) [] s). destruct (split_aux _ _ _ _); [contradiction|cbn; lia].
      + destruct u as [|d u].
        * cbn [app] in E. rewrite E in P. rewrite prefixb_app in P. discriminate.
        * injection E as _ E. apply IH. now exists u, v. }
  specialize (L (a ++ lit "; " ++ b) [] (ex_intro _ a (ex_intro _ b eq_refl))).
  unfold split in H. rewrite H in L. cbn in L. lia.
Qed.
Print Assumptions C77_synonyms_refuted.
Example C77_nonvacuous : read_synonyms (written_synonyms [lit "steel"; lit "iron;"; []]) = [lit "steel"; lit "iron;"; []].
Proof. vm_compute. reflexivity. Qed.

(** ** C78: the system model *)
Theorem C78_model_vote_partial :
  forall a approaches, exists l1 l2,
    let cands := map approach (a :: approaches) in
    let m := system_model_of None (a :: approaches) in
    cands = l1 ++ m :: l2 /\
    (forall d, In d l1 -> count_occ model_eq_dec cands d < count_occ model_eq_dec cands m) /\
    (forall d, In d l2 -> count_occ model_eq_dec cands d <= count_occ model_eq_dec cands m).
Proof.
  intros a approaches. cbv zeta. unfold system_model_of. cbn [map].
  destruct (most_common_first (approach a :: map approach approaches) (map approach approaches) (approach a)) as (l1 & l2 & E & H1 & H2).
  exists l1, l2. split; [exact E|]. split; intros d Hd; rewrite <- !count_pair_occ; auto.
Qed.
Print Assumptions C78_model_vote_partial.
Theorem C78_original_model_partial :
  (forall m, In m (map fst system_model) -> exists i, getf m system_model_1_ = Some i /\
     fst (deviation_comment (line_model m)) = Some m /\
     forall approaches, system_model_of (Some m) approaches = (Some m, Some i)) /\
  system_model_of None [] = (Some (lit "Undefined"), Some (lit "8b738ea0-f89e-4627-8679-433616064e82")).
Proof.
  split; [|reflexivity]. intros m Hm.
  assert (H : forallb (fun k => match getf k system_model_1_ with Some _ => negb (existsb (N.eqb 10) k) | None => false end) (map fst system_model) = true) by (vm_compute; reflexivity).
  rewrite forallb_forall in H. specialize (H m Hm). destruct (getf m system_model_1_) as [i|] eqn:E; [|discriminate].
  exists i. split; [reflexivity|]. split.
  - unfold line_model. change (mark_model ++ m) with ([] ++ mark_model ++ m). rewrite model_at; [reflexivity| |].
    + rewrite app_nil_r. apply quiet_b_ok. vm_compute. reflexivity.
    + apply notin_b. now apply negb_true_iff.
  - intros approaches. unfold system_model_of. now rewrite E.
Qed.
Print Assumptions C78_original_model_partial.
(** A system model of another name has no identifier, and the field refuses None; a model name in the last line of the
    comment on deviations is believed whoever wrote it. *)
Theorem C78_unknown_model_refuted :
  forall E m approaches, ~ In m (map fst system_model_1_) ->
    system_model_of (Some m) approaches = (Some m, None) /\
    refuses E ECS2_Representativeness_VALID (lit "systemModelId") VNone.
Proof.
  intros E m approaches Hm. unfold system_model_of. rewrite (proj2 (getf_None m system_model_1_) Hm). split; [reflexivity|].
  unfold refuses. eexists _, _, _. split; [vm_compute; reflexivity|]. split; [vm_compute; reflexivity|]. vm_compute. reflexivity.
Qed.
Print Assumptions C78_unknown_model_refuted.
Example C78_nonvacuous :
  system_model_of None [lit "Allocation - mass"; lit "Allocation - volume"; lit "Other"] = (Some (lit "Undefined"), Some (lit "8b738ea0-f89e-4627-8679-433616064e82")) /\
  fst (deviation_comment (lit "none" ++ newline ++ line_model (lit "Allocation by revenue"))) = Some (lit "Allocation by revenue").
Proof. split; vm_compute; reflexivity. Qed.

(** ** C79: running text indexes *)
Theorem C79_indexes_increase_partial :
  forall cs n, ~ In Add cs -> indexes cs n = map (fun k => (n + Z.of_nat k)%Z) (seq 0 (length cs)).
Proof.
  assert (H : forall cs n k, ~ In Add cs -> indexes cs (n + Z.of_nat k) = map (fun k => (n + Z.of_nat k)%Z) (seq k (length cs))).
  { induction cs as [|c cs IH]; intros n k Hc; [reflexivity|].
    destruct c; [exfalso; apply Hc; now left|]. cbn [indexes next_index fst snd length seq map]. f_equal.
    rewrite <- IH by (intros Hin; apply Hc; now right). f_equal. lia. }
  intros cs n Hc. rewrite <- H by exact Hc. f_equal. lia.
Qed.
Print Assumptions C79_indexes_increase_partial.
Theorem C79_indexes_never_decrease :
  forall cs n, StronglySorted Z.le (indexes cs n) /\ (forall i, In i (indexes cs n) -> (n <= i)%Z).
Proof.
  induction cs as [|c cs IH]; intros n; [split; [constructor|intros i []]|].
  cbn [indexes]. destruct (IH (snd (next_index c n))) as [H1 H2]. split.
  - constructor; [exact H1|]. apply Forall_forall. intros i Hi. apply H2 in Hi. destruct c; cbn in *; lia.
  - intros i [<-|Hi]; [destruct c; cbn; lia|]. apply H2 in Hi. destruct c; cbn in *; lia.
Qed.
Print Assumptions C79_indexes_never_decrease.
(** The two counters step on each other: a plain index followed by a text index repeats it. *)
Theorem C79_indexes_distinct_refuted : forall n, ~ NoDup (indexes [Add; TextAdd] n).
Proof. intros n H. cbn in H. inversion H as [|? ? Hn _]. apply Hn. now left. Qed.
Print Assumptions C79_indexes_distinct_refuted.
Example C79_nonvacuous : indexes [TextAdd; TextAdd; Add] 1000 = [1000; 1001; 1003]%Z /\ ~ In Add [TextAdd; TextAdd].
Proof. split; [reflexivity|]. intros [H|[H|[]]]; discriminate. Qed.

(** ** C80: included activities *)
Theorem C80_included_activities_partial :
  forall x A a b B rest,
    In x (map fst tech) -> one_line a -> one_line b ->
    plain [lit "Activity End: "; lit "Technology Level: "] a -> plain [lit "Activity Start: "; lit "Technology Level: "] b ->
    Forall (plain [lit "Activity Start: "; lit "Activity End: "; lit "Technology Level: "]) (A ++ B ++ [rest]) ->
    tech_comment (closed_lines (line_level x :: A ++ line_start a :: line_end b :: B) ++ rest) =
      ([(IncludedStart, Some a); (IncludedEnd, Some b); (TechLevel, Some x)], closed_lines (A ++ B) ++ rest).
Proof.
  intros x A a b B rest Hx Ha Hb Pa Pb HF.
  apply Forall_app in HF as [FA HF]. apply Forall_app in HF as [FB FR]. inversion FR as [|? ? HR _]; subst. clear FR.
  destruct (table_value _ _ Hx) as (v & E & Hin).
  assert (G : good_mark mark_level) by (split; [apply notin_b; vm_compute; reflexivity|discriminate]).
  pose proof (proj1 (proj2 (proj2 (proj2 C33_tables_round_trip))) x v E) as Hr.
  assert (Hc : (negb (existsb (N.eqb 10) v) && negb (infixb mark_start (mark_level ++ v)) && negb (infixb mark_end (mark_level ++ v)))%bool = true).
  { assert (Hall : forallb (fun kv => (negb (existsb (N.eqb 10) (snd kv)) && negb (infixb mark_start (mark_level ++ snd kv)) &&
                     negb (infixb mark_end (mark_level ++ snd kv)))%bool) tech = true) by (vm_compute; reflexivity).
    rewrite forallb_forall in Hall. exact (Hall _ Hin). }
  apply andb_true_iff in Hc as [Hc N2]. apply andb_true_iff in Hc as [Hv N1].
  apply negb_true_iff in Hv, N1, N2. apply notin_b in Hv. apply not_infixb in N1, N2.
  unfold line_level, line_start, line_end, shown. rewrite E.
  change (Forall (plain [mark_start; mark_end; mark_level]) A) in FA. change (Forall (plain [mark_start; mark_end; mark_level]) B) in FB.
  assert (P2 : forall C, Forall (plain [mark_start; mark_end; mark_level]) C ->
     Forall (fun l => ~ occurs mark_start l /\ ~ occurs mark_end l) C /\ Forall (fun l => ~ occurs mark_level l) C).
  { intros C HC. split; (eapply Forall_impl; [|exact HC]); intros l Hl; [split|]; apply Hl; cbn; auto. }
  destruct (P2 A FA) as [A1 A2]. destruct (P2 B FB) as [B1 B2].
  assert (AL : Forall (fun l => ~ occurs mark_start l /\ ~ occurs mark_end l) ((mark_level ++ v) :: A)) by (constructor; auto).
  destruct (included_step ((mark_level ++ v) :: A) a b B rest AL B1) as (S1 & S2 & S3 & S4);
    [apply HR; cbn; auto|apply HR; cbn; auto|exact Ha|exact Hb|apply Pa; cbn; auto|apply Pb; cbn; auto|].
  assert (HL : ~ occurs mark_level rest) by (apply HR; cbn; auto).
  assert (HB : Forall (fun l => ~ occurs mark_level l) (A ++ B)) by (apply Forall_app; auto).
  pose proof (str_step mark_level G [] (A ++ B) rest (Forall_nil _) HB HL tech_ v Hv) as Hs.
  rewrite Hr in Hs.
  assert (Gen : forall t t1 t2 t3, search_with match_start t = Some a -> remove_all (match_line true mark_start) t = t1 ->
            search_with (match_line false mark_end) t1 = Some b -> remove_all (match_line false mark_end) t1 = t2 ->
            get_str tech_ mark_level t2 = (Some (Some x), t3) ->
            tech_comment t = ([(IncludedStart, Some a); (IncludedEnd, Some b); (TechLevel, Some x)], t3)).
  { intros t t1 t2 t3 E1 E2 E3 E4 E5. unfold tech_comment. now rewrite E1, E2, E3, E4, E5. }
  exact (Gen _ _ _ _ S1 S2 S3 S4 Hs).
Qed.
Print Assumptions C80_included_activities_partial.
(** Without a text on the end, the text on the start stays in the comment. *)
Theorem C80_start_alone_refuted :
  forall a, one_line a -> ~ occurs (lit "Activity End: ") a -> ~ occurs (lit "Technology Level: ") a ->
    tech_comment (line_start a) = ([], line_start a).
Proof.
  intros a H1 H2 H3. unfold tech_comment, line_start.
  assert (S : search_with match_start (mark_start ++ a) = None).
  { assert (Hgen : forall s, one_line s -> search_with match_start s = None).
    { induction s as [|c s IH]; intros Hs; [vm_compute; reflexivity|]. cbn [search_with].
      replace (match_start (c :: s)) with (@None (pystr * pystr)).
      - apply IH. intros Hin. apply Hs. now right.
      - symmetry. unfold match_start, match_line. destruct (prefixb mark_start (c :: s)); [|reflexivity].
        assert (Ho : one_line (skipn (length mark_start) (c :: s))).
        { intros Hin. apply Hs. rewrite <- (firstn_skipn (length mark_start) (c :: s)). apply in_or_app. now right. }
        rewrite (cut_line_end _ Ho). reflexivity. }
    apply Hgen. intros Hin. apply in_app_or in Hin as [Hin|Hin]; [|now apply H1].
    revert Hin. apply notin_b. vm_compute. reflexivity. }
  rewrite S. clear S.
  rewrite (search_none mark_end).
  - rewrite str_absent; [reflexivity| |].
    + split; [apply notin_b; vm_compute; reflexivity|discriminate].
    + apply quiet_not_occurs; [discriminate|apply quiet_b_ok; vm_compute; reflexivity|exact H3].
  - intros s u w H. apply match_line_mark in H; [exact H|discriminate].
  - apply quiet_not_occurs; [discriminate|apply quiet_b_ok; vm_compute; reflexivity|exact H2].
Qed.
Print Assumptions C80_start_alone_refuted.
Example C80_nonvacuous :
  tech_comment (closed_lines [lit "Technology Level: Modern"; lit "Activity Start: from gate"; lit "Activity End: to gate"] ++ lit "comment") =
  ([(IncludedStart, Some (lit "from gate")); (IncludedEnd, Some (lit "to gate")); (TechLevel, Some (lit "2"))], lit "comment").
Proof. vm_compute. reflexivity. Qed.
