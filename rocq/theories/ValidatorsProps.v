(** Properties C03-C09, C53-C56: scalar field validators. *)
From Coq Require Import Ascii String List Bool Arith NArith ZArith QArith Lia.
From Verif Require Import PyBase PyBaseFacts PyValues PyDigits Regex
  ValidatorsModel ValidatorsSpec ValidatorsProofs GisProofs.
Import ListNotations.

(** ** C03 *)
Theorem C03_enum_accepts_exactly_members :
  forall enum st v,
    (snd (add_replace (enum_validate enum) st v) = None <-> exists s, v = VStr s /\ In s enum) /\
    (snd (add_replace (enum_validate enum) st v) <> None ->
       fst (add_replace (enum_validate enum) st v) = st).
Proof.
  intros. unfold add_replace. destruct (enum_validate enum v) as [s|e] eqn:E; cbn; split.
  - apply enum_single_iff in E. split; eauto.
  - now intros [].
  - split; [discriminate|]. intros (s & H). apply enum_single_iff in H. congruence.
  - reflexivity.
Qed.
Print Assumptions C03_enum_accepts_exactly_members.

Theorem C03_list_enum_accepts_exactly_members :
  forall enum st v,
    (snd (add_unique (enum_list_validate enum) st v) = None <->
       exists ss, offers v ss /\ Forall (fun s => In s enum) ss) /\
    (snd (add_unique (enum_list_validate enum) st v) <> None ->
       held (fst (add_unique (enum_list_validate enum) st v)) = held st).
Proof.
  intros. unfold add_unique. destruct (enum_list_validate enum v) as [s|e] eqn:E; cbn; split.
  - apply enum_list_iff in E. split; eauto.
  - now intros [].
  - split; [discriminate|]. intros (s & H). apply enum_list_iff in H. congruence.
  - reflexivity.
Qed.
Print Assumptions C03_list_enum_accepts_exactly_members.

Theorem C03_enum_history_only_members :
  forall enum vs s, history (add_replace (enum_validate enum)) vs = Some s -> In s enum.
Proof. exact replace_history_members. Qed.
Print Assumptions C03_enum_history_only_members.

Theorem C03_list_enum_history_only_members :
  forall enum vs,
    Forall (fun s => In s enum) (held (history (add_unique (enum_list_validate enum)) vs)).
Proof. exact unique_history_members. Qed.
Print Assumptions C03_list_enum_history_only_members.

Definition sample_enum : list pystr := [lit "Input"; lit "Output"; lit "Other"].
Definition sample_history : list pyval :=
  [VStr (lit "Output"); VInt 3; VList [VStr (lit "Output"); VStr (lit "Input")];
   VTuple [VStr (lit "Other"); VStr (lit "wrong")]; VStr (lit "Output")].
Example C03_nonvacuous :
  history (add_replace (enum_validate sample_enum)) sample_history = Some (lit "Output") /\
  held (history (add_unique (enum_list_validate sample_enum)) sample_history)
    = [lit "Output"; lit "Input"].
Proof. split; vm_compute; reflexivity. Qed.

(** ** C04 *)
Theorem C04_list_enum_first_occurrences :
  forall enum vs acc,
    accepted enum vs acc ->
    FirstOcc acc (held (history (add_unique (enum_list_validate enum)) vs)).
Proof. exact unique_history. Qed.
Print Assumptions C04_list_enum_first_occurrences.

(** The accepted values are determined by the history, and [FirstOcc] means what it says. *)
Theorem C04_accepted_total :
  forall enum vs, exists acc, accepted enum vs acc /\ forall acc', accepted enum vs acc' -> acc' = acc.
Proof.
  intros enum vs. destruct (accepted_total enum vs) as [acc H]. exists acc. split; auto.
  intros acc' H'. eapply accepted_fun; eauto.
Qed.
Print Assumptions C04_accepted_total.
Theorem C04_first_occurrences_meaning :
  forall (l r : list pystr), FirstOcc l r -> NoDup r /\ forall x, In x r <-> In x l.
Proof. intros l r H. split; [eapply firstocc_nodup; eauto | eapply firstocc_in; eauto]. Qed.
Print Assumptions C04_first_occurrences_meaning.
Example C04_nonvacuous :
  exists acc, accepted sample_enum sample_history acc /\ length acc = 4%nat.
Proof.
  pose proof (proj1 (enum_list_iff sample_enum (VStr (lit "Output")) [lit "Output"]) eq_refl) as [A1 A2].
  pose proof (proj1 (enum_list_iff sample_enum (VList [VStr (lit "Output"); VStr (lit "Input")])
                       [lit "Output"; lit "Input"]) eq_refl) as [B1 B2].
  assert (Hno : forall v e, enum_list_validate sample_enum v = Err e ->
            forall ss, offers v ss -> ~ Forall (fun s => In s sample_enum) ss).
  { intros v e He ss Ho Hf. rewrite (proj2 (enum_list_iff sample_enum v ss) (conj Ho Hf)) in He. discriminate. }
  eexists. split.
  - eapply acc_yes; [exact A1 | exact A2 |].
    eapply acc_no; [eapply Hno; reflexivity|].
    eapply acc_yes; [exact B1 | exact B2 |].
    eapply acc_no; [eapply Hno; reflexivity|].
    eapply acc_yes; [exact A1 | exact A2 | apply acc_nil].
  - reflexivity.
Qed.

(** ** C05 : [py_int v = Some z] is Python's [int(v) == z]. *)
Theorem C05_coded_integers :
  forall v z,
    (InheritanceDepthINT v = Ok z <-> py_int v = Some z /\ (-1 <= z <= 3)%Z) /\
    (SourceTypeINT v = Ok z <-> py_int v = Some z /\ (0 <= z <= 7)%Z) /\
    (TypeINT v = Ok z <-> py_int v = Some z /\ (1 <= z <= 3)%Z) /\
    (SpecialActivityTypeINT v = Ok z <-> py_int v = Some z /\ (0 <= z <= 10)%Z) /\
    (EnergyValuesINT v = Ok z <-> py_int v = Some z /\ (0 <= z <= 2)%Z) /\
    (TechnologyLevelINT v = Ok z <-> py_int v = Some z /\ (0 <= z <= 5)%Z) /\
    (DataPublishedInINT v = Ok z <-> py_int v = Some z /\ (0 <= z <= 1)%Z) /\
    (AccessRestrictedToINT v = Ok z <-> py_int v = Some z /\ (0 <= z <= 2)%Z) /\
    (PedigreeINT v = Ok z <-> py_int v = Some z /\ (1 <= z <= 5)%Z) /\
    (InputGroupIntermediateINT v = Ok z <-> py_int v = Some z /\ In z [1; 2; 3; 5]%Z) /\
    (OutputGroupIntermediateINT v = Ok z <-> py_int v = Some z /\ In z [0; 2; 3; 5]%Z) /\
    (InputGroupElementaryINT v = Ok z <-> py_int v = Some z /\ z = 4%Z) /\
    (OutputGroupElementaryINT v = Ok z <-> py_int v = Some z /\ z = 4%Z).
Proof.
  intros v z.
  assert (L : forall l, forallb (fun x => (0 <=? x)%Z) l = true -> Forall (fun x => 0 <= x)%Z l).
  { intros l. rewrite forallb_forall, Forall_forall. intros H x Hx. now apply Z.leb_le, H. }
  assert (R : forall a b, (0 <= a)%Z ->
            (collection (zrange a b) false v = Ok z <-> py_int v = Some z /\ (a <= z <= b - 1)%Z)).
  { intros a b Ha. rewrite collection_range by assumption. intuition lia. }
  assert (Rn : forall a b,
            (collection (zrange a b) true v = Ok z <-> py_int v = Some z /\ (a <= z <= b - 1)%Z)).
  { intros a b. rewrite collection_range_neg. intuition lia. }
  assert (S4 : collection [4]%Z false v = Ok z <-> py_int v = Some z /\ z = 4%Z).
  { rewrite collection_list by (apply L; reflexivity). cbn [In]. intuition. }
  split; [apply (Rn (-1)%Z 4%Z)|]. split; [apply (R 0%Z 8%Z); lia|]. split; [apply (R 1%Z 4%Z); lia|].
  split; [apply (R 0%Z 11%Z); lia|]. split; [apply (R 0%Z 3%Z); lia|]. split; [apply (R 0%Z 6%Z); lia|].
  split; [apply (R 0%Z 2%Z); lia|]. split; [apply (R 0%Z 3%Z); lia|]. split; [apply (R 1%Z 6%Z); lia|].
  split; [apply collection_list; apply L; reflexivity|].
  split; [apply collection_list; apply L; reflexivity|].
  split; exact S4.
Qed.
Print Assumptions C05_coded_integers.

Theorem C05_digit_integers :
  forall v z,
    (Int1 v = Ok z <-> py_int v = Some z /\ (0 <= z <= 9)%Z) /\
    (Int6 v = Ok z <-> py_int v = Some z /\ (0 <= z <= 999999)%Z) /\
    (Year v = Ok z <-> py_int v = Some z /\ (1000 <= z <= 9999)%Z).
Proof. intros. split; [apply int1_iff|]. split; [apply int6_iff | apply year_iff]. Qed.
Print Assumptions C05_digit_integers.

(** An integer and its decimal text denote the same number. *)
Theorem C05_integer_inputs :
  forall z, py_int (VInt z) = Some z /\ py_int (VStr (str_of_Z z)) = Some z.
Proof. intros z. split; [reflexivity | exact (int_of_str_of_Z z)]. Qed.
Print Assumptions C05_integer_inputs.
Example C05_nonvacuous :
  Year (VStr (lit " 2023 ")) = Ok 2023%Z /\ Int6 (VInt 0) = Ok 0%Z /\ InheritanceDepthINT (VStr (lit "-1")) = Ok (-1)%Z
  /\ Year (VInt 999) = Err ValueError /\ InputGroupIntermediateINT (VStr (lit "4")) = Err ValueError.
Proof. vm_compute. repeat split. Qed.

(** ** C06. Full claim: accepted iff a number between 0 and 100. NaN is also accepted. *)
Theorem C06_percent_range_partial :
  forall v f, f <> NaN ->
    (percent_validate v = Ok f <-> py_float v = Some f /\ exists q, f = Fin q /\ (0 <= q <= 100)%Q).
Proof.
  intros v f Hf. rewrite percent_iff. split; intros (H & H2); split; auto. destruct H2; [contradiction | auto].
Qed.
Print Assumptions C06_percent_range_partial.
Theorem C06_percent_range_refuted :
  exists v f, percent_validate v = Ok f /\ forall q, f <> Fin q.
Proof. exists (VStr (lit "nan")), NaN. split; [vm_compute; reflexivity | discriminate]. Qed.
Print Assumptions C06_percent_range_refuted.
Example C06_nonvacuous :
  exists q, percent_validate (VStr (lit " 1.0e2 ")) = Ok (Fin q) /\ (q == 100)%Q.
Proof. eexists. split; vm_compute; reflexivity. Qed.

(** ** C07 *)
Theorem C07_uuid_field_exact :
  forall v s, UUID v = Ok s <-> v = VStr s /\ is_uuid (firstn 36 s).
Proof. exact uuid_field_iff. Qed.
Print Assumptions C07_uuid_field_exact.
Definition sample_uuid : pystr := lit "0123abcd-89ab-4cde-8f01-23456789abcd".
(** The title's stronger reading (the whole field is a UUID) fails: anything may follow. *)
Theorem C07_whole_field_refuted :
  exists s, UUID (VStr s) = Ok s /\ ~ is_uuid s.
Proof.
  exists (sample_uuid ++ lit " and more"). split; [vm_compute; reflexivity|].
  intros H. apply is_uuid_len in H. vm_compute in H. discriminate.
Qed.
Print Assumptions C07_whole_field_refuted.
Example C07_nonvacuous : UUID (VStr sample_uuid) = Ok sample_uuid /\ UUID (VStr (lit "0123ABCD-89ab-4cde-8f01-23456789abcd")) = Err ValueError.
Proof. split; vm_compute; reflexivity. Qed.

(** ** C08 *)
Theorem C08_bounded_text_never_truncated :
  forall sep l ignore vs t,
    texts vs <> [] ->
    (limited_end ignore l (history (add_separator sep str_validate) vs) = Ok t <->
       t = join sep (texts vs) /\
       (ignore = true \/
        match l with
        | LMax m => m = 0%nat \/ (length t <= m)%nat
        | LRange lo hi => (lo <= length t <= hi)%nat
        | LBig m => (N.of_nat (length t) <= m)%N
        end)).
Proof.
  intros sep l ign vs t Ht. rewrite separator_history.
  destruct (texts vs) as [|a r]; [now destruct Ht|].
  rewrite limited_end_iff.
  assert (E : forall n, within l n = true <-> match l with LMax m => m = 0%nat \/ (n <= m)%nat
                                       | LRange lo hi => (lo <= n <= hi)%nat | LBig m => (N.of_nat n <= m)%N end).
  { intros n. destruct l as [m|lo hi|m]; cbn [within].
    - rewrite orb_true_iff, Nat.eqb_eq, Nat.leb_le. reflexivity.
    - rewrite andb_true_iff, !Nat.leb_le. reflexivity.
    - apply N.leb_le. }
  split; intros [-> H]; split; auto; (destruct H as [H|H]; [now left | right; now apply E]).
Qed.
Print Assumptions C08_bounded_text_never_truncated.
Theorem C08_single_value_text_keeps_last :
  forall l ignore vs t,
    texts vs <> [] ->
    (limited_end ignore l (history (add_replace str_validate) vs) = Ok t <->
       t = last (texts vs) [] /\
       (ignore = true \/
        match l with
        | LMax m => m = 0%nat \/ (length t <= m)%nat
        | LRange lo hi => (lo <= length t <= hi)%nat
        | LBig m => (N.of_nat (length t) <= m)%N
        end)).
Proof.
  intros l ign vs t Ht. rewrite replace_history.
  destruct (texts vs) as [|a r]; [now destruct Ht|].
  rewrite limited_end_iff.
  assert (E : forall n, within l n = true <-> match l with LMax m => m = 0%nat \/ (n <= m)%nat
                                       | LRange lo hi => (lo <= n <= hi)%nat | LBig m => (N.of_nat n <= m)%N end).
  { intros n. destruct l as [m|lo hi|m]; cbn [within].
    - rewrite orb_true_iff, Nat.eqb_eq, Nat.leb_le. reflexivity.
    - rewrite andb_true_iff, !Nat.leb_le. reflexivity.
    - apply N.leb_le. }
  split; intros [-> H]; split; auto; (destruct H as [H|H]; [now left | right; now apply E]).
Qed.
Print Assumptions C08_single_value_text_keeps_last.
Example C08_nonvacuous :
  let vs := [VStr (lit "one"); VNone; VStr (lit "two")] in
  texts vs <> [] /\
  limited_end false (LMax 8) (history (add_separator sep_default str_validate) vs) = Ok (lit "one; two") /\
  limited_end false (LMax 7) (history (add_separator sep_default str_validate) vs) = Err ValueError /\
  limited_end true (LMax 7) (history (add_separator sep_default str_validate) vs) = Ok (lit "one; two") /\
  limited_end false (LRange 2 5) (history (add_replace str_validate) vs) = Ok (lit "two").
Proof. split; [discriminate|]. vm_compute. repeat split. Qed.

(** ** C09 *)
Theorem C09_review_date_is_latest :
  forall fromiso vs,
    match history (review_add fromiso) vs with
    | None => forall v d, In v vs -> ~ gives_date fromiso v d
    | Some d => (exists v, In v vs /\ gives_date fromiso v d) /\
                (forall v d', In v vs -> gives_date fromiso v d' -> (wall d' <= wall d)%Z)
    end.
Proof. exact review_history. Qed.
Print Assumptions C09_review_date_is_latest.
Definition sample_iso (s : pystr) : option datetime :=
  option_map (fun z => {| wall := z; tzinfo := None |}) (int_of_str s).
Example C09_nonvacuous :
  history (review_add sample_iso) [VStr (lit "5"); VStr (lit "12"); VNone; VStr (lit "7"); VStr (lit "bad")]
  = Some {| wall := 12; tzinfo := None |}.
Proof. vm_compute. reflexivity. Qed.

(** ** C53 *)
Theorem C53_version_field_exact :
  forall v s, Version v = Ok s <->
    v = VStr s /\ starts_with (fun p => exists a b, p = a ++ lit "." ++ b /\ digits 2 a /\ digits 2 b) s.
Proof. exact version_iff. Qed.
Print Assumptions C53_version_field_exact.
Theorem C53_cas_field_exact :
  forall v s, CASNumber v = Ok s <->
    v = VStr s /\ starts_with (fun p => exists n a b c, p = a ++ lit "-" ++ b ++ lit "-" ++ c /\
        (1 <= n <= 6)%nat /\ digits n a /\ digits 2 b /\ digits 1 c) s.
Proof. exact cas_iff. Qed.
Print Assumptions C53_cas_field_exact.
Theorem C53_variable_name_exact :
  forall is_word v s, VariableName is_word v = Ok s <->
    v = VStr s /\ exists c t, s = c :: t /\ is_word c = true.
Proof. exact varname_iff. Qed.
Print Assumptions C53_variable_name_exact.
(** "The whole value has the documented shape" fails: only a prefix is checked. *)
Theorem C53_whole_value_refuted :
  exists s, Version (VStr s) = Ok s /\ s = lit "01.00.1 draft".
Proof. eexists. split; [|reflexivity]. vm_compute. reflexivity. Qed.
Print Assumptions C53_whole_value_refuted.
Example C53_nonvacuous :
  Version (VStr (lit "03.00.004")) = Ok (lit "03.00.004") /\ Version (VStr (lit "3.0")) = Err ValueError /\
  CASNumber (VStr (lit "007732-18-5")) = Ok (lit "007732-18-5") /\ CASNumber (VStr (lit "1234567-18-5")) = Err ValueError.
Proof. vm_compute. repeat split. Qed.

(** ** C54 *)
Theorem C54_latitude_in_range_partial :
  forall v s, GIS v = Ok s ->
  exists a lat b rest q, s = a ++ lat ++ b ++ lit ";" ++ rest /\ all_space a /\ all_space b /\
    float_of_str lat = Some (Fin q) /\ (-90 <= q <= 90)%Q.
Proof. exact gis_latitude. Qed.
Print Assumptions C54_latitude_in_range_partial.
(** The full claim also wants the longitude in [-180, 180] and every legal pair accepted; both fail. *)
Theorem C54_longitude_refuted : exists s, s = lit "10;999" /\ GIS (VStr s) = Ok s.
Proof. eexists; split; [reflexivity | vm_compute; reflexivity]. Qed.
Print Assumptions C54_longitude_refuted.
Theorem C54_south_pole_refuted : GIS (VStr (lit "-90;0")) = Err ValueError /\ GIS (VStr (lit "90;0")) = Ok (lit "90;0").
Proof. split; vm_compute; reflexivity. Qed.
Print Assumptions C54_south_pole_refuted.
Example C54_nonvacuous : GIS (VStr (lit " -46.52 ;+6.63 ")) = Ok (lit " -46.52 ;+6.63 ").
Proof. vm_compute. reflexivity. Qed.

(** ** C55 *)
Theorem C55_integer_list_keeps_all :
  forall vs, list_held (history (add_list Int6) vs) =
             flat_map (fun v => match py_int v with
                                | Some z => if ((0 <=? z) && (z <=? 999999))%Z then [z] else []
                                | None => [] end) vs.
Proof.
  intros vs. rewrite list_history. apply flat_map_ext. intros v.
  destruct (Int6 v) as [z|e] eqn:E.
  - apply int6_iff in E as [-> [H1 H2]]. apply Z.leb_le in H1, H2. now rewrite H1, H2.
  - destruct (py_int v) as [z|] eqn:E2; [|reflexivity].
    destruct ((0 <=? z) && (z <=? 999999))%Z eqn:E3; [|reflexivity].
    apply andb_true_iff in E3 as [H1 H2]. apply Z.leb_le in H1, H2.
    assert (Int6 v = Ok z) by (apply int6_iff; auto). congruence.
Qed.
Print Assumptions C55_integer_list_keeps_all.
Example C55_nonvacuous :
  list_held (history (add_list Int6) [VInt 7; VStr (lit "3"); VInt (-1); VInt 7]) = [7; 3; 7]%Z.
Proof. vm_compute. reflexivity. Qed.

(** ** C56 : what a boolean field accepts, and the truth value it keeps. *)
Theorem C56_boolean_field :
  forall v b,
    bool_validate v = Ok b <->
    match v with
    | VStr s => (b = true /\ In s [lit "1"; lit "true"; lit "True"]) \/
                (b = false /\ In s [lit "0"; lit "false"; lit "False"])
    | VBool c => b = c
    | VInt z => (b = true /\ z = 1%Z) \/ (b = false /\ z = 0%Z)
    | VFloat (Fin q) => (b = true /\ (q == 1)%Q) \/ (b = false /\ (q == 0)%Q)
    | _ => False
    end.
Proof.
  intros v b. unfold bool_validate. destruct v as [|c|z|[q| | |]|s|l|l|d|].
  all: try (cbn; split; [discriminate | tauto]).
  - destruct c; cbn; split; [intros [= <-] | intros -> | intros [= <-] | intros ->]; reflexivity.
  - replace (existsb (eq_str (VInt z)) bool_strings) with false by reflexivity. cbn [orb eq_int].
    destruct (Z.eqb_spec z 1) as [->|H1]; cbn [orb].
    { cbn. split; [intros [= <-]; auto | intros [[-> _]|[_ H]]; [reflexivity | discriminate]]. }
    destruct (Z.eqb_spec z 0) as [->|H0]; cbn [negb].
    { split; [intros [= <-]; auto | intros [[_ H]|[-> _]]; [discriminate | reflexivity]]. }
    split; [discriminate | intros [[_ H]|[_ H]]; contradiction].
  - replace (existsb (eq_str (VFloat (Fin q))) bool_strings) with false by reflexivity. cbn [orb eq_int].
    change (inject_Z 1) with 1%Q. change (inject_Z 0) with 0%Q.
    destruct (Qeq_bool q 1) eqn:E1; cbn [orb].
    { apply Qeq_bool_iff in E1.
      assert (E0 : Qeq_bool q 0 = false).
      { destruct (Qeq_bool q 0) eqn:E0; [|reflexivity]. apply Qeq_bool_iff in E0. rewrite E0 in E1. discriminate E1. }
      rewrite E0. cbn. split; [intros [= <-]; auto|].
      intros [[-> _]|[_ H]]; [reflexivity|]. rewrite H in E1. discriminate E1. }
    destruct (Qeq_bool q 0) eqn:E0; cbn [negb].
    { apply Qeq_bool_iff in E0. split; [intros [= <-]; auto|].
      intros [[_ H]|[-> _]]; [|reflexivity]. rewrite E0 in H. discriminate H. }
    split; [discriminate|]. intros [[_ H]|[_ H]]; apply Qeq_bool_iff in H; congruence.
  - cbn [eq_int]. rewrite !orb_false_r.
    assert (E : existsb (eq_str (VStr s)) bool_strings = str_in s bool_strings) by reflexivity.
    rewrite E. clear E.
    destruct (str_in s bool_strings) eqn:E.
    + apply str_in_In in E. destruct (str_in s [lit "1"; lit "true"; lit "True"]) eqn:E2.
      * split; [intros [= <-]; left; split; auto; now apply str_in_In|].
        intros [[-> _]|[_ H]]; [reflexivity|]. apply str_in_In in E2. cbn [In] in H, E2.
        repeat destruct H as [<-|H]; try contradiction;
          repeat destruct E2 as [E2|E2]; try contradiction; discriminate E2.
      * split; [intros [= <-]|].
        -- right. split; auto.
           assert (N2 : ~ In s [lit "1"; lit "true"; lit "True"]) by (intros F; apply str_in_In in F; congruence).
           cbn [In] in N2. unfold bool_strings in E. cbn [In] in *. tauto.
        -- intros [[-> H]|[-> _]]; [|reflexivity]. apply str_in_In in H. congruence.
    + split; [discriminate|].
      assert (N2 : ~ In s bool_strings) by (intros F; apply str_in_In in F; congruence).
      unfold bool_strings in N2. cbn [In] in *. tauto.
Qed.
Print Assumptions C56_boolean_field.
Example C56_nonvacuous : bool_validate (VStr (lit "True")) = Ok true /\ bool_validate (VStr (lit "yes")) = Err ValueError.
Proof. split; vm_compute; reflexivity. Qed.
