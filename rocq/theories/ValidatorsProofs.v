From Coq Require Import Ascii String List Bool Arith NArith ZArith QArith Lia.
From Verif Require Import PyBase PyBaseFacts PyValues PyDigits Regex RegexFacts ValidatorsModel ValidatorsSpec.
Import ListNotations.

(** * Histories *)
Lemma history_snoc {A} (add : option A -> pyval -> upd A) vs v :
  history add (vs ++ [v]) = fst (add (history add vs) v).
Proof. unfold history. now rewrite fold_left_app. Qed.

(** * Enumerations *)
Lemma as_member_ok enum y s : as_enum_member enum y = Ok s <-> y = VStr s /\ In s enum.
Proof.
  unfold as_enum_member. destruct y; try (split; [discriminate | intros [H _]; discriminate]).
  destruct (str_in s0 enum) eqn:E.
  - apply str_in_In in E. split; [intros [= <-]; auto | intros [[= <-] _]; reflexivity].
  - split; [discriminate|]. intros [[= <-] H]. apply str_in_In in H. congruence.
Qed.

Lemma enum_single_iff enum v s : enum_validate enum v = Ok s <-> v = VStr s /\ In s enum.
Proof.
  unfold enum_validate. rewrite <- as_member_ok.
  destruct v; try reflexivity; split; intros H; try discriminate.
Qed.

Lemma mapM_member enum l ss :
  mapM (as_enum_member enum) l = Ok ss <->
  Forall2 (fun v s => v = VStr s) l ss /\ Forall (fun s => In s enum) ss.
Proof.
  revert ss. induction l as [|y l IH]; intros ss; cbn [mapM].
  - split; [intros [= <-]; repeat constructor | intros [H _]; inversion H; reflexivity].
  - split.
    + destruct (as_enum_member enum y) as [s|] eqn:E; cbn [bind]; [|discriminate].
      destruct (mapM (as_enum_member enum) l) as [ys|] eqn:E2; cbn [bind]; [|discriminate].
      intros [= <-]. apply as_member_ok in E as [-> Hin].
      destruct (proj1 (IH ys) eq_refl). split; constructor; auto.
    + intros [H1 H2]. inversion H1 as [|? s ? ss' Hy Hl]; subst. inversion H2; subst.
      rewrite (proj2 (as_member_ok enum (VStr s) s)) by auto. cbn [bind].
      rewrite (proj2 (IH ss')) by auto. reflexivity.
Qed.

Lemma enum_list_iff enum v ss :
  enum_list_validate enum v = Ok ss <-> offers v ss /\ Forall (fun s => In s enum) ss.
Proof.
  destruct v; cbn [enum_list_validate];
    try (split; [discriminate | intros [H _]; inversion H]).
  - rewrite mapM_member. split; intros [H1 H2]; split; auto.
    + inversion H1 as [|? ? ? ? Hy Hl]; subst. inversion Hl; subst. injection Hy as <-. constructor.
    + inversion H1; subst. repeat constructor.
  - rewrite mapM_member. split; intros [H1 H2]; split; auto; [now constructor | now inversion H1].
  - rewrite mapM_member. split; intros [H1 H2]; split; auto; [now constructor | now inversion H1].
Qed.

Definition held (st : option (list pystr)) : list pystr := match st with None => [] | Some l => l end.

Lemma unique_loop_first : forall ns all h, FirstOcc all h ->
  FirstOcc (all ++ ns) (add_unique_loop h ns).
Proof.
  assert (Hin : forall (all h : list pystr), FirstOcc all h -> forall x, In x h <-> In x all).
  { induction 1; intros y.
    - reflexivity.
    - rewrite !in_app_iff, IHFirstOcc. reflexivity.
    - rewrite in_app_iff, IHFirstOcc. cbn. split; auto. intros [?|[->|[]]]; auto. }
  induction ns as [|n ns IH]; intros all h H; cbn [add_unique_loop].
  - now rewrite app_nil_r.
  - replace (all ++ n :: ns) with ((all ++ [n]) ++ ns) by (now rewrite <- app_assoc).
    apply IH. destruct (str_in n h) eqn:E.
    + apply fo_old; auto. apply (Hin _ _ H), str_in_In, E.
    + apply fo_new; auto. intros F. apply (Hin _ _ H), str_in_In in F. congruence.
Qed.

Lemma add_unique_fst enum st v :
  held (fst (add_unique (enum_list_validate enum) st v)) =
  match enum_list_validate enum v with Ok ns => add_unique_loop (held st) ns | Err _ => held st end.
Proof. unfold add_unique. destruct (enum_list_validate enum v); reflexivity. Qed.

Lemma accepted_snoc enum vs acc v :
  accepted enum vs acc ->
  accepted enum (vs ++ [v])
    (match enum_list_validate enum v with Ok ss => acc ++ ss | Err _ => acc end).
Proof.
  induction 1; cbn [app].
  - destruct (enum_list_validate enum v) as [ss|e] eqn:E.
    + apply enum_list_iff in E as [? ?].
      rewrite <- (app_nil_r ss). apply acc_yes; auto. constructor.
    + apply acc_no; [|constructor]. intros ss Ho Hf.
      assert (enum_list_validate enum v = Ok ss) by (apply enum_list_iff; auto). congruence.
  - destruct (enum_list_validate enum v) as [s'|e].
    + rewrite <- app_assoc. now apply acc_yes.
    + now apply acc_yes.
  - destruct (enum_list_validate enum v) as [s'|e]; now apply acc_no.
Qed.

Lemma accepted_fun enum vs a b : accepted enum vs a -> accepted enum vs b -> a = b.
Proof.
  intros H. revert b. induction H; intros b Hb; inversion Hb; subst; auto.
  - assert (ss = ss0) as ->.
    { pose proof (proj2 (enum_list_iff enum v ss) (conj H H0)).
      pose proof (proj2 (enum_list_iff enum v ss0) (conj H4 H5)). congruence. }
    f_equal. auto.
  - exfalso. eapply H4; eauto.
  - exfalso. eapply H; eauto.
Qed.

Lemma accepted_total enum vs : exists acc, accepted enum vs acc.
Proof.
  induction vs as [|v vs [acc IH]] using rev_ind; [eexists; constructor|].
  eexists. eapply accepted_snoc; eauto.
Qed.

Lemma unique_history enum vs acc :
  accepted enum vs acc ->
  FirstOcc acc (held (history (add_unique (enum_list_validate enum)) vs)).
Proof.
  revert acc. induction vs as [|v vs IH] using rev_ind; intros acc H.
  - inversion H. constructor.
  - destruct (accepted_total enum vs) as [acc' Ha].
    pose proof (accepted_snoc enum vs acc' v Ha) as Hs.
    rewrite (accepted_fun _ _ _ _ H Hs).
    rewrite history_snoc, add_unique_fst.
    destruct (enum_list_validate enum v) as [ss|e]; [apply unique_loop_first|]; auto.
Qed.

Lemma firstocc_in {A} (l r : list A) : FirstOcc l r -> forall x, In x r <-> In x l.
Proof.
  induction 1; intros y.
  - reflexivity.
  - rewrite !in_app_iff, IHFirstOcc. reflexivity.
  - rewrite in_app_iff, IHFirstOcc. cbn. split; auto. intros [?|[->|[]]]; auto.
Qed.
Lemma firstocc_nodup {A} (l r : list A) : FirstOcc l r -> NoDup r.
Proof.
  induction 1; auto; [constructor|].
  assert (~ In x r) by (rewrite (firstocc_in l r); auto).
  clear - IHFirstOcc H1. induction r as [|a r IH]; cbn; [repeat constructor; auto|].
  inversion IHFirstOcc; subst. constructor.
  - rewrite in_app_iff. intros [?|[<-|[]]]; auto. apply H1. now left.
  - apply IH; auto. intros ?. apply H1. now right.
Qed.

Lemma accepted_members enum vs acc : accepted enum vs acc -> Forall (fun s => In s enum) acc.
Proof. induction 1; auto. apply Forall_app; auto. Qed.

Lemma unique_history_members enum vs :
  Forall (fun s => In s enum) (held (history (add_unique (enum_list_validate enum)) vs)).
Proof.
  destruct (accepted_total enum vs) as [acc Ha].
  apply Forall_forall. intros s Hs.
  apply (firstocc_in _ _ (unique_history _ _ _ Ha)) in Hs.
  revert s Hs. apply Forall_forall, (accepted_members _ _ _ Ha).
Qed.

Lemma replace_history_members enum vs s :
  history (add_replace (enum_validate enum)) vs = Some s -> In s enum.
Proof.
  revert s. induction vs as [|v vs IH] using rev_ind; intros s; [discriminate|].
  rewrite history_snoc. unfold add_replace.
  destruct (enum_validate enum v) as [a|e] eqn:E; cbn [fst]; auto.
  intros [= <-]. now apply enum_single_iff in E.
Qed.

(** * Integers *)
Lemma zrange_in a b z : existsb (Z.eqb z) (zrange a b) = true <-> (a <= z < b)%Z.
Proof.
  rewrite existsb_exists. unfold zrange. split.
  - intros (y & Hy & E). apply Z.eqb_eq in E as <-. apply in_map_iff in Hy as (i & <- & Hi).
    apply in_seq in Hi. lia.
  - intros H. exists z. split; [|apply Z.eqb_refl]. apply in_map_iff.
    exists (Z.to_nat (z - a)). split; [lia|]. apply in_seq. lia.
Qed.

Lemma collection_iff limits neg v z :
  collection limits neg v = Ok z <->
  py_int v = Some z /\ (neg = true \/ (0 <= z)%Z) /\ existsb (Z.eqb z) limits = true.
Proof.
  unfold collection, int_validate. destruct (py_int v) as [x|]; cbn [bind].
  2: split; [discriminate | intros [H _]; discriminate].
  destruct neg; cbn [negb andb].
  - cbn [bind]. destruct (existsb (Z.eqb x) limits) eqn:E; split.
    + intros [= <-]. auto.
    + intros [[= <-] _]. reflexivity.
    + discriminate.
    + intros ([= <-] & _ & H). congruence.
  - destruct (Z.ltb_spec x 0); cbn [bind].
    + split; [discriminate|]. intros ([= <-] & [H1|H1] & _); [discriminate | lia].
    + destruct (existsb (Z.eqb x) limits) eqn:E; split.
      * intros [= <-]. auto.
      * intros [[= <-] _]. reflexivity.
      * discriminate.
      * intros ([= <-] & _ & H1). congruence.
Qed.

Lemma collection_range a b v z : (0 <= a)%Z ->
  collection (zrange a b) false v = Ok z <-> py_int v = Some z /\ (a <= z < b)%Z.
Proof. intros Ha. rewrite collection_iff, zrange_in. intuition lia. Qed.

Lemma collection_range_neg a b v z :
  collection (zrange a b) true v = Ok z <-> py_int v = Some z /\ (a <= z < b)%Z.
Proof. rewrite collection_iff, zrange_in. intuition lia. Qed.

Lemma collection_list l v z : Forall (fun x => 0 <= x)%Z l ->
  collection l false v = Ok z <-> py_int v = Some z /\ In z l.
Proof.
  intros Hl. rewrite collection_iff, existsb_exists. split.
  - intros (? & ? & x & Hx & E). apply Z.eqb_eq in E as <-. auto.
  - intros (? & Hz). repeat split; auto.
    + right. rewrite Forall_forall in Hl. now apply Hl.
    + exists z. split; auto. apply Z.eqb_refl.
Qed.

Lemma str_of_Z_len z k : (0 <= z)%Z ->
  (length (str_of_Z z) <= S k)%nat <-> (z < 10 ^ Z.of_nat (S k))%Z.
Proof.
  intros Hz. replace (str_of_Z z) with (str_of_N (Z.to_N z)) by (destruct z; try reflexivity; lia).
  rewrite str_of_N_len. rewrite <- (Znat.Z2N.id z) at 2 by assumption.
  replace (10 ^ Z.of_nat (S k))%Z with (Z.of_N (10 ^ N.of_nat (S k))).
  - apply N2Z.inj_lt.
  - rewrite N2Z.inj_pow, nat_N_Z. reflexivity.
Qed.

Lemma limited_iff f k v z :
  limited_int f k v = Ok z <-> py_int v = Some z /\ (0 <= z)%Z /\ f (length (str_of_Z z)) k = false.
Proof.
  unfold limited_int, int_validate. destruct (py_int v) as [x|]; cbn [bind].
  2: split; [discriminate | intros [H _]; discriminate].
  cbn [negb andb]. destruct (Z.ltb_spec x 0); cbn [bind].
  - split; [discriminate|]. intros ([= <-] & ? & _). lia.
  - rewrite (proj2 (Z.ltb_ge x 0)) by lia. rewrite orb_false_r.
    destruct (f (length (str_of_Z x)) k) eqn:E; split.
    + discriminate.
    + intros ([= <-] & _ & ?). congruence.
    + intros [= <-]. auto.
    + intros ([= <-] & _). reflexivity.
Qed.

Lemma str_of_Z_pos z : (length (str_of_Z z) <> 0)%nat.
Proof.
  destruct z; cbn [str_of_Z]; try discriminate.
  pose proof (str_of_N_nonnil (Z.to_N (Z.pos p))). destruct (str_of_N _); [contradiction | discriminate].
Qed.

Lemma int1_iff v z : Int1 v = Ok z <-> py_int v = Some z /\ (0 <= z <= 9)%Z.
Proof.
  unfold Int1. rewrite limited_iff. unfold neb.
  split; intros (? & H0 & H); split; auto.
  - apply negb_false_iff, Nat.eqb_eq in H.
    assert (length (str_of_Z z) <= 1)%nat as H2 by lia. apply str_of_Z_len in H2; lia.
  - split; [lia|]. apply negb_false_iff, Nat.eqb_eq.
    assert (length (str_of_Z z) <= 1)%nat as H2 by (apply str_of_Z_len; lia).
    pose proof (str_of_Z_pos z). lia.
Qed.
Lemma int6_iff v z : Int6 v = Ok z <-> py_int v = Some z /\ (0 <= z <= 999999)%Z.
Proof.
  unfold Int6. rewrite limited_iff. unfold gtb.
  split; intros (? & H0 & H); split; auto.
  - apply Nat.ltb_ge in H. apply str_of_Z_len in H; lia.
  - split; [lia|]. apply Nat.ltb_ge. apply str_of_Z_len; lia.
Qed.
Lemma year_iff v z : Year v = Ok z <-> py_int v = Some z /\ (1000 <= z <= 9999)%Z.
Proof.
  unfold Year. rewrite limited_iff. unfold neb.
  split; intros (? & H0 & H); split; auto.
  - apply negb_false_iff, Nat.eqb_eq in H.
    assert (length (str_of_Z z) <= 4)%nat as H2 by lia. apply str_of_Z_len in H2; [|lia].
    assert (~ (length (str_of_Z z) <= 3)%nat) as H3 by lia.
    rewrite str_of_Z_len in H3 by lia.
    change (10 ^ Z.of_nat 4)%Z with 10000%Z in H2. change (10 ^ Z.of_nat 3)%Z with 1000%Z in H3. lia.
  - split; [lia|]. apply negb_false_iff, Nat.eqb_eq.
    assert (length (str_of_Z z) <= 4)%nat as H2
      by (apply str_of_Z_len; [|change (10 ^ Z.of_nat 4)%Z with 10000%Z]; lia).
    assert (~ (length (str_of_Z z) <= 3)%nat) as H3
      by (rewrite str_of_Z_len; [change (10 ^ Z.of_nat 3)%Z with 1000%Z|]; lia).
    lia.
Qed.

(** Lists of 6-digit integers *)
Definition list_held {A} (st : option (listish A)) : list A :=
  match st with None => [] | Some (One a) => [a] | Some (Many l) => l end.
Lemma list_history {A} (val : pyval -> result A) vs :
  list_held (history (add_list val) vs) =
  flat_map (fun v => match val v with Ok a => [a] | Err _ => [] end) vs.
Proof.
  induction vs as [|v vs IH] using rev_ind; [reflexivity|].
  rewrite history_snoc, flat_map_app, <- IH. cbn [flat_map]. unfold add_list.
  destruct (val v); cbn [fst]; [|now rewrite !app_nil_r].
  destruct (history _ vs) as [[b|l]|]; reflexivity.
Qed.

(** * Percent *)
Lemma percent_iff v f :
  percent_validate v = Ok f <->
  py_float v = Some f /\ (f = NaN \/ exists q, f = Fin q /\ (0 <= q <= 100)%Q).
Proof.
  unfold percent_validate, real_validate. destruct (py_float v) as [x|]; cbn [bind].
  2: split; [discriminate | intros [H _]; discriminate].
  destruct x as [q| | |]; cbn [fgt flt].
  - destruct (Qle_bool q 100) eqn:E1; cbn [negb].
    + destruct (Qle_bool 0 q) eqn:E2; cbn [negb]; split.
      * intros [= <-]. split; auto. right. exists q. repeat split; now apply Qle_bool_iff.
      * intros [[= <-] _]. reflexivity.
      * discriminate.
      * intros ([= <-] & [H|(p & [= <-] & H & _)]); [discriminate|].
        apply Qle_bool_iff in H. congruence.
    + split; [discriminate|]. intros ([= <-] & [H|(p & [= <-] & _ & H)]); [discriminate|].
      apply Qle_bool_iff in H. congruence.
  - split; [discriminate|]. intros ([= <-] & [H|(p & H & _)]); discriminate.
  - split; [discriminate|]. intros ([= <-] & [H|(p & H & _)]); discriminate.
  - split; [intros [= <-]; auto | intros [[= <-] _]; reflexivity].
Qed.

(** * Patterns *)
Lemma pattern_iff r v s : no_look r = true ->
  pattern r v = Ok s <-> v = VStr s /\ exists u t g, s = u ++ t /\ M r u [] g.
Proof.
  intros Hr. unfold pattern. destruct v; try (split; [discriminate | intros [H _]; discriminate]).
  destruct (re_matches r s0) eqn:E.
  - apply (re_matches_iff r s0 Hr) in E.
    split; [intros [= <-]; split; auto; firstorder | intros [[= <-] _]; reflexivity].
  - split; [discriminate|]. intros [[= <-] (u & t & g & H1 & H2)].
    assert (re_matches r s0 = true) by (apply re_matches_iff; eauto). congruence.
Qed.

Lemma is_hex_hexchar c : is_hex c = true <-> hexchar c.
Proof.
  unfold is_hex, hexchar, between. rewrite orb_true_iff, !andb_true_iff, !N.leb_le. tauto.
Qed.
Lemma forallb_hex s : forallb is_hex s = true <-> Forall hexchar s.
Proof. rewrite forallb_forall, Forall_forall. split; intros H c Hc; apply is_hex_hexchar, H, Hc. Qed.

Lemma M_hexblock n w g g2 : M (rpow n (RChr is_hex)) w g g2 <-> hexblock n w /\ g2 = g.
Proof. rewrite M_rpow_chr, forallb_hex. unfold hexblock. tauto. Qed.

Lemma M_seq_iff a b w g g2 : M (RSeq a b) w g g2 <->
  exists u v g1, w = u ++ v /\ M a u g g1 /\ M b v g1 g2.
Proof. split; [apply M_seq_inv | intros (u & v & g1 & -> & ? & ?); econstructor; eauto]. Qed.
Lemma M_alt_iff a b w g g2 : M (RAlt a b) w g g2 <-> M a w g g2 \/ M b w g g2.
Proof. split; [apply M_alt_inv | intros [?|?]; [now apply M_altl | now apply M_altr]]. Qed.
Lemma M_chr_iff p w g g2 : M (RChr p) w g g2 <-> exists c, w = [c] /\ p c = true /\ g2 = g.
Proof. split; [apply M_chr_inv | intros (c & -> & ? & ->); now constructor]. Qed.
Lemma M_eps_iff w g g2 : M REps w g g2 <-> w = [] /\ g2 = g.
Proof. split; [apply M_eps_inv | intros [-> ->]; constructor]. Qed.

Lemma M_uuid w g : M uuid_re w [] g -> is_uuid w.
Proof.
  unfold uuid_re. intros H.
  repeat (apply M_seq_inv in H as (? & ? & ? & -> & ?Hb & H);
          apply M_hexblock in Hb as [? ->];
          apply M_seq_inv in H as (? & ? & ? & -> & Hb & H);
          apply M_rlit in Hb as [-> ->]).
  apply M_hexblock in H as [? ->].
  do 5 eexists. split; [reflexivity|]. auto.
Qed.
Lemma uuid_M w : is_uuid w -> M uuid_re w [] [].
Proof.
  intros (a & b & c & d & e & -> & Ha & Hb & Hc & Hd & He). unfold uuid_re.
  econstructor; [apply M_hexblock; split; eauto|].
  econstructor; [apply M_rlit; split; eauto|].
  econstructor; [apply M_hexblock; split; eauto|].
  econstructor; [apply M_rlit; split; eauto|].
  econstructor; [apply M_hexblock; split; eauto|].
  econstructor; [apply M_rlit; split; eauto|].
  econstructor; [apply M_hexblock; split; eauto|].
  econstructor; [apply M_rlit; split; eauto|].
  apply M_hexblock; split; eauto.
Qed.

Lemma is_uuid_len w : is_uuid w -> length w = 36%nat.
Proof.
  intros (a & b & c & d & e & -> & [Ha _] & [Hb _] & [Hc _] & [Hd _] & [He _]).
  rewrite !app_length, Ha, Hb, Hc, Hd, He. reflexivity.
Qed.

Lemma uuid_field_iff v s : UUID v = Ok s <-> v = VStr s /\ is_uuid (firstn 36 s).
Proof.
  unfold UUID. rewrite pattern_iff by reflexivity. split; intros [Hv H]; split; auto.
  - destruct H as (u & t & g & -> & HM). apply M_uuid in HM.
    rewrite <- (is_uuid_len u HM) at 1. rewrite firstn_app, Nat.sub_diag, firstn_all, app_nil_r. assumption.
  - exists (firstn 36 s), (skipn 36 s), []. split; [now rewrite firstn_skipn | now apply uuid_M].
Qed.

Lemma forallb_udigit s : forallb is_udigit s = true <-> Forall (fun c => is_udigit c = true) s.
Proof. rewrite forallb_forall, Forall_forall. reflexivity. Qed.

Lemma version_iff v s :
  Version v = Ok s <->
  v = VStr s /\ starts_with (fun p => exists a b, p = a ++ lit "." ++ b /\ digits 2 a /\ digits 2 b) s.
Proof.
  unfold Version. rewrite pattern_iff by reflexivity. split; intros [Hv H]; split; auto.
  - destruct H as (u & t & g & -> & HM). unfold version_re in HM.
    apply M_seq_inv in HM as (a & r & ? & -> & Ha & HM). apply M_rpow_chr in Ha as (? & Ha & ->).
    apply M_seq_inv in HM as (p & r' & ? & -> & Hp & HM). apply M_rlit in Hp as [-> ->].
    apply M_seq_inv in HM as (b & r'' & ? & -> & Hb & HM). apply M_rpow_chr in Hb as (? & Hb & ->).
    exists (a ++ lit "." ++ b), (r'' ++ t). split; [now rewrite <- !app_assoc|].
    exists a, b. unfold digits. rewrite <- !forallb_udigit. auto.
  - destruct H as (p & t & -> & a & b & -> & [La Ha] & [Lb Hb]).
    exists (a ++ lit "." ++ b), t, []. split; auto. unfold version_re.
    econstructor; [apply M_rpow_chr; rewrite forallb_udigit; eauto|].
    econstructor; [apply M_rlit; eauto|].
    rewrite <- (app_nil_r b). econstructor; [apply M_rpow_chr; rewrite forallb_udigit; eauto|].
    apply M_altr. constructor.
Qed.

Lemma cas_iff v s :
  CASNumber v = Ok s <->
  v = VStr s /\ starts_with (fun p => exists n a b c, p = a ++ lit "-" ++ b ++ lit "-" ++ c /\
      (1 <= n <= 6)%nat /\ digits n a /\ digits 2 b /\ digits 1 c) s.
Proof.
  unfold CASNumber. rewrite pattern_iff by reflexivity. split; intros [Hv H]; split; auto.
  - destruct H as (u & t & g & -> & HM). unfold cas_re in HM.
    apply M_seq_inv in HM as (a & r & ? & -> & Ha & HM). apply M_rrep_chr in Ha as (? & Ha & ->); [|lia].
    apply M_seq_inv in HM as (p & r' & ? & -> & Hp & HM). apply M_rlit in Hp as [-> ->].
    apply M_seq_inv in HM as (b & r'' & ? & -> & Hb & HM). apply M_rrep_chr in Hb as (? & Hb & ->); [|lia].
    apply M_seq_inv in HM as (p & c & ? & -> & Hp & HM). apply M_rlit in Hp as [-> ->].
    apply M_chr_inv in HM as (d & -> & Hd & ->).
    exists (a ++ lit "-" ++ b ++ lit "-" ++ [d]), t. split; auto.
    exists (length a), a, b, [d]. unfold digits. rewrite <- !forallb_udigit.
    repeat split; auto; try lia. cbn. now rewrite Hd.
  - destruct H as (p & t & -> & n & a & b & c & -> & Hn & [La Ha] & [Lb Hb] & [Lc Hc]).
    destruct c as [|d [|]]; try discriminate Lc. inversion Hc; subst.
    eexists _, t, []. split; [reflexivity|]. unfold cas_re.
    econstructor; [apply M_rrep_chr; [lia|]; rewrite forallb_udigit; eauto|].
    econstructor; [apply M_rlit; eauto|].
    econstructor; [apply M_rrep_chr; [lia|]; rewrite forallb_udigit; repeat split; eauto; lia|].
    econstructor; [apply M_rlit; eauto|]. now constructor.
Qed.

Lemma varname_iff is_word v s :
  VariableName is_word v = Ok s <-> v = VStr s /\ exists c t, s = c :: t /\ is_word c = true.
Proof.
  unfold VariableName. rewrite pattern_iff by reflexivity. split; intros [Hv H]; split; auto.
  - destruct H as (u & t & g & -> & HM). unfold variable_name_re in HM.
    apply M_seq_inv in HM as (a & r & ? & -> & Ha & HM). apply M_chr_inv in Ha as (c & -> & Hc & _).
    cbn. eauto.
  - destruct H as (c & t & -> & Hc). exists [c], t, []. split; auto. unfold variable_name_re.
    change [c] with ([c] ++ []). econstructor; [now constructor|]. apply M_star_chr. auto.
Qed.

(** * Bounded text *)
Lemma texts_snoc vs v : texts (vs ++ [v]) = texts vs ++ texts [v].
Proof. unfold texts. now rewrite flat_map_app. Qed.

Lemma join_snoc sep l x : l <> [] -> join sep (l ++ [x]) = join sep l ++ sep ++ x.
Proof.
  induction l as [|a l IH]; intros H; [now destruct H|].
  destruct l as [|b l]; [reflexivity|].
  cbn [app]. rewrite (join_cons sep a (b :: l ++ [x])), (join_cons sep a (b :: l)) by discriminate.
  change (b :: l ++ [x]) with ((b :: l) ++ [x]). rewrite IH by discriminate. now rewrite <- !app_assoc.
Qed.

Lemma separator_history sep vs :
  history (add_separator sep str_validate) vs =
  match texts vs with [] => None | ts => Some (join sep ts) end.
Proof.
  induction vs as [|v vs IH] using rev_ind; [reflexivity|].
  rewrite history_snoc, texts_snoc, IH. unfold add_separator.
  destruct v; cbn [str_validate texts flat_map app]; try (rewrite app_nil_r; now destruct (texts vs)).
  destruct (texts vs) as [|t ts] eqn:E; [reflexivity|].
  change (Some (join sep (t :: ts) ++ sep ++ s) = Some (join sep ((t :: ts) ++ [s]))).
  now rewrite join_snoc.
Qed.

Lemma last_snoc {A} (l : list A) x d : last (l ++ [x]) d = x.
Proof. induction l as [|a [|b l] IH]; auto. Qed.

Lemma replace_history vs :
  history (add_replace str_validate) vs =
  match texts vs with [] => None | ts => Some (last ts []) end.
Proof.
  induction vs as [|v vs IH] using rev_ind; [reflexivity|].
  rewrite history_snoc, texts_snoc, IH. unfold add_replace.
  destruct v; cbn [str_validate texts flat_map app]; try (rewrite app_nil_r; now destruct (texts vs)).
  cbn [fst]. destruct (texts vs ++ [s]) eqn:E; [now destruct (texts vs)|].
  rewrite <- E. now rewrite last_snoc.
Qed.

Lemma limited_end_iff ign l s t :
  limited_end ign l (Some s) = Ok t <-> t = s /\ (ign = true \/ within l (length s) = true).
Proof.
  unfold limited_end. destruct (within l (length s)), ign; cbn; split; intros H;
    try discriminate;
    try (injection H as <-; auto; fail); try (destruct H as [H1 H2]; subst; try reflexivity; destruct H2; discriminate).
Qed.

(** * Dates *)
Definition gives_date (fromiso : pystr -> option datetime) (v : pyval) (d : datetime) : Prop :=
  exists s, v = VStr s /\ fromiso (replace (lit "Z") (lit "+00:00") s) = Some d.

Lemma date_validate_iff f v d : date_validate f v = Ok d <-> gives_date f v d.
Proof.
  unfold date_validate, gives_date. destruct v; try (split; [discriminate | intros (? & H & _); discriminate]).
  destruct (f (replace (lit "Z") (lit "+00:00") s)) as [x|] eqn:E.
  - split; [intros [= <-]; eauto | intros (? & [= <-] & H); congruence].
  - split; [discriminate | intros (? & [= <-] & H); congruence].
Qed.

Lemma review_history f vs :
  match history (review_add f) vs with
  | None => forall v d, In v vs -> ~ gives_date f v d
  | Some d => (exists v, In v vs /\ gives_date f v d) /\
              (forall v d', In v vs -> gives_date f v d' -> (wall d' <= wall d)%Z)
  end.
Proof.
  induction vs as [|v vs IH] using rev_ind; [intros ? ? []|].
  rewrite history_snoc. change (fst (review_add f (history (review_add f) vs) v)) with
    (fst (add_compare later (date_validate f) (history (review_add f) vs) v)). unfold add_compare.
  destruct (date_validate f v) as [a|e] eqn:E.
  - apply date_validate_iff in E.
    assert (Hu : forall d', gives_date f v d' -> d' = a).
    { intros d' H. apply date_validate_iff in H, E. congruence. }
    destruct (history (review_add f) vs) as [x|]; cbn [fst].
    + destruct IH as [(w & Hw & Gw) IH]. unfold later. destruct (Z.ltb_spec (wall x) (wall a)).
      * split; [exists v; rewrite in_app_iff; cbn; auto|].
        intros w' d' Hi Hg. apply in_app_iff in Hi as [Hi|[<-|[]]].
        -- specialize (IH _ _ Hi Hg). lia.
        -- rewrite (Hu _ Hg). lia.
      * split; [exists w; rewrite in_app_iff; auto|].
        intros w' d' Hi Hg. apply in_app_iff in Hi as [Hi|[<-|[]]]; [eauto|].
        rewrite (Hu _ Hg). lia.
    + split; [exists v; rewrite in_app_iff; cbn; auto|].
      intros w' d' Hi Hg. apply in_app_iff in Hi as [Hi|[<-|[]]].
      * exfalso. eapply IH; eauto.
      * rewrite (Hu _ Hg). lia.
  - assert (Hn : forall d', ~ gives_date f v d').
    { intros d' H. apply date_validate_iff in H. congruence. }
    cbn [fst]. destruct (history (review_add f) vs) as [x|].
    + destruct IH as [(w & Hw & Gw) IH]. split; [exists w; rewrite in_app_iff; auto|].
      intros w' d' Hi Hg. apply in_app_iff in Hi as [Hi|[<-|[]]]; [eauto|]. exfalso. eapply Hn; eauto.
    + intros w' d' Hi. apply in_app_iff in Hi as [Hi|[<-|[]]]; auto.
Qed.
