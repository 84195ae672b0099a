From Coq Require Import Ascii String List Bool Arith NArith ZArith Lia.
From Verif Require Import PyBase PyBaseFacts PyDigits PyValues ValidatorsModel CommentSpec CommentProofs TextFacts DotDictModel DotDictProofs ExchangeModel ExchangeSpec.
Import ListNotations.

(** ** identifiers *)
Section Ids.
  Context (hash : pystr -> pystr).

  Lemma next_id_new fuel : forall used base i u, next_id hash fuel used base i = Some u -> ~ In u used.
  Proof.
    induction fuel as [|f IH]; intros used base i u; cbn [next_id]; [discriminate|].
    destruct (str_in _ used) eqn:E; [apply IH|].
    intros [= <-] H. apply str_in_In in H. congruence.
  Qed.
  Lemma new_id_new fuel used base u : new_id hash fuel used base = Some u -> ~ In u used.
  Proof.
    unfold new_id. destruct (str_in _ used) eqn:E; [apply next_id_new|].
    intros [= <-] H. apply str_in_In in H. congruence.
  Qed.

  Lemma put_nat_fst {A} n (v : A) l m : In m (map fst (put_nat n v l)) <-> m = n \/ In m (map fst l).
  Proof.
    induction l as [|[k w] l IH]; cbn [put_nat map fst In]; [intuition|].
    destruct (Nat.eqb_spec n k); cbn [map fst In]; [subst; intuition|rewrite IH; intuition].
  Qed.
  Lemma put_nat_snd {A} n (v : A) l w : In w (map snd (put_nat n v l)) -> w = v \/ In w (map snd l).
  Proof.
    induction l as [|[k x] l IH]; cbn [put_nat map snd In]; [intuition|].
    destruct (Nat.eqb_spec n k); cbn [map snd In]; intuition.
  Qed.
  Lemma put_nat_nodup {A} n (v : A) l : NoDup (map fst l) -> NoDup (map snd l) -> ~ In v (map snd l) ->
    NoDup (map fst (put_nat n v l)) /\ NoDup (map snd (put_nat n v l)).
  Proof.
    induction l as [|[k w] l IH]; cbn [put_nat map fst snd]; intros N1 N2 H.
    - split; constructor; auto; constructor.
    - inversion N1; inversion N2; subst.
      destruct (Nat.eqb_spec n k); cbn [map fst snd].
      + subst. split; constructor; auto. intros I. apply H. now right.
      + destruct IH as [I1 I2]; auto. { intros I. apply H. now right. }
        split; constructor; auto.
        * rewrite put_nat_fst. intuition.
        * intros I. apply put_nat_snd in I. destruct I as [-> | I]; [apply H; now left|auto].
  Qed.

  Definition ids_ok (st : id_state) : Prop :=
    distinct_ids (id_of st) /\ incl (map snd (id_of st)) (all_ids st).
  Lemma finish_ids_ok fuel l : forall st st', ids_ok st -> finish_ids hash fuel st l = Some st' ->
    ids_ok st' /\ (forall n, In n (map fst (id_of st')) <-> In n (map fst (id_of st)) \/ In n (map fst l)).
  Proof.
    induction l as [|[n b] l IH]; cbn [finish_ids]; intros st st' [[N1 N2] I].
    - intros [= <-]. split; [split; [split|]; assumption|]. cbn [map In]. intuition.
    - unfold finish_id. destruct (new_id hash fuel (all_ids st) b) as [u|] eqn:E; [|discriminate].
      intros F. apply new_id_new in E. apply IH in F.
      + destruct F as [F1 F2]. split; [exact F1|]. intros m. rewrite F2. cbn [id_of map fst In].
        rewrite put_nat_fst. intuition.
      + split.
        * apply put_nat_nodup; auto.
        * intros w W. cbn [id_of all_ids] in *. apply put_nat_snd in W. destruct W as [-> | W]; [now left|right; auto].
  Qed.

  (** the search ends *)
  Lemma next_id_stuck fuel : forall used base i, next_id hash fuel used base i = None ->
    forall k, k < fuel -> In (hash (base ++ str_of_N (i + N.of_nat k))) used.
  Proof.
    induction fuel as [|f IH]; intros used base i; cbn [next_id]; [lia|].
    destruct (str_in _ used) eqn:E; [|discriminate]. intros H k Hk.
    apply str_in_In in E. destruct k as [|k].
    - replace (i + N.of_nat 0)%N with i by lia. exact E.
    - specialize (IH _ _ _ H k ltac:(lia)). replace (i + N.of_nat (S k))%N with (i + 1 + N.of_nat k)%N by lia. exact IH.
  Qed.
  Lemma pigeon {A} (dec : forall a b : A, {a = b} + {a <> b}) (l : list A) (f : nat -> A) n :
    (forall k, k < n -> In (f k) l) -> (forall j k, j < n -> k < n -> f j = f k -> j = k) -> n <= length l.
  Proof.
    intros H J. assert (N : NoDup (map f (seq 0 n))).
    { clear H. assert (G : forall a m, a + m <= n -> NoDup (map f (seq a m))).
      { intros a m. revert a. induction m as [|m IH]; intros a Hm; cbn [seq map]; constructor.
        - rewrite in_map_iff. intros (x & E & I). apply in_seq in I. apply J in E; lia.
        - apply IH. lia. }
      apply G. lia. }
    rewrite <- (seq_length n 0), <- (map_length f). apply NoDup_incl_length; [exact N|].
    intros y Y. apply in_map_iff in Y. destruct Y as (x & <- & X). apply in_seq in X. apply H. lia.
  Qed.
  Lemma new_id_found used base : injective hash -> exists u, new_id hash (S (length used)) used base = Some u.
  Proof.
    intros J. unfold new_id. destruct (str_in _ used); [|eauto].
    destruct (next_id hash (S (length used)) used base 1) eqn:E; [eauto|exfalso].
    assert (L := pigeon str_dec used (fun k => hash (base ++ str_of_N (1 + N.of_nat k))) (S (length used))).
    enough (S (length used) <= length used) by lia.
    apply L.
    - intros k Hk. exact (next_id_stuck _ _ _ _ E k Hk).
    - intros j k _ _ H. apply J, app_inv_head, str_of_N_inj in H. lia.
  Qed.
  (** more rounds do not change the outcome *)
  Lemma next_id_more fuel : forall used base i u f', next_id hash fuel used base i = Some u -> fuel <= f' ->
    next_id hash f' used base i = Some u.
  Proof.
    induction fuel as [|f IH]; intros used base i u f'; cbn [next_id]; [discriminate|].
    destruct f' as [|f']; [lia|]. cbn [next_id]. destruct (str_in _ used); [|auto]. intros H L. apply IH; [exact H|lia].
  Qed.
  Lemma new_id_more fuel used base u f' : new_id hash fuel used base = Some u -> fuel <= f' -> new_id hash f' used base = Some u.
  Proof. unfold new_id. destruct (str_in _ used); [apply next_id_more|auto]. Qed.
  Lemma finish_ids_found l : injective hash -> forall st fuel, S (length (all_ids st) + length l) <= fuel ->
    exists st', finish_ids hash fuel st l = Some st'.
  Proof.
    intros J. induction l as [|[n b] l IH]; intros st fuel L; cbn [finish_ids]; [eauto|].
    unfold finish_id. destruct (new_id_found (all_ids st) b J) as [u U].
    cbn [length] in L.
    rewrite (new_id_more _ _ _ _ fuel U) by lia. apply IH. cbn [all_ids length]. lia.
  Qed.
End Ids.

(** ** files *)
Lemma is_file_In d n : is_file d n = true <-> In (n, File) d.
Proof.
  unfold is_file. rewrite existsb_exists. split.
  - intros ([m [|]] & I & E); [|discriminate]. apply str_eqb_eq in E. now subst.
  - intros I. exists (n, File). split; [exact I|apply str_eqb_refl].
Qed.
Lemma last_In {A} (l : list A) d : l <> [] -> In (last l d) l.
Proof.
  induction l as [|x l IH]; [congruence|]. intros _. destruct l as [|y l]; [now left|].
  right. apply IH. discriminate.
Qed.
Lemma last_part_of s : last_part s (last (split (lit "/") s) []).
Proof.
  change (lit "/") with [47%N]. split.
  - apply (split1_nosep 47%N s), last_In, split_nonnil.
  - destruct (@exists_last _ (split [47%N] s) (split_nonnil _ _)) as (l & x & E).
    rewrite E, last_last. assert (J := split1_join 47%N s). rewrite E in J.
    destruct l as [|y l]; [left; now rewrite <- J|right].
    exists (join [47%N] (y :: l)). rewrite <- J. clear J E. revert y.
    induction l as [|z l IH]; intros y; [reflexivity|].
    change ((y :: z :: l) ++ [x]) with (y :: ((z :: l) ++ [x])).
    rewrite join_cons by (destruct l; discriminate). rewrite IH.
    rewrite (join_cons _ y (z :: l)) by discriminate. now rewrite <- !app_assoc.
Qed.
Lemma last_part_unique s a b : last_part s a -> last_part s b -> a = b.
Proof.
  assert (G : forall a b x y, ~ In 47%N a -> ~ In 47%N b -> x ++ 47%N :: a = y ++ 47%N :: b -> a = b).
  { clear. intros a b x y Ha Hb E. apply app_eq_split in E. destruct E as [(z & _ & E)|(z & _ & E)]; destruct z as [|c z].
    - now injection E.
    - injection E as _ E. exfalso. apply Ha. rewrite E. apply in_or_app. right. now left.
    - now injection E.
    - injection E as _ E. exfalso. apply Hb. rewrite E. apply in_or_app. right. now left. }
  intros [Na [Ea | (x & Ea)]] [Nb [Eb | (y & Eb)]].
  - congruence.
  - exfalso. apply Na. rewrite <- Ea, Eb. apply in_or_app. right. now left.
  - exfalso. apply Nb. rewrite <- Eb, Ea. apply in_or_app. right. now left.
  - exact (G _ _ _ _ Na Nb (eq_trans (eq_sym Ea) Eb)).
Qed.

(** ** citations *)
Lemma last_match_none {A} (m : pystr -> option A) s : (forall a b, s = a ++ b -> m b = None) -> last_match m s = None.
Proof.
  induction s as [|c s IH]; intros H; cbn [last_match].
  - now rewrite (H [] [] eq_refl).
  - rewrite IH, (H [] (c :: s) eq_refl); [reflexivity|]. intros a b ->. now apply (H (c :: a)).
Qed.
Lemma last_match_none_inv {A} (m : pystr -> option A) s : last_match m s = None -> forall a b, s = a ++ b -> m b = None.
Proof.
  induction s as [|c s IH]; cbn [last_match]; intros H a b E.
  - destruct a, b; try discriminate. destruct (m []); [discriminate|reflexivity].
  - destruct (last_match m s) as [[p g]|]; [discriminate|].
    destruct a as [|d a]; cbn [app] in E.
    + subst b. destruct (m (c :: s)); [discriminate|reflexivity].
    + injection E as -> ->. now apply (IH eq_refl a).
Qed.
Lemma last_match_at {A} (m : pystr -> option A) p c r g : m (c :: r) = Some g -> last_match m r = None ->
  last_match m (p ++ c :: r) = Some (p, g).
Proof.
  intros M N. induction p as [|d p IH]; cbn [app last_match].
  - now rewrite N, M.
  - now rewrite IH.
Qed.
Lemma last_match_inv {A} (m : pystr -> option A) s p g : last_match m s = Some (p, g) -> exists r, s = p ++ r /\ m r = Some g.
Proof.
  revert p g. induction s as [|c s IH]; cbn [last_match]; intros p g.
  - destruct (m []) eqn:E; [|discriminate]. intros [= <- <-]. now exists [].
  - destruct (last_match m s) as [[p' g']|].
    + intros [= <- <-]. destruct (IH _ _ eq_refl) as (r & -> & E). now exists r.
    + destruct (m (c :: s)) eqn:E; [|discriminate]. intros [= <- <-]. now exists (c :: s).
Qed.

Lemma opens_in o : opens_year o = true <-> In o [32; 40; 91; 44]%N.
Proof.
  unfold opens_year. rewrite existsb_exists. split.
  - intros (x & I & E). apply N.eqb_eq in E. now subst.
  - intros I. exists o. split; [exact I|apply N.eqb_refl].
Qed.
Lemma closes_in o : closes_year o = true <-> In o [41; 93]%N.
Proof.
  unfold closes_year. rewrite existsb_exists. split.
  - intros (x & I & E). apply N.eqb_eq in E. now subst.
  - intros I. exists o. split; [exact I|apply N.eqb_refl].
Qed.
Lemma year_at_iff s y r : year_at s = Some (y, r) <->
  exists o k, s = o :: y ++ k :: r /\ In o [32; 40; 91; 44]%N /\ is_year y /\ In k [41; 93]%N.
Proof.
  split.
  - destruct s as [|o [|a [|b [|c [|d [|k s']]]]]]; try discriminate. cbn [year_at].
    destruct (_ && _)%bool eqn:E; [|discriminate]. intros [= <- <-].
    rewrite !andb_true_iff in E. destruct E as [[[[[E1 E2] E3] E4] E5] E6].
    exists o, k. split; [reflexivity|]. split; [now apply opens_in|]. split; [|now apply closes_in].
    split; [reflexivity|]. repeat constructor; assumption.
  - intros (o & k & -> & Ho & [L F] & Hk). destruct y as [|a [|b [|c [|d [|]]]]]; try discriminate.
    apply Forall_inv in F as Fa. apply Forall_inv_tail in F. apply Forall_inv in F as Fb. apply Forall_inv_tail in F.
    apply Forall_inv in F as Fc. apply Forall_inv_tail in F. apply Forall_inv in F as Fd.
    cbn [app year_at]. rewrite (proj2 (opens_in o) Ho), Fa, Fb, Fc, Fd, (proj2 (closes_in k) Hk). reflexivity.
Qed.
Lemma year_page_at_iff s y r : year_page_at s = Some (y, r) <->
  exists o k, s = o :: y ++ k :: lit " p. " ++ r /\ In o [32; 40; 91; 44]%N /\ is_year y /\ In k [41; 93]%N.
Proof.
  unfold year_page_at. split.
  - destruct (year_at s) as [[y' s']|] eqn:E; [|discriminate]. apply year_at_iff in E. destruct E as (o & k & -> & H).
    destruct (prefixb _ s') eqn:P; [|discriminate]. apply prefixb_spec in P. destruct P as [t ->].
    intros [= <- <-]. now exists o, k.
  - intros (o & k & -> & H). rewrite (proj2 (year_at_iff _ y (lit " p. " ++ r))) by (exists o, k; auto).
    now rewrite prefixb_app.
Qed.
Lemma no_year_mark s : ~ year_mark s <-> last_match year_at s = None.
Proof.
  split.
  - intros H. apply last_match_none. intros a b ->. destruct (year_at b) as [[y r]|] eqn:E; [|reflexivity].
    exfalso. apply H. apply year_at_iff in E. destruct E as (o & k & -> & E). now exists a, o, y, k, r.
  - intros H (p & o & y & k & r & E & Hx). apply (last_match_none_inv _ _ H) in E.
    rewrite (proj2 (year_at_iff _ y r)) in E by (exists o, k; auto). discriminate.
Qed.
Lemma no_page_mark s : ~ page_mark s <-> last_match year_page_at s = None.
Proof.
  split.
  - intros H. apply last_match_none. intros a b ->. destruct (year_page_at b) as [[y r]|] eqn:E; [|reflexivity].
    exfalso. apply H. apply year_page_at_iff in E. destruct E as (o & k & -> & E). now exists a, o, y, k, r.
  - intros H (p & o & y & k & r & E & Hx). apply (last_match_none_inv _ _ H) in E.
    rewrite (proj2 (year_page_at_iff _ y r)) in E by (exists o, k; auto). discriminate.
Qed.

Lemma last_line_one s : ExchangeSpec.one_line s -> last_line s = s.
Proof.
  intros H. unfold last_line. assert (D : drop_end_nl s = s).
  { unfold drop_end_nl. destruct (rev s) as [|c r] eqn:E; [reflexivity|].
    destruct (N.eqb_spec c 10); [|reflexivity]. exfalso. apply H. subst c. apply in_rev. rewrite E. now left. }
  rewrite D. unfold split. rewrite split_last; [reflexivity|discriminate|].
  apply occurs_char with 10%N; [now left|exact H].
Qed.

(** white space *)
Definition spaces : list N := [9; 10; 11; 12; 13; 28; 29; 30; 31; 32; 133; 160; 5760; 8192; 8193; 8194; 8195; 8196;
  8197; 8198; 8199; 8200; 8201; 8202; 8232; 8233; 8239; 8287; 12288]%N.
Lemma space_bound c : is_space c = true -> In c spaces.
Proof.
  unfold is_space, spaces. rewrite !orb_true_iff, !andb_true_iff, !N.leb_le, !N.eqb_eq. intros H. cbn [In]. lia.
Qed.
Lemma udigit_not_space c : is_udigit c = true -> is_space c = false.
Proof.
  intros D. destruct (is_space c) eqn:E; [|reflexivity]. apply space_bound in E.
  assert (B : forallb (fun c => negb (is_udigit c)) spaces = true) by (vm_compute; reflexivity).
  rewrite forallb_forall in B. apply B in E. rewrite D in E. discriminate.
Qed.
Lemma lstrip_head s : lstrip s = [] \/ exists c r, lstrip s = c :: r /\ is_space c = false.
Proof.
  induction s as [|c s IH]; [now left|]. cbn [lstrip]. destruct (is_space c) eqn:E; [exact IH|].
  right. now exists c, s.
Qed.
Lemma lstrip_app_nonspace s c r : is_space c = false -> lstrip (s ++ c :: r) = lstrip s ++ c :: r.
Proof.
  intros H. induction s as [|d s IH]; cbn [app lstrip]; [now rewrite H|].
  destruct (is_space d); [exact IH|reflexivity].
Qed.
Lemma rstrip_last s c w : is_space c = false -> forallb is_space w = true -> rstrip (s ++ c :: w) = s ++ [c].
Proof.
  intros H W. unfold rstrip. rewrite rev_app_distr. cbn [rev]. rewrite <- !app_assoc.
  assert (L : forall u x, forallb is_space u = true -> lstrip (u ++ x) = lstrip x).
  { induction u as [|d u IH]; cbn [forallb app lstrip]; intros x; [reflexivity|].
    rewrite andb_true_iff. intros [-> Hu]. now apply IH. }
  rewrite L.
  - cbn [app lstrip]. rewrite H. cbn [rev]. now rewrite rev_involutive.
  - rewrite forallb_forall in *. intros x X. apply W. now apply in_rev.
Qed.
Lemma year_strip y : is_year y -> strip y = y.
Proof.
  intros [L F]. destruct y as [|a [|b [|c [|d [|]]]]]; try discriminate.
  apply Forall_inv in F as Fa. do 3 apply Forall_inv_tail in F. apply Forall_inv in F.
  apply (strip_id a [b; c] d); now apply udigit_not_space.
Qed.

(** ** master data *)
Definition master_ok (m : master) : Prop :=
  NoDup (map fst (m_sources m)) /\ NoDup (map fst (m_persons m ++ m_companies m)) /\
  (forall i, In i (all_sources m) <-> In i (map fst (m_sources m))) /\
  (forall i, In i (all_contacts m) <-> In i (map fst (m_persons m ++ m_companies m))).
Lemma nodup_snoc {A} (l : list A) x : NoDup l -> ~ In x l -> NoDup (l ++ [x]).
Proof.
  intros N H. rewrite <- (rev_involutive (l ++ [x])). apply NoDup_rev. rewrite rev_app_distr. cbn [rev app].
  constructor; [now rewrite <- in_rev|now apply NoDup_rev].
Qed.
Lemma step_ok m x : master_ok m -> master_ok (mention_step m x).
Proof.
  intros (N1 & N2 & A1 & A2). destruct x as [i a y t | r i n | i]; cbn [mention_step].
  - destruct (str_in i (all_sources m)) eqn:E; [now split|].
    assert (E' : ~ In i (map fst (m_sources m))) by (rewrite <- A1, <- str_in_In; congruence).
    split; [|split; [exact N2|split; [|exact A2]]]; cbn [m_sources all_sources].
    + rewrite map_app. cbn [map fst]. now apply nodup_snoc.
    + intros j. rewrite map_app, in_app_iff. cbn [map fst In]. rewrite A1. intuition.
  - destruct (str_in i (all_contacts m)) eqn:E; [now split|].
    assert (E' : ~ In i (map fst (m_persons m ++ m_companies m))) by (rewrite <- A2, <- str_in_In; congruence).
    rewrite map_app in *. destruct r; (split; [exact N1|split; [|split; [exact A1|]]]); cbn [m_persons m_companies all_contacts].
    + rewrite !map_app, <- app_assoc. cbn [map fst app]. apply NoDup_Add with (a := i) (l := map fst (m_persons m) ++ map fst (m_companies m)).
      * apply Add_app.
      * now split.
    + intros j. rewrite !map_app, !in_app_iff. cbn [map fst In]. rewrite A2, in_app_iff. intuition.
    + rewrite !map_app, app_assoc. cbn [map fst]. now apply nodup_snoc.
    + intros j. rewrite !map_app, !in_app_iff. cbn [map fst In]. rewrite A2, in_app_iff. intuition.
  - now split.
Qed.
Lemma mentions_ok l : master_ok (mentions l).
Proof.
  unfold mentions. assert (G : forall l m, master_ok m -> master_ok (fold_left mention_step l m)).
  { clear l. induction l as [|x l IH]; intros m H; [exact H|]. apply IH, step_ok, H. }
  apply G. unfold master_ok, empty_master. cbn. split; [constructor|]. split; [constructor|]. intuition.
Qed.
Lemma step_keeps m x i : (In i (map fst (m_sources m)) -> In i (map fst (m_sources (mention_step m x)))) /\
  (In i (map fst (m_persons m ++ m_companies m)) -> In i (map fst (m_persons (mention_step m x) ++ m_companies (mention_step m x)))).
Proof.
  destruct x as [j a y t | r j n | j]; cbn [mention_step]; [destruct (str_in _ _)|destruct (str_in _ _); [|destruct r]|];
    cbn [m_sources m_persons m_companies]; rewrite ?map_app, ?in_app_iff; split; intuition.
Qed.
Lemma fold_keeps l : forall m i, (In i (map fst (m_sources m)) -> In i (map fst (m_sources (fold_left mention_step l m)))) /\
  (In i (map fst (m_persons m ++ m_companies m)) -> In i (map fst (m_persons (fold_left mention_step l m) ++ m_companies (fold_left mention_step l m)))).
Proof.
  induction l as [|x l IH]; intros m i; [split; auto|]. cbn [fold_left].
  destruct (IH (mention_step m x) i) as [I1 I2], (step_keeps m x i) as [S1 S2]. split; auto.
Qed.
Lemma mentioned_source l i a y t : In (MSource i a y t) l -> In i (map fst (m_sources (mentions l))).
Proof.
  intros H. apply in_split in H. destruct H as (l1 & l2 & ->). unfold mentions. rewrite fold_left_app. cbn [fold_left].
  apply (proj1 (fold_keeps l2 _ i)).
  assert (K := mentions_ok l1). unfold mentions in K. set (m := fold_left mention_step l1 empty_master) in *.
  destruct K as (_ & _ & A & _). cbn [mention_step]. destruct (str_in i (all_sources m)) eqn:E.
  - apply A, str_in_In, E.
  - cbn [m_sources]. rewrite map_app, in_app_iff. right. now left.
Qed.
Lemma mentioned_contact l r i n : In (MContact r i n) l -> In i (map fst (m_persons (mentions l) ++ m_companies (mentions l))).
Proof.
  intros H. apply in_split in H. destruct H as (l1 & l2 & ->). unfold mentions. rewrite fold_left_app. cbn [fold_left].
  apply (proj2 (fold_keeps l2 _ i)).
  assert (K := mentions_ok l1). unfold mentions in K. set (m := fold_left mention_step l1 empty_master) in *.
  destruct K as (_ & _ & _ & A). cbn [mention_step]. destruct (str_in i (all_contacts m)) eqn:E.
  - apply A, str_in_In, E.
  - destruct r; cbn [m_persons m_companies]; rewrite !map_app, !in_app_iff; cbn [map fst In]; intuition.
Qed.
(** an entry comes from a mention *)
Lemma step_from m x i : In i (map fst (m_sources (mention_step m x))) ->
  In i (map fst (m_sources m)) \/ exists a y t, x = MSource i a y t.
Proof.
  destruct x as [j a y t | r j n | j]; cbn [mention_step].
  - destruct (str_in _ _); [auto|]. cbn [m_sources]. rewrite map_app, in_app_iff. cbn [map fst In].
    intros [H | [<- | []]]; [auto|right; now exists a, y, t].
  - destruct (str_in _ _); [auto|]. destruct r; auto.
  - auto.
Qed.

(** ** reading citations *)
Lemma opener_not_digit o : In o [32; 40; 91; 44]%N -> is_udigit o = false.
Proof. cbn [In]. intros [<- | [<- | [<- | [<- | []]]]]; reflexivity. Qed.
Lemma closer_not_digit o : In o [41; 93]%N -> is_udigit o = false.
Proof. cbn [In]. intros [<- | [<- | []]]; reflexivity. Qed.
Lemma digit_not_opener c : is_udigit c = true -> opens_year c = false.
Proof.
  intros H. destruct (opens_year c) eqn:E; [|reflexivity]. apply opens_in, opener_not_digit in E. congruence.
Qed.
Lemma closer_not_opener c : In c [41; 93]%N -> opens_year c = false.
Proof. cbn [In]. intros [<- | [<- | []]]; reflexivity. Qed.
Lemma year_at_not_open c s : opens_year c = false -> year_at (c :: s) = None.
Proof. intros H. destruct s as [|? [|? [|? [|? [|? ?]]]]]; try reflexivity. cbn [year_at]. now rewrite H. Qed.
Lemma year_at_not_digit o c s : is_udigit c = false -> year_at (o :: c :: s) = None.
Proof. intros H. destruct s as [|? [|? [|? [|? ?]]]]; try reflexivity. cbn [year_at]. rewrite H, andb_false_r. reflexivity. Qed.
Lemma year_page_none s : year_at s = None -> year_page_at s = None.
Proof. unfold year_page_at. now intros ->. Qed.
Lemma last_match_skip {A} (m : pystr -> option A) c s : m (c :: s) = None -> last_match m s = None -> last_match m (c :: s) = None.
Proof. intros H N. cbn [last_match]. now rewrite N, H. Qed.
Lemma skip_year (m : pystr -> option (pystr * pystr)) y s : (forall c s', opens_year c = false -> m (c :: s') = None) ->
  is_year y -> last_match m s = None -> last_match m (y ++ s) = None.
Proof.
  intros M [_ F] N. induction F as [|c y D _ IH]; [exact N|]. apply last_match_skip; [|exact IH].
  apply M, digit_not_opener, D.
Qed.

Lemma read_with_page pre o y k pg name : one_line (pre ++ o :: y ++ k :: lit " p. " ++ pg) ->
  In o [32; 40; 91; 44]%N -> is_year y -> In k [41; 93]%N -> ~ page_mark (32%N :: pg) ->
  read_citation (pre ++ o :: y ++ k :: lit " p. " ++ pg) name =
  Ok (Cited (removelast (strip pre)) (Some y) (Some (strip pg))).
Proof.
  intros O Ho Hy Hk Hp. unfold read_citation. rewrite (last_line_one _ O).
  rewrite (last_match_at year_page_at pre o (y ++ k :: lit " p. " ++ pg) (y, pg)).
  - now rewrite (year_strip y Hy).
  - apply year_page_at_iff. exists o, k. auto.
  - apply no_page_mark in Hp.
    assert (M : forall c s', opens_year c = false -> year_page_at (c :: s') = None)
      by (intros; now apply year_page_none, year_at_not_open).
    apply skip_year; [exact M|exact Hy|].
    apply last_match_skip; [apply M, closer_not_opener, Hk|].
    cbn [lit app]. apply last_match_skip; [apply year_page_none, year_at_not_digit; reflexivity|].
    apply last_match_skip; [apply M; reflexivity|].
    apply last_match_skip; [apply M; reflexivity|]. exact Hp.
Qed.
Lemma read_without_page pre o y k rest name : one_line (pre ++ o :: y ++ k :: rest) ->
  strip (pre ++ o :: y ++ k :: rest) = pre ++ o :: y ++ k :: rest ->
  In o [32; 40; 91; 44]%N -> is_year y -> In k [41; 93]%N ->
  ~ page_mark (pre ++ o :: y ++ k :: rest) -> ~ year_mark rest ->
  read_citation (pre ++ o :: y ++ k :: rest) name = Ok (Cited (removelast (strip pre)) (Some y) None).
Proof.
  intros O T Ho Hy Hk Hp Hr. unfold read_citation. rewrite T, (last_line_one _ O).
  rewrite (proj1 (no_page_mark _) Hp).
  rewrite (last_match_at year_at pre o (y ++ k :: rest) (y, rest)).
  - now rewrite (year_strip y Hy).
  - apply year_at_iff. exists o, k. auto.
  - apply no_year_mark in Hr.
    apply skip_year; [intros; now apply year_at_not_open|exact Hy|].
    apply last_match_skip; [apply year_at_not_open, closer_not_opener, Hk|exact Hr].
Qed.
Lemma no_year_no_page s : ~ year_mark s -> ~ page_mark s.
Proof. intros H (p & o & y & k & r & E & Hx). apply H. now exists p, o, y, k, (lit " p. " ++ r). Qed.
Lemma read_nothing t name : one_line t -> ~ year_mark t -> read_citation t name = Ok (Cited (strip name) None None).
Proof.
  intros O H. unfold read_citation. rewrite (last_line_one _ O), (proj1 (no_page_mark _) (no_year_no_page _ H)).
  now rewrite (proj1 (no_year_mark _) H).
Qed.

Lemma trimmed_ends s : strip s = s -> s = [] \/ (exists c r, s = c :: r /\ is_space c = false) /\ (exists r c, s = r ++ [c] /\ is_space c = false).
Proof.
  intros H. destruct s as [|c s]; [now left|right]. split.
  - destruct (lstrip_head (c :: s)) as [E | (d & r & E & D)].
    + unfold strip in H. rewrite E in H. discriminate.
    + exists c, s. split; [reflexivity|]. cbn [lstrip] in E. destruct (is_space c) eqn:Hc; [|reflexivity].
      exfalso. assert (L : length (strip (c :: s)) <= length s).
      { unfold strip. cbn [lstrip]. rewrite Hc. etransitivity; [apply rstrip_len|apply lstrip_len]. }
      rewrite H in L. cbn [length] in L. lia.
  - unfold strip, rstrip in H.
    destruct (lstrip_head (rev (lstrip (c :: s)))) as [E | (d & r & E & D)].
    + rewrite E in H. discriminate.
    + rewrite E in H. cbn [rev] in H. exists (rev r), d. now rewrite H.
Qed.
Lemma strip_between s : (exists c r, s = c :: r /\ is_space c = false) -> (exists r c, s = r ++ [c] /\ is_space c = false) -> strip s = s.
Proof.
  intros (c & r & E & Hc) (r' & d & E' & Hd). unfold strip. rewrite E at 1. cbn [lstrip]. rewrite Hc, <- E, E'.
  rewrite (rstrip_last r' d []); [reflexivity|exact Hd|reflexivity].
Qed.
Lemma closer_not_space k : In k [41; 93]%N -> is_space k = false.
Proof. cbn [In]. intros [<- | [<- | []]]; reflexivity. Qed.

(** a mark of a page does not begin in a text and go on in ", (year)" or " (year)" *)
Lemma page_mark_before a v : ~ page_mark a ->
  (forall u o y k r, v <> [] -> o :: y ++ k :: lit " p. " ++ r = u ++ v -> In o [32; 40; 91; 44]%N -> is_year y -> In k [41; 93]%N -> length u < 10 -> False) ->
  ~ page_mark v -> ~ page_mark (a ++ v).
Proof.
  intros Ha Hc Hv (p & o & y & k & r & E & Ho & Hy & Hk). destruct v as [|v0 v].
  { apply Ha. rewrite app_nil_r in E. now exists p, o, y, k, r. }
  apply app_eq_split in E. destruct E as [(x & -> & E)|(x & -> & E)].
  - apply Hv. exists x, o, y, k, r. auto.
  - destruct (Nat.lt_ge_cases (length x) 10) as [L | L].
    + apply (Hc x o y k r); auto. discriminate.
    + apply Ha. assert (L4 : length y = 4) by apply Hy. destruct y as [|a0 [|a1 [|a2 [|a3 [|]]]]]; try discriminate.
      destruct x as [|x0 [|x1 [|x2 [|x3 [|x4 [|x5 [|x6 [|x7 [|x8 [|x9 x]]]]]]]]]]; cbn [length] in L; try lia.
      cbn [app lit] in E. injection E; intros; subst.
      exists p, x0, [x1; x2; x3; x4], x5, x. split; [|auto]. reflexivity.
Qed.
Lemma no_cross_comma w u o y k r : o :: y ++ k :: lit " p. " ++ r = u ++ lit ", " ++ w -> In o [32; 40; 91; 44]%N -> is_year y -> In k [41; 93]%N ->
  length u < 10 -> False.
Proof.
  intros E Ho [L F] Hk Hu. destruct y as [|a0 [|a1 [|a2 [|a3 [|]]]]]; try discriminate.
  apply Forall_inv in F as F0. apply Forall_inv_tail in F. apply Forall_inv in F as F1. apply Forall_inv_tail in F.
  apply Forall_inv in F as F2. apply Forall_inv_tail in F. apply Forall_inv in F as F3.
  assert (D1 : is_udigit 32 = false) by reflexivity. assert (D2 : is_udigit 44 = false) by reflexivity.
  destruct u as [|u0 [|u1 [|u2 [|u3 [|u4 [|u5 [|u6 [|u7 [|u8 [|u9 u]]]]]]]]]]; cbn [app lit length] in *; try lia.
  all: injection E; intros; subst; try congruence.
  cbn [In] in Hk. lia.
Qed.
Lemma no_cross_space w c u o y k r : o :: y ++ k :: lit " p. " ++ r = u ++ 32%N :: c :: w -> is_udigit c = false -> c <> 112%N ->
  In o [32; 40; 91; 44]%N -> is_year y -> In k [41; 93]%N -> length u < 9 -> False.
Proof.
  intros E Hc Hp Ho [L F] Hk Hu. destruct y as [|a0 [|a1 [|a2 [|a3 [|]]]]]; try discriminate.
  apply Forall_inv in F as F0. apply Forall_inv_tail in F. apply Forall_inv in F as F1. apply Forall_inv_tail in F.
  apply Forall_inv in F as F2. apply Forall_inv_tail in F. apply Forall_inv in F as F3.
  assert (D1 : is_udigit 32 = false) by reflexivity.
  destruct u as [|u0 [|u1 [|u2 [|u3 [|u4 [|u5 [|u6 [|u7 [|u8 u]]]]]]]]]; cbn [app lit length] in *; try lia.
  all: injection E; intros; subst; try congruence; try discriminate.
  cbn [In] in Hk. lia.
Qed.
Lemma page_mark_short y k : is_year y -> forall p, length p <= 4 -> ~ page_mark (p ++ y ++ [k]).
Proof.
  intros [L _] p Hp (p' & o' & y' & k' & r' & E & _ & [L' _] & _).
  apply (f_equal (@length N)) in E. rewrite !app_length in E. cbn [length lit] in E. rewrite !app_length in E. cbn [length lit] in E.
  rewrite app_length in E. cbn [length] in E. lia.
Qed.
Lemma author_no_page a y : ~ page_mark a -> is_year y -> ~ page_mark (a ++ lit ", (" ++ y ++ lit ")").
Proof.
  intros Ha Hy. apply page_mark_before; [exact Ha| |].
  - intros u o z k r _ E Ho Hz Hk L. exact (no_cross_comma (lit "(" ++ y ++ lit ")") u o z k r E Ho Hz Hk L).
  - apply (page_mark_short y 41%N Hy (lit ", (")). cbn. lia.
Qed.
