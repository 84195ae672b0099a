(** Lemmas about marked lines. *)
From Coq Require Import Ascii String List Bool Arith NArith ZArith Lia Permutation Sorted.
From Verif Require Import PyBase PyBaseFacts PyValues MultiLangSpec CommentModel CommentSpec TablesModel DotDictModel DotDictProofs.
Import ListNotations.

Lemma cut_line_one v w : one_line v -> cut_line (v ++ 10%N :: w) = (v, Some w).
Proof.
  induction v as [|c v IH]; intros Hv; cbn [app cut_line].
  - reflexivity.
  - destruct (N.eqb_spec c nl) as [->|Hc]; [exfalso; apply Hv; left; reflexivity|].
    rewrite IH; [reflexivity|]. intros Hin. apply Hv. now right.
Qed.
Lemma cut_line_end v : one_line v -> cut_line v = (v, None).
Proof.
  induction v as [|c v IH]; intros Hv; cbn [cut_line]; [reflexivity|].
  destruct (N.eqb_spec c nl) as [->|Hc]; [exfalso; apply Hv; left; reflexivity|].
  rewrite IH; [reflexivity|]. intros Hin. apply Hv. now right.
Qed.
Lemma cut_line_len s : forall v r, cut_line s = (v, Some r) -> length r < length s.
Proof.
  induction s as [|c s IH]; cbn [cut_line]; intros v r H; [discriminate|].
  destruct (N.eqb c nl); [injection H as <- <-; cbn; lia|].
  destruct (cut_line s) as [v' [r'|]] eqn:E; [|discriminate]. injection H as <- <-.
  specialize (IH _ _ eq_refl). cbn. lia.
Qed.

Lemma prefixb_app p w : prefixb p (p ++ w) = true.
Proof. apply prefixb_spec. now exists w. Qed.
Lemma skipn_app_len {A} (p w : list A) : skipn (length p) (p ++ w) = w.
Proof. induction p; [reflexivity|]. cbn. exact IHp. Qed.

(** nothing that starts inside [pre] looks like the mark, whatever follows *)
Definition quiet (m pre : pystr) : Prop :=
  forall a c b w, pre = a ++ c :: b -> prefixb m (c :: b ++ w) = false.

Lemma app_eq_split {A} (a b c d : list A) : a ++ b = c ++ d ->
  (exists x, c = a ++ x /\ b = x ++ d) \/ (exists x, a = c ++ x /\ d = x ++ b).
Proof.
  revert c; induction a as [|x a IH]; intros c H; cbn in *.
  - left. now exists c.
  - destruct c as [|y c]; cbn in *.
    + right. exists (x :: a). split; [reflexivity|]. now subst.
    + injection H as -> H. destruct (IH _ H) as [(z & -> & ->)|(z & -> & ->)].
      * left. exists z. auto.
      * right. exists z. auto.
Qed.

Lemma quiet_nil m : quiet m [].
Proof. intros a c b w H. destruct a; discriminate. Qed.
Lemma quiet_line m l rest : one_line m -> m <> [] -> ~ occurs m l -> quiet m rest -> quiet m (l ++ 10%N :: rest).
Proof.
  intros Hm Hne Hl Hr a c b w E.
  destruct (app_eq_split _ _ _ _ E) as [(x & Ea & Eb)|(x & El & Eb)].
  - destruct x as [|y x].
    + cbn in Eb. rewrite app_nil_r in Ea. subst a. injection Eb as E1 E2. subst c b.
      apply not_true_iff_false. intros Hp. apply prefixb_spec in Hp as [t Ht].
      destruct m as [|d m]; [contradiction|]. injection Ht as <- _. apply Hm. now left.
    + injection Eb as E1 E2. eapply Hr. exact E2.
  - destruct x as [|y x].
    + cbn in Eb. injection Eb as E1 E2. subst c b.
      apply not_true_iff_false. intros Hp. apply prefixb_spec in Hp as [t Ht].
      destruct m as [|d m]; [contradiction|]. injection Ht as <- _. apply Hm. now left.
    + injection Eb as E1 E2. subst c b.
      apply not_true_iff_false. intros Hp. apply prefixb_spec in Hp as [t Ht].
      rewrite <- app_assoc in Ht. cbn [app] in Ht.
      assert (H : (y :: x) ++ 10%N :: rest ++ w = m ++ t) by exact Ht.
      destruct (app_eq_split _ _ _ _ H) as [(z & Ez & Ez')|(z & Ez & Ez')].
      * destruct z as [|u z].
        -- rewrite app_nil_r in Ez. apply Hl. exists a, []. now rewrite app_nil_r, Ez.
        -- injection Ez' as <- _. apply Hm. rewrite Ez. apply in_or_app. right. now left.
      * apply Hl. exists a, z. rewrite El. f_equal. exact Ez.
Qed.
Lemma quiet_lines m ls : one_line m -> m <> [] -> Forall (fun l => ~ occurs m l) ls -> quiet m (closed_lines ls).
Proof.
  intros Hm Hne. induction ls as [|l ls IH]; intros H; [apply quiet_nil|].
  inversion H; subst. unfold closed_lines. cbn [map concat]. rewrite <- app_assoc. cbn [newline app].
  apply quiet_line; auto.
Qed.
Lemma quiet_app m a b : quiet m a -> quiet m b -> quiet m (a ++ b).
Proof.
  intros Ha Hb x c y w E. destruct (app_eq_split _ _ _ _ E) as [(z & -> & ->)|(z & -> & Ez)].
  - eapply Hb. reflexivity.
  - destruct z as [|d z].
    + cbn in Ez. eapply (Hb []). rewrite <- Ez. reflexivity.
    + injection Ez as <- ->. rewrite <- app_assoc. eapply Ha. reflexivity.
Qed.

(** no occurrence at all *)
Lemma not_occurs_suffix m a b : ~ occurs m (a ++ b) -> prefixb m b = false.
Proof.
  intros H. apply not_true_iff_false. intros Hp. apply prefixb_spec in Hp as [t ->]. apply H. exists a, t. reflexivity.
Qed.

Section Matcher.
  Context (mark : pystr) (M : pystr -> option (pystr * pystr)).
  Hypothesis M_mark : forall s v r, M s = Some (v, r) -> prefixb mark s = true /\ length r < length s.

  Lemma search_quiet pre s : quiet mark pre -> search_with M (pre ++ s) = search_with M s.
  Proof.
    induction pre as [|c pre IH]; intros Hq; [reflexivity|]. cbn [app search_with].
    destruct (M (c :: pre ++ s)) as [[v r]|] eqn:E.
    - apply M_mark in E as [E _]. rewrite (Hq [] c pre s eq_refl) in E. discriminate.
    - apply IH. intros a d b w Hp. apply (Hq (c :: a) d b w). now rewrite Hp.
  Qed.
  Lemma search_hit s v r : M s = Some (v, r) -> search_with M s = Some v.
  Proof. intros H. destruct s; cbn [search_with]; now rewrite H. Qed.
  Lemma search_none s : ~ occurs mark s -> search_with M s = None.
  Proof.
    induction s as [|c s IH]; intros H; cbn [search_with].
    - destruct (M []) as [[v r]|] eqn:E; [|reflexivity]. apply M_mark in E as [E _].
      rewrite (not_occurs_suffix mark [] []) in E; [discriminate|exact H].
    - destruct (M (c :: s)) as [[v r]|] eqn:E.
      + apply M_mark in E as [E _]. rewrite (not_occurs_suffix mark [] (c :: s)) in E; [discriminate|exact H].
      + apply IH. intros (a & b & ->). apply H. now exists (c :: a), b.
  Qed.

  Lemma remove_fuel : forall n f g s, length s <= n -> length s < f -> length s < g -> remove_with M f s = remove_with M g s.
  Proof.
    induction n as [|n IH]; intros f g s Hn Hf Hg; (destruct f as [|f]; [lia|]); (destruct g as [|g]; [lia|]); cbn [remove_with].
    - destruct s; [|cbn in Hn; lia]. destruct (M []) as [[v r]|] eqn:E; [|reflexivity].
      apply M_mark in E as [_ E]. cbn in E. lia.
    - destruct (M s) as [[v r]|] eqn:E.
      + apply M_mark in E as [_ E]. apply IH; lia.
      + destruct s as [|c s]; [reflexivity|]. f_equal. cbn in *. apply IH; lia.
  Qed.
  Lemma remove_all_hit s v r : M s = Some (v, r) -> remove_all M s = remove_all M r.
  Proof.
    intros H. unfold remove_all at 1. cbn [remove_with]. rewrite H.
    apply M_mark in H as [_ H]. unfold remove_all. apply remove_fuel with (n := length r); lia.
  Qed.
  Lemma remove_all_quiet pre s : quiet mark pre -> remove_all M (pre ++ s) = pre ++ remove_all M s.
  Proof.
    induction pre as [|c pre IH]; intros Hq; [reflexivity|]. cbn [app].
    unfold remove_all at 1. cbn [remove_with].
    destruct (M (c :: pre ++ s)) as [[v r]|] eqn:E.
    - apply M_mark in E as [E _]. rewrite (Hq [] c pre s eq_refl) in E. discriminate.
    - f_equal. rewrite <- IH; [reflexivity|]. intros a d b w Hp. apply (Hq (c :: a) d b w). now rewrite Hp.
  Qed.
  Lemma remove_all_none s : ~ occurs mark s -> remove_all M s = s.
  Proof.
    induction s as [|c s IH]; intros H; unfold remove_all; cbn [remove_with length].
    - destruct (M []) as [[v r]|] eqn:E; [|reflexivity]. apply M_mark in E as [_ E]. cbn in E. lia.
    - destruct (M (c :: s)) as [[v r]|] eqn:E.
      + apply M_mark in E as [E _]. rewrite (not_occurs_suffix mark [] (c :: s)) in E; [discriminate|exact H].
      + f_equal. apply IH. intros (a & b & ->). apply H. now exists (c :: a), b.
  Qed.
End Matcher.

(** the matchers *)
Lemma match_line_mark need m s v r : m <> [] -> match_line need m s = Some (v, r) -> prefixb m s = true /\ length r < length s.
Proof.
  intros Hm. unfold match_line. destruct (prefixb m s) eqn:E; [|discriminate]. intros H. split; [reflexivity|].
  apply prefixb_spec in E as [t ->]. rewrite skipn_app_len in H.
  destruct (cut_line t) as [v' [r'|]] eqn:C.
  - injection H as <- <-. apply cut_line_len in C. rewrite app_length. lia.
  - destruct need; [discriminate|]. injection H as <- <-. rewrite app_length. destruct m; [contradiction|]. cbn. lia.
Qed.
Lemma match_line_hit need m v w : one_line v -> match_line need m (m ++ v ++ 10%N :: w) = Some (v, w).
Proof. intros Hv. unfold match_line. rewrite prefixb_app, skipn_app_len, cut_line_one; auto. Qed.
Lemma match_line_hit_end m v : one_line v -> match_line false m (m ++ v) = Some (v, []).
Proof. intros Hv. unfold match_line. rewrite prefixb_app, skipn_app_len, cut_line_end; auto. Qed.

Lemma match_uuid_mark m s v r : m <> [] -> match_uuid m s = Some (v, r) -> prefixb m s = true /\ length r < length s.
Proof.
  intros Hm. unfold match_uuid. destruct (prefixb m s) eqn:E; [|discriminate]. intros H. split; [reflexivity|].
  apply prefixb_spec in E as [t ->]. rewrite skipn_app_len in H.
  destruct (looks_uuid (firstn 36 t)); [|discriminate].
  destruct (skipn 36 t) as [|c r'] eqn:Es; [discriminate|].
  destruct (N.eqb c nl); [|discriminate]. injection H as <- <-.
  assert (length (skipn 36 t) <= length t) by (rewrite skipn_length; lia). rewrite Es in H. cbn in H.
  rewrite app_length. lia.
Qed.
Lemma firstn_app_len {A} (a b : list A) n : length a = n -> firstn n (a ++ b) = a.
Proof. intros <-. rewrite firstn_app, Nat.sub_diag, firstn_all. cbn. apply app_nil_r. Qed.
Lemma skipn_app_n {A} (a b : list A) n : length a = n -> skipn n (a ++ b) = b.
Proof. intros <-. apply skipn_app_len. Qed.

Lemma hex_b s : forallb is_hexdigit s = true <-> Forall hex_char s.
Proof.
  rewrite forallb_forall, Forall_forall. unfold is_hexdigit, hex_char.
  split; intros H c Hc; specialize (H c Hc).
  - apply orb_true_iff in H as [H|H]; apply andb_true_iff in H as [A B]; apply N.leb_le in A, B; lia.
  - apply orb_true_iff. destruct H as [[A B]|[A B]]; [left|right]; apply andb_true_iff; split; now apply N.leb_le.
Qed.
Lemma shape_step n gs s : gs <> [] -> uuid_shape (n :: gs) s = true <->
  exists a t, s = a ++ lit "-" ++ t /\ hex_group n a /\ uuid_shape gs t = true.
Proof.
  intros Hgs. destruct gs as [|g gs]; [contradiction|]. cbn [uuid_shape]. split.
  - intros H. apply andb_true_iff in H as [H H3]. apply andb_true_iff in H as [H1 H2].
    apply Nat.leb_le in H1. destruct (skipn n s) as [|c t] eqn:E; [discriminate|].
    destruct (N.eq_dec c 45) as [->|Hc].
    + exists (firstn n s), t. repeat split.
      * rewrite <- (firstn_skipn n s) at 1. rewrite E. reflexivity.
      * rewrite firstn_length. lia.
      * now apply hex_b.
      * exact H3.
    + exfalso. destruct c as [|c]; [discriminate|]. do 6 (destruct c as [c|c|]; try discriminate H3). now apply Hc.
  - intros (a & t & -> & [Hl Ha] & Ht). rewrite (firstn_app_len a _ n Hl), (skipn_app_n a _ n Hl).
    apply hex_b in Ha. rewrite Ha. cbn [lit list_ascii_of_string map app]. 
    change (uuid_shape (g :: gs) t = true) in Ht.
    rewrite andb_true_r. apply andb_true_iff. split; [apply Nat.leb_le; rewrite app_length; lia|exact Ht].
Qed.
Lemma shape_last n s : uuid_shape [n] s = true <-> hex_group n s.
Proof.
  cbn [uuid_shape]. unfold hex_group. rewrite andb_true_iff, Nat.eqb_eq, hex_b. reflexivity.
Qed.
Lemma looks_uuid_iff s : looks_uuid s = true <-> is_uuid s.
Proof.
  unfold looks_uuid, is_uuid. split.
  - intros H. apply shape_step in H as (a & t & -> & Ha & H); [|discriminate].
    apply shape_step in H as (b & t2 & -> & Hb & H); [|discriminate].
    apply shape_step in H as (c & t3 & -> & Hc & H); [|discriminate].
    apply shape_step in H as (d & e & -> & Hd & H); [|discriminate].
    apply shape_last in H. exists a, b, c, d, e. auto 10.
  - intros (a & b & c & d & e & -> & Ha & Hb & Hc & Hd & He).
    apply shape_step; [discriminate|]. eexists _, _. split; [reflexivity|]. split; [exact Ha|].
    apply shape_step; [discriminate|]. eexists _, _. split; [reflexivity|]. split; [exact Hb|].
    apply shape_step; [discriminate|]. eexists _, _. split; [reflexivity|]. split; [exact Hc|].
    apply shape_step; [discriminate|]. eexists _, _. split; [reflexivity|]. split; [exact Hd|].
    now apply shape_last.
Qed.
Lemma uuid_length s : is_uuid s -> length s = 36.
Proof.
  intros (a & b & c & d & e & -> & [Ha _] & [Hb _] & [Hc _] & [Hd _] & [He _]).
  rewrite !app_length. cbn [lit list_ascii_of_string map length]. lia.
Qed.
Lemma match_uuid_hit m v w : is_uuid v -> match_uuid m (m ++ v ++ 10%N :: w) = Some (v, w).
Proof.
  intros Hv. unfold match_uuid. rewrite prefixb_app, skipn_app_len.
  rewrite (firstn_app_len v _ 36 (uuid_length v Hv)), (skipn_app_n v _ 36 (uuid_length v Hv)).
  now rewrite (proj2 (looks_uuid_iff v) Hv).
Qed.
Lemma uuid_chars s c : is_uuid s -> In c s -> hex_char c \/ c = 45%N.
Proof.
  intros (a & b & c' & d & e & -> & [_ Ha] & [_ Hb] & [_ Hc] & [_ Hd] & [_ He]) Hin.
  rewrite Forall_forall in *.
  repeat (apply in_app_or in Hin as [Hin|Hin]); auto;
    cbn in Hin; destruct Hin as [<-|[]]; now right.
Qed.

(** a mark with a character that a text does not have does not occur in it *)
Lemma occurs_char m s c : In c m -> ~ In c s -> ~ occurs m s.
Proof. intros H1 H2 (a & b & ->). apply H2. apply in_or_app. right. apply in_or_app. now left. Qed.

(** ** a text as closed lines followed by a rest *)
Lemma closed_app a b : closed_lines (a ++ b) = closed_lines a ++ closed_lines b.
Proof. unfold closed_lines. now rewrite map_app, concat_app. Qed.
Lemma closed_cons l b : closed_lines (l :: b) = l ++ 10%N :: closed_lines b.
Proof. unfold closed_lines. cbn [map concat]. rewrite <- app_assoc. reflexivity. Qed.
Lemma join_newline hs rest : rest <> [] -> join newline (hs ++ rest) = closed_lines hs ++ join newline rest.
Proof.
  intros Hr. induction hs as [|h hs IH]; [reflexivity|].
  cbn [app]. rewrite join_cons by (destruct hs; [exact Hr|discriminate]).
  rewrite IH, closed_cons. rewrite <- !app_assoc. reflexivity.
Qed.

Lemma quiet_not_occurs m pre rest : m <> [] -> quiet m pre -> ~ occurs m rest -> ~ occurs m (pre ++ rest).
Proof.
  intros Hm Hq Hr (a & b & E).
  destruct (app_eq_split _ _ _ _ E) as [(x & -> & Ex)|(x & Ep & Ex)].
  - apply Hr. now exists x, b.
  - destruct x as [|c x].
    + apply Hr. exists [], b. cbn in *. congruence.
    + specialize (Hq a c x rest Ep). apply not_true_iff_false in Hq. apply Hq.
      apply prefixb_spec. exists b. symmetry. exact Ex.
Qed.

Definition good_mark (m : pystr) : Prop := one_line m /\ m <> [].

Section Steps.
  Context (m : pystr) (Hm : good_mark m).
  Let H1 : one_line m := proj1 Hm.
  Let H2 : m <> [] := proj2 Hm.
  Context (A B : list pystr) (rest : pystr).
  Hypothesis (HA : Forall (fun l => ~ occurs m l) A) (HB : Forall (fun l => ~ occurs m l) B) (HR : ~ occurs m rest).

  Lemma quiet_after : ~ occurs m (closed_lines B ++ rest).
  Proof. apply quiet_not_occurs; auto. now apply quiet_lines. Qed.

  Lemma uuid_step v : is_uuid v ->
    get_uuid m (closed_lines (A ++ (m ++ v) :: B) ++ rest) = (Some v, closed_lines (A ++ B) ++ rest).
  Proof.
    intros Hv. rewrite closed_app, closed_cons. unfold get_uuid. repeat (rewrite <- app_assoc; cbn [app]).
    assert (HM : forall s v r, match_uuid m s = Some (v, r) -> prefixb m s = true /\ length r < length s)
      by (intros; now apply match_uuid_mark in H).
    rewrite (search_quiet m _ HM) by now apply quiet_lines.
    rewrite (search_hit _ _ _ _ (match_uuid_hit m v _ Hv)).
    rewrite (remove_all_quiet m _ HM) by now apply quiet_lines.
    rewrite (remove_all_hit m _ HM _ _ _ (match_uuid_hit m v _ Hv)).
    rewrite (remove_all_none m _ HM) by apply quiet_after.
    rewrite closed_app, <- app_assoc. reflexivity.
  Qed.
  Lemma str_step keys v : one_line v ->
    get_str keys m (closed_lines (A ++ (m ++ v) :: B) ++ rest) = (Some (getf v keys), closed_lines (A ++ B) ++ rest).
  Proof.
    intros Hv. rewrite closed_app, closed_cons. unfold get_str. repeat (rewrite <- app_assoc; cbn [app]).
    assert (HM : forall s v r, match_line false m s = Some (v, r) -> prefixb m s = true /\ length r < length s)
      by (intros; now apply match_line_mark in H).
    rewrite (search_quiet m _ HM) by now apply quiet_lines.
    rewrite (search_hit _ _ _ _ (match_line_hit false m v _ Hv)).
    rewrite (remove_all_quiet m _ HM) by now apply quiet_lines.
    rewrite (remove_all_hit m _ HM _ _ _ (match_line_hit false m v _ Hv)).
    rewrite (remove_all_none m _ HM) by apply quiet_after.
    rewrite closed_app, <- app_assoc. reflexivity.
  Qed.
  Lemma str_step_end keys v : one_line v ->
    get_str keys m (closed_lines A ++ m ++ v) = (Some (getf v keys), closed_lines A).
  Proof.
    intros Hv. unfold get_str.
    assert (HM : forall s v r, match_line false m s = Some (v, r) -> prefixb m s = true /\ length r < length s)
      by (intros; now apply match_line_mark in H).
    rewrite (search_quiet m _ HM) by now apply quiet_lines.
    rewrite (search_hit _ _ _ _ (match_line_hit_end m v Hv)).
    rewrite (remove_all_quiet m _ HM) by now apply quiet_lines.
    rewrite (remove_all_hit m _ HM _ _ _ (match_line_hit_end m v Hv)).
    rewrite (remove_all_none m _ HM); [now rewrite app_nil_r|].
    intros (a & b & E). destruct a; [|discriminate]. cbn [app] in E. symmetry in E. apply app_eq_nil in E as [E _]. now apply H2.
  Qed.
  Lemma list_step v : one_line v ->
    get_list_str m (closed_lines (A ++ (m ++ v) :: B) ++ rest) = (split (lit "; ") v, closed_lines (A ++ B) ++ rest).
  Proof.
    intros Hv. rewrite closed_app, closed_cons. unfold get_list_str. repeat (rewrite <- app_assoc; cbn [app]).
    assert (HM : forall s v r, match_line true m s = Some (v, r) -> prefixb m s = true /\ length r < length s)
      by (intros; now apply match_line_mark in H).
    rewrite (search_quiet m _ HM) by now apply quiet_lines.
    rewrite (search_hit _ _ _ _ (match_line_hit true m v _ Hv)).
    assert (E : remove_all (match_line true m) (closed_lines A ++ m ++ v ++ 10%N :: closed_lines B ++ rest)
                = closed_lines (A ++ B) ++ rest).
    { rewrite (remove_all_quiet m _ HM) by now apply quiet_lines.
      rewrite (remove_all_hit m _ HM _ _ _ (match_line_hit true m v _ Hv)).
      rewrite (remove_all_none m _ HM) by apply quiet_after. rewrite closed_app, <- app_assoc. reflexivity. }
    destruct (length (split (lit "; ") v)) as [|n] eqn:En.
    { exfalso. apply (split_nonnil (lit "; ") v). now apply length_zero_iff_nil. }
    f_equal. clear En. induction n as [|n IH].
    - exact E.
    - change (Nat.iter (S (S n)) ?f ?x) with (f (Nat.iter (S n) f x)). rewrite IH.
      apply (remove_all_none m _ HM). apply quiet_not_occurs; auto. apply quiet_lines; auto. now apply Forall_app.
  Qed.
End Steps.

Lemma uuid_absent m t : good_mark m -> ~ occurs m t -> get_uuid m t = (None, t).
Proof.
  intros [H1 H2] Ht. unfold get_uuid. rewrite (search_none m); auto.
  intros; now apply match_uuid_mark in H.
Qed.
Lemma str_absent keys m t : good_mark m -> ~ occurs m t -> get_str keys m t = (None, t).
Proof.
  intros [H1 H2] Ht. unfold get_str. rewrite (search_none m); auto.
  intros; now apply match_line_mark in H.
Qed.
Lemma list_absent m t : good_mark m -> ~ occurs m t -> get_list_str m t = ([], t).
Proof.
  intros [H1 H2] Ht. unfold get_list_str. rewrite (search_none m); auto.
  intros; now apply match_line_mark in H.
Qed.

(** deciding occurrences *)
Lemma infixb_occurs m s : infixb m s = true <-> occurs m s.
Proof.
  induction s as [|c s IH]; cbn [infixb].
  - rewrite orb_false_r. split.
    + intros H. apply prefixb_spec in H as [t ->]. now exists [], t.
    + intros (a & b & E). destruct a; [|discriminate]. apply prefixb_spec. now exists b.
  - rewrite orb_true_iff, IH. split.
    + intros [H|(a & b & ->)].
      * apply prefixb_spec in H as [t Ht]. now exists [], t.
      * now exists (c :: a), b.
    + intros (a & b & E). destruct a as [|d a].
      * left. apply prefixb_spec. now exists b.
      * injection E as -> ->. right. now exists a, b.
Qed.
Lemma not_infixb m s : infixb m s = false -> ~ occurs m s.
Proof. intros H Ho. apply infixb_occurs in Ho. congruence. Qed.
(** a mark that ends with a character absent from [u] can only occur before [u] *)
Lemma occurs_before m' c p u : ~ In c u -> occurs (m' ++ [c]) (p ++ u) -> occurs (m' ++ [c]) p.
Proof.
  intros Hc (a & b & E). rewrite app_assoc in E.
  destruct (app_eq_split _ _ _ _ E) as [(x & Ex & ->)|(x & -> & Ex)].
  - destruct x as [|d x].
    + rewrite app_nil_r in Ex. exists a, []. rewrite app_nil_r. now symmetry.
    + exfalso. apply Hc. assert (Hx : exists y z, d :: x = y ++ [z]) by (destruct (exists_last (l := d :: x)) as (y & z & Hy); [discriminate|eauto]).
      destruct Hx as (y & z & Hy). rewrite Hy in Ex. rewrite !app_assoc in Ex. apply app_inj_tail in Ex as [_ <-].
      rewrite Hy. apply in_or_app. left. apply in_or_app. right. now left.
  - exists a, x. now rewrite <- app_assoc.
Qed.
Lemma uuid_no_space u : is_uuid u -> ~ In 32%N u.
Proof. intros Hu Hin. destruct (uuid_chars u 32 Hu Hin) as [H|H]; [unfold hex_char in H; lia|discriminate]. Qed.
Lemma uuid_one_line u : is_uuid u -> one_line u.
Proof. intros Hu Hin. destruct (uuid_chars u 10 Hu Hin) as [H|H]; [unfold hex_char in H; lia|discriminate]. Qed.

(** splitting joined items *)
Lemma split_skip full t s : split_aux full (length t) [] (t ++ s) = split_aux full 0 [] s.
Proof. induction t as [|e t IH]; [reflexivity|]. cbn [length app split_aux]. exact IH. Qed.
Lemma split_quiet sep x s : sep <> [] -> forall acc,
  (forall a c b, x = a ++ c :: b -> prefixb sep (c :: b ++ sep ++ s) = false) ->
  split_aux sep 0 acc (x ++ sep ++ s) = (rev acc ++ x) :: split_aux sep 0 [] s.
Proof.
  intros Hs. induction x as [|c x IH]; intros acc H; cbn [app].
  - destruct sep as [|d sep]; [contradiction|]. cbn [app split_aux]. 
    change (d :: sep ++ s) with ((d :: sep) ++ s). rewrite prefixb_app. rewrite app_nil_r. f_equal.
    cbn [length]. rewrite Nat.sub_succ, Nat.sub_0_r. apply split_skip.
  - cbn [split_aux]. rewrite (H [] c x eq_refl). rewrite IH.
    + cbn [rev]. rewrite <- app_assoc. reflexivity.
    + intros a d b E. apply (H (c :: a)). now rewrite E.
Qed.
Lemma split_last sep x : sep <> [] -> ~ occurs sep x -> forall acc, split_aux sep 0 acc x = [rev acc ++ x].
Proof.
  intros Hs. induction x as [|c x IH]; intros Hx acc; cbn [split_aux].
  - now rewrite app_nil_r.
  - rewrite (not_occurs_suffix sep [] (c :: x)) by exact Hx. rewrite IH.
    + cbn [rev]. now rewrite <- app_assoc.
    + intros (a & b & ->). apply Hx. now exists (c :: a), b.
Qed.
Lemma split_semicolon x s : ~ occurs (lit "; ") x -> split (lit "; ") (x ++ lit "; " ++ s) = x :: split (lit "; ") s.
Proof.
  intros Hx. unfold split. rewrite split_quiet; [reflexivity|discriminate|].
  intros a c b E. apply not_true_iff_false. intros Hp. apply prefixb_spec in Hp as [t Ht].
  change (lit "; ") with [59%N; 32%N] in *. cbn [app] in Ht. injection Ht as -> Ht.
  destruct b as [|d b]; [discriminate|]. injection Ht as -> _. apply Hx. now exists a, b.
Qed.
Lemma split_of_join xs : xs <> [] -> Forall (fun x => ~ occurs (lit "; ") x) xs -> split (lit "; ") (join (lit "; ") xs) = xs.
Proof.
  induction xs as [|x xs IH]; intros Hne H; [contradiction|]. inversion H as [|? ? Hx Hxs]; subst.
  destruct xs as [|y xs].
  - cbn [join]. unfold split. rewrite split_last; [reflexivity|discriminate|exact Hx].
  - rewrite join_cons by discriminate. rewrite split_semicolon by exact Hx. f_equal. apply IH; [discriminate|exact Hxs].
Qed.

(** a mark anywhere *)
Lemma str_at keys m pre v : good_mark m -> quiet m pre -> one_line v ->
  get_str keys m (pre ++ m ++ v) = (Some (getf v keys), pre).
Proof.
  intros [H1 H2] Hq Hv. unfold get_str.
  assert (HM : forall s v r, match_line false m s = Some (v, r) -> prefixb m s = true /\ length r < length s)
    by (intros; now apply match_line_mark in H).
  rewrite (search_quiet m _ HM) by assumption.
  rewrite (search_hit _ _ _ _ (match_line_hit_end m v Hv)).
  rewrite (remove_all_quiet m _ HM) by assumption.
  rewrite (remove_all_hit m _ HM _ _ _ (match_line_hit_end m v Hv)).
  rewrite (remove_all_none m _ HM); [now rewrite app_nil_r|].
  intros (a & b & E). destruct a; [|discriminate]. cbn [app] in E. symmetry in E. apply app_eq_nil in E as [E _]. now apply H2.
Qed.
Lemma str_at_line keys m pre v rest : good_mark m -> quiet m pre -> one_line v -> ~ occurs m rest ->
  get_str keys m (pre ++ m ++ v ++ newline ++ rest) = (Some (getf v keys), pre ++ rest).
Proof.
  intros [H1 H2] Hq Hv HR. unfold get_str. change (newline ++ rest) with (10%N :: rest).
  assert (HM : forall s v r, match_line false m s = Some (v, r) -> prefixb m s = true /\ length r < length s)
    by (intros; now apply match_line_mark in H).
  rewrite (search_quiet m _ HM) by assumption.
  rewrite (search_hit _ _ _ _ (match_line_hit false m v rest Hv)).
  rewrite (remove_all_quiet m _ HM) by assumption.
  rewrite (remove_all_hit m _ HM _ _ _ (match_line_hit false m v rest Hv)).
  now rewrite (remove_all_none m _ HM) by exact HR.
Qed.
(** a text that only starts with the mark at its beginning: decided by looking at the first characters *)
Definition quiet_b (m pre : pystr) : bool :=
  forallb (fun k => match skipn k pre with
                    | [] => true
                    | s => existsb (fun j => match nth_error m j, nth_error s j with
                                             | Some a, Some b => negb (N.eqb a b)
                                             | _, _ => false
                                             end) (seq 0 (length m))
                    end) (seq 0 (length pre)).
Lemma prefixb_nth m : forall s j a b, prefixb m s = true -> nth_error m j = Some a -> nth_error s j = Some b -> a = b.
Proof.
  induction m as [|c m IH]; intros s j a b H Ha Hb; [destruct j; discriminate|].
  destruct s as [|d s]; [discriminate|]. cbn [prefixb] in H. apply andb_true_iff in H as [H1 H2]. apply N.eqb_eq in H1.
  destruct j as [|j]; cbn in Ha, Hb; [congruence|]. eapply IH; eauto.
Qed.
Lemma quiet_b_ok m pre : quiet_b m pre = true -> quiet m pre.
Proof.
  intros H a c b w E. unfold quiet_b in H. rewrite forallb_forall in H.
  specialize (H (length a)). rewrite E in H. rewrite skipn_app_len in H.
  assert (Hin : In (length a) (seq 0 (length (a ++ c :: b)))).
  { apply in_seq. rewrite app_length. cbn [length]. lia. }
  specialize (H Hin). apply existsb_exists in H as (j & _ & H).
  destruct (nth_error m j) as [x|] eqn:E1; [|discriminate].
  destruct (nth_error (c :: b) j) as [y|] eqn:E2; [|discriminate].
  apply negb_true_iff, N.eqb_neq in H. apply not_true_iff_false. intros Hp. apply H.
  apply (prefixb_nth m (c :: b ++ w) j); auto. rewrite app_comm_cons.
  rewrite nth_error_app1; [exact E2|]. apply nth_error_Some. congruence.
Qed.

(** the last line *)
Lemma match_last_mark m s v r : m <> [] -> match_last m s = Some (v, r) -> prefixb m s = true /\ length r < length s.
Proof.
  intros Hm. unfold match_last. destruct (prefixb m s) eqn:E; [|discriminate]. intros H. split; [reflexivity|].
  apply prefixb_spec in E as [t ->]. rewrite skipn_app_len in H. rewrite app_length.
  assert (0 < length m) by (destruct m; [contradiction|cbn; lia]).
  destruct (cut_line t) as [v' [[|c r']|]] eqn:C; try discriminate; injection H as <- <-; cbn; [|lia].
  apply cut_line_len in C. cbn in C. lia.
Qed.
Lemma model_at pre v : quiet mark_model (lit "Deviations from LCI Method Principles: " ++ pre) -> one_line v ->
  deviation_comment (pre ++ mark_model ++ v) = (Some v, lit "Deviations from LCI Method Principles: " ++ pre).
Proof.
  intros Hq Hv. unfold deviation_comment. rewrite app_assoc.
  assert (HM : forall s v r, match_last mark_model s = Some (v, r) -> prefixb mark_model s = true /\ length r < length s)
    by (intros s v0 r H; now apply match_last_mark in H).
  assert (Hh : match_last mark_model (mark_model ++ v) = Some (v, [])).
  { unfold match_last. rewrite prefixb_app, skipn_app_len, cut_line_end; auto. }
  rewrite (search_quiet mark_model _ HM) by exact Hq.
  rewrite (search_hit _ _ _ _ Hh). rewrite (remove_all_quiet mark_model _ HM) by exact Hq.
  rewrite (remove_all_hit mark_model _ HM _ _ _ Hh).
  change (remove_all (match_last mark_model) []) with (@nil N). now rewrite app_nil_r.
Qed.
Lemma model_absent t : ~ occurs mark_model (lit "Deviations from LCI Method Principles: " ++ t) ->
  deviation_comment t = (None, lit "Deviations from LCI Method Principles: " ++ t).
Proof.
  intros H. unfold deviation_comment. rewrite (search_none mark_model); auto.
  intros s v r Hm. now apply match_last_mark in Hm.
Qed.

(** technology comment *)
Lemma match_start_mark s v r : match_start s = Some (v, r) -> prefixb mark_start s = true /\ length r < length s.
Proof.
  unfold match_start. destruct (match_line true mark_start s) as [[v' r']|] eqn:E; [|discriminate].
  destruct (prefixb mark_end r') eqn:Ep; [|discriminate].
  pose proof (skipn_length (length mark_end) r') as Hl. intros H.
  assert (r = skipn (length mark_end) r') as -> by congruence.
  apply match_line_mark in E as [E1 E2]; [|discriminate]. split; [exact E1|]. lia.
Qed.
Lemma included_step A a b B rest :
  Forall (fun l => ~ occurs mark_start l /\ ~ occurs mark_end l) A -> Forall (fun l => ~ occurs mark_start l /\ ~ occurs mark_end l) B ->
  ~ occurs mark_start rest -> ~ occurs mark_end rest -> one_line a -> one_line b ->
  ~ occurs mark_end a -> ~ occurs mark_start b ->
  search_with match_start (closed_lines (A ++ (mark_start ++ a) :: (mark_end ++ b) :: B) ++ rest) = Some a /\
  remove_all (match_line true mark_start) (closed_lines (A ++ (mark_start ++ a) :: (mark_end ++ b) :: B) ++ rest)
    = closed_lines (A ++ (mark_end ++ b) :: B) ++ rest /\
  search_with (match_line false mark_end) (closed_lines (A ++ (mark_end ++ b) :: B) ++ rest) = Some b /\
  remove_all (match_line false mark_end) (closed_lines (A ++ (mark_end ++ b) :: B) ++ rest) = closed_lines (A ++ B) ++ rest.
Proof.
  intros HA HB R1 R2 Ha Hb Hae Hbs.
  assert (G1 : good_mark mark_start) by (split; [apply notin_b; vm_compute; reflexivity|discriminate]).
  assert (G2 : good_mark mark_end) by (split; [apply notin_b; vm_compute; reflexivity|discriminate]).
  assert (A1 : Forall (fun l => ~ occurs mark_start l) A) by (eapply Forall_impl; [|exact HA]; intros ? [? ?]; auto).
  assert (A2 : Forall (fun l => ~ occurs mark_end l) A) by (eapply Forall_impl; [|exact HA]; intros ? [? ?]; auto).
  assert (B1 : Forall (fun l => ~ occurs mark_start l) B) by (eapply Forall_impl; [|exact HB]; intros ? [? ?]; auto).
  assert (B2 : Forall (fun l => ~ occurs mark_end l) B) by (eapply Forall_impl; [|exact HB]; intros ? [? ?]; auto).
  assert (HM0 := match_start_mark).
  assert (HM1 : forall s v r, match_line true mark_start s = Some (v, r) -> prefixb mark_start s = true /\ length r < length s)
    by (intros s v r H; apply match_line_mark in H; [exact H|discriminate]).
  assert (HM2 : forall s v r, match_line false mark_end s = Some (v, r) -> prefixb mark_end s = true /\ length r < length s)
    by (intros s v r H; apply match_line_mark in H; [exact H|discriminate]).
  assert (Qa : ~ occurs mark_start (mark_end ++ b)).
  { intros Ho. assert (Hq : quiet mark_start mark_end) by (apply quiet_b_ok; vm_compute; reflexivity).
    revert Ho. apply quiet_not_occurs; auto. discriminate. }
  rewrite !closed_app, !closed_cons. repeat (rewrite <- app_assoc; cbn [app]).
  split; [|split; [|split]].
  - rewrite (search_quiet mark_start _ HM0) by (apply quiet_lines; auto; apply G1).
    eapply search_hit. unfold match_start.
    rewrite (match_line_hit true mark_start a _ Ha). rewrite prefixb_app. reflexivity.
  - rewrite (remove_all_quiet mark_start _ HM1) by (apply quiet_lines; auto; apply G1).
    rewrite (remove_all_hit mark_start _ HM1 _ _ _ (match_line_hit true mark_start a _ Ha)).
    rewrite (remove_all_none mark_start _ HM1); [reflexivity|].
    replace (mark_end ++ b ++ 10%N :: closed_lines B ++ rest) with (closed_lines ((mark_end ++ b) :: B) ++ rest)
      by (rewrite closed_cons; repeat (rewrite <- app_assoc; cbn [app]); reflexivity).
    apply (quiet_after mark_start G1); auto.
  - rewrite (search_quiet mark_end _ HM2) by (apply quiet_lines; auto; apply G2).
    eapply search_hit. exact (match_line_hit false mark_end b _ Hb).
  - rewrite (remove_all_quiet mark_end _ HM2) by (apply quiet_lines; auto; apply G2).
    rewrite (remove_all_hit mark_end _ HM2 _ _ _ (match_line_hit false mark_end b _ Hb)).
    rewrite (remove_all_none mark_end _ HM2); [reflexivity|]. apply (quiet_after mark_end G2); auto.
Qed.

(** ** versions *)
From Verif Require Import PyDigits Regex RegexFacts ValidatorsModel.
Lemma isdig_udigit c : isdig c -> is_udigit c = true.
Proof. intros H. unfold is_udigit. now rewrite digit_val_ascii. Qed.
Lemma digits_no_dot s : Forall isdig s -> ~ In 46%N s.
Proof. intros H Hin. rewrite Forall_forall in H. apply H in Hin. unfold isdig in Hin. lia. Qed.
Lemma dot_quiet x : ~ In 46%N x -> forall a c b w, x = a ++ c :: b -> prefixb (lit ".") (c :: b ++ lit "." ++ w) = false.
Proof.
  intros Hx a c b w ->. change (lit ".") with [46%N]. cbn [prefixb]. destruct (N.eqb_spec 46 c) as [<-|]; [|reflexivity].
  exfalso. apply Hx. apply in_or_app. right. now left.
Qed.
Lemma version_parts a b z : ~ In 46%N a -> ~ In 46%N b -> ~ In 46%N z ->
  split (lit ".") (a ++ lit "." ++ b ++ lit "." ++ z) = [a; b; z].
Proof.
  intros Ha Hb Hz. unfold split.
  rewrite split_quiet; [|discriminate|intros a0 c0 b0 E0; eapply dot_quiet; [|exact E0]; assumption].
  rewrite split_quiet; [|discriminate|intros a0 c0 b0 E0; eapply dot_quiet; [|exact E0]; assumption].
  rewrite split_last; [reflexivity|discriminate|].
  apply occurs_char with (c := 46%N); [now left|exact Hz].
Qed.
Lemma int_zero_pad n : int_of_str (48%N :: str_of_N n) = Some (Z.of_N n).
Proof.
  unfold int_of_str. rewrite strip_nospace.
  - rewrite pdig_digits; [|constructor; [unfold isdig; lia|apply str_of_N_digits]|left; discriminate].
    cbn [option_map]. f_equal. f_equal. exact (str_of_N_val n).
  - intros c [<-|Hc]; [reflexivity|]. apply isdig_nospace. exact (proj1 (Forall_forall _ _) (str_of_N_digits n) c Hc).
Qed.
Lemma version_no_look : no_look version_re = true.
Proof. vm_compute. reflexivity. Qed.
Lemma version_match s : re_matches version_re s = true <->
  exists c1 c2 c3 c4 rest, s = c1 :: c2 :: 46%N :: c3 :: c4 :: rest /\
    is_udigit c1 = true /\ is_udigit c2 = true /\ is_udigit c3 = true /\ is_udigit c4 = true.
Proof.
  rewrite (re_matches_iff _ _ version_no_look). split.
  - intros (u & rest & g & -> & H). unfold version_re in H.
    apply M_seq_inv in H as (x & y & g1 & -> & Hx & H). apply M_rpow_chr in Hx as (Lx & Fx & ->).
    apply M_seq_inv in H as (d & y2 & g2 & -> & Hd & H). apply M_rlit in Hd as [-> ->].
    apply M_seq_inv in H as (z & y3 & g3 & -> & Hz & H). apply M_rpow_chr in Hz as (Lz & Fz & ->).
    destruct x as [|c1 [|c2 [|]]]; try discriminate. destruct z as [|c3 [|c4 [|]]]; try discriminate.
    cbn in Fx, Fz. rewrite !andb_true_r in *. apply andb_true_iff in Fx as [F1 F2]. apply andb_true_iff in Fz as [F3 F4].
    exists c1, c2, c3, c4, (y3 ++ rest). split; [|auto]. reflexivity.
  - intros (c1 & c2 & c3 & c4 & rest & -> & F1 & F2 & F3 & F4).
    exists [c1; c2; 46%N; c3; c4], rest, []. split; [reflexivity|]. unfold version_re.
    change [c1; c2; 46%N; c3; c4] with ([c1; c2] ++ lit "." ++ [c3; c4] ++ []).
    econstructor; [apply M_rpow_chr; cbn; rewrite F1, F2; auto|].
    econstructor; [apply M_rlit; auto|].
    econstructor; [apply M_rpow_chr; cbn; rewrite F3, F4; auto|].
    unfold ropt. apply M_altr. constructor.
Qed.

(** ** the vote *)
Definition model_eq_dec (a b : option pystr * option pystr) : {a = b} + {a <> b}.
Proof. repeat decide equality. Defined.
Lemma count_pair_occ c l : count_pair c l = count_occ model_eq_dec l c.
Proof.
  unfold count_pair.
  assert (He : forall a b, opt_eqb a b = true <-> a = b).
  { intros [a|] [b|]; cbn [opt_eqb]; try (split; congruence); try tauto. rewrite str_eqb_eq. split; congruence. }
  induction l as [|d l IH]; [reflexivity|]. cbn [filter count_occ].
  destruct (model_eq_dec d c) as [->|Hne].
  - rewrite (proj2 (He _ _) eq_refl), (proj2 (He _ _) eq_refl). cbn [andb length]. now rewrite IH.
  - replace (opt_eqb (fst c) (fst d) && opt_eqb (snd c) (snd d))%bool with false; [exact IH|].
    symmetry. apply not_true_iff_false. intros H. apply andb_true_iff in H as [H1 H2]. apply He in H1, H2.
    apply Hne. destruct c, d; cbn in *; congruence.
Qed.
Lemma most_common_first all : forall l best, exists l1 l2,
  best :: l = l1 ++ most_common all l best :: l2 /\
  (forall d, In d l1 -> count_pair d all < count_pair (most_common all l best) all) /\
  (forall d, In d l2 -> count_pair d all <= count_pair (most_common all l best) all).
Proof.
  induction l as [|c l IH]; intros best; cbn [most_common].
  - exists [], []. repeat split; intros d [].
  - destruct (Nat.ltb_spec (count_pair best all) (count_pair c all)) as [Hlt|Hge].
    + destruct (IH c) as (l1 & l2 & E & H1 & H2). exists (best :: l1), l2. split; [cbn [app]; now rewrite <- E|]. split; [|exact H2].
      intros d [<-|Hd]; [|now apply H1].
      assert (count_pair c all <= count_pair (most_common all l c) all); [|lia].
      destruct l1 as [|x l1]; injection E as E0 E1; [rewrite <- E0; lia|]. subst x. specialize (H1 c (or_introl eq_refl)). lia.
    + destruct (IH best) as (l1 & l2 & E & H1 & H2). destruct l1 as [|x l1]; cbn [app] in E.
      * injection E as E0 E1. exists [], (c :: l2). rewrite <- E0 in H2 |- *. cbn [app]. split; [f_equal; f_equal; exact E1|].
        split; [intros d []|]. intros d [<-|Hd]; [exact Hge|now apply H2].
      * injection E as <- E. exists (best :: c :: l1), l2. split; [cbn [app]; f_equal; f_equal; exact E|]. split; [|exact H2].
        assert (Hb := H1 best (or_introl eq_refl)).
        intros d [<-|[<-|Hd]]; [exact Hb|lia|apply H1; now right].
Qed.
