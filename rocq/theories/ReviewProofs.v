(** Reviews and time periods: lemmas. *)
From Coq Require Import Ascii String List Bool Arith NArith ZArith Lia Sorted.
From Verif Require Import PyBase PyBaseFacts PyDigits PyValues Regex RegexFacts ValidatorsModel MultiLangModel MultiLangSpec
  CommentModel CommentSpec CommentProofs CommentProps ReviewModel ReviewSpec.
Import ListNotations.

(** ** runs of characters *)
Lemma span_run p a c r : forallb p a = true -> p c = false -> span p (a ++ c :: r) = (a, c :: r).
Proof.
  intros Ha Hc. induction a as [|d a IH]; cbn [app span].
  - now rewrite Hc.
  - cbn in Ha. apply andb_true_iff in Ha as [-> Ha]. now rewrite IH.
Qed.
Lemma span_end p a : forallb p a = true -> span p a = (a, []).
Proof.
  intros Ha. induction a as [|d a IH]; cbn [span]; [reflexivity|].
  cbn in Ha. apply andb_true_iff in Ha as [-> Ha]. now rewrite IH.
Qed.
Lemma span_split p s : forall a b, span p s = (a, b) -> s = a ++ b.
Proof.
  induction s as [|c s IH]; cbn [span]; intros a b H; [injection H as <- <-; reflexivity|].
  destruct (p c); [|injection H as <- <-; reflexivity].
  destruct (span p s) as [u v]. injection H as <- <-. cbn. now rewrite (IH u v).
Qed.
Lemma run_hit p stop a r : a <> [] -> forallb p a = true -> p stop = false -> run_then p stop (a ++ stop :: r) = Some (a, r).
Proof.
  intros Hn Ha Hs. unfold run_then. rewrite span_run by assumption. destruct a; [contradiction|]. now rewrite N.eqb_refl.
Qed.
Lemma run_len p stop s a r : run_then p stop s = Some (a, r) -> length r < length s.
Proof.
  unfold run_then. destruct (span p s) as [[|x u] [|c v]] eqn:E; try discriminate.
  destruct (N.eqb c stop); [|discriminate]. intros H. injection H as <- <-.
  apply span_split in E. subst s. rewrite app_length. cbn. lia.
Qed.
Lemma run_stop p stop s a r : run_then p stop s = Some (a, r) -> s = a ++ stop :: r.
Proof.
  unfold run_then. destruct (span p s) as [[|x u] [|c v]] eqn:E; try discriminate.
  destruct (N.eqb_spec c stop); [|discriminate]. intros H. injection H as <- <-.
  apply span_split in E. now subst.
Qed.

Lemma version_mark s v r : match_version s = Some (v, r) -> prefixb mark_version s = true /\ length r < length s.
Proof.
  unfold match_version. destruct (prefixb mark_version s) eqn:E; [|discriminate]. intros H. split; [reflexivity|].
  apply prefixb_spec in E as [t ->]. rewrite skipn_app_len in H. rewrite app_length.
  destruct (run_then is_digit dot t) as [[a s1]|] eqn:E1; [|discriminate].
  destruct (run_then is_digit dot s1) as [[b s2]|] eqn:E2; [|discriminate].
  destruct (run_then is_digit dot s2) as [[c s3]|] eqn:E3; [|discriminate].
  destruct (run_then is_digit nl s3) as [[d s4]|] eqn:E4; [|discriminate].
  injection H as _ <-. apply run_len in E1, E2, E3, E4. lia.
Qed.
Lemma date_mark s v r : match_date s = Some (v, r) -> prefixb mark_date s = true /\ length r < length s.
Proof.
  unfold match_date. destruct (prefixb mark_date s) eqn:E; [|discriminate]. intros H. split; [reflexivity|].
  apply prefixb_spec in E as [t ->]. rewrite skipn_app_len in H. apply run_len in H. rewrite app_length. lia.
Qed.

Lemma numeral_b a : numeral a -> a <> [] /\ forallb is_digit a = true.
Proof.
  intros [H1 H2]. split; [exact H1|]. apply forallb_forall. intros c Hc. rewrite Forall_forall in H2. specialize (H2 c Hc).
  unfold digit in H2. unfold is_digit, between. rewrite (proj2 (N.leb_le _ _)) by lia. now apply N.leb_le.
Qed.
Lemma dateish_b a : dateish a -> a <> [] /\ forallb is_date_char a = true.
Proof.
  intros [H1 H2]. split; [exact H1|]. apply forallb_forall. intros c Hc. rewrite Forall_forall in H2. specialize (H2 c Hc).
  unfold is_date_char, is_digit, between. destruct H2 as [H2|[->| ->]]; [|reflexivity|reflexivity].
  unfold digit in H2. rewrite (proj2 (N.leb_le 48 c)), (proj2 (N.leb_le c 57)) by lia. reflexivity.
Qed.
Lemma version_hit a b c d w : numeral a -> numeral b -> numeral c -> numeral d ->
  match_version (mark_version ++ join (lit ".") [a; b; c; d] ++ 10%N :: w) = Some (join (lit ".") [a; b; c; d], w).
Proof.
  intros Ha Hb Hc Hd. apply numeral_b in Ha as [Ha1 Ha2], Hb as [Hb1 Hb2], Hc as [Hc1 Hc2], Hd as [Hd1 Hd2].
  unfold match_version. rewrite prefixb_app, skipn_app_len.
  assert (E : join (lit ".") [a; b; c; d] ++ 10%N :: w = a ++ dot :: b ++ dot :: c ++ dot :: d ++ nl :: w).
  { cbn [join]. rewrite <- !app_assoc. reflexivity. }
  rewrite E. rewrite !run_hit; auto.
Qed.
Lemma date_hit a w : dateish a -> match_date (mark_date ++ a ++ 10%N :: w) = Some (a, w).
Proof.
  intros Ha. apply dateish_b in Ha as [H1 H2]. unfold match_date. rewrite prefixb_app, skipn_app_len.
  now apply run_hit.
Qed.

(** ** splitting at one character *)
Lemma split_char_of_join c xs : xs <> [] -> Forall (fun x => ~ In c x) xs -> split [c] (join [c] xs) = xs.
Proof.
  assert (O : forall x, ~ In c x -> ~ occurs [c] x).
  { intros x Hx (a & b & ->). apply Hx, in_or_app. right. now left. }
  induction xs as [|x xs IH]; intros Hne H; [contradiction|]. inversion H as [|? ? Hx Hxs]; subst.
  destruct xs as [|y xs].
  - cbn [join]. unfold split. rewrite split_last; [reflexivity|discriminate|now apply O].
  - rewrite join_cons by discriminate.
    unfold split. rewrite split_quiet; [|discriminate|].
    + cbn [rev app]. f_equal. apply IH; [discriminate|exact Hxs].
    + intros a d b ->. cbn [prefixb]. destruct (N.eqb_spec c d) as [->|]; [|reflexivity].
      exfalso. apply Hx, in_or_app. right. now left.
Qed.
Lemma numeral_no c a : numeral a -> ~ digit c -> ~ In c a.
Proof. intros [_ H] Hc Hi. rewrite Forall_forall in H. exact (Hc (H c Hi)). Qed.
Lemma version_split a b c d : numeral a -> numeral b -> numeral c -> numeral d ->
  split (lit ".") (join (lit ".") [a; b; c; d]) = [a; b; c; d].
Proof.
  intros Ha Hb Hc Hd. change (lit ".") with [46%N]. apply split_char_of_join; [discriminate|].
  repeat constructor; apply numeral_no; auto; unfold digit; lia.
Qed.

(** ** the marked lines of a review *)
Lemma mark_in_date : occurs mark_version mark_date -> False.
Proof. apply not_infixb. vm_compute. reflexivity. Qed.
Lemma version_not_in_date_line d : dateish d -> ~ occurs mark_version (mark_date ++ d).
Proof.
  intros [_ H] Ho. change mark_version with (lit "Review Version:" ++ [32%N]) in Ho.
  assert (R : occurs (lit "Review V") (mark_date ++ d)).
  { destruct Ho as (a & b & E). exists a, (lit "ersion: " ++ b). rewrite E. rewrite <- !app_assoc. reflexivity. }
  change (lit "Review V") with (lit "Review " ++ [86%N]) in R. apply occurs_before in R.
  - revert R. apply not_infixb. vm_compute. reflexivity.
  - intros Hi. rewrite Forall_forall in H. destruct (H _ Hi) as [E|[E|E]]; [unfold digit in E; lia|discriminate|discriminate].
Qed.
Lemma dateish_line d : dateish d -> one_line (mark_date ++ d).
Proof.
  intros [_ H] Hi. apply in_app_or in Hi as [Hi|Hi].
  - vm_compute in Hi. repeat (destruct Hi as [Hi|Hi]; [discriminate|]). destruct Hi.
  - rewrite Forall_forall in H. destruct (H _ Hi) as [E|[E|E]]; [unfold digit in E; lia|discriminate|discriminate].
Qed.
Lemma good_version : one_line mark_version /\ mark_version <> [].
Proof.
  split; [|discriminate]. intros Hi. vm_compute in Hi. repeat (destruct Hi as [Hi|Hi]; [discriminate|]). destruct Hi.
Qed.

Lemma review_comment_full d a b c e rest :
  dateish d -> numeral a -> numeral b -> numeral c -> numeral e ->
  ~ occurs mark_date rest -> ~ occurs mark_version rest ->
  review_comment (mark_date ++ d ++ newline ++ mark_version ++ join (lit ".") [a; b; c; e] ++ newline ++ rest)
  = (Some [a; b; c; e], Some d, rest).
Proof.
  intros Hd Ha Hb Hc He R1 R2. unfold review_comment.
  assert (Q : quiet mark_version ((mark_date ++ d) ++ 10%N :: [])).
  { apply quiet_line; [apply good_version|apply good_version|now apply version_not_in_date_line|apply quiet_nil]. }
  assert (E : mark_date ++ d ++ newline ++ mark_version ++ join (lit ".") [a; b; c; e] ++ newline ++ rest
              = ((mark_date ++ d) ++ 10%N :: []) ++ mark_version ++ join (lit ".") [a; b; c; e] ++ 10%N :: rest).
  { rewrite <- !app_assoc. reflexivity. }
  rewrite E.
  rewrite (search_quiet mark_version _ version_mark) by exact Q.
  rewrite (search_hit _ _ _ _ (version_hit a b c e rest Ha Hb Hc He)).
  rewrite (remove_all_quiet mark_version _ version_mark) by exact Q.
  rewrite (remove_all_hit mark_version _ version_mark _ _ _ (version_hit a b c e rest Ha Hb Hc He)).
  rewrite (remove_all_none mark_version _ version_mark) by exact R2.
  rewrite version_split by assumption.
  assert (E2 : ((mark_date ++ d) ++ 10%N :: []) ++ rest = mark_date ++ d ++ 10%N :: rest) by (rewrite <- !app_assoc; reflexivity).
  rewrite E2. rewrite (search_hit _ _ _ _ (date_hit d rest Hd)).
  rewrite (remove_all_hit mark_date _ date_mark _ _ _ (date_hit d rest Hd)).
  now rewrite (remove_all_none mark_date _ date_mark).
Qed.
(** without details the version line is the last one and is not found *)
Lemma search_all_none {A} (M : pystr -> option (A * pystr)) s : (forall a b, s = a ++ b -> M b = None) -> search_with M s = None.
Proof.
  induction s as [|c s IH]; intros H; cbn [search_with].
  - now rewrite (H [] [] eq_refl).
  - rewrite (H [] (c :: s) eq_refl). apply IH. intros a b ->. apply (H (c :: a) b eq_refl).
Qed.
Lemma review_comment_bare d v : dateish d -> one_line v -> ~ occurs mark_date (mark_version ++ v) -> 
  review_comment (mark_date ++ d ++ newline ++ mark_version ++ v) = (None, Some d, mark_version ++ v).
Proof.
  intros Hd Hv Ho. unfold review_comment.
  assert (Q : quiet mark_version ((mark_date ++ d) ++ 10%N :: [])).
  { apply quiet_line; [apply good_version|apply good_version|now apply version_not_in_date_line|apply quiet_nil]. }
  assert (N0 : search_with match_version (mark_version ++ v) = None).
  { apply search_all_none. intros x y E. destruct (match_version y) as [[g r]|] eqn:Em; [|reflexivity].
    exfalso. assert (Hn : In 10%N y).
    { revert Em. unfold match_version. destruct (prefixb mark_version y); [|discriminate].
      destruct (run_then is_digit dot _) as [[a s1]|] eqn:E1; [|discriminate].
      destruct (run_then is_digit dot s1) as [[b s2]|] eqn:E2; [|discriminate].
      destruct (run_then is_digit dot s2) as [[c s3]|] eqn:E3; [|discriminate].
      destruct (run_then is_digit nl s3) as [[e s4]|] eqn:E4; [|discriminate]. intros _.
      apply run_stop in E1, E2, E3, E4. rewrite <- (firstn_skipn (length mark_version) y), E1, E2, E3, E4.
      apply in_or_app; right. apply in_or_app; right; right. apply in_or_app; right; right. apply in_or_app; right; right.
      apply in_or_app; right; left. reflexivity. }
    assert (Hi : In 10%N (mark_version ++ v)) by (rewrite E; apply in_or_app; now right).
    apply in_app_or in Hi as [Hi|Hi]; [now apply good_version in Hi|now apply Hv]. }
  assert (E : mark_date ++ d ++ newline ++ mark_version ++ v = ((mark_date ++ d) ++ 10%N :: []) ++ mark_version ++ v)
    by (rewrite <- !app_assoc; reflexivity).
  rewrite E. rewrite (search_quiet mark_version _ version_mark) by exact Q. rewrite N0.
  assert (E2 : ((mark_date ++ d) ++ 10%N :: []) ++ mark_version ++ v = mark_date ++ d ++ 10%N :: mark_version ++ v)
    by (rewrite <- !app_assoc; reflexivity).
  rewrite E2. rewrite (search_hit _ _ _ _ (date_hit d _ Hd)).
  rewrite (remove_all_hit mark_date _ date_mark _ _ _ (date_hit d _ Hd)).
  now rewrite (remove_all_none mark_date _ date_mark).
Qed.

(** ** find *)
Lemma find_from_ge n s : forall i, (0 <= i)%Z -> (find_from i n s = -1 \/ i <= find_from i n s)%Z.
Proof.
  induction s as [|c s IH]; intros i Hi; cbn [find_from].
  - destruct (prefixb n []); [right; lia|now left].
  - destruct (prefixb n (c :: s)); [right; lia|]. destruct (IH (i + 1)%Z ltac:(lia)) as [H|H]; [now left|right; lia].
Qed.
Lemma find_zero n s : n <> [] -> find s n = 0%Z -> prefixb n s = true.
Proof.
  unfold find. intros Hn H. destruct s as [|c s]; cbn [find_from] in H.
  - destruct (prefixb n []); [reflexivity|discriminate].
  - destruct (prefixb n (c :: s)); [reflexivity|]. destruct (find_from_ge n s 1 ltac:(lia)) as [E|E]; cbn in *; lia.
Qed.

(** ** dates *)
Lemma dig_digit n : digit (dig n).
Proof. unfold dig, digit. pose proof (Z.mod_pos_bound n 10 eq_refl). lia. Qed.
Lemma dig_u n : is_udigit (dig n) = true.
Proof. unfold is_udigit. now rewrite digit_val_ascii by apply dig_digit. Qed.
Lemma sub_two n : S (S n) - n = 2. Proof. lia. Qed.
Lemma sub_one n : S n - n = 1. Proof. lia. Qed.
Lemma mt_grp_seq n a k s g : mt (RSeq (RGrp n a) k) s g =
  flat_map (fun x => mt k (fst x) ((n, firstn (length s - length (fst x)) s) :: snd x)) (mt a s g).
Proof.
  cbn [mt]. induction (mt a s g) as [|x l IH]; [reflexivity|]. cbn [map flat_map fst snd]. now rewrite IH.
Qed.
Lemma year_step y k s g : mt (RSeq Y_ k) (pad4 y ++ s) g = mt k s ((1, pad4 y) :: g).
Proof.
  unfold Y_, pad4. rewrite mt_grp_seq. cbn [rpow mt app flat_map d_].
  unfold d_. cbn [mt]. rewrite !dig_u. cbn [flat_map fst snd app mt]. rewrite !dig_u. cbn [flat_map fst snd app mt].
  rewrite dig_u. cbn [flat_map fst snd app mt]. rewrite dig_u. cbn [flat_map fst snd app mt].
  rewrite app_nil_r. cbn [length]. replace (S (S (S (S (length s)))) - length s) with 4 by lia. reflexivity.
Qed.
Lemma lit_step c k s g : mt (RSeq (rlit [c]) k) (c :: s) g = mt k s g.
Proof. cbn [rlit rlit_c mt]. rewrite N.eqb_refl. cbn [flat_map fst snd]. apply app_nil_r. Qed.
Lemma lit_miss c d k s g : c <> d -> mt (RSeq (rlit [c]) k) (d :: s) g = [].
Proof. intros H. cbn [rlit rlit_c mt]. destruct (N.eqb_spec c d); [contradiction|reflexivity]. Qed.

(** a field of two digits: every way to match it *)
Definition two_ok (a : re) (v : Z) : Prop :=
  forall s g, mt a (pad2 v ++ s) g = [(s, g)] \/ mt a (pad2 v ++ s) g = [(s, g); (dig v :: s, g)].
Lemma enum_range (P : Z -> Prop) lo hi : Forall P (zrange lo hi) -> forall v, (lo <= v < hi)%Z -> P v.
Proof.
  intros H v Hv. rewrite Forall_forall in H. apply H. unfold zrange. apply in_map_iff.
  exists (Z.to_nat (v - lo)). split; [lia|]. apply in_seq. lia.
Qed.
Ltac each_two := apply enum_range; match goal with |- Forall _ ?z => let l := eval vm_compute in z in replace z with l by (vm_compute; reflexivity) end; repeat apply Forall_cons; try apply Forall_nil; intros s g;
  match goal with |- ?x = _ \/ _ => let r := eval vm_compute in x in
    lazymatch r with
    | [_] => left; vm_cast_no_check (eq_refl r)
    | _ => right; vm_cast_no_check (eq_refl r)
    end end.
Definition body (r : re) : re := match r with RGrp _ a => a | _ => r end.
Lemma month_two v : (1 <= v < 13)%Z -> two_ok (body m_) v.
Proof. revert v. each_two. Qed.
Lemma day_two v : (1 <= v < 32)%Z -> two_ok (body d__) v.
Proof. revert v. each_two. Qed.
Lemma hour_two v : (0 <= v < 24)%Z -> two_ok (body H_) v.
Proof. revert v. each_two. Qed.
Lemma minute_two v : (0 <= v < 60)%Z -> two_ok (body M_) v.
Proof. revert v. each_two. Qed.
Lemma second_two v : (0 <= v < 60)%Z -> two_ok (body S_) v.
Proof. revert v. each_two. Qed.

Lemma two_step n a v k s g : two_ok a v -> (forall s' g', mt k (dig v :: s') g' = []) ->
  mt (RSeq (RGrp n a) k) (pad2 v ++ s) g = mt k s ((n, pad2 v) :: g).
Proof.
  intros H K. rewrite mt_grp_seq. destruct (H s g) as [E|E]; rewrite E; cbn [flat_map fst snd].
  - rewrite app_nil_r. rewrite app_length. cbn [length pad2 plus]. rewrite sub_two. reflexivity.
  - rewrite K. cbn [app]. rewrite app_nil_r. rewrite app_length. cbn [length pad2 plus]. rewrite sub_two. reflexivity.
Qed.
Lemma dig_not c n : ~ digit c -> c <> dig n.
Proof. intros H ->. apply H, dig_digit. Qed.
Lemma hy_dig n k s g : mt (RSeq hy k) (dig n :: s) g = [].
Proof. apply lit_miss, dig_not. unfold digit; intros [H1 H2]; vm_compute in H1, H2; congruence. Qed.
Lemma co_dig n k s g : mt (RSeq co k) (dig n :: s) g = [].
Proof. apply lit_miss, dig_not. unfold digit; intros [H1 H2]; vm_compute in H1, H2; congruence. Qed.
Lemma cls_miss p c k s g : p c = false -> mt (RSeq (RChr p) k) (c :: s) g = [].
Proof. intros H. cbn [mt]. now rewrite H. Qed.
Lemma cls_step p c k s g : p c = true -> mt (RSeq (RChr p) k) (c :: s) g = mt k s g.
Proof. intros H. cbn [mt]. rewrite H. cbn [flat_map fst snd]. apply app_nil_r. Qed.
Lemma T_dig n k s g : mt (RSeq T_ k) (dig n :: s) g = [].
Proof.
  apply cls_miss. pose proof (dig_digit n) as H. unfold digit in H.
  destruct (N.eqb_spec (dig n) 84); [lia|]. destruct (N.eqb_spec (dig n) 116); [lia|reflexivity].
Qed.

(** year, month and day, whatever comes next *)
Lemma ymd_step y m d k s g : (1 <= m < 13)%Z -> (1 <= d < 32)%Z -> (forall s' g', mt k (dig d :: s') g' = []) ->
  mt (RSeq Y_ (RSeq hy (RSeq m_ (RSeq hy (RSeq d__ k))))) (date_text (y, m, d) ++ s) g
  = mt k s ((3, pad2 d) :: (2, pad2 m) :: (1, pad4 y) :: g).
Proof.
  intros Hm Hd K. unfold date_text. rewrite <- !app_assoc. rewrite year_step.
  change (lit "-" ++ pad2 m ++ lit "-" ++ pad2 d ++ s) with (45%N :: pad2 m ++ 45%N :: pad2 d ++ s).
  unfold hy at 1. change (lit "-") with [45%N]. rewrite lit_step.
  unfold m_. rewrite (two_step 2 _ m _ (45%N :: pad2 d ++ s)); [|exact (month_two m Hm)|intros; apply hy_dig].
  unfold hy. change (lit "-") with [45%N]. rewrite lit_step.
  unfold d__. rewrite (two_step 3 _ d _ s); [reflexivity|exact (day_two d Hd)|exact K].
Qed.
(** the date format: the match ends after the day *)
Lemma date_match y m d s : (1 <= m < 13)%Z -> (1 <= d < 32)%Z ->
  re_match format_date (date_text (y, m, d) ++ s) = Some (s, [(3, pad2 d); (2, pad2 m); (1, pad4 y)]).
Proof.
  intros Hm Hd. unfold re_match, format_date. cbn [rseqs]. unfold date_text. rewrite <- !app_assoc. rewrite year_step.
  change (lit "-" ++ pad2 m ++ lit "-" ++ pad2 d ++ s) with (45%N :: pad2 m ++ 45%N :: pad2 d ++ s).
  unfold hy at 1. change (lit "-") with [45%N]. rewrite lit_step.
  unfold m_. rewrite (two_step 2 _ m _ (45%N :: pad2 d ++ s)); [|exact (month_two m Hm)|intros; apply hy_dig].
  unfold hy. change (lit "-") with [45%N]. rewrite lit_step.
  change (mt d__ ?x ?g) with (map (fun x0 => (fst x0, (3, firstn (length x - length (fst x0)) x) :: snd x0)) (mt (body d__) x g)).
  destruct (day_two d Hd s [(2, pad2 m); (1, pad4 y)]) as [E|E]; rewrite E; cbn [map fst snd];
    rewrite app_length; cbn [length pad2 plus]; rewrite sub_two; reflexivity.
Qed.

Lemma dig_val n : (0 <= n)%Z -> dval [dig n] = Z.to_N (n mod 10).
Proof. intros H. unfold dval, dig. cbn [fold_left]. pose proof (Z.mod_pos_bound n 10 eq_refl). lia. Qed.
Lemma int_digits s : s <> [] -> Forall isdig s -> int_of_str s = Some (Z.of_N (dval s)).
Proof.
  intros Hn Hs. unfold int_of_str. rewrite strip_nospace.
  2:{ intros c Hc. apply isdig_nospace. rewrite Forall_forall in Hs. now apply Hs. }
  pose proof (pdig_digits s Hs 0%N false (or_introl Hn)) as P. fold (dval s) in P.
  destruct s as [|c t]; [contradiction|]. inversion Hs as [|? ? Hc _]; subst. unfold isdig in Hc.
  assert (c = 48 \/ c = 49 \/ c = 50 \/ c = 51 \/ c = 52 \/ c = 53 \/ c = 54 \/ c = 55 \/ c = 56 \/ c = 57)%N as Hcc by lia.
  repeat (destruct Hcc as [->|Hcc]; [now rewrite P|]). subst. now rewrite P.
Qed.
Lemma digs_isdig l : Forall isdig (map dig l).
Proof. apply Forall_forall. intros c Hc. apply in_map_iff in Hc as (n & <- & _). apply dig_digit. Qed.
Lemma number_pad2 n : (0 <= n <= 99)%Z -> number (pad2 n) = n.
Proof.
  intros H. unfold number. rewrite int_digits; [|discriminate|apply (digs_isdig [n / 10; n]%Z)].
  unfold dval, pad2, dig. cbn [fold_left].
  pose proof (Z.div_mod n 10 ltac:(lia)). pose proof (Z.mod_pos_bound n 10 eq_refl).
  assert (E : ((n / 10) mod 10 = n / 10)%Z) by (apply Z.mod_small; split; [apply Z.div_pos; lia|apply Z.div_lt_upper_bound; lia]).
  rewrite E. assert (0 <= n / 10)%Z by (apply Z.div_pos; lia). lia.
Qed.
Lemma number_pad4 n : (0 <= n <= 9999)%Z -> number (pad4 n) = n.
Proof.
  intros H. unfold number. rewrite int_digits; [|discriminate|apply (digs_isdig [n / 1000; n / 100; n / 10; n]%Z)].
  unfold dval, pad4, dig. cbn [fold_left].
  assert (E1 : (n / 100 = n / 10 / 10)%Z) by (rewrite Z.div_div by lia; reflexivity).
  assert (E2 : (n / 1000 = n / 10 / 10 / 10)%Z) by (rewrite !Z.div_div by lia; reflexivity).
  rewrite E1, E2. set (q1 := (n / 10)%Z). set (q2 := (q1 / 10)%Z). set (q3 := (q2 / 10)%Z).
  pose proof (Z.div_mod n 10 ltac:(lia)) as A1. fold q1 in A1. pose proof (Z.mod_pos_bound n 10 eq_refl).
  pose proof (Z.div_mod q1 10 ltac:(lia)) as A2. fold q2 in A2. pose proof (Z.mod_pos_bound q1 10 eq_refl).
  pose proof (Z.div_mod q2 10 ltac:(lia)) as A3. fold q3 in A3. pose proof (Z.mod_pos_bound q2 10 eq_refl).
  assert (0 <= q1)%Z by (apply Z.div_pos; lia). assert (0 <= q2)%Z by (apply Z.div_pos; lia).
  assert (0 <= q3)%Z by (apply Z.div_pos; lia). assert (q3 < 10)%Z by lia.
  rewrite (Z.mod_small q3 10) by lia. lia.
Qed.

Lemma leap_iff y : leap y = true <-> is_leap y.
Proof.
  unfold leap, is_leap. rewrite andb_true_iff, orb_true_iff, negb_true_iff, !Z.eqb_eq, Z.eqb_neq.
  rewrite <- !Z.mod_divide by lia. split.
  - intros [H [H'|H']]; auto.
  - intros [[H1 H2]|H]; [auto|]. assert (Z.divide 4 y).
    { apply Z.divide_trans with 400%Z; [now exists 100%Z|]. now apply Z.mod_divide. }
    split; [now apply Z.mod_divide|now right].
Qed.
Lemma month_days_iff y m n : (1 <= m <= 12)%Z -> days_in y m n <-> n = month_days y m.
Proof.
  intros Hm. split.
  - intros H. destruct H as [y m H|y m H|y H|y H].
    + cbn in H. repeat (destruct H as [<-|H]; [reflexivity|]). destruct H.
    + cbn in H. repeat (destruct H as [<-|H]; [reflexivity|]). destruct H.
    + unfold month_days. cbn. now rewrite (proj2 (leap_iff y) H).
    + unfold month_days. cbn. destruct (leap y) eqn:E; [|reflexivity]. now apply leap_iff in E.
  - intros ->. assert (m = 1 \/ m = 2 \/ m = 3 \/ m = 4 \/ m = 5 \/ m = 6 \/ m = 7 \/ m = 8 \/ m = 9 \/ m = 10 \/ m = 11 \/ m = 12)%Z as C by lia.
    destruct C as [->|[->|C]].
    + apply d31. cbn; auto.
    + unfold month_days. cbn. destruct (leap y) eqn:E; [apply d29; now apply leap_iff|apply d28].
      intros L. apply leap_iff in L. congruence.
    + repeat (destruct C as [->|C]; [first [apply d31; cbn; tauto | apply d30; cbn; tauto]|]). subst.
      apply d31; cbn; tauto.
Qed.
Lemma days_month y m n : days_in y m n -> (1 <= m <= 12 /\ 28 <= n <= 31)%Z.
Proof. intros H. destruct H as [y m H|y m H|y H|y H]; [| |lia|lia]; cbn in H; lia. Qed.
Lemma real_day_b y m d : real_day (y, m, d) <->
  (1 <= y <= 9999)%Z /\ (1 <= m <= 12)%Z /\ (1 <= d <= month_days y m)%Z.
Proof.
  cbn [real_day]. split.
  - intros (H1 & H2 & n & Hn & H3). destruct (days_month _ _ _ Hn) as [Hm _].
    apply month_days_iff in Hn; [|exact Hm]. lia.
  - intros (H1 & H2 & H3). split; [exact H1|]. split; [lia|]. exists (month_days y m). split; [now apply month_days_iff|lia].
Qed.
Lemma month_days_le y m : (month_days y m <= 31)%Z.
Proof. unfold month_days. destruct (m =? 2)%Z; [destruct (leap y); lia|]. destruct (existsb _ _); lia. Qed.
Lemma day_range y m d : real_day (y, m, d) -> (1 <= m < 13 /\ 1 <= d < 32)%Z.
Proof. intros H. apply real_day_b in H as (_ & H2 & H3). pose proof (month_days_le y m). lia. Qed.

(** year of a text whose match is known *)
Lemma year_of_groups fmt s y m d g : re_match fmt s = Some ([], g) -> 
  group g 1 = pad4 y -> group g 2 = pad2 m -> group g 3 = pad2 d ->
  real_day (y, m, d) -> strptime_year fmt s = Some y.
Proof.
  intros E G1 G2 G3 H. unfold strptime_year. rewrite E, G1, G2, G3.
  pose proof (day_range _ _ _ H) as R. apply real_day_b in H as (H1 & H2 & H3).
  rewrite number_pad4, !number_pad2 by lia.
  rewrite !(proj2 (Z.leb_le _ _)) by lia. reflexivity.
Qed.
Lemma get_year_date y m d : real_day (y, m, d) -> get_year (date_text (y, m, d)) = Ok y.
Proof.
  intros H. pose proof (day_range _ _ _ H) as [Hm Hd]. unfold get_year.
  pose proof (date_match y m d [] Hm Hd) as E. rewrite app_nil_r in E.
  now rewrite (year_of_groups _ _ y m d _ E).
Qed.
Lemma strptime_date_more y m d s : (1 <= m < 13)%Z -> (1 <= d < 32)%Z -> s <> [] ->
  strptime_year format_date (date_text (y, m, d) ++ s) = None.
Proof. intros Hm Hd Hs. unfold strptime_year. rewrite date_match by assumption. destruct s; [contradiction|reflexivity]. Qed.

(** ** times of day *)
Lemma clock_step h m s k w g : is_clock h m s -> (forall s' g', mt k (dig s :: s') g' = []) ->
  mt (RSeq T_ (RSeq H_ (RSeq co (RSeq M_ (RSeq co (RSeq S_ k)))))) (clock_text h m s ++ w) g
  = mt k w ((6, pad2 s) :: (5, pad2 m) :: (4, pad2 h) :: g).
Proof.
  intros (Hh & Hm & Hs) K. unfold clock_text. rewrite <- !app_assoc.
  change (lit "T" ++ pad2 h ++ lit ":" ++ pad2 m ++ lit ":" ++ pad2 s ++ w) with (84%N :: pad2 h ++ 58%N :: pad2 m ++ 58%N :: pad2 s ++ w).
  unfold T_. rewrite cls_step by reflexivity.
  unfold H_. rewrite (two_step 4 _ h _ (58%N :: pad2 m ++ 58%N :: pad2 s ++ w)); [|exact (hour_two h Hh)|intros; apply co_dig].
  unfold co at 1. change (lit ":") with [58%N]. rewrite lit_step.
  unfold M_. rewrite (two_step 5 _ m _ (58%N :: pad2 s ++ w)); [|exact (minute_two m Hm)|intros; apply co_dig].
  unfold co. change (lit ":") with [58%N]. rewrite lit_step.
  unfold S_. rewrite (two_step 6 _ s _ w); [reflexivity|exact (second_two s Hs)|exact K].
Qed.
Lemma Z_dig n s g : mt Z_ (dig n :: s) g = [].
Proof.
  pose proof (dig_digit n) as H. unfold digit in H. cbn [Z_ mt].
  unfold Z_. cbn [mt]. destruct (N.eqb_spec (dig n) 90); [lia|]. destruct (N.eqb_spec (dig n) 122); [lia|reflexivity].
Qed.
Lemma dot_dig n k s g : mt (RSeq (rlit (lit ".")) k) (dig n :: s) g = [].
Proof. apply lit_miss, dig_not. unfold digit; intros [H1 H2]; vm_compute in H1, H2; congruence. Qed.

Lemma time_match y m d h mi s w : real_day (y, m, d) -> is_clock h mi s ->
  mt format_time (date_text (y, m, d) ++ clock_text h mi s ++ w) []
  = mt Z_ w [(6, pad2 s); (5, pad2 mi); (4, pad2 h); (3, pad2 d); (2, pad2 m); (1, pad4 y)].
Proof.
  intros H C. destruct (day_range _ _ _ H) as [Hm Hd]. unfold format_time. cbn [rseqs].
  rewrite ymd_step; [|exact Hm|exact Hd|intros; apply T_dig].
  rewrite clock_step; [reflexivity|exact C|intros; apply Z_dig].
Qed.
Lemma fraction_match y m d h mi s w : real_day (y, m, d) -> is_clock h mi s ->
  mt format_fraction (date_text (y, m, d) ++ clock_text h mi s ++ w) []
  = mt (RSeq (rlit (lit ".")) (RSeq f_ Z_)) w [(6, pad2 s); (5, pad2 mi); (4, pad2 h); (3, pad2 d); (2, pad2 m); (1, pad4 y)].
Proof.
  intros H C. destruct (day_range _ _ _ H) as [Hm Hd]. unfold format_fraction. cbn [rseqs].
  rewrite ymd_step; [|exact Hm|exact Hd|intros; apply T_dig].
  rewrite clock_step; [reflexivity|exact C|intros; apply dot_dig].
Qed.
Lemma clock_nonnil h m s w : clock_text h m s ++ w <> [].
Proof. discriminate. Qed.

Lemma get_year_time y m d h mi s : real_day (y, m, d) -> is_clock h mi s ->
  get_year (date_text (y, m, d) ++ clock_text h mi s ++ lit "Z") = Ok y.
Proof.
  intros H C. destruct (day_range _ _ _ H) as [Hm Hd]. unfold get_year.
  rewrite strptime_date_more by (try assumption; apply clock_nonnil).
  assert (E : re_match format_time (date_text (y, m, d) ++ clock_text h mi s ++ lit "Z")
          = Some ([], [(6, pad2 s); (5, pad2 mi); (4, pad2 h); (3, pad2 d); (2, pad2 m); (1, pad4 y)])).
  { unfold re_match. rewrite time_match by assumption. reflexivity. }
  now rewrite (year_of_groups _ _ y m d _ E).
Qed.
(** a fraction: all matches of f followed by Z consume it *)
Lemma fraction_rest fr g x : In x (mt (RSeq f_ Z_) (fr ++ lit "Z") g) -> Forall ReviewSpec.digit fr -> x = ([], (7, fr) :: g).
Proof.
  destruct x as [s' g']. intros H Hf. apply mt_sound in H as (u & E & M).
  apply M_seq_inv in M as (a & z & g1 & -> & M1 & M2). unfold f_ in M1. apply M_grp_inv in M1 as (g2 & M1 & ->).
  apply M_rrep_chr in M1 as (L & Ha & ->); [|lia]. unfold Z_ in M2. apply M_chr_inv in M2 as (c & -> & Hc & ->).
  assert (Ea : a = fr /\ s' = []).
  { clear L. rewrite <- app_assoc in E. revert a Ha E. induction Hf as [|e fr He Hf IH]; intros a Ha E.
    - destruct a as [|e a]; cbn in E.
      + injection E as _ E2. now split.
      + injection E as E1 E2. destruct a; discriminate.
    - destruct a as [|e' a]; cbn in E.
      + injection E as -> E2. unfold ReviewSpec.digit in He. apply orb_true_iff in Hc as [Hc|Hc]; apply N.eqb_eq in Hc; lia.
      + injection E as <- E. cbn in Ha. apply andb_true_iff in Ha as [_ Ha]. destruct (IH a Ha E) as [-> ->]. now split. }
  destruct Ea as [-> ->]. reflexivity.
Qed.
Lemma fraction_some fr g : fr <> [] -> length fr <= 6 -> Forall ReviewSpec.digit fr ->
  exists l, mt (RSeq f_ Z_) (fr ++ lit "Z") g = ([], (7, fr) :: g) :: l.
Proof.
  intros H1 H2 H3.
  assert (N0 : In ([], (7, fr) :: g) (mt (RSeq f_ Z_) (fr ++ lit "Z") g)).
  { rewrite <- (app_nil_r (fr ++ lit "Z")). apply mt_complete; [|reflexivity].
    econstructor; [unfold f_; constructor; apply M_rrep_chr; [lia|]|].
    - split; [destruct fr; [contradiction|cbn in *; lia]|]. split; [|reflexivity].
      apply forallb_forall. intros c Hc. rewrite Forall_forall in H3. specialize (H3 c Hc). unfold ReviewSpec.digit in H3.
      unfold between. rewrite (proj2 (N.leb_le 48 c)), (proj2 (N.leb_le c 57)) by lia. reflexivity.
    - constructor. reflexivity. }
  destruct (mt (RSeq f_ Z_) (fr ++ lit "Z") g) as [|x l] eqn:E; [destruct N0|].
  exists l. f_equal. apply (fraction_rest fr g); [rewrite E; now left|exact H3].
Qed.
Lemma get_year_fraction y m d h mi s fr : real_day (y, m, d) -> is_clock h mi s ->
  fr <> [] -> length fr <= 6 -> Forall ReviewSpec.digit fr ->
  get_year (date_text (y, m, d) ++ clock_text h mi s ++ lit "." ++ fr ++ lit "Z") = Ok y.
Proof.
  intros H C F1 F2 F3. destruct (day_range _ _ _ H) as [Hm Hd]. unfold get_year.
  rewrite strptime_date_more by (try assumption; apply clock_nonnil).
  assert (E0 : strptime_year format_time (date_text (y, m, d) ++ clock_text h mi s ++ lit "." ++ fr ++ lit "Z") = None).
  { unfold strptime_year, re_match. rewrite time_match by assumption. reflexivity. }
  rewrite E0.
  destruct (fraction_some fr [(6, pad2 s); (5, pad2 mi); (4, pad2 h); (3, pad2 d); (2, pad2 m); (1, pad4 y)] F1 F2 F3) as [l El].
  assert (E : re_match format_fraction (date_text (y, m, d) ++ clock_text h mi s ++ lit "." ++ fr ++ lit "Z")
          = Some ([], (7, fr) :: [(6, pad2 s); (5, pad2 mi); (4, pad2 h); (3, pad2 d); (2, pad2 m); (1, pad4 y)])).
  { unfold re_match. rewrite fraction_match by assumption. change (lit ".") with [46%N]. cbn [app]. rewrite lit_step. now rewrite El. }
  now rewrite (year_of_groups _ _ y m d _ E).
Qed.
(** texts that match none of the formats *)
Lemma mt_fail_ymd k y m d c w : (1 <= m < 13)%Z -> (1 <= d < 32)%Z -> c <> 84%N -> c <> 116%N ->
  mt (rseqs [Y_; hy; m_; hy; d__; T_; k]) (date_text (y, m, d) ++ c :: w) [] = [].
Proof.
  intros Hm Hd H1 H2. cbn [rseqs]. rewrite ymd_step; [|exact Hm|exact Hd|intros; apply T_dig].
  apply cls_miss. destruct (N.eqb_spec c 84); [contradiction|]. destruct (N.eqb_spec c 116); [contradiction|reflexivity].
Qed.
Lemma get_year_suffix y m d c w : (1 <= m < 13)%Z -> (1 <= d < 32)%Z -> c <> 84%N -> c <> 116%N ->
  get_year (date_text (y, m, d) ++ c :: w) = Err ValueError.
Proof.
  intros Hm Hd H1 H2. unfold get_year. rewrite strptime_date_more by (try assumption; discriminate).
  unfold strptime_year, re_match.
  change format_time with (rseqs [Y_; hy; m_; hy; d__; T_; rseqs [H_; co; M_; co; S_; Z_]]).
  rewrite mt_fail_ymd by assumption.
  change format_fraction with (rseqs [Y_; hy; m_; hy; d__; T_; rseqs [H_; co; M_; co; S_; rlit (lit "."); f_; Z_]]).
  now rewrite mt_fail_ymd by assumption.
Qed.
Lemma get_year_naive y m d h mi s w : real_day (y, m, d) -> is_clock h mi s ->
  match w with [] => True | c :: _ => c <> 90%N /\ c <> 122%N /\ c <> 46%N end ->
  get_year (date_text (y, m, d) ++ clock_text h mi s ++ w) = Err ValueError.
Proof.
  intros H C W. destruct (day_range _ _ _ H) as [Hm Hd]. unfold get_year.
  rewrite strptime_date_more by (try assumption; apply clock_nonnil).
  unfold strptime_year, re_match. rewrite time_match, fraction_match by assumption.
  destruct w as [|c w]; [reflexivity|]. destruct W as (W1 & W2 & W3).
  rewrite (lit_miss 46 c) by auto. unfold Z_. cbn [mt].
  destruct (N.eqb_spec c 90); [contradiction|]. destruct (N.eqb_spec c 122); [contradiction|reflexivity].
Qed.
Lemma get_year_not_a_day y m d : (1 <= y <= 9999)%Z -> (1 <= m <= 12)%Z -> (1 <= d <= 31)%Z -> ~ real_day (y, m, d) ->
  get_year (date_text (y, m, d)) = Err ValueError.
Proof.
  intros Hy Hm Hd Hn. unfold get_year.
  assert (Ed : strptime_year format_date (date_text (y, m, d)) = None).
  { unfold strptime_year. pose proof (date_match y m d [] ltac:(lia) ltac:(lia)) as E. rewrite app_nil_r in E. rewrite E.
    cbn [group]. change (3 =? 1) with false. change (2 =? 1) with false. change (1 =? 1) with true. change (3 =? 2) with false.
    change (2 =? 2) with true. change (3 =? 3) with true. cbn iota.
    rewrite number_pad4, !number_pad2 by lia.
    destruct (1 <=? y)%Z eqn:B1; [|reflexivity]. destruct (1 <=? m)%Z eqn:B2; [|reflexivity].
    destruct (m <=? 12)%Z eqn:B3; [|reflexivity]. destruct (1 <=? d)%Z eqn:B4; [|reflexivity].
    destruct (d <=? month_days y m)%Z eqn:B5; [|reflexivity].
    exfalso. apply Hn. apply real_day_b. apply Z.leb_le in B5. lia. }
  rewrite Ed.
  unfold strptime_year, re_match.
  assert (F : forall k, (forall s' g', mt k (dig d :: s') g' = []) -> mt k [] [(3, pad2 d); (2, pad2 m); (1, pad4 y)] = [] ->
              mt (rseqs [Y_; hy; m_; hy; d__; k]) (date_text (y, m, d)) [] = []).
  { intros k K1 K2. pose proof (ymd_step y m d k [] [] ltac:(lia) ltac:(lia) K1) as E. rewrite app_nil_r in E.
    cbn [rseqs]. rewrite E. exact K2. }
  change format_time with (rseqs [Y_; hy; m_; hy; d__; rseqs [T_; H_; co; M_; co; S_; Z_]]).
  rewrite F; [|intros; apply T_dig|reflexivity].
  change format_fraction with (rseqs [Y_; hy; m_; hy; d__; rseqs [T_; H_; co; M_; co; S_; rlit (lit "."); f_; Z_]]).
  now rewrite F; [|intros; apply T_dig|reflexivity].
Qed.

(** ** the years as texts *)
Lemma year_text y : (1000 <= y <= 9999)%Z -> str_of_Z y = pad4 y.
Proof.
  intros H. assert (F : forallb (fun y => str_eqb (str_of_Z y) (pad4 y)) (zrange 1000 10000) = true) by (vm_compute; reflexivity).
  rewrite forallb_forall in F. apply str_eqb_eq, F. unfold zrange. apply in_map_iff. exists (Z.to_nat (y - 1000)).
  split; [lia|]. apply in_seq. lia.
Qed.
Lemma year_accepted y : (1000 <= y <= 9999)%Z -> Year (VStr (str_of_Z y)) = Ok y /\ Year (VInt y) = Ok y.
Proof.
  intros H. unfold Year, limited_int, int_validate. cbn [py_int]. rewrite int_of_str_of_Z.
  assert (E : (y <? 0)%Z = false) by (apply Z.ltb_ge; lia). cbn [negb andb]. rewrite E. cbn [bind].
  rewrite year_text by exact H. cbn [pad4 length neb Nat.eqb negb orb]. unfold neb. cbn. now rewrite E.
Qed.
Lemma year_refused y : (1 <= y <= 999)%Z -> Year (VStr (str_of_Z y)) = Err ValueError /\ Year (VInt y) = Err ValueError.
Proof.
  intros H. unfold Year, limited_int, int_validate. cbn [py_int]. rewrite int_of_str_of_Z.
  assert (E : (y <? 0)%Z = false) by (apply Z.ltb_ge; lia). cbn [negb andb]. rewrite E. cbn [bind].
  assert (F : forallb (fun y => neb (length (str_of_Z y)) 4) (zrange 1 1000) = true) by (vm_compute; reflexivity).
  rewrite forallb_forall in F. assert (G : neb (length (str_of_Z y)) 4 = true).
  { apply F. unfold zrange. apply in_map_iff. exists (Z.to_nat (y - 1)). split; [lia|]. apply in_seq. lia. }
  rewrite G. split; reflexivity.
Qed.
