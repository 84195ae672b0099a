(** Splitting of a text without punctuation: the splitter leaves it whole, and a text one character
    over the limit becomes two pieces. *)
From Coq Require Import Ascii String List Bool Arith NArith Lia.
From Verif Require Import PyBase PyBaseFacts Regex RegexFacts TextSplitModel TextSplitProofs PyDigits.
Import ListNotations.

Definition needs (r : re) (c : N) : Prop := forall u g g', M r u g g' -> In c u.
Lemma needs_l a b c : needs a c -> needs (RSeq a b) c.
Proof. intros H u g g' Hm. apply M_seq_inv in Hm as (u1 & u2 & g1 & -> & H1 & H2).
  apply in_or_app. left. eapply H; eauto. Qed.
Lemma needs_r a b c : needs b c -> needs (RSeq a b) c.
Proof. intros H u g g' Hm. apply M_seq_inv in Hm as (u1 & u2 & g1 & -> & H1 & H2).
  apply in_or_app. right. eapply H; eauto. Qed.
Lemma needs_grp n a c : needs a c -> needs (RGrp n a) c.
Proof. intros H u g g' Hm. apply M_grp_inv in Hm as (g1 & H1 & _). eapply H; eauto. Qed.
Lemma needs_chr c : needs (RChr (N.eqb c)) c.
Proof. intros u g g' Hm. apply M_chr_inv in Hm as (x & -> & H & _). apply N.eqb_eq in H. subst. now left. Qed.

Lemma re_sub_absent r t c : needs r c -> forall s, ~ In c s -> re_sub r t s = s.
Proof.
  intros Hr s. unfold re_sub. induction s as [|x s IH]; intros Hc; [reflexivity|].
  cbn [sub_aux]. destruct (re_match r (x :: s)) as [[rest g]|] eqn:E.
  - exfalso. apply re_match_some in E as (u & Hu & Hm). apply Hc. rewrite Hu.
    apply in_or_app. left. eapply Hr; eauto.
  - f_equal. apply IH. intros F. apply Hc. now right.
Qed.

Lemma prefixb_absent sep s c : In c sep -> ~ In c s -> prefixb sep s = false.
Proof.
  intros H1 H2. destruct (prefixb sep s) eqn:E; auto. exfalso.
  apply prefixb_spec in E as [r ->]. apply H2. apply in_or_app. now left.
Qed.
Lemma split_absent sep c s : In c sep -> ~ In c s -> split sep s = [s].
Proof.
  intros H1. unfold split.
  assert (G : forall s acc, ~ In c s -> split_aux sep O acc s = [rev acc ++ s]).
  { induction s0 as [|x s0 IH]; intros acc H2; cbn [split_aux]; [now rewrite app_nil_r|].
    rewrite (prefixb_absent sep (x :: s0) c H1 H2). rewrite IH by (intros F; apply H2; now right).
    cbn [rev]. now rewrite <- app_assoc. }
  intros H2. now rewrite G.
Qed.
Lemma replace_absent old new c s : In c old -> ~ In c s -> replace old new s = s.
Proof. intros H1 H2. unfold replace. now rewrite (split_absent old c). Qed.
Lemma infixb_absent p c s : In c p -> ~ In c s -> infixb p s = false.
Proof.
  intros H1. induction s as [|x s IH]; intros H2; cbn [infixb].
  - now rewrite (prefixb_absent p [] c).
  - rewrite (prefixb_absent p (x :: s) c) by assumption. cbn. apply IH. intros F; apply H2; now right.
Qed.

(** Characters the sentence splitter reacts to: newline, full stop, semicolon, question and exclamation mark,
    less-than (its own marks). *)
Definition plain (s : pystr) : Prop := forall c, In c [10; 46; 59; 63; 33; 60]%N -> ~ In c s.

Lemma plain_pad s : plain s -> plain (lit " " ++ s ++ lit "  ").
Proof.
  intros H c Hc F. apply in_app_or in F as [F|F].
  - cbn in F. destruct F as [<-|[]]. cbn in Hc. intuition discriminate.
  - apply in_app_or in F as [F|F]; [exact (H c Hc F)|].
    cbn in F. cbn in Hc. intuition (subst; discriminate).
Qed.

Ltac nd := first [apply needs_chr | apply needs_grp; nd | apply needs_l; nd | apply needs_r; nd].

Lemma when_id b f s : b = false \/ f s = s -> when b f s = s.
Proof. unfold when. destruct b; intros [H|H]; auto; discriminate. Qed.

Lemma mark_plain s : plain s -> mark_sentences s = lit " " ++ s ++ lit "  ".
Proof.
  intros H0. apply plain_pad in H0. unfold mark_sentences. cbv zeta.
  set (t := lit " " ++ s ++ lit "  ") in *. clearbody t. clear s.
  assert (Hd : ~ In 46%N t) by (apply H0; cbn; auto 10).
  rewrite (replace_absent [10%N] _ 10%N t) by first [solve [cbn; auto 10] | apply H0; cbn; auto 10].
  unfold prefixes, websites, acronyms, rseqs, r_dot.
  repeat (rewrite (re_sub_absent _ _ 46%N) with (s := t);
    [| solve [nd] | exact Hd]).
  rewrite (when_id (infixb (lit "Ph.D") t) _ t) by (right; apply (replace_absent _ _ 46%N); [cbn; auto 10 | exact Hd]).
  repeat (rewrite (re_sub_absent _ _ 46%N) with (s := t);
    [| solve [nd] | exact Hd]).
  rewrite (when_id (infixb [rdquo] t) _ t) by (right; apply (replace_absent _ _ 46%N); [cbn; auto 10 | exact Hd]).
  rewrite (when_id (infixb [dquo] t) _ t) by (right; apply (replace_absent _ _ 46%N); [cbn; auto 10 | exact Hd]).
  rewrite (when_id (infixb [33%N] t) _ t) by (left; apply (infixb_absent _ 33%N); [cbn; auto 10 | apply H0; cbn; auto 10]).
  rewrite (when_id (infixb [63%N] t) _ t) by (left; apply (infixb_absent _ 63%N); [cbn; auto 10 | apply H0; cbn; auto 10]).
  rewrite (replace_absent (lit ";") _ 59%N t) by first [solve [cbn; auto 10] | apply H0; cbn; auto 10].
  rewrite (replace_absent (lit ".") _ 46%N t) by first [solve [cbn; auto 10] | apply H0; cbn; auto 10].
  rewrite (replace_absent (lit "?") _ 63%N t) by first [solve [cbn; auto 10] | apply H0; cbn; auto 10].
  rewrite (replace_absent (lit "!") _ 33%N t) by first [solve [cbn; auto 10] | apply H0; cbn; auto 10].
  apply (replace_absent prd _ 60%N t); [cbn; auto | apply H0; cbn; auto 10].
Qed.

Lemma strip_pad s : (forall c, In c s -> is_space c = false) -> s <> [] ->
  strip (lit " " ++ s ++ lit "  ") = s.
Proof.
  intros H Hn. unfold strip, rstrip. change (lit " " ++ s ++ lit "  ") with (32%N :: (s ++ [32; 32]%N)).
  cbn [lstrip]. change (is_space 32) with true. cbn iota.
  assert (E : lstrip (s ++ [32; 32]%N) = s ++ [32; 32]%N).
  { destruct s as [|a s]; [congruence|]. cbn [lstrip app]. now rewrite (H a (or_introl eq_refl)). }
  rewrite E, rev_app_distr. cbn [rev app lstrip]. change (is_space 32) with true. cbn iota.
  assert (H' : forall c, In c (rev s) -> is_space c = false) by (intros c Hc; apply H; now apply in_rev).
  assert (E2 : lstrip (rev s) = rev s).
  { destruct (rev s) as [|a r]; [reflexivity|]. cbn [lstrip]. now rewrite (H' a (or_introl eq_refl)). }
  rewrite E2. apply rev_involutive.
Qed.

Lemma sentences_plain s : plain s -> (forall c, In c s -> is_space c = false) -> s <> [] ->
  split_into_sentences s = [s].
Proof.
  intros Hp Hs Hn. unfold split_into_sentences. rewrite mark_plain by assumption.
  rewrite (split_absent stop 60%N); [| cbn; auto | apply (plain_pad s Hp); cbn; auto 10].
  cbv zeta. cbn [last].
  replace (str_eqb (lit " " ++ s ++ lit "  ") (lit "  ")) with false.
  - cbn [map]. now rewrite strip_pad.
  - symmetry. apply str_eqb_neq. intros F. apply (f_equal (@length N)) in F.
    rewrite !app_length in F. destruct s; [congruence|]. cbn in F. lia.
Qed.

(** One character over the limit: two pieces. *)
Lemma one_over s limit : plain s -> (forall c, In c s -> is_space c = false) ->
  101 <= limit -> length s = S limit ->
  text_to_list s limit = Ok [firstn (limit - 50) s; skipn (limit - 50) s].
Proof.
  intros Hp Hs Hl Hlen. unfold text_to_list.
  assert (Hn : s <> []) by (intros ->; discriminate).
  rewrite sentences_plain by assumption. unfold sentences_to_list.
  cbn [map fold_right]. rewrite Hlen, Nat.max_0_r.
  replace (S limit <? limit) with false by (symmetry; apply Nat.ltb_ge; lia).
  cbn [fold_left]. unfold sentence_step at 1. cbn [bind].
  replace (limit <? length s) with true by (symmetry; apply Nat.ltb_lt; lia).
  replace (limit =? 50) with false by (symmetry; apply Nat.eqb_neq; lia).
  replace (limit <? 50) with false by (symmetry; apply Nat.ltb_ge; lia).
  assert (E : py_range (length s) (limit - 50) = [0; limit - 50]).
  { unfold py_range. replace ((length s + (limit - 50) - 1) / (limit - 50)) with 2.
    - cbn [seq map]. f_equal. f_equal. lia.
    - symmetry. rewrite Hlen. symmetry. apply (Nat.div_unique _ _ _ (50)); lia. }
  rewrite E. cbn [fold_left].
  assert (Hs32 : forall u, (forall c, In c u -> In c s) -> split (lit " ") u = [u]).
  { intros u Hu. apply (split_absent _ 32%N); [cbn; auto|]. intros F. apply Hu, Hs in F. discriminate. }
  assert (Hfs : forall i j c, In c (slice i j s) -> In c s).
  { unfold slice. intros i j c Hc. rewrite <- (firstn_skipn i s). apply in_or_app. right.
    rewrite <- (firstn_skipn (j - i) (skipn i s)). apply in_or_app. now left. }
  assert (S1 : slice_step limit s ([], [], lit " ") 0 = ([firstn (limit - 50) s], [], [])).
  { unfold slice_step. rewrite Nat.add_0_l, app_nil_r, app_nil_l.
    replace (limit <? length (slice 0 (limit - 50) s)) with false
      by (symmetry; apply Nat.ltb_ge; pose proof (slice_len 0 (limit - 50) s); lia).
    rewrite Hs32 by apply Hfs. cbn [removelast]. unfold slice. now rewrite Nat.sub_0_r. }
  rewrite S1.
  assert (S2 : slice_step limit s ([firstn (limit - 50) s], [], []) (limit - 50)
               = ([skipn (limit - 50) s; firstn (limit - 50) s], [], [])).
  { unfold slice_step. rewrite app_nil_r, app_nil_l.
    replace (limit <? length (slice (limit - 50) (limit - 50 + (limit - 50)) s)) with false
      by (symmetry; apply Nat.ltb_ge; pose proof (slice_len (limit - 50) (limit - 50 + (limit - 50)) s); lia).
    rewrite Hs32 by apply Hfs. cbn [removelast]. unfold slice.
    rewrite firstn_all2; [reflexivity|]. rewrite skipn_length. lia. }
  rewrite S2. cbn [bind rev app].
  assert (Hl1 : length (firstn (limit - 50) s) = limit - 50) by (rewrite firstn_length; lia).
  assert (Hl2 : length (skipn (limit - 50) s) = 51) by (rewrite skipn_length; lia).
  assert (Hst : forall u, (forall c, In c u -> In c s) -> strip u = u).
  { intros u Hu. apply strip_nospace. intros c Hc. now apply Hs, Hu. }
  cbn [optimize]. change (str_eqb [] []) with true. cbn iota. cbn [optimize].
  replace (str_eqb (firstn (limit - 50) s) []) with false.
  2:{ symmetry. apply str_eqb_neq. intros F. rewrite F in Hl1. cbn in Hl1. lia. }
  rewrite !app_length, Hl1, Hl2. change (length (lit "; ")) with 2.
  replace (limit <? limit - 50 + (2 + 51)) with true by (symmetry; apply Nat.ltb_lt; lia).
  rewrite !Hst; [reflexivity | |].
  - intros c Hc. rewrite <- (firstn_skipn (limit - 50) s). apply in_or_app. now right.
  - intros c Hc. rewrite <- (firstn_skipn (limit - 50) s). apply in_or_app. now left.
Qed.
