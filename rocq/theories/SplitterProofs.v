(** The sentence splitter (utils.py:20-50) keeps all letters in order,
    for every text without the character '<' (used by the splitter for its own marks). *)
From Coq Require Import Ascii String List Bool Arith NArith Lia.
From Verif Require Import PyBase PyBaseFacts Regex RegexFacts TextSplitModel TextSplitSpec.
Import ListNotations.

Inductive tok := TC (c : N) | TP | TS.
Definition flat1 (t : tok) : pystr := match t with TC c => [c] | TP => prd | TS => stop end.
Definition flat (ts : list tok) : pystr := flat_map flat1 ts.
Definition wf (ts : list tok) : Prop := ~ In (TC 60) ts.
Definition cont1 (t : tok) : pystr := match t with TC c => if letter c then [c] else [] | _ => [] end.
Definition cont (ts : list tok) : pystr := flat_map cont1 ts.

Definition step_ok (f : pystr -> pystr) : Prop :=
  forall ts, wf ts -> exists ts', f (flat ts) = flat ts' /\ wf ts' /\ cont ts' = cont ts.

Lemma flat_app a b : flat (a ++ b) = flat a ++ flat b.
Proof. apply flat_map_app. Qed.
Lemma cont_app a b : cont (a ++ b) = cont a ++ cont b.
Proof. apply flat_map_app. Qed.
Lemma flat_TC s : flat (map TC s) = s.
Proof. induction s; simpl; congruence. Qed.
Lemma cont_TC s : cont (map TC s) = letters s.
Proof. induction s as [|c s IH]; simpl; auto. rewrite IH. destruct (letter c); auto. Qed.
Lemma wf_app a b : wf a -> wf b -> wf (a ++ b).
Proof. unfold wf. rewrite in_app_iff. tauto. Qed.
Lemma wf_cons t a : t <> TC 60 -> wf a -> wf (t :: a).
Proof. unfold wf; simpl; intuition. Qed.
Lemma wf_TC s : ~ In 60%N s -> wf (map TC s).
Proof.
  unfold wf. rewrite in_map_iff. intros H [c [E Hc]]. injection E; intros ->. auto.
Qed.
Lemma wf_nil : wf [].
Proof. unfold wf; simpl; tauto. Qed.

Definition Scan (f : pystr -> pystr) (m : pystr -> option (nat * pystr)) : Prop :=
  f [] = [] /\
  forall c s, f (c :: s) = match m (c :: s) with
                           | Some (n, repl) => repl ++ f (skipn n (c :: s))
                           | None => c :: f s
                           end.
(** matches consume at least one character, none of them '<', and keep the letters *)
Definition MOk (m : pystr -> option (nat * pystr)) : Prop :=
  forall s n repl, m s = Some (n, repl) ->
    exists u rest tr, s = u ++ rest /\ length u = n /\ u <> [] /\ ~ In 60%N u /\
      repl = flat tr /\ wf tr /\ cont tr = letters u.
(** no match starts inside a mark *)
Definition marks_tails : list pystr :=
  map lit ["prd>"; "rd>"; "d>"; ">"; "stop>"; "top>"; "op>"; "p>"]%string.
Definition MNo (m : pystr -> option (nat * pystr)) : Prop :=
  forall v s, In v marks_tails -> m (v ++ s) = None.

Lemma flat_prefix u : ~ In 60%N u -> forall ts rest, flat ts = u ++ rest ->
  exists ts2, ts = map TC u ++ ts2 /\ rest = flat ts2.
Proof.
  induction u as [|c u IH]; intros Hu ts rest E.
  - exists ts; auto.
  - destruct ts as [|t ts]; [discriminate|].
    destruct t; simpl in E; try (injection E; intros; subst; exfalso; apply Hu; simpl; auto; fail).
    injection E; intros E2 <-.
    destruct (IH (fun H => Hu (or_intror H)) ts rest E2) as [ts2 [-> ->]].
    exists ts2; auto.
Qed.

Lemma scan_step f m c s : Scan f m -> m (c :: s) = None -> f (c :: s) = c :: f s.
Proof. intros [_ H] E. rewrite H, E. reflexivity. Qed.

Lemma scan_ok f m : Scan f m -> MOk m -> MNo m -> step_ok f.
Proof.
  intros HS H1 H2 ts. remember (length ts) as n eqn:Hn. revert ts Hn.
  induction n as [n IH] using (well_founded_induction lt_wf). intros ts Hn Hwf.
  assert (Hlt : forall s, m (60%N :: s) = None).
  { intros s. destruct (m (60%N :: s)) as [[k repl]|] eqn:E; auto.
    destruct (H1 _ _ _ E) as (u & rest & tr & Eu & _ & Hne & Hu & _).
    destruct u as [|x u]; [congruence|]. injection Eu; intros; subst. exfalso; apply Hu; simpl; auto. }
  destruct ts as [|t ts].
  - exists []. change (flat []) with (@nil N). destruct HS as [-> _]. auto using wf_nil.
  - assert (Hwf' : wf ts) by (unfold wf in *; simpl in Hwf; tauto).
    destruct t.
    + destruct (m (flat (TC c :: ts))) as [[k repl]|] eqn:E.
      * destruct (H1 _ _ _ E) as (u & rest & tr & Eu & Hk & Hne & Hu & -> & Htr & Hc).
        destruct (flat_prefix u Hu _ _ Eu) as [ts2 [Ets ->]].
        assert (Hl : length ts2 < n).
        { subst n. rewrite Ets, app_length, map_length. destruct u; [congruence|simpl; lia]. }
        destruct (IH _ Hl ts2 eq_refl) as (ts' & Ef & W & C).
        { rewrite Ets in Hwf. unfold wf in *. rewrite in_app_iff in Hwf. tauto. }
        exists (tr ++ ts'). split; [|split].
        -- destruct HS as [_ HS]. simpl flat in E. change (flat (TC c :: ts)) with (c :: flat ts) in *.
           rewrite HS, E. rewrite flat_app, <- Ef. f_equal. f_equal.
           rewrite Eu, <- Hk, skipn_app, skipn_all, Nat.sub_diag. reflexivity.
        -- now apply wf_app.
        -- rewrite Ets, !cont_app, cont_TC, Hc, C. reflexivity.
      * destruct (IH (length ts)) with (ts := ts) as (ts' & Ef & W & C); auto.
        { subst n; simpl; lia. }
        exists (TC c :: ts'). split; [|split].
        -- change (flat (TC c :: ts)) with (c :: flat ts) in *.
           rewrite (scan_step f m) by auto. simpl. now rewrite Ef.
        -- apply wf_cons; auto. intros E2; apply Hwf; simpl; auto.
        -- simpl. now rewrite C.
    + destruct (IH (length ts)) with (ts := ts) as (ts' & Ef & W & C); auto.
      { subst n; simpl; lia. }
      exists (TP :: ts'). split; [|split; [apply wf_cons; auto; discriminate | simpl; auto]].
      change (flat (TP :: ts)) with (lit "<prd>" ++ flat ts). change (flat (TP :: ts')) with (lit "<prd>" ++ flat ts').
      rewrite <- Ef.
      cbn [lit app]. change (N_of_ascii "<") with 60%N.
      rewrite (scan_step f m) by auto. f_equal.
      rewrite (scan_step f m); [f_equal|auto|apply (H2 (lit "prd>")); simpl; auto 10].
      rewrite (scan_step f m); [f_equal|auto|apply (H2 (lit "rd>")); simpl; auto 10].
      rewrite (scan_step f m); [f_equal|auto|apply (H2 (lit "d>")); simpl; auto 10].
      rewrite (scan_step f m); [f_equal|auto|apply (H2 (lit ">")); simpl; auto 10].
    + destruct (IH (length ts)) with (ts := ts) as (ts' & Ef & W & C); auto.
      { subst n; simpl; lia. }
      exists (TS :: ts'). split; [|split; [apply wf_cons; auto; discriminate | simpl; auto]].
      change (flat (TS :: ts)) with (lit "<stop>" ++ flat ts). change (flat (TS :: ts')) with (lit "<stop>" ++ flat ts').
      rewrite <- Ef.
      cbn [lit app]. change (N_of_ascii "<") with 60%N.
      rewrite (scan_step f m) by auto. f_equal.
      rewrite (scan_step f m); [f_equal|auto|apply (H2 (lit "stop>")); simpl; auto 10].
      rewrite (scan_step f m); [f_equal|auto|apply (H2 (lit "top>")); simpl; auto 10].
      rewrite (scan_step f m); [f_equal|auto|apply (H2 (lit "op>")); simpl; auto 10].
      rewrite (scan_step f m); [f_equal|auto|apply (H2 (lit "p>")); simpl; auto 10].
      rewrite (scan_step f m); [f_equal|auto|apply (H2 (lit ">")); simpl; auto 10].
Qed.

(** ** [re.sub] and [str.replace] as scans *)
Lemma sub_aux_skip r t k s : sub_aux r t k s = sub_aux r t 0 (skipn k s).
Proof.
  revert k; induction s as [|c s IH]; intros k; [destruct k; reflexivity|].
  destruct k; [reflexivity|]. cbn [sub_aux skipn]. rewrite IH. reflexivity.
Qed.

Definition m_sub (r : re) (t : list titem) (s : pystr) : option (nat * pystr) :=
  match re_match r s with
  | Some (rest, g) => if length s - length rest =? 0 then None
                      else Some (length s - length rest, expand t g)
  | None => None
  end.
Lemma scan_sub r t : Scan (re_sub r t) (m_sub r t).
Proof.
  split; [reflexivity|]. intros c s. unfold re_sub, m_sub. cbn [sub_aux].
  destruct (re_match r (c :: s)) as [[rest g]|]; [|reflexivity].
  destruct (length (c :: s) - length rest) as [|n] eqn:E; [reflexivity|].
  change (S n =? 0) with false. cbv iota. rewrite sub_aux_skip. simpl. now rewrite Nat.sub_0_r.
Qed.

Definition m_rep (old new : pystr) (s : pystr) : option (nat * pystr) :=
  if prefixb old s then Some (length old, new) else None.

Lemma split_aux_acc sep s k acc : split_aux sep k acc s =
  match split_aux sep k [] s with x :: l => (rev acc ++ x) :: l | [] => [] end.
Proof.
  revert k acc; induction s as [|c s IH]; intros k acc.
  - simpl. now rewrite app_nil_r.
  - cbn [split_aux]. destruct k.
    + destruct (prefixb sep (c :: s)); [simpl; now rewrite app_nil_r|].
      rewrite (IH 0 (c :: acc)), (IH 0 [c]). destruct (split_aux sep 0 [] s); auto.
      simpl. now rewrite <- app_assoc.
    + apply IH.
Qed.
Lemma split_aux_skip sep k s acc : split_aux sep k acc s = split_aux sep 0 acc (skipn k s).
Proof.
  revert k acc; induction s as [|c s IH]; intros k acc; [destruct k; reflexivity|].
  destruct k; [reflexivity|]. cbn [split_aux skipn]. apply IH.
Qed.
Lemma scan_replace old new : old <> [] -> Scan (replace old new) (m_rep old new).
Proof.
  intros Ho. split; [reflexivity|]. intros c s. unfold replace, m_rep, split. cbn [split_aux].
  destruct (prefixb old (c :: s)).
  - rewrite join_cons by apply split_aux_nonnil. simpl app. f_equal. f_equal.
    rewrite split_aux_skip. destruct old; [congruence|]. simpl. now rewrite Nat.sub_0_r.
  - rewrite split_aux_acc. pose proof (split_aux_nonnil old 0 [] s).
    destruct (split_aux old 0 [] s) as [|x [|y l]]; [congruence| |]; reflexivity.
Qed.

(** ** No regular expression used here matches '<' *)
Fixpoint re_nolt (r : re) : bool :=
  match r with
  | REps => true
  | RChr p => negb (p 60%N)
  | RSeq a b | RAlt a b => re_nolt a && re_nolt b
  | RStar _ a | RGrp _ a => re_nolt a
  | RNla _ => true
  end.
Lemma re_nolt_ok r u g g' : M r u g g' -> re_nolt r = true -> ~ In 60%N u.
Proof.
  induction 1; simpl; intros H'; rewrite ?andb_true_iff in H'; rewrite ?in_app_iff; try tauto.
  intros [->|[]]. rewrite H in H'. discriminate.
Qed.

(** A substitution is harmless if every match keeps its letters. *)
Lemma sub_MOk r t :
  re_nolt r = true ->
  (forall u g, M r u [] g -> exists tr, expand t g = flat tr /\ wf tr /\ cont tr = letters u) ->
  MOk (m_sub r t).
Proof.
  intros Hlt H s n repl. unfold m_sub.
  destruct (re_match r s) as [[rest g]|] eqn:E; [|discriminate].
  apply re_match_some in E as (u & -> & HM).
  rewrite app_length. replace (length u + length rest - length rest) with (length u) by lia.
  destruct (Nat.eqb_spec (length u) 0); [discriminate|]. injection 1; intros <- <-.
  destruct (H u g HM) as (tr & E & W & C).
  exists u, rest, tr. repeat split; auto.
  - intros ->; simpl in *; lia.
  - eapply re_nolt_ok; eauto.
Qed.
Lemma sub_MNo r t : (forall v s, In v marks_tails -> re_match r (v ++ s) = None) -> MNo (m_sub r t).
Proof. intros H v s Hv. unfold m_sub. now rewrite H. Qed.

Lemma rep_ok old new tr : old <> [] -> ~ In 60%N old -> new = flat tr -> wf tr -> cont tr = letters old ->
  (forall v s, In v marks_tails -> prefixb old (v ++ s) = false) ->
  step_ok (replace old new).
Proof.
  intros Ho Hlt Hn Hw Hc Hno. eapply scan_ok; [apply scan_replace; auto| |].
  - intros s n repl. unfold m_rep. destruct (prefixb old s) eqn:E; [|discriminate].
    injection 1; intros <- <-. apply prefixb_spec in E as [rest ->].
    exists old, rest, tr. repeat split; auto.
  - intros v s Hv. unfold m_rep. now rewrite Hno.
Qed.

Lemma when_ok b f : step_ok f -> step_ok (when b f).
Proof. intros H. destruct b; auto. intros ts Hts. exists ts; auto. Qed.

Ltac inv_m :=
  repeat match goal with
  | H : M (rseqs _) _ _ _ |- _ => progress cbn [rseqs] in H
  | H : M (RSeq _ _) _ _ _ |- _ => apply M_seq_inv in H as (? & ? & ? & -> & ? & ?)
  | H : M (RGrp _ _) _ _ _ |- _ => apply M_grp_inv in H as (? & ? & ->)
  | H : M (alphabets _) _ _ _ |- _ => unfold alphabets in H
  | H : M (suffixes _) _ _ _ |- _ => unfold suffixes in H
  | H : M (starters _) _ _ _ |- _ => unfold starters in H
  | H : M (acronyms _) _ _ _ |- _ => unfold acronyms in H
  | H : M r_dot _ _ _ |- _ => apply M_chr_inv in H as (? & -> & H & ->); apply N.eqb_eq in H; subst
  | H : M r_sp _ _ _ |- _ => apply M_rlit in H as [-> ->]
  | H : M r_blank _ _ _ |- _ => apply M_chr_inv in H as (? & -> & ? & ->)
  | H : M r_alpha _ _ _ |- _ => apply M_chr_inv in H as (? & -> & ? & ->)
  end.

(** group-free sub-expressions leave the groups unchanged *)
Fixpoint no_grp (r : re) : bool :=
  match r with
  | REps | RChr _ | RNla _ => true
  | RSeq a b | RAlt a b => no_grp a && no_grp b
  | RStar _ a => no_grp a
  | RGrp _ _ => false
  end.
Lemma no_grp_ok r u g g' : M r u g g' -> no_grp r = true -> g' = g.
Proof.
  induction 1; simpl; intros Hn; try discriminate; auto;
    repeat match goal with
    | H : _ && _ = true |- _ => apply andb_true_iff in H as [? ?]
    | IH : ?a = true -> ?x = ?y, H : ?a = true |- _ => specialize (IH H)
    end; subst; auto.
Qed.

Lemma letters_app a b : letters (a ++ b) = letters a ++ letters b.
Proof. apply filter_app. Qed.

Ltac tails := intros v s Hv; simpl in Hv;
  repeat (destruct Hv as [<-|Hv]; [reflexivity|]); destruct Hv.

Lemma letter_space c : is_space c = true -> letter c = false.
Proof. unfold letter, visible. now intros ->. Qed.

Lemma step27 : step_ok (re_sub prefixes [TGrp 1; TLit prd]).
Proof.
  eapply scan_ok; [apply scan_sub | apply sub_MOk; [reflexivity|] | apply sub_MNo; tails].
  intros u g H. assert (Hlt := re_nolt_ok _ _ _ _ H eq_refl). unfold prefixes in H. inv_m.
  rewrite in_app_iff in Hlt.
  exists (map TC x ++ [TP]). rewrite flat_app, flat_TC, cont_app, cont_TC, letters_app. repeat split.
  - apply wf_app; [apply wf_TC; tauto | apply wf_cons; [discriminate|apply wf_nil]].
Qed.
Lemma step28 : step_ok (re_sub websites [TLit prd; TGrp 1]).
Proof.
  eapply scan_ok; [apply scan_sub | apply sub_MOk; [reflexivity|] | apply sub_MNo; tails].
  intros u g H. assert (Hlt := re_nolt_ok _ _ _ _ H eq_refl). unfold websites in H. inv_m.
  rewrite in_app_iff in Hlt.
  exists (TP :: map TC x0). 
  change (TP :: map TC x0) with ([TP] ++ map TC x0).
  rewrite flat_app, flat_TC, cont_app, cont_TC, letters_app. repeat split.
  - simpl. now rewrite app_nil_r.
  - apply wf_app; [apply wf_cons; [discriminate|apply wf_nil] | apply wf_TC; tauto].
Qed.

Ltac nogroups :=
  repeat match goal with
  | H : M ?r _ ?g ?g' |- _ =>
      is_var g'; let E := fresh in
      assert (E : g' = g) by (apply (no_grp_ok _ _ _ _ H); reflexivity); subst g'
  end.

Ltac setup H Hlt :=
  eapply scan_ok; [apply scan_sub | apply sub_MOk; [reflexivity|] | apply sub_MNo; tails];
  intros u g H; assert (Hlt := re_nolt_ok _ _ _ _ H eq_refl); inv_m; nogroups;
  rewrite ?in_app_iff in Hlt.

Ltac wfs := repeat first [apply wf_nil | apply wf_cons; [congruence|] | apply wf_app | apply wf_TC; tauto].

Lemma not60 (c : N) : ~ In 60%N [c] -> TC c <> TC 60.
Proof. simpl. intros H E. injection E; auto. Qed.

Lemma step30 : step_ok (re_sub (rseqs [r_blank; alphabets 1; r_dot; r_sp])
             [TLit (lit " "); TGrp 1; TLit (lit "<prd> ")]).
Proof.
  setup H Hlt.
  match goal with E : is_space ?w = true, A : is_alpha ?a = true |- _ =>
    exists ([TC 32; TC a; TP; TC 32]); rename E into Esp; rename a into aa; rename w into ww end.
  split; [reflexivity|]. split.
  - repeat (apply wf_cons; [|]); try apply wf_nil; try discriminate. apply not60; tauto.
  - rewrite !letters_app. unfold letters at 1. cbn [filter]. rewrite (letter_space _ Esp). simpl.
    destruct (letter aa); reflexivity.
Qed.

Lemma step31 : step_ok (re_sub (rseqs [acronyms 1; r_sp; starters 2])
             [TGrp 1; TLit (lit "<stop> "); TGrp 2]).
Proof.
  eapply scan_ok; [apply scan_sub | apply sub_MOk; [reflexivity|] | apply sub_MNo; tails].
  intros u g H; assert (Hlt := re_nolt_ok _ _ _ _ H eq_refl).
  cbn [rseqs] in H. apply M_seq_inv in H as (x & v & g1 & -> & H1 & H2).
  apply M_seq_inv in H2 as (y & z & g2 & -> & H2 & H3).
  apply M_rlit in H2 as [-> ->]. unfold acronyms in H1; unfold starters in H3.
  apply M_grp_inv in H1 as (g3 & H1 & ->). apply M_grp_inv in H3 as (g4 & H3 & ->).
  apply no_grp_ok in H3; [|reflexivity]. subst g4.
  rewrite !in_app_iff in Hlt.
  exists (map TC x ++ [TS; TC 32] ++ map TC z).
  rewrite !flat_app, !flat_TC, !cont_app, !cont_TC, !letters_app. repeat split.
  - simpl. rewrite app_nil_r. reflexivity.
  - apply wf_app; [apply wf_TC; tauto|]. apply wf_app; [|apply wf_TC; tauto].
    repeat (apply wf_cons; [discriminate|]). apply wf_nil.
Qed.

Lemma step32 : step_ok (re_sub (rseqs [alphabets 1; r_dot; alphabets 2; r_dot; alphabets 3; r_dot])
             [TGrp 1; TLit prd; TGrp 2; TLit prd; TGrp 3; TLit prd]).
Proof.
  setup H Hlt.
  match goal with |- context [([?a] ++ [_] ++ [?b] ++ [_] ++ [?c] ++ [_])] =>
    exists [TC a; TP; TC b; TP; TC c; TP]; rename a into aa; rename b into bb; rename c into cc end.
  split; [reflexivity|]. split.
  - repeat (apply wf_cons; [|]); try apply wf_nil; try discriminate; apply not60; tauto.
  - rewrite !letters_app. unfold letters. simpl.
    destruct (letter aa), (letter bb), (letter cc); reflexivity.
Qed.

Lemma step33 : step_ok (re_sub (rseqs [alphabets 1; r_dot; alphabets 2; r_dot])
             [TGrp 1; TLit prd; TGrp 2; TLit prd]).
Proof.
  setup H Hlt.
  match goal with |- context [([?a] ++ [_] ++ [?b] ++ [_])] =>
    exists [TC a; TP; TC b; TP]; rename a into aa; rename b into bb end.
  split; [reflexivity|]. split.
  - repeat (apply wf_cons; [|]); try apply wf_nil; try discriminate; apply not60; tauto.
  - rewrite !letters_app. unfold letters. simpl.
    destruct (letter aa), (letter bb); reflexivity.
Qed.

Lemma step34 : step_ok (re_sub (rseqs [r_sp; suffixes 1; r_dot; r_sp; starters 2])
             [TLit (lit " "); TGrp 1; TLit (lit "<stop> "); TGrp 2]).
Proof.
  eapply scan_ok; [apply scan_sub | apply sub_MOk; [reflexivity|] | apply sub_MNo; tails].
  intros u g H; assert (Hlt := re_nolt_ok _ _ _ _ H eq_refl).
  cbn [rseqs] in H.
  apply M_seq_inv in H as (x0 & v0 & g0 & -> & H0 & H).
  apply M_rlit in H0 as [-> ->].
  apply M_seq_inv in H as (x & v & g1 & -> & H1 & H).
  apply M_seq_inv in H as (d & v2 & g2 & -> & H2 & H).
  apply M_chr_inv in H2 as (dc & -> & E & ->). apply N.eqb_eq in E; subst dc.
  apply M_seq_inv in H as (y & z & g3 & -> & H2 & H3).
  apply M_rlit in H2 as [-> ->]. unfold suffixes in H1; unfold starters in H3.
  apply M_grp_inv in H1 as (g5 & H1 & ->). apply M_grp_inv in H3 as (g4 & H3 & ->).
  apply no_grp_ok in H3; [|reflexivity]. subst g4.
  rewrite !in_app_iff in Hlt.
  exists ([TC 32] ++ map TC x ++ [TS; TC 32] ++ map TC z).
  rewrite !flat_app, !flat_TC, !cont_app, !cont_TC, !letters_app. repeat split.
  - simpl. rewrite app_nil_r. reflexivity.
  - apply wf_app; [repeat (apply wf_cons; [discriminate|]); apply wf_nil|].
    apply wf_app; [apply wf_TC; tauto|]. apply wf_app; [|apply wf_TC; tauto].
    repeat (apply wf_cons; [discriminate|]). apply wf_nil.
Qed.

Lemma step35 : step_ok (re_sub (rseqs [r_sp; suffixes 1; r_dot]) [TLit (lit " "); TGrp 1; TLit prd]).
Proof.
  eapply scan_ok; [apply scan_sub | apply sub_MOk; [reflexivity|] | apply sub_MNo; tails].
  intros u g H; assert (Hlt := re_nolt_ok _ _ _ _ H eq_refl).
  cbn [rseqs] in H.
  apply M_seq_inv in H as (x0 & v0 & g0 & -> & H0 & H).
  apply M_rlit in H0 as [-> ->].
  apply M_seq_inv in H as (x & v & g1 & -> & H1 & H2).
  apply M_chr_inv in H2 as (dc & -> & E & ->). apply N.eqb_eq in E; subst dc.
  unfold suffixes in H1. apply M_grp_inv in H1 as (g5 & H1 & ->).
  rewrite !in_app_iff in Hlt.
  exists ([TC 32] ++ map TC x ++ [TP]).
  rewrite !flat_app, !flat_TC, !cont_app, !cont_TC, !letters_app. repeat split.
  - apply wf_app; [repeat (apply wf_cons; [discriminate|]); apply wf_nil|].
    apply wf_app; [apply wf_TC; tauto|]. repeat (apply wf_cons; [discriminate|]). apply wf_nil.
Qed.

Lemma step36 : step_ok (re_sub (rseqs [r_sp; alphabets 1; r_dot]) [TLit (lit " "); TGrp 1; TLit prd]).
Proof.
  setup H Hlt.
  match goal with |- context [(lit " " ++ [?a] ++ [_])] =>
    exists [TC 32; TC a; TP]; rename a into aa end.
  split; [reflexivity|]. split.
  - repeat (apply wf_cons; [|]); try apply wf_nil; try discriminate; apply not60; tauto.
  - rewrite !letters_app. unfold letters. simpl. destruct (letter aa); reflexivity.
Qed.

Ltac rep_tac q :=
  apply (fun a b => rep_ok a b q);
  [ discriminate | intros H; vm_compute in H; intuition discriminate | reflexivity
  | unfold wf; intros H; vm_compute in H; intuition discriminate | reflexivity | tails].

Lemma step26 : step_ok (replace [10%N] (lit " ")).
Proof. rep_tac [TC 32]. Qed.
Lemma step29 : step_ok (replace (lit "Ph.D.") (lit "Ph<prd>D<prd>")).
Proof. rep_tac [TC 80; TC 104; TP; TC 68; TP]. Qed.
Lemma step37 : step_ok (replace [46; rdquo]%N [rdquo; 46]%N).
Proof. rep_tac [TC rdquo; TC 46]. Qed.
Lemma step38 : step_ok (replace [46; dquo]%N [dquo; 46]%N).
Proof. rep_tac [TC dquo; TC 46]. Qed.
Lemma step39 : step_ok (replace [33; dquo]%N [dquo; 33]%N).
Proof. rep_tac [TC dquo; TC 33]. Qed.
Lemma step40 : step_ok (replace [63; dquo]%N [dquo; 63]%N).
Proof. rep_tac [TC dquo; TC 63]. Qed.
Lemma step41 : step_ok (replace (lit ";") (lit ";<stop>")).
Proof. rep_tac [TC 59; TS]. Qed.
Lemma step42 : step_ok (replace (lit ".") (lit ".<stop>")).
Proof. rep_tac [TC 46; TS]. Qed.
Lemma step43 : step_ok (replace (lit "?") (lit "?<stop>")).
Proof. rep_tac [TC 63; TS]. Qed.
Lemma step44 : step_ok (replace (lit "!") (lit "!<stop>")).
Proof. rep_tac [TC 33; TS]. Qed.

(** ** Last step: marks become '.' and sentence boundaries *)
Definition unprd (t : tok) : tok := match t with TP => TC 46 | t => t end.
Lemma step45 ts : wf ts -> replace prd (lit ".") (flat ts) = flat (map unprd ts).
Proof.
  destruct (scan_replace prd (lit ".") ltac:(discriminate)) as [R0 RS].
  set (f := replace prd (lit ".")) in *.
  assert (Hno : forall c s, c <> 60%N -> f (c :: s) = c :: f s).
  { intros c s Hc. rewrite RS. unfold m_rep. cbn [prd lit prefixb]. change (N_of_ascii "<") with 60%N.
    destruct (N.eqb_spec 60 c); [congruence|reflexivity]. }
  induction ts as [|t ts IH]; intros Hw; [exact R0|].
  assert (Hw' : wf ts) by (unfold wf in *; simpl in Hw; tauto).
  specialize (IH Hw').
  destruct t.
  - change (flat (TC c :: ts)) with (c :: flat ts). change (flat (map unprd (TC c :: ts))) with (c :: flat (map unprd ts)).
    rewrite Hno, IH; auto. intros ->. apply Hw; simpl; auto.
  - change (flat (TP :: ts)) with (60%N :: lit "prd>" ++ flat ts).
    rewrite RS. unfold m_rep. 
    replace (prefixb prd (60%N :: lit "prd>" ++ flat ts)) with true by reflexivity.
    change (skipn (length prd) (60%N :: lit "prd>" ++ flat ts)) with (flat ts).
    rewrite IH. reflexivity.
  - change (flat (TS :: ts)) with (60%N :: lit "stop>" ++ flat ts).
    rewrite RS. unfold m_rep.
    replace (prefixb prd (60%N :: lit "stop>" ++ flat ts)) with false by reflexivity.
    cbn [lit app]. 
    repeat (rewrite Hno; [|discriminate]). rewrite IH. reflexivity.
Qed.

Lemma split_stop_letters ts : wf ts -> ~ In TP ts -> forall acc,
  letters (concat (split_aux stop 0 acc (flat ts))) = letters (rev acc) ++ cont ts.
Proof.
  induction ts as [|t ts IH]; intros Hw Hp acc.
  - simpl. rewrite !app_nil_r. reflexivity.
  - assert (Hw' : wf ts) by (unfold wf in *; simpl in Hw; tauto).
    assert (Hp' : ~ In TP ts) by (simpl in Hp; tauto). specialize (IH Hw' Hp').
    destruct t.
    + change (flat (TC c :: ts)) with (c :: flat ts). cbn [split_aux].
      replace (prefixb stop (c :: flat ts)) with false.
      * rewrite IH. simpl rev. rewrite letters_app, <- app_assoc. f_equal.
      * cbn [stop lit prefixb]. change (N_of_ascii "<") with 60%N.
        destruct (N.eqb_spec 60 c); [|reflexivity]. subst. exfalso; apply Hw; simpl; auto.
    + exfalso; apply Hp; simpl; auto.
    + change (flat (TS :: ts)) with (60%N :: lit "stop>" ++ flat ts). cbn [split_aux].
      replace (prefixb stop (60%N :: lit "stop>" ++ flat ts)) with true by reflexivity.
      rewrite split_aux_skip. change (skipn (length stop - 1) (lit "stop>" ++ flat ts)) with (flat ts).
      cbn [concat]. rewrite letters_app, IH. reflexivity.
Qed.

Lemma step_ok_comp f g : step_ok f -> step_ok g -> step_ok (fun s => g (f s)).
Proof.
  intros Hf Hg ts Hw. destruct (Hf ts Hw) as (t1 & E1 & W1 & C1).
  destruct (Hg t1 W1) as (t2 & E2 & W2 & C2).
  exists t2. rewrite E1, E2. split; auto. split; auto. congruence.
Qed.

Lemma mark_sentences_letters text : ~ In 60%N text ->
  exists ts, mark_sentences text = flat (map unprd ts) /\ wf ts /\ cont ts = letters text.
Proof.
  intros Hlt.
  assert (W0 : wf (map TC (lit " " ++ text ++ lit "  "))).
  { apply wf_TC. rewrite !in_app_iff. simpl. intuition discriminate. }
  assert (C0 : cont (map TC (lit " " ++ text ++ lit "  ")) = letters text).
  { rewrite cont_TC, !letters_app. simpl. now rewrite app_nil_r. }
  unfold mark_sentences. 
  rewrite <- (flat_TC (lit " " ++ text ++ lit "  ")).
  revert W0 C0. generalize (map TC (lit " " ++ text ++ lit "  ")). intros t0 W0 C0. clear Hlt.
  cbv zeta.
  destruct (step26 t0 W0) as (t1 & -> & W1 & C1); rewrite C0 in C1; clear t0 W0 C0.
  destruct (step27 t1 W1) as (t0 & -> & W0 & C0); rewrite C1 in C0; clear t1 W1 C1.
  destruct (step28 t0 W0) as (t1 & -> & W1 & C1); rewrite C0 in C1; clear t0 W0 C0.
  destruct (when_ok (infixb (lit "Ph.D") (flat t1)) _ step29 t1 W1) as (t0 & -> & W0 & C0); rewrite C1 in C0; clear t1 W1 C1.
  destruct (step30 t0 W0) as (t1 & -> & W1 & C1); rewrite C0 in C1; clear t0 W0 C0.
  destruct (step31 t1 W1) as (t0 & -> & W0 & C0); rewrite C1 in C0; clear t1 W1 C1.
  destruct (step32 t0 W0) as (t1 & -> & W1 & C1); rewrite C0 in C1; clear t0 W0 C0.
  destruct (step33 t1 W1) as (t0 & -> & W0 & C0); rewrite C1 in C0; clear t1 W1 C1.
  destruct (step34 t0 W0) as (t1 & -> & W1 & C1); rewrite C0 in C1; clear t0 W0 C0.
  destruct (step35 t1 W1) as (t0 & -> & W0 & C0); rewrite C1 in C0; clear t1 W1 C1.
  destruct (step36 t0 W0) as (t1 & -> & W1 & C1); rewrite C0 in C1; clear t0 W0 C0.
  destruct (when_ok (infixb [rdquo] (flat t1)) _ step37 t1 W1) as (t0 & -> & W0 & C0); rewrite C1 in C0; clear t1 W1 C1.
  destruct (when_ok (infixb [dquo] (flat t0)) _ step38 t0 W0) as (t1 & -> & W1 & C1); rewrite C0 in C1; clear t0 W0 C0.
  destruct (when_ok (infixb [33%N] (flat t1)) _ step39 t1 W1) as (t0 & -> & W0 & C0); rewrite C1 in C0; clear t1 W1 C1.
  destruct (when_ok (infixb [63%N] (flat t0)) _ step40 t0 W0) as (t1 & -> & W1 & C1); rewrite C0 in C1; clear t0 W0 C0.
  destruct (step41 t1 W1) as (t0 & -> & W0 & C0); rewrite C1 in C0; clear t1 W1 C1.
  destruct (step42 t0 W0) as (t1 & -> & W1 & C1); rewrite C0 in C1; clear t0 W0 C0.
  destruct (step43 t1 W1) as (t0 & -> & W0 & C0); rewrite C1 in C0; clear t1 W1 C1.
  destruct (step44 t0 W0) as (t1 & -> & W1 & C1); rewrite C0 in C1; clear t0 W0 C0.
  exists t1. split; [apply step45; auto|auto].
Qed.

Lemma concat_strip_letters l : letters (concat (map strip l)) = letters (concat l).
Proof.
  induction l as [|x l IH]; simpl; auto.
  rewrite !letters_app, IH. f_equal. apply filter_strip, letter_space.
Qed.

Lemma removelast_last_split (l : list pystr) : l <> [] ->
  concat l = concat (removelast l) ++ last l [].
Proof.
  intros H. rewrite (app_removelast_last [] H) at 1. rewrite concat_app. simpl. now rewrite app_nil_r.
Qed.

Lemma split_into_sentences_letters text : ~ In 60%N text ->
  letters (concat (split_into_sentences text)) = letters text.
Proof.
  intros Hlt. destruct (mark_sentences_letters text Hlt) as (ts & E & W & C).
  unfold split_into_sentences. rewrite concat_strip_letters.
  assert (W' : wf (map unprd ts)).
  { unfold wf. rewrite in_map_iff. intros [[c| |] [E2 H]]; simpl in E2; try discriminate.
    injection E2; intros ->; auto. }
  assert (P' : ~ In TP (map unprd ts)).
  { rewrite in_map_iff. intros [[c| |] [E2 H]]; simpl in E2; try discriminate. }
  assert (C' : cont (map unprd ts) = cont ts).
  { clear. induction ts as [|[c| |] ts IH]; simpl; auto. now rewrite IH. }
  pose proof (split_stop_letters _ W' P' []) as HL. simpl in HL. rewrite C', C, <- E in HL.
  fold (split stop (mark_sentences text)) in HL.
  set (l := split stop (mark_sentences text)) in *.
  assert (Hl : l <> []) by apply split_nonnil.
  clearbody l. clear E W C W' P' C' ts.
  destruct (str_eqb (last l []) (lit "  ")) eqn:E3; auto.
  apply str_eqb_eq in E3. rewrite <- HL.
  rewrite (removelast_last_split l Hl). rewrite E3, letters_app, app_nil_r.
  reflexivity.
Qed.

Lemma split_into_sentences_nonnil text : ~ In 60%N text ->
  letters text <> [] -> split_into_sentences text <> [].
Proof.
  intros H H2 E. apply H2. rewrite <- split_into_sentences_letters, E; auto.
Qed.

From Verif Require Import TextSplitProofs.
Lemma subseq_filter (p : N -> bool) a b : subseq a b -> subseq (filter p a) (filter p b).
Proof.
  induction 1; simpl.
  - constructor.
  - destruct (p x); auto. now constructor.
  - destruct (p x); auto. now constructor.
Qed.
Lemma letters_ink s : letters s = filter letter (ink s).
Proof.
  induction s as [|c s IH]; simpl; auto.
  destruct (visible c) eqn:E; simpl.
  - now rewrite IH.
  - assert (E2 : letter c = false) by (unfold letter; now rewrite E). now rewrite E2.
Qed.
Lemma text_to_list_letters text limit l : ~ In 60%N text ->
  Forall (fun x => length x <= limit) (split_into_sentences text) ->
  text_to_list text limit = Ok l -> letters (concat l) = letters text.
Proof.
  intros Hlt Hs H. rewrite <- (split_into_sentences_letters text Hlt).
  rewrite (letters_ink (concat l)), (letters_ink (concat (split_into_sentences text))).
  f_equal. eapply sentences_to_list_ink; eauto.
Qed.
Lemma text_to_list_subseq text limit l : ~ In 60%N text ->
  text_to_list text limit = Ok l -> subseq (letters (concat l)) (letters text).
Proof.
  intros Hlt H. rewrite <- (split_into_sentences_letters text Hlt).
  rewrite (letters_ink (concat l)), (letters_ink (concat (split_into_sentences text))).
  apply subseq_filter. eapply sentences_to_list_subseq; eauto.
Qed.
Lemma text_to_list_within text limit l :
  text_to_list text limit = Ok l -> Forall (fun p => length p <= limit) l.
Proof. apply sentences_to_list_within. Qed.
Lemma text_to_list_total text limit : ~ In 60%N text -> letters text <> [] -> limit <> 50 ->
  exists l, text_to_list text limit = Ok l.
Proof.
  intros. apply sentences_to_list_total; auto. now apply split_into_sentences_nonnil.
Qed.
