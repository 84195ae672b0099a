(** Denotational reading of the regular-expression model: soundness and completeness. *)
From Coq Require Import Ascii String List Bool Arith NArith Lia.
From Verif Require Import PyBase Regex.
Import ListNotations.

Inductive M : re -> pystr -> groups -> groups -> Prop :=
| M_eps g : M REps [] g g
| M_chr p c g : p c = true -> M (RChr p) [c] g g
| M_seq a b u v g g1 g2 : M a u g g1 -> M b v g1 g2 -> M (RSeq a b) (u ++ v) g g2
| M_altl a b u g g1 : M a u g g1 -> M (RAlt a b) u g g1
| M_altr a b u g g1 : M b u g g1 -> M (RAlt a b) u g g1
| M_star0 gr a g : M (RStar gr a) [] g g
| M_starS gr a u v g g1 g2 : u <> [] -> M a u g g1 -> M (RStar gr a) v g1 g2 -> M (RStar gr a) (u ++ v) g g2
| M_grp n a u g g1 : M a u g g1 -> M (RGrp n a) u g ((n, u) :: g1)
| M_nla a g : M (RNla a) [] g g.

Lemma in_star_loop gr f n s g x :
  In x (star_loop f gr (S n) s g) <->
  x = (s, g) \/ exists y, In y (f s g) /\ length (fst y) < length s
                          /\ In x (star_loop f gr n (fst y) (snd y)).
Proof.
  cbn [star_loop].
  set (more := flat_map _ _).
  assert (Hm : In x more <-> exists y, In y (f s g) /\ length (fst y) < length s
                          /\ In x (star_loop f gr n (fst y) (snd y))).
  { unfold more. rewrite in_flat_map. split.
    - intros [y [H1 H2]]. exists y. cbv beta in H2. destruct (Nat.ltb_spec (length (fst y)) (length s)); [repeat split; auto|destruct H2].
    - intros [y [H1 [H2 H3]]]. exists y; split; auto. cbv beta.
      destruct (Nat.ltb_spec (length (fst y)) (length s)); [auto|lia]. }
  destruct gr.
  - rewrite in_app_iff, Hm. simpl. intuition congruence.
  - simpl. rewrite Hm. intuition congruence.
Qed.

Lemma mt_sound r : forall s g s' g', In (s', g') (mt r s g) -> exists u, s = u ++ s' /\ M r u g g'.
Proof.
  induction r; intros s g s' g' H.
  - simpl in H. destruct H as [H|[]]. injection H; intros <- <-. exists []; split; auto; constructor.
  - simpl in H. destruct s as [|c s]; [destruct H|]. destruct (p c) eqn:E; [|destruct H].
    destruct H as [H|[]]. injection H; intros <- <-. exists [c]; split; auto; now constructor.
  - simpl in H. apply in_flat_map in H as [[s1 g1] [H1 H2]]. simpl in H2.
    apply IHr1 in H1 as [u [-> Hu]]. apply IHr2 in H2 as [v [-> Hv]].
    exists (u ++ v). split; [now rewrite app_assoc|]. econstructor; eauto.
  - simpl in H. apply in_app_iff in H as [H|H].
    + apply IHr1 in H as [u [? ?]]; exists u; split; auto; now constructor.
    + apply IHr2 in H as [u [? ?]]; exists u; split; auto; now apply M_altr.
  - cbn [mt] in H. remember (length s) as n eqn:Hn. clear Hn.
    revert s g H. induction n as [|n IHn]; intros s g H.
    + simpl in H. destruct H as [H|[]]. injection H; intros <- <-. exists []; split; auto; constructor.
    + apply in_star_loop in H as [H|[[s1 g1] [H1 [H2 H3]]]].
      * injection H; intros <- <-. exists []; split; auto; constructor.
      * simpl in *. apply IHr in H1 as [u [-> Hu]]. apply IHn in H3 as [v [-> Hv]].
        exists (u ++ v); split; [now rewrite app_assoc | econstructor; eauto].
        intros ->. simpl in H2; lia.
  - simpl in H. apply in_map_iff in H as [[s1 g1] [H1 H2]]. simpl in H1. injection H1; intros <- <-.
    apply IHr in H2 as [u [-> Hu]]. exists u; split; auto.
    rewrite app_length. replace (length u + length s1 - length s1) with (length u) by lia.
    rewrite firstn_app, Nat.sub_diag, firstn_all. simpl. rewrite app_nil_r. now constructor.
  - simpl in H. destruct (mt r s g); [|destruct H]. destruct H as [H|[]].
    injection H; intros <- <-. exists []; split; auto; constructor.
Qed.

Fixpoint no_look (r : re) : bool :=
  match r with
  | REps | RChr _ => true
  | RSeq a b | RAlt a b => no_look a && no_look b
  | RStar _ a | RGrp _ a => no_look a
  | RNla _ => false
  end.

Lemma star_loop_mono gr f : forall n m s g x, length s <= n -> n <= m ->
  In x (star_loop f gr n s g) -> In x (star_loop f gr m s g).
Proof.
  induction n as [|n IH]; intros m s g x Hs Hm H.
  - destruct H as [<-|[]]. destruct m; [simpl; auto|]. apply in_star_loop; auto.
  - destruct m; [lia|]. apply in_star_loop in H as [H|[y [H1 [H2 H3]]]]; apply in_star_loop; auto.
    right. exists y; repeat split; auto. apply IH with (m := m); auto; lia.
Qed.

Lemma mt_complete r u g g' : M r u g g' -> no_look r = true ->
  forall s' , In (s', g') (mt r (u ++ s') g).
Proof.
  induction 1; intros Hl s'; simpl in Hl; try discriminate.
  - simpl; auto.
  - simpl. rewrite H. simpl; auto.
  - apply andb_true_iff in Hl as [Hl1 Hl2]. simpl. rewrite <- app_assoc.
    apply in_flat_map. eexists; split; [apply IHM1; auto|]. simpl. auto.
  - apply andb_true_iff in Hl as [Hl1 Hl2]. simpl. apply in_or_app. left; auto.
  - apply andb_true_iff in Hl as [Hl1 Hl2]. simpl. apply in_or_app. right; auto.
  - cbn [mt app]. destruct (length s') eqn:E; [simpl; auto|]. apply in_star_loop; auto.
  - cbn [mt]. rewrite <- app_assoc.
    specialize (IHM1 Hl (v ++ s')). specialize (IHM2 Hl s'). cbn [mt] in IHM2.
    destruct u as [|c u]; [congruence|]. simpl length.
    apply in_star_loop. right. eexists; split; [apply IHM1|]. split; [simpl; rewrite !app_length; lia|].
    simpl.
    eapply star_loop_mono; [| |exact IHM2]; rewrite ?app_length; lia.
  - simpl. apply in_map_iff. exists (s', g1). split; [|auto]. simpl.
    rewrite app_length. replace (length u + length s' - length s') with (length u) by lia.
    rewrite firstn_app, Nat.sub_diag, firstn_all. simpl. now rewrite app_nil_r.
Qed.

Lemma re_match_some r s rest g : re_match r s = Some (rest, g) -> exists u, s = u ++ rest /\ M r u [] g.
Proof.
  unfold re_match. destruct (mt r s []) as [|x l] eqn:E; [discriminate|].
  injection 1; intros ->. apply mt_sound. rewrite E. simpl; auto.
Qed.

Lemma re_matches_iff r s : no_look r = true ->
  (re_matches r s = true <-> exists u rest g, s = u ++ rest /\ M r u [] g).
Proof.
  intros Hl. unfold re_matches. split.
  - destruct (re_match r s) as [[rest g]|] eqn:E; [|discriminate].
    apply re_match_some in E as [u [? ?]]. eauto.
  - intros (u & rest & g & -> & H). unfold re_match.
    apply mt_complete with (s' := rest) in H; auto.
    destruct (mt r (u ++ rest) []); [destruct H | reflexivity].
Qed.

(** Inversion lemmas in rewriting style. *)
Lemma M_seq_inv a b w g g2 : M (RSeq a b) w g g2 ->
  exists u v g1, w = u ++ v /\ M a u g g1 /\ M b v g1 g2.
Proof. inversion 1; subst; eauto 7. Qed.
Lemma M_chr_inv p w g g2 : M (RChr p) w g g2 -> exists c, w = [c] /\ p c = true /\ g2 = g.
Proof. inversion 1; subst; eauto. Qed.
Lemma M_alt_inv a b w g g2 : M (RAlt a b) w g g2 -> M a w g g2 \/ M b w g g2.
Proof. inversion 1; subst; eauto. Qed.
Lemma M_grp_inv n a w g g2 : M (RGrp n a) w g g2 -> exists g1, M a w g g1 /\ g2 = (n, w) :: g1.
Proof. inversion 1; subst; eauto. Qed.
Lemma M_eps_inv w g g2 : M REps w g g2 -> w = [] /\ g2 = g.
Proof. inversion 1; subst; eauto. Qed.

Lemma M_rpow_chr n p w g g2 :
  M (rpow n (RChr p)) w g g2 <-> length w = n /\ forallb p w = true /\ g2 = g.
Proof.
  revert w g; induction n as [|n IH]; intros w g; simpl.
  - split.
    + intros H; apply M_eps_inv in H as [-> ->]. auto.
    + intros [H [_ ->]]. destruct w; [constructor|discriminate].
  - split.
    + intros H; apply M_seq_inv in H as (u & v & g1 & -> & Hu & Hv).
      apply M_chr_inv in Hu as (c & -> & Hc & ->). apply IH in Hv as (<- & Hv & ->).
      simpl. rewrite Hc. auto.
    + intros (Hl & Hf & ->). destruct w as [|c w]; [discriminate|].
      simpl in *. apply andb_true_iff in Hf as [Hc Hw].
      change (c :: w) with ([c] ++ w). econstructor; [now constructor|]. apply IH; auto.
Qed.
Lemma M_rupto_chr n p w g g2 :
  M (rupto n (RChr p)) w g g2 <-> length w <= n /\ forallb p w = true /\ g2 = g.
Proof.
  revert w g; induction n as [|n IH]; intros w g; simpl.
  - split.
    + intros H; apply M_eps_inv in H as [-> ->]. auto.
    + intros [H [_ ->]]. destruct w; [constructor|simpl in H; lia].
  - split.
    + intros H; apply M_alt_inv in H as [H|H].
      * apply M_seq_inv in H as (u & v & g1 & -> & Hu & Hv).
        apply M_chr_inv in Hu as (c & -> & Hc & ->). apply IH in Hv as (Hl & Hv & ->).
        simpl. rewrite Hc. repeat split; auto; lia.
      * apply M_eps_inv in H as [-> ->]. simpl; repeat split; auto; lia.
    + intros (Hl & Hf & ->). destruct w as [|c w]; [apply M_altr; constructor|].
      simpl in *. apply andb_true_iff in Hf as [Hc Hw].
      apply M_altl. change (c :: w) with ([c] ++ w). econstructor; [now constructor|].
      apply IH; repeat split; auto; lia.
Qed.
Lemma M_rrep_chr m n p w g g2 : m <= n ->
  (M (rrep m n (RChr p)) w g g2 <-> m <= length w <= n /\ forallb p w = true /\ g2 = g).
Proof.
  intros Hmn. unfold rrep. split.
  - intros H; apply M_seq_inv in H as (u & v & g1 & -> & Hu & Hv).
    apply M_rpow_chr in Hu as (<- & Hu & ->). apply M_rupto_chr in Hv as (Hl & Hv & ->).
    rewrite app_length, forallb_app, Hu, Hv. repeat split; auto; lia.
  - intros (Hl & Hf & ->). rewrite <- (firstn_skipn m w).
    rewrite <- (firstn_skipn m w), forallb_app in Hf. apply andb_true_iff in Hf as [H1 H2].
    econstructor; [apply M_rpow_chr | apply M_rupto_chr]; repeat split; eauto.
    + rewrite firstn_length; lia.
    + rewrite skipn_length; lia.
Qed.
Lemma M_star_chr gr p w g g2 :
  M (RStar gr (RChr p)) w g g2 <-> forallb p w = true /\ g2 = g.
Proof.
  split.
  - remember (RStar gr (RChr p)) as r eqn:E. induction 1; try discriminate; auto.
    injection E; intros -> ->. apply M_chr_inv in H0 as (c & -> & Hc & ->).
    destruct (IHM2 eq_refl) as [Hv ->]. simpl. now rewrite Hc.
  - intros [Hf ->]. induction w as [|c w IH]; [constructor|].
    simpl in Hf; apply andb_true_iff in Hf as [Hc Hw].
    change (c :: w) with ([c] ++ w). econstructor; [discriminate|now constructor|auto].
Qed.
Lemma M_rlit_c c w g g2 : M (rlit_c c) w g g2 <-> w = [c] /\ g2 = g.
Proof.
  split.
  - intros H; apply M_chr_inv in H as (d & -> & E & ->). apply N.eqb_eq in E; subst; auto.
  - intros [-> ->]. constructor. apply N.eqb_refl.
Qed.
Lemma M_rlit s w g g2 : M (rlit s) w g g2 <-> w = s /\ g2 = g.
Proof.
  revert w g; induction s as [|c s IH]; intros w g.
  - split; [intros H; now apply M_eps_inv in H | intros [-> ->]; constructor].
  - destruct s as [|d s]; [apply M_rlit_c|].
    change (rlit (c :: d :: s)) with (RSeq (rlit_c c) (rlit (d :: s))). split.
    + intros H; apply M_seq_inv in H as (u & v & g1 & -> & Hu & Hv).
      apply M_rlit_c in Hu as [-> ->]. apply IH in Hv as [-> ->]. auto.
    + intros [-> ->]. change (c :: d :: s) with ([c] ++ (d :: s)).
      econstructor; [now apply M_rlit_c | now apply IH].
Qed.
