(** C237-C238: what conversions print. *)
From Coq Require Import Ascii String List Bool Arith NArith ZArith Lia.
From Verif Require Import PyBase PyBaseFacts PyValues UtilsModel XmlModel ScreenModel.
Import ListNotations.

(** ** The statements *)
(** what comes after the last slash *)
Definition last_component (path n : pystr) : Prop := ~ In 47%N n /\ (path = n \/ exists folder, path = folder ++ lit "/" ++ n).
(** the line that announces a file *)
Definition announces (g : reading) (x : pystr) : Prop := exists n, last_component (g_path g) n /\ x = [9%N] ++ lit "Converting " ++ n.
(** the files up to and with the first that fails *)
Inductive reached : list reading -> list reading -> Prop :=
| re_nil : reached [] []
| re_stop g gs : (g_opened g = false \/ g_ended g = false) -> reached (g :: gs) [g]
| re_go g gs hs : g_opened g = true -> g_ended g = true -> reached gs hs -> reached (g :: gs) (g :: hs).
(** the lines of a file, in order *)
Inductive lines_of (silent : bool) (g : reading) : list pystr -> Prop :=
| lo_closed : g_opened g = false -> lines_of silent g (if silent then [] else g_before g)
| lo_opened x : g_opened g = true -> announces g x ->
    lines_of silent g ((if silent then [] else g_before g) ++ [x] ++ (if silent then [] else g_after g)).
(** the lines of a conversion *)
Definition screen_of (silent : bool) (gs : list reading) (ls : list pystr) : Prop :=
  exists hs lss, reached gs hs /\ Forall2 (lines_of silent) hs lss /\ ls = concat lss.

(** ** Proofs *)
Lemma take_until_spec c s : ~ In c (take_until c s) /\ (s = take_until c s \/ exists r, s = take_until c s ++ [c] ++ r).
Proof.
  induction s as [|x s (N & IH)]; cbn [take_until]; [split; [intros []|now left]|]. destruct (N.eqb_spec x c) as [->|E].
  - split; [intros []|]. right. now exists s.
  - split; [intros [I|I]; [congruence|tauto]|]. destruct IH as [H|(r & H)]; [left; now rewrite <- H|right; exists r; cbn; f_equal; exact H].
Qed.
Lemma rpart_component s : last_component s (rpart_last (ch "/") s).
Proof.
  unfold rpart_last, last_component. destruct (take_until_spec (ch "/") (rev s)) as (N & H). split; [now rewrite <- in_rev|].
  destruct H as [H|(r & H)].
  - left. rewrite <- H. now rewrite rev_involutive.
  - right. exists (rev r). rewrite <- (rev_involutive s) at 1. rewrite H at 1. rewrite !rev_app_distr, <- app_assoc. reflexivity.
Qed.
Lemma outputs_spec xs : forall t, outputs xs t = Terminal (t_quiet t) (t_lines t ++ (if truth (t_quiet t) then [] else xs)).
Proof.
  unfold outputs. induction xs as [|x xs IH]; intros [q l]; cbn [fold_left].
  - cbn. destruct (truth q); now rewrite app_nil_r.
  - rewrite IH. unfold output. cbn [t_quiet]. destruct (truth q) eqn:Q; cbn [t_quiet t_lines]; rewrite Q; [reflexivity|now rewrite <- app_assoc].
Qed.
Lemma one_file_spec q g t : exists ls, lines_of (truth q) g ls /\ one_file q g t = Terminal q (t_lines t ++ ls).
Proof.
  unfold one_file. cbv zeta. rewrite (outputs_spec (g_before g)). cbn [t_quiet t_lines]. destruct (g_opened g) eqn:O.
  - rewrite outputs_spec. unfold print. cbn [t_quiet t_lines]. eexists. split; [apply lo_opened; [exact O|]|now rewrite <- !app_assoc].
    eexists. split; [apply rpart_component|reflexivity].
  - eexists. split; [now apply lo_closed|reflexivity].
Qed.
Lemma run_spec q gs : forall t, exists ls, screen_of (truth q) gs ls /\ t_lines (run q gs t) = t_lines t ++ ls.
Proof.
  induction gs as [|g gs IH]; intros t; cbn [run]; [exists []; split; [exists [], []; repeat split; constructor|now rewrite app_nil_r]|].
  destruct (one_file_spec q g t) as (l & L & ->). destruct (g_opened g && g_ended g)%bool eqn:E.
  - apply andb_true_iff in E as (E1 & E2). destruct (IH (Terminal q (t_lines t ++ l))) as (ls & (hs & lss & R & F & ->) & X). exists (l ++ concat lss). split.
    + exists (g :: hs), (l :: lss). split; [now constructor|]. split; [now constructor|reflexivity].
    + rewrite X. cbn [t_lines]. now rewrite <- app_assoc.
  - apply andb_false_iff in E. exists l. split; [|reflexivity]. exists [g], [l]. split; [now constructor|]. split; [repeat constructor; exact L|cbn; now rewrite app_nil_r].
Qed.

(** ** C237 *)
(** Whatever converters did before, a conversion adds to the screen the lines of its files, in order, up to the first file that fails. *)
Theorem C237_screen :
  forall q gs before, exists ls, screen_of (truth q) gs ls /\ t_lines (run q gs before) = t_lines before ++ ls.
Proof. exact run_spec. Qed.
Print Assumptions C237_screen.
(** There is one such list of lines only, so the value that another converter left in [Print.quiet] plays no part. *)
Theorem C237_independent :
  forall q gs p p' l, t_lines (run q gs (Terminal p l)) = t_lines (run q gs (Terminal p' l)).
Proof. intros q [|g gs] p p' l; reflexivity. Qed.
Print Assumptions C237_independent.
(** Several conversions one after the other show what each shows alone. *)
Theorem C237_session :
  forall cs t, exists lss, Forall2 (fun c ls => screen_of (truth (fst c)) (snd c) ls /\ t_lines (run (fst c) (snd c) fresh) = ls) cs lss /\
    t_lines (session cs t) = t_lines t ++ concat lss.
Proof.
  assert (A : forall q gs t, t_lines (run q gs t) = t_lines t ++ t_lines (run q gs fresh)).
  { intros q gs. assert (H : forall g t, one_file q g t = Terminal q (t_lines t ++ t_lines (one_file q g fresh))).
    { intros g t. unfold one_file. rewrite !outputs_spec. destruct (g_opened g); rewrite ?outputs_spec; unfold print, fresh; cbn [t_quiet t_lines]; rewrite <- ?app_assoc; reflexivity. }
    induction gs as [|g gs IH]; intros t; cbn [run]; [cbn; now rewrite app_nil_r|].
    destruct (g_opened g && g_ended g)%bool; [|now rewrite H]. rewrite IH, (IH (one_file q g fresh)), H. cbn [t_lines]. now rewrite <- app_assoc. }
  unfold session. induction cs as [|(q, gs) cs IH]; intros t; cbn [fold_left fst snd]; [exists []; split; [constructor|cbn; now rewrite app_nil_r]|].
  destruct (IH (run q gs t)) as (lss & F & X). exists (t_lines (run q gs fresh) :: lss). split.
  - constructor; [|exact F]. split; [|reflexivity]. cbn [fst snd]. destruct (run_spec q gs fresh) as (ls & S & Y). cbn in Y. now rewrite Y.
  - rewrite X, A. cbn [concat]. now rewrite <- app_assoc.
Qed.
Print Assumptions C237_session.
Example C237_nonvacuous :
  t_lines (session [(VBool true, [Reading (lit "in/a.spold") [lit "one"] true [lit "two"] true]);
                    (VBool false, [Reading (lit "in/b.spold") [] true [lit "three"] false; Reading (lit "in/c.spold") [] true [] true])] fresh) =
    [[9%N] ++ lit "Converting a.spold"; [9%N] ++ lit "Converting b.spold"; lit "three"].
Proof. reflexivity. Qed.

(** ** C238 *)
(** A quiet converter shows no message: its lines do not depend on the messages. *)
Theorem C238_messages_partial :
  forall q gs gs' t, truth q = true -> Forall2 (fun g g' => g_path g = g_path g' /\ g_opened g = g_opened g' /\ g_ended g = g_ended g') gs gs' ->
    t_lines (run q gs t) = t_lines (run q gs' t).
Proof.
  intros q gs gs' t Q F. revert t. induction F as [|g g' gs gs' (P & O & E) F IH]; intros t; [reflexivity|]. cbn [run].
  assert (X : one_file q g t = one_file q g' t). { unfold one_file. cbv zeta. rewrite P, O, !outputs_spec. unfold print. cbn [t_quiet t_lines]. now rewrite Q. }
  rewrite X, O, E. destruct (g_opened g' && g_ended g')%bool; [apply IH|reflexivity].
Qed.
Print Assumptions C238_messages_partial.
(** But it is not silent: every file that is opened has its line, quiet or not. *)
Theorem C238_silent_refuted :
  forall q gs hs t, reached gs hs -> Forall (fun g => g_opened g = true) hs -> truth q = true ->
    exists ls, Forall2 announces hs ls /\ t_lines (run q gs t) = t_lines t ++ ls.
Proof.
  intros q gs hs t R A Q. revert A t. induction R as [|g gs [O|O]|g gs hs O E R IH]; intros A t; cbn [run].
  - exists []. split; [constructor|now rewrite app_nil_r].
  - inversion A; congruence.
  - inversion A as [|? ? O' _]; subst. destruct (one_file_spec q g t) as (l & L & ->). rewrite O, andb_false_r. rewrite Q in L. inversion L as [X|x X N Y]; [congruence|]. exists [x]. split; [now repeat constructor|reflexivity].
  - inversion A as [|? ? _ A']; subst. rewrite O, E. cbn [andb]. destruct (one_file_spec q g t) as (l & L & ->). rewrite Q in L. inversion L as [X|x X N Y]; [congruence|].
    destruct (IH A' (Terminal q (t_lines t ++ [x]))) as (ls & F & Z). exists (x :: ls). split; [now constructor|]. cbn [app] in *. rewrite Z. cbn [t_lines]. now rewrite <- app_assoc.
Qed.
Print Assumptions C238_silent_refuted.
(** It shows nothing exactly when no file is opened. *)
Theorem C238_silent_exactly_partial :
  forall q gs hs t, reached gs hs -> truth q = true ->
    (t_lines (run q gs t) = t_lines t <-> Forall (fun g => g_opened g = false) hs).
Proof.
  intros q gs hs t R Q. destruct (run_spec q gs t) as (ls & (hs' & lss & R' & F & ->) & ->).
  assert (hs' = hs). { clear - R R'. revert hs' R'. induction R as [|g gs [O|O]|g gs hs O E R IH]; intros hs' R'; inversion R' as [|? ? [X|X]|? ? ? X Y Z]; subst; try congruence; try reflexivity. f_equal. now apply IH. }
  subst hs'. rewrite Q in F. rewrite <- (app_nil_r (t_lines t)) at 2. split.
  - intros H. apply app_inv_head in H. clear - F H. induction F as [|g l hs lss L F IH]; [constructor|]. cbn [concat] in H. apply app_eq_nil in H as (-> & H). constructor; [|now apply IH].
    inversion L; assumption || discriminate.
  - intros A. f_equal. clear - F A. induction F as [|g l hs lss L F IH]; [reflexivity|]. inversion A as [|? ? O A']; subst. inversion L as [X Y|x X N Y]; [|congruence]. cbn [concat app]. now apply IH.
Qed.
Print Assumptions C238_silent_exactly_partial.
Example C238_nonvacuous :
  t_lines (run (VBool true) [Reading (lit "in/a.spold") [lit "one"] true [lit "two"] true] fresh) = [[9%N] ++ lit "Converting a.spold"] /\
  t_lines (run (VBool true) [Reading (lit "in/a.spold") [lit "one"] false [] false] fresh) = [].
Proof. split; reflexivity. Qed.
