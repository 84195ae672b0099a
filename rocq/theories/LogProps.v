(** C229-C232: the log files of conversions (LogModel.v). *)
From Coq Require Import Ascii String List Bool Arith NArith ZArith Lia.
From Verif Require Import PyBase PyBaseFacts PyValues DotDictModel DotDictProofs XmlProofs OutputModel OutputSpec OutputProofs OutputProps LogModel.
Import ListNotations.

Definition block (d : dataset) : list line := Heading :: t_lines d ++ [Ended (t_name d); Closed].
Definition contains {A} (b l : list A) : Prop := exists x y, l = x ++ b ++ y.

(** *** What a state becomes while the output is open *)
Definition opened (s : logging) : Prop := l_handler s = Some (l_path s).
Definition same_but_log (s s' : logging) (ls : list line) : Prop :=
  l_name s' = l_name s /\ l_path s' = l_path s /\ l_handler s' = l_handler s /\
  content (l_path s) (l_logs s') = content (l_path s) (l_logs s) ++ ls /\ (forall p, p <> l_path s -> getf p (l_logs s') = getf p (l_logs s)).
Lemma write_opened x s : opened s -> same_but_log s (write x s) [x] /\ l_multi (write x s) = l_multi s /\ l_lists (write x s) = l_lists s /\ l_module (write x s) = l_module s.
Proof.
  intros O. unfold write. rewrite O. unfold same_but_log. cbn. rewrite <- O. repeat split; auto.
  - unfold content at 1. now rewrite getf_putf.
  - intros p N. now apply getf_putf_other.
Qed.
Lemma same_trans s s1 s2 a b : same_but_log s s1 a -> same_but_log s1 s2 b -> same_but_log s s2 (a ++ b).
Proof.
  intros (N1 & P1 & H1 & C1 & O1) (N2 & P2 & H2 & C2 & O2). rewrite P1 in *. unfold same_but_log. rewrite N2, P2, H2, C2, C1, app_assoc. repeat split; auto.
  intros p N. rewrite O2, O1; auto.
Qed.
Lemma same_opened s s' l : same_but_log s s' l -> opened s -> opened s'.
Proof. unfold opened. intros (_ & P & H & _) O. now rewrite H, P. Qed.
Lemma say_opened ls : forall s, opened s -> same_but_log s (say ls s) ls /\ l_multi (say ls s) = l_multi s /\ l_lists (say ls s) = l_lists s /\ l_module (say ls s) = l_module s.
Proof.
  induction ls as [|x ls IH]; intros s O; [unfold same_but_log; cbn; repeat split; auto; now rewrite app_nil_r|].
  destruct (write_opened x s O) as (S1 & M1 & L1 & D1). destruct (IH _ (same_opened _ _ _ S1 O)) as (S2 & M2 & L2 & D2).
  cbn [say fold_left]. fold (say ls (write x s)). repeat split; try congruence; now apply (same_trans _ _ _ [x] ls S1 S2).
Qed.

(** the state after the start of the output of [d] *)
Lemma start_opened d s : l_multi s = false ->
  opened (start_output d s) /\ l_name (start_output d s) = t_name d /\ l_path (start_output d s) = log_file (t_name d) /\ l_multi (start_output d s) = false /\
  content (log_file (t_name d)) (l_logs (start_output d s)) = content (log_file (t_name d)) (l_logs s) ++ [Heading] /\
  (forall p, p <> log_file (t_name d) -> getf p (l_logs (start_output d s)) = getf p (l_logs s)) /\ l_lists (start_output d s) = l_lists s.
Proof.
  intros M. unfold start_output. rewrite M. unfold write, opened. cbn. repeat split; auto.
  - unfold content at 1. now rewrite getf_putf.
  - intros p N. now apply getf_putf_other.
Qed.

(** one data set in a file of its own *)
Definition listing (s : logging) (p : pystr) (ls : list line) : list (pystr * list (pystr * pystr)) :=
  match listed ls with [] => l_lists s | f => putf p f (l_lists s) end.
Lemma ended_opened s : opened s ->
  let s' := end_output s in same_but_log s s' [Ended (l_name s); Closed] /\ l_multi s' = false /\ l_module s' = false /\ l_lists s' = listing s (l_path s) (content (l_path s) (l_logs s')).
Proof.
  intros O. unfold end_output. destruct (write_opened (Ended (l_name s)) s O) as (S1 & M1 & L1 & D1). destruct (write_opened Closed _ (same_opened _ _ _ S1 O)) as (S2 & M2 & L2 & D2).
  pose proof (same_trans _ _ _ _ _ S1 S2) as S. cbn zeta. set (w := write Closed (write (Ended (l_name s)) s)) in *. destruct S as (N & P & H & C & R).
  unfold same_but_log. cbn. repeat split; auto. unfold listing. rewrite P, L2, L1. now destruct (listed (content (l_path s) (l_logs w))).
Qed.
Lemma one_file d b s : l_multi s = false ->
  let s' := one true s (d, b) in
  content (log_file (t_name d)) (l_logs s') = content (log_file (t_name d)) (l_logs s) ++ block d /\ (forall p, p <> log_file (t_name d) -> getf p (l_logs s') = getf p (l_logs s)) /\
  l_multi s' = false /\ l_module s' = false /\ l_handler s' = Some (log_file (t_name d)) /\ l_lists s' = listing s (log_file (t_name d)) (content (log_file (t_name d)) (l_logs s')).
Proof.
  intros M. destruct (start_opened d s M) as (O & N & P & M1 & C & R & L). destruct (say_opened (t_lines d) _ O) as (S2 & M2 & L2 & _).
  destruct (ended_opened _ (same_opened _ _ _ S2 O)) as (S3 & M3 & D3 & L3). cbn zeta. unfold one. cbn [fst snd]. rewrite orb_true_r. pose proof (same_trans _ _ _ _ _ S2 S3) as S.
  destruct S2 as (N2 & P2 & H2 & _). rewrite N2, N in S. rewrite P2, P in L3. destruct S as (N4 & P4 & H4 & C4 & R4). rewrite P in C4, R4.
  repeat split; auto.
  - rewrite C4, C, <- app_assoc. reflexivity.
  - intros p Np. rewrite R4, R; auto.
  - rewrite H4. unfold opened in O. now rewrite O, P.
  - rewrite L3. unfold listing. now rewrite L2, L.
Qed.
Lemma yield_map (ds : list dataset) : map fst (yield_files ds) = ds.
Proof. apply yield_fst. Qed.
Lemma files_run fs : forall s, l_multi s = false -> l_multi (fold_left (one true) fs s) = false /\
  (forall p, exists a, content p (l_logs (fold_left (one true) fs s)) = content p (l_logs s) ++ a) /\
  (forall d, In d (map fst fs) -> contains (block d) (content (log_file (t_name d)) (l_logs (fold_left (one true) fs s)))).
Proof.
  induction fs as [|[d b] fs IH]; intros s M; [cbn; repeat split; auto; [intros p; exists []; now rewrite app_nil_r|intros d []]|].
  destruct (one_file d b s M) as (C & R & M1 & _). destruct (IH _ M1) as (M2 & G & I). cbn [fold_left map fst]. repeat split; [exact M2| |].
  - intros p. destruct (G p) as (a & E). destruct (str_eqb p (log_file (t_name d))) eqn:Q.
    + apply str_eqb_eq in Q. subst p. rewrite E, C, <- app_assoc. eauto.
    + apply str_eqb_neq in Q. rewrite E. unfold content at 1. rewrite R by exact Q. fold (content p (l_logs s)). eauto.
  - intros x [<-|J]; [|now apply I]. destruct (G (log_file (t_name d))) as (a & E). rewrite E, C, <- app_assoc. unfold contains. eauto.
Qed.

(** ** C229: the log tells which records belong to which data set *)
(** With one output for each data set, the records of each are between heading and ending with its name, in the log of its name. *)
Theorem C229_files_partial :
  forall ds s d, l_multi s = false -> In d ds -> contains (block d) (content (log_file (t_name d)) (l_logs (log_run true ds s))).
Proof. intros ds s d M I. unfold log_run. apply (files_run _ s M). now rewrite yield_map. Qed.
Print Assumptions C229_files_partial.

Lemma database_run ds : forall s d, opened s -> l_multi s = true ->
  let s' := fold_left (one false) (yield_files (ds ++ [d])) s in
  content (l_path s) (l_logs s') = content (l_path s) (l_logs s) ++ flat_map (fun x => t_lines x ++ [Ended (l_name s)]) (ds ++ [d]) ++ [Closed] /\
  (forall p, p <> l_path s -> getf p (l_logs s') = getf p (l_logs s)).
Proof.
  intros s d. rewrite yield_snoc, fold_left_app. cbn zeta. cbn [fold_left]. revert s. induction ds as [|x ds IH]; intros s O M.
  - cbn [map fold_left app flat_map]. unfold one. cbn [fst snd orb]. unfold start_output. rewrite M. destruct (say_opened (t_lines d) s O) as (S2 & _).
    destruct (ended_opened _ (same_opened _ _ _ S2 O)) as (S3 & _). pose proof (same_trans _ _ _ _ _ S2 S3) as (_ & _ & _ & C & R). destruct S2 as (N2 & _). rewrite N2 in C.
    split; [|exact R]. rewrite C, app_nil_r, <- app_assoc. reflexivity.
  - cbn [map fold_left]. set (s1 := one false s (x, false)). assert (S1 : same_but_log s s1 (t_lines x ++ [Ended (l_name s)]) /\ l_multi s1 = true).
    { unfold s1, one. cbn [fst snd orb]. unfold start_output. rewrite M. destruct (say_opened (t_lines x) s O) as (S2 & _). unfold reset_output.
      destruct (write_opened (Ended (l_name (say (t_lines x) s))) _ (same_opened _ _ _ S2 O)) as (S3 & _). pose proof (same_trans _ _ _ _ _ S2 S3) as S. destruct S2 as (N2 & _). rewrite N2 in S.
      cbn zeta. split; [|reflexivity]. rewrite N2. destruct S as (A & B & C & D & E). unfold same_but_log. cbn. auto. }
    destruct S1 as (S1 & M1). destruct (IH s1 (same_opened _ _ _ S1 O) M1) as (C & R). destruct S1 as (N1 & P1 & _ & C1 & R1). rewrite P1, N1 in *. split.
    + rewrite C, C1. cbn [app flat_map]. now rewrite <- !app_assoc.
    + intros p Np. rewrite R, R1; auto.
Qed.
(** With one output for all, every data set is said to be the first one, in the log of the first one. *)
Theorem C229_database_refuted :
  forall d ds e s, l_multi s = false ->
    let s' := log_run false (d :: ds ++ [e]) s in
    content (log_file (t_name d)) (l_logs s') =
      content (log_file (t_name d)) (l_logs s) ++ Heading :: flat_map (fun x => t_lines x ++ [Ended (t_name d)]) (d :: ds ++ [e]) ++ [Closed] /\
    (forall p, p <> log_file (t_name d) -> getf p (l_logs s') = getf p (l_logs s)).
Proof.
  intros d ds e s M. unfold log_run. assert (Y : yield_files (d :: ds ++ [e]) = (d, false) :: yield_files (ds ++ [e])) by (change (d :: ds ++ [e]) with ((d :: ds) ++ [e]); now rewrite !yield_snoc).
  rewrite Y. cbn [fold_left]. cbn zeta.
  destruct (start_opened d s M) as (O & N & P & M1 & C & R & _). destruct (say_opened (t_lines d) _ O) as (S2 & _).
  set (s1 := one false s (d, false)). assert (S1 : same_but_log (start_output d s) s1 (t_lines d ++ [Ended (t_name d)]) /\ l_multi s1 = true).
  { unfold s1, one. cbn [fst snd orb]. unfold reset_output. destruct (write_opened (Ended (l_name (say (t_lines d) (start_output d s)))) _ (same_opened _ _ _ S2 O)) as (S3 & _).
    pose proof (same_trans _ _ _ _ _ S2 S3) as S. destruct S2 as (N2 & _). rewrite N2, N in S. cbn zeta. split; [|reflexivity]. rewrite N2, N. destruct S as (A & B & E & D & F). unfold same_but_log. cbn. auto. }
  destruct S1 as (S1 & M2). destruct (database_run ds s1 e (same_opened _ _ _ S1 O) M2) as (C1 & R1). destruct S1 as (N1 & P1 & _ & C2 & R2). rewrite P1, N1, P, N in *. split.
  - rewrite C1, C2, C. cbn [flat_map app]. rewrite <- !app_assoc. reflexivity.
  - intros p Np. rewrite R1, R2, R; auto.
Qed.
Print Assumptions C229_database_refuted.

(** ** C230: a log is about one conversion *)
Theorem C230_new_partial :
  forall d s, l_multi s = false -> getf (log_file (t_name d)) (l_logs s) = None -> getf (log_file (t_name d)) (l_logs (log_run true [d] s)) = Some (block d).
Proof.
  intros d s M F. destruct (one_file d true s M) as (C & _). cbn zeta in C. unfold log_run. cbn [yield_files]. change (fold_left (one true) (yield_files [d]) s) with (one true s (d, true)).
  unfold content at 2 in C. rewrite F in C. cbn [app] in C. unfold content in C. destruct (getf (log_file (t_name d)) (l_logs (one true s (d, true)))); [now rewrite C|discriminate].
Qed.
Print Assumptions C230_new_partial.
(** The output gets a new name when there is one already; the log does not: it is added to the one of the earlier conversion, *)
Theorem C230_earlier_refuted :
  forall d s old, l_multi s = false -> getf (log_file (t_name d)) (l_logs s) = Some old -> content (log_file (t_name d)) (l_logs (log_run true [d] s)) = old ++ block d.
Proof.
  intros d s old M F. destruct (one_file d true s M) as (C & _). cbn zeta in C. change (log_run true [d] s) with (one true s (d, true)). rewrite C. unfold content. now rewrite F.
Qed.
Print Assumptions C230_earlier_refuted.
(** and data sets of the same name share one. *)
Theorem C230_shared_refuted :
  forall d e s, l_multi s = false -> log_file (t_name d) = log_file (t_name e) ->
    content (log_file (t_name d)) (l_logs (log_run true [d; e] s)) = content (log_file (t_name d)) (l_logs s) ++ block d ++ block e.
Proof.
  intros d e s M E. change (log_run true [d; e] s) with (one true (one true s (d, false)) (e, true)). destruct (one_file d false s M) as (C & _ & M1 & _). destruct (one_file e true _ M1) as (C1 & _).
  cbn zeta in *. rewrite E in *. rewrite C1, C. now rewrite app_assoc.
Qed.
Print Assumptions C230_shared_refuted.

(** ** C231: the list of flows that were not converted *)
(** identifier in small letters, name on one line without tabs *)
Definition legal (n i : pystr) : Prop :=
  (n <> [] /\ Forall (fun c => c = 32%N \/ is_space c = false) n) /\
  (List.length i = 36%nat /\ Forall (fun c => (48 <= c <= 57)%N \/ (97 <= c <= 102)%N \/ c = 45%N) i).
Lemma legal_iff n i : legal n i <-> plain_name n = true /\ plain_id i = true.
Proof.
  unfold legal, plain_name, plain_id. rewrite !andb_true_iff, negb_true_iff, Nat.eqb_neq, Nat.eqb_eq, !forallb_forall, !Forall_forall. unfold hex_or_dash.
  assert (N : n <> [] <-> List.length n <> 0%nat) by (destruct n; cbn; split; congruence).
  assert (A : forall c, c = 32%N \/ is_space c = false <-> (c =? 32)%N || negb (is_space c) = true) by (intros c; now rewrite orb_true_iff, N.eqb_eq, negb_true_iff).
  assert (B : forall c, (48 <= c <= 57)%N \/ (97 <= c <= 102)%N \/ c = 45%N <-> (((48 <=? c) && (c <=? 57) || (97 <=? c) && (c <=? 102) || (c =? 45))%N)%bool = true)
    by (intros c; rewrite !orb_true_iff, !andb_true_iff, !N.leb_le, N.eqb_eq; tauto).
  split; (intros ((H1 & H2) & H3 & H4); split; [split; [now apply N|intros c I; now apply A, H2]|split; [exact H3|intros c I; now apply B, H4]]).
Qed.
Lemma listed_spec ls i n : In (i, n) (listed ls) <-> legal n i /\ exists a b, ls = a ++ Flow n i :: Unconverted :: b.
Proof.
  induction ls as [|x ls IH]; [cbn; split; [intros []|intros (_ & a & b & E); destruct a; discriminate]|]. cbn [listed]. rewrite in_app_iff, IH. split.
  - intros [I|(L & a & b & ->)]; [|split; [exact L|]; now exists (x :: a), b]. unfold found_at in I. destruct x as [|m j| | | |]; try (destruct I; fail). destruct ls as [|y ls]; [destruct I|].
    destruct y; try (destruct I; fail). destruct (plain_name m) eqn:Em, (plain_id j) eqn:Ej; cbn in I; try (destruct I; fail). destruct I as [I|[]]. injection I as -> ->. split; [now apply legal_iff|]. now exists [], ls.
  - intros (L & [|y a] & b & E); injection E as -> ->; [left|right; split; [exact L|eauto]]. cbn. apply legal_iff in L as (-> & ->). cbn. auto.
Qed.
(** In a new log: exactly the flows whose first record is followed by the one on the failure. *)
Theorem C231_new_partial :
  forall d s i n, l_multi s = false -> getf (log_file (t_name d)) (l_logs s) = None -> legal n i -> (exists a b, t_lines d = a ++ Flow n i :: Unconverted :: b) ->
    exists l, getf (log_file (t_name d)) (l_lists (log_run true [d] s)) = Some l /\ In (i, n) l /\
      forall j m, In (j, m) l -> legal m j /\ exists a b, t_lines d = a ++ Flow m j :: Unconverted :: b.
Proof.
  intros d s i n M F L (a & b & E). destruct (one_file d true s M) as (C & _ & _ & _ & _ & Li). cbn zeta in *. change (log_run true [d] s) with (one true s (d, true)).
  unfold content at 2 in C. rewrite F in C. cbn [app] in C. rewrite C in Li. assert (I : In (i, n) (listed (block d))).
  { apply listed_spec. split; [exact L|]. exists (Heading :: a), (b ++ [Ended (t_name d); Closed]). unfold block. rewrite E. cbn [app]. now rewrite <- app_assoc. }
  exists (listed (block d)). rewrite Li. unfold listing. destruct (listed (block d)) as [|f l] eqn:Q; [destruct I|]. rewrite getf_putf. split; [reflexivity|]. split; [exact I|].
  intros j m J. rewrite <- Q in J. apply listed_spec in J as (Lj & x & y & B). split; [exact Lj|]. unfold block in B. destruct x as [|h x]; [discriminate|]. injection B as _ B.
  clear -B. revert x B. induction (t_lines d) as [|z l IH]; intros x B; cbn [app] in B.
  - destruct x as [|? [|? [|? x]]]; discriminate.
  - destruct x as [|w x]; cbn [app] in B.
    + injection B as -> B. destruct l as [|v l]; [discriminate|]. cbn in B. injection B as -> B. now exists [], l.
    + injection B as -> B. destruct (IH x B) as (a & b & ->). now exists (w :: a), b.
Qed.
Print Assumptions C231_new_partial.
(** Added to an earlier log: the flows of the earlier conversion too. *)
Theorem C231_earlier_refuted :
  forall d s old i n, l_multi s = false -> getf (log_file (t_name d)) (l_logs s) = Some old -> In (i, n) (listed old) ->
    exists l, getf (log_file (t_name d)) (l_lists (log_run true [d] s)) = Some l /\ In (i, n) l.
Proof.
  intros d s old i n M F I. destruct (one_file d true s M) as (C & _ & _ & _ & _ & Li). cbn zeta in *. change (log_run true [d] s) with (one true s (d, true)).
  unfold content at 2 in C. rewrite F in C. rewrite C in Li. assert (J : In (i, n) (listed (old ++ block d))).
  { apply listed_spec. apply listed_spec in I as (L & a & b & ->). split; [exact L|]. exists a, (b ++ block d). now rewrite <- app_assoc. }
  exists (listed (old ++ block d)). rewrite Li. unfold listing. destruct (listed (old ++ block d)); [destruct J|]. rewrite getf_putf. auto.
Qed.
Print Assumptions C231_earlier_refuted.
(** A flow whose uncertainty has no basic variance is never found by itself, nor is one with a capital letter in its identifier. *)
Theorem C231_missing_refuted :
  (forall n i, listed (flow_lines n i true) = []) /\ (forall n i c v, In c i -> (65 <= c <= 90)%N -> listed (flow_lines n i v) = []) /\ (forall n i, legal n i -> listed (flow_lines n i false) = [(i, n)]).
Proof.
  split; [reflexivity|]. split.
  - intros n i c v I R. destruct v; [reflexivity|]. cbn. replace (plain_id i) with false; [now rewrite andb_false_r|]. symmetry. unfold plain_id. destruct (forallb hex_or_dash i) eqn:F; [|apply andb_false_r].
    rewrite forallb_forall in F. specialize (F c I). unfold hex_or_dash in F. exfalso. rewrite !orb_true_iff, !andb_true_iff, !N.leb_le, N.eqb_eq in F. lia.
  - intros n i L. apply legal_iff in L as (A & B). cbn. now rewrite A, B.
Qed.
Print Assumptions C231_missing_refuted.
(** The records of ILCD to ILCD have no first record of a flow: there is never a list. *)
Theorem C231_replacing_refuted :
  forall d s, l_multi s = false -> getf (log_file (t_name d)) (l_logs s) = None -> (forall n i, ~ In (Flow n i) (t_lines d)) -> l_lists (log_run true [d] s) = l_lists s.
Proof.
  intros d s M F N. destruct (one_file d true s M) as (C & _ & _ & _ & _ & Li). cbn zeta in *. change (log_run true [d] s) with (one true s (d, true)). unfold content at 2 in C. rewrite F in C. cbn [app] in C. rewrite C in Li.
  rewrite Li. unfold listing. destruct (listed (block d)) as [|[i n] l] eqn:E; [reflexivity|]. exfalso. assert (I : In (i, n) (listed (block d))) by (rewrite E; now left).
  apply listed_spec in I as (_ & a & b & B). assert (J : In (Flow n i) (block d)) by (rewrite B; apply in_or_app; right; now left). unfold block in J. cbn in J. destruct J as [J|J]; [discriminate|].
  apply in_app_iff in J as [J|[J|[J|[]]]]; [|discriminate|discriminate]. exact (N _ _ J).
Qed.
Print Assumptions C231_replacing_refuted.

(** ** C232: a conversion leaves the logging of the application as it is *)
Theorem C232_nothing_partial : forall m s, log_run m [] s = s.
Proof. reflexivity. Qed.
Print Assumptions C232_nothing_partial.
(** After a conversion the handlers of the application are gone, [logging.handlers] is not the module, and what the application logs is written to the log of the last data set. *)
Theorem C232_taken_refuted :
  forall ds d s t, l_multi s = false -> let s' := log_run true (ds ++ [d]) s in
    l_handler s' = Some (log_file (t_name d)) /\ l_module s' = false /\
    content (log_file (t_name d)) (l_logs (write (Message t) s')) = content (log_file (t_name d)) (l_logs s') ++ [Message t].
Proof.
  intros ds d s t M. unfold log_run. rewrite yield_snoc, fold_left_app. cbn zeta. cbn [fold_left]. destruct (files_run (map (fun f => (f, false)) ds) s M) as (M1 & _).
  destruct (one_file d true _ M1) as (_ & _ & _ & D & H & _). cbn zeta in *. set (s1 := one true _ (d, true)) in *. repeat split; auto. unfold write. rewrite H. cbn. unfold content at 1. now rewrite getf_putf.
Qed.
Print Assumptions C232_taken_refuted.

Definition rest : logging := Logging [] [] false [] [] None true.
Definition water : dataset := DataSet (lit "water/air") (flow_lines (lit "Argon") (lit "08a91e70-3ddc-11dd-97a0-0050c2490048") false).
Definition steel : dataset := DataSet (lit "steel") (flow_lines (lit "Neon") (lit "08a91e70-3ddc-11dd-97a0-0050c2490049") true).
Example C229_nonvacuous :
  l_logs (log_run true [water; steel] rest) = [(lit "water_per_air.log", block water); (lit "steel.log", block steel)] /\
  map fst (l_logs (log_run false [water; steel] rest)) = [lit "water_per_air.log"].
Proof. split; vm_compute; reflexivity. Qed.
Example C230_nonvacuous : content (lit "steel.log") (l_logs (log_run true [steel] (log_run true [steel] rest))) = block steel ++ block steel.
Proof. vm_compute. reflexivity. Qed.
Example C231_nonvacuous : l_lists (log_run true [water; steel] rest) = [(lit "water_per_air.log", [(lit "08a91e70-3ddc-11dd-97a0-0050c2490048", lit "Argon")])].
Proof. vm_compute. reflexivity. Qed.
Example C232_nonvacuous : l_handler (log_run true [water; steel] rest) = Some (lit "steel.log") /\ l_handler rest = None.
Proof. split; vm_compute; reflexivity. Qed.
