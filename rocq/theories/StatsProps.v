(** What the statistics in the log of a conversion from EcoSpold2 to ILCD say. *)
From Coq Require Import Ascii String List Bool Arith NArith ZArith Lia.
From Verif Require Import PyBase PyBaseFacts VariableModel StatsModel StatsSpec StatsProofs.
Import ListNotations.
Local Open Scope string_scope.
Local Open Scope list_scope.
Local Open Scope Z_scope.

(** the statistics of one file *)
Definition alone (on : bool) (f : list piece) : counts := snd (one_file on f zero).
(** the variables written *)
Definition variables (on : bool) (f : list piece) : list (pystr * amount) := fst (one_file on f zero).

(** The log gives the number of exchanges with products, of those with the environment that were found in the mapping out of all of them, and of production volumes. *)
Theorem C208_exchanges_partial :
  forall on f, exists products mapped natural volumes,
    products = tally product f /\ mapped = tally found f /\ natural = tally nature f /\ volumes = tally with_volume f /\ 0 <= mapped <= natural /\
    In (lit "Intermediate Flow: " ++ str_of_Z products ++ lit "/" ++ str_of_Z products) (log_of (alone on f)) /\
    In (lit "Elementary Flow: " ++ str_of_Z mapped ++ lit "/" ++ str_of_Z natural) (log_of (alone on f)) /\
    In (lit "ProductionVolume: " ++ str_of_Z volumes ++ lit "/" ++ str_of_Z volumes) (log_of (alone on f)).
Proof.
  intros on f. exists (tally product f), (tally found f), (tally nature f), (tally with_volume f).
  pose proof (file_counts on f) as H. cbv zeta in H. unfold alone. destruct H as (E1 & E2 & E3 & E4 & E5 & E6 & _).
  split; [reflexivity|]. split; [reflexivity|]. split; [reflexivity|]. split; [reflexivity|]. split.
  - rewrite !tally_plus. split; [apply plus_nonneg; intros [] _; cbn; try destruct mapped; cbn; lia|apply plus_le; intros [] _; cbn; try destruct mapped; cbn; lia].
  - unfold log_of. rewrite E1, E2, E3, E4, E5, E6. split; [left; reflexivity|]. split; [right; left; reflexivity|right; right; right; right; left; reflexivity].
Qed.
Print Assumptions C208_exchanges_partial.
(** Parameters all count as converted, also those without name and formula, of which the ILCD file has nothing. *)
Theorem C208_parameters_refuted :
  forall on f, (forall p, In p f -> exists u, p = Setting (Amount None None u)) ->
    In (lit "Parameter: " ++ str_of_Z (Z.of_nat (length f)) ++ lit "/" ++ str_of_Z (Z.of_nat (length f))) (log_of (alone on f)) /\ variables on f = [].
Proof.
  intros on f H. pose proof (file_counts on f) as C. cbv zeta in C. unfold alone, variables. destruct C as (_ & _ & _ & _ & _ & _ & E1 & E2 & _).
  assert (T : tally parameter f = Z.of_nat (length f)).
  { unfold tally. f_equal. f_equal. clear -H. induction f as [|p f IH]; [reflexivity|]. destruct (H p (or_introl eq_refl)) as (u & ->). cbn [filter parameter]. f_equal. apply IH. intros q I. apply H. now right. }
  rewrite T in *. split.
  - unfold log_of. rewrite E1, E2. do 5 right. left. reflexivity.
  - unfold one_file. replace (labelled on 1 (flat_map amounts_of f)) with (@nil (pystr * amount)); [reflexivity|].
    clear -H. generalize 1%nat. induction f as [|p f IH]; intros k; [reflexivity|]. destruct (H p (or_introl eq_refl)) as (u & ->). cbn [flat_map amounts_of app labelled snd].
    unfold has_variable; cbn [s_name s_math truthy orb]. rewrite andb_false_r. apply IH. intros q I. apply H. now right.
Qed.
Print Assumptions C208_parameters_refuted.

(** The amounts with a name or a formula are counted; with the option they all count as converted, without it none. Variables are written once, and no more than are counted; if all amounts have names of their own, as many. *)
Theorem C209_variables_partial :
  forall f, exists n, count varies (amounts f) n /\
    t_var (alone true f) = n /\ d_var (alone true f) = n /\ Z.of_nat (length (variables true f)) <= n /\ NoDup (map fst (variables true f)) /\
    t_var (alone false f) = n /\ d_var (alone false f) = 0 /\ variables false f = [] /\
    In (lit "Variable: " ++ str_of_Z n ++ lit "/" ++ str_of_Z n) (log_of (alone true f)) /\ In (lit "Variable: 0/" ++ str_of_Z n) (log_of (alone false f)) /\
    (names_apart f -> Z.of_nat (length (variables true f)) = n /\ map snd (variables true f) = amounts f).
Proof.
  intros f. exists (plus (fun a => one_if (has_variable a)) (amounts f)). split; [apply count_plus, varies_iff|].
  pose proof (file_counts true f) as C1. pose proof (file_counts false f) as C0. cbv zeta in C1, C0. unfold alone, variables.
  destruct C1 as (_ & _ & _ & _ & _ & _ & _ & _ & _ & T1 & D1 & _). destruct C0 as (_ & _ & _ & _ & _ & _ & _ & _ & _ & T0 & D0 & _).
  assert (G1 : In (lit "Variable: " ++ str_of_Z (plus (fun a => one_if (has_variable a)) (amounts f)) ++ lit "/" ++ str_of_Z (plus (fun a => one_if (has_variable a)) (amounts f))) (log_of (snd (one_file true f zero))))
    by (unfold log_of; rewrite T1, D1; do 3 right; left; reflexivity).
  assert (G0 : In (lit "Variable: 0/" ++ str_of_Z (plus (fun a => one_if (has_variable a)) (amounts f))) (log_of (snd (one_file false f zero))))
    by (unfold log_of; rewrite T0, D0; do 3 right; left; reflexivity).
  split; [exact T1|]. split; [exact D1|].
  set (l := labelled true 1 (flat_map amounts_of f)). set (c := fold_left (fun c p => read_piece p c) f zero).
  assert (L : Z.of_nat (length l) = plus (fun a => one_if (has_variable a)) (amounts f)).
  { unfold l. rewrite labelled_length, <- (amounts_snd f). clear. induction (flat_map amounts_of f) as [|x m IH]; [reflexivity|]. cbn [map plus fold_right]. unfold plus in IH. now rewrite IH. }
  destruct (construct_nodup l [] c) as (N & I & _). unfold one_file. fold l c. split; [|split; [exact N|]].
  - rewrite <- L. apply inj_le. rewrite <- (map_length fst (fst _)), <- (map_length fst l). apply NoDup_incl_length; [exact N|].
    intros t J. apply in_map_iff in J as (x & <- & J). apply in_map. apply (I x J).
  - split; [exact T0|]. split; [exact D0|]. split; [rewrite labelled_off; reflexivity|].
    split; [exact G1|]. split; [exact G0|].
    intros (names & E & Nd & Ne). unfold l. rewrite (labelled_named (flat_map amounts_of f) names); [|now rewrite amounts_snd|exact Ne].
    rewrite amounts_snd. assert (Ln : length names = length (amounts f)) by (rewrite <- (map_length s_name), E, map_length; reflexivity).
    destruct (combine_fst names (amounts f) Ln) as (F1 & F2).
    rewrite construct_distinct; [|now rewrite F1|intros x _ []]. split; [|exact F2]. rewrite <- L. unfold l.
    rewrite (labelled_named (flat_map amounts_of f) names); [now rewrite amounts_snd|now rewrite amounts_snd|exact Ne].
Qed.
Print Assumptions C209_variables_partial.
(** Amounts that share a name all count as converted, though one variable is written. *)
Theorem C209_shared_refuted :
  forall v m u k, v <> [] -> let f := repeat (Product (Amount (Some v) m u) None) (S k) in
    d_var (alone true f) = Z.of_nat (S k) /\ t_var (alone true f) = Z.of_nat (S k) /\ map fst (variables true f) = [v].
Proof.
  intros v m u k Hv f. pose proof (file_counts true f) as C. cbv zeta in C. destruct C as (_ & _ & _ & _ & _ & _ & _ & _ & _ & T & D & _).
  assert (P : plus (fun a => one_if (has_variable a)) (amounts f) = Z.of_nat (S k)).
  { unfold f. generalize (S k). clear -Hv. induction n as [|n IH]; [reflexivity|]. cbn [repeat]. unfold amounts in *. cbn [flat_map app plus fold_right].
    unfold plus in IH. rewrite IH. unfold has_variable. cbn [s_name]. destruct v; [contradiction|]. cbn [truthy orb one_if]. lia. }
  rewrite P in *. split; [exact D|]. split; [exact T|]. unfold variables, one_file.
  assert (L : labelled true 1 (flat_map amounts_of f) = repeat (v, Amount (Some v) m u) (S k)).
  { unfold f. clear -Hv. generalize 1%nat. generalize (S k). intros n. induction n as [|n IH]; intros j; [reflexivity|]. cbn [repeat flat_map amounts_of app labelled snd].
    unfold has_variable at 1. cbn [s_name]. destruct v as [|a v]; [contradiction|]. cbn [truthy orb andb label snd s_name]. now rewrite IH. }
  rewrite L. cbn [repeat construct_all fst]. change (str_in v []) with false. cbn [negb app map fst]. f_equal.
  match goal with |- context [construct_all [v] _ ?c] => generalize c end.
  clear. induction k as [|k IH]; intros c; [reflexivity|]. cbn [repeat construct_all fst].
  assert (E : str_in v [v] = true) by (apply str_in_In; now left). repeat match goal with |- context [str_in ?a ?b] => replace (str_in a b) with true by (symmetry; exact E) end. cbn [negb app map]. apply IH.
Qed.
Print Assumptions C209_shared_refuted.

(** All amounts with a distribution are counted. The exchanges whose distribution ILCD knows count as converted, if no variable that is written has another one. *)
Theorem C210_uncertainty_partial :
  forall on f, exists known_ones all, count known (exchanged f) known_ones /\ count uncertain (amounts f) all /\
    t_unc (alone on f) = all /\ d_unc (alone on f) <= known_ones <= all /\
    In (lit "Uncertainty: " ++ str_of_Z (d_unc (alone on f)) ++ lit "/" ++ str_of_Z all) (log_of (alone on f)) /\
    (on = false \/ (forall a, In a (amounts f) -> varies a -> s_unc a <> Some false) -> d_unc (alone on f) = known_ones).
Proof.
  intros on f. exists (plus (fun a => one_if (known_unc a)) (exchanged f)), (plus (fun a => one_if (has_unc a)) (amounts f)).
  split; [apply count_plus, known_iff|]. split; [apply count_plus, uncertain_iff|].
  pose proof (file_counts on f) as C. cbv zeta in C. unfold alone. destruct C as (_ & _ & _ & _ & _ & _ & _ & _ & T & _ & _ & D).
  split; [exact T|]. assert (Lg : In (lit "Uncertainty: " ++ str_of_Z (d_unc (snd (one_file on f zero))) ++ lit "/" ++ str_of_Z (plus (fun a => one_if (has_unc a)) (amounts f))) (log_of (snd (one_file on f zero))))
    by (unfold log_of; rewrite T; do 2 right; left; reflexivity).
  rewrite D in *. pose proof (plus_nonneg (fun x : pystr * amount => loss (snd x)) (fst (one_file on f zero)) (fun x _ => loss_nonneg (snd x))) as L.
  split; [split; [lia|]|split; [exact Lg|]].
  - unfold exchanged, amounts. rewrite !plus_flat. apply plus_le. intros [a [v|]|[|] a|a] _; cbn [plus fold_right]; unfold known_unc, has_unc;
      repeat match goal with |- context [s_unc ?x] => destruct (s_unc x) as [[|]|] end; cbn; lia.
  - intros H. replace (plus (fun x : pystr * amount => loss (snd x)) (fst (one_file on f zero))) with 0; [lia|]. symmetry. unfold one_file. destruct H as [->|H].
    + rewrite labelled_off. reflexivity.
    + replace 0 with (plus (fun _ : pystr * amount => 0) (fst (construct_all [] (labelled on 1 (flat_map amounts_of f)) (fold_left (fun c p => read_piece p c) f zero)))).
      2:{ generalize (fst (construct_all [] (labelled on 1 (flat_map amounts_of f)) (fold_left (fun c p => read_piece p c) f zero))). clear. intros l. induction l as [|x l IH]; [reflexivity|exact IH]. }
      apply plus_ext. intros x I. apply (proj1 (proj2 (construct_nodup _ _ _))) in I as (I & _).
      assert (J : In (snd x) (amounts f) /\ has_variable (snd x) = true).
      { revert I. rewrite <- amounts_snd. generalize 1%nat. clear. induction (flat_map amounts_of f) as [|y l IH]; intros k I; [contradiction|]. cbn [labelled] in I.
        destruct on; cbn [andb] in I.
        - destruct (has_variable (snd y)) eqn:E.
          + destruct I as [<-|I]; [split; [now left|exact E]|]. apply IH in I as (A & B). split; [now right|exact B].
          + apply IH in I as (A & B). split; [now right|exact B].
        - apply IH in I as (A & B). split; [now right|exact B]. }
      destruct J as (J & V). apply varies_iff in V. specialize (H _ J V). unfold loss, has_unc, known_unc. destruct (s_unc (snd x)) as [[|]|]; cbn; [reflexivity|contradiction|reflexivity].
Qed.
Print Assumptions C210_uncertainty_partial.
(** Exchanges with variables and distributions that ILCD does not have: the number of converted uncertainties is negative. *)
Theorem C210_negative_refuted :
  forall names m, NoDup names -> ~ In [] names -> let f := map (fun v => Product (Amount (Some v) m (Some false)) None) names in
    d_unc (alone true f) = - Z.of_nat (length names) /\ t_unc (alone true f) = Z.of_nat (length names).
Proof.
  intros names m N E f. pose proof (file_counts true f) as C. cbv zeta in C. unfold alone. destruct C as (_ & _ & _ & _ & _ & _ & _ & _ & T & _ & _ & D).
  assert (A : amounts f = map (fun v => Amount (Some v) m (Some false)) names) by (unfold f, amounts; clear; induction names as [|v l IH]; [reflexivity|cbn [map flat_map app]; now rewrite IH]).
  assert (X : exchanged f = amounts f) by (rewrite A; unfold f, exchanged; clear; induction names as [|v l IH]; [reflexivity|cbn [map flat_map app]; now rewrite IH]).
  rewrite T, D, X, A. split.
  - unfold one_file. rewrite (labelled_named (flat_map amounts_of f) names); [|rewrite amounts_snd, A, map_map; now apply map_ext|exact E].
    rewrite amounts_snd, A. rewrite construct_distinct; [|rewrite (proj1 (combine_fst _ _ (eq_sym (map_length _ _)))); exact N|intros x _ []].
    assert (K : plus (fun a => one_if (known_unc a)) (map (fun v => Amount (Some v) m (Some false)) names) = 0) by (clear; induction names as [|v l IH]; [reflexivity|exact IH]).
    rewrite K. assert (Q : plus (fun x => loss (snd x)) (combine names (map (fun v => Amount (Some v) m (Some false)) names)) = Z.of_nat (length names)).
    2:{ match goal with |- 0 - ?a = _ => replace a with (Z.of_nat (length names)) by (symmetry; exact Q) end. lia. }
    clear. induction names as [|v l IH]; [reflexivity|]. cbn [map combine length]. rewrite Nat2Z.inj_succ, <- IH. unfold plus. cbn [fold_right snd]. change (loss (Amount (Some v) m (Some false))) with 1. lia.
  - clear. induction names as [|v l IH]; [reflexivity|]. cbn [map length]. rewrite Nat2Z.inj_succ, <- IH. unfold plus. cbn [fold_right has_unc s_unc one_if]. lia.
Qed.
Print Assumptions C210_negative_refuted.
(** Distributions of parameters go to their variables, but none of them counts as converted. *)
Theorem C210_parameters_refuted :
  forall names m, NoDup names -> ~ In [] names -> let f := map (fun v => Setting (Amount (Some v) m (Some true))) names in
    variables true f = map (fun v => (v, Amount (Some v) m (Some true))) names /\ d_unc (alone true f) = 0 /\ t_unc (alone true f) = Z.of_nat (length names).
Proof.
  intros names m N E f. pose proof (file_counts true f) as C. cbv zeta in C. unfold alone, variables. destruct C as (_ & _ & _ & _ & _ & _ & _ & _ & T & _ & _ & D).
  assert (A : amounts f = map (fun v => Amount (Some v) m (Some true)) names) by (unfold f, amounts; clear; induction names as [|v l IH]; [reflexivity|cbn [map flat_map app]; now rewrite IH]).
  assert (X : exchanged f = []) by (unfold f, exchanged; clear; induction names as [|v l IH]; [reflexivity|exact IH]).
  assert (W : fst (one_file true f zero) = map (fun v => (v, Amount (Some v) m (Some true))) names).
  { unfold one_file. rewrite (labelled_named (flat_map amounts_of f) names); [|rewrite amounts_snd, A, map_map; now apply map_ext|exact E].
    rewrite amounts_snd, A. rewrite construct_distinct; [|rewrite (proj1 (combine_fst _ _ (eq_sym (map_length _ _)))); exact N|intros x _ []].
    clear. induction names as [|v l IH]; [reflexivity|]. cbn [map combine]. now rewrite IH. }
  split; [exact W|]. rewrite T, D, X, A, W. split.
  - clear. cbn [plus fold_right]. induction names as [|v l IH]; [reflexivity|exact IH].
  - clear. induction names as [|v l IH]; [reflexivity|]. cbn [map length]. rewrite Nat2Z.inj_succ, <- IH. unfold plus. cbn [fold_right has_unc s_unc one_if]. lia.
Qed.
Print Assumptions C210_parameters_refuted.

(** File by file, each log is that of its file alone; for a database, one log holds the sums. *)
Theorem C211_statistics_of_run :
  forall on fs, fs <> [] -> run on true fs zero = map (alone on) fs /\ run on false fs zero = [total (map (alone on) fs)].
Proof. intros on fs H. split; [apply run_each|]. rewrite run_once by exact H. now rewrite adds_zero_l. Qed.
Print Assumptions C211_statistics_of_run.

Definition sample : list piece :=
  [Product (Amount (Some (lit "a")) None (Some true)) (Some (Amount None (Some (lit "2*a")) (Some true))); Nature true (Amount None None (Some false));
   Nature false (Amount (Some (lit "b")) None None); Setting (Amount (Some (lit "c")) None (Some true)); Setting (Amount None None None)].
Example C208_nonvacuous : log_of (alone true sample) =
  [lit "Intermediate Flow: 1/1"; lit "Elementary Flow: 1/2"; lit "Uncertainty: 1/4"; lit "Variable: 4/4"; lit "ProductionVolume: 1/1"; lit "Parameter: 2/2"].
Proof. vm_compute. reflexivity. Qed.
Example C209_nonvacuous : map fst (variables true sample) = [lit "a"; lit "Eq_pr_2"; lit "b"; lit "c"] /\ names_apart [Setting (Amount (Some (lit "c")) None (Some true))].
Proof.
  split; [vm_compute; reflexivity|]. exists [lit "c"]. split; [reflexivity|]. split; [constructor; [intros []|constructor]|]. intros [E|[]]; discriminate.
Qed.
Example C210_nonvacuous :
  log_of (alone true [Product (Amount (Some (lit "a")) None (Some false)) None]) =
  [lit "Intermediate Flow: 1/1"; lit "Elementary Flow: 0/0"; lit "Uncertainty: -1/1"; lit "Variable: 1/1"; lit "ProductionVolume: 0/0"; lit "Parameter: 0/0"].
Proof. vm_compute. reflexivity. Qed.
Example C211_nonvacuous : map log_of (run true false [sample; sample] zero) =
  [[lit "Intermediate Flow: 2/2"; lit "Elementary Flow: 2/4"; lit "Uncertainty: 2/8"; lit "Variable: 8/8"; lit "ProductionVolume: 2/2"; lit "Parameter: 4/4"]].
Proof. vm_compute. reflexivity. Qed.
