(** Facts about decimal rendering and parsing. *)
From Coq Require Import Ascii String List Bool Arith NArith ZArith Lia.
From Verif Require Import PyBase PyBaseFacts PyValues.
Import ListNotations.
Local Open Scope N_scope.

Definition dval (s : pystr) : N := fold_left (fun a c => 10 * a + (c - 48)) s 0.
Definition isdig (c : N) : Prop := 48 <= c <= 57.

Lemma dec_aux_S f n acc : dec_aux (S f) n acc =
  if n <? 10 then digit n :: acc else dec_aux f (n / 10) (digit (n mod 10) :: acc).
Proof. reflexivity. Qed.

Lemma dec_aux_app f : forall n acc, dec_aux f n acc = dec_aux f n [] ++ acc.
Proof.
  induction f; intros; cbn [dec_aux]; [reflexivity|].
  destruct (n <? 10); [reflexivity|].
  rewrite IHf. rewrite (IHf _ [_]). now rewrite <- app_assoc.
Qed.

Lemma dval_app a b : dval (a ++ b) = fold_left (fun a c => 10 * a + (c - 48)) b (dval a).
Proof. unfold dval. now rewrite fold_left_app. Qed.

Lemma fuel_ok n : n < 2 ^ N.of_nat (N.to_nat (N.size n)).
Proof.
  rewrite Nnat.N2Nat.id. destruct (N.eq_dec n 0) as [->|H]; [reflexivity|].
  apply N.size_gt.
Qed.

Lemma dec_aux_digits f : forall n, Forall isdig (dec_aux f n []).
Proof.
  induction f; intros; cbn [dec_aux]; [constructor|].
  destruct (n <? 10) eqn:E.
  - apply N.ltb_lt in E. constructor; [|constructor]. unfold isdig, digit. lia.
  - rewrite dec_aux_app. apply Forall_app. split; [apply IHf|].
    constructor; [|constructor]. unfold isdig, digit.
    assert (n mod 10 < 10) by (now apply N.mod_lt). revert H. generalize (n mod 10). clear. intros; lia.
Qed.

Lemma dec_aux_val f : forall n, n < 2 ^ N.of_nat f -> dval (dec_aux (S f) n []) = n.
Proof.
  induction f; intros n H.
  - change (2 ^ N.of_nat 0) with 1 in H. replace n with 0 by lia. reflexivity.
  - rewrite dec_aux_S. destruct (n <? 10) eqn:E.
    + unfold dval, digit. cbn [fold_left]. lia.
    + apply N.ltb_ge in E.
      rewrite dec_aux_app, dval_app, IHf.
      * cbn [fold_left]. unfold digit. pose proof (N.div_mod' n 10) as Hm. revert Hm.
        generalize (n / 10) (n mod 10). clear. intros; lia.
      * rewrite Nnat.Nat2N.inj_succ, N.pow_succ_r' in H.
        apply N.le_lt_trans with (n / 2); [|apply N.div_lt_upper_bound; lia].
        apply N.div_le_compat_l. lia.
Qed.

Lemma str_of_N_val n : dval (str_of_N n) = n.
Proof. unfold str_of_N. apply dec_aux_val, fuel_ok. Qed.
Lemma str_of_N_digits n : Forall isdig (str_of_N n).
Proof. apply dec_aux_digits. Qed.
Lemma str_of_N_inj a b : str_of_N a = str_of_N b -> a = b.
Proof. intros H. rewrite <- (str_of_N_val a), <- (str_of_N_val b). now rewrite H. Qed.

Lemma str_of_N_nonnil n : str_of_N n <> [].
Proof.
  unfold str_of_N. generalize (N.to_nat (N.size n)). intros f. cbn [dec_aux].
  destruct (n <? 10); [discriminate|]. rewrite dec_aux_app. now destruct (dec_aux f (n/10) []).
Qed.

(** Number of digits. *)
Lemma dec_aux_len f : forall n k, n < 2 ^ N.of_nat f ->
  (length (dec_aux (S f) n []) <= S k)%nat <-> n < 10 ^ N.of_nat (S k).
Proof.
  induction f; intros n k H.
  - change (2 ^ N.of_nat 0) with 1 in H. replace n with 0 by lia. cbn [dec_aux length].
    change (0 <? 10) with true. cbn [length]. split; intros; [|lia].
    assert (10 ^ N.of_nat (S k) <> 0) by (now apply N.pow_nonzero). lia.
  - rewrite dec_aux_S. destruct (n <? 10) eqn:E.
    + cbn [length]. apply N.ltb_lt in E. split; intros; [|lia].
      rewrite Nnat.Nat2N.inj_succ, N.pow_succ_r'.
      assert (10 ^ N.of_nat k <> 0) by (now apply N.pow_nonzero). nia.
    + apply N.ltb_ge in E.
      rewrite dec_aux_app, app_length. cbn [length].
      assert (Hd : n / 10 < 2 ^ N.of_nat f).
      { rewrite Nnat.Nat2N.inj_succ, N.pow_succ_r' in H.
        apply N.le_lt_trans with (n / 2); [|apply N.div_lt_upper_bound; lia].
        apply N.div_le_compat_l. lia. }
      destruct k as [|k].
      * split; intros.
        -- assert (length (dec_aux (S f) (n/10) []) = 0)%nat by lia.
           exfalso. rewrite dec_aux_S in H1. destruct (n/10 <? 10); [discriminate|].
           rewrite dec_aux_app, app_length in H1. cbn in H1. lia.
        -- change (10 ^ N.of_nat 1) with 10 in H0. lia.
      * specialize (IHf (n/10) k Hd).
        rewrite (Nnat.Nat2N.inj_succ (S k)), N.pow_succ_r'.
        split; intros.
        -- assert (length (dec_aux (S f) (n/10) []) <= S k)%nat by lia.
           apply IHf in H1. pose proof (N.div_mod' n 10) as Hm. assert (n mod 10 < 10) as Hl by (now apply N.mod_lt).
           revert Hm Hl H1. generalize (n / 10) (n mod 10) (10 ^ N.of_nat (S k)). clear. intros; lia.
        -- assert (n / 10 < 10 ^ N.of_nat (S k)) by (apply N.div_lt_upper_bound; lia).
           apply IHf in H1. lia.
Qed.

Lemma str_of_N_len n k : (length (str_of_N n) <= S k)%nat <-> n < 10 ^ N.of_nat (S k).
Proof. unfold str_of_N. apply dec_aux_len, fuel_ok. Qed.

Lemma digit_val_ascii c : isdig c -> digit_val c = Some (c - 48).
Proof.
  unfold isdig, digit_val. intros [H1 H2]. unfold dec_starts. cbn [find].
  replace (48 <=? c) with true by (symmetry; now apply N.leb_le).
  replace (c <? 48 + 10) with true by (symmetry; apply N.ltb_lt; lia). reflexivity.
Qed.

Lemma pdig_digits s : Forall isdig s -> forall acc prev, s <> [] \/ prev = true ->
  pdig acc prev s = Some (fold_left (fun a c => 10 * a + (c - 48)) s acc).
Proof.
  induction 1; intros acc prev Hp; cbn [pdig fold_left].
  - destruct Hp as [Hp| ->]; [now destruct Hp | reflexivity].
  - rewrite digit_val_ascii by assumption. apply IHForall. now right.
Qed.

Lemma pdig_str_of_N n : pdig 0 false (str_of_N n) = Some n.
Proof.
  rewrite pdig_digits; [|apply str_of_N_digits|left; apply str_of_N_nonnil].
  f_equal. apply str_of_N_val.
Qed.

Lemma isdig_nospace c : isdig c -> is_space c = false.
Proof.
  unfold isdig, is_space. intros H.
  repeat match goal with |- context [?a <=? ?b] => destruct (N.leb_spec a b); try lia end;
  repeat match goal with |- context [?a =? ?b] => destruct (N.eqb_spec a b); try lia end; reflexivity.
Qed.

Lemma lstrip_nospace s : (forall c, In c s -> is_space c = false) -> lstrip s = s.
Proof. destruct s; cbn; intros H; [reflexivity|]. now rewrite (H n (or_introl eq_refl)). Qed.
Lemma strip_nospace s : (forall c, In c s -> is_space c = false) -> strip s = s.
Proof.
  intros H. unfold strip, rstrip. rewrite (lstrip_nospace s H).
  rewrite lstrip_nospace; [apply rev_involutive|]. intros c Hc. apply H. now apply in_rev.
Qed.

Lemma str_of_Z_nospace z c : In c (str_of_Z z) -> is_space c = false.
Proof.
  assert (G : forall n c, In c (str_of_N n) -> is_space c = false).
  { intros n d Hd. apply isdig_nospace. revert d Hd. apply Forall_forall, str_of_N_digits. }
  destruct z; cbn [str_of_Z]; intros H; [eapply G; eauto | eapply G; eauto |].
  destruct H as [<-|H]; [reflexivity | eapply G; eauto].
Qed.

(** [int(str(z)) == z] *)
Lemma int_of_str_of_Z z : int_of_str (str_of_Z z) = Some z.
Proof.
  unfold int_of_str. rewrite strip_nospace by (intros c; apply str_of_Z_nospace).
  assert (G : forall n, match str_of_N n with
    | 45 :: t => option_map (fun n => (- Z.of_N n)%Z) (pdig 0 false t)
    | 43 :: t => option_map Z.of_N (pdig 0 false t)
    | t => option_map Z.of_N (pdig 0 false t) end = Some (Z.of_N n)).
  { intros n. pose proof (pdig_str_of_N n) as Hp. pose proof (str_of_N_digits n) as Hd.
    destruct (str_of_N n) as [|c t] eqn:E; [now rewrite Hp|].
    inversion Hd as [|? ? Hc _]; subst. unfold isdig in Hc.
    assert (c = 48 \/ c = 49 \/ c = 50 \/ c = 51 \/ c = 52 \/ c = 53 \/ c = 54 \/ c = 55 \/ c = 56 \/ c = 57) as Hcc by lia.
    repeat (destruct Hcc as [->|Hcc]; [now rewrite Hp|]). subst. now rewrite Hp. }
  destruct z; cbn [str_of_Z].
  - reflexivity.
  - exact (G (Npos p)).
  - rewrite pdig_str_of_N. reflexivity.
Qed.

Lemma str_of_Z_inj a b : str_of_Z a = str_of_Z b -> a = b.
Proof. intros H. pose proof (int_of_str_of_Z a). pose proof (int_of_str_of_Z b). congruence. Qed.
