(** The latitude accepted by the coordinate field. *)
From Coq Require Import Ascii String List Bool Arith NArith ZArith QArith Qpower Lia Lqa.
From Verif Require Import PyBase PyBaseFacts PyValues PyDigits Regex RegexFacts ValidatorsModel ValidatorsSpec ValidatorsProofs.
Import ListNotations.

Lemma udigit_ind (P : N -> bool) c :
  forallb (fun s => forallb (fun i => P (s + i)%N) [0;1;2;3;4;5;6;7;8;9]%N) dec_starts = true ->
  is_udigit c = true -> P c = true.
Proof.
  intros H. unfold is_udigit, digit_val.
  destruct (find _ dec_starts) as [s|] eqn:E; [|discriminate]. intros _.
  apply find_some in E as [Hin E]. apply andb_true_iff in E as [E1 E2].
  apply N.leb_le in E1. apply N.ltb_lt in E2.
  rewrite forallb_forall in H. specialize (H s Hin). rewrite forallb_forall in H.
  replace c with (s + (c - s))%N by lia. apply H.
  assert (Hc : (c - s < 10)%N) by lia. revert Hc. generalize (c - s)%N. clear. intros n Hn.
  assert (n = 0 \/ n = 1 \/ n = 2 \/ n = 3 \/ n = 4 \/ n = 5 \/ n = 6 \/ n = 7 \/ n = 8 \/ n = 9)%N by lia.
  cbn [In]. intuition.
Qed.

Lemma udigit_nospace c : is_udigit c = true -> is_space c = false.
Proof. intros H. apply negb_true_iff. apply (udigit_ind (fun c => negb (is_space c)) c); auto. Qed.
Definition plain c := negb ((c =? 45) || (c =? 43) || (c =? 46) || (c =? 95) || (lower_ascii c =? 105) || (lower_ascii c =? 110))%N.
Lemma udigit_plain c : is_udigit c = true -> plain c = true.
Proof. intros H. apply (udigit_ind plain c); auto. Qed.
Lemma digit_val_lt c d : digit_val c = Some d -> (d < 10)%N.
Proof.
  unfold digit_val. destruct (find _ dec_starts) as [s|] eqn:E; [|discriminate].
  apply find_some in E as [_ E]. apply andb_true_iff in E as [E1 E2].
  apply N.leb_le in E1. apply N.ltb_lt in E2. intros [= <-]. lia.
Qed.

Definition dv (c : N) : N := match digit_val c with Some d => d | None => 0%N end.
Definition dvals (acc : N) (w : pystr) : N := fold_left (fun a c => 10 * a + dv c)%N w acc.

Lemma digrun_ok w : Forall (fun c => is_udigit c = true) w -> forall acc cnt r,
  (match r with [] => True | c :: _ => is_udigit c = false /\ c <> 95%N end) ->
  digrun acc cnt (w ++ r) = (dvals acc w, (cnt + length w)%nat, r).
Proof.
  induction 1 as [|c w Hc Hw IH]; intros acc cnt r Hr.
  - cbn [app dvals fold_left length]. rewrite Nat.add_0_r. destruct r as [|c r]; [reflexivity|].
    destruct Hr as [H1 H2]. cbn [digrun]. unfold is_udigit in H1.
    destruct (digit_val c); [discriminate|]. apply N.eqb_neq in H2. now rewrite H2.
  - cbn [app digrun]. unfold is_udigit in Hc. destruct (digit_val c) as [d|] eqn:E; [|discriminate].
    rewrite IH by assumption. change (dvals acc (c :: w)) with (dvals (10 * acc + dv c) w).
    unfold dv at 1. rewrite E. cbn [length]. rewrite Nat.add_succ_r. reflexivity.
Qed.

Lemma dvals_lt w : forall acc, (dvals acc w < (acc + 1) * 10 ^ N.of_nat (length w))%N.
Proof.
  induction w as [|c w IH]; intros acc; cbn [dvals fold_left length].
  - cbn. lia.
  - specialize (IH (10 * acc + dv c)%N).
    assert (dv c < 10)%N.
    { unfold dv. destruct (digit_val c) eqn:E; [now apply digit_val_lt in E | lia]. }
    rewrite Nnat.Nat2N.inj_succ, N.pow_succ_r'.
    eapply N.lt_le_trans; [exact IH|].
    rewrite N.mul_assoc. apply N.mul_le_mono_r. lia.
Qed.

Lemma q10_pos e : (0 < q10 e)%Q.
Proof. unfold q10. apply Qpower_0_lt. reflexivity. Qed.

Lemma q10_neg n : (q10 (- Z.of_nat n) * inject_Z (Z.of_N (10 ^ N.of_nat n)) == 1)%Q.
Proof.
  unfold q10. rewrite N2Z.inj_pow, nat_N_Z. change (Z.of_N 10) with 10%Z.
  rewrite Qpower_opp. rewrite <- (Qmult_inv_r ((10#1) ^ Z.of_nat n)%Q).
  - rewrite Qmult_comm. apply Qmult_comp; [|reflexivity].
    change (10#1) with (inject_Z 10). rewrite Zpower_Qpower by lia. reflexivity.
  - apply Qpower_not_0. discriminate.
Qed.

(** value of an unsigned plain decimal *)
Lemma ufloat_plain w f :
  Forall (fun c => is_udigit c = true) w -> w <> [] ->
  (f = [] \/ exists x, f = lit "." ++ x /\ Forall (fun c => is_udigit c = true) x) ->
  exists q, ufloat (w ++ f) = Some q /\
    (inject_Z (Z.of_N (dvals 0 w)) <= q /\ q < inject_Z (Z.of_N (dvals 0 w)) + 1)%Q.
Proof.
  intros Hw Hn [->|(x & -> & Hx)]; unfold ufloat.
  - rewrite (digrun_ok w Hw 0%N 0%nat []) by exact I. cbn [Nat.add].
    rewrite Nat.add_0_r. destruct w as [|c w]; [now destruct Hn|]. cbn [length Nat.eqb].
    eexists. split; [reflexivity|]. assert (Hz : (inject_Z (Z.of_N 0) * q10 (- Z.of_nat 0) == 0)%Q) by reflexivity.
    split; [|]; lra.
  - rewrite (digrun_ok w Hw) by (cbn; split; [reflexivity | discriminate]).
    change (lit "." ++ x) with (46%N :: x).
    assert (Hd : digrun 0 0 x = (dvals 0 x, length x, [])).
    { rewrite <- (app_nil_r x) at 1. now apply (digrun_ok x Hx 0%N 0%nat []). }
    cbv beta iota. rewrite Hd. cbn [Nat.add].
    destruct w as [|c w]; [now destruct Hn|]. cbn [length Nat.eqb Nat.add].
    eexists. split; [reflexivity|].
    pose proof (q10_pos (- Z.of_nat (length x))) as Hp.
    pose proof (q10_neg (length x)) as Hq.
    assert (Hf : (0 <= inject_Z (Z.of_N (dvals 0 x)))%Q) by (unfold Qle; cbn; lia).
    assert (Hl : (inject_Z (Z.of_N (dvals 0 x)) < inject_Z (Z.of_N (10 ^ N.of_nat (length x))))%Q).
    { rewrite <- Zlt_Qlt. apply N2Z.inj_lt. pose proof (dvals_lt x 0). lia. }
    set (p := q10 (- Z.of_nat (length x))) in *. clearbody p.
    set (a := inject_Z (Z.of_N (dvals 0 x))) in *. clearbody a.
    set (b := inject_Z (Z.of_N (10 ^ N.of_nat (length x)))) in *. clearbody b.
    assert ((a * p < b * p)%Q) by (apply Qmult_lt_compat_r; auto).
    assert ((0 <= a * p)%Q) by (apply Qmult_le_0_compat; lra).
    split; [|]; lra.
Qed.

Definition all_space (s : pystr) : Prop := Forall (fun c => is_space c = true) s.

Lemma float_plain neg w f c t q :
  ufloat (w ++ f) = Some q -> w ++ f = c :: t -> plain c = true ->
  (forall c, In c (w ++ f) -> is_space c = false) ->
  (neg = [] \/ neg = lit "-" \/ neg = lit "+") ->
  float_of_str (neg ++ w ++ f) = Some (Fin (if str_eqb neg (lit "-") then - q else q)).
Proof.
  intros Hu E Hp Hs Hneg. unfold float_of_str.
  rewrite strip_nospace.
  2: { intros d Hd. apply in_app_iff in Hd as [Hd|Hd]; [|auto].
       destruct Hneg as [->|[->| ->]]; cbn in Hd; intuition; now subst. }
  unfold plain in Hp. rewrite negb_true_iff, !orb_false_iff in Hp.
  destruct Hp as (((((H1 & H2) & H3) & H4) & H5) & H6).
  apply N.eqb_neq in H1, H2, H3, H4.
  assert (Hts : take_sign (neg ++ w ++ f) = (str_eqb neg (lit "-"), w ++ f)).
  { rewrite E. destruct Hneg as [->|[->| ->]]; try reflexivity.
    cbn [app str_eqb lit]. unfold take_sign.
    destruct c as [|[[[[[[]|[]|]|[[]|[]|]|]|[[[]|[]|]|[[]|[]|]|]|]|[[[[]|[]|]|[[]|[]|]|]|[[[]|[]|]|[[]|[]|]|]|]|]|[[[[[]|[]|]|[[]|[]|]|]|[[[]|[]|]|[[]|[]|]|]|]|[[[[]|[]|]|[[]|[]|]|]|[[[]|[]|]|[[]|[]|]|]|]|]|]];
      try reflexivity; exfalso; auto. }
  rewrite Hts.
  assert (Hi : str_in (map lower_ascii (w ++ f)) [lit "inf"; lit "infinity"] = false).
  { rewrite E. cbn [map str_in existsb str_eqb lit]. change (N_of_ascii "i") with 105%N. now rewrite H5. }
  assert (Hna : str_eqb (map lower_ascii (w ++ f)) (lit "nan") = false).
  { rewrite E. cbn [map str_eqb lit]. change (N_of_ascii "n") with 110%N. now rewrite H6. }
  rewrite Hi, Hna, Hu. reflexivity.
Qed.

Lemma M_opt a w g g2 : M (ropt a) w g g2 <-> M a w g g2 \/ (w = [] /\ g2 = g).
Proof. unfold ropt. rewrite M_alt_iff, M_eps_iff. reflexivity. Qed.

Lemma M_sign w g g2 : M sign_ w g g2 -> w = [] \/ w = lit "-" \/ w = lit "+".
Proof.
  unfold sign_. rewrite M_opt. intros [H|[-> _]]; auto.
  apply M_chr_inv in H as (c & -> & Hc & _). apply orb_true_iff in Hc as [Hc|Hc];
    apply N.eqb_eq in Hc; subst; auto.
Qed.
Lemma M_frac w g g2 : M frac_ w g g2 ->
  w = [] \/ exists x, w = lit "." ++ x /\ Forall (fun c => is_udigit c = true) x.
Proof.
  unfold frac_. rewrite M_opt. intros [H|[-> _]]; auto.
  apply M_seq_inv in H as (u & v & g1 & -> & Hu & Hv). apply M_rlit in Hu as [-> ->].
  apply M_star_chr in Hv as [Hv ->]. right. exists v. split; auto. now apply forallb_udigit.
Qed.

Lemma lower_digits_udigit c : between 48 56 c = true -> is_udigit c = true /\ (dv c <= 8)%N.
Proof.
  unfold between. rewrite andb_true_iff, !N.leb_le. intros [H1 H2].
  assert (c = 48 \/ c = 49 \/ c = 50 \/ c = 51 \/ c = 52 \/ c = 53 \/ c = 54 \/ c = 55 \/ c = 56)%N as Hc by lia.
  repeat (destruct Hc as [->|Hc]; [split; [reflexivity | vm_compute; discriminate]|]).
  subst; split; [reflexivity | vm_compute; discriminate].
Qed.
Lemma dv_lt c : (dv c < 10)%N.
Proof. unfold dv. destruct (digit_val c) eqn:E; [now apply digit_val_lt in E | lia]. Qed.

Lemma frac_space f : (f = [] \/ exists x, f = lit "." ++ x /\ Forall (fun c => is_udigit c = true) x) ->
  forall c, In c f -> is_space c = false.
Proof.
  intros [->|(x & -> & Hx)] c Hc; [destruct Hc|].
  destruct Hc as [<-|Hc]; [reflexivity|]. apply udigit_nospace. revert c Hc. now apply Forall_forall.
Qed.

Lemma lat_value w g g2 : M lat_re w g g2 ->
  exists q, float_of_str w = Some (Fin q) /\ (-90 <= q <= 90)%Q.
Proof.
  unfold lat_re. intros H. apply M_alt_inv in H as [H|H].
  - apply M_seq_inv in H as (sg & r & g1 & -> & Hs & H). apply M_sign in Hs.
    apply M_seq_inv in H as (d & f & g3 & -> & Hd & Hf). apply M_frac in Hf.
    apply M_seq_inv in Hd as (d1 & d2 & g4 & -> & H1 & H2).
    apply M_chr_inv in H2 as (c2 & -> & H2 & _).
    assert (Hw : Forall (fun c => is_udigit c = true) (d1 ++ [c2]) /\ (dvals 0 (d1 ++ [c2]) <= 89)%N).
    { apply M_opt in H1 as [H1|[-> _]].
      - apply M_chr_inv in H1 as (c1 & -> & H1 & _). apply lower_digits_udigit in H1 as [H1 H1'].
        split; [repeat constructor; auto|]. cbn [app dvals fold_left].
        pose proof (dv_lt c2). lia.
      - split; [repeat constructor; auto|]. cbn [app dvals fold_left]. pose proof (dv_lt c2). lia. }
    destruct Hw as [Hw Hv].
    assert (Hne : d1 ++ [c2] <> []) by (destruct d1; discriminate).
    destruct (ufloat_plain (d1 ++ [c2]) f Hw Hne Hf) as (q & Hq & Hlo & Hhi).
    destruct (d1 ++ [c2]) as [|c t] eqn:E; [now destruct Hne|]. rewrite <- E in *.
    assert (Hc : plain c = true).
    { apply udigit_plain. rewrite E in Hw. now inversion Hw. }
    eexists. split.
    + eapply float_plain with (c := c) (t := t ++ f); eauto.
      * rewrite E. reflexivity.
      * intros x Hx. apply in_app_iff in Hx as [Hx|Hx].
        -- apply udigit_nospace. revert x Hx. now apply Forall_forall.
        -- eapply frac_space; eauto.
    + assert (Ha : (0 <= inject_Z (Z.of_N (dvals 0 (d1 ++ [c2]))) <= 89)%Q).
      { split; [unfold Qle; cbn; lia|]. change 89%Q with (inject_Z 89). rewrite <- Zle_Qle. lia. }
      destruct (str_eqb sg (lit "-")); split; lra.
  - apply M_seq_inv in H as (a & f & g1 & -> & Ha & Hf). apply M_rlit in Ha as [-> ->].
    apply M_opt in Hf as [Hf|[-> _]].
    + apply M_seq_inv in Hf as (p & z & g3 & -> & Hp & Hz). apply M_rlit in Hp as [-> ->].
      assert (Hzz : z = [] \/ z = lit "0" \/ z = lit "00").
      { cbn [rupto] in Hz. apply M_alt_inv in Hz as [Hz|Hz]; [|apply M_eps_inv in Hz as [-> _]; auto].
        apply M_seq_inv in Hz as (x & y & g4 & -> & Hx & Hy). apply M_rlit in Hx as [-> ->].
        apply M_alt_inv in Hy as [Hy|Hy]; [|apply M_eps_inv in Hy as [-> _]; auto].
        apply M_seq_inv in Hy as (x & y' & g5 & -> & Hx & Hy). apply M_rlit in Hx as [-> ->].
        apply M_eps_inv in Hy as [-> _]. auto. }
      destruct Hzz as [->|[->| ->]]; eexists; (split; [vm_compute; reflexivity | split; vm_compute; discriminate]).
    + eexists; (split; [vm_compute; reflexivity | split; vm_compute; discriminate]).
Qed.

Lemma gis_latitude v s :
  GIS v = Ok s ->
  exists a lat b rest q, s = a ++ lat ++ b ++ lit ";" ++ rest /\ all_space a /\ all_space b /\
    float_of_str lat = Some (Fin q) /\ (-90 <= q <= 90)%Q.
Proof.
  unfold GIS. rewrite pattern_iff by reflexivity. intros (-> & u & t & g & -> & H).
  unfold gis_re in H.
  apply M_seq_inv in H as (a & r1 & g1 & -> & Ha & H). apply M_star_chr in Ha as [Ha ->].
  apply M_seq_inv in H as (lat & r2 & g2 & -> & Hl & H). apply lat_value in Hl as (q & Hq & Hr).
  apply M_seq_inv in H as (b & r3 & g3 & -> & Hb & H). apply M_star_chr in Hb as [Hb ->].
  apply M_seq_inv in H as (sc & r4 & g4 & -> & Hsc & H). apply M_rlit in Hsc as [-> ->].
  exists a, lat, b, (r4 ++ t), q. split; [now rewrite <- !app_assoc|].
  unfold all_space. rewrite !Forall_forall. rewrite forallb_forall in Ha, Hb. repeat split; auto; apply Hr.
Qed.
