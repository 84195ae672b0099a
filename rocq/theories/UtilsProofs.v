From Coq Require Import Ascii String List Bool Arith NArith ZArith Lia.
From Verif Require Import PyBase PyBaseFacts PyValues ValidatorsModel ValidatorsSpec ValidatorsProofs
  MultiLangModel UtilsModel UtilsSpec.
Import ListNotations.

(** * Removing a character *)
Lemma replace1_aux c s : forall acc, join [] (split_aux [c] 0 acc s) = rev acc ++ filter (fun x => negb (N.eqb x c)) s.
Proof.
  induction s as [|x s IH]; intros acc.
  - simpl. now rewrite app_nil_r.
  - cbn [split_aux prefixb filter length Nat.sub]. rewrite andb_true_r, (N.eqb_sym x c).
    destruct (N.eqb c x) eqn:E; cbn [negb].
    + rewrite join_cons by apply split_aux_nonnil. rewrite IH. reflexivity.
    + rewrite IH. simpl. now rewrite <- app_assoc.
Qed.
Lemma replace1 c s : replace [c] [] s = filter (fun x => negb (N.eqb x c)) s.
Proof. apply replace1_aux. Qed.
Lemma filter_same {A} (p : A -> bool) l : Forall (fun x => p x = true) l -> filter p l = l.
Proof. induction 1; simpl; auto. rewrite H. congruence. Qed.

(** * Hexadecimal *)
Lemma hexchar_any c : hexchar c -> anyhex c.
Proof. unfold hexchar, anyhex. tauto. Qed.
Lemma hexchar_lower c : hexchar c -> lower c = c.
Proof.
  unfold hexchar, lower. intros H. destruct (N.leb_spec 65 c), (N.leb_spec c 70); cbn [andb]; auto. lia.
Qed.
Lemma hex_digit_char n : (n < 16)%N -> hexchar (hex_digit n).
Proof. unfold hex_digit, hexchar. intros H. destruct (N.ltb_spec n 10); lia. Qed.
Lemma hex_value_digit n : (n < 16)%N -> hex_value (hex_digit n) = Some n.
Proof.
  intros H. unfold hex_digit, hex_value.
  destruct (N.ltb_spec n 10).
  - destruct (N.leb_spec 48 (48 + n)), (N.leb_spec (48 + n) 57); cbn [andb]; try lia. f_equal; lia.
  - destruct (N.leb_spec 48 (87 + n)), (N.leb_spec (87 + n) 57); cbn [andb]; try lia.
    destruct (N.leb_spec 97 (87 + n)), (N.leb_spec (87 + n) 102); cbn [andb]; try lia. f_equal; lia.
Qed.
Lemma hex_value_any c : anyhex c -> exists n, hex_value c = Some n /\ (n < 16)%N /\ hex_digit n = lower c.
Proof.
  unfold anyhex, hex_value, hex_digit, lower. intros H.
  destruct (N.leb_spec 48 c), (N.leb_spec c 57); cbn [andb]; try lia.
  - exists (c - 48)%N. split; auto. split; [lia|]. destruct (N.ltb_spec (c - 48) 10); try lia.
    destruct (N.leb_spec 65 c); cbn [andb]; lia.
  - destruct (N.leb_spec 97 c), (N.leb_spec c 102); cbn [andb]; try lia.
    + exists (c - 87)%N. split; auto. split; [lia|]. destruct (N.ltb_spec (c - 87) 10); try lia.
      destruct (N.leb_spec 65 c), (N.leb_spec c 70); cbn [andb]; lia.
    + destruct (N.leb_spec 65 c), (N.leb_spec c 70); cbn [andb]; try lia.
      exists (c - 55)%N. split; auto. split; [lia|]. destruct (N.ltb_spec (c - 55) 10); lia.
Qed.

Definition byte (b : N) : Prop := (b < 256)%N.
Lemma byte_split b : byte b -> (b / 16 < 16)%N /\ (b mod 16 < 16)%N /\ (16 * (b / 16) + b mod 16)%N = b.
Proof.
  unfold byte. intros H. repeat split.
  - apply N.div_lt_upper_bound; lia.
  - apply N.mod_lt; lia.
  - symmetry. apply N.div_mod. lia.
Qed.
Lemma byte_join x y : (x < 16)%N -> (y < 16)%N -> ((16 * x + y) / 16 = x)%N /\ ((16 * x + y) mod 16 = y)%N /\ byte (16 * x + y).
Proof.
  intros Hx Hy. assert (E : ((16 * x + y) / 16 = x)%N) by (symmetry; apply (N.div_unique _ 16 x y); lia).
  split; [exact E|]. split; [symmetry; apply (N.mod_unique _ 16 x y); lia|]. unfold byte. lia.
Qed.
Lemma unhex_hex d : Forall byte d -> unhexlify (hexlify d) = Ok d.
Proof.
  induction 1 as [|b d H _ IH]; cbn [hexlify unhexlify]; auto. destruct (byte_split b H) as (H1 & H2 & H3).
  rewrite !hex_value_digit by assumption. rewrite IH. cbn [bind]. now rewrite H3.
Qed.
Lemma hexlify_hex d : Forall byte d -> Forall hexchar (hexlify d).
Proof.
  induction 1 as [|b d H _ IH]; cbn [hexlify unhexlify]; auto. destruct (byte_split b H) as (H1 & H2 & H3).
  constructor; [now apply hex_digit_char|]. constructor; [now apply hex_digit_char|auto].
Qed.
Lemma hexlify_length d : length (hexlify d) = 2 * length d.
Proof. induction d; simpl; lia. Qed.
Lemma hex_unhex : forall n h, length h = 2 * n -> Forall anyhex h ->
  exists d, unhexlify h = Ok d /\ hexlify d = map lower h /\ Forall byte d /\ length d = n.
Proof.
  induction n as [|n IH]; intros h L H.
  - destruct h; [|discriminate]. exists []. auto.
  - destruct h as [|x [|y h]]; simpl in L; try lia. inversion H as [|? ? Hx H1]; subst.
    inversion H1 as [|? ? Hy H2]; subst. destruct (IH h ltac:(lia) H2) as (d & E1 & E2 & E3 & E4).
    destruct (hex_value_any x Hx) as (nx & X1 & X2 & X3). destruct (hex_value_any y Hy) as (ny & Y1 & Y2 & Y3).
    destruct (byte_join nx ny X2 Y2) as (J1 & J2 & J3).
    exists ((16 * nx + ny)%N :: d). cbn [unhexlify hexlify map]. rewrite X1, Y1, E1. cbn [bind].
    rewrite J1, J2, E2, X3, Y3. repeat split; auto. simpl. lia.
Qed.

(** * The stream cipher *)
Lemma lxor_byte a b : byte a -> byte b -> byte (N.lxor a b).
Proof.
  unfold byte. intros Ha Hb. destruct (N.eq_dec (N.lxor a b) 0) as [->|NZ]; [lia|].
  change 256%N with (2 ^ 8)%N in *. apply N.log2_lt_pow2; [lia|].
  pose proof (N.log2_lxor a b) as H.
  assert (G : forall x, (x < 2 ^ 8)%N -> (N.log2 x < 8)%N).
  { intros x Hx. destruct (N.eq_dec x 0) as [->|]; [reflexivity|]. apply N.log2_lt_pow2; lia. }
  pose proof (G a Ha). pose proof (G b Hb). lia.
Qed.
Section Cipher.
  Context (aes : list N -> list N -> N).
  Hypothesis BV : byte_valued aes.
  Lemma enc_length k d : forall r, length (cfb_encrypt aes k r d) = length d.
  Proof. induction d; simpl; auto. Qed.
  Lemma dec_length k d : forall r, length (cfb_decrypt aes k r d) = length d.
  Proof. induction d; simpl; auto. Qed.
  Lemma enc_bytes k d : Forall byte d -> forall r, Forall byte (cfb_encrypt aes k r d).
  Proof. induction 1; simpl; intros r; constructor; auto. apply lxor_byte; auto. apply BV. Qed.
  Lemma dec_bytes k d : Forall byte d -> forall r, Forall byte (cfb_decrypt aes k r d).
  Proof. induction 1; simpl; intros r; constructor; auto. apply lxor_byte; auto. apply BV. Qed.
  Lemma xor_twice a b : N.lxor (N.lxor a b) b = a.
  Proof. now rewrite N.lxor_assoc, N.lxor_nilpotent, N.lxor_0_r. Qed.
  Lemma dec_enc k d : forall r, cfb_decrypt aes k r (cfb_encrypt aes k r d) = d.
  Proof. induction d; simpl; intros r; auto. now rewrite xor_twice, IHd. Qed.
  Lemma enc_dec k d : forall r, cfb_encrypt aes k r (cfb_decrypt aes k r d) = d.
  Proof. induction d; simpl; intros r; auto. now rewrite xor_twice, IHd. Qed.

  (** * Identifiers *)
  Definition fmt (v w : N) (n : pystr) : pystr :=
    slice 0 8 n ++ lit "-" ++ slice 8 12 n ++ lit "-" ++ [v] ++ slice 12 15 n ++ lit "-" ++
        [w] ++ slice 15 18 n ++ lit "-" ++ slice 18 30 n.

  Lemma slice_forall (P : N -> Prop) i j s : Forall P s -> Forall P (slice i j s).
  Proof.
    intros H. unfold slice. rewrite Forall_forall in *. intros x Hx. apply H.
    assert (In x (skipn i s)).
    { rewrite <- (firstn_skipn (j - i) (skipn i s)). apply in_or_app. auto. }
    rewrite <- (firstn_skipn i s). apply in_or_app. auto.
  Qed.
  Lemma anyhex_nodash c : anyhex c -> negb (N.eqb c (ch "-")) = true.
  Proof. unfold anyhex. intros H. apply negb_true_iff, N.eqb_neq. change (ch "-") with 45%N. lia. Qed.

  Lemma undash v w n : anyhex v -> anyhex w -> Forall anyhex n ->
    replace (lit "-") [] (fmt v w n)
    = slice 0 8 n ++ slice 8 12 n ++ [v] ++ slice 12 15 n ++ [w] ++ slice 15 18 n ++ slice 18 30 n.
  Proof.
    intros Hv Hw Hn. change (lit "-") with [ch "-"]. rewrite replace1. unfold fmt.
    assert (S : forall i j, filter (fun x => negb (N.eqb x (ch "-"))) (slice i j n) = slice i j n).
    { intros. apply filter_same. eapply Forall_impl; [exact anyhex_nodash|]. now apply slice_forall. }
    repeat rewrite filter_app. rewrite !S. cbn [filter lit list_ascii_of_string map].
    change (N_of_ascii "-") with (ch "-").
    repeat match goal with |- context[filter ?f (lit "-")] => change (filter f (lit "-")) with (@nil N) end.
    rewrite (anyhex_nodash v Hv), (anyhex_nodash w Hw). reflexivity.
  Qed.

  Lemma conv_fmt v w n key ty cr :
    anyhex v -> anyhex w -> Forall anyhex n -> length n = 30 ->
    (ty = flow_conversion_1 /\ cr = cfb_encrypt aes key (rev key) \/
     ty = flow_conversion_2 /\ cr = cfb_decrypt aes key (rev key)) ->
    uuid_from_uuid aes (fmt v w n) key ty = bind (unhexlify n) (fun d => Ok (fmt v w (hexlify (cr d)))).
  Proof.
    intros Hv Hw Hn Ln Ht. unfold uuid_from_uuid. rewrite (undash v w n Hv Hw Hn).
    set (u1 := slice 0 8 n ++ _).
    assert (U : nth_error u1 12 = Some v /\ nth_error u1 16 = Some w /\
       firstn 15 (firstn 12 u1 ++ skipn 13 u1) ++ skipn 16 (firstn 12 u1 ++ skipn 13 u1) = n).
    { subst u1. clear Hn. do 30 (destruct n as [|? n]; [discriminate|]). destruct n; [|discriminate].
      split; [reflexivity|]. split; reflexivity. }
    destruct U as (U1 & U2 & U3). unfold nth_char. rewrite U1, U2. cbn [bind]. rewrite U3.
    destruct (unhexlify n) as [d|]; cbn [bind]; auto.
    destruct Ht as [[-> ->]|[-> ->]]; reflexivity.
  Qed.

  Lemma anyuuid_fmt u : anyuuid u <-> exists v w n, u = fmt v w n /\ anyhex v /\ anyhex w /\ Forall anyhex n /\ length n = 30.
  Proof.
    split.
    - intros (a & b & c & d & e & -> & H & L1 & L2 & L3 & L4 & L5).
      destruct c as [|v c]; [discriminate|]. destruct d as [|w d]; [discriminate|].
      exists v, w, (a ++ b ++ c ++ d ++ e). simpl in L3, L4.
      rewrite !Forall_app in H. destruct H as (Ha & Hb & Hc & Hd & He).
      inversion Hc; inversion Hd; subst.
      split; [|split; [assumption|split; [assumption|split]]].
      + do 8 (destruct a as [|? a]; [discriminate|]). destruct a; [|discriminate].
        do 4 (destruct b as [|? b]; [discriminate|]). destruct b; [|discriminate].
        do 3 (destruct c as [|? c]; [discriminate|]). destruct c; [|discriminate].
        do 3 (destruct d as [|? d]; [discriminate|]). destruct d; [|discriminate].
        do 12 (destruct e as [|? e]; [discriminate|]). destruct e; [|discriminate]. reflexivity.
      + rewrite !Forall_app. auto.
      + rewrite !app_length. lia.
    - intros (v & w & n & -> & Hv & Hw & Hn & Ln).
      exists (slice 0 8 n), (slice 8 12 n), (v :: slice 12 15 n), (w :: slice 15 18 n), (slice 18 30 n).
      split; [reflexivity|]. split.
      + rewrite !Forall_app. split; [now apply slice_forall|]. split; [now apply slice_forall|].
        split; [constructor; auto; now apply slice_forall|].
        split; [constructor; auto; now apply slice_forall|]. now apply slice_forall.
      + clear Hn. do 30 (destruct n as [|? n]; [discriminate|]). destruct n; [|discriminate].
        repeat split.
  Qed.
  Lemma is_uuid_fmt u : is_uuid u <-> exists v w n, u = fmt v w n /\ hexchar v /\ hexchar w /\ Forall hexchar n /\ length n = 30.
  Proof.
    split.
    - intros (a & b & c & d & e & -> & [L1 Ha] & [L2 Hb] & [L3 Hc] & [L4 Hd] & [L5 He]).
      destruct c as [|v c]; [discriminate|]. destruct d as [|w d]; [discriminate|].
      exists v, w, (a ++ b ++ c ++ d ++ e). simpl in L3, L4. inversion Hc; inversion Hd; subst.
      split; [|split; [assumption|split; [assumption|split]]].
      + do 8 (destruct a as [|? a]; [discriminate|]). destruct a; [|discriminate].
        do 4 (destruct b as [|? b]; [discriminate|]). destruct b; [|discriminate].
        do 3 (destruct c as [|? c]; [discriminate|]). destruct c; [|discriminate].
        do 3 (destruct d as [|? d]; [discriminate|]). destruct d; [|discriminate].
        do 12 (destruct e as [|? e]; [discriminate|]). destruct e; [|discriminate]. reflexivity.
      + rewrite !Forall_app. auto.
      + rewrite !app_length. lia.
    - intros (v & w & n & -> & Hv & Hw & Hn & Ln).
      exists (slice 0 8 n), (slice 8 12 n), (v :: slice 12 15 n), (w :: slice 15 18 n), (slice 18 30 n).
      split; [reflexivity|].
      assert (L : length (slice 0 8 n) = 8 /\ length (slice 8 12 n) = 4 /\ length (slice 12 15 n) = 3
                  /\ length (slice 15 18 n) = 3 /\ length (slice 18 30 n) = 12).
      { clear Hn. do 30 (destruct n as [|? n]; [discriminate|]). destruct n; [|discriminate]. repeat split. }
      destruct L as (L1 & L2 & L3 & L4 & L5). unfold hexblock. cbn [length]. rewrite L1, L2, L3, L4, L5.
      pose proof (fun i j => slice_forall hexchar i j n Hn) as S.
      repeat split; try constructor; auto.
  Qed.
  Lemma fmt_inj v w n v' w' n' : length n = 30 -> length n' = 30 -> fmt v w n = fmt v' w' n' -> v = v' /\ w = w' /\ n = n'.
  Proof.
    intros L1 L2 H.
    assert (G : forall v w m, length m = 30 ->
       m = firstn 8 (fmt v w m) ++ firstn 4 (skipn 9 (fmt v w m)) ++ firstn 3 (skipn 15 (fmt v w m)) ++
           firstn 3 (skipn 20 (fmt v w m)) ++ skipn 24 (fmt v w m) /\
       nth_error (fmt v w m) 14 = Some v /\ nth_error (fmt v w m) 19 = Some w).
    { clear. intros v w m L. do 30 (destruct m as [|? m]; [discriminate|]). destruct m; [|discriminate].
      split; [reflexivity|]. split; reflexivity. }
    destruct (G v w n L1) as (A1 & A2 & A3). destruct (G v' w' n' L2) as (B1 & B2 & B3).
    rewrite H in A1, A2, A3. split; [congruence|]. split; [congruence|]. rewrite A1. now rewrite B1 at 6.
  Qed.
  Lemma lowered_fmt v w n : length n = 30 -> lowered (fmt v w n) = fmt v w (map lower n).
  Proof.
    intros L1. do 30 (destruct n as [|? n]; [discriminate|]). destruct n; [|discriminate]. reflexivity.
  Qed.

  Definition crypt (key : list N) (ty : pystr) (d : list N) : list N :=
    if str_eqb ty flow_conversion_1 then cfb_encrypt aes key (rev key) d else cfb_decrypt aes key (rev key) d.
  Definition direction (ty : pystr) : Prop := ty = flow_conversion_1 \/ ty = flow_conversion_2.
  Lemma crypt_bytes key ty d : Forall byte d -> Forall byte (crypt key ty d) /\ length (crypt key ty d) = length d.
  Proof.
    intros H. unfold crypt. destruct (str_eqb ty _).
    - split; [now apply enc_bytes|apply enc_length].
    - split; [now apply dec_bytes|apply dec_length].
  Qed.
  Lemma conv_any v w n key ty : direction ty -> anyhex v -> anyhex w -> Forall anyhex n -> length n = 30 ->
    exists d, unhexlify n = Ok d /\ Forall byte d /\ length d = 15 /\ hexlify d = map lower n /\
      uuid_from_uuid aes (fmt v w n) key ty = Ok (fmt v w (hexlify (crypt key ty d))).
  Proof.
    intros Ht Hv Hw Hn Ln. destruct (hex_unhex 15 n Ln Hn) as (d & E1 & E2 & E3 & E4).
    exists d. repeat (split; [assumption|]).
    assert (Hc : ty = flow_conversion_1 /\ crypt key ty = cfb_encrypt aes key (rev key) \/
                 ty = flow_conversion_2 /\ crypt key ty = cfb_decrypt aes key (rev key)).
    { destruct Ht as [->| ->]; [left|right]; (split; [reflexivity|]); reflexivity. }
    rewrite (conv_fmt v w n key ty (crypt key ty) Hv Hw Hn Ln Hc), E1. reflexivity.
  Qed.
  Definition opposite (a b : pystr) : Prop :=
    a = flow_conversion_1 /\ b = flow_conversion_2 \/ a = flow_conversion_2 /\ b = flow_conversion_1.
  Lemma crypt_opposite key a b d : opposite a b -> crypt key b (crypt key a d) = d.
  Proof.
    intros [[-> ->]|[-> ->]]; unfold crypt; simpl str_eqb; cbv iota; [apply dec_enc|apply enc_dec].
  Qed.
  Lemma direction_opposite a b : opposite a b -> direction a /\ direction b.
  Proof. intros [[-> ->]|[-> ->]]; split; unfold direction; auto. Qed.

  Theorem round_trip_any u key a b : opposite a b -> anyuuid u ->
    exists w, uuid_from_uuid aes u key a = Ok w /\ uuid_from_uuid aes w key b = Ok (lowered u).
  Proof.
    intros O H. destruct (direction_opposite _ _ O) as [Da Db].
    apply anyuuid_fmt in H. destruct H as (v & w & n & -> & Hv & Hw & Hn & Ln).
    destruct (conv_any v w n key a Da Hv Hw Hn Ln) as (d & E1 & E2 & E3 & E4 & E5).
    destruct (crypt_bytes key a d E2) as [B1 B2].
    eexists. split; [exact E5|].
    destruct (conv_any v w (hexlify (crypt key a d)) key b Db Hv Hw) as (d' & F1 & F2 & F3 & F4 & F5).
    - eapply Forall_impl; [exact hexchar_any|]. now apply hexlify_hex.
    - rewrite hexlify_length. lia.
    - rewrite F5. rewrite unhex_hex in F1 by exact B1. inversion F1; subst d'.
      rewrite crypt_opposite by exact O. rewrite lowered_fmt by exact Ln. now rewrite E4.
  Qed.
  Lemma lowered_uuid u : is_uuid u -> lowered u = u.
  Proof.
    intros H. apply is_uuid_fmt in H. destruct H as (v & w & n & -> & Hv & Hw & Hn & Ln).
    rewrite lowered_fmt by exact Ln. f_equal. clear Ln. induction Hn; simpl; f_equal; auto.
    now apply hexchar_lower.
  Qed.
  Lemma uuid_any u : is_uuid u -> anyuuid u.
  Proof.
    intros H. apply is_uuid_fmt in H. destruct H as (v & w & n & -> & Hv & Hw & Hn & Ln).
    apply anyuuid_fmt. exists v, w, n. split; [reflexivity|]. split; [now apply hexchar_any|].
    split; [now apply hexchar_any|]. split; auto. eapply Forall_impl; [exact hexchar_any|exact Hn].
  Qed.
  Theorem shape u key ty : direction ty -> is_uuid u ->
    exists w, uuid_from_uuid aes u key ty = Ok w /\ is_uuid w /\
      version_digit w = version_digit u /\ variant_digit w = variant_digit u.
  Proof.
    intros D H. apply is_uuid_fmt in H. destruct H as (v & w & n & -> & Hv & Hw & Hn & Ln).
    destruct (conv_any v w n key ty D (hexchar_any _ Hv) (hexchar_any _ Hw)) as (d & E1 & E2 & E3 & E4 & E5); auto.
    { eapply Forall_impl; [exact hexchar_any|exact Hn]. }
    destruct (crypt_bytes key ty d E2) as [B1 B2].
    assert (L30 : length (hexlify (crypt key ty d)) = 30) by (rewrite hexlify_length; lia).
    eexists. split; [exact E5|]. split.
    - apply is_uuid_fmt. do 3 eexists. split; [reflexivity|]. split; [exact Hv|]. split; [exact Hw|].
      split; [now apply hexlify_hex|]. exact L30.
    - assert (V : forall m, length m = 30 -> version_digit (fmt v w m) = Some v /\ variant_digit (fmt v w m) = Some w).
      { intros m Lm. do 30 (destruct m as [|? m]; [discriminate|]). destruct m; [|discriminate]. split; reflexivity. }
      destruct (V _ Ln) as [-> ->]. exact (V _ L30).
  Qed.
End Cipher.

(** * Lists *)
Lemma dict_or_text_dict n : is_dict (dict_or_text n).
Proof.
  destruct n as [| | | | | | |[|kv d]|]; try (eexists; eexists; reflexivity).
Qed.
Lemma dict_or_text_id n : is_dict n -> dict_or_text n = n.
Proof. intros (kv & d & ->). reflexivity. Qed.
Lemma keep_spec l r : keep_texts l = Ok r ->
  (forall x, In x r -> In x l) /\ Forall (fun x => exists t, lookup ktext (dict_of x) = Some t /\ truth t = true) r.
Proof.
  revert r. induction l as [|n l IH]; cbn [keep_texts]; intros r.
  - intros [= <-]. split; [tauto|constructor].
  - destruct (lookup ktext (dict_of n)) as [t|] eqn:E; [|discriminate].
    destruct (keep_texts l) as [r'|]; cbn [bind]; [|discriminate].
    destruct (IH r' eq_refl) as [I1 I2]. destruct (truth t) eqn:T; intros [= <-].
    + split; [intros x [->|Hx]; [now left|right; auto]|]. constructor; eauto.
    + split; auto. intros x Hx. right; auto.
Qed.
Lemma keep_idem r : Forall (fun x => exists t, lookup ktext (dict_of x) = Some t /\ truth t = true) r -> keep_texts r = Ok r.
Proof.
  induction 1 as [|x r (t & E & T) _ IH]; cbn [keep_texts]; auto. rewrite E, IH. cbn [bind]. now rewrite T.
Qed.
