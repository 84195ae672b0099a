(** Lemmas on texts with variables and identifiers of texts. *)
From Coq Require Import Ascii String List Bool Arith NArith ZArith Lia.
From Verif Require Import PyBase PyBaseFacts PyDigits PyValues Regex MultiLangSpec CommentSpec CommentProofs TextFacts
  ReviewProofs TemplateModel TemplateSpec.
Import ListNotations.

(** ** Replacing names *)
Definition fill1 (n v : pystr) (p : piece) : piece :=
  match p with Plain s => Plain s | Name m => if str_eqb m n then Plain v else Name m end.
Lemma placeholder_nonnil n : placeholder n <> [].
Proof. discriminate. Qed.
Lemma placeholder_hd n c b : c <> 123%N -> prefixb (placeholder n) (c :: b) = false.
Proof.
  intros H. destruct (prefixb (placeholder n) (c :: b)) eqn:E; [|reflexivity]. apply prefixb_spec in E as [t E].
  cbn in E. congruence.
Qed.
Lemma placeholder_second n c b : c <> 123%N -> prefixb (placeholder n) (123%N :: c :: b) = false.
Proof.
  intros H. destruct (prefixb (placeholder n) (123%N :: c :: b)) eqn:E; [|reflexivity]. apply prefixb_spec in E as [t E].
  cbn in E. congruence.
Qed.
Lemma name_end n m u t : no_brace n -> no_brace m -> n ++ 125%N :: u = m ++ 125%N :: t -> n = m.
Proof.
  intros [_ Hn] [_ Hm]. revert m Hm. induction n as [|c n IH]; intros [|d m] Hm E; cbn in E.
  - reflexivity.
  - exfalso. apply Hm. left. congruence.
  - exfalso. apply Hn. left. congruence.
  - injection E as -> E. f_equal. apply IH; auto.
    + intros Hi. apply Hn. now right.
    + intros Hi. apply Hm. now right.
Qed.
Lemma replace_template n v ps : no_brace n -> Forall clean ps ->
  replace (placeholder n) v (template ps) = template (map (fill1 n v) ps).
Proof.
  intros Hn. induction ps as [|p ps IH]; intros H; [reflexivity|]. inversion H as [|? ? Hp Hps]; subst.
  unfold template. cbn [map concat]. fold (template ps). fold (template (map (fill1 n v) ps)).
  destruct p as [s|m]; cbn [written fill1].
  - rewrite replace_front; [now rewrite IH|]. intros a c b E. apply placeholder_hd.
    intros ->. apply (proj1 Hp). rewrite E. apply in_or_app. right. now left.
  - destruct (str_eqb m n) eqn:E.
    + apply str_eqb_eq in E. subst m. fold (placeholder n). rewrite replace_hit by apply placeholder_nonnil. cbn [written]. now rewrite IH.
    + cbn [written]. rewrite replace_front; [now rewrite IH|].
      assert (Hne : m <> n) by (intros ->; now rewrite str_eqb_refl in E). clear E.
      intros a c b E.
      destruct (N.eq_dec c 123) as [->|Hc]; [|now apply placeholder_hd].
      change (lit "{{" ++ m ++ lit "}}") with (123%N :: 123%N :: m ++ [125%N; 125%N]) in E.
      destruct a as [|a0 a]; cbn in E.
      * injection E as E. subst b. destruct (prefixb _ _) eqn:P; [|reflexivity]. exfalso. apply prefixb_spec in P as [t P].
        unfold placeholder in P. cbn in P. injection P as P. rewrite <- !app_assoc in P. cbn in P.
        apply Hne. symmetry. apply (name_end n m (125%N :: t) (125%N :: template ps)); auto.
      * injection E as _ E. destruct a as [|a1 a]; cbn in E.
        { injection E as E. subst b. destruct m as [|c m]; cbn [app].
          - apply placeholder_second. discriminate.
          - apply placeholder_second. intros ->. apply (proj1 Hp). now left. }
        injection E as _ E. exfalso.
        assert (Hi : In 123%N (m ++ [125%N; 125%N])) by (rewrite E; apply in_or_app; right; now left).
        apply in_app_or in Hi as [Hi|[Hi|[Hi|[]]]]; [exact (proj1 Hp Hi)|discriminate|discriminate].
Qed.
Lemma fill1_clean n v ps : no_brace v -> Forall clean ps -> Forall clean (map (fill1 n v) ps).
Proof.
  intros Hv H. rewrite Forall_map. eapply Forall_impl; [|exact H]. intros [s|m] Hp; cbn [fill1]; [exact Hp|].
  destruct (str_eqb m n); [exact Hv|exact Hp].
Qed.
Definition fillall (vars : list tvar) (ps : list piece) : list piece :=
  fold_left (fun ps v => map (fill1 (t_name v) (t_text v)) ps) vars ps.
Lemma substitute_template vars : forall ps, Forall (fun v => no_brace (t_name v) /\ no_brace (t_text v)) vars -> Forall clean ps ->
  substitute vars (template ps) = template (fillall vars ps).
Proof.
  unfold substitute, fillall. induction vars as [|v vars IH]; intros ps Hv Hp; [reflexivity|].
  inversion Hv as [|? ? [N1 N2] Hv']; subst. cbn [fold_left]. rewrite replace_template by assumption.
  apply IH; [exact Hv'|]. now apply fill1_clean.
Qed.
Definition env_of (vars : list tvar) : list (pystr * pystr) := map (fun v => (t_name v, t_text v)) vars.
Lemma fillall_cons vars p ps : exists q, fillall vars (p :: ps) = q :: fillall vars ps /\
  match p with
  | Plain s => q = Plain s
  | Name n => (exists v, first_value (env_of vars) n v /\ q = Plain v) \/ (~ In n (map fst (env_of vars)) /\ q = Name n)
  end.
Proof.
  revert p ps. unfold fillall. induction vars as [|v vars IH]; intros p ps.
  - exists p. cbn. split; [reflexivity|]. destruct p; [reflexivity|]. right. now split.
  - cbn [fold_left map]. destruct (IH (fill1 (t_name v) (t_text v) p) (map (fill1 (t_name v) (t_text v)) ps)) as (q & E & Hq).
    exists q. split; [exact E|]. destruct p as [s|n]; cbn [fill1] in Hq; [exact Hq|].
    destruct (str_eqb n (t_name v)) eqn:En.
    + apply str_eqb_eq in En. subst n. left. exists (t_text v). split; [constructor|exact Hq].
    + assert (Hne : t_name v <> n) by (intros <-; now rewrite str_eqb_refl in En).
      destruct Hq as [(w & Hw & ->)|[Hno ->]].
      * left. exists w. split; [now constructor|reflexivity].
      * right. split; [|reflexivity]. cbn. intros [H|H]; [exact (Hne H)|exact (Hno H)].
Qed.
Lemma fillall_filled vars ps : filled (env_of vars) ps (template (fillall vars ps)).
Proof.
  induction ps as [|p ps IH].
  - replace (fillall vars []) with (@nil piece); [constructor|]. unfold fillall. induction vars; auto.
  - destruct (fillall_cons vars p ps) as (q & E & Hq). rewrite E. unfold template. cbn [map concat]. fold (template (fillall vars ps)).
    destruct p as [s|n].
    + subst q. now constructor.
    + destruct Hq as [(v & Hv & ->)|[Hno ->]]; cbn [written].
      * now constructor.
      * rewrite <- !app_assoc. now constructor.
Qed.
Lemma first_value_det env n v w : first_value env n v -> first_value env n w -> v = w.
Proof.
  intros H. revert w. induction H; intros w' H'; inversion H'; subst; auto; contradiction.
Qed.
Lemma first_value_in env n v : first_value env n v -> In (n, v) env.
Proof. intros H. induction H; [now left|now right]. Qed.
Lemma filled_det env ps t u : filled env ps t -> filled env ps u -> t = u.
Proof.
  intros H. revert u. induction H; intros u H'; inversion H'; subst.
  - reflexivity.
  - f_equal. auto.
  - f_equal; [eapply first_value_det; eauto|auto].
  - exfalso. apply first_value_in in H. apply H3. change n with (fst (n, v)). now apply in_map.
  - exfalso. apply first_value_in in H3. apply H. change n with (fst (n, v)). now apply in_map.
  - rewrite (IHfilled t0) by assumption. reflexivity.
Qed.

(** ** Codes of characters *)
Definition code_ok (c : N) : bool :=
  match str_of_N c with
  | [x; y] => (50 <=? x)%N
  | [x; y; z] => (x =? 49)%N
  | _ => false
  end.
Lemma coded_ok c : coded c -> code_ok c = true.
Proof.
  intros [H1 H2].
  assert (A : forallb code_ok (map N.of_nat (seq 20 180)) = true) by (vm_compute; reflexivity).
  rewrite forallb_forall in A. apply A. apply in_map_iff. exists (N.to_nat c). split; [apply Nnat.N2Nat.id|].
  apply in_seq. lia.
Qed.
Lemma code_prefix c d u v : coded c -> coded d -> str_of_N c ++ u = str_of_N d ++ v -> c = d /\ u = v.
Proof.
  intros Hc Hd E. apply coded_ok in Hc, Hd. unfold code_ok in Hc, Hd.
  assert (K : str_of_N c = str_of_N d /\ u = v); [|destruct K as [K1 K2]; split; [now apply str_of_N_inj|exact K2]].
  destruct (str_of_N c) as [|x1 [|x2 [|x3 [|x4 l]]]]; try discriminate; destruct (str_of_N d) as [|y1 [|y2 [|y3 [|y4 l']]]]; try discriminate;
    cbn [app] in E; try (injection E; intros; subst; now split).
  - exfalso. injection E as -> _. apply N.eqb_eq in Hd. subst. discriminate.
  - exfalso. injection E as -> _. apply N.eqb_eq in Hc. subst. discriminate.
Qed.
Lemma codes_inj s : forall t, Forall coded s -> Forall coded t -> codes s = codes t -> s = t.
Proof.
  unfold codes. induction s as [|c s IH]; intros [|d t] Hs Ht E; cbn [map concat] in E.
  - reflexivity.
  - symmetry in E. apply app_eq_nil in E as [E _]. now apply str_of_N_nonnil in E.
  - apply app_eq_nil in E as [E _]. now apply str_of_N_nonnil in E.
  - inversion Hs; inversion Ht; subst. apply code_prefix in E as [-> E]; auto. f_equal. auto.
Qed.
Lemma codes_digits s : Forall isdig (codes s).
Proof. unfold codes. induction s; cbn; [constructor|]. apply Forall_app. split; [apply str_of_N_digits|exact IHs]. Qed.
(** a numeral that does not begin with 0 is determined by its value *)
Lemma dval_last a c : dval (a ++ [c]) = (10 * dval a + (c - 48))%N.
Proof. now rewrite dval_app. Qed.
Lemma dval_pos a : Forall isdig a -> a <> [] -> hd 0%N a <> 48%N -> (0 < dval a)%N.
Proof.
  induction a as [|c a IH] using rev_ind; intros Hd Hn Hh; [contradiction|].
  apply Forall_app in Hd as [H1 H2]. inversion H2 as [|? ? Hc _]; subst. rewrite dval_last.
  destruct a as [|x a].
  - cbn in Hh. unfold isdig in Hc. change (dval []) with 0%N. lia.
  - assert (0 < dval (x :: a))%N by (apply IH; [exact H1|discriminate|exact Hh]). lia.
Qed.
Lemma dval_inj a : forall b, Forall isdig a -> Forall isdig b -> (a <> [] -> hd 0%N a <> 48%N) -> (b <> [] -> hd 0%N b <> 48%N) ->
  dval a = dval b -> a = b.
Proof.
  induction a as [|c a IH] using rev_ind; intros b Ha Hb Na Nb E.
  - destruct b as [|y b]; [reflexivity|]. exfalso. pose proof (dval_pos (y :: b) Hb ltac:(discriminate) (Nb ltac:(discriminate))).
    change (dval []) with 0%N in E. lia.
  - destruct b as [|d b _] using rev_ind.
    + exfalso. assert (a ++ [c] <> []) by (destruct a; discriminate).
      pose proof (dval_pos _ Ha H (Na H)). change (dval []) with 0%N in E. lia.
    + apply Forall_app in Ha as [A1 A2], Hb as [B1 B2]. inversion A2 as [|? ? Hc _]; inversion B2 as [|? ? Hd _]; subst.
      rewrite !dval_last in E. unfold isdig in Hc, Hd.
      assert (c = d /\ dval a = dval b) as [-> Eab] by lia. f_equal. apply IH; auto.
      * intros H. destruct a as [|x a]; [contradiction|]. apply Na. discriminate.
      * intros H. destruct b as [|x b]; [contradiction|]. apply Nb. discriminate.
Qed.
Lemma codes_head s : Forall coded s -> codes s <> [] -> hd 0%N (codes s) <> 48%N.
Proof.
  intros H Hn. destruct s as [|c s]; [contradiction|]. inversion H as [|? ? Hc _]; subst.
  apply coded_ok in Hc. unfold code_ok in Hc. unfold codes. cbn [map concat].
  destruct (str_of_N c) as [|x1 [|x2 [|x3 [|x4 l]]]]; try discriminate; cbn.
  - apply N.leb_le in Hc. intros ->. lia.
  - apply N.eqb_eq in Hc. subst. discriminate.
Qed.
Lemma int_codes s : s <> [] -> int_of_str (codes s) = Some (Z.of_N (dval (codes s))).
Proof.
  intros H. apply int_digits; [|exact (codes_digits s)].
  destruct s as [|c s]; [contradiction|]. unfold codes. cbn. intros E. apply app_eq_nil in E as [E _]. now apply str_of_N_nonnil in E.
Qed.

(** ** The first identifier in a text *)
Lemma id_text_shape w : id_text w -> id_shape w = true /\ length w = 36.
Proof.
  intros (a & b & c & d & e & -> & La & Lb & Lc & Ld & Le & F).
  apply Forall_app in F as [Fa F]. apply Forall_app in F as [Fb F]. apply Forall_app in F as [Fc F]. apply Forall_app in F as [Fd Fe].
  assert (K : forall x, word_char x -> id_char x = true).
  { intros x Hx. unfold word_char in Hx. unfold id_char, is_digit, between. rewrite orb_true_iff, !andb_true_iff, !N.leb_le. lia. }
  assert (Ka : Forall (fun x => id_char x = true) a) by (eapply Forall_impl; [exact K|exact Fa]).
  assert (Kb : Forall (fun x => id_char x = true) b) by (eapply Forall_impl; [exact K|exact Fb]).
  assert (Kc : Forall (fun x => id_char x = true) c) by (eapply Forall_impl; [exact K|exact Fc]).
  assert (Kd : Forall (fun x => id_char x = true) d) by (eapply Forall_impl; [exact K|exact Fd]).
  assert (Ke : Forall (fun x => id_char x = true) e) by (eapply Forall_impl; [exact K|exact Fe]).
  clear - La Lb Lc Ld Le Ka Kb Kc Kd Ke.
  repeat (destruct a as [|? a]; try discriminate). repeat (destruct b as [|? b]; try discriminate).
  repeat (destruct c as [|? c]; try discriminate). repeat (destruct d as [|? d]; try discriminate).
  repeat (destruct e as [|? e]; try discriminate).
  repeat match goal with H : Forall _ (_ :: _) |- _ => inversion_clear H end.
  split; [|reflexivity].
  unfold id_shape. cbn [app lit length combine seq forallb fst snd dash_at existsb Nat.eqb].
  repeat match goal with H : id_char ?x = true |- _ => rewrite H; clear H end. reflexivity.
Qed.
Lemma first_id_here w t : id_text w -> first_id (w ++ t) = Some w.
Proof.
  intros H. apply id_text_shape in H as [H L].
  assert (E : firstn 36 (w ++ t) = w) by (rewrite firstn_app, L, Nat.sub_diag, app_nil_r; rewrite <- L; apply firstn_all).
  destruct (w ++ t) as [|c s] eqn:Es; cbn [first_id]; rewrite E, H; reflexivity.
Qed.
(** a text that begins with an identifier-like piece has its first hyphen at place 8 *)
Lemma id_shape_dash s : id_shape (firstn 36 s) = true -> nth 8 s 0%N = 45%N /\ forall i, i < 8 -> nth i s 0%N <> 45%N.
Proof.
  intros H. unfold id_shape in H. apply andb_true_iff in H as [L H]. apply Nat.eqb_eq in L.
  assert (N36 : forall i, i < 36 -> nth i (firstn 36 s) 0%N = nth i s 0%N).
  { intros i Hi. rewrite <- (firstn_skipn 36 s) at 2. rewrite app_nth1; [reflexivity|lia]. }
  rewrite forallb_forall in H.
  assert (G : forall i, i < 36 -> (if dash_at i then N.eqb (nth i s 0%N) 45 else id_char (nth i s 0%N)) = true).
  { intros i Hi. specialize (H (i, nth i (firstn 36 s) 0%N)). cbn [fst snd] in H. rewrite N36 in H by exact Hi. apply H.
    assert (E : nth i (combine (seq 0 36) (firstn 36 s)) (0, 0%N) = (i, nth i s 0%N)).
    { rewrite combine_nth by (rewrite seq_length; lia). rewrite seq_nth, N36 by exact Hi. reflexivity. }
    rewrite <- E. apply nth_In. rewrite combine_length, seq_length, L. exact Hi. }
  split.
  - specialize (G 8 ltac:(lia)). cbn in G. now apply N.eqb_eq in G.
  - intros i Hi E. specialize (G i ltac:(lia)).
    assert (D : dash_at i = false) by (do 8 (destruct i as [|i]; [reflexivity|]); lia).
    rewrite D, E in G. discriminate.
Qed.
Lemma first_id_pre pre w t : ~ In 45%N pre -> id_text w -> first_id (pre ++ w ++ t) = Some w.
Proof.
  intros Hp Hw. induction pre as [|c pre IH]; [exact (first_id_here w t Hw)|].
  cbn [app first_id]. destruct (id_shape (firstn 36 (c :: pre ++ w ++ t))) eqn:E.
  - exfalso. apply id_shape_dash in E as [E _].
    assert (D : forall i, i < 8 -> nth i (w ++ t) 0%N <> 45%N).
    { apply id_shape_dash. rewrite firstn_app. apply id_text_shape in Hw as [Hw L]. rewrite L, Nat.sub_diag, app_nil_r.
      rewrite <- L, firstn_all. exact Hw. }
    change (c :: pre ++ w ++ t) with ((c :: pre) ++ w ++ t) in E.
    destruct (Nat.lt_ge_cases 8 (length (c :: pre))) as [Hl|Hl].
    + rewrite app_nth1 in E by exact Hl. apply Hp. rewrite <- E. now apply nth_In.
    + rewrite app_nth2 in E by exact Hl. apply (D (8 - length (c :: pre))); [cbn [length]; lia|exact E].
  - apply IH. intros Hi. apply Hp. now right.
Qed.
