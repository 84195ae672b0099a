From Coq Require Import Ascii String List Bool Arith NArith ZArith Lia.
From Verif Require Import PyBase PyBaseFacts DotDictModel DotDictProofs CommentProofs TextFacts ImportModel ImportSpec.
Import ListNotations.

Lemma getf_putf_other {A} k k' (a : A) l : k' <> k -> getf k' (putf k a l) = getf k' l.
Proof.
  intros H. induction l as [|[j b] l IH]; cbn [putf getf].
  - destruct (str_eqb k k') eqn:E; [apply str_eqb_eq in E; congruence|reflexivity].
  - destruct (str_eqb j k) eqn:E; cbn [getf].
    + apply str_eqb_eq in E. subst j. destruct (str_eqb k k') eqn:F; [apply str_eqb_eq in F; congruence|reflexivity].
    + now rewrite IH.
Qed.
Lemma letter_iff s : letter_first s = true <-> starts_with_letter s.
Proof.
  unfold letter_first, starts_with_letter, ascii_letter. destruct s as [|c s].
  - split; [discriminate|intros (? & ? & ? & _); discriminate].
  - rewrite orb_true_iff, !andb_true_iff, !N.leb_le. split.
    + intros H. exists c, s. split; [reflexivity|]. lia.
    + intros (d & r & E & H). injection E as <- _. lia.
Qed.
Lemma ecs2_name_new n : new_name n (ecs2_name n).
Proof.
  unfold new_name, ecs2_name. rewrite <- letter_iff. destruct (letter_first n); split; congruence.
Qed.
Lemma ecs2_name_letter n : starts_with_letter (ecs2_name n).
Proof.
  unfold ecs2_name. destruct (letter_first n) eqn:E; [now apply letter_iff|]. exists 117%N. eexists. split; [reflexivity|]. lia.
Qed.
Lemma original_neq n : n ++ lit "_original" <> n.
Proof. intros E. apply (f_equal (@length N)) in E. rewrite app_length in E. cbn [length lit] in E. lia. Qed.

Section Import.
  Context (V : Type).
  Notation ilcd_var := (ilcd_var V). Notation ivar := (ivar V). Notation vstate := (vstate V).

  Definition named (v : ivar) : Prop := iv_name v = ecs2_name (x_name (iv_src v)).
  Lemma change_keeps (st : vstate) f v : iv_src (change_formula st f v) = iv_src v /\ iv_name (change_formula st f v) = iv_name v.
  Proof. unfold change_formula. destruct (iv_formula v) as [[|]|]; auto. Qed.
  Lemma change_named (st : vstate) f v : named v -> named (change_formula st f v).
  Proof. unfold named. destruct (change_keeps st f v) as [-> ->]. auto. Qed.

  (** every stored variable carries the EcoSpold2 name of its source *)
  Definition all_named (st : vstate) : Prop := forall k u v, In (k, (u, v)) (avail st) -> named v.
  Lemma all_named_put (st : vstate) k u v nc : all_named st -> named v -> all_named (VState (putf k (u, v) (avail st)) nc).
  Proof. intros A N k' u' v' I. apply In_putf in I. destruct I as [[-> [= -> ->]] | I]; eauto. Qed.
  Lemma register_named st x : all_named st -> all_named (register st x).
  Proof. intros A. apply all_named_put; [exact A|reflexivity]. Qed.
  Lemma get_variable_named st n f st' v : all_named st -> get_variable st n f = Ok (st', v) -> all_named st' /\ named v.
  Proof.
    intros A. unfold get_variable. destruct (getf n (avail st)) as [[u self]|] eqn:G; [|discriminate].
    apply getf_In in G. assert (S := A _ _ _ G).
    assert (S' := change_named st one_text _ S).
    assert (A1 : all_named (VState (putf n (true, change_formula st one_text self) (avail st)) (nonconf st)))
      by (apply all_named_put; assumption).
    destruct (str_eqb f one_text); [intros [= <- <-]; now split|].
    set (st1 := VState _ (nonconf st)) in *. set (st2 := register st1 (iv_src self)).
    assert (A2 : all_named st2) by now apply register_named.
    set (ns := change_formula st2 f _). assert (N : named ns) by (apply change_named; reflexivity).
    set (a2 := putf (x_name (iv_src self)) (false, ns) (avail st2)).
    assert (A3 : all_named (VState a2 (nonconf st2))) by (apply all_named_put; assumption).
    destruct (getf n a2) as [[w r]|] eqn:G2; [|discriminate]. apply getf_In in G2. assert (R := A3 _ _ _ G2).
    intros [= <- <-]. split; [|exact R].
    intros k u' v' I. apply In_putf in I. destruct I as [[-> [= -> ->]] | I]; [exact N|].
    apply In_putf in I. destruct I as [[-> [= -> ->]] | I]; [exact R|]. exact (A3 _ _ _ I).
  Qed.
  Lemma exchanges_named l : forall st st' ws, all_named st -> import_exchanges st l = Ok (st', ws) ->
    all_named st' /\ forall n f, In (Some (n, f)) ws -> starts_with_letter n.
  Proof.
    induction l as [|e l IH]; intros st st' ws A; cbn [import_exchanges].
    - intros [= <- <-]. split; [exact A|intros n f []].
    - unfold import_exchange. destruct (e_var e) as [[n f]|]; cbn [bind].
      + destruct (get_variable st n f) as [[st1 v]|] eqn:G; [|discriminate]. cbn [bind].
        destruct (get_variable_named _ _ _ _ _ A G) as [A1 N1].
        destruct (e_fate e).
        * cbn [bind]. destruct (import_exchanges st1 l) as [[st2 ws']|] eqn:R; [|discriminate]. cbn [bind].
          intros [= <- <-]. destruct (IH _ _ _ A1 R) as [A2 W]. split; [exact A2|].
          intros m g [[= <- _] | I]; [rewrite N1; apply ecs2_name_letter|eauto].
        * unfold reset_variable. destruct (getf _ (avail st1)) as [[u w]|] eqn:G2; [|discriminate]. cbn [bind].
          assert (A2 : all_named (VState (putf (x_name (iv_src v)) (false, w) (avail st1)) (nonconf st1))).
          { apply all_named_put; [exact A1|]. apply getf_In in G2. exact (A1 _ _ _ G2). }
          destruct (import_exchanges _ l) as [[st2 ws']|] eqn:R; [|discriminate]. cbn [bind].
          intros [= <- <-]. destruct (IH _ _ _ A2 R) as [A3 W]. split; [exact A3|].
          intros m g [[=] | I]; eauto.
        * cbn [bind]. destruct (import_exchanges st1 l) as [[st2 ws']|] eqn:R; [|discriminate]. cbn [bind].
          intros [= <- <-]. destruct (IH _ _ _ A1 R) as [A2 W]. split; [exact A2|].
          intros m g [[=] | I]; eauto.
      + destruct (import_exchanges st l) as [[st2 ws']|] eqn:R; [|discriminate]. cbn [bind].
        intros [= <- <-]. destruct (IH _ _ _ A R) as [A2 W]. split; [exact A2|]. intros m g [[=] | I]; eauto.
  Qed.
  Lemma registered_named (vars : list ilcd_var) : all_named (fold_left register vars no_vars).
  Proof.
    assert (G : forall st, all_named st -> all_named (fold_left register vars st)).
    { induction vars as [|x vars IH]; intros st A; [exact A|]. apply IH, register_named, A. }
    apply G. intros k u v [].
  Qed.

  (** ** no variable is lost *)
  Lemma registered_get (vars : list ilcd_var) : NoDup (map x_name vars) -> forall x, In x vars ->
    getf (x_name x) (avail (fold_left register vars no_vars)) = Some (false, make_var x).
  Proof.
    assert (G : forall (vars : list ilcd_var) st, NoDup (map x_name vars) ->
              (forall x, In x vars -> getf (x_name x) (avail (fold_left register vars st)) = Some (false, make_var x)) /\
              (forall k, ~ In k (map x_name vars) -> getf k (avail (fold_left register vars st)) = getf k (avail st))).
    { clear vars. induction vars as [|x vars IH]; intros st N; cbn [fold_left map]; [split; [intros x []|auto]|].
      inversion N as [|? ? Hx Nv]; subst. destruct (IH (register st x) Nv) as [I1 I2]. split.
      - intros y [<- | I]; [|auto]. rewrite I2 by exact Hx. cbn [register avail]. apply getf_putf.
      - intros k Hk. cbn [In] in Hk. rewrite I2 by tauto. cbn [register avail]. apply getf_putf_other.
        intros ->. apply Hk. now left. }
    intros N. apply G, N.
  Qed.

  Definition accounted (vars : list ilcd_var) (st : vstate) (ws : list written) : Prop :=
    forall x, In x vars -> exists u v, getf (x_name x) (avail st) = Some (u, v) /\ iv_src v = x /\ named v /\
      (u = true -> exists f, In (Some (ecs2_name (x_name x), f)) ws).
  Lemma accounted_more vars st ws ws' : accounted vars st ws -> incl ws ws' -> accounted vars st ws'.
  Proof.
    intros A I x X. destruct (A x X) as (u & v & G & S & N & U). exists u, v. split; [exact G|]. split; [exact S|]. split; [exact N|].
    intros T. destruct (U T) as [f F]. exists f. auto.
  Qed.
  Lemma same_name (vars : list ilcd_var) x y : NoDup (map x_name vars) -> In x vars -> In y vars -> x_name x = x_name y -> x = y.
  Proof.
    induction vars as [|z vars IH]; [intros _ []|]. cbn [map In]. intros N. inversion N as [|? ? H N']; subst.
    intros [-> | X] [-> | Y] E; auto; exfalso; apply H; [rewrite E|rewrite <- E]; now apply in_map.
  Qed.

  Lemma exchange_accounted vars st ws e :
    NoDup (map x_name vars) -> no_original (map x_name vars) -> accounted vars st ws ->
    (forall n f, e_var e = Some (n, f) -> In n (map x_name vars) /\ e_fate e <> FileMissing) ->
    exists st' w, import_exchange st e = Ok (st', w) /\ accounted vars st' (ws ++ [w]).
  Proof.
    intros ND NO A H. unfold import_exchange. destruct (e_var e) as [[n f]|] eqn:E.
    2: { exists st, None. split; [reflexivity|]. eapply accounted_more; [exact A|]. intros y Y. apply in_or_app. now left. }
    destruct (H _ _ eq_refl) as [Hn Hf]. apply in_map_iff in Hn. destruct Hn as (x & <- & X).
    destruct (A x X) as (u & self & G & S & N & U). unfold get_variable. rewrite G.
    assert (C := change_keeps st one_text self). destruct C as [C1 C2].
    set (self' := change_formula st one_text self) in *.
    assert (N' : named self') by (unfold named; now rewrite C1, C2).
    (* the state after the lookup *)
    assert (B : exists st1 v,
      (if str_eqb f one_text then Ok (VState (putf (x_name x) (true, self') (avail st)) (nonconf st), self')
       else
         let st2 := register (VState (putf (x_name x) (true, self') (avail st)) (nonconf st)) (iv_src self) in
         let ns := change_formula st2 f (IVar (iv_src self) (ecs2_name (x_name (iv_src self))) (Some (x_name x))) in
         let a2 := putf (x_name (iv_src self)) (false, ns) (avail st2) in
         match getf (x_name x) a2 with
         | None => Err KeyError
         | Some (_, r) => Ok (VState (putf (x_name x ++ lit "_original") (true, ns) (putf (x_name x) (false, r) a2)) (nonconf st2), r)
         end) = Ok (st1, v) /\ iv_src v = x /\ named v /\
      (exists u1, getf (x_name x) (avail st1) = Some (u1, v)) /\
      (forall y, In y vars -> y <> x -> getf (x_name y) (avail st1) = getf (x_name y) (avail st))).
    { destruct (str_eqb f one_text) eqn:F.
      - eexists; eexists. split; [reflexivity|]. split; [congruence|]. split; [exact N'|]. split.
        + exists true. cbn [avail]. apply getf_putf.
        + intros y Y D. cbn [avail]. apply getf_putf_other. intros Q. apply D. eapply same_name; eauto.
      - cbv zeta. rewrite S. set (st2 := register _ x). set (ns := change_formula st2 f _).
        rewrite getf_putf. eexists; eexists. split; [reflexivity|].
        assert (K := change_keeps st2 f (IVar x (ecs2_name (x_name x)) (Some (x_name x)))). fold ns in K. destruct K as [K1 K2].
        cbn [iv_src iv_name] in K1, K2.
        split; [exact K1|]. split; [unfold named; congruence|]. split.
        + exists false. cbn [avail]. rewrite getf_putf_other by (intros Q; symmetry in Q; exact (original_neq _ Q)). apply getf_putf.
        + intros y Y D. cbn [avail]. assert (D' : x_name y <> x_name x) by (intros Q; apply D; eapply same_name; eauto).
          rewrite getf_putf_other by (intros Q; apply (NO (x_name x) (in_map _ _ _ X)); rewrite <- Q; now apply in_map).
          rewrite !getf_putf_other by exact D'. unfold st2. cbn [register avail]. now rewrite !getf_putf_other by exact D'. }
    destruct B as (st1 & v & B1 & B2 & B3 & (u1 & B4) & B5). cbv zeta in B1 |- *. rewrite B1. cbn [bind].
    destruct (e_fate e) eqn:F; [| |exfalso; now apply Hf].
    - eexists; eexists. split; [reflexivity|]. intros y Y.
      destruct (A y Y) as (uy & vy & Gy & Sy & Ny & Uy).
      destruct (str_dec (x_name y) (x_name x)) as [Q | Q].
      + rewrite Q. exists u1, v. split; [exact B4|]. split; [rewrite B2; symmetry; eapply same_name; eauto|]. split; [exact B3|].
        intros _. eexists. apply in_or_app. right. left. now rewrite B3, B2.
      + exists uy, vy. split; [rewrite B5; auto; congruence|]. split; [exact Sy|]. split; [exact Ny|].
        intros T. destruct (Uy T) as [g I]. exists g. apply in_or_app. now left.
    - unfold reset_variable. rewrite B2, B4. cbn [bind]. eexists; eexists. split; [reflexivity|]. intros y Y.
      destruct (A y Y) as (uy & vy & Gy & Sy & Ny & Uy).
      destruct (str_dec (x_name y) (x_name x)) as [Q | Q].
      + rewrite Q. exists false, v. split; [cbn [avail]; apply getf_putf|].
        split; [rewrite B2; symmetry; eapply same_name; eauto|]. split; [exact B3|]. discriminate.
      + exists uy, vy. split; [cbn [avail]; rewrite getf_putf_other by exact Q; rewrite B5; auto; congruence|].
        split; [exact Sy|]. split; [exact Ny|]. intros T. destruct (Uy T) as [g I]. exists g. apply in_or_app. now left.
  Qed.
  Lemma exchanges_accounted vars l : NoDup (map x_name vars) -> no_original (map x_name vars) ->
    (forall e n f, In e l -> e_var e = Some (n, f) -> In n (map x_name vars) /\ e_fate e <> FileMissing) ->
    forall st ws0, accounted vars st ws0 ->
    exists st' ws, import_exchanges st l = Ok (st', ws) /\ accounted vars st' (ws0 ++ ws).
  Proof.
    intros ND NO. induction l as [|e l IH]; intros H st ws0 A; cbn [import_exchanges].
    - exists st, []. split; [reflexivity|]. now rewrite app_nil_r.
    - destruct (exchange_accounted vars st ws0 e ND NO A) as (st1 & w & E1 & A1).
      { intros n f. apply H. now left. }
      rewrite E1. cbn [bind]. destruct (IH (fun e' n f I => H e' n f (or_intror I)) st1 (ws0 ++ [w]) A1) as (st2 & ws & E2 & A2).
      rewrite E2. cbn [bind]. exists st2, (w :: ws). split; [reflexivity|]. now rewrite <- app_assoc in A2.
  Qed.

  Lemma params_In (st : vstate) k v : getf k (avail st) = Some (false, v) ->
    In (Param k (iv_name v) (x_value (iv_src v)) (match iv_formula (change_formula st one_text v) with Some [] => None | g => g end)) (create_parameters st).
  Proof.
    intros G. apply getf_In in G. unfold create_parameters. apply in_map_iff. exists (k, (false, v)). split; [reflexivity|].
    apply filter_In. split; [exact G|reflexivity].
  Qed.
End Import.

(** ** factor 1.0 only *)
Section Plain.
  Context (V : Type).
  Notation ilcd_var := (ilcd_var V). Notation ivar := (ivar V). Notation vstate := (vstate V).

  Definition refs (l : list iexchange) : list pystr :=
    flat_map (fun e => match e_var e with Some (n, _) => [n] | None => [] end) l.
  Definition kept_refs (l : list iexchange) : list pystr :=
    flat_map (fun e => match e_var e, e_fate e with Some (n, _), (Converted | FileMissing) => [n] | _, _ => [] end) l.
  Definition written_refs (l : list iexchange) : list pystr :=
    flat_map (fun e => match e_var e, e_fate e with Some (n, _), Converted => [n] | _, _ => [] end) l.
  Definition plain (l : list iexchange) : Prop := forall e n f, In e l -> e_var e = Some (n, f) -> f = one_text.
  Definition written_names (ws : list written) : list pystr :=
    flat_map (fun w => match w with Some (n, _) => [n] | None => [] end) ws.

  Lemma kept_in_refs l n : In n (kept_refs l) -> In n (refs l).
  Proof.
    unfold kept_refs, refs. rewrite !in_flat_map. intros (e & I & H). exists e. split; [exact I|].
    destruct (e_var e) as [[m f]|]; [|exact H]. destruct (e_fate e); [exact H|destruct H|exact H].
  Qed.
  Lemma written_in_kept l n : In n (written_refs l) -> In n (kept_refs l).
  Proof.
    unfold kept_refs, written_refs. rewrite !in_flat_map. intros (e & I & H). exists e. split; [exact I|].
    destruct (e_var e) as [[m f]|]; [|exact H]. destruct (e_fate e); [exact H|destruct H|destruct H].
  Qed.

  (** the table keeps its keys; every key has its own variable *)
  Definition keyed (st : vstate) : Prop := forall k u v, In (k, (u, v)) (avail st) -> x_name (iv_src v) = k /\ named V v.

  Lemma plain_run l : forall st, plain l -> NoDup (refs l) -> NoDup (map fst (avail st)) -> keyed st ->
    (forall n, In n (refs l) -> exists v, getf n (avail st) = Some (false, v)) ->
    exists st' ws, import_exchanges st l = Ok (st', ws) /\ map fst (avail st') = map fst (avail st) /\ nonconf st' = nonconf st /\
      keyed st' /\ written_names ws = map ecs2_name (written_refs l) /\
      (forall k u v, In (k, (u, v)) (avail st') -> exists u0 v0, In (k, (u0, v0)) (avail st) /\
         (u = true <-> In k (kept_refs l) \/ u0 = true) /\
         (v = v0 \/ In k (refs l) /\ v = change_formula st one_text v0)) /\
      (forall n g, In (Some (n, g)) ws -> exists k v0, In k (written_refs l) /\ getf k (avail st) = Some (false, v0) /\ n = ecs2_name k /\
         g = match iv_formula (change_formula st one_text v0) with Some [] => None | h => h end).
  Proof.
    induction l as [|e l IH]; intros st P ND NK K H; cbn [import_exchanges].
    - exists st, []. split; [reflexivity|]. split; [reflexivity|]. split; [reflexivity|]. split; [exact K|]. split; [reflexivity|].
      split; [|intros n g []]. intros k u v I. exists u, v. split; [exact I|]. split; [cbn; tauto|]. now left.
    - assert (P' : plain l) by (intros e' n f I; apply P; now right).
      unfold import_exchange. destruct (e_var e) as [[n f]|] eqn:E.
      + assert (f = one_text) by (eapply P; [now left|exact E]). subst f.
        assert (R : refs (e :: l) = n :: refs l) by (unfold refs; cbn [flat_map]; rewrite E; reflexivity).
        rewrite R in ND, H. inversion ND as [|? ? Hn ND']; subst.
        destruct (H n (or_introl eq_refl)) as [v G]. unfold get_variable. rewrite G. rewrite str_eqb_refl. cbv zeta. cbn [bind].
        assert (Gi := getf_In _ _ _ G). destruct (K _ _ _ Gi) as [K1 K2].
        destruct (change_keeps V st one_text v) as [C1 C2]. set (v' := change_formula st one_text v) in *.
        assert (KP : forall u, keyed (VState (putf n (u, v') (avail st)) (nonconf st))).
        { intros u k u' w I. apply In_putf in I. destruct I as [[-> [= -> ->]] | I]; [|eauto].
          split; [congruence|]. unfold named. now rewrite C1, C2. }
        assert (NI : In n (map fst (avail st))) by (apply in_map_iff; eexists; split; [|exact Gi]; reflexivity).
        (* the rest of the run from either table *)
        assert (REST : forall u, exists st' ws, import_exchanges (VState (putf n (u, v') (avail st)) (nonconf st)) l = Ok (st', ws) /\
          map fst (avail st') = map fst (avail st) /\ nonconf st' = nonconf st /\ keyed st' /\ written_names ws = map ecs2_name (written_refs l) /\
          (forall k u1 w, In (k, (u1, w)) (avail st') -> exists u0 v0, In (k, (u0, v0)) (avail st) /\
             (u1 = true <-> (k = n /\ u = true) \/ (In k (kept_refs l) \/ u0 = true)) /\
             (w = v0 \/ In k (n :: refs l) /\ w = change_formula st one_text v0)) /\
          (forall m g, In (Some (m, g)) ws -> exists k v0, In k (written_refs l) /\ getf k (avail st) = Some (false, v0) /\ m = ecs2_name k /\
             g = match iv_formula (change_formula st one_text v0) with Some [] => None | h => h end)).
        { intros u. destruct (IH (VState (putf n (u, v') (avail st)) (nonconf st))) as (st' & ws & I1 & I2 & I3 & I4 & I5 & I6 & I7).
          - exact P'.
          - exact ND'.
          - cbn [avail]. now apply putf_NoDup.
          - apply KP.
          - intros m Hm. destruct (H m (or_intror Hm)) as [w Gw]. exists w. cbn [avail].
            rewrite getf_putf_other by (intros ->; exact (Hn Hm)). exact Gw.
          - exists st', ws. split; [exact I1|]. cbn [avail nonconf] in *. split; [rewrite I2; now apply putf_present|].
            split; [exact I3|]. split; [exact I4|]. split; [exact I5|]. split.
            + intros k u1 w I. destruct (I6 k u1 w I) as (u0 & v0 & J & J1 & J2).
              destruct (str_dec k n) as [-> | D].
              * assert (Q : getf n (putf n (u, v') (avail st)) = Some (u0, v0)) by (apply In_getf; [now apply putf_NoDup|exact J]).
                rewrite getf_putf in Q. injection Q as <- <-. exists false, v. split; [exact Gi|].
                split; [rewrite J1; intuition congruence|].
                destruct J2 as [-> | [J2 _]]; [|now apply Hn in J2]. right. split; [now left|reflexivity].
              * apply In_putf_other in J; [|exact D].
                exists u0, v0. split; [exact J|]. split; [rewrite J1; intuition congruence|].
                destruct J2 as [-> | [J2 ->]]; [now left|]. right. split; [now right|reflexivity].
            + intros m g I. destruct (I7 m g I) as (k & v0 & J1 & J2 & J3 & J4). exists k, v0. split; [exact J1|]. split; [|now split].
              rewrite getf_putf_other in J2; [exact J2|]. intros ->. apply Hn. apply kept_in_refs. now apply written_in_kept. }
        assert (KR : kept_refs (e :: l) = match e_fate e with Unmapped => [] | _ => [n] end ++ kept_refs l)
          by (unfold kept_refs; cbn [flat_map]; rewrite E; destruct (e_fate e); reflexivity).
        assert (WR : written_refs (e :: l) = match e_fate e with Converted => [n] | _ => [] end ++ written_refs l)
          by (unfold written_refs; cbn [flat_map]; rewrite E; destruct (e_fate e); reflexivity).
        rewrite R, KR, WR. destruct (e_fate e).
        * destruct (REST true) as (st' & ws & I1 & I2 & I3 & I4 & I5 & I6 & I7). cbn [bind]. rewrite I1. cbn [bind].
          eexists; eexists. split; [reflexivity|]. split; [exact I2|]. split; [exact I3|]. split; [exact I4|]. split.
          { cbn [app map]. unfold written_names in *. cbn [flat_map app]. rewrite I5. f_equal. congruence. }
          split.
          { intros k u1 w I. destruct (I6 k u1 w I) as (u0 & v0 & J & J1 & J2). exists u0, v0. split; [exact J|].
            split; [|exact J2]. rewrite J1. cbn [app In]. intuition congruence. }
          { intros m g [[= <- <-] | I].
            - exists n, v. split; [now left|]. split; [exact G|]. split; [congruence|reflexivity].
            - destruct (I7 m g I) as (k & v0 & J1 & J2). exists k, v0. split; [now right|exact J2]. }
        * unfold reset_variable. cbn [avail]. rewrite C1, K1, getf_putf. cbn [bind nonconf].
          rewrite putf_putf.
          destruct (REST false) as (st' & ws & I1 & I2 & I3 & I4 & I5 & I6 & I7). rewrite I1. cbn [bind].
          eexists; eexists. split; [reflexivity|]. split; [exact I2|]. split; [exact I3|]. split; [exact I4|]. split; [exact I5|].
          split.
          { intros k u1 w I. destruct (I6 k u1 w I) as (u0 & v0 & J & J1 & J2). exists u0, v0. split; [exact J|].
            split; [|exact J2]. rewrite J1. cbn [app In]. intuition congruence. }
          { intros m g [[=] | I]. exact (I7 m g I). }
        * destruct (REST true) as (st' & ws & I1 & I2 & I3 & I4 & I5 & I6 & I7). cbn [bind]. rewrite I1. cbn [bind].
          eexists; eexists. split; [reflexivity|]. split; [exact I2|]. split; [exact I3|]. split; [exact I4|]. split; [exact I5|].
          split.
          { intros k u1 w I. destruct (I6 k u1 w I) as (u0 & v0 & J & J1 & J2). exists u0, v0. split; [exact J|].
            split; [|exact J2]. rewrite J1. cbn [app In]. intuition congruence. }
          { intros m g [[=] | I]. exact (I7 m g I). }
      + assert (R : refs (e :: l) = refs l) by (unfold refs; cbn [flat_map]; rewrite E; reflexivity).
        assert (KR : kept_refs (e :: l) = kept_refs l) by (unfold kept_refs; cbn [flat_map]; rewrite E; reflexivity).
        assert (WR : written_refs (e :: l) = written_refs l) by (unfold written_refs; cbn [flat_map]; rewrite E; reflexivity).
        rewrite R in *. rewrite KR, WR. destruct (IH st P' ND NK K H) as (st' & ws & I1 & I2 & I3 & I4 & I5 & I6 & I7).
        cbn [bind]. rewrite I1. cbn [bind]. eexists; eexists. split; [reflexivity|]. split; [exact I2|]. split; [exact I3|].
        split; [exact I4|]. split; [exact I5|]. split; [exact I6|]. intros m g [[=] | I]. exact (I7 m g I).
  Qed.
End Plain.

Lemma fix_names_renamed l f : Forall (fun kv => snd kv = lit "uc" ++ fst kv /\ fst kv <> []) l -> fix_names l f = renamed (map fst l) f.
Proof.
  intros F. revert f. induction F as [|[k v] l [E N] F IH]; intros f; [reflexivity|].
  unfold fix_names, renamed. cbn [fold_left map fst snd] in *. subst v.
  destruct (infixb k f) eqn:I.
  - apply IH.
  - rewrite (replace_absent k _ f); [apply IH|exact N|]. now apply not_infixb.
Qed.
Lemma in_snoc {A} (l : list A) a b : In b (l ++ [a]) <-> In b l \/ b = a.
Proof. rewrite in_app_iff. cbn [In]. intuition. Qed.

Section Table.
  Context (V : Type).
  Notation ilcd_var := (ilcd_var V).
  (** the names that need replacing, in the order of the variables *)
  Definition odd_names (vars : list ilcd_var) : list pystr := filter (fun n => negb (letter_first n)) (map x_name vars).

  Lemma table_of vars : NoDup (map x_name vars) ->
    avail (fold_left register vars no_vars) = map (fun x => (x_name x, (false, make_var x))) vars /\
    nonconf (fold_left (@register V) vars no_vars) = map (fun n => (n, lit "uc" ++ n)) (odd_names vars).
  Proof.
    induction vars as [|x vars IH] using rev_ind; intros N; [split; reflexivity|].
    rewrite map_app in N. cbn [map] in N.
    assert (N' := NoDup_remove_1 _ _ _ N). assert (X := NoDup_remove_2 _ _ _ N). rewrite app_nil_r in N', X.
    destruct (IH N') as [A C]. rewrite fold_left_app. cbn [fold_left]. set (st := fold_left register vars no_vars) in *. clearbody st.
    unfold register. cbn [avail nonconf]. rewrite A, C. split.
    - rewrite putf_absent by (rewrite map_map; exact X). now rewrite map_app.
    - unfold odd_names. rewrite map_app, filter_app. cbn [map filter]. destruct (letter_first (x_name x)); cbn [negb].
      + now rewrite app_nil_r.
      + rewrite map_app. cbn [map]. apply putf_absent. rewrite map_map. cbn [fst]. rewrite map_id.
        intros I. apply filter_In in I. exact (X (proj1 I)).
  Qed.
  Lemma table_keyed vars : NoDup (map x_name vars) -> keyed V (fold_left register vars no_vars).
  Proof.
    intros N k u v I. rewrite (proj1 (table_of vars N)) in I. apply in_map_iff in I. destruct I as (x & [= <- <- <-] & _).
    split; reflexivity.
  Qed.
  Lemma table_changed vars v : NoDup (map x_name vars) -> Forall (fun x => x_name x <> []) vars ->
    iv_formula (change_formula (fold_left (@register V) vars no_vars) one_text v) =
    match iv_formula v with None => None | Some [] => Some [] | Some f => Some (renamed (odd_names vars) f) end.
  Proof.
    intros N NE. unfold change_formula. destruct (iv_formula v) as [[|c f]|] eqn:E; try exact E. cbn [iv_formula].
    rewrite str_eqb_refl. rewrite (proj2 (table_of vars N)). f_equal. rewrite fix_names_renamed.
    - rewrite map_map. cbn [fst]. now rewrite map_id.
    - apply Forall_forall. intros kv I. apply in_map_iff in I. destruct I as (n & <- & I). split; [reflexivity|]. cbn [fst].
      apply filter_In in I. destruct I as [I _]. apply in_map_iff in I. destruct I as (x & <- & I).
      rewrite Forall_forall in NE. now apply NE.
  Qed.
End Table.
Lemma replace_nonnil old new f : old <> [] -> new <> [] -> f <> [] -> replace old new f <> [].
Proof.
  intros O N H E. apply H. rewrite <- (split_join old f O). unfold replace in E. destruct (split old f) as [|p l]; [reflexivity|].
  destruct l as [|q l]; [exact E|]. cbn [join] in E. apply app_eq_nil in E. destruct E as [_ E]. apply app_eq_nil in E. tauto.
Qed.
Lemma renamed_nonnil names f : Forall (fun n => n <> []) names -> f <> [] -> renamed names f <> [].
Proof.
  unfold renamed. intros F. revert f. induction F as [|n names H F IH]; intros f Hf; [exact Hf|]. cbn [fold_left]. apply IH.
  apply replace_nonnil; [exact H|discriminate|exact Hf].
Qed.
