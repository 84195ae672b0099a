(** Properties C10-C14 and C57-C60: text fields with language, index or name
    (src/Lavoisier/data_structures/validators). *)
From Coq Require Import Ascii String List Bool Arith NArith ZArith Lia Sorted Permutation.
From Verif Require Import PyBase PyBaseFacts PyValues TextSplitModel ValidatorsModel MultiLangModel
  MultiLangSpec MultiLangProofs PlainTextProofs TextSplitProps ValidatorsProofs.
Import ListNotations.

Notation multilang tc langs vs := (stored (history (add_merge tc same_index_lang (lang_validate langs)) vs)).
Notation indexed tc vs := (stored (history (add_merge tc same_index (indexed_validate [kindex; ktext])) vs)).
Notation nolang langs vs := (stored (history (add_append (lang_validate langs)) vs)).

Definition mk (i : Z) (k : string) (t : pystr) : pyval :=
  VDict [(lit "@index", VInt i); (lit "@lang", VStr (lit k)); (lit "#text", VStr t)].
Definition mki (i : Z) (t : pystr) : pyval := VDict [(lit "@index", VInt i); (lit "#text", VStr t)].
Definition mkn (n : string) (t : pystr) : pyval := VDict [(lit "@name", VStr (lit n)); (lit "#text", VStr t)].
Definition sample_calls : list pyval :=
  [mk 2 "en" (lit "second"); VInt 7; mk 1 "fr" (lit "un"); VList [mk 1 "en" (lit "first"); mk 3 "en" (lit "  ")];
   VList [mk 5 "en" (lit "x"); VNone]; mk 2 "en" (lit "more")].

(** ** C10 *)
(** One row per language with the texts in index order; each row is emitted as it is when it fits and as
    consecutive pieces of the splitter otherwise. *)
Theorem C10_one_text_per_language :
  forall tc langs ignore vs L,
    calls_add (lang_addition langs) vs L ->
    exists rows, language_rows (tc_sep tc) L rows /\
      ((forall k t, In (k, t) rows -> fits ignore tc t) ->
         snd (multilang_end ignore tc (multilang tc langs vs))
           = Ok (map (fun kt => {| o_index := None; o_lang := Some (fst kt); o_text := snd kt |}) rows)) /\
      (forall os, snd (multilang_end ignore tc (multilang tc langs vs)) = Ok os ->
         exists pss, Forall2 (fun kt ps => emits ignore tc (snd kt) ps) rows pss /\
           os = concat (map (fun rp => map (fun p => {| o_index := None; o_lang := Some (fst (fst rp)); o_text := p |})
                                          (snd rp)) (combine rows pss))).
Proof.
  intros tc langs ignore vs L HL. apply lang_additions in HL. subst L.
  destruct (multilang_rows tc _ _ (add_merge_inv tc (lang_validate langs) vs)) as (d & Hg & Hr).
  { intros i k u Hu. eapply additions_text; eauto. }
  exists (isort kv_leb d). split; [exact Hr|]. unfold multilang_end. cbn [snd]. rewrite Hg. cbn [bind].
  destruct (emission ignore tc (isort kv_leb d) (fun kv : pystr * pystr => (None, Some (fst kv), Some (snd kv)) : row)
              snd (fun r => eq_refl)) as [E1 E2].
  split.
  - intros Hf. apply E1. intros [k t] Hin. now apply (Hf k).
  - exact E2.
Qed.
Print Assumptions C10_one_text_per_language.

(** The specification determines the rows and the accepted additions. *)
Theorem C10_specification_determines :
  (forall sep L r s, language_rows sep L r -> language_rows sep L s -> r = s) /\
  (forall langs vs, exists L, calls_add (lang_addition langs) vs L) /\
  (forall langs vs L M, calls_add (lang_addition langs) vs L -> calls_add (lang_addition langs) vs M -> L = M).
Proof.
  split; [apply language_rows_unique|]. split.
  - intros langs vs. eexists. apply additions_calls. apply lang_iff.
  - intros langs vs L M H1 H2. now rewrite (lang_additions _ _ _ H1), (lang_additions _ _ _ H2).
Qed.
Print Assumptions C10_specification_determines.
Example C10_nonvacuous :
  snd (multilang_end false (Lim_ 80) (multilang (Lim_ 80) None sample_calls)) =
  Ok [{| o_index := None; o_lang := Some (lit "en"); o_text := lit "first" ++ newline ++ lit "second; more" |};
      {| o_index := None; o_lang := Some (lit "fr"); o_text := lit "un" |}] /\
  calls_add (lang_addition None) sample_calls
    [(2, lit "en", lit "second"); (1, lit "fr", lit "un"); (1, lit "en", lit "first"); (2, lit "en", lit "more")]%Z.
Proof.
  split; [vm_compute; reflexivity|].
  replace ([(2, lit "en", lit "second"); (1, lit "fr", lit "un"); (1, lit "en", lit "first"); (2, lit "en", lit "more")]%Z)
    with (additions (lang_validate None) sample_calls) by (vm_compute; reflexivity).
  apply additions_calls, lang_iff.
Qed.

(** ** C11, full claim: no emitted entry is blank. It holds for every entry that is not a piece of an
    over-long text; over-long texts can produce an empty piece. *)
Theorem C11_no_blank_entry_partial :
  forall tc langs ignore vs,
    let ok os := Forall (fun o => visible_text (o_text o) \/ piece_of_long ignore tc (o_text o)) os in
    (forall os, snd (multilang_end ignore tc (multilang tc langs vs)) = Ok os -> ok os) /\
    (forall os, snd (indexed_multilang_end ignore tc (multilang tc langs vs)) = Ok os -> ok os) /\
    (forall os, snd (indexed_end ignore tc (indexed tc vs)) = Ok os -> ok os) /\
    (forall os, snd (nolang_end ignore tc (nolang langs vs)) = Ok os -> ok os) /\
    (forall os, snd (nlr_end ignore tc (nolang langs vs)) = Ok os -> ok os) /\
    (forall o, snd (first_end ignore tc (nolang langs vs)) = Ok (Some o) -> ok [o]) /\
    (forall o, snd (last_end ignore tc (nolang langs vs)) = Ok (Some o) -> ok [o]) /\
    (forall os, snd (named_end ignore tc (stored (history named_add vs))) = Ok os -> ok os).
Proof.
  intros tc langs ignore vs ok.
  assert (HI := add_merge_inv tc (lang_validate langs) vs).
  assert (HV := inv_visible _ _ _ _ HI).
  assert (HN : Forall (fun r : row => forall t, snd r = Some t -> visible_text t) (nolang_rows (nolang langs vs))).
  { rewrite (nolang_rows_eq _ _ _ (stable_sort _)). apply Forall_forall. intros r Hr.
    apply in_map_iff in Hr as ([[i k] u] & <- & Hu). cbn. intros t [= <-].
    eapply (additions_visible _ _ i k). eapply Permutation_in; [apply isort_perm|exact Hu]. }
  split; [|split; [|split; [|split; [|split; [|split; [|split]]]]]].
  - intros os H. unfold multilang_end in H. cbn [snd] in H.
    destruct (multilang_rows tc _ _ HI) as (d & Hg & Hr).
    { intros i k u Hu. eapply additions_text; eauto. }
    rewrite Hg in H. cbn [bind] in H. apply end_validate_visible in H; auto.
    apply Forall_forall. intros r Hin. apply in_map_iff in Hin as ([k u] & <- & Hin). cbn. intros t [= <-].
    eapply (language_rows_visible _ _ _ (fun i k u => additions_visible _ _ i k u) Hr). exact Hin.
  - intros os H. apply end_validate_visible in H; auto. apply Forall_forall. intros r Hin.
    apply in_map_iff in Hin as (e & <- & He). cbn. intros t Ht.
    destruct (HV e) as (t' & Ht' & Hv); [eapply Permutation_in; [apply isort_perm|exact He]|]. rewrite Ht in Ht'. now injection Ht' as ->.
  - intros os H. apply end_validate_visible in H; auto. apply Forall_forall. intros r Hin.
    apply in_map_iff in Hin as (e & <- & He). cbn. intros t Ht.
    destruct (indexed_history_same tc [kindex; ktext] vs) as [H1 _].
    destruct (inv_visible tc (indexed_validate [kindex; ktext]) vs _ (add_merge_inv _ _ vs) e) as (t' & Ht' & Hv).
    { rewrite <- H1. eapply Permutation_in; [apply isort_perm|exact He]. }
    rewrite Ht in Ht'. now injection Ht' as ->.
  - intros os H. apply end_validate_visible in H; auto.
  - intros os H. apply end_validate_visible in H; auto. apply Forall_forall. intros r Hr.
    apply filter_In in Hr as [Hr _]. rewrite Forall_forall in HN. exact (HN r Hr).
  - intros o H. unfold first_end in H. cbn [snd] in H. destruct (nolang_rows _) as [|r rs]; [discriminate|].
    destruct (snd (end_validate ignore tc [r])) as [os|] eqn:E; cbn [bind] in H; [|discriminate].
    destruct os as [|o' os]; [discriminate|]. injection H as <-.
    apply end_validate_visible in E; [|inversion HN; constructor; auto].
    inversion E; subst. constructor; auto.
  - intros o H. unfold last_end in H. cbn [snd] in H. destruct (rev (nolang_rows _)) as [|r rs] eqn:Er; [discriminate|].
    destruct (snd (end_validate ignore tc [r])) as [os|] eqn:E; cbn [bind] in H; [|discriminate].
    destruct (rev os) as [|o' os'] eqn:Eo; [discriminate|]. injection H as <-.
    apply end_validate_visible in E.
    + rewrite Forall_forall in E. constructor; auto. apply E. apply (proj2 (in_rev _ _)). rewrite Eo. now left.
    + rewrite Forall_forall in HN. constructor; [|constructor]. apply (HN r).
      assert (Hr : In r (rev (nolang_rows (nolang langs vs)))) by (rewrite Er; now left).
      now apply in_rev in Hr.
  - intros os H. apply end_validate_visible in H; auto. apply Forall_forall. intros r Hin.
    apply in_map_iff in Hin as (e & <- & He). cbn. intros t Ht.
    destruct (named_history_sound vs) as [Hn _]. apply named_history_nodup in Hn as [_ Hn].
    rewrite Forall_forall in Hn. specialize (Hn (named_of e) (in_map _ _ _ He)). unfold named_of in Hn. now rewrite Ht in Hn.
Qed.
Print Assumptions C11_no_blank_entry_partial.

(** With limits switched off the full claim holds. *)
Theorem C11_no_blank_when_limits_ignored :
  forall tc langs vs os,
    snd (multilang_end true tc (multilang tc langs vs)) = Ok os -> Forall (fun o => visible_text (o_text o)) os.
Proof.
  intros tc langs vs os H. destruct (C11_no_blank_entry_partial tc langs true vs) as (H1 & _).
  eapply Forall_impl; [|exact (H1 os H)]. cbn. intros o [Hv|(t & ps & F & _)]; [auto|discriminate].
Qed.
Print Assumptions C11_no_blank_when_limits_ignored.
Example C11_nonvacuous :
  exists os, snd (multilang_end false (Lim_ 80) (multilang (Lim_ 80) None sample_calls)) = Ok os /\ length os = 2.
Proof. eexists; split; vm_compute; reflexivity. Qed.

Theorem C11_no_blank_entry_refuted :
  exists t, snd (multilang_end false (Lim_ 40) (multilang (Lim_ 40) None [mk 1 "en" t]))
            = Ok [{| o_index := None; o_lang := Some (lit "en"); o_text := [] |}].
Proof. exists sample_long. vm_compute. reflexivity. Qed.
Print Assumptions C11_no_blank_entry_refuted.
(** Also in long fields: a trailing space after the last sentence can produce an empty entry. *)
Definition trailing_space : pystr :=
  lit "Short one. " ++ repeat 97%N 79 ++ lit ". ".
Theorem C11_no_blank_entry_long_field_refuted :
  exists t os, snd (multilang_end false (Lim_ 80) (multilang (Lim_ 80) None [mk 1 "en" t])) = Ok os /\
    In {| o_index := None; o_lang := Some (lit "en"); o_text := [] |} os.
Proof. exists trailing_space. eexists. split; [vm_compute; reflexivity|]. cbn. auto. Qed.
Print Assumptions C11_no_blank_entry_long_field_refuted.

(** ** C12 *)
(** Fields indexed by number only (image addresses): increasing index order, one entry per index. *)
Theorem C12_indexed_in_numeric_order :
  forall tc ignore vs L,
    calls_add index_addition vs L ->
    exists idxs, StronglySorted Z.lt idxs /\ (forall i, In i idxs <-> exists u, In (i, [], u) L) /\
      ((forall i, In i idxs -> fits ignore tc (merged (tc_sep tc) (texts_at L i []))) ->
        snd (indexed_end ignore tc (indexed tc vs)) =
        Ok (map (fun i => {| o_index := Some i; o_lang := None; o_text := merged (tc_sep tc) (texts_at L i []) |}) idxs)).
Proof.
  intros tc ignore vs L HL. apply index_additions in HL. subst L.
  destruct (indexed_rows tc vs) as (idxs & H1 & H2 & H3). exists idxs. split; [auto|]. split; [auto|].
  intros Hf. unfold indexed_end. cbn [snd]. unfold row in H3. rewrite H3.
  destruct (emission ignore tc idxs (fun i => (Some i, None, Some (merged (tc_sep tc) (texts_at (additions (indexed_validate [kindex; ktext]) vs) i []))) : row)
     (fun i => merged (tc_sep tc) (texts_at (additions (indexed_validate [kindex; ktext]) vs) i [])) (fun i => eq_refl)) as [E _].
  now apply E.
Qed.
Print Assumptions C12_indexed_in_numeric_order.

(** Texts with index and language: one entry per (index, language); in numeric index order
    when all indexes have the same number of digits. *)
Definition index_lang_lt (a b : Z * pystr) : Prop :=
  (fst a < fst b)%Z \/ (fst a = fst b /\ str_lt (snd a) (snd b)).
Theorem C12_texts_in_numeric_order_partial :
  forall tc langs ignore vs L,
    calls_add (lang_addition langs) vs L ->
    exists ps, NoDup ps /\ (forall i k, In (i, k) ps <-> exists u, In (i, k, u) L) /\
      ((forall i k u, In (i, k, u) L -> (0 <= i)%Z) ->
       (forall i k u i' k' u', In (i, k, u) L -> In (i', k', u') L ->
            length (str_of_Z i) = length (str_of_Z i')) ->
       StronglySorted index_lang_lt ps) /\
      ((forall i k, In (i, k) ps -> fits ignore tc (merged (tc_sep tc) (texts_at L i k))) ->
        snd (indexed_multilang_end ignore tc (multilang tc langs vs)) =
        Ok (map (fun p => {| o_index := Some (fst p); o_lang := Some (snd p);
                             o_text := merged (tc_sep tc) (texts_at L (fst p) (snd p)) |}) ps)).
Proof.
  intros tc langs ignore vs L HL. apply lang_additions in HL. subst L.
  destruct (imrows tc langs vs) as (ps & H1 & H2 & H3 & H4). exists ps. split; [auto|]. split; [auto|]. split.
  - intros Hpos Hlen. rewrite <- (map_id ps). apply (SS_strict (fun x => x) _ _ _) with (2 := eq_ind_r (fun l => NoDup l) H1 (map_id ps)) (3 := H3).
    intros [i k] [i' k'] Ha Hb Hle Hne. cbn in *. apply H2 in Ha as [u Hu]. apply H2 in Hb as [u' Hu'].
    destruct (leb_index i i' k k') as [G|[-> G]]; eauto.
    + now left.
    + right. split; [reflexivity|]. split; [exact G|]. cbn. congruence.
  - intros Hf. unfold indexed_multilang_end. cbn [snd]. rewrite H4.
    destruct (emission ignore tc ps (fun p => (Some (fst p), Some (snd p), Some (merged (tc_sep tc) (texts_at (additions (lang_validate langs) vs) (fst p) (snd p)))) : row)
       (fun p => merged (tc_sep tc) (texts_at (additions (lang_validate langs) vs) (fst p) (snd p))) (fun i => eq_refl)) as [E _].
    apply E. intros [i k] Hin. now apply Hf.
Qed.
Print Assumptions C12_texts_in_numeric_order_partial.
Example C12_nonvacuous :
  snd (indexed_end false Str_ (indexed Str_ [mki 10 (lit "ten"); mki 2 (lit "two"); mki 10 (lit "last")])) =
    Ok [{| o_index := Some 2%Z; o_lang := None; o_text := lit "two" |};
        {| o_index := Some 10%Z; o_lang := None; o_text := lit "last" |}] /\
  snd (indexed_multilang_end false (Lim_ 80) (multilang (Lim_ 80) None sample_calls)) =
    Ok [{| o_index := Some 1%Z; o_lang := Some (lit "en"); o_text := lit "first" |};
        {| o_index := Some 1%Z; o_lang := Some (lit "fr"); o_text := lit "un" |};
        {| o_index := Some 2%Z; o_lang := Some (lit "en"); o_text := lit "second; more" |}].
Proof. split; vm_compute; reflexivity. Qed.

Theorem C12_texts_in_numeric_order_refuted :
  snd (indexed_multilang_end false (Lim_ 80) (multilang (Lim_ 80) None [mk 2 "en" (lit "two"); mk 10 "en" (lit "ten")])) =
    Ok [{| o_index := Some 10%Z; o_lang := Some (lit "en"); o_text := lit "ten" |};
        {| o_index := Some 2%Z; o_lang := Some (lit "en"); o_text := lit "two" |}].
Proof. vm_compute. reflexivity. Qed.
Print Assumptions C12_texts_in_numeric_order_refuted.

(** ** C13 *)
(** For every mix of additions and reads, every read gives the value determined by the additions before it
    alone, and the final state is that of the additions alone. *)
Theorem C13_reading_changes_nothing :
  forall tc langs ignore us,
    let pure {R} add (fin : list entry -> list entry * result R) :=
      run add fin None us =
      (history add (added us), map (fun p => value fin (history add p)) (before_reads [] us)) in
    pure (add_merge tc same_index_lang (lang_validate langs)) (multilang_end ignore tc) /\
    pure (add_merge tc same_index_lang (lang_validate langs)) (indexed_multilang_end ignore tc) /\
    pure (add_merge tc same_index (indexed_validate [kindex; ktext])) (indexed_end ignore tc) /\
    pure (add_append (lang_validate langs)) (nolang_end ignore tc) /\
    pure (add_append (lang_validate langs)) (nlr_end ignore tc) /\
    pure (add_append (lang_validate langs)) (first_end ignore tc) /\
    pure (add_append (lang_validate langs)) (last_end ignore tc) /\
    pure named_add (named_end ignore tc).
Proof.
  intros tc langs ignore us pure. unfold pure.
  repeat split; match goal with |- run ?add ?fin None us = _ => exact (run_pure add fin (fun s => eq_refl) us []) end.
Qed.
Print Assumptions C13_reading_changes_nothing.
Example C13_nonvacuous :
  exists st a b, run (add_merge (Lim_ 80) same_index_lang (lang_validate None)) (multilang_end false (Lim_ 80)) None
    [Add (mk 1 "en" (lit "one")); Read; Read; Add (mk 1 "en" (lit "two")); Read] = (st, [Ok a; Ok a; Ok b]) /\
    a <> b /\ length b = 1.
Proof. eexists _, _, _. split; [vm_compute; reflexivity|]. split; [discriminate | reflexivity]. Qed.

(** ** C14 *)
(** The stored named texts are exactly the accepted ones, and no name occurs twice among the emitted
    entries when every text fits. *)
Theorem C14_named_texts_distinct_partial :
  forall tc ignore vs S,
    named_history vs S ->
    NoDup (map fst S) /\
    ((forall n t, In (n, t) S -> fits ignore tc t) ->
      snd (named_end ignore tc (stored (history named_add vs))) =
      Ok (map (fun a => {| o_index := None; o_lang := Some (fst a); o_text := snd a |}) S)).
Proof.
  intros tc ignore vs S HS. split; [eapply named_history_nodup; eauto|].
  destruct (named_history_sound vs) as [Hn Hx]. rewrite (named_history_fun _ _ _ HS Hn). intros Hf.
  unfold named_end. cbn [snd].
  set (x := stored (history named_add vs)) in *. clearbody x.
  assert (E : map (fun e => (None, Some (lg e), tx e) : row) x = map (fun a => (None, Some (fst a), Some (snd a)) : row) (map named_of x)).
  { rewrite map_map. apply map_ext_in. intros e He. rewrite Forall_forall in Hx.
    destruct (Hx e He) as [H1 _]. unfold named_of. cbn. destruct (tx e); [reflexivity|now contradiction H1]. }
  unfold row in E. rewrite E. destruct (emission ignore tc (map named_of x) (fun a => (None, Some (fst a), Some (snd a)) : row) snd (fun r => eq_refl)) as [E1 _].
  apply E1. intros [n t] Hin. now apply (Hf n).
Qed.
Print Assumptions C14_named_texts_distinct_partial.
Theorem C14_history_total :
  forall vs, exists S, named_history vs S /\ forall T, named_history vs T -> T = S.
Proof.
  intros vs. eexists. split; [apply named_history_sound|]. intros T HT.
  eapply named_history_fun; [exact HT | apply named_history_sound].
Qed.
Print Assumptions C14_history_total.
Example C14_nonvacuous :
  snd (named_end false (Lim_ 32000) (stored (history named_add
    [mkn "a" (lit "x"); mkn "a" (lit "y"); VList [mkn "b" (lit "z"); mkn "b" (lit "w")]; mkn "b" (lit "u")]))) =
  Ok [{| o_index := None; o_lang := Some (lit "a"); o_text := lit "x" |};
      {| o_index := None; o_lang := Some (lit "b"); o_text := lit "u" |}].
Proof. vm_compute. reflexivity. Qed.

(** Any named text one character over the limit without spaces or punctuation is emitted twice under the same name. *)
Theorem C14_named_texts_distinct_refuted :
  forall limit n, 101 <= limit ->
    exists t a b, snd (named_end false (Lim_ limit) (stored (history named_add [mkn n t]))) =
      Ok [{| o_index := None; o_lang := Some (lit n); o_text := a |};
          {| o_index := None; o_lang := Some (lit n); o_text := b |}].
Proof.
  intros limit n Hl. set (t := repeat 97%N (S limit)). exists t, (firstn (limit - 50) t), (skipn (limit - 50) t).
  assert (Ht : forall c, In c t -> c = 97%N) by (intros c; apply repeat_spec).
  assert (Hlen : length t = S limit) by apply repeat_length.
  assert (E : history named_add [mkn n t] = Some [{| ix := 0; lg := lit n; tx := Some t |}]).
  { unfold history. cbn [fold_left]. unfold named_add. cbn [stored].
    rewrite (proj2 (named_retrieve_iff [] (as_list (mkn n t)) [] [{| ix := 0; lg := lit n; tx := Some t |}])); [reflexivity|].
    exists [{| ix := 0; lg := lit n; tx := Some t |}]. repeat split.
    - constructor; [|constructor]. apply named_iff. split; [|repeat split; try discriminate; intros []].
      eexists. split; [reflexivity|]. split; [|split; reflexivity].
      cbn [In]. intros k x [[= <- _]|[[= <- _]|[]]]; auto.
    - cbn. constructor; [intros []|constructor].
    - intros e _ []. }
  rewrite E. unfold named_end. cbn [stored map snd lg tx]. cbn [end_validate tc_split Lim_ tc_limit upper negb andb].
  assert (Hlt : limit <? length t = true) by (apply Nat.ltb_lt; lia). rewrite Hlt.
  assert (Hp : plain t).
  { intros c Hc F. apply Ht in F. subst c. cbn in Hc. intuition discriminate. }
  assert (Hs : forall c, In c t -> is_space c = false) by (intros c Hc; rewrite (Ht c Hc); reflexivity).
  rewrite (one_over t limit Hp Hs Hl Hlen).
  assert (F1 : length (firstn (limit - 50) t) <= limit) by (rewrite firstn_length; lia).
  assert (F2 : length (skipn (limit - 50) t) <= limit) by (rewrite skipn_length; lia).
  cbn [bind mapM].
  rewrite !(text_end_fits false (Lim_ limit)) by (right; cbn; assumption). reflexivity.
Qed.
Print Assumptions C14_named_texts_distinct_refuted.

(** ** C57: synonym fields *)
Theorem C57_synonyms_in_order :
  forall langs ignore vs L S,
    calls_add (lang_addition langs) vs L -> stable_by_index L S ->
    snd (nlr_end ignore (Lim_ 80) (nolang langs vs)) =
    Ok (map (fun a => {| o_index := None; o_lang := Some (snd (fst a)); o_text := snd a |})
            (filter (fun a => length (snd a) <=? 80) S)).
Proof.
  intros langs ignore vs L S HL HS. apply lang_additions in HL. subst L.
  unfold nlr_end. cbn [snd]. rewrite (nolang_rows_eq _ _ _ HS).
  assert (E : forall l : list triple, filter (fun r : row => match snd r with Some t => length t <=? upper (tc_limit (Lim_ 80)) | None => false end)
     (map (fun a => (None, Some (snd (fst a)), Some (snd a))) l) =
     map (fun a => (None, Some (snd (fst a)), Some (snd a))) (filter (fun a => length (snd a) <=? 80) l)).
  { intros l. apply filter_map_comm. reflexivity. }
  rewrite E.
  destruct (emission ignore (Lim_ 80) (filter (fun a : triple => length (snd a) <=? 80) S)
    (fun a => (None, Some (snd (fst a)), Some (snd a)) : row) snd (fun r => eq_refl)) as [E1 _].
  apply E1. intros a Ha. apply filter_In in Ha as [_ Ha]. right. cbn [tc_limit Lim_]. now apply Nat.leb_le.
Qed.
Print Assumptions C57_synonyms_in_order.
Example C57_nonvacuous :
  snd (nlr_end false (Lim_ 80) (nolang None [mk 3 "en" (lit "c"); mk 1 "en" (lit "a"); mk 3 "en" (lit "d");
        mk 0 "en" sample_short])) =
  Ok [{| o_index := None; o_lang := Some (lit "en"); o_text := lit "a" |};
      {| o_index := None; o_lang := Some (lit "en"); o_text := lit "c" |};
      {| o_index := None; o_lang := Some (lit "en"); o_text := lit "d" |}].
Proof. vm_compute. reflexivity. Qed.

(** ** C58: fields that emit one entry *)
Theorem C58_single_entry_fields :
  forall tc langs ignore vs L S,
    calls_add (lang_addition langs) vs L -> stable_by_index L S ->
    (snd (first_end ignore tc (nolang langs vs)) = Ok None <-> L = []) /\
    (snd (last_end ignore tc (nolang langs vs)) = Ok None <-> L = []) /\
    (forall o, snd (first_end ignore tc (nolang langs vs)) = Ok (Some o) ->
       exists a S' ps, S = a :: S' /\ emits ignore tc (snd a) ps /\
         hd_error ps = Some (o_text o) /\ o_lang o = Some (snd (fst a)) /\ o_index o = None) /\
    (forall o, snd (last_end ignore tc (nolang langs vs)) = Ok (Some o) ->
       exists a S' ps ps', S = S' ++ [a] /\ emits ignore tc (snd a) ps /\
         ps = ps' ++ [o_text o] /\ o_lang o = Some (snd (fst a)) /\ o_index o = None).
Proof.
  intros tc langs ignore vs L S HL HS. apply lang_additions in HL. subst L.
  assert (HE : S = [] <-> additions (lang_validate langs) vs = []).
  { rewrite (stable_unique _ _ _ HS (stable_sort _)). split.
    - intros E. apply Permutation_nil. rewrite <- E. exact (isort_perm _ _).
    - intros ->. reflexivity. }
  unfold first_end, last_end. cbn [snd]. rewrite (nolang_rows_eq _ _ _ HS). rewrite <- map_rev.
  set (f := fun a : triple => (None, Some (snd (fst a)), Some (snd a)) : row).
  assert (ONE : forall a os, snd (end_validate ignore tc [f a]) = Ok os ->
    exists ps, emits ignore tc (snd a) ps /\ os = map (fun p => row_out (f a) p) ps).
  { intros a os H. destruct (emission ignore tc [a] f snd (fun r => eq_refl)) as [_ E].
    destruct (E os H) as (pss & Hp & ->). inversion Hp; subst. inversion H4; subst. exists y. split; auto.
    cbn. now rewrite app_nil_r. }
  split; [|split; [|split]].
  - rewrite <- HE. destruct S as [|a S]; cbn [map]; [tauto|]. split; [|discriminate].
    destruct (snd (end_validate _ _ _)) as [[|o os]|]; cbn [bind]; discriminate.
  - rewrite <- HE. destruct (rev S) as [|a r] eqn:Er; cbn [map].
    + split; [intros _|reflexivity]. apply (f_equal (@rev _)) in Er. now rewrite rev_involutive in Er.
    + split; [|intros ->; discriminate].
      destruct (snd (end_validate _ _ _)) as [os|]; cbn [bind]; [|discriminate]. destruct (rev os); discriminate.
  - intros o H. destruct S as [|a S]; cbn [map] in H; [discriminate|].
    match type of H with context [end_validate ignore tc ?l] => destruct (snd (end_validate ignore tc l)) as [os|] eqn:E end;
      cbn [bind] in H; [|discriminate].
    destruct (ONE a os E) as (ps & He & ->). destruct ps as [|p ps]; [discriminate|]. cbn in H. injection H as <-.
    exists a, S, (p :: ps). cbn. auto.
  - intros o H. destruct (rev S) as [|a r] eqn:Er; cbn [map] in H; [discriminate|].
    match type of H with context [end_validate ignore tc ?l] => destruct (snd (end_validate ignore tc l)) as [os|] eqn:E end;
      cbn [bind] in H; [|discriminate].
    destruct (ONE a os E) as (ps & He & ->). rewrite <- map_rev in H.
    destruct (rev ps) as [|p r'] eqn:Ep; [discriminate|]. cbn in H. injection H as <-.
    exists a, (rev r), ps, (rev r'). apply (f_equal (@rev _)) in Er, Ep. rewrite rev_involutive in Er, Ep.
    cbn in *. auto.
Qed.
Print Assumptions C58_single_entry_fields.
Example C58_nonvacuous :
  let calls := [mk 3 "en" (lit "c"); mk 1 "en" (lit "a"); mk 1 "fr" (lit "b"); mk 3 "en" (lit "d")] in
  snd (first_end false (Lim_ 80) (nolang None calls)) =
    Ok (Some {| o_index := None; o_lang := Some (lit "en"); o_text := lit "a" |}) /\
  snd (last_end false (Lim_ 80) (nolang None calls)) =
    Ok (Some {| o_index := None; o_lang := Some (lit "en"); o_text := lit "d" |}).
Proof. split; vm_compute; reflexivity. Qed.

(** ** C59: acceptance of entries *)
Theorem C59_text_entries_accepted :
  forall tc langs vs v,
    (snd (add_merge tc same_index_lang (lang_validate langs) (history (add_merge tc same_index_lang (lang_validate langs)) vs) v) = None
       <-> exists all, Forall2 (lang_addition langs) (offered v) all) /\
    (snd (add_append (lang_validate langs) (history (add_append (lang_validate langs)) vs) v) = None
       <-> exists all, Forall2 (lang_addition langs) (offered v) all) /\
    (snd (add_merge tc same_index_lang (lang_validate langs) (history (add_merge tc same_index_lang (lang_validate langs)) vs) v) <> None
       -> multilang tc langs (vs ++ [v]) = multilang tc langs vs) /\
    (snd (add_append (lang_validate langs) (history (add_append (lang_validate langs)) vs) v) <> None
       -> nolang langs (vs ++ [v]) = nolang langs vs).
Proof.
  intros tc langs vs v.
  assert (R : (exists ns, retrieve (lang_validate langs) v = Ok ns) <-> exists all, Forall2 (lang_addition langs) (offered v) all).
  { unfold retrieve. change (offered v) with (as_list v). split.
    - intros [ns H]. destruct (mapM (lang_validate langs) (as_list v)) as [es|] eqn:E; [|discriminate].
      apply mapM_forall2 in E. exists (map triple_of es). clear -E. induction E; cbn; constructor; auto.
      now apply lang_iff in H.
    - intros [all H]. exists (filter nonblank (map entry_of all)).
      assert (E : mapM (lang_validate langs) (as_list v) = Ok (map entry_of all)).
      { apply mapM_forall2. clear -H. induction H; cbn; constructor; auto.
        apply lang_iff. rewrite triple_entry. split; auto. discriminate. }
      rewrite E. reflexivity. }
  rewrite <- R. rewrite !history_snoc.
  pose proof (add_merge_inv tc (lang_validate langs) vs) as HI.
  set (h1 := history (add_merge tc same_index_lang (lang_validate langs)) vs) in *.
  set (h2 := history (add_append (lang_validate langs)) vs) in *. clearbody h1 h2.
  unfold add_merge, add_append.
  destruct (retrieve (lang_validate langs) v) as [ns|e] eqn:E; cbn [bind].
  - destruct (merge_all_inv tc ns _ _ (retrieve_text _ _ _ E) HI) as (y & Hy & _).
    rewrite Hy. cbn [fst snd stored].
    split; [split; eauto|]. split; [split; eauto|]. split; intros F; now contradiction F.
  - cbn [fst snd stored].
    split; [split; [discriminate | intros [ns F]; discriminate]|].
    split; [split; [discriminate | intros [ns F]; discriminate]|]. split; reflexivity.
Qed.
Print Assumptions C59_text_entries_accepted.
Example C59_nonvacuous :
  exists e, snd (add_merge (Lim_ 80) same_index_lang (lang_validate (Some [lit "en"])) None (mk 1 "fr" (lit "x"))) = Some e /\
  snd (add_merge (Lim_ 80) same_index_lang (lang_validate (Some [lit "en"])) None (mk 1 "en" (lit "x"))) = None.
Proof. eexists. split; vm_compute; reflexivity. Qed.

(** ** C60: the names of named texts are not limited (full claim: at most 40 characters) *)
Theorem C60_name_limit_refuted :
  forall k, exists n, length n = k /\
    snd (named_end false (Lim_ 32000) (stored (history named_add
       [VDict [(lit "@name", VStr n); (lit "#text", VStr (lit "x"))]]))) =
    Ok [{| o_index := None; o_lang := Some n; o_text := lit "x" |}].
Proof. intros k. exists (repeat 97%N k). split; [apply repeat_length | reflexivity]. Qed.
Print Assumptions C60_name_limit_refuted.
