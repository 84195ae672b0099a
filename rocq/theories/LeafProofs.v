(** Every leaf of a produced document satisfies the constraint of its field. *)
From Coq Require Import Ascii String List Bool Arith NArith ZArith QArith Lia Permutation.
From Verif Require Import PyBase PyBaseFacts PyValues PyDigits Regex RegexFacts TextSplitModel
  ValidatorsModel ValidatorsSpec ValidatorsProofs MultiLangModel MultiLangSpec MultiLangProofs
  DotDictModel DotDictSpec DotDictProofs SchemaModel SchemaTables SchemaProofs SchemaSpec.
Import ListNotations.
Local Close Scope Q_scope.

Lemma within_ok l s : within l (length s) = true -> length_ok l s.
Proof.
  destruct l; cbn [within length_ok].
  - rewrite orb_true_iff, Nat.eqb_eq, Nat.leb_le. auto.
  - rewrite andb_true_iff, !Nat.leb_le. auto.
  - now apply N.leb_le.
Qed.
Lemma text_end_ok ign tc s t : text_end ign tc s = Ok t -> text_ok ign tc t.
Proof.
  unfold text_end, text_ok. destruct (tc_limit tc) as [l|]; [|intros [= <-]; auto].
  intros H. apply limited_end_iff in H. destruct H as [-> [H|H]]; auto. right. now apply within_ok.
Qed.

(** every emitted entry has a text within the limit and the index and language of a row *)
Lemma end_validate_leaves ign tc rows : forall os, snd (end_validate ign tc rows) = Ok os ->
  Forall (fun o => text_ok ign tc (o_text o) /\
                   exists r, In r rows /\ o_index o = fst (fst r) /\ o_lang o = snd (fst r)) os.
Proof.
  induction rows as [|[[i l] [t|]] rows IH]; intros os; cbn [end_validate].
  - intros [= <-]; constructor.
  - set (here := if tc_split tc && negb ign && (upper (tc_limit tc) <? length t)
        then bind (text_to_list t (upper (tc_limit tc)))
                  (mapM (fun n => bind (text_end ign tc n)
                           (fun n' => Ok {| o_index := i; o_lang := l; o_text := n' |})))
        else bind (text_end ign tc t) (fun t' => Ok [{| o_index := i; o_lang := l; o_text := t' |}])).
    destruct here as [o1|x] eqn:Eh; cbn [snd]; [|discriminate].
    destruct (end_validate ign tc rows) as [y r] eqn:Ey. cbn [snd] in *.
    destruct r as [o2|]; cbn [bind]; [|discriminate]. intros [= <-].
    apply Forall_app. split.
    + assert (G : Forall (fun o => text_ok ign tc (o_text o) /\ o_index o = i /\ o_lang o = l) o1).
      { unfold here in Eh. destruct (tc_split tc && negb ign && (upper (tc_limit tc) <? length t)).
        - destruct (text_to_list t (upper (tc_limit tc))) as [ps|]; cbn [bind] in Eh; [|discriminate].
          apply mapM_forall2 in Eh. clear -Eh. induction Eh as [|n o ns os H _ IH]; constructor; auto.
          destruct (text_end ign tc n) eqn:E; cbn [bind] in H; [|discriminate].
          inversion H; subst. cbn. split; auto. eapply text_end_ok; eauto.
        - destruct (text_end ign tc t) eqn:E; cbn [bind] in Eh; [|discriminate].
          inversion Eh; subst. constructor; [|constructor]. cbn. split; auto. eapply text_end_ok; eauto. }
      eapply Forall_impl; [|exact G]. cbn. intros o (H1 & H2 & H3). split; auto.
      exists (i, l, Some t). cbn. auto.
    + eapply Forall_impl; [|exact (IH _ eq_refl)]. cbn. intros o (H1 & r & H2 & H3). split; auto.
      exists r. auto.
  - discriminate.
Qed.

(** entries of a stored language field *)
Definition entry_ok (langs : option (list pystr)) (e : entry) : Prop :=
  length (lg e) = 2 /\ match langs with Some ls => In (lg e) ls | None => True end.
Lemma lang_validate_entry langs v e : lang_validate langs v = Ok e -> entry_ok langs e.
Proof.
  unfold lang_validate. destruct (indexed_validate _ v) as [e0|]; cbn [bind]; [|discriminate].
  destruct (lookup klang (dict_of v)) as [[| | | |l| | | |]|]; try discriminate.
  destruct (length l =? 2) eqn:E2; cbn [negb]; [|discriminate]. apply Nat.eqb_eq in E2.
  destruct langs as [ls|].
  - destruct (str_in l ls) eqn:Ei; [|discriminate]. intros [= <-]. apply str_in_In in Ei. split; auto.
  - intros [= <-]. split; auto.
Qed.
Lemma retrieve_entry (P : entry -> Prop) f v ns :
  (forall v e, f v = Ok e -> P e) -> retrieve f v = Ok ns -> Forall P ns.
Proof.
  intros H. unfold retrieve. destruct (mapM f (as_list v)) as [es|] eqn:E; cbn [bind]; [|discriminate].
  intros [= <-]. apply mapM_forall2 in E. apply Forall_forall. intros e He. apply filter_In in He.
  destruct He as [He _]. revert He. induction E; cbn; [tauto|]. intros [->|Hi]; eauto.
Qed.
Lemma merge1_entry tc c langs n x y : entry_ok langs n -> Forall (entry_ok langs) x ->
  merge1 tc c n x = Ok y -> Forall (entry_ok langs) y.
Proof.
  intros Hn. revert y. induction x as [|m x IH]; cbn [merge1]; intros y Hx.
  - intros [= <-]. constructor; auto.
  - inversion Hx; subst. destruct (c n m).
    + destruct (tx m), (tx n); try discriminate. intros [= <-]. constructor; auto.
    + destruct (merge1 tc c n x) as [r|]; cbn [bind]; [|discriminate]. intros [= <-]. constructor; auto.
Qed.
Lemma merge_all_entry tc c langs ns : forall x y, Forall (entry_ok langs) ns -> Forall (entry_ok langs) x ->
  merge_all tc c ns x = Ok y -> Forall (entry_ok langs) y.
Proof.
  induction ns as [|n ns IH]; cbn [merge_all]; intros x y Hns Hx.
  - intros [= <-]; auto.
  - inversion Hns; subst. destruct (merge1 tc c n x) as [z|] eqn:E; cbn [bind]; [|discriminate].
    intros Em. apply (IH z y); [assumption| |exact Em]. eapply merge1_entry; [| |exact E]; assumption.
Qed.

Lemma fold_inv {A} (P : option A -> Prop) (add : option A -> pyval -> upd A) :
  P None -> (forall st v, P st -> P (fst (add st v))) ->
  forall vs, P (fold_left (fun s x => fst (add s x)) vs None).
Proof.
  intros H0 H1 vs. assert (G : forall st, P st -> P (fold_left (fun s x => fst (add s x)) vs st)).
  { induction vs as [|v vs IH]; cbn [fold_left]; auto. } auto.
Qed.

Lemma fold_replace {A} (P : A -> Prop) (f : pyval -> result A) :
  (forall v a, f v = Ok a -> P a) ->
  forall vs a, fold_left (fun s x => fst (add_replace f s x)) vs None = Some a -> P a.
Proof.
  intros H vs a E.
  assert (G : match fold_left (fun s x => fst (add_replace f s x)) vs None with Some a => P a | None => True end).
  { apply (fold_inv (fun st => match st with Some a => P a | None => True end)); auto.
    intros st v Hs. unfold add_replace. destruct (f v) eqn:F; cbn; eauto. }
  now rewrite E in G.
Qed.

Lemma int_nonneg v z : int_validate false v = Ok z -> (0 <= z)%Z.
Proof.
  unfold int_validate. destruct (py_int v); [|discriminate]. cbn [negb andb].
  destruct (z0 <? 0)%Z eqn:E; [discriminate|]. intros [= <-]. now apply Z.ltb_ge in E.
Qed.
Lemma collection_in ls neg v z : collection ls neg v = Ok z -> In z ls.
Proof.
  unfold collection. destruct (int_validate neg v) as [x|]; cbn [bind]; [|discriminate].
  destruct (existsb (Z.eqb x) ls) eqn:E; [|discriminate]. intros [= <-].
  apply existsb_exists in E. destruct E as (y & Hy & Ey). apply Z.eqb_eq in Ey. now subst.
Qed.
Lemma limited_digits (exact : bool) n v z :
  limited_int (if exact then neb else gtb) n v = Ok z -> digits_ok exact n z.
Proof.
  unfold limited_int. destruct (int_validate false v) as [x|]; cbn [bind]; [|discriminate].
  destruct ((if exact then neb else gtb) (length (str_of_Z x)) n || (x <? 0)%Z)%bool eqn:E; [discriminate|].
  intros [= <-]. apply orb_false_iff in E. destruct E as [E1 E2]. apply Z.ltb_ge in E2.
  split; auto. destruct exact.
  - unfold neb in E1. apply negb_false_iff in E1. now apply Nat.eqb_eq in E1.
  - unfold gtb in E1. now apply Nat.ltb_ge in E1.
Qed.
Lemma pattern_matches r v s : pattern r v = Ok s -> no_look r = true -> matches r s.
Proof. intros H L. apply pattern_iff in H; auto. destruct H as [_ H]. exact H. Qed.

Lemma isort_in {A} (leb : A -> A -> bool) l x : In x (isort leb l) <-> In x l.
Proof.
  split; apply Permutation.Permutation_in; [|symmetry]; apply isort_perm.
Qed.
Lemma dict_add_key_in d k t p : In p (dict_add d k t) -> fst p = k \/ In (fst p) (map fst d).
Proof.
  induction d as [|[k' t'] d IH]; cbn [dict_add].
  - intros [<-|[]]. auto.
  - destruct (str_eqb k' k) eqn:E.
    + intros [<-|H]; cbn; auto. right. right. now apply in_map.
    + intros [<-|H]; cbn; auto. destruct (IH H); auto.
Qed.
Lemma group_langs_keys x : forall d r, group_langs d x = Ok r ->
  forall p, In p r -> In (fst p) (map fst d) \/ In (fst p) (map lg x).
Proof.
  induction x as [|e x IH]; cbn [group_langs]; intros d r.
  - intros [= <-] p Hp. left. now apply in_map.
  - destruct (tx e) as [t|]; [|discriminate]. intros H p Hp.
    destruct (IH _ _ H p Hp) as [G|G].
    + apply in_map_iff in G. destruct G as (p' & E & G). apply dict_add_key_in in G. rewrite E in G.
      destruct G as [->|G]; auto. right. left. reflexivity.
    + right. right. exact G.
Qed.

Definition rows_lang langs (r : option Z * option pystr * option pystr) : Prop :=
  exists l, snd (fst r) = Some l /\ length l = 2 /\ match langs with Some ls => In l ls | None => True end.
Lemma leaves_lang ign tc langs rows os (Q : option Z -> Prop) :
  Forall (fun r => rows_lang langs r /\ Q (fst (fst r))) rows ->
  snd (end_validate ign tc rows) = Ok os ->
  Forall (fun o => Q (o_index o) /\ lang_ok langs o /\ text_ok ign tc (o_text o)) os.
Proof.
  intros Hr H. apply end_validate_leaves in H. eapply Forall_impl; [|exact H]. cbn.
  intros o (H1 & r & H2 & H3 & H4). rewrite Forall_forall in Hr. destruct (Hr _ H2) as [(l & G1 & G2) G3].
  split; [now rewrite H3|]. split; auto. exists l. split; auto. congruence.
Qed.

Lemma nolang_rows_ok langs l : Forall (entry_ok langs) l ->
  Forall (fun r => rows_lang langs r /\ fst (fst r) = None) (nolang_rows l).
Proof.
  intros H. unfold nolang_rows. apply Forall_forall. intros r Hr. apply in_map_iff in Hr.
  destruct Hr as (e & <- & He). apply isort_in in He. rewrite Forall_forall in H.
  destruct (H _ He) as [H1 H2]. cbn. split; auto. exists (lg e). auto.
Qed.
Lemma Forall_filter {A} (P : A -> Prop) p l : Forall P l -> Forall P (filter p l).
Proof. rewrite !Forall_forall. intros H x Hx. apply filter_In in Hx. apply H, Hx. Qed.


Ltac use_lifted H T F a :=
  match type of H with
  | added (structure_universe ?E ?sch) ?c ?v ?st =>
      let m := eval cbn [add_] in (add_ E c) in
      match m with
      | lift ?i ?p ?f =>
          let x := fresh in let r := fresh in
          destruct (lifted_added E sch i p f c (conj eq_refl (conj T (fun a => eq_refl))) v st H)
            as (a & x & r & _ & _ & -> & F)
      end
  end.

Theorem leaf_acceptable E sch c vs0 st o :
  added (structure_universe E sch) c vs0 st -> end_ E c st = Ok o -> acceptable E c o.
Proof.
  intros H. destruct c.
  - use_lifted H (tidy_replace real_validate) F a. cbn. intros [= <-]. exact I.
  - use_lifted H (tidy_replace percent_validate) F a. cbn. intros [= <-].
    apply (fold_replace (fun a => match a with Fin q => (0 <= q <= 100)%Q | NaN => True | _ => False end)) in F.
    + destruct a; auto.
    + intros v b Hb. apply percent_iff in Hb. destruct Hb as [_ [->|(q & -> & G)]]; auto.
  - use_lifted H (tidy_replace bool_validate) F a. destruct words; cbn; intros [= <-]; auto.
    destruct a; [left|right]; reflexivity.
  - use_lifted H (tidy_replace (int_validate false)) F a. cbn. intros [= <-].
    apply (fold_replace (fun z => (0 <= z)%Z)) in F; auto. apply int_nonneg.
  - use_lifted H (tidy_replace (collection limits neg)) F a. cbn. intros [= <-].
    apply (fold_replace (fun z => In z limits)) in F; auto. intros v z. apply collection_in.
  - use_lifted H (tidy_replace (limited_int (if exact then neb else gtb) n)) F a. cbn. intros [= <-].
    apply (fold_replace (digits_ok exact n)) in F; auto. intros v z. apply limited_digits.
  - use_lifted H (tidy_list (limited_int gtb n)) F a. cbn [end_ on pZs]. intros [= <-]. cbn [acceptable].
    assert (G : match fold_left (fun s x => fst (add_list (limited_int gtb n) s x)) vs0 None with
                | Some (One z) => digits_ok false n z | Some (Many l) => Forall (digits_ok false n) l
                | None => True end).
    { apply (fold_inv (fun st => match st with Some (One z) => digits_ok false n z
        | Some (Many l) => Forall (digits_ok false n) l | None => True end)); [exact I|].
      intros st v Hs. unfold add_list. destruct (limited_int gtb n v) as [z|] eqn:Ez; cbn [fst]; auto.
      pose proof (limited_digits false n v z Ez) as Hz.
      destruct st as [[b|l]|]; cbn; auto. apply Forall_app. auto. }
    rewrite F in G. destruct a; auto.
  - use_lifted H (tidy_replace (pattern r)) F a. cbn. intros [= <-].
    apply (fold_replace (fun s => no_look r = true -> matches r s) _ (fun v s => pattern_matches r v s) _ _ F).
  - use_lifted H (tidy_replace (VariableName (is_word E))) F a. cbn [end_ on pT].
    destruct (limited_end (ignore E) (LMax 40) (Some a)) as [t|] eqn:Et; cbn [bind]; [|discriminate].
    intros [= <-]. apply limited_end_iff in Et. destruct Et as [-> Et]. cbn [acceptable]. split.
    + apply (fold_replace (fun s => matches (variable_name_re (is_word E)) s)) in F; auto.
      intros v s Hs. now apply pattern_matches in Hs.
    + destruct Et as [Et|Et]; auto. right. apply within_ok in Et. cbn in Et. lia.
  - use_lifted H (tidy_replace str_validate) F a. cbn. intros [= <-]. exact I.
  - assert (T : tidy (lim_add sep str_validate)) by (destruct sep; [apply tidy_separator|apply tidy_replace]).
    use_lifted H T F a. cbn [end_ on pT].
    destruct (limited_end (ignore E) l (Some a)) as [t|] eqn:Et; cbn [bind]; [|discriminate].
    intros [= <-]. apply limited_end_iff in Et. destruct Et as [-> [Et|Et]]; cbn [acceptable]; auto.
    right. now apply within_ok.
  - use_lifted H (tidy_replace (enum_validate vals)) F a. cbn. intros [= <-].
    apply (fold_replace (fun s => In s vals)) in F; auto. intros v s Hs. now apply enum_single_iff in Hs.
  - use_lifted H (tidy_unique (enum_list_validate vals)) F a. cbn. intros [= <-].
    pose proof (unique_history_members vals vs0) as G1. unfold history in G1. rewrite F in G1. split; auto.
    destruct (accepted_total vals vs0) as [acc Ha]. pose proof (unique_history _ _ _ Ha) as G2.
    unfold history in G2. rewrite F in G2. now apply firstocc_nodup in G2.
  - use_lifted H (tidy_replace (date_validate (fromiso E))) F a. cbn. intros [= <-]. reflexivity.
  - use_lifted H (tidy_compare later (date_validate (fromiso E))) F a. cbn. intros [= <-]. reflexivity.
  - assert (T : tidy (match k with
                      | KMulti | KIndexedMulti => add_merge tc same_index_lang (lang_validate langs)
                      | _ => add_append (lang_validate langs) end))
      by (destruct k; first [apply tidy_merge|apply tidy_append]).
    use_lifted H T F a.
    assert (G : Forall (entry_ok langs) a).
    { match type of F with fold_left ?g vs0 None = _ =>
        assert (G : match fold_left g vs0 None with Some l => Forall (entry_ok langs) l | None => True end) end.
      { apply (fold_inv (fun st => match st with Some l => Forall (entry_ok langs) l | None => True end));
          [exact I|]. intros st v Hs.
        assert (Hst : Forall (entry_ok langs) (stored st)) by (destruct st; cbn; auto).
        destruct k; unfold add_merge, add_append;
          destruct (retrieve (lang_validate langs) v) as [ns|] eqn:Er; cbn [bind fst]; auto;
          pose proof (retrieve_entry (entry_ok langs) _ _ _ (lang_validate_entry langs) Er) as Hn;
          try (cbn [fst]; apply Forall_app; split; assumption);
          destruct (merge_all tc same_index_lang ns (stored st)) as [l|] eqn:Em; cbn [fst]; auto;
          (eapply merge_all_entry; [| |exact Em]; assumption). }
      rewrite F in G. exact G. }
    clear F T H. cbn [end_ on pE]. destruct k.
    + (* KMulti *) unfold multilang_end. cbn [snd].
      destruct (group_langs [] (isort ix_leb a)) as [d|] eqn:Ed; cbn [bind]; [|discriminate].
      destruct (snd (end_validate _ _ _)) as [os|] eqn:Eo; cbn [bind]; [|discriminate].
      intros [= <-]. cbn [acceptable].
      apply (leaves_lang (ignore E) tc langs _ os (fun x => x = None)) in Eo; auto.
      apply Forall_forall. intros r Hr. apply in_map_iff in Hr. destruct Hr as (p & <- & Hp).
      apply isort_in in Hp. cbn. split; auto. exists (fst p). split; auto.
      destruct (group_langs_keys _ _ _ Ed p Hp) as [[]|Hl]. apply in_map_iff in Hl.
      destruct Hl as (e & <- & He). apply isort_in in He. rewrite Forall_forall in G. exact (G _ He).
    + unfold indexed_multilang_end. cbn [snd].
      destruct (snd (end_validate _ _ _)) as [os|] eqn:Eo; cbn [bind]; [|discriminate].
      intros [= <-]. cbn [acceptable].
      apply (leaves_lang (ignore E) tc langs _ os (fun x => x <> None)) in Eo; auto.
      apply Forall_forall. intros r Hr. apply in_map_iff in Hr. destruct Hr as (e & <- & He).
      apply isort_in in He. cbn. split; [|discriminate]. rewrite Forall_forall in G. exists (lg e).
      split; auto. exact (G _ He).
    + unfold nolang_end. cbn [snd].
      destruct (snd (end_validate _ _ _)) as [os|] eqn:Eo; cbn [bind]; [|discriminate].
      intros [= <-]. cbn [acceptable].
      apply (leaves_lang (ignore E) tc langs _ os (fun x => x = None)) in Eo; auto.
      now apply nolang_rows_ok.
    + unfold nlr_end. cbn [snd].
      destruct (snd (end_validate _ _ _)) as [os|] eqn:Eo; cbn [bind]; [|discriminate].
      intros [= <-]. cbn [acceptable].
      apply (leaves_lang (ignore E) tc langs _ os (fun x => x = None)) in Eo; auto.
      apply Forall_filter. now apply nolang_rows_ok.
    + pose proof (nolang_rows_ok langs a G) as R. unfold first_end. cbn [snd].
      destruct (nolang_rows a) as [|r rs]; cbn [bind]; [intros [= <-]; exact I|].
      destruct (snd (end_validate (ignore E) tc [r])) as [os|] eqn:Eo; cbn [bind]; [|discriminate].
      destruct os as [|x os]; cbn [bind]; [discriminate|]. intros [= <-]. cbn [acceptable].
      apply (leaves_lang (ignore E) tc langs _ _ (fun x => x = None)) in Eo.
      * now inversion Eo.
      * inversion R; subst. constructor; [assumption|constructor].
    + pose proof (nolang_rows_ok langs a G) as R. unfold last_end. cbn [snd].
      apply Forall_rev in R. destruct (rev (nolang_rows a)) as [|r rs]; cbn [bind]; [intros [= <-]; exact I|].
      destruct (snd (end_validate (ignore E) tc [r])) as [os|] eqn:Eo; cbn [bind]; [|discriminate].
      destruct (rev os) as [|x os'] eqn:Ev; cbn [bind]; [discriminate|]. intros [= <-]. cbn [acceptable].
      apply (leaves_lang (ignore E) tc langs _ _ (fun x => x = None)) in Eo.
      * apply Forall_rev in Eo. rewrite Ev in Eo. now inversion Eo.
      * inversion R; subst. constructor; [assumption|constructor].
  - use_lifted H (tidy_merge tc same_index (indexed_validate [kindex; ktext])) F a. cbn [end_ on pE].
    unfold indexed_end. cbn [snd].
    destruct (snd (end_validate _ _ _)) as [os|] eqn:Eo; cbn [bind]; [|discriminate].
    intros [= <-]. cbn [acceptable]. apply end_validate_leaves in Eo. eapply Forall_impl; [|exact Eo].
    cbn. intros x (G1 & r & G2 & G3 & G4). apply in_map_iff in G2. destruct G2 as (e & <- & _).
    cbn in *. rewrite G3, G4. split; [discriminate|auto].
  - use_lifted H tidy_named F a. cbn [end_ on pE]. unfold named_end. cbn [snd].
    destruct (snd (end_validate _ _ _)) as [os|] eqn:Eo; cbn [bind]; [|discriminate].
    intros [= <-]. cbn [acceptable]. apply end_validate_leaves in Eo. eapply Forall_impl; [|exact Eo].
    cbn. intros x (G1 & r & G2 & G3 & G4). apply in_map_iff in G2. destruct G2 as (e & <- & _).
    cbn in *. rewrite G3, G4. split; [auto|]. split; [discriminate|auto].
  - use_lifted H tidy_any F a. cbn. intros [= <-]. exact I.
Qed.
