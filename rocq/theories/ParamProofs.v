(** Proofs about parameters that go to ILCD and come back. *)
From Coq Require Import Ascii String List Bool Arith NArith ZArith Lia Sorted.
From Verif Require Import PyBase PyBaseFacts PyValues ValidatorsModel MultiLangModel MultiLangSpec MultiLangProofs MultiLangProps DotDictModel SchemaModel SchemaTables
  VariableModel ImportModel TablesModel CommentModel CommentSpec CommentProofs CommentProps PlainTextProofs ProseModel ProseSpec ProseProofs ProseTrips RegainModel RegainSpec RegainProofs ParamModel ParamSpec.
Import ListNotations.
Local Open Scope string_scope.
Local Open Scope list_scope.

(** ** Brackets *)
Lemma last_close_end b c : ~ In 93%N c -> last_close (b ++ lit "]" ++ c) = Some (b, c).
Proof.
  intros Hc. assert (H0 : last_close c = None).
  { induction c as [|x c IH]; [reflexivity|]. cbn [last_close]. rewrite IH by (intros H; apply Hc; now right). destruct (N.eqb_spec x 93); [|reflexivity]. exfalso. apply Hc. now left. }
  induction b as [|x b IH]; cbn [app].
  - change (lit "]" ++ c) with (93%N :: c). cbn [last_close]. rewrite H0. reflexivity.
  - cbn [last_close]. rewrite IH. reflexivity.
Qed.
Lemma bracket_around a b c : ~ In 91%N a -> ~ In 93%N c -> bracket (a ++ lit "[" ++ b ++ lit "]" ++ c) = Some (a, b, c).
Proof.
  intros Ha Hc. induction a as [|x a IH].
  - cbn [app]. change (lit "[" ++ b ++ lit "]" ++ c) with (91%N :: (b ++ lit "]" ++ c)). cbn [bracket]. rewrite N.eqb_refl, last_close_end by exact Hc. reflexivity.
  - rewrite <- app_comm_cons. cbn [bracket]. destruct (N.eqb_spec x 91) as [->|_]; [exfalso; apply Ha; now left|]. rewrite IH by (intros H; apply Ha; now right). reflexivity.
Qed.
Lemma bracket_absent s : bracketless s -> bracket s = None.
Proof.
  induction s as [|x s IH]; intros H; [reflexivity|]. cbn [bracket]. destruct (N.eqb_spec x 91) as [->|_]; [exfalso; apply H; now left|].
  rewrite IH; [reflexivity|]. intros Hs. apply H. now right.
Qed.
Lemma split_line x t : one_line x -> split nl (x ++ nl ++ t) = x :: split nl t.
Proof.
  intros Hx. unfold split. change (nl ++ t) with (10%N :: t).
  assert (G : forall acc, split_aux nl 0 acc (x ++ 10%N :: t) = (rev acc ++ x) :: split_aux nl 0 [] t); [|apply (G [])].
  induction x as [|c x IH]; intros acc.
  - cbn [app split_aux]. change (prefixb nl (10%N :: t)) with true. cbv iota. rewrite app_nil_r. reflexivity.
  - cbn [app split_aux]. change (prefixb nl (c :: x ++ 10%N :: t)) with (if N.eqb 10 c then true else false).
    destruct (N.eqb_spec 10 c) as [<-|_]; [exfalso; apply Hx; now left|]. rewrite IH by (intros H; apply Hx; now right). cbn [rev]. rewrite <- app_assoc. reflexivity.
Qed.
Lemma split_one x : one_line x -> split nl x = [x].
Proof. intros H. apply (split_absent nl 10%N); [now left|exact H]. Qed.
Lemma in_join c sep l x : In x l -> In c x -> In c (join sep l).
Proof.
  induction l as [|y l IH]; intros Hx Hc; [destruct Hx|]. destruct l as [|z l].
  - destruct Hx as [->|[]]. exact Hc.
  - rewrite join_cons by discriminate. destruct Hx as [->|Hx]; apply in_or_app; [now left|]. right. apply in_or_app. right. auto.
Qed.
Lemma lines_bracketless t x : bracketless t -> In x (split nl t) -> bracketless x.
Proof. intros Ht Hx Hc. apply Ht. rewrite <- (split_join nl t) by discriminate. eapply in_join; eauto. Qed.
Lemma first_unit_none ls : (forall x, In x ls -> bracketless x) -> first_unit ls = None.
Proof. induction ls as [|x ls IH]; intros H; [reflexivity|]. cbn [first_unit]. rewrite bracket_absent by (apply H; now left). apply IH. intros y Hy. apply H. now right. Qed.
Lemma unit_absent t : bracketless t -> unit_in t = None.
Proof. intros H. apply first_unit_none. intros x. now apply lines_bracketless. Qed.
Lemma unmark_lines ls : (forall x, In x ls -> bracketless x) -> map unmark ls = ls.
Proof.
  induction ls as [|x ls IH]; intros H; [reflexivity|]. cbn [map]. rewrite IH by (intros y Hy; apply H; now right). unfold unmark. rewrite bracket_absent by (apply H; now left). reflexivity.
Qed.
Definition mark (u : pystr) : pystr := lit "[" ++ u ++ lit "]".
Lemma bracket_mark u : bracket (mark u) = Some ([], u, []).
Proof. unfold mark. pose proof (bracket_around [] u [] (fun H => H) (fun H => H)) as H. rewrite app_nil_r in H. exact H. Qed.
Lemma mark_line u : one_line u -> one_line (mark u).
Proof. intros H Hi. unfold mark in Hi. apply in_app_or in Hi as [Hi|Hi]; [vm_compute in Hi; intuition discriminate|]. apply in_app_or in Hi as [Hi|Hi]; [auto|]. vm_compute in Hi. intuition discriminate. Qed.
(** what becomes of one text *)
Definition cleaned (t : pystr) : pystr := match unit_in t with Some _ => without_marks t | None => t end.
Lemma unit_mark u : one_line u -> unit_in (mark u) = Some u.
Proof. intros H. unfold unit_in. rewrite split_one by now apply mark_line. cbn [first_unit]. now rewrite bracket_mark. Qed.
Lemma unit_mark_text u t : one_line u -> unit_in (mark u ++ newline ++ t) = Some u.
Proof. intros H. unfold unit_in. change newline with nl. rewrite split_line by now apply mark_line. cbn [first_unit]. now rewrite bracket_mark. Qed.
Lemma cleaned_mark u : one_line u -> cleaned (mark u) = [].
Proof. intros H. unfold cleaned. rewrite unit_mark by exact H. unfold without_marks. rewrite split_one by now apply mark_line. cbn [map]. unfold unmark. rewrite bracket_mark. reflexivity. Qed.
Lemma cleaned_mark_text u t : one_line u -> bracketless t -> strip t = t -> cleaned (mark u ++ newline ++ t) = t.
Proof.
  intros H Ht Hs. unfold cleaned. rewrite unit_mark_text by exact H. unfold without_marks. change newline with nl. rewrite split_line by now apply mark_line. cbn [map].
  rewrite unmark_lines by (intros x; now apply lines_bracketless). unfold unmark. rewrite bracket_mark. rewrite join_cons by apply split_nonnil. rewrite split_join by discriminate.
  etransitivity; [|exact Hs]. reflexivity.
Qed.
Lemma cleaned_plain t : bracketless t -> cleaned t = t.
Proof. intros H. unfold cleaned. now rewrite unit_absent. Qed.

(** ** Reading *)
Lemma read_values rows : forall n, snd (read_remarks n rows) = numbered n (map (fun kt => (fst kt, cleaned (snd kt))) rows).
Proof.
  induction rows as [|[k t] rows IH]; intros n; [reflexivity|]. cbn [read_remarks map numbered fst snd]. unfold cleaned at 1. destruct (unit_in t); cbn [snd]; now rewrite IH.
Qed.
Lemma read_none rows : forall n, (forall k t, In (k, t) rows -> unit_in t = None) -> fst (read_remarks n rows) = None.
Proof.
  induction rows as [|[k t] rows IH]; intros n H; [reflexivity|]. cbn [read_remarks fst snd]. rewrite (H k t) by now left. cbn [fst]. apply IH. intros k' t' Hin. apply (H k'). now right.
Qed.
(** the unit found last *)
Lemma read_unit k t u rows : NoDup (map fst rows) -> In (k, t) rows -> unit_in t = Some u -> (forall l v, In (l, v) rows -> l <> k -> unit_in v = None) ->
  forall n, fst (read_remarks n rows) = Some u.
Proof.
  induction rows as [|[l v] rows IH]; intros Hnd Hin Hu Ho n; [destruct Hin|]. cbn [map fst] in Hnd. apply NoDup_cons_iff in Hnd as [Hn Hnd]. cbn [read_remarks fst snd].
  destruct Hin as [[= -> ->]|Hin].
  - rewrite Hu. cbn [fst]. rewrite read_none; [reflexivity|]. intros l v Hv. apply (Ho l v); [now right|]. intros ->. apply Hn. apply in_map_iff. exists (k, v). auto.
  - assert (Hl : l <> k) by (intros ->; apply Hn; apply in_map_iff; exists (k, t); auto).
    rewrite (Ho l v) by (auto; now left). cbn [fst]. apply IH; auto. intros l' v' H'. apply Ho. now right.
Qed.

Section Trip.
  Context {V : Type} (E : env) (fixed : pystr -> result pystr) (long : nat) (identify : pystr -> pystr).
  Notation remarks := (@remarks V).
  Notation create_var := (@create_var V E fixed).
  Notation make_param := (@make_param V E long identify).

  Lemma remarks_speak n (p : eparam V) : Forall2 speaks (remarks n p) ([((-1)%Z, lit "en", mark (str_unit (q_unit p)))] :: map (fun a => [a]) (numbers n (q_comments p))).
  Proof. constructor; [apply speaks_entry|]. rewrite numbered_spaced, numbers_spaced. apply spaced_speak. Qed.
  Lemma numbers_from l : forall n i k t, In (i, k, t) (numbers n l) -> (n <= i)%Z.
  Proof. induction l as [|s l IH]; intros n i k t H; [destruct H|]. cbn [numbers] in H. destruct H as [[= <- <- <-]|H]; [lia|]. apply IH in H. lia. Qed.

  Lemma speech_rows rows : flat_map speech_of (map row_of rows) = rows.
  Proof. induction rows as [|[k t] rows IH]; [reflexivity|]. cbn [map flat_map speech_of row_of o_lang optional app fst snd o_text]. now rewrite IH. Qed.

  (** what is written: rows made of the unit and the comments *)
  Lemma written_rows n (p : eparam V) os rows : (0 <= n)%Z -> field_out E vcomment_class (remarks n p) = Ok os -> comments_are p rows ->
    exists R, language_rows sep_ (((-1)%Z, lit "en", mark (str_unit (q_unit p))) :: keep (numbers n (q_comments p))) R /\
      language_rows sep_ (keep (numbers n (q_comments p))) rows /\ (room (ignore E) long (str_unit (q_unit p)) p -> flat_map speech_of os = R).
  Proof.
    intros Hn H (Hnd & Hal & Hrows). destruct (multi_out E _ _ _ _ H) as (Ha & R & R1 & R2).
    rewrite (additions_speak _ _ _ Ha (remarks_speak n p)) in R1. cbn [concat app] in R1. rewrite concat_single in R1.
    set (u := str_unit (q_unit p)) in *.
    assert (Hm : keep (((-1)%Z, lit "en", mark u) :: numbers n (q_comments p)) = ((-1)%Z, lit "en", mark u) :: keep (numbers n (q_comments p))).
    { change (((-1)%Z, lit "en", mark u) :: numbers n (q_comments p)) with ([((-1)%Z, lit "en", mark u)] ++ numbers n (q_comments p)). rewrite keep_app, keep_all; [reflexivity|].
      repeat constructor. exists 91%N. split; [now left|reflexivity]. }
    assert (R1' : language_rows sep_ (((-1)%Z, lit "en", mark u) :: keep (numbers n (q_comments p))) R) by (rewrite <- Hm; exact R1). clear R1. rename R1' into R1.
    exists R. split; [exact R1|].
    assert (HB : language_rows sep_ (keep (numbers n (q_comments p))) rows) by (rewrite numbers_spaced; now apply spaced_any).
    split; [exact HB|]. intros Hroom. rewrite R2; [apply speech_rows|]. intros k t Hin. left.
    destruct (two_groups sep_default [((-1)%Z, lit "en", mark u)] (keep (numbers n (q_comments p))) (lit "en") (mark u) rows R) as (_ & _ & _ & T4); auto.
    { intros i l v [[= <- <- <-]|[]]. reflexivity. }
    { intros i v j w [[= <- <-]|[]] Hj. apply keep_in in Hj as [Hj _]. apply numbers_from in Hj. lia. }
    { discriminate. }
    { exists [(-1)%Z]. split; [repeat constructor|]. split; [|reflexivity]. intros i. split; [intros [<-|[]]; exists (mark u); now left|]. intros (v & [[= <- <-]|[]]). now left. }
    destruct Hroom as [Hi|[Hu Hc]]; [left; exact Hi|]. right.
    change (1 <= length t <= 500). assert (Hl : length (mark u) = length u + 2) by (unfold mark; rewrite !app_length; cbn; lia).
    apply T4 in Hin as [[-> [[_ ->]|(v & Hv & ->)]]|[Hk Hv]].
    - lia.
    - apply Hrows in Hv as [Hv _]. apply Hc in Hv as [_ Hv]. rewrite str_eqb_refl in Hv. rewrite !app_length. cbn [length newline]. lia.
    - apply Hrows in Hv as [Hv Hvis]. apply Hc in Hv as [_ Hv]. destruct Hvis as (c & Hc' & _). destruct t; [destruct Hc'|]. cbn [length] in *. lia.
  Qed.

  Lemma trip_remarks n m (p : eparam V) os rows : (0 <= n)%Z -> field_out E vcomment_class (remarks n p) = Ok os -> comments_are p rows -> plain_comments p ->
    one_line (str_unit (q_unit p)) -> room (ignore E) long (str_unit (q_unit p)) p ->
    let r := read_remarks m (flat_map speech_of os) in
    fst r = Some (str_unit (q_unit p)) /\
    forall out, (match snd r with [] => Ok [] | l => spoken_out E (long_class long) [VList l] end) = Ok out -> out = rows.
  Proof.
    intros Hn H Hc Hp Hu Hroom r. destruct (written_rows n p os rows Hn H Hc) as (R & R1 & HB & R2). specialize (R2 Hroom). unfold r. rewrite R2. clear R2 r.
    destruct Hc as (Hnd & Hal & Hrows). set (u := str_unit (q_unit p)) in *.
    assert (G1 : forall (i : Z) (l v : pystr), In (i, l, v) [((-1)%Z, lit "en", mark u)] -> l = lit "en") by (intros i l v [[= <- <- <-]|[]]; reflexivity).
    assert (G2 : forall i v j w, In (i, lit "en", v) [((-1)%Z, lit "en", mark u)] -> In (j, lit "en", w) (keep (numbers n (q_comments p))) -> (i < j)%Z).
    { intros i v j w [[= <- <-]|[]] Hj. apply keep_in in Hj as [Hj _]. apply numbers_from in Hj. lia. }
    assert (G3 : [((-1)%Z, lit "en", mark u)] <> []) by discriminate.
    assert (G4 : lang_text sep_ [((-1)%Z, lit "en", mark u)] (lit "en") (mark u)).
    { exists [(-1)%Z]. split; [repeat constructor|]. split; [|reflexivity]. intros i. split; [intros [<-|[]]; exists (mark u); now left|]. intros (v & [[= <- <-]|[]]). now left. }
    destruct (two_groups sep_default _ _ (lit "en") (mark u) rows R G1 G2 G3 G4 HB R1) as (T1 & T2 & T3 & T4).
    assert (HndR : NoDup (map fst R)) by (apply sorted_nodup, R1).
    split.
    - assert (Hen : exists t, In (lit "en", t) R /\ unit_in t = Some u).
      { destruct (in_dec (list_eq_dec N.eq_dec) (lit "en") (map fst rows)) as [Hk|Hk].
        - apply in_map_iff in Hk as ([k t] & Ek & Hk). cbn [fst] in Ek. subst k. exists (mark u ++ newline ++ t). split; [auto|]. now apply unit_mark_text.
        - exists (mark u). split; [auto|]. now apply unit_mark. }
      destruct Hen as (t & Ht & Ut). apply (read_unit (lit "en") t u R HndR Ht Ut). intros l v Hv Hl.
      apply T4 in Hv as [[-> _]|[_ Hv]]; [contradiction|]. apply Hrows in Hv as [Hv _]. apply Hp in Hv as [Hv _]. now apply unit_absent.
    - intros out Ho. rewrite read_values in Ho.
      assert (Hne : R <> []).
      { destruct (in_dec (list_eq_dec N.eq_dec) (lit "en") (map fst rows)) as [Hk|Hk]; [apply in_map_iff in Hk as ([k t] & Ek & Hk); cbn [fst] in Ek; subst k; specialize (T1 t Hk)|specialize (T2 Hk); clear T1; rename T2 into T1]; intros ->; destruct T1. }
      assert (Hs : said_rows (map (fun kt => (fst kt, cleaned (snd kt))) R) = rows).
      { rewrite (head_returns sep_default _ _ (lit "en") (mark u) rows R cleaned (fun t => t) G1 G2 G3 G4 HB R1); [apply map_id_rows|..].
        - intros [k t] Hin. now apply Hrows in Hin.
        - intros t Hin. now apply Hrows in Hin.
        - intros _. rewrite cleaned_mark by exact Hu. intros (c & [] & _).
        - intros t Hin. apply Hrows in Hin as [Hin _]. apply Hp in Hin as [Hb Hst]. apply cleaned_mark_text; auto.
        - intros l t Hin _. apply Hrows in Hin as [Hin _]. apply Hp in Hin as [Hb _]. now apply cleaned_plain. }
      assert (Ho' : spoken_out E (long_class long) [VList (numbered m (map (fun kt => (fst kt, cleaned (snd kt))) R))] = Ok out) by (destruct R as [|[a b] R']; [contradiction|exact Ho]).
      clear Ho. eapply spoken_long; [exact Ho'|constructor; [apply speaks_numbered|constructor]|..].
      + cbn [concat]. rewrite app_nil_r, numbers_spaced. apply spaced_any.
        * rewrite map_map. cbn [fst]. exact HndR.
        * exact Hal.
        * intros k t. rewrite <- Hs. apply said_in.
      + intros k t Hin. apply Hrows in Hin as [Hin _]. destruct Hroom as [Hi|[_ Hr]]; [left; exact Hi|]. right. now apply Hr in Hin.
  Qed.

  (** ** One parameter *)
  Lemma unit_row u out : spoken_out E punit_class [entry_at 0 (english u)] = Ok out -> visible_text u -> unit_room (ignore E) u -> out = [english u].
  Proof.
    unfold spoken_out. intros H Hv Hr. destruct (field_out E punit_class _) as [os|] eqn:Eo; cbn [bind] in H; [|discriminate]. injection H as <-.
    destruct (multi_out E None (Unique_ 40) _ os Eo) as (Ha & R & R1 & R2).
    rewrite (additions_speak None _ [[(0%Z, lit "en", u)]] Ha) in R1 by (constructor; [apply (speaks_entry 0 (english u))|constructor]).
    cbn [concat app] in R1. rewrite keep_all in R1 by (repeat constructor; exact Hv).
    assert (HR : R = [english u]).
    { eapply language_rows_unique; [exact R1|]. split; [repeat constructor|]. split.
      - intros k. cbn [map fst english In]. split; [intros [<-|[]]; exists 0%Z, u; now left|]. intros (i & v & [[= <- <- <-]|[]]). now left.
      - intros k t [[= <- <-]|[]]. exists [0%Z]. split; [repeat constructor|]. split; [|reflexivity].
        intros i. split; [intros [<-|[]]; exists u; now left|]. intros (v & [[= <- <-]|[]]). now left. }
    subst R. rewrite R2; [reflexivity|]. intros k t [[= <- <-]|[]]. left. destruct Hr as [Hr|Hr]; [left; exact Hr|right; exact Hr].
  Qed.
  Lemma unit_blank u out : spoken_out E punit_class [entry_at 0 (english u)] = Ok out -> ~ visible_text u -> out = [].
  Proof.
    unfold spoken_out. intros H Hv. destruct (field_out E punit_class _) as [os|] eqn:Eo; cbn [bind] in H; [|discriminate]. injection H as <-.
    destruct (multi_out E None (Unique_ 40) _ os Eo) as (Ha & R & R1 & R2).
    rewrite (additions_speak None _ [[(0%Z, lit "en", u)]] Ha) in R1 by (constructor; [apply (speaks_entry 0 (english u))|constructor]).
    cbn [concat app] in R1.
    assert (Hk : keep [(0%Z, lit "en", u)] = []).
    { destruct (keep [(0%Z, lit "en", u)]) as [|a l] eqn:Ek; [reflexivity|]. exfalso. assert (Hin : In a (keep [(0%Z, lit "en", u)])) by (rewrite Ek; now left).
      apply keep_in in Hin as [[<-|[]] Hin]. auto. }
    assert (R1' : language_rows None [] R) by (rewrite <- Hk; exact R1). clear R1. rename R1' into R1. assert (R = []).
    { destruct R as [|[k t] R]; [reflexivity|]. destruct R1 as (_ & R1 & _). destruct (proj1 (R1 k) (or_introl eq_refl)) as (i & v & []). }
    subst R. rewrite R2; [reflexivity|]. intros k t [].
  Qed.
  Lemma text_lim n x l : text_out E (CLim n (Some sep_default)) [x] = Ok l -> l = [x].
  Proof.
    unfold text_out. cbn [map assign_all]. change (add_ E (CLim n (Some sep_default)) None (VStr x)) with (Some (ST x), @None exn). cbn [assign_all bind end_ on pT].
    destruct (limited_end (ignore E) n (Some x)) as [t|] eqn:Et; cbn [bind]; [|discriminate]. intros [= <-].
    unfold limited_end in Et. destruct (_ && _); [discriminate|]. now injection Et as ->.
  Qed.
  Lemma text_variable x l : text_out E CVariableName [x] = Ok l -> l = [x].
  Proof.
    unfold text_out. cbn [map assign_all]. unfold add_, lift, add_replace. destruct (VariableName (is_word E) (VStr x)) as [y|] eqn:Em; cbn [assign_all bind end_ on pT]; [|discriminate].
    assert (y = x) as ->.
    { unfold VariableName, pattern in Em. match type of Em with (if ?b then _ else _) = _ => destruct b end; [now injection Em as ->|discriminate]. }
    destruct (limited_end (ignore E) (LMax 40) (Some x)) as [t|] eqn:Et; cbn [bind]; [|discriminate]. intros [= <-].
    unfold limited_end in Et. destruct (_ && _); [discriminate|]. now injection Et as ->.
  Qed.
  Lemma create_inv n k (p : eparam V) v : create_var n k p = Ok v ->
    v_name v = given_name k p /\ v_value v = q_value p /\ corrected fixed (q_formula p) = Ok (v_formula v) /\
    exists os, field_out E vcomment_class (remarks n p) = Ok os /\ v_comment v = flat_map speech_of os.
  Proof.
    unfold ParamModel.create_var. intros H. destruct (text_out E vname_class [given_name k p]) as [nm|] eqn:En; cbn [bind] in H; [|discriminate].
    destruct (corrected fixed (q_formula p)) as [f|] eqn:Ef; cbn [bind] in H; [|discriminate].
    destruct (field_out E vcomment_class (remarks n p)) as [c|] eqn:Ec; cbn [bind] in H; [|discriminate]. injection H as <-. cbn [v_name v_value v_formula v_comment].
    apply text_lim in En. subst nm. cbn [concat]. rewrite app_nil_r. repeat (split; [reflexivity|]). eauto.
  Qed.
  Lemma param_inv nc m (v : pvar V) r : make_param nc m v = Ok r ->
    r_id r = identify (v_name v) /\ r_variable r = [ecs2_name (v_name v)] /\ r_value r = v_value v /\
    r_formula r = match v_formula v with None | Some [] => None | Some f => Some (fix_names nc f) end /\
    spoken_out E pname_class [entry_at 0 (english (v_name v))] = Ok (r_names r) /\
    (match fst (read_remarks m (v_comment v)) with None => Ok [] | Some u => spoken_out E punit_class [entry_at 0 (english u)] end) = Ok (r_unit r) /\
    (match snd (read_remarks m (v_comment v)) with [] => Ok [] | l => spoken_out E (long_class long) [VList l] end) = Ok (r_comments r).
  Proof.
    unfold ParamModel.make_param. intros H. destruct (spoken_out E pname_class _) as [nm|] eqn:En; cbn [bind] in H; [|discriminate].
    destruct (text_out E CVariableName [ecs2_name (v_name v)]) as [var|] eqn:Ev; cbn [bind] in H; [|discriminate].
    match type of H with bind ?x _ = _ => destruct x as [un|] eqn:Eu; cbn [bind] in H; [|discriminate] end.
    match type of H with bind ?x _ = _ => destruct x as [co|] eqn:Eco; cbn [bind] in H; [|discriminate] end.
    injection H as <-. cbn [r_id r_names r_variable r_formula r_value r_unit r_comments]. apply text_variable in Ev. subst var. auto 10.
  Qed.

  (** ** All parameters *)
  Definition through (nc : list (pystr * pystr)) (p : eparam V) (r : rparam V) : Prop :=
    exists n k m v, (0 <= n)%Z /\ create_var n k p = Ok v /\ make_param nc m v = Ok r.
  Lemma str_in_In x l : str_in x l = true -> In x l.
  Proof. unfold str_in. intros H. apply existsb_exists in H as (y & Hy & He). apply str_eqb_eq in He. now subst y. Qed.
  Lemma trip_vars nc used ps names : Forall2 (fun p x => q_variable p = Some x /\ x <> []) ps names -> NoDup names ->
    forall n k taken m vs rs, (0 <= n)%Z -> (forall x, In x names -> ~ In x taken /\ used x = false) ->
    send E fixed true n k taken ps = Ok vs -> make_params E long identify nc used m vs = Ok rs ->
    Forall2 (through nc) ps rs /\ Forall2 (fun x (v : pvar V) => v_name v = x) names vs.
  Proof.
    induction 1 as [|p x ps names [Hx Hne] _ IH]; intros Hnd n k taken m vs rs Hn Hx' Hs Hm.
    - cbn [send] in Hs. injection Hs as <-. cbn [make_params] in Hm. injection Hm as <-. split; constructor.
    - apply NoDup_cons_iff in Hnd as [Hnx Hnd]. cbn [send] in Hs.
      assert (Hb : becomes true p = true) by (unfold becomes, truthy; rewrite Hx; destruct x; [contradiction|reflexivity]). rewrite Hb in Hs. cbn [negb] in Hs.
      assert (Hg : given_name k p = x) by (unfold given_name; now rewrite Hx). rewrite Hg in Hs.
      destruct (Hx' x (or_introl eq_refl)) as [Ht Hu].
      destruct (str_in x taken) eqn:Ei; [apply str_in_In in Ei; contradiction|].
      destruct (create_var n k p) as [v|] eqn:Ec; cbn [bind] in Hs; [|discriminate].
      destruct (send E fixed true _ (S k) (x :: taken) ps) as [vs'|] eqn:Es; cbn [bind] in Hs; [|discriminate]. injection Hs as <-.
      pose proof (create_inv _ _ _ _ Ec) as (Hv & _). rewrite Hg in Hv. cbn [make_params] in Hm. rewrite Hv, Hu in Hm.
      destruct (make_param nc m v) as [r|] eqn:Em; cbn [bind] in Hm; [|discriminate].
      destruct (make_params E long identify nc used _ vs') as [rs'|] eqn:Er; cbn [bind] in Hm; [|discriminate]. injection Hm as <-.
      assert (Hpre : forall y, In y names -> ~ In y (x :: taken) /\ used y = false).
      { intros y Hy. destruct (Hx' y (or_intror Hy)) as [H1 H2]. split; [|exact H2]. intros [<-|H3]; auto. }
      assert (Hn' : (0 <= n + Z.of_nat (length (q_comments p)))%Z) by lia.
      destruct (IH Hnd _ _ _ _ _ _ Hn' Hpre Es Er) as [I1 I2].
      split; constructor; auto. exists n, k, m, v. auto.
  Qed.
  Lemma trip_each n m k taken others used ps rs : (0 <= n)%Z -> named_apart taken used ps ->
    trip E fixed long identify true n m k taken others used ps = Ok rs ->
    exists nc, Forall2 (through nc) ps rs /\ (others = [] -> (forall p x, In p ps -> q_variable p = Some x -> letter_first x = true) -> nc = []).
  Proof.
    intros Hn (names & H1 & H2 & H3). unfold trip. destruct (send E fixed true n k taken ps) as [vs|] eqn:Es; cbn [bind]; [|discriminate]. intros Hm.
    destruct (trip_vars _ used ps names H1 H2 n k taken m vs rs Hn H3 Es Hm) as [T1 T2]. eexists. split; [exact T1|].
    intros -> Hl. cbn [app]. assert (Hf : Forall (fun x => letter_first x = true) names).
    { clear -H1 Hl. induction H1 as [|p x ps names [Hx _] _ IH]; constructor; [apply (Hl p x (or_introl eq_refl) Hx)|]. apply IH. intros q y Hq. apply Hl. now right. }
    clear -T2 Hf. induction T2 as [|x v names vs Hv _ IH]; [reflexivity|]. inversion Hf; subst. unfold odd_names. cbn [flat_map].
    match goal with H : letter_first _ = true |- _ => rewrite H end. now apply IH.
  Qed.
End Trip.
