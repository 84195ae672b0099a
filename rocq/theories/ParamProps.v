(** Parameters of EcoSpold2 on the way to ILCD and back: C205-C207. *)
From Coq Require Import Ascii String List Bool Arith NArith ZArith Lia Sorted.
From Verif Require Import PyBase PyBaseFacts PyValues ValidatorsModel MultiLangModel MultiLangSpec MultiLangProofs DotDictModel SchemaModel SchemaTables
  VariableModel ImportModel PlainTextProofs ProseModel ProseSpec ProseProofs ProseTrips RegainSpec RegainProofs ParamModel ParamSpec ParamProofs.
Import ListNotations.
Local Open Scope string_scope.
Local Open Scope list_scope.

Lemma latin_first x : latin x -> letter_first x = true.
Proof.
  intros (c & r & -> & H). cbn [letter_first ascii_letter]. unfold ascii_letter. apply orb_true_iff. rewrite !andb_true_iff, !N.leb_le. lia.
Qed.
Lemma Forall2_imp {A B} (P Q : A -> B -> Prop) l l' : (forall a b, In a l -> P a b -> Q a b) -> Forall2 P l l' -> Forall2 Q l l'.
Proof. intros H HF. induction HF as [|a b l l' Hab _ IH]; constructor; [apply H; [now left|exact Hab]|]. apply IH. intros a' b' Ha. apply H. now right. Qed.

Section Theorems.
Context {V : Type} (E : env) (fixed : pystr -> result pystr) (long : nat) (identify : pystr -> pystr).
Notation trip := (@trip V E fixed long identify).

(** ** C205: parameters survive the trip to ILCD and back *)
(** Parameters with variable names of their own come back in their order, with variable name, value, and the formula as it was corrected for ILCD. *)
Theorem C205_parameters_partial n m k taken used ps rs : (0 <= n)%Z -> named_apart taken used ps ->
  (forall p x, In p ps -> q_variable p = Some x -> latin x) ->
  trip true n m k taken [] used ps = Ok rs ->
  Forall2 (fun p r => (forall x, q_variable p = Some x -> r_variable r = [x]) /\ r_value r = q_value p /\
    (q_formula p = None -> r_formula r = None) /\
    (forall f, q_formula p = Some f -> (strip f = [] -> r_formula r = None) /\
       (strip f <> [] -> exists g, fixed (strip f) = Ok g /\ (g <> [] -> r_formula r = Some g)))) ps rs.
Proof.
  intros Hn Hna Hl H. destruct (trip_each E fixed long identify n m k taken [] used ps rs Hn Hna H) as (nc & HF & Hnc).
  rewrite Hnc in HF; [|reflexivity|intros p x Hp Hx; apply latin_first; eauto]. clear H Hnc.
  assert (Hx0 : forall p, In p ps -> exists x, q_variable p = Some x).
  { destruct Hna as (names & H1 & _). clear -H1. induction H1 as [|p x ps names [Hx _] _ IH]; [intros ? []|]. intros q [<-|Hq]; eauto. }
  revert HF. apply Forall2_imp. intros p r Hp (n' & k' & m' & v & _ & Hc & Hm). apply create_inv in Hc as (Cn & Cv & Cf & _). apply param_inv in Hm as (_ & Mv & Mval & Mf & _).
  split; [|split; [|split]].
  - intros x Hx. rewrite Mv, Cn. unfold given_name. rewrite Hx. unfold ecs2_name. now rewrite (latin_first x (Hl p x Hp Hx)).
  - congruence.
  - intros Hf. rewrite Hf in Cf. cbn in Cf. injection Cf as Cf. now rewrite Mf, <- Cf.
  - intros f Hf. rewrite Hf in Cf. unfold corrected, math_text in Cf. split.
    + intros Hs. rewrite Hs in Cf. injection Cf as Cf. now rewrite Mf, <- Cf.
    + intros Hs. destruct (strip f) as [|c s] eqn:Es; [contradiction|]. destruct (fixed (c :: s)) as [g|] eqn:Eg; cbn [bind] in Cf; [|discriminate]. injection Cf as Cf.
      exists g. split; [reflexivity|]. intros Hg. rewrite Mf, <- Cf. destruct g; [contradiction|reflexivity].
Qed.

(** Identifiers and names do not survive: they play no part in what comes back, whatever they are. *)
Theorem C205_identity_refuted n m k taken others used (new_id : eparam V -> pystr) (new_names : eparam V -> list speech) ps :
  trip true n m k taken others used
    (map (fun p => EParam (new_id p) (new_names p) (q_variable p) (q_formula p) (q_value p) (q_unit p) (q_comments p)) ps) =
  trip true n m k taken others used ps.
Proof.
  unfold ParamModel.trip. assert (Hs : forall ps n k taken, send E fixed true n k taken
      (map (fun p => EParam (new_id p) (new_names p) (q_variable p) (q_formula p) (q_value p) (q_unit p) (q_comments p)) ps) = send E fixed true n k taken ps); [|now rewrite Hs].
  clear. induction ps as [|p ps IH]; intros n k taken; [reflexivity|]. cbn [map send q_comments].
  change (becomes true (EParam (new_id p) (new_names p) (q_variable p) (q_formula p) (q_value p) (q_unit p) (q_comments p))) with (becomes true p).
  change (given_name k (EParam (new_id p) (new_names p) (q_variable p) (q_formula p) (q_value p) (q_unit p) (q_comments p))) with (given_name k p).
  change (create_var E fixed n k (EParam (new_id p) (new_names p) (q_variable p) (q_formula p) (q_value p) (q_unit p) (q_comments p))) with (create_var E fixed n k p).
  rewrite !IH. reflexivity.
Qed.
(** The identifier that comes back is made of the variable name. *)
Theorem C205_new_identifier n m k taken others used ps rs : (0 <= n)%Z -> named_apart taken used ps -> trip true n m k taken others used ps = Ok rs ->
  Forall2 (fun p r => forall x, q_variable p = Some x -> r_id r = identify x) ps rs.
Proof.
  intros Hn Hna H. destruct (trip_each E fixed long identify n m k taken others used ps rs Hn Hna H) as (nc & HF & _). revert HF. apply Forall2_imp.
  intros p r _ (n' & k' & m' & v & _ & Hc & Hm) x Hx. apply create_inv in Hc as (Cn & _). apply param_inv in Hm as (Mi & _). rewrite Mi, Cn. unfold given_name. now rewrite Hx.
Qed.

(** Parameters without variable name and formula are lost, and with the option switched off all are. *)
Theorem C205_lost_refuted on n m k taken others used ps :
  (on = false \/ forall p, In p ps -> q_variable p = None /\ q_formula p = None) -> trip on n m k taken others used ps = Ok [].
Proof.
  intros H. unfold ParamModel.trip. assert (Hs : send E fixed on n k taken ps = Ok []).
  { revert n. induction ps as [|p ps IH]; intros n; [reflexivity|]. cbn [send].
    assert (Hb : becomes on p = false).
    { destruct H as [->|H]; [reflexivity|]. destruct (H p (or_introl eq_refl)) as [H1 H2]. unfold becomes. rewrite H1, H2. cbn. now destruct on. }
    rewrite Hb. cbn [negb]. apply IH. destruct H as [H|H]; [now left|]. right. intros q Hq. apply H. now right. }
  rewrite Hs. reflexivity.
Qed.

(** A variable name that does not begin with a Latin letter is changed. *)
Theorem C205_renamed_refuted n m k taken others used ps rs : (0 <= n)%Z -> named_apart taken used ps -> trip true n m k taken others used ps = Ok rs ->
  Forall2 (fun p r => forall x, q_variable p = Some x -> ~ latin x -> r_variable r = [lit "uc" ++ x]) ps rs.
Proof.
  intros Hn Hna H. destruct (trip_each E fixed long identify n m k taken others used ps rs Hn Hna H) as (nc & HF & _). revert HF. apply Forall2_imp.
  intros p r _ (n' & k' & m' & v & _ & Hc & Hm) x Hx Hl. apply create_inv in Hc as (Cn & _). apply param_inv in Hm as (_ & Mv & _). rewrite Mv, Cn. unfold given_name. rewrite Hx.
  unfold ecs2_name. destruct (letter_first x) eqn:El; [|reflexivity]. exfalso. apply Hl. destruct x as [|c x]; [discriminate|]. exists c, x. split; [reflexivity|].
  cbn [letter_first] in El. unfold ascii_letter in El. apply orb_true_iff in El. rewrite !andb_true_iff, !N.leb_le in El. lia.
Qed.
(** A parameter whose variable name another variable has is lost. *)
Theorem C205_taken_refuted on n m k taken others used p x : q_variable p = Some x -> In x taken -> trip on n m k taken others used [p] = Ok [].
Proof.
  intros Hx Ht. unfold ParamModel.trip. cbn [send]. unfold given_name. rewrite Hx.
  assert (Hi : str_in x taken = true) by (apply existsb_exists; exists x; split; [exact Ht|apply str_eqb_refl]). rewrite Hi. now destruct (negb (becomes on p)).
Qed.
(** So is the second of two parameters with the same variable name. *)
Theorem C205_same_name_refuted n m k taken others used p q x : q_variable p = Some x -> q_variable q = Some x -> x <> [] ->
  trip true n m k taken others used [p; q] = trip true n m k taken others used [p].
Proof.
  intros Hp Hq Hne. unfold ParamModel.trip. cbn [send]. unfold given_name, becomes, truthy. rewrite Hp, Hq. destruct x as [|c x]; [contradiction|]. cbn [orb andb negb].
  destruct (str_in (c :: x) taken) eqn:Ei; [reflexivity|].
  destruct (create_var E fixed n k p) as [v|]; cbn [bind]; [|reflexivity].
  assert (Hi : str_in (c :: x) ((c :: x) :: taken) = true) by (apply existsb_exists; exists (c :: x); split; [now left|apply str_eqb_refl]). match goal with |- context [str_in ?a ?b] => replace (str_in a b) with true by (symmetry; exact Hi) end. reflexivity.
Qed.
(** A parameter with a formula and without variable name comes back with a variable name made of a number. *)
Theorem C205_equation_refuted n m k taken others used p f rs : q_variable p = None -> q_formula p = Some f -> f <> [] ->
  ~ In (eq_name (lit "pa") k) taken -> used (eq_name (lit "pa") k) = false -> trip true n m k taken others used [p] = Ok rs ->
  exists r, rs = [r] /\ r_variable r = [lit "Eq_pa_" ++ str_of_N (N.of_nat k)] /\ r_value r = q_value p.
Proof.
  intros Hv Hf Hne Ht Hu. unfold ParamModel.trip. cbn [send]. unfold becomes, truthy. rewrite Hv, Hf. destruct f as [|c f]; [contradiction|]. cbn [orb andb negb].
  assert (Hg : given_name k p = eq_name (lit "pa") k) by (unfold given_name; now rewrite Hv). rewrite Hg.
  destruct (str_in (eq_name (lit "pa") k) taken) eqn:Ei; [apply str_in_In in Ei; contradiction|].
  destruct (create_var E fixed n k p) as [v|] eqn:Ec; cbn [bind]; [|discriminate]. apply create_inv in Ec as (Cn & Cv & _). cbn [make_params]. rewrite Cn, Hg, Hu.
  destruct (make_param _ _ _ _ _ _) as [r|] eqn:Er; cbn [bind]; [|discriminate]. intros [= <-]. apply param_inv in Er as (_ & Mv & Mval & _). exists r. split; [reflexivity|].
  split; [|congruence]. rewrite Mv, Cn, Hg. reflexivity.
Qed.

(** ** C206: comments of parameters survive *)
Theorem C206_comments_partial n m k taken others used ps rs : (0 <= n)%Z -> named_apart taken used ps -> trip true n m k taken others used ps = Ok rs ->
  Forall2 (fun p r => plain_comments p -> one_line (str_unit (q_unit p)) -> room (ignore E) long (str_unit (q_unit p)) p ->
    forall rows, comments_are p rows -> r_comments r = rows) ps rs.
Proof.
  intros Hn Hna H. destruct (trip_each E fixed long identify n m k taken others used ps rs Hn Hna H) as (nc & HF & _). revert HF. apply Forall2_imp.
  intros p r _ (n' & k' & m' & v & Hn' & Hc & Hm) Hp Hu Hr rows Hrows. apply create_inv in Hc as (_ & _ & _ & os & Ho & Hv). apply param_inv in Hm as (_ & _ & _ & _ & _ & _ & Mc).
  rewrite Hv in Mc. eapply (trip_remarks E long n' m' p os rows); eauto.
Qed.

(** ** C207: units of parameters survive *)
Theorem C207_units_partial n m k taken others used ps rs : (0 <= n)%Z -> named_apart taken used ps -> trip true n m k taken others used ps = Ok rs ->
  Forall2 (fun p r => plain_comments p -> one_line (str_unit (q_unit p)) -> room (ignore E) long (str_unit (q_unit p)) p -> unit_room (ignore E) (str_unit (q_unit p)) ->
    forall rows, comments_are p rows ->
    (visible_text (str_unit (q_unit p)) -> r_unit r = [english (str_unit (q_unit p))]) /\ (~ visible_text (str_unit (q_unit p)) -> r_unit r = [])) ps rs.
Proof.
  intros Hn Hna H. destruct (trip_each E fixed long identify n m k taken others used ps rs Hn Hna H) as (nc & HF & _). revert HF. apply Forall2_imp.
  intros p r _ (n' & k' & m' & v & Hn' & Hc & Hm) Hp Hu Hr Hur rows Hrows. apply create_inv in Hc as (_ & _ & _ & os & Ho & Hv). apply param_inv in Hm as (_ & _ & _ & _ & _ & Mu & _).
  rewrite Hv in Mu. destruct (trip_remarks E long n' m' p os rows Hn' Ho Hrows Hp Hu Hr) as [Hf _]. rewrite Hf in Mu. split; intros Hvis.
  - eapply unit_row; eauto.
  - eapply unit_blank; eauto.
Qed.

(** a comment in brackets, in a language whose code comes after English *)
Lemma bracketed_trip n m k taken others used p x l a b c rs : (0 <= n)%Z -> q_variable p = Some x -> x <> [] -> ~ In x taken -> used x = false ->
  q_comments p = [(l, a ++ lit "[" ++ b ++ lit "]" ++ c)] -> str_lt (lit "en") l -> one_line (a ++ b ++ c) -> ~ In 91%N a -> ~ In 93%N c ->
  one_line (str_unit (q_unit p)) -> room (ignore E) long (str_unit (q_unit p)) p -> trip true n m k taken others used [p] = Ok rs ->
  exists r m', rs = [r] /\ spoken_out E punit_class [entry_at 0 (english b)] = Ok (r_unit r) /\
    spoken_out E (long_class long) [VList (numbered m' [(lit "en", []); (l, strip (a ++ c))])] = Ok (r_comments r).
Proof.
  intros Hn Hx Hne Ht Hu Hq Hl Hone Ha Hc Huni Hroom H. set (t := a ++ lit "[" ++ b ++ lit "]" ++ c) in *.
  assert (Hna : named_apart taken used [p]).
  { exists [x]. split; [repeat constructor; auto|]. split; [repeat constructor; intros []|]. intros y [<-|[]]. auto. }
  destruct (trip_each E fixed long identify n m k taken others used [p] rs Hn Hna H) as (nc & HF & _).
  inversion HF as [|? r ? rs' Hth HF']; subst. inversion HF'; subst. clear HF HF'. destruct Hth as (n' & k' & m' & v & Hn' & Hcr & Hm).
  apply create_inv in Hcr as (_ & _ & _ & os & Ho & Hv). apply param_inv in Hm as (_ & _ & _ & _ & _ & Mu & Mc).
  assert (Hvis : visible_text t) by (exists 91%N; split; [|reflexivity]; unfold t; apply in_or_app; right; now left).
  assert (Hrows : comments_are p [(l, t)]).
  { split; [rewrite Hq; repeat constructor; intros []|]. split; [repeat constructor|]. intros k0 t0. rewrite Hq. cbn [In]. split; [|tauto]. intros [[= <- <-]|[]]. auto. }
  destruct (written_rows E long n' p os _ Hn' Ho Hrows) as (R & R1 & _ & R2). specialize (R2 Hroom). rewrite Hv, R2 in *. clear R2 Hv.
  set (u := str_unit (q_unit p)) in *.
  assert (Hk : keep (numbers n' (q_comments p)) = [(n', l, t)]).
  { rewrite Hq. cbn [numbers fst snd]. apply keep_all. repeat constructor. exact Hvis. }
  assert (HR : R = [(lit "en", mark u); (l, t)]).
  { eapply language_rows_unique; [exact R1|]. rewrite Hk. apply rows_any.
    - cbn [map fst snd]. constructor; [intros [He|[]]; destruct Hl as [_ Hl]; now apply Hl|]. repeat constructor. intros [].
    - repeat constructor; exact (proj1 Hl) || exact (proj2 Hl).
    - intros k0 t0. cbn [In]. split.
      + intros [[= <- <-]|[[= <- <-]|[]]]; eauto.
      + intros (i & [[= <- <- <-]|[[= <- <- <-]|[]]]); auto. }
  subst R.
  assert (Hlt : one_line t).
  { intros Hi. unfold t in Hi. apply in_app_or in Hi as [Hi|Hi]; [apply Hone, in_or_app; now left|]. apply in_app_or in Hi as [Hi|Hi]; [vm_compute in Hi; intuition discriminate|].
    apply in_app_or in Hi as [Hi|Hi]; [apply Hone, in_or_app; right; apply in_or_app; now left|]. apply in_app_or in Hi as [Hi|Hi]; [vm_compute in Hi; intuition discriminate|].
    apply Hone, in_or_app. right. apply in_or_app. now right. }
  assert (Hbr : bracket t = Some (a, b, c)) by now apply bracket_around.
  assert (Hun : unit_in t = Some b) by (unfold unit_in; rewrite split_one by exact Hlt; cbn [first_unit]; now rewrite Hbr).
  assert (Hcl : cleaned t = strip (a ++ c)).
  { unfold cleaned. rewrite Hun. unfold without_marks. rewrite split_one by exact Hlt. cbn [map join]. unfold unmark. now rewrite Hbr. }
  exists r, m'. split; [reflexivity|]. split.
  - cbn [read_remarks fst snd] in Mu. rewrite unit_mark, Hun in Mu by exact Huni. cbn [fst] in Mu. exact Mu.
  - rewrite read_values in Mc. cbn [map fst snd] in Mc. rewrite cleaned_mark, Hcl in Mc by exact Huni. exact Mc.
Qed.
(** The part of a comment between brackets does not come back. *)
Theorem C206_bracket_refuted n m k taken others used p x l a b c rs : (0 <= n)%Z -> q_variable p = Some x -> x <> [] -> ~ In x taken -> used x = false ->
  q_comments p = [(l, a ++ lit "[" ++ b ++ lit "]" ++ c)] -> str_lt (lit "en") l -> one_line (a ++ b ++ c) -> ~ In 91%N a -> ~ In 93%N c ->
  one_line (str_unit (q_unit p)) -> room (ignore E) long (str_unit (q_unit p)) p -> trip true n m k taken others used [p] = Ok rs ->
  visible_text (strip (a ++ c)) -> within (ignore E) long [(l, strip (a ++ c))] -> exists r, rs = [r] /\ r_comments r = [(l, strip (a ++ c))].
Proof.
  intros Hn Hx Hne Ht Hu Hq Hl Hone Ha Hc Huni Hroom H Hvis Hw.
  destruct (bracketed_trip n m k taken others used p x l a b c rs Hn Hx Hne Ht Hu Hq Hl Hone Ha Hc Huni Hroom H) as (r & m' & -> & _ & Mc).
  exists r. split; [reflexivity|]. eapply spoken_long; [exact Mc|constructor; [apply speaks_numbered|constructor]|..|exact Hw].
  cbn [concat]. rewrite app_nil_r, numbers_spaced. apply spaced_any.
  - cbn [map fst]. constructor; [intros [He|[]]; destruct Hl as [_ Hl]; now apply Hl|]. repeat constructor. intros [].
  - repeat constructor.
  - intros k0 t0. cbn [In]. split; [intros [[= <- <-]|[]]; auto|]. intros [[[= <- <-]|[[= <- <-]|[]]] Hv]; [destruct Hv as (? & [] & _)|auto].
Qed.
(** It becomes the unit, whatever the unit was. *)
Theorem C207_bracket_refuted n m k taken others used p x l a b c rs : (0 <= n)%Z -> q_variable p = Some x -> x <> [] -> ~ In x taken -> used x = false ->
  q_comments p = [(l, a ++ lit "[" ++ b ++ lit "]" ++ c)] -> str_lt (lit "en") l -> one_line (a ++ b ++ c) -> ~ In 91%N a -> ~ In 93%N c ->
  one_line (str_unit (q_unit p)) -> room (ignore E) long (str_unit (q_unit p)) p -> trip true n m k taken others used [p] = Ok rs ->
  visible_text b -> unit_room (ignore E) b -> exists r, rs = [r] /\ r_unit r = [english b].
Proof.
  intros Hn Hx Hne Ht Hu Hq Hl Hone Ha Hc Huni Hroom H Hvis Hw.
  destruct (bracketed_trip n m k taken others used p x l a b c rs Hn Hx Hne Ht Hu Hq Hl Hone Ha Hc Huni Hroom H) as (r & m' & -> & Mu & _).
  exists r. split; [reflexivity|]. eapply unit_row; eauto.
Qed.
End Theorems.
Print Assumptions C205_parameters_partial.
Print Assumptions C205_identity_refuted.
Print Assumptions C205_new_identifier.
Print Assumptions C205_lost_refuted.
Print Assumptions C205_renamed_refuted.
Print Assumptions C205_taken_refuted.
Print Assumptions C205_same_name_refuted.
Print Assumptions C205_equation_refuted.
Print Assumptions C206_comments_partial.
Print Assumptions C206_bracket_refuted.
Print Assumptions C207_units_partial.
Print Assumptions C207_bracket_refuted.

(** The unit is respelled: a unit with a slash, a star, a point or a blank cannot come back as it was. *)
Lemma replace_in c old new s : old <> [] -> In c (replace old new s) -> In c new \/ In c s.
Proof.
  intros Ho H. unfold replace in H. apply join_In in H as [H|(x & Hx & H)]; [now left|]. right. rewrite <- (split_join old s Ho). eapply in_join; eauto.
Qed.
Lemma replace_gone c new s : ~ In c new -> ~ In c (replace [c] new s).
Proof. intros Hn H. unfold replace in H. apply join_In in H as [H|(x & Hx & H)]; [auto|]. exact (split1_nosep c s x Hx H). Qed.
Theorem C207_spelling_refuted u c : In c (lit " /*.") -> In c u -> str_unit u <> u.
Proof.
  intros Hc Hu He. rewrite <- He in Hu. revert Hu. unfold str_unit.
  set (u1 := replace (lit " ") [] u). set (u2 := replace (lit "/") (lit "_per_") u1). set (u3 := replace (lit "**") [] u2). set (u4 := replace (lit "*") (lit "_times_") u3).
  assert (Hs : ~ In c (lit "_") /\ ~ In c (lit "_times_") /\ ~ In c (lit "_per_")).
  { clear -Hc. destruct Hc as [<-|[<-|[<-|[<-|[]]]]]; repeat split; intros H; vm_compute in H; intuition discriminate. }
  destruct Hs as (S1 & S2 & S3). intros H.
  destruct Hc as [<-|[<-|[<-|[<-|[]]]]].
  - apply replace_in in H as [H|H]; [auto| |discriminate]. apply replace_in in H as [H|H]; [auto| |discriminate]. apply replace_in in H as [H|H]; [destruct H| |discriminate].
    apply replace_in in H as [H|H]; [auto| |discriminate]. revert H. apply replace_gone. intros [].
  - apply replace_in in H as [H|H]; [auto| |discriminate]. apply replace_in in H as [H|H]; [auto| |discriminate]. apply replace_in in H as [H|H]; [destruct H| |discriminate].
    revert H. now apply replace_gone.
  - apply replace_in in H as [H|H]; [auto| |discriminate]. revert H. now apply replace_gone.
  - revert H. now apply replace_gone.
Qed.
Print Assumptions C207_spelling_refuted.

(** ** Examples *)
Definition an_env : env := {| is_word := fun _ => true; fromiso := fun _ => None; ignore := false |}.
Definition a_rate : eparam N := EParam (lit "id-1") [(lit "en", lit "rate of loss")] (Some (lit "rate")) None 5%N (lit "kg / m ** 3") [(lit "en", lit "measured"); (lit "de", lit "gemessen")].
Definition a_share : eparam N := EParam (lit "id-2") [(lit "en", lit "share")] (Some (lit "share")) (Some (lit " 2*rate ")) 10%N [] [(lit "fr", lit "voir [1]")].
Definition a_note : eparam N := EParam (lit "id-3") [(lit "en", lit "height")] None None 7%N (lit "m") [].
Definition a_trip := @trip N an_env (fun f => Ok f) 500 (fun x => lit "made of " ++ x) true 1000 1000 1 [] [] (fun _ => false) [a_rate; a_share; a_note].
Example C205_nonvacuous : bind a_trip (fun rs => Ok (map (fun r => (r_id r, r_variable r, r_formula r, r_value r)) rs)) =
  Ok [(lit "made of rate", [lit "rate"], None, 5%N); (lit "made of share", [lit "share"], Some (lit "2*rate"), 10%N)].
Proof. lazy. reflexivity. Qed.
Example C206_nonvacuous : bind a_trip (fun rs => Ok (map r_comments rs)) = Ok [[(lit "de", lit "gemessen"); (lit "en", lit "measured")]; [(lit "fr", lit "voir")]].
Proof. lazy. reflexivity. Qed.
Example C207_nonvacuous : bind a_trip (fun rs => Ok (map r_unit rs)) = Ok [[english (lit "kg_per_m3")]; [english (lit "1")]].
Proof. lazy. reflexivity. Qed.
Example C207_conditions : named_apart [] (fun _ => false) [a_rate; a_share] /\ plain_comments a_rate /\ comments_are a_rate [(lit "de", lit "gemessen"); (lit "en", lit "measured")].
Proof.
  split; [|split].
  - exists [lit "rate"; lit "share"]. split; [repeat constructor; discriminate|]. split; [repeat constructor; cbn; intuition discriminate|]. intros x _. split; [intros []|reflexivity].
  - intros k t [[= <- <-]|[[= <- <-]|[]]]; (split; [intros H; vm_compute in H; intuition discriminate|intros _; vm_compute; reflexivity]).
  - split; [repeat constructor; cbn; intuition discriminate|]. split; [repeat constructor; vm_compute; congruence|]. intros k t. cbn [a_rate q_comments In]. split.
    + intros [[= <- <-]|[[= <- <-]|[]]]; (split; [auto|]); [exists 103%N|exists 109%N]; vm_compute; auto.
    + intros [[[= <- <-]|[[= <- <-]|[]]] _]; auto.
Qed.
