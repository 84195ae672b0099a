(** Properties of EcoSpold2 fields that take several ILCD fields (C197-C202). *)
From Coq Require Import Ascii String List Bool Arith NArith ZArith Lia Sorted.
From Verif Require Import PyBase PyBaseFacts PyValues ValidatorsModel MultiLangModel MultiLangSpec MultiLangProofs DotDictModel SchemaModel
  TablesModel CommentModel CommentSpec CommentProps OutflowModel ProseModel ProseSpec ProseProofs ProseTrips ProseProps RegainSpec CollectModel CollectSpec CollectProofs.
Import ListNotations.
Local Open Scope string_scope.
Local Open Scope list_scope.

(** In every language, the EcoSpold2 sampling procedure is the ILCD one and below it the texts on constants, cut-off, selection, collection period,
    uncertainty adjustments and use advice, each with its heading, in the order of the file. *)
Theorem C197_sampling :
  forall E long n doc o, describe E long n doc = Ok o -> (0 < n)%Z -> Forall ordinary doc ->
    (forall k, length (paragraphs the_sampling k doc) <= 1) ->
    short (ignore E) long (fun k => paragraphs the_sampling k doc ++ paragraphs to_sampling k doc) ->
    gathers (fun k => paragraphs the_sampling k doc ++ paragraphs to_sampling k doc) (t_sampling o).
Proof.
  intros E long n doc o H Hn Ho H1 Hw. apply described in H as (l & Hc & _ & _ & _ & _ & Hs).
  apply (gathers_ext (joined PSampling doc)); [apply joined_sampling|]. apply (spoken_place E long PSampling n doc l); auto; [discriminate| |].
  - intros k. rewrite (paragraphs_ext _ the_sampling); [apply H1|]. intros [] t; reflexivity.
  - intros k. rewrite joined_sampling. apply Hw.
Qed.
Print Assumptions C197_sampling.
(** The same for the extrapolations; deviations that say none are left out. *)
Theorem C198_extrapolations :
  forall E long n doc o, describe E long n doc = Ok o -> (0 < n)%Z -> Forall ordinary doc ->
    short (ignore E) long (fun k => paragraphs to_extrapolations k doc) ->
    gathers (fun k => paragraphs to_extrapolations k doc) (t_extrapolations o).
Proof.
  intros E long n doc o H Hn Ho Hw. apply described in H as (l & Hc & _ & _ & _ & Hs & _).
  apply (gathers_ext (joined PExtrapolations doc)); [apply joined_extrapolations|]. apply (spoken_place E long PExtrapolations n doc l); auto; [discriminate| |].
  - intros k. rewrite paragraphs_none; [cbn; lia|]. intros [] t; reflexivity.
  - intros k. rewrite joined_extrapolations. apply Hw.
Qed.
Print Assumptions C198_extrapolations.
(** The general comment holds the identifier, the comment, the description of the mathematical model, the project and the intended applications. *)
Theorem C199_general :
  forall E long n doc o, describe E long n doc = Ok o -> (0 < n)%Z -> Forall ordinary doc ->
    short (ignore E) long (fun k => paragraphs to_general k doc) ->
    exists rows, reads (t_general o) rows /\ gathers (fun k => paragraphs to_general k doc) rows.
Proof.
  intros E long n doc o H Hn Ho Hw. apply described in H as (l & Hc & _ & Hs & _).
  destruct (comment_place E long PGeneral n doc l (t_general o)) as (rows & R & G); auto; [discriminate| | |].
  - intros k. rewrite paragraphs_none; [cbn; lia|]. intros [] t; reflexivity.
  - intros k. rewrite joined_general. apply Hw.
  - exists rows. split; [exact R|]. exact (gathers_ext _ _ _ (joined_general doc) G).
Qed.
Print Assumptions C199_general.
(** The comment on geography holds the restrictions of the location and of the sublocations. *)
Theorem C200_geography :
  forall E long n doc o, describe E long n doc = Ok o -> (0 < n)%Z -> Forall ordinary doc ->
    short (ignore E) long (fun k => paragraphs to_geography k doc) ->
    exists rows, reads (t_geography o) rows /\ gathers (fun k => paragraphs to_geography k doc) rows.
Proof.
  intros E long n doc o H Hn Ho Hw. apply described in H as (l & Hc & _ & _ & Hs & _).
  destruct (comment_place E long PGeography n doc l (t_geography o)) as (rows & R & G); auto; [discriminate| | |].
  - intros k. rewrite paragraphs_none; [cbn; lia|]. intros [] t; reflexivity.
  - intros k. rewrite joined_geography. apply Hw.
  - exists rows. split; [exact R|]. exact (gathers_ext _ _ _ (joined_geography doc) G).
Qed.
Print Assumptions C200_geography.

(** ** Names *)
Lemma names_visible doc : Forall ordinary doc -> Forall (fun s : speech => visible_text (snd s)) (names_in doc).
Proof.
  induction 1 as [|p doc [Hv _] _ IH]; [constructor|]. cbn [names_in flat_map]. apply Forall_app. split; [|exact IH]. destruct (p_field p); cbn [a_name optional]; repeat constructor; exact Hv.
Qed.
Lemma names_kept E long n doc o : describe E long n doc = Ok o -> Forall ordinary doc ->
  match names_in doc with [] => t_names o = [] | s :: _ => MultiLangSpec.fits (ignore E) (Lim_ 120) (snd s) -> t_names o = [s] end.
Proof.
  intros H Ho. apply described in H as (l & Hc & Hs & _). rewrite (names_assigned _ _ _ Hc) in Hs. pose proof (first_spoken E _ _ _ Hs) as F. fold (names_in doc) in F.
  rewrite (said_rows_all _ (names_visible _ Ho)) in F. destruct (names_in doc) as [|[k t] r]; exact F.
Qed.
(** Base name, treatment, mix and functional unit all go to one field, which keeps the first only: whoever uses one more part of the name, or one more
    language, loses it. *)
Theorem C201_name_parts_refuted :
  forall E long n doc o s t r, describe E long n doc = Ok o -> Forall ordinary doc -> names_in doc = s :: t :: r -> (ignore E = true \/ length (snd s) <= 120) -> t <> s ->
    ~ In t (t_names o).
Proof.
  intros E long n doc o s t r H Ho Hd Hf Hne Hin. pose proof (names_kept E long n doc o H Ho) as K. rewrite Hd in K. rewrite (K Hf) in Hin. destruct Hin as [Hin|[]]. now apply Hne.
Qed.
Print Assumptions C201_name_parts_refuted.
Theorem C201_first_name_partial :
  forall E long n doc o, describe E long n doc = Ok o -> Forall ordinary doc -> (forall s, In s (names_in doc) -> ignore E = true \/ length (snd s) <= 120) ->
    t_names o = firstn 1 (names_in doc).
Proof.
  intros E long n doc o H Ho Hf. pose proof (names_kept E long n doc o H Ho) as K. destruct (names_in doc) as [|s r]; [exact K|]. apply K. exact (Hf s (or_introl eq_refl)).
Qed.
Print Assumptions C201_first_name_partial.

(** ** Nothing is lost *)
Lemma collect_skip p A : forall n B, p_gap p = 0%N -> target (p_field p) = None -> p_lang p <> None -> collect n (A ++ p :: B) = collect n (A ++ B).
Proof.
  induction A as [|a A IH]; intros n B Hg Ht Hl.
  - cbn [app collect]. rewrite Hg. unfold heard_as. destruct (p_lang p) as [l|]; [|now contradiction Hl].
    destruct (p_field p); try discriminate; cbn [bind handle fst snd map app target Z.of_N]; rewrite Z.add_0_r; destruct (collect n B); reflexivity.
  - cbn [app collect]. destruct (heard_as a) as [s|]; cbn [bind]; [|reflexivity]. destruct (handle (p_field a) (n + Z.of_N (p_gap a)) s) as [r|]; cbn [bind]; [|reflexivity]. now rewrite IH.
Qed.
(** The functional unit (functionalUnitOrOther) and the production volume leave no trace: with or without them, the result is the same. *)
Theorem C202_texts_lost_refuted :
  forall E long n A f l t B, (f = FUnitOrOther \/ f = FVolume) ->
    describe E long n (A ++ Piece 0 f (Some l) t :: B) = describe E long n (A ++ B).
Proof. intros E long n A f l t B Hf. unfold describe. rewrite collect_skip; [reflexivity|reflexivity|now destruct Hf as [-> | ->]|discriminate]. Qed.
Print Assumptions C202_texts_lost_refuted.

Lemma occurs_join (u : pystr) l : In u l -> occurs u (join newline l).
Proof.
  intros Hin. apply in_split in Hin as (p & q & ->).
  assert (X : exists b, join newline (u :: q) = u ++ b). { destruct q as [|v q]; [exists []; now rewrite app_nil_r|exists (newline ++ join newline (v :: q)); reflexivity]. }
  destruct X as (b & X). induction p as [|v p IH]; [exists [], b; cbn [app]; exact X|]. destruct IH as (a & c & IH).
  exists (v ++ newline ++ a), c. cbn [app]. change (join newline (v :: p ++ u :: q)) with (match p ++ u :: q with [] => v | _ => v ++ newline ++ join newline (p ++ u :: q) end).
  destruct (p ++ u :: q) eqn:Ep; [now destruct p|]. rewrite <- Ep in *. rewrite IH. now rewrite <- !app_assoc.
Qed.
Lemma occurs_under (h t s : pystr) : occurs (h ++ t) s -> occurs t s.
Proof. intros (a & b & ->). exists (a ++ h), b. now rewrite <- !app_assoc. Qed.
Lemma paragraph_in w p doc u : In p doc -> w (p_field p) (p_text p) = Some u -> In u (paragraphs w (tongue p) doc).
Proof. intros Hin Hw. unfold paragraphs. apply in_flat_map. exists p. split; [exact Hin|]. rewrite str_eqb_refl, Hw. now left. Qed.
Lemma gathered_in said rows k u : gathers said rows -> In u (said k) -> exists t, In (k, t) rows /\ occurs u t.
Proof.
  intros [_ G] Hin. exists (join newline (said k)). split; [|now apply occurs_join]. apply G. split; [|reflexivity]. intros C. rewrite C in Hin. destruct Hin.
Qed.
(** Every other text is found again, in its language. *)
Theorem C202_texts_kept_partial :
  forall E long n doc o, describe E long n doc = Ok o -> (0 < n)%Z -> Forall ordinary doc ->
    (forall k, length (paragraphs the_sampling k doc) <= 1) ->
    short (ignore E) long (fun k => paragraphs the_sampling k doc ++ paragraphs to_sampling k doc) ->
    short (ignore E) long (fun k => paragraphs to_extrapolations k doc) ->
    short (ignore E) long (fun k => paragraphs to_general k doc) ->
    short (ignore E) long (fun k => paragraphs to_geography k doc) ->
    forall p, In p doc -> p_text p <> lit "none" -> ~ In (p_field p) [FBase; FRoutes; FMix; FUnit; FUnitOrOther; FVolume] ->
      exists rows t, found_in o (p_field p) rows /\ In (tongue p, t) rows /\ occurs (p_text p) t.
Proof.
  intros E long n doc o H Hn Ho H1 W1 W2 W3 W4 p Hp Hne Hf.
  pose proof (C197_sampling E long n doc o H Hn Ho H1 W1) as G1. pose proof (C198_extrapolations E long n doc o H Hn Ho W2) as G2.
  destruct (C199_general E long n doc o H Hn Ho W3) as (r3 & R3 & G3). destruct (C200_geography E long n doc o H Hn Ho W4) as (r4 & R4 & G4).
  assert (Nn : forall h, not_none h (p_text p) = Some (h ++ p_text p)).
  { intros h. unfold not_none. destruct (str_eqb (p_text p) (lit "none")) eqn:En; [|reflexivity]. apply str_eqb_eq in En. contradiction. }
  assert (K : forall w rows said u, (forall k, exists a b, said k = a ++ paragraphs w k doc ++ b) -> gathers said rows -> w (p_field p) (p_text p) = Some u -> exists t, In (tongue p, t) rows /\ occurs u t).
  { intros w rows said u Hs G Hw. apply (gathered_in said rows (tongue p) u G). destruct (Hs (tongue p)) as (a & b & ->). apply in_or_app. right. apply in_or_app. left. now apply paragraph_in. }
  assert (Same : forall w k, exists a b, paragraphs w k doc = a ++ paragraphs w k doc ++ b) by (intros w k; exists [], []; cbn [app]; now rewrite app_nil_r).
  assert (K1 : forall u, to_sampling (p_field p) (p_text p) = Some u -> exists t, In (tongue p, t) (t_sampling o) /\ occurs u t).
  { intros u. refine (K to_sampling _ _ u _ G1). intros k. exists (paragraphs the_sampling k doc), []. now rewrite app_nil_r. }
  assert (K0 : forall u, the_sampling (p_field p) (p_text p) = Some u -> exists t, In (tongue p, t) (t_sampling o) /\ occurs u t).
  { intros u. refine (K the_sampling _ _ u _ G1). intros k. exists [], (paragraphs to_sampling k doc). reflexivity. }
  assert (K2 : forall u, to_extrapolations (p_field p) (p_text p) = Some u -> exists t, In (tongue p, t) (t_extrapolations o) /\ occurs u t) by (intros u; apply (K to_extrapolations _ _ u (Same _) G2)).
  assert (K3 : forall u, to_general (p_field p) (p_text p) = Some u -> exists t, In (tongue p, t) r3 /\ occurs u t) by (intros u; apply (K to_general _ _ u (Same _) G3)).
  assert (K4 : forall u, to_geography (p_field p) (p_text p) = Some u -> exists t, In (tongue p, t) r4 /\ occurs u t) by (intros u; apply (K to_geography _ _ u (Same _) G4)).
  clear K. destruct (p_field p) eqn:Ef; try (exfalso; apply Hf; cbn [In]; tauto);
    cbn [to_sampling the_sampling to_extrapolations to_general to_geography] in *; rewrite ?Nn in *;
    first [ destruct (K1 _ eq_refl) as (t & T1 & T2) | destruct (K0 _ eq_refl) as (t & T1 & T2) | destruct (K2 _ eq_refl) as (t & T1 & T2)
          | destruct (K3 _ eq_refl) as (t & T1 & T2) | destruct (K4 _ eq_refl) as (t & T1 & T2) ];
    eexists; exists t; (split; [cbn [found_in]; first [reflexivity | exact R3 | exact R4]|]); (split; [exact T1|]);
    first [exact T2 | exact (occurs_under _ _ _ T2)].
Qed.
Print Assumptions C202_texts_kept_partial.
(** A base name or a comment on deviations without language, which counts as English elsewhere, makes the conversion fail. *)
Theorem C202_no_language_refuted :
  forall E long n doc p, In p doc -> p_lang p = None -> In (p_field p) [FBase; FDevPrinciple; FDevCutOff; FDevSelection; FDevTreatment] -> forall o, describe E long n doc <> Ok o.
Proof.
  intros E long n doc p Hp Hl Hf o H. apply described in H as (l & Hc & _). revert n l Hc.
  induction doc as [|q doc IH]; intros n l Hc; [contradiction|]. cbn [collect] in Hc. destruct Hp as [->|Hp].
  - assert (X : heard_as p = Err TypeError) by (unfold heard_as; rewrite Hl; destruct Hf as [F|[F|[F|[F|[F|[]]]]]]; rewrite <- F; reflexivity).
    rewrite X in Hc. discriminate.
  - destruct (heard_as q) as [s|]; [|discriminate]. cbn [bind] in Hc. destruct (handle (p_field q) _ s) as [r|]; [|discriminate]. cbn [bind] in Hc.
    destruct (collect (snd r) doc) as [l'|] eqn:C; [|discriminate]. exact (IH Hp _ _ C).
Qed.
Print Assumptions C202_no_language_refuted.

(** ** The approach of the system model *)
Lemma there_approach E n m a d : there E n m a = Ok d -> exists x, getf (snd (f_model a)) system_model_2 = Some x /\ d_approaches d = [x].
Proof.
  unfold there, approaches_out. intros H. destruct (getf (snd (f_model a)) system_model) as [y|]; cbn [bind] in H; [|discriminate].
  destruct (getf (snd (f_model a)) system_model_2) as [x|]; cbn [bind] in H; [|discriminate]. exists x. split; [reflexivity|].
  destruct (mapM _ _) as [q|]; cbn [bind] in H; [|discriminate]. destruct (text_out _ _ _) as [loc|]; cbn [bind] in H; [|discriminate]. now injection H as <-.
Qed.
(** Two of the models called allocation are written as substitution. *)
Theorem C203_substitution_refuted :
  forall E n m a d, there E n m a = Ok d ->
    (snd (f_model a) = lit "Allocation at the point of substitution" \/ snd (f_model a) = lit "Allocation, ecoinvent default") ->
    exists rest, d_approaches d = [lit "Substitution" ++ rest].
Proof.
  intros E n m a d H Hm. apply there_approach in H as (x & Hx & ->). exists (lit " - average, market price correction").
  destruct Hm as [Hm|Hm]; rewrite Hm in Hx; vm_compute in Hx; injection Hx as <-; reflexivity.
Qed.
Print Assumptions C203_substitution_refuted.
(** The others keep their kind. *)
Theorem C203_kind_partial :
  forall E n m a d, there E n m a = Ok d ->
    snd (f_model a) <> lit "Allocation at the point of substitution" -> snd (f_model a) <> lit "Allocation, ecoinvent default" ->
    exists x, d_approaches d = [x] /\
      ((exists u, snd (f_model a) = lit "Allocation" ++ u) -> exists v, x = lit "Allocation" ++ v) /\
      ((exists u, snd (f_model a) = lit "Substitution" ++ u) -> exists v, x = lit "Substitution" ++ v) /\
      (snd (f_model a) = lit "Undefined" -> x = lit "Not applicable").
Proof.
  intros E n m a d H N1 N2. apply there_approach in H as (x & Hx & ->). exists x. split; [reflexivity|]. apply DotDictProofs.getf_In in Hx. unfold system_model_2 in Hx. cbn [In] in Hx.
  repeat (destruct Hx as [Hx|Hx]; [apply pair_equal_spec in Hx as [Hm Hx]; rewrite <- Hm in *; rewrite <- Hx;
    first [ exfalso; apply N1; reflexivity | exfalso; apply N2; reflexivity
          | split; [intros (u & Hu); first [discriminate Hu | eexists; reflexivity | exists (skipn 10 x); rewrite <- Hx; reflexivity]
                   |split; [intros (u & Hu); first [discriminate Hu | exists (skipn 12 x); rewrite <- Hx; reflexivity]|first [reflexivity | intros Hu; first [discriminate Hu|reflexivity]]]] ]|]).
  destruct Hx.
Qed.
Print Assumptions C203_kind_partial.

(** ** An example *)
Definition a_process : list piece :=
  [Piece 0 FBase (Some (lit "en")) (lit "steel"); Piece 0 FRoutes (Some (lit "en")) (lit "hot rolled"); Piece 2 FIdentifier None (lit "S1");
   Piece 0 FGeneral (Some (lit "de")) (lit "Hinweis"); Piece 0 FGeneral (Some (lit "en")) (lit "A comment."); Piece 0 FUnitOrOther (Some (lit "en")) (lit "1 kg");
   Piece 1 FRestrictions (Some (lit "en")) (lit "Alps"); Piece 0 FSubRestrictions None (lit "North"); Piece 0 FModel (Some (lit "en")) (lit "linear");
   Piece 0 FDevPrinciple (Some (lit "en")) (lit "none"); Piece 0 FConstants (Some (lit "en")) (lit "heat"); Piece 0 FDevConstants (Some (lit "en")) (lit "none");
   Piece 0 FCutOff (Some (lit "de")) (lit "alles"); Piece 0 FDevCutOff (Some (lit "en")) (lit "small flows"); Piece 0 FSampling (Some (lit "en")) (lit "survey");
   Piece 0 FPeriod (Some (lit "en")) (lit "2019"); Piece 3 FProject (Some (lit "en")) (lit "LCI")].
Definition an_env : env := {| is_word := fun _ => true; fromiso := fun _ => None; ignore := false |}.
Example C197_nonvacuous : bind (describe an_env 400 1000 a_process) (fun o => Ok (t_sampling o)) =
  Ok [(lit "de", lit "Data Cut-Off And Completeness Principles: alles");
      (lit "en", join newline [lit "survey"; lit "Modelling Constants: heat"; lit "Data Collection Period: 2019"])].
Proof. vm_compute. reflexivity. Qed.
Example C198_nonvacuous : bind (describe an_env 400 1000 a_process) (fun o => Ok (t_extrapolations o)) =
  Ok [(lit "en", join newline [lit "Deviations from Modelling Constants: none"; lit "Deviations from Cut-Off and Completeness Principles: small flows"])].
Proof. vm_compute. reflexivity. Qed.
Example C199_nonvacuous : bind (describe an_env 400 1000 a_process) (fun o => Ok (t_general o)) =
  Ok [(1002%Z, lit "en", lit "Identifier name: S1"); (1004%Z, lit "de", lit "Hinweis"); (1006%Z, lit "en", lit "A comment."); (1011%Z, lit "en", lit "linear");
      (1021%Z, lit "en", lit "Project: LCI")].
Proof. vm_compute. reflexivity. Qed.
Example C200_nonvacuous : bind (describe an_env 400 1000 a_process) (fun o => Ok (t_geography o)) = Ok [(1008%Z, lit "en", lit "Alps"); (1009%Z, lit "en", lit "North")].
Proof. vm_compute. reflexivity. Qed.
Example C201_nonvacuous : names_in a_process = [(lit "en", lit "steel"); (lit "en", lit "hot rolled")] /\ bind (describe an_env 400 1000 a_process) (fun o => Ok (t_names o)) = Ok [(lit "en", lit "steel")].
Proof. split; vm_compute; reflexivity. Qed.
Example C202_nonvacuous : In (Piece 0 FUnitOrOther (Some (lit "en")) (lit "1 kg")) a_process.
Proof. cbn [a_process In]. tauto. Qed.
Example C203_nonvacuous : bind (there an_env 1000 1010 sample) (fun d => Ok (d_approaches d)) = Ok [lit "Not applicable"].
Proof. lazy. reflexivity. Qed.
