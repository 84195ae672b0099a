(** Texts with variables, identifiers of texts: theorems. *)
From Coq Require Import Ascii String List Bool Arith NArith ZArith Lia Permutation.
From Verif Require Import PyBase PyBaseFacts PyDigits PyValues Regex MultiLangSpec CommentSpec CommentProofs TextFacts
  ReviewProofs TemplateModel TemplateSpec TemplateProofs.
Import ListNotations.

(** ** C114: variables in texts *)
Definition env (vars : list tvar) : list (pystr * pystr) := map (fun v => (t_name v, t_text v)) vars.
(** Without braces in names, values and plain pieces, all names are replaced at the same time. *)
Theorem C114_filled_partial : forall vars ps,
  Forall (fun v => no_brace (t_name v) /\ no_brace (t_text v)) vars -> Forall clean ps ->
  filled (env vars) ps (substitute vars (template ps)).
Proof. intros vars ps Hv Hp. rewrite substitute_template by assumption. apply fillall_filled. Qed.
Print Assumptions C114_filled_partial.
(** The order of variables with different names does not matter. *)
Lemma first_value_iff l n v : NoDup (map fst l) -> (first_value l n v <-> In (n, v) l).
Proof.
  intros N. split; [apply first_value_in|]. induction l as [|[m w] l IH]; intros H; [destruct H|].
  inversion N as [|? ? N1 N2]; subst. destruct H as [H|H]; [injection H as -> ->; constructor|].
  constructor; [|auto]. intros ->. apply N1. change n with (fst (n, v)). now apply in_map.
Qed.
Theorem C114_order_partial : forall vars vars' ps, Permutation vars vars' -> NoDup (map t_name vars) ->
  Forall (fun v => no_brace (t_name v) /\ no_brace (t_text v)) vars -> Forall clean ps ->
  substitute vars' (template ps) = substitute vars (template ps).
Proof.
  intros vars vars' ps P N Hv Hp.
  assert (Hv' : Forall (fun v => no_brace (t_name v) /\ no_brace (t_text v)) vars').
  { rewrite Forall_forall in Hv |- *. intros v H. apply Hv. eapply Permutation_in; [apply Permutation_sym; exact P|exact H]. }
  apply (filled_det (env vars) ps); [|now apply C114_filled_partial].
  pose proof (C114_filled_partial vars' ps Hv' Hp) as F.
  assert (Pe : Permutation (env vars) (env vars')) by now apply Permutation_map.
  assert (Ne : NoDup (map fst (env vars))) by (unfold env; rewrite map_map; exact N).
  assert (Ne' : NoDup (map fst (env vars'))) by (eapply Permutation_NoDup; [apply Permutation_map; exact Pe|exact Ne]).
  clear - F Pe Ne Ne'. induction F as [|s ps t F IH|n v ps t H F IH|n ps t H F IH].
  - constructor.
  - now constructor.
  - apply f_value; [|exact IH]. apply first_value_iff; [exact Ne|]. apply first_value_in in H. eapply Permutation_in; [apply Permutation_sym; exact Pe|exact H].
  - apply f_name; [|exact IH]. intros Hi. apply H. eapply Permutation_in; [apply Permutation_map; exact Pe|exact Hi].
Qed.
Print Assumptions C114_order_partial.
(** Every text keeps its index and its language. *)
Theorem C114_texts_in_place : forall vars ts, map fst (process_texts vars ts) = map fst ts.
Proof. intros vars ts. unfold process_texts. rewrite map_map. reflexivity. Qed.
Print Assumptions C114_texts_in_place.
(** When variables of one name have one text, every name that has a value in the language of the text gets that value. *)
Theorem C114_language_partial : forall vars ps t l n v,
  (forall a b, In a vars -> In b vars -> t_name a = t_name b -> t_text a = t_text b) ->
  In (l, n, v) vars -> filled (env vars) (Name n :: ps) t -> exists u, t = v ++ u /\ filled (env vars) ps u.
Proof.
  intros vars ps t l n v Hu Hv Hf. inversion Hf as [| |n' v' ps' t' H1 H2|n' ps' t' H1 H2]; subst.
  - exists t'. split; [|exact H2]. f_equal. apply first_value_in in H1. unfold env in H1. apply in_map_iff in H1 as (a & E & Ha).
    injection E as E1 E2. rewrite <- E2. apply (Hu a (l, n, v) Ha Hv). exact E1.
  - exfalso. apply H1. unfold env. rewrite map_map. apply in_map_iff. exists (l, n, v). now split.
Qed.
Print Assumptions C114_language_partial.
(** Otherwise the first one is taken, whatever its language. *)
Theorem C114_language_refuted : forall i n u w, no_brace n -> no_brace u ->
  process_texts [(lit "en", n, u); (lit "de", n, w)] [(i, lit "de", placeholder n)] = [(i, lit "de", u)].
Proof.
  intros i n u w Hn Hu. unfold process_texts, substitute. cbn [map fold_left fst snd]. unfold t_name, t_text. cbn [fst snd].
  assert (R : replace (placeholder n) u (placeholder n) = u).
  { rewrite <- (app_nil_r (placeholder n)) at 2. rewrite replace_hit by apply placeholder_nonnil. now rewrite replace_nil, app_nil_r. }
  rewrite R, replace_absent; [reflexivity|discriminate|]. apply occurs_char with 123%N; [now left|exact (proj1 Hu)].
Qed.
Print Assumptions C114_language_refuted.
(** A value that contains a name is filled again, if its variable comes later. *)
Theorem C114_values_filled_again_refuted : forall a b x l, no_brace a -> no_brace b -> a <> b -> 
  substitute [(l, a, placeholder b); (l, b, x)] (placeholder a) = x /\
  substitute [(l, b, x); (l, a, placeholder b)] (placeholder a) = placeholder b.
Proof.
  intros a b x l Ha Hb Hab.
  assert (R : forall n v, replace (placeholder n) v (placeholder n) = v).
  { intros n v. rewrite <- (app_nil_r (placeholder n)) at 2. rewrite replace_hit by apply placeholder_nonnil. now rewrite replace_nil, app_nil_r. }
  unfold substitute. cbn [fold_left]. unfold t_name, t_text. cbn [fst snd]. split; [now rewrite !R|].
  assert (E : replace (placeholder b) x (placeholder a) = placeholder a); [|now rewrite E, R].
  pose proof (replace_template b x [Name a] Hb) as H. unfold template in H. cbn [map concat written fill1] in H.
  rewrite app_nil_r in H. fold (placeholder a) in H. rewrite H by (repeat constructor; apply Ha).
  destruct (str_eqb a b) eqn:E; [apply str_eqb_eq in E; contradiction|]. cbn [written]. now rewrite app_nil_r.
Qed.
Print Assumptions C114_values_filled_again_refuted.
Example C114_nonvacuous :
  substitute [(lit "en", lit "loc", lit "Switzerland"); (lit "en", lit "year", lit "2010")] (lit "Made in {{loc}}, {{year}}; see {{x}}")
    = lit "Made in Switzerland, 2010; see {{x}}" /\
  lit "Made in {{loc}}, {{year}}; see {{x}}"
    = template [Plain (lit "Made in "); Name (lit "loc"); Plain (lit ", "); Name (lit "year"); Plain (lit "; see "); Name (lit "x")].
Proof. split; vm_compute; reflexivity. Qed.

(** ** C115: identifiers of texts *)
(** Different texts get different seeds, when all their characters are in the range 20 to 199 and no identifier is found in them. *)
Theorem C115_different_seeds_partial : forall s t, Forall coded s -> Forall coded t -> s <> [] -> t <> [] ->
  first_id s = None -> first_id t = None -> s <> t ->
  exists m n, m <> n /\ forall random_id, get_text_uuid random_id s = Ok (random_id m) /\ get_text_uuid random_id t = Ok (random_id n).
Proof.
  intros s t Hs Ht Ns Nt Fs Ft Hst. exists (Z.of_N (dval (codes s))), (Z.of_N (dval (codes t))). split.
  - intros E. apply N2Z.inj in E. apply dval_inj in E; auto using codes_digits, codes_head.
    apply codes_inj in E; auto.
  - intros r. unfold get_text_uuid. rewrite Fs, Ft, !int_codes by assumption. now split.
Qed.
Print Assumptions C115_different_seeds_partial.
(** A text always has an identifier, except the empty text. *)
Theorem C115_always_partial : forall random_id s, s <> [] <-> exists w, get_text_uuid random_id s = Ok w.
Proof.
  intros r s. unfold get_text_uuid. split.
  - intros H. destruct (first_id s) as [w|]; [now exists w|]. rewrite int_codes by exact H. eauto.
  - intros (w & H) ->. vm_compute in H. discriminate.
Qed.
Print Assumptions C115_always_partial.
(** An identifier in the text is taken as it stands, whatever follows. *)
Theorem C115_identifier_taken : forall random_id pre w rest, ~ In 45%N pre -> id_text w ->
  get_text_uuid random_id (pre ++ w ++ rest) = Ok w.
Proof. intros r pre w rest Hp Hw. unfold get_text_uuid. now rewrite first_id_pre. Qed.
Print Assumptions C115_identifier_taken.
(** So different addresses with one identifier in them get the same one. *)
Theorem C115_same_folder_refuted : forall random_id pre w x y, ~ In 45%N pre -> id_text w -> x <> y ->
  pre ++ w ++ x <> pre ++ w ++ y /\ get_text_uuid random_id (pre ++ w ++ x) = get_text_uuid random_id (pre ++ w ++ y).
Proof.
  intros r pre w x y Hp Hw Hxy. split; [|now rewrite !C115_identifier_taken].
  intros E. now apply app_inv_head, app_inv_head in E.
Qed.
Print Assumptions C115_same_folder_refuted.
(** Other alphabets collide: two Greek letters and three signs. *)
Theorem C115_collision_refuted : forall random_id,
  get_text_uuid random_id [945; 945]%N = get_text_uuid random_id (lit "^;-") /\ [945; 945]%N <> lit "^;-" /\
  (forall s, first_id (945 :: 945 :: s)%N = None -> first_id (lit "^;-" ++ s) = None ->
     get_text_uuid random_id (945 :: 945 :: s)%N = get_text_uuid random_id (lit "^;-" ++ s)).
Proof.
  intros r. assert (A : forall s, codes (945 :: 945 :: s)%N = codes (lit "^;-" ++ s)).
  { intros s. unfold codes. rewrite map_app, concat_app. cbn [map concat]. rewrite app_assoc. f_equal. }
  split; [|split; [discriminate|]].
  - vm_compute. reflexivity.
  - intros s H1 H2. unfold get_text_uuid. now rewrite H1, H2, A.
Qed.
Print Assumptions C115_collision_refuted.
(** An identifier with capital letters is kept, although it does not have the form of the identifiers of ILCD. *)
Theorem C115_capitals_refuted : forall random_id w c, id_text w -> In c w -> (65 <= c <= 90)%N ->
  get_text_uuid random_id w = Ok w /\ ~ is_uuid w.
Proof.
  intros r w c Hw Hc Hr. split.
  - pose proof (C115_identifier_taken r [] w [] (fun H => H) Hw) as H. cbn [app] in H. now rewrite app_nil_r in H.
  - intros Hu. destruct (uuid_chars w c Hu Hc) as [H|H]; [|lia]. unfold hex_char in H. lia.
Qed.
Print Assumptions C115_capitals_refuted.
Example C115_nonvacuous :
  first_id (lit "http://db.ecoinvent.org/a0eb1b1e-1c5c-4b1e-9b57-0d5c5a8f1a2b/img1.png") = Some (lit "a0eb1b1e-1c5c-4b1e-9b57-0d5c5a8f1a2b") /\
  first_id (lit "http://a.org/b-c.png") = None /\ codes (lit "ab.c") = lit "979846" ++ lit "99" /\
  get_text_uuid str_of_Z (lit "ab") = Ok (lit "9798").
Proof. repeat split; vm_compute; reflexivity. Qed.
