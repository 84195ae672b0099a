(** C213-C216: amounts of ILCD exchanges that were moved to other flows (RemapModel.v), and what a second conversion does with them. *)
From Coq Require Import Ascii String List Bool Arith NArith ZArith Reals Lia Lra.
From Verif Require Import PyBase PyBaseFacts PyValues MultiLangModel DotDictModel DotDictProofs XmlModel TextFacts RemapModel RemapSpec RemapProofs RemapProps.
Import ListNotations.
Local Open Scope R_scope.

(** a row that says that there is no counterpart *)
Definition unmatched (r : row) : Prop := In (r_type r) [lit "NO_MATCH_MAPPING"; lit "NO MATCH"].
(** the reference unit of a flow, with the spelling of the mapping *)
Definition measured_in (us : units) (u : pystr) : Prop := exists m ms, u_main us = m :: ms /\ u = fix_bq (fst m).
(** an exchange without OpenLCA attributes and without variable *)
Definition bare (us : units) (x : exch) : Prop := u_olca us = [] /\ x_amount x = None /\ x_var x = None.

(** all cases of [remap] for such an exchange *)
Lemma remap_cases fp ofp mp isf df us vars x o : remap fp ofp mp isf df us vars x = Ok o -> bare us x ->
  exists a m ms, x_resulting x = Some a /\ u_main us = m :: ms /\ o_vars o = vars /\
  match getf (x_flow x) mp with
  | None => o_exch o = x
  | Some r => (unmatched r /\ o_exch o = x) \/
      (~ unmatched r /\ exists descr d b, set_descr (x_descr x) (r_name r) = Ok descr /\
         o_exch o = Exch (r_target r) (Some (lit "../flows/" ++ xml (r_target r))) None descr (Some b) (x_mean x) None (x_unit x) (x_property x) d None /\
         ((r_target_unit r = fix_bq (fst m) /\ b = a /\ d = x_dist x) \/
          (r_target_unit r <> fix_bq (fst m) /\ r_source_unit r = fix_bq (fst m) /\ b = a * r_factor r) \/
          (r_target_unit r <> fix_bq (fst m) /\ r_source_unit r <> fix_bq (fst m) /\ exists g, getf (r_source_unit r) (u_sec us) = Some g /\ b = a * (r_factor r * g)) \/
          (r_target_unit r <> fix_bq (fst m) /\ r_source_unit r <> fix_bq (fst m) /\ getf (r_source_unit r) (u_sec us) = None /\ b = a /\ d = x_dist x)))
  end.
Proof.
  intros H (O & XA & XV). unfold remap in H. inv_bind H. inv_bind H. destruct a0 as [[amount u] mu].
  unfold base_amount in Ha0. rewrite O in Ha0. inv_bind Ha0. inv_bind Ha0.
  destruct (x_resulting x) as [a'|] eqn:XR; [|discriminate]. destruct (u_main us) as [|m ms] eqn:UM; [discriminate|].
  exists a', m, ms. split; [reflexivity|]. split; [reflexivity|].
  cbn [need first_unit] in Ha1, Ha2.
  assert (B : amount = a' /\ u = fix_bq (fst m)).
  { repeat match goal with E : Ok _ = Ok _ |- _ => injection E; clear E; intros; subst end. auto. }
  destruct B as (-> & ->). clear Ha0 Ha1 Ha2.
  destruct x as [xf xu xv xd xr xm xa xun xp xdi xva]. cbn [x_flow x_uri x_version x_descr x_resulting x_mean x_amount x_unit x_property x_dist x_var] in *. subst xr xa xva.
  destruct (getf xf mp) as [r|].
  - destruct (str_in (r_type r) no_match) eqn:T.
    + apply str_in_In in T. injection H as <-. split; [reflexivity|]. left. split; [exact T|reflexivity].
    + assert (T' : ~ unmatched r) by (intros F; apply str_in_In in F; unfold no_match in T; congruence).
      inv_bind H. inv_bind H. cbv zeta in H. inv_bind H. inv_bind H. inv_bind H. cbn [with_flow x_var x_dist] in H.
      destruct (str_eqb (r_target_unit r) (fix_bq (fst m))) eqn:E1; [|destruct (str_eqb (r_source_unit r) (fix_bq (fst m))) eqn:E2; [|
        destruct (getf (r_source_unit r) (u_sec us)) as [g|] eqn:G]].
      * cbn [var_opt bind] in H. injection H as <-. split; [reflexivity|]. right. split; [exact T'|]. exists a3, xdi, a'. split; [assumption|]. split; [reflexivity|].
        left. apply str_eqb_eq in E1. auto.
      * unfold converted in H. cbn [with_flow x_amount x_dist x_var var_opt bind] in H. apply bind_Ok in H as ([x' vs] & Hc & H). apply bind_Ok in Hc as (a7 & Hd & Hc). injection Hc as <- <-. injection H as <-.
        split; [reflexivity|]. right. split; [exact T'|]. exists a3, a7, (a' * r_factor r). split; [assumption|]. split; [reflexivity|].
        right; left. apply str_eqb_neq in E1. apply str_eqb_eq in E2. auto.
      * unfold converted in H. cbn [with_flow x_amount x_dist x_var var_opt bind] in H. apply bind_Ok in H as ([x' vs] & Hc & H). apply bind_Ok in Hc as (a7 & Hd & Hc). injection Hc as <- <-. injection H as <-.
        split; [reflexivity|]. right. split; [exact T'|]. exists a3, a7, (a' * (r_factor r * g)). split; [assumption|]. split; [reflexivity|].
        right; right; left. apply str_eqb_neq in E1, E2. split; [exact E1|]. split; [exact E2|]. exists g. auto.
      * injection H as <-. split; [reflexivity|]. right. split; [exact T'|]. exists a3, xdi, a'. split; [assumption|]. split; [reflexivity|].
        right; right; right. apply str_eqb_neq in E1, E2. auto.
  - cbn [var_opt bind] in H. cbv zeta in H. inv_bind H. inv_bind H. inv_bind H. injection H as <-. split; reflexivity.
Qed.

(** ** C213: mean and resulting amount *)
(** They stay equal when the amount does not change. *)
Theorem C213_equal_partial :
  forall fp ofp mp isf df us vars x o u, remap fp ofp mp isf df us vars x = Ok o -> bare us x -> measured_in us u -> x_mean x = x_resulting x ->
    (forall r, getf (x_flow x) mp = Some r -> unmatched r \/ r_target_unit r = u \/ (r_source_unit r = u /\ r_factor r = 1) \/
                                             (r_source_unit r <> u /\ getf (r_source_unit r) (u_sec us) = None)) ->
    x_mean (o_exch o) = x_resulting (o_exch o).
Proof.
  intros fp ofp mp isf df us vars x o u H B (m0 & ms0 & U & ->) E C. destruct (remap_cases _ _ _ _ _ _ _ _ _ H B) as (a & m & ms & A & M & _ & K).
  rewrite U in M. injection M as <- <-. rewrite A in E. destruct (getf (x_flow x) mp) as [r|]; [|now rewrite K, E].
  destruct K as [(_ & ->)|(N & descr & d & b & _ & -> & K)]; [now rewrite E|]. cbn [x_mean x_resulting]. rewrite E. f_equal.
  destruct (C r eq_refl) as [F|[F|[(F1 & F2)|(F1 & F2)]]]; [contradiction| | |]; destruct K as [(K1 & -> & _)|[(K1 & K2 & ->)|[(K1 & K2 & g & G & ->)|(K1 & K2 & G & -> & _)]]]; try reflexivity; try congruence.
  rewrite F2. lra.
Qed.
Print Assumptions C213_equal_partial.
(** The factor of the mapping is applied to the resulting amount only. *)
Theorem C213_mean_refuted :
  forall fp ofp mp isf df us vars x o a r, remap fp ofp mp isf df us vars x = Ok o -> bare us x -> x_resulting x = Some a -> x_mean x = Some a ->
    getf (x_flow x) mp = Some r -> ~ unmatched r -> measured_in us (r_source_unit r) -> r_target_unit r <> r_source_unit r -> r_factor r <> 1 -> a <> 0 ->
    x_flow (o_exch o) = r_target r /\ x_mean (o_exch o) = Some a /\ x_resulting (o_exch o) = Some (a * r_factor r) /\ a * r_factor r <> a.
Proof.
  intros fp ofp mp isf df us vars x o a r H B A E G N (m0 & ms0 & U & S) T F Z. destruct (remap_cases _ _ _ _ _ _ _ _ _ H B) as (a' & m & ms & A' & M & _ & K).
  rewrite U in M. injection M as <- <-. rewrite A in A'. injection A' as <-. rewrite G in K. destruct K as [(F1 & _)|(_ & descr & d & b & _ & -> & K)]; [contradiction|].
  cbn [x_flow x_mean x_resulting]. split; [reflexivity|]. split; [exact E|].
  destruct K as [(K1 & _)|[(K1 & K2 & ->)|[(K1 & K2 & _)|(K1 & K2 & _)]]]; [congruence| |congruence|congruence]. split; [reflexivity|].
  intros Q. apply F. apply (Rmult_eq_reg_l a); [lra|exact Z].
Qed.
Print Assumptions C213_mean_refuted.

(** ** C214: exchanges with a mean amount only *)
(** Without the resulting amount, which is optional, the process cannot be converted. *)
Theorem C214_mean_only_refuted :
  forall fp ofp mp isf df vars l us x, In (us, x) l -> u_olca us = [] -> x_resulting x = None -> forall r, remap_all fp ofp mp isf df vars l <> Ok r.
Proof.
  intros fp ofp mp isf df vars l us x I O X r H. revert vars r H. induction l as [|[us' x'] l IH]; intros vars r H; [contradiction|]. cbn [remap_all] in H.
  inv_bind H. rename Ha into H1. inv_bind H. destruct I as [I|I]; [|exact (IH I _ _ Ha)]. injection I as -> ->.
  unfold remap in H1. inv_bind H1. inv_bind H1. unfold base_amount in Ha1. rewrite O, X in Ha1. discriminate.
Qed.
Print Assumptions C214_mean_only_refuted.
(** With it, and with its files, an exchange that is not in the mapping is converted, and stays as it is. *)
Theorem C214_resulting_partial :
  forall fp ofp mp isf df us vars x a m ms p, bare us x -> x_resulting x = Some a -> u_main us = m :: ms -> getf (x_flow x) mp = None ->
    (exists u, In u (flow_places x) /\ isf u = true) ->
    (let mu := fix_bq (fst m) in lookup_fp ofp (if (str_eqb mu (lit "EUR") || infixb (lit "Item") mu)%bool then mu else map lower_ascii mu) = Ok p) ->
    df (lit "flow property") (xml (fst p)) = true -> df (lit "unit group") (xml (snd p)) = true ->
    exists o, remap fp ofp mp isf df us vars x = Ok o /\ o_exch o = x /\ o_vars o = vars.
Proof.
  intros fp ofp mp isf df us vars x a m ms p B A M G (u & U1 & U2) P F1 F2. pose proof B as (O & XA & XV).
  assert (X : exists o, remap fp ofp mp isf df us vars x = Ok o).
  { unfold remap, get_uri. destruct (find isf (flow_places x)) as [uri|] eqn:E; [|exfalso; pose proof (find_none _ _ E u U1); congruence].
    cbn [bind]. unfold base_amount. rewrite O, A, M, G. cbn [need bind first_unit]. rewrite XV. cbn [var_opt bind]. cbv zeta in *. rewrite P. cbn [bind].
    unfold save_original. rewrite F1, F2. cbn [bind]. eexists. reflexivity. }
  destruct X as (o & X). exists o. split; [exact X|]. destruct (remap_cases _ _ _ _ _ _ _ _ _ X B) as (a' & m' & ms' & _ & _ & V & K). rewrite G in K. now split.
Qed.
Print Assumptions C214_resulting_partial.

(** ** C215: converting again *)
(** If no flow to which the mapping leads is moved by it, the exchanges of a converted process stay as they are. *)
Theorem C215_again_partial :
  forall fp ofp mp isf df isf' df' vars l xs vs ss l' vars' xs' vs' ss',
    (forall k r t, getf k mp = Some r -> ~ unmatched r -> getf (r_target r) mp = Some t -> unmatched t) ->
    remap_all fp ofp mp isf df vars l = Ok (xs, vs, ss) -> (forall us x, In (us, x) l -> bare us x) ->
    map snd l' = xs -> (forall us x, In (us, x) l' -> u_olca us = []) ->
    remap_all fp ofp mp isf' df' vars' l' = Ok (xs', vs', ss') -> xs' = xs.
Proof.
  intros fp ofp mp isf df isf' df' vars l. revert vars. induction l as [|[us x] l IH]; intros vars xs vs ss l' vars' xs' vs' ss' W H B E B' H'; cbn [remap_all] in H.
  - injection H as <- _ _. destruct l'; [|discriminate]. cbn [remap_all] in H'. now injection H' as <- _ _.
  - inv_bind H. rename a into o, Ha into H1. inv_bind H. destruct a as [[xs1 vs1] ss1]. injection H as <- <- <-.
    destruct l' as [|[us' x'] l']; [discriminate|]. cbn [map snd] in E. injection E as Ex El. cbn [remap_all] in H'. inv_bind H'. rename a into o', Ha0 into H1'.
    inv_bind H'. destruct a as [[xs2 vs2] ss2]. injection H' as <- <- <-.
    assert (Bx : bare us x) by (apply B; now left). apply (f_equal2 cons); [|refine (IH _ _ _ _ l' _ _ _ _ W Ha _ El _ Ha0); intros us0 x0 I; [apply B; now right|apply (B' us0 x0); now right]].
    destruct (remap_cases _ _ _ _ _ _ _ _ _ H1 Bx) as (a & m & ms & A & M & _ & K). pose proof Bx as (O & XA & XV).
    assert (Bx' : bare us' x').
    { split; [apply (B' us' x'); now left|]. rewrite Ex. destruct (getf (x_flow x) mp) as [r|]; [|rewrite K; auto]. destruct K as [(_ & ->)|(_ & descr & d & b & _ & -> & _)]; auto. }
    destruct (remap_cases _ _ _ _ _ _ _ _ _ H1' Bx') as (a' & m' & ms' & A' & M' & _ & K'). rewrite <- Ex.
    destruct (getf (x_flow x') mp) as [t|] eqn:G'; [|exact K']. destruct K' as [(_ & K')|(N & _)]; [exact K'|]. exfalso. apply N.
    rewrite Ex in G'. destruct (getf (x_flow x) mp) as [r|] eqn:G; [|rewrite K, G in G'; discriminate].
    destruct K as [(F & K)|(F & descr & d & b & _ & K & _)]; rewrite K in G'; [rewrite G in G'; injection G' as <-; exact F|]. cbn [x_flow] in G'. exact (W _ _ _ G F G').
Qed.
Print Assumptions C215_again_partial.
(** A flow to which the mapping leads and that it moves elsewhere is moved on by the second conversion. *)
Theorem C215_chain_refuted :
  forall fp ofp mp isf df isf' df' us vars x o r us' vars' o' t, remap fp ofp mp isf df us vars x = Ok o -> bare us x ->
    getf (x_flow x) mp = Some r -> ~ unmatched r -> getf (r_target r) mp = Some t -> ~ unmatched t -> r_target t <> r_target r ->
    u_olca us' = [] -> remap fp ofp mp isf' df' us' vars' (o_exch o) = Ok o' -> x_flow (o_exch o') = r_target t /\ x_flow (o_exch o') <> x_flow (o_exch o).
Proof.
  intros fp ofp mp isf df isf' df' us vars x o r us' vars' o' t H B G N G' N' D O' H'. destruct (remap_cases _ _ _ _ _ _ _ _ _ H B) as (a & m & ms & A & M & _ & K).
  rewrite G in K. destruct K as [(F & _)|(_ & descr & d & b & _ & E & _)]; [contradiction|]. rewrite E in *.
  assert (B' : bare us' (Exch (r_target r) (Some (lit "../flows/" ++ xml (r_target r))) None descr (Some b) (x_mean x) None (x_unit x) (x_property x) d None)) by (split; auto).
  destruct (remap_cases _ _ _ _ _ _ _ _ _ H' B') as (a' & m' & ms' & _ & _ & _ & K). cbn [x_flow] in K. rewrite G' in K.
  destruct K as [(F & _)|(_ & descr' & d' & b' & _ & E' & _)]; [contradiction|]. rewrite E'. cbn [x_flow]. auto.
Qed.
Print Assumptions C215_chain_refuted.

(** ** C216: the way back *)
(** [t] is the way back of [r], which leads from the flow [k] *)
Definition inverse (k : pystr) (r t : row) : Prop :=
  r_target t = k /\ r_source_unit t = r_target_unit r /\ r_target_unit t = r_source_unit r /\ r_factor r * r_factor t = 1 /\ ~ unmatched t.
(** The amount comes back if the flows are measured in the units of the mapping. *)
Theorem C216_back_partial :
  forall fp ofp mp back isf df isf' df' us vars x o r t us' vars' o', remap fp ofp mp isf df us vars x = Ok o -> bare us x ->
    getf (x_flow x) mp = Some r -> ~ unmatched r -> getf (r_target r) back = Some t -> inverse (x_flow x) r t ->
    measured_in us (r_source_unit r) -> measured_in us' (r_target_unit r) -> u_olca us' = [] ->
    remap fp ofp back isf' df' us' vars' (o_exch o) = Ok o' ->
    x_flow (o_exch o') = x_flow x /\ x_resulting (o_exch o') = x_resulting x /\ x_mean (o_exch o') = x_mean x.
Proof.
  intros fp ofp mp back isf df isf' df' us vars x o r t us' vars' o' H B G N G' (I1 & I2 & I3 & I4 & I5) (m0 & ms0 & U & S) (m1 & ms1 & U' & S') O' H'.
  destruct (remap_cases _ _ _ _ _ _ _ _ _ H B) as (a & m & ms & A & M & _ & K). rewrite U in M. injection M as <- <-.
  rewrite G in K. destruct K as [(F & _)|(_ & descr & d & b & _ & E & K)]; [contradiction|]. rewrite E in H'.
  assert (B' : bare us' (Exch (r_target r) (Some (lit "../flows/" ++ xml (r_target r))) None descr (Some b) (x_mean x) None (x_unit x) (x_property x) d None)) by (split; auto).
  destruct (remap_cases _ _ _ _ _ _ _ _ _ H' B') as (a' & m' & ms' & A' & M' & _ & K'). cbn [x_flow x_resulting x_mean x_dist] in *. injection A' as <-. rewrite U' in M'. injection M' as <- <-.
  rewrite G' in K'. destruct K' as [(F & _)|(_ & descr' & d' & b' & _ & E' & K')]; [contradiction|]. rewrite E', A. cbn [x_flow x_resulting x_mean]. split; [exact I1|]. split; [|reflexivity]. f_equal.
  rewrite <- S in K. rewrite <- S', I2, I3 in K'.
  destruct K as [(K1 & -> & _)|[(K1 & K2 & ->)|[(K1 & K2 & _)|(K1 & K2 & _)]]]; [| |congruence|congruence];
    destruct K' as [(Q1 & -> & _)|[(Q1 & Q2 & ->)|[(Q1 & Q2 & _)|(Q1 & Q2 & _)]]]; try congruence; try reflexivity.
  rewrite Rmult_assoc, I4. lra.
Qed.
Print Assumptions C216_back_partial.
(** A flow measured in none of the units of its row keeps its amount on the way there, and gets the factor on the way back. *)
Theorem C216_units_refuted :
  forall fp ofp mp back isf df isf' df' us vars x o a r t u us' vars' o', remap fp ofp mp isf df us vars x = Ok o -> bare us x -> x_resulting x = Some a ->
    getf (x_flow x) mp = Some r -> ~ unmatched r -> getf (r_target r) back = Some t -> inverse (x_flow x) r t ->
    measured_in us u -> u <> r_target_unit r -> u <> r_source_unit r -> getf (r_source_unit r) (u_sec us) = None -> r_target_unit r <> r_source_unit r ->
    measured_in us' (r_target_unit r) -> u_olca us' = [] ->
    remap fp ofp back isf' df' us' vars' (o_exch o) = Ok o' ->
    x_flow (o_exch o') = x_flow x /\ x_resulting (o_exch o') = Some (a / r_factor r).
Proof.
  intros fp ofp mp back isf df isf' df' us vars x o a0 r t u us' vars' o' H B A0 G N G' (I1 & I2 & I3 & I4 & I5) (m0 & ms0 & U & ->) D1 D2 D3 D4 (m1 & ms1 & U' & S') O' H'.
  destruct (remap_cases _ _ _ _ _ _ _ _ _ H B) as (a & m & ms & A & M & _ & K). rewrite U in M. injection M as <- <-. rewrite A0 in A. injection A as <-.
  rewrite G in K. destruct K as [(F & _)|(_ & descr & d & b & _ & E & K)]; [contradiction|]. rewrite E in H'.
  assert (B' : bare us' (Exch (r_target r) (Some (lit "../flows/" ++ xml (r_target r))) None descr (Some b) (x_mean x) None (x_unit x) (x_property x) d None)) by (split; auto).
  destruct (remap_cases _ _ _ _ _ _ _ _ _ H' B') as (a' & m' & ms' & A' & M' & _ & K'). cbn [x_flow x_resulting x_mean x_dist] in *. injection A' as <-. rewrite U' in M'. injection M' as <- <-.
  rewrite G' in K'. destruct K' as [(F & _)|(_ & descr' & d' & b' & _ & E' & K')]; [contradiction|]. rewrite E'. cbn [x_flow x_resulting]. split; [exact I1|]. f_equal.
  rewrite <- S', I2, I3 in K'.
  destruct K as [(K1 & _)|[(K1 & K2 & _)|[(K1 & K2 & g & Gg & _)|(K1 & K2 & _ & -> & _)]]]; [congruence|congruence|congruence|].
  destruct K' as [(Q1 & _)|[(Q1 & Q2 & ->)|[(Q1 & Q2 & _)|(Q1 & Q2 & _)]]]; try congruence; try (now contradiction Q2).
  unfold Rdiv. f_equal. apply (Rmult_eq_reg_l (r_factor r)); [|intros Z; rewrite Z in I4; lra]. rewrite I4. rewrite Rinv_r; [reflexivity|intros Z; rewrite Z in I4; lra].
Qed.
Print Assumptions C216_units_refuted.

Definition there_row : row := Row (lit "PROXY") (lit "t") (lit "Target") 2 (lit "kg") (lit "m3").
Definition back_row : row := Row (lit "PROXY") (lit "s") (lit "Source") (/ 2) (lit "m3") (lit "kg").
Definition plain_exch : exch := Exch (lit "s") None None [(lit "en", lit "Source")] (Some 3) (Some 3) None None None None None.
Example C213_nonvacuous :
  exists o, remap ilcd_unit_to_fp olcailcd_unit_to_fp [(lit "s", there_row)] (fun _ => true) (fun _ _ => true) (Units [(lit "kg", 1)] [] []) [] plain_exch = Ok o /\
    bare (Units [(lit "kg", 1)] [] []) plain_exch /\ measured_in (Units [(lit "kg", 1)] [] []) (lit "kg") /\ ~ unmatched there_row /\
    x_mean (o_exch o) = Some 3 /\ x_resulting (o_exch o) = Some (3 * 2).
Proof.
  eexists. split; [reflexivity|]. split; [repeat split|]. split; [eexists; eexists; split; reflexivity|]. split; [|split; reflexivity].
  intros [F|[F|[]]]; discriminate.
Qed.
Example C214_nonvacuous :
  exists e, remap_all ilcd_unit_to_fp olcailcd_unit_to_fp [] (fun _ => true) (fun _ _ => true) []
    [(Units [(lit "kg", 1)] [] [], Exch (lit "s") None None [(lit "en", lit "Source")] None (Some 3) None None None None None)] = Err e.
Proof. eexists. reflexivity. Qed.
Example C215_nonvacuous :
  exists xs vs ss vs' ss', remap_all ilcd_unit_to_fp olcailcd_unit_to_fp [(lit "s", there_row)] (fun _ => true) (fun _ _ => true) [] [(Units [(lit "kg", 1)] [] [], plain_exch)] = Ok (xs, vs, ss) /\
    remap_all ilcd_unit_to_fp olcailcd_unit_to_fp [(lit "s", there_row)] (fun _ => true) (fun _ _ => true) vs (map (fun x => (Units [(lit "m3", 1)] [] [], x)) xs) = Ok (xs, vs', ss') /\
    map x_flow xs = [lit "t"].
Proof. do 5 eexists. split; [reflexivity|]. split; reflexivity. Qed.
Example C216_nonvacuous :
  exists o o', remap ilcd_unit_to_fp olcailcd_unit_to_fp [(lit "s", there_row)] (fun _ => true) (fun _ _ => true) (Units [(lit "kg", 1)] [] []) [] plain_exch = Ok o /\
    remap ilcd_unit_to_fp olcailcd_unit_to_fp [(lit "t", back_row)] (fun _ => true) (fun _ _ => true) (Units [(lit "m3", 1)] [] []) [] (o_exch o) = Ok o' /\
    inverse (lit "s") there_row back_row /\ x_flow (o_exch o') = lit "s".
Proof.
  do 2 eexists. split; [reflexivity|]. split; [reflexivity|]. split; [|reflexivity]. repeat split; try reflexivity; [cbn; lra|]. intros [F|[F|[]]]; discriminate.
Qed.
