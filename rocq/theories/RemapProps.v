(** Moving ILCD exchanges to other flows (C47, C48, C107-C111). *)
From Coq Require Import Ascii String List Bool Arith NArith ZArith Reals Lia Lra.
From Verif Require Import PyBase PyBaseFacts PyValues MultiLangModel DotDictModel DotDictProofs XmlModel TextFacts RemapModel RemapSpec RemapProofs.
Import ListNotations.
Local Open Scope R_scope.

(** ** C47: amounts *)
(** An exchange without OpenLCA attributes.  The amount of a flow that is not in the mapping, or marked as
    having no counterpart, is kept; a flow measured in the source unit of its row, or in the reference unit of
    another property in which the source unit is given, gets the amount times the factors. *)
Theorem C47_amounts_partial :
  forall fp ofp mapping is_file default_file us vars x o a main,
    remap fp ofp mapping is_file default_file us vars x = Ok o ->
    u_olca us = [] -> x_resulting x = Some a -> fst (hd (main, 1) (u_main us)) = main ->
    let unit := fix_bq main in
    match getf (x_flow x) mapping with
    | None => x_flow (o_exch o) = x_flow x /\ x_resulting (o_exch o) = Some a
    | Some r =>
        (In (r_type r) [lit "NO_MATCH_MAPPING"; lit "NO MATCH"] -> o_exch o = x) /\
        (~ In (r_type r) [lit "NO_MATCH_MAPPING"; lit "NO MATCH"] ->
           x_flow (o_exch o) = r_target r /\ map snd (x_descr (o_exch o)) = [r_name r] /\
           (r_target_unit r <> unit -> r_source_unit r = unit -> x_resulting (o_exch o) = Some (a * r_factor r)) /\
           (forall g, r_target_unit r <> unit -> r_source_unit r <> unit -> getf (r_source_unit r) (u_sec us) = Some g ->
              x_resulting (o_exch o) = Some (a * (r_factor r * g))))
    end.
Proof.
  intros fp ofp mp isf df us vars x o a main H O A M unit. unfold remap in H. inv_bind H. inv_bind H. rename a0 into uri.
  destruct a1 as [[amount u] mu]. assert (B : amount = a /\ u = unit).
  { unfold base_amount in Ha0. rewrite O, A in Ha0. cbn [need bind] in Ha0. destruct (u_main us) as [|m l]; [discriminate|].
    cbn [first_unit bind hd] in *. injection Ha0 as <- <- <-. now rewrite M. }
  destruct B as [-> ->]. clear Ha Ha0. destruct (getf (x_flow x) mp) as [r|].
  - destruct (str_in (r_type r) no_match) eqn:T.
    + apply str_in_In in T. injection H as <-. split; [reflexivity|]. intros F. contradiction.
    + assert (T' : ~ In (r_type r) no_match) by (intros F; apply str_in_In in F; congruence).
      split; [intros F; contradiction|]. intros _. inv_bind H. inv_bind H. cbv zeta in H. inv_bind H. inv_bind H. inv_bind H.
      assert (D : map snd a1 = [r_name r]).
      { unfold set_descr in Ha0. destruct (x_descr x) as [|[lang t] [|? ?]]; try discriminate. now injection Ha0 as <-. }
      destruct (str_eqb (r_target_unit r) unit) eqn:E1; [inv_bind H|destruct (str_eqb (r_source_unit r) unit) eqn:E2; [inv_bind H|
        destruct (getf (r_source_unit r) (u_sec us)) as [g|] eqn:G; [inv_bind H|]]].
      * apply str_eqb_eq in E1. destruct a5 as [vs v]. injection H as <-. cbn [o_exch with_amount with_flow x_flow x_descr].
        split; [reflexivity|]. split; [exact D|]. split; [congruence|intros; congruence].
      * apply str_eqb_eq in E2. destruct a5 as [x' vs]. injection H as <-. unfold converted in Ha4. inv_bind Ha4. inv_bind Ha4. inv_bind Ha4.
        destruct a7 as [vs' v]. injection Ha4 as <- <-. cbn [o_exch with_amount with_flow x_flow x_descr x_resulting].
        split; [reflexivity|]. split; [exact D|]. split; [reflexivity|intros; congruence].
      * apply str_eqb_neq in E2. destruct a5 as [x' vs]. injection H as <-. unfold converted in Ha4. inv_bind Ha4. inv_bind Ha4. inv_bind Ha4.
        destruct a7 as [vs' v]. injection Ha4 as <- <-. cbn [o_exch with_amount with_flow x_flow x_descr x_resulting].
        split; [reflexivity|]. split; [exact D|]. split; [congruence|]. intros g' _ _ [= <-]. reflexivity.
      * apply str_eqb_neq in E2. injection H as <-. cbn [o_exch with_flow x_flow x_descr x_resulting]. split; [reflexivity|]. split; [exact D|].
        split; [congruence|]. intros g _ _ G'. discriminate.
  - inv_bind H. destruct a0 as [vs v]. cbv zeta in H. inv_bind H. inv_bind H. inv_bind H. injection H as <-.
    cbn [o_exch with_amount x_flow x_resulting]. now split.
Qed.
Print Assumptions C47_amounts_partial.

(** An exchange without variable and distribution, whose files are all there, is converted. *)
Theorem C47_succeeds_partial :
  forall (fp ofp : fp_table) mapping is_file default_file us vars x a m ms lang t r p,
    u_olca us = [] -> u_main us = m :: ms -> x_resulting x = Some a -> x_amount x = None -> x_var x = None -> x_dist x = None ->
    (exists u, In u (flow_places x) /\ is_file u = true) -> x_descr x = [(lang, t)] ->
    getf (x_flow x) mapping = Some r -> lookup_fp fp (r_target_unit r) = Ok p ->
    default_file (lit "elementary flow") (xml (r_target r)) = true ->
    default_file (lit "flow property") (xml (fst p)) = true ->
    default_file (lit "unit group") (xml (snd p)) = true ->
    exists o, remap fp ofp mapping is_file default_file us vars x = Ok o /\ o_vars o = vars.
Proof.
  intros fp ofp mp isf df us vars x a m ms lang t r p O M A XA V D (u & U1 & U2) Ds G P F1 F2 F3.
  unfold remap, get_uri, base_amount. destruct (find isf (flow_places x)) as [uri|] eqn:E.
  2: { exfalso. pose proof (find_none _ _ E u U1). congruence. }
  rewrite O, M, A, G. cbn [bind need first_unit]. destruct (str_in (r_type r) no_match); [eexists; split; reflexivity|].
  unfold save_original, set_descr. rewrite F1. cbn [bind]. rewrite Ds. cbn [bind]. cbv zeta. rewrite P. cbn [bind need fst snd]. rewrite F2, F3. cbn [bind].
  unfold converted. cbn [with_flow x_var x_dist x_amount]. rewrite V, D, XA. cbn [var_opt get_unc_opt bind].
  destruct (str_eqb _ _); [eexists; split; reflexivity|]. destruct (str_eqb _ _); [eexists; split; reflexivity|].
  destruct (getf (r_source_unit r) (u_sec us)); eexists; split; reflexivity.
Qed.
Print Assumptions C47_succeeds_partial.

(** When the flow is measured in the target unit of the row, the factor of the row is not used at all. *)
Theorem C47_same_unit_refuted :
  forall fp ofp mapping is_file default_file us vars x o a m ms r,
    remap fp ofp mapping is_file default_file us vars x = Ok o ->
    u_olca us = [] -> u_main us = m :: ms -> x_resulting x = Some a -> getf (x_flow x) mapping = Some r ->
    ~ In (r_type r) [lit "NO_MATCH_MAPPING"; lit "NO MATCH"] -> r_target_unit r = fix_bq (fst m) ->
    x_flow (o_exch o) = r_target r /\ x_resulting (o_exch o) = Some a.
Proof.
  intros fp ofp mp isf df us vars x o a m ms r H O M A G T U. unfold remap, base_amount in H. rewrite O, M, A, G in H.
  inv_bind H. cbn [need first_unit bind] in H.
  replace (str_in (r_type r) no_match) with false in H by (symmetry; destruct (str_in (r_type r) no_match) eqn:E; [apply str_in_In in E; contradiction|reflexivity]).
  inv_bind H. inv_bind H. cbv zeta in H. inv_bind H. inv_bind H. inv_bind H. rewrite U, str_eqb_refl in H. inv_bind H. destruct a6 as [vs v].
  injection H as <-. now split.
Qed.
Print Assumptions C47_same_unit_refuted.
(** When no unit of the flow fits the row, the exchange is moved to the other flow with its old amount. *)
Theorem C47_no_unit_refuted :
  forall fp ofp mapping is_file default_file us vars x o m ms r,
    remap fp ofp mapping is_file default_file us vars x = Ok o ->
    u_olca us = [] -> u_main us = m :: ms -> getf (x_flow x) mapping = Some r ->
    ~ In (r_type r) [lit "NO_MATCH_MAPPING"; lit "NO MATCH"] ->
    r_target_unit r <> fix_bq (fst m) -> r_source_unit r <> fix_bq (fst m) -> getf (r_source_unit r) (u_sec us) = None ->
    x_flow (o_exch o) = r_target r /\ x_resulting (o_exch o) = x_resulting x.
Proof.
  intros fp ofp mp isf df us vars x o m ms r H O M G T U1 U2 S. unfold remap, base_amount in H. rewrite O, M, G in H.
  inv_bind H. inv_bind H. destruct a0 as [[am u] mu]. inv_bind Ha0. cbn [first_unit bind] in Ha0. injection Ha0 as -> <- <-.
  replace (str_in (r_type r) no_match) with false in H by (symmetry; destruct (str_in (r_type r) no_match) eqn:E; [apply str_in_In in E; contradiction|reflexivity]).
  inv_bind H. inv_bind H. cbv zeta in H. inv_bind H. inv_bind H. inv_bind H.
  apply str_eqb_neq in U1, U2. rewrite U1, U2, S in H. injection H as <-. now split.
Qed.
Print Assumptions C47_no_unit_refuted.
(** So it is for every flow measured in "MJ": the tables know the unit as "mj". *)
Theorem C47_energy_refuted :
  forall ofp mapping is_file default_file us vars x o f ms r,
    remap ilcd_unit_to_fp ofp mapping is_file default_file us vars x = Ok o ->
    u_olca us = [] -> u_main us = (lit "MJ", f) :: ms -> u_sec us = [] -> getf (x_flow x) mapping = Some r ->
    ~ In (r_type r) [lit "NO_MATCH_MAPPING"; lit "NO MATCH"] -> In (r_source_unit r) (map fst ilcd_unit_to_fp) ->
    x_flow (o_exch o) = r_target r /\ x_resulting (o_exch o) = x_resulting x.
Proof.
  intros ofp mp isf df us vars x o f ms r H O M S G T I.
  assert (N : forall u, In u (map fst ilcd_unit_to_fp) -> u <> fix_bq (lit "MJ")).
  { apply Forall_forall. repeat constructor; discriminate. }
  apply (C47_no_unit_refuted ilcd_unit_to_fp ofp mp isf df us vars x o (lit "MJ", f) ms r H O M G T).
  - cbn [fst]. apply N. unfold remap in H. inv_bind H. inv_bind H. destruct a0 as [[am u] mu]. rewrite G in H.
    replace (str_in (r_type r) no_match) with false in H by (symmetry; destruct (str_in (r_type r) no_match) eqn:E; [apply str_in_In in E; contradiction|reflexivity]).
    inv_bind H. inv_bind H. cbv zeta in H. inv_bind H. unfold lookup_fp, need in Ha3. destruct (getf (r_target_unit r) ilcd_unit_to_fp) as [p|] eqn:E; [|discriminate].
    apply getf_In in E. apply in_map_iff. exists (r_target_unit r, p). now split.
  - now apply N.
  - now rewrite S.
Qed.
Print Assumptions C47_energy_refuted.

Definition ex_row f := Row (lit "PROXY") (lit "t") (lit "Target") f (lit "kg") (lit "m3").
Definition ex_exch a v := Exch (lit "s") None None [(lit "en", lit "Source")] (Some a) None None None None None v.
Definition ex_vars : list mvar := [MVar (lit "v") 3 (Some (lit "w")) None; MVar (lit "w") 3 None None].
Example C47_nonvacuous :
  exists o, remap ilcd_unit_to_fp olcailcd_unit_to_fp [(lit "s", ex_row 2)] (fun _ => true) (fun _ _ => true)
                  (Units [(lit "kg", 1)] [] []) ex_vars (ex_exch 3 (Some (lit "v"))) = Ok o /\
    x_flow (o_exch o) = lit "t" /\ x_resulting (o_exch o) = Some (3 * 2) /\ x_var (o_exch o) = Some (lit "v_from_kg_to_m3") /\
    o_vars o = [MVar (lit "v_from_kg_to_m3") 3 (Some (lit "(w)*__kg_to_m3__")) None; MVar (lit "w") 3 None None; MVar (lit "__kg_to_m3__") 2 None None].
Proof. eexists. split; [reflexivity|]. cbn. auto. Qed.

(** ** C48: uncertainty *)
Theorem C48_scaled_partial :
  forall d m f, In (d_type d) [lit "triangular"; lit "uniform"] -> d_min d <> None -> d_max d <> None ->
    exists d', get_unc d m f = Ok d' /\ scaled_by f d d'.
Proof.
  intros [t s a b] m f T A B. cbn [d_type d_min d_max] in *. destruct a as [a|]; [|congruence]. destruct b as [b|]; [|congruence].
  unfold get_unc, scaled_by. cbn [d_type d_min d_max d_rsd need bind].
  destruct T as [<- | [<- | []]]; (eexists; split; [reflexivity|]; cbn [d_type d_min d_max]; split; [reflexivity|]; split; intros ? [= <-]; reflexivity).
Qed.
Print Assumptions C48_scaled_partial.
(** A factor of 1 leaves these distributions as they are; with a negative one the minimum lies above the maximum. *)
Theorem C48_negative_refuted :
  forall t s a b m f, In t [lit "triangular"; lit "uniform"] -> a < b -> f < 0 ->
    exists a' b', get_unc (Dist t s (Some a) (Some b)) m f = Ok (Dist t s (Some a') (Some b')) /\ b' < a'.
Proof.
  intros t s a b m f T L F. exists (a * f), (b * f). split; [destruct T as [<- | [<- | []]]; reflexivity|]. nra.
Qed.
Print Assumptions C48_negative_refuted.
(** The interval of a normal distribution becomes half as wide as it should be. *)
Theorem C48_normal_refuted :
  forall m f s, let d := Dist (lit "normal") (Some s) (Some (m - s)) (Some (m + s)) in
    exists d' s' a' b', get_unc d (m * f) f = Ok d' /\ d' = Dist (lit "normal") (Some s') (Some a') (Some b') /\
      s' = s * f / 2 /\ b' - a' = f * ((m + s) - (m - s)) / 2 /\ (scaled_by f d d' -> s * f = 0).
Proof.
  intros m f s d. eexists; eexists; eexists; eexists. split; [reflexivity|]. split; [reflexivity|]. split; [lra|]. split; [lra|].
  intros (_ & H & _). cbn [d_min d] in H. specialize (H _ eq_refl). injection H. intros E. lra.
Qed.
Print Assumptions C48_normal_refuted.
(** The maximum of an undefined distribution is computed from the new minimum. *)
Theorem C48_undefined_refuted :
  forall m m' f s, let d := Dist (lit "undefined") (Some s) (Some (m - s)) (Some (m + s)) in
    exists d' a' b', get_unc d m' f = Ok d' /\ d_min d' = Some a' /\ d_max d' = Some b' /\
      a' = (m - s) * f /\ b' = (m + s) * f + f * (f - 1) * (m - s) / 2.
Proof.
  intros m m' f s d. eexists; eexists; eexists. split; [reflexivity|]. cbn [d_min d_max]. split; [reflexivity|]. split; [reflexivity|].
  split; field.
Qed.
Print Assumptions C48_undefined_refuted.
(** The bounds of a lognormal distribution stay those of the old amount (also under its ILCD name). *)
Theorem C48_lognormal_refuted :
  forall t s a b m f, In t [lit "lognormal"; lit "log-normal"] -> get_unc (Dist t s a b) m f = Ok (Dist t s a b).
Proof. intros t s a b m f [<- | [<- | []]]; reflexivity. Qed.
Print Assumptions C48_lognormal_refuted.
Example C48_nonvacuous : get_unc (Dist (lit "uniform") None (Some 1) (Some 2)) 5 3 = Ok (Dist (lit "uniform") None (Some (1 * 3)) (Some (2 * 3))).
Proof. reflexivity. Qed.

(** ** C107: amounts entered in other units (OpenLCA attributes) *)
(** An amount entered in the reference unit of the flow is taken over. *)
Theorem C107_reference_unit_partial :
  forall us x a n mean ms os, u_olca us = (n, 1) :: os -> u_main us = (n, mean) :: ms -> x_amount x = Some a ->
    base_amount us x = Ok (a, fix_bq n, fix_bq n).
Proof. intros us x a n mean ms os O M A. unfold base_amount. rewrite O, M, A. cbn [need bind first_unit fst]. now rewrite Rmult_1_r. Qed.
Print Assumptions C107_reference_unit_partial.
(** A flow with the reference property [main] and another property of which it has [mean]; the exchange is
    entered in a unit of the latter.  The amount written as the one of the reference unit is off by [mean]. *)
Definition two_props (mean : R) : flow_file :=
  FlowFile NsPrefix (lit "0")
    [FProp (lit "0") 1 NsPrefix (Some (UnitGroup NsPrefix (lit "0") [UnitEntry (lit "0") (lit "kg") 1 (Some (lit "u-kg")); UnitEntry (lit "1") (lit "g") (/ 1000) (Some (lit "u-g"))]));
     FProp (lit "1") mean NsPrefix (Some (UnitGroup NsPrefix (lit "0") [UnitEntry (lit "0") (lit "MJ") 1 (Some (lit "u-mj")); UnitEntry (lit "1") (lit "kJ") (/ 1000) (Some (lit "u-kj"))]))].
Theorem C107_secondary_refuted :
  forall mean a r, mean <> 0 -> mean <> 1 -> a <> 0 ->
    let x := Exch (lit "s") None None [(lit "en", lit "Source")] r None (Some a) (Some (lit "u-kj")) None None None in
    exists us o, get_unit (x_unit x) (two_props mean) = Ok us /\
      remap ilcd_unit_to_fp olcailcd_unit_to_fp [] (fun _ => true) (fun _ _ => true) us [] x = Ok o /\
      x_resulting (o_exch o) = Some (a * / 1000) /\ a * / 1000 <> true_amount mean (/ 1000) a.
Proof.
  intros mean a r M0 M1 A0 x. eexists; eexists. split; [reflexivity|]. split; [reflexivity|]. split; [reflexivity|].
  unfold true_amount. intros E. assert (H : a * / 1000 * mean = a * / 1000).
  { rewrite E at 1. unfold Rdiv. rewrite Rmult_assoc, Rinv_l; [lra|exact M0]. }
  assert (H' : (a * / 1000) * (mean - 1) = 0) by lra. apply Rmult_integral in H'. destruct H' as [H' | H']; [|lra]. apply A0. lra.
Qed.
Print Assumptions C107_secondary_refuted.
(** An amount entered in grams is brought to kilograms but still labelled "g": rows given in kilograms do not fit it. *)
Theorem C107_label_refuted :
  forall a r f mean, let x := Exch (lit "s") None None [(lit "en", lit "Source")] r None (Some a) (Some (lit "u-g")) None None None in
    exists us o, get_unit (x_unit x) (two_props mean) = Ok us /\ base_amount us x = Ok (a * / 1000, lit "g", lit "kg") /\
      remap ilcd_unit_to_fp olcailcd_unit_to_fp [(lit "s", ex_row f)] (fun _ => true) (fun _ _ => true) us [] x = Ok o /\
      x_flow (o_exch o) = lit "t" /\ x_resulting (o_exch o) = r.
Proof. intros a r f mean x. eexists; eexists. split; [reflexivity|]. split; [reflexivity|]. split; [reflexivity|]. now split. Qed.
Print Assumptions C107_label_refuted.
(** The unit an amount is labelled with in the output is the id of a unit group. *)
Theorem C107_unit_id_refuted :
  forall fp ofp mapping is_file default_file us vars x o a,
    remap fp ofp mapping is_file default_file us vars x = Ok o -> x_amount x = Some a -> getf (x_flow x) mapping = None ->
    exists g, x_unit (o_exch o) = Some g /\ In (lit "unitgroups", g ++ lit ".xml") (o_saved o).
Proof.
  intros fp ofp mp isf df us vars x o a H A G. unfold remap in H. inv_bind H. inv_bind H. destruct a1 as [[am u] mu]. rewrite G, A in H.
  inv_bind H. destruct a1 as [vs v]. cbv zeta in H. inv_bind H. inv_bind H. inv_bind H. injection H as <-. destruct a1 as [p g].
  exists g. split; [reflexivity|]. unfold save_original in Ha4. destruct (df _ _); [|discriminate]. injection Ha4 as <-. right. now left.
Qed.
Print Assumptions C107_unit_id_refuted.
Example C107_nonvacuous : exists us, get_unit (Some (lit "u-kg")) (two_props 42) = Ok us /\ u_olca us = [(lit "kg", 1)] /\
  base_amount us (Exch (lit "s") None None [] None None (Some 7) (Some (lit "u-kg")) None None None) = Ok (7 * 1, lit "kg", lit "kg").
Proof. eexists. split; [reflexivity|]. now split. Qed.

(** ** C108: variables *)
(** When every variable is used by one exchange at most and no name becomes another one that is used, every
    reference of the output finds its variable. *)
Theorem C108_references_partial :
  forall fp ofp mapping is_file default_file vars l xs vs ss,
    remap_all fp ofp mapping is_file default_file vars l = Ok (xs, vs, ss) ->
    incl (refs_of (map snd l)) (map v_name vars) -> NoDup (refs_of (map snd l)) -> apart (refs_of (map snd l)) ->
    incl (refs_of xs) (map v_name vs).
Proof. intros fp ofp mp isf df vars l xs vs ss H I N A m. now apply (remap_all_refs _ _ _ _ _ _ _ _ _ _ H I N A). Qed.
Print Assumptions C108_references_partial.
(** The variable of a converted exchange: its formula is multiplied by a new variable, which is there. *)
Theorem C108_converted_variable :
  forall vars n u nu f amount vs m, get_var vars n u nu f amount = Ok (vs, m) -> n <> conv_name u nu -> m <> conv_name u nu ->
    (exists v g d, In v vars /\ v_name v = n /\ v_formula v = Some g /\
       In (MVar m amount (Some (lit "(" ++ g ++ lit ")*" ++ conv_name u nu)) d) vs) /\
    In (MVar (conv_name u nu) f None None) vs /\
    (forall v, In v vars -> v_name v <> n -> In v vs).
Proof.
  intros vars n u nu f am vs m H Hn Hm. unfold get_var in H. inv_bind H. injection H as <- <-.
  assert (O : forall v, In v (vars ++ [MVar (conv_name u nu) f None None]) -> v_name v <> n -> In v a)
    by (intros v I K; eapply change_first_others; eauto).
  split; [|split].
  - apply change_first_new in Ha. destruct Ha as (v & v' & I & N & G & I'). inv_bind G. inv_bind G. injection G as <-.
    unfold need in Ha. destruct (v_formula v) as [g|] eqn:F; [|discriminate]. injection Ha as <-.
    exists v, g, a1. split; [|now split]. apply in_app_or in I. destruct I as [I | [<- | []]]; [exact I|]. discriminate.
  - apply O; [apply in_or_app; right; now left|]. cbn [v_name]. congruence.
  - intros v I. apply O. apply in_or_app. now left.
Qed.
Print Assumptions C108_converted_variable.
(** Its old name is gone, while the other variables, with their formulas, stay as they are; a second exchange
    with the same variable stops the conversion. *)
Theorem C108_second_use_refuted :
  forall vars n u nu f amount vs m, get_var vars n u nu f amount = Ok (vs, m) -> NoDup (map v_name vars) -> n <> conv_name u nu -> m <> n ->
    ~ In (conv_name u nu) (map v_name vars) ->
    ~ In n (map v_name vs) /\
    (forall u' nu' f' amount', n <> conv_name u' nu' -> get_var vs n u' nu' f' amount' = Err IndexError).
Proof.
  intros vars n u nu f am vs m H N Hn Hm C.
  assert (G : ~ In n (map v_name vs)).
  { unfold get_var in H. inv_bind H. apply (f_equal (fun r => match r with Ok p => p | Err _ => ([], []) end)) in H. cbv beta iota in H. apply pair_equal_spec in H. destruct H as [<- E]. apply (change_first_gone _ m) in Ha; [exact Ha| | |].
    - intros v v' Q. inv_bind Q. inv_bind Q. rewrite E in Q. injection Q as <-. reflexivity.
    - exact Hm.
    - rewrite map_app. cbn [map v_name]. apply NoDup_snoc; assumption. }
  split; [exact G|]. intros u' nu' f' am' D. unfold get_var. rewrite change_first_absent; [reflexivity|].
  rewrite map_app, in_app_iff. cbn [map v_name In]. intuition.
Qed.
Print Assumptions C108_second_use_refuted.
(** Two exchanges converted between the same units with different factors define one variable twice. *)
Theorem C108_factor_conflict_refuted :
  forall vars n u nu f amount vs m n2 f2 amount2 vs2 m2,
    get_var vars n u nu f amount = Ok (vs, m) -> get_var vs n2 u nu f2 amount2 = Ok (vs2, m2) ->
    n <> conv_name u nu -> n2 <> conv_name u nu -> m <> conv_name u nu -> m2 <> conv_name u nu ->
    In (MVar (conv_name u nu) f None None) vs2 /\ In (MVar (conv_name u nu) f2 None None) vs2.
Proof.
  intros vars n u nu f am vs m n2 f2 am2 vs2 m2 H H2 N1 N2 M1 M2.
  destruct (C108_converted_variable _ _ _ _ _ _ _ _ H N1 M1) as (_ & I1 & _).
  destruct (C108_converted_variable _ _ _ _ _ _ _ _ H2 N2 M2) as (_ & I2 & O). split; [|exact I2].
  apply O; [exact I1|]. cbn [v_name]. congruence.
Qed.
Print Assumptions C108_factor_conflict_refuted.
(** The value of the variable is the amount before the conversion, unlike the exchange it belongs to. *)
Theorem C108_value_refuted :
  forall ofp x vars u nu amount f x' vs n, converted ofp x vars u nu amount f = Ok (x', vs) -> x_var x = Some n -> n <> [] ->
    exists m v, x_var x' = Some m /\ In v vs /\ v_name v = m /\ v_mean v = amount /\ x_resulting x' = Some (amount * f).
Proof.
  intros ofp x vars u nu am f x' vs n H V N. unfold converted in H. inv_bind H. inv_bind H. inv_bind H. destruct a1 as [vs' o]. injection H as <- <-.
  unfold var_opt in Ha1. rewrite V in Ha1. destruct n as [|c s]; [congruence|]. inv_bind Ha1. destruct a1 as [vs2 m]. injection Ha1 as <- <-.
  unfold get_var in Ha2. inv_bind Ha2. injection Ha2 as <- <-. apply change_first_new in Ha1. destruct Ha1 as (v & v' & _ & _ & G & I).
  inv_bind G. inv_bind G. injection G as <-. eexists; eexists. split; [reflexivity|]. split; [exact I|]. now split.
Qed.
Print Assumptions C108_value_refuted.
Example C108_nonvacuous :
  exists vs, get_var ex_vars (lit "v") (lit "kg") (lit "m3") 2 3 = Ok (vs, lit "v_from_kg_to_m3") /\ List.length vs = 3%nat.
Proof. eexists. split; reflexivity. Qed.

(** ** C109: the flows of the output are there *)
(** A reference with an address finds its file when the flow is moved, or when the address names a file of the
    folder "flows" that exists. *)
Theorem C109_flows_saved_partial :
  forall fp ofp mapping is_file default_file us vars x o,
    remap fp ofp mapping is_file default_file us vars x = Ok o ->
    (forall u, x_uri x = Some u -> exists n, u = lit "../flows/" ++ n /\ bare n /\ is_file (lit "flows/" ++ n) = true) ->
    (x_uri x = None -> bare (x_flow x) /\ (forall v, x_version x = Some v -> bare v)) ->
    resolves (o_saved o) (o_exch o).
Proof.
  intros fp ofp mp isf df us vars x o H P Q. unfold remap in H. inv_bind H. inv_bind H. destruct a0 as [[am u] mu].
  assert (B : forall l x', x_uri x' = x_uri x -> x_flow x' = x_flow x -> x_version x' = x_version x -> In (lit "flows", base_name a) l -> resolves l x').
  { intros l x' E1 E2 E3 I. exists (lit "flows"), (base_name a). split; [exact I|]. rewrite E1, E2, E3.
    destruct (x_uri x) as [v|] eqn:U.
    - destruct (P v eq_refl) as (n & -> & N & F). change (lit "../flows/" ++ n) with (lit "../" ++ lit "flows/" ++ n) in *.
      assert (R := place_flows n N). rewrite (get_uri_address _ _ _ U) in Ha; [|discriminate|now rewrite R]. rewrite R in Ha. assert (a = lit "flows/" ++ n) by congruence. subst a.
      now rewrite base_flows by exact N.
    - split; [reflexivity|]. destruct (Q eq_refl) as [Q1 Q2]. unfold get_uri, flow_places in Ha. rewrite U in Ha. cbn [app find] in Ha. destruct (isf (lit "flows/" ++ xml (x_flow x))).
      + assert (a = lit "flows/" ++ xml (x_flow x)) by congruence. subst a. left. rewrite base_flows; [reflexivity|]. apply bare_app; [exact Q1|]. now apply bare_ext.
      + destruct (isf _); [|discriminate]. match type of Ha with Ok ?q = _ => assert (a = q) by congruence; subst a end. right. rewrite base_flows; [reflexivity|].
        apply bare_app; [exact Q1|]. apply bare_app; [now apply bare_us|]. apply bare_app; [|now apply bare_ext].
        destruct (x_version x) as [v|]; [now apply Q2|]. intros []. }
  destruct (getf (x_flow x) mp) as [r|].
  - destruct (str_in (r_type r) no_match); [injection H as <-; apply B; now try left|].
    inv_bind H. inv_bind H. cbv zeta in H. inv_bind H. inv_bind H. inv_bind H.
    assert (T : forall l x', x_uri x' = Some (lit "../flows/" ++ xml (r_target r)) -> In a0 l -> resolves l x').
    { intros l x' U I. unfold save_original in Ha1. destruct (df _ _); [|discriminate]. injection Ha1 as <-. exists (lit "flows"), (xml (r_target r)). split; [exact I|].
      rewrite U. reflexivity. }
    destruct (str_eqb (r_target_unit r) u); [inv_bind H|destruct (str_eqb (r_source_unit r) u); [inv_bind H|
      destruct (getf (r_source_unit r) (u_sec us)); [inv_bind H|]]].
    + destruct a5. injection H as <-. apply T; [reflexivity|now left].
    + destruct a5. injection H as <-. unfold converted in Ha6. inv_bind Ha6. inv_bind Ha6. inv_bind Ha6. destruct a7. injection Ha6 as <- <-. apply T; [reflexivity|now left].
    + destruct a5. injection H as <-. unfold converted in Ha6. inv_bind Ha6. inv_bind Ha6. inv_bind Ha6. destruct a7. injection Ha6 as <- <-. apply T; [reflexivity|now left].
    + injection H as <-. apply T; [reflexivity|now left].
  - inv_bind H. destruct a0 as [vs v]. cbv zeta in H. inv_bind H. inv_bind H. inv_bind H. injection H as <-. apply B; try reflexivity. cbn [o_saved]. right; right; now left.
Qed.
Print Assumptions C109_flows_saved_partial.
(** The files of the flow property and of the unit group of a moved flow are in the output, too. *)
Theorem C109_properties_saved :
  forall fp ofp mapping is_file default_file us vars x o r,
    remap fp ofp mapping is_file default_file us vars x = Ok o -> getf (x_flow x) mapping = Some r ->
    ~ In (r_type r) [lit "NO_MATCH_MAPPING"; lit "NO MATCH"] ->
    exists p g, lookup_fp fp (r_target_unit r) = Ok (p, g) /\
      In (lit "flowproperties", p ++ lit ".xml") (o_saved o) /\ In (lit "unitgroups", g ++ lit ".xml") (o_saved o).
Proof.
  intros fp ofp mp isf df us vars x o r H G T. unfold remap in H. inv_bind H. inv_bind H. destruct a0 as [[am u] mu]. rewrite G in H.
  replace (str_in (r_type r) no_match) with false in H by (symmetry; destruct (str_in (r_type r) no_match) eqn:E; [apply str_in_In in E; contradiction|reflexivity]).
  inv_bind H. inv_bind H. cbv zeta in H. inv_bind H. inv_bind H. inv_bind H. destruct a2 as [p g]. exists p, g. split; [exact Ha3|].
  unfold save_original in Ha4, Ha5. destruct (df _ (xml (fst _))); [|discriminate]. destruct (df _ (xml (snd _))); [|discriminate].
  injection Ha4 as <-. injection Ha5 as <-.
  destruct (str_eqb (r_target_unit r) u); [inv_bind H|destruct (str_eqb (r_source_unit r) u); [inv_bind H|
      destruct (getf (r_source_unit r) (u_sec us)); [inv_bind H|]]]; try destruct a2; injection H as <-; cbn [o_saved];
    (split; [right; now left|right; right; now left]).
Qed.
Print Assumptions C109_properties_saved.
(** A flow kept in a folder inside "flows" is copied to "flows" itself, where its address does not lead. *)
Theorem C109_folder_refuted :
  forall fp ofp mapping is_file default_file us vars x o sub n,
    remap fp ofp mapping is_file default_file us vars x = Ok o -> getf (x_flow x) mapping = None ->
    x_uri x = Some (lit "../flows/" ++ sub ++ lit "/" ++ n) -> bare n -> ~ CommentSpec.occurs (lit "../") (lit "flows/" ++ sub ++ lit "/" ++ n) ->
    is_file (lit "flows/" ++ sub ++ lit "/" ++ n) = true ->
    In (lit "flows", n) (o_saved o) /\ ~ resolves (o_saved o) (o_exch o).
Proof.
  intros fp ofp mp isf df us vars x o sub n H G U N O F. unfold remap in H. inv_bind H. inv_bind H. destruct a0 as [[am u] mu]. rewrite G in H.
  assert (A : base_name a = n).
  { assert (R : replace (lit "../") [] (lit "../flows/" ++ sub ++ lit "/" ++ n) = lit "flows/" ++ sub ++ lit "/" ++ n).
    { change (lit "../flows/" ++ sub ++ lit "/" ++ n) with (lit "../" ++ lit "flows/" ++ sub ++ lit "/" ++ n).
      rewrite replace_hit by discriminate. rewrite replace_absent by (discriminate || exact O). reflexivity. }
    rewrite (get_uri_address _ _ _ U) in Ha; [|discriminate|now rewrite R]. rewrite R in Ha. assert (a = lit "flows/" ++ sub ++ lit "/" ++ n) by congruence. subst a.
    rewrite app_assoc. change (lit "/" ++ n) with (ch "/" :: n). now apply base_dir. }
  inv_bind H. destruct a0 as [vs v]. cbv zeta in H. inv_bind H. inv_bind H. inv_bind H. injection H as <-. cbn [o_saved o_exch with_amount]. rewrite A.
  split; [right; right; now left|]. intros (d & m & I & E). cbn [x_uri with_amount] in E. rewrite U in E.
  unfold save_original in Ha3, Ha4. destruct (df _ (xml (fst _))); [|discriminate]. destruct (df _ (xml (snd _))); [|discriminate].
  injection Ha3 as <-. injection Ha4 as <-. destruct I as [[= <- <-] | [[= <- <-] | [[= <- <-] | []]]]; try discriminate.
  apply (f_equal (@List.length _)) in E. rewrite ?app_length in E. cbn [List.length lit] in E. unfold pystr in *. cbn in E. lia.
Qed.
Print Assumptions C109_folder_refuted.
Example C109_nonvacuous :
  exists o, remap ilcd_unit_to_fp olcailcd_unit_to_fp [(lit "s", ex_row 2)] (fun _ => true) (fun _ _ => true)
                  (Units [(lit "kg", 1)] [] []) [] (ex_exch 3 None) = Ok o /\
    map fst (o_saved o) = [lit "flows"; lit "flowproperties"; lit "unitgroups"].
Proof. eexists. split; reflexivity. Qed.

(** ** C110: numbers of texts *)
Theorem C110_indexed : forall v v', place_index v = Ok v' -> numbered v v'.
Proof. intros v v'. now apply (place_sound (vsize v)). Qed.
Print Assumptions C110_indexed.
(** The copy fails exactly when a list holds something other than dictionaries. *)
Theorem C110_lists_refuted : forall d, (exists v', place_index (VDict d) = Ok v') <-> ~ plain_in_list (VDict d).
Proof.
  intros d. split.
  - intros [v' E] P. apply place_fails in P. destruct P as [e P]. congruence.
  - now apply (place_total (vsize (VDict d))).
Qed.
Print Assumptions C110_lists_refuted.
(** So a process with several reference flows, given as plain numbers, is not copied. *)
Theorem C110_reference_flows_refuted : forall a b l k rest,
  ~ in_dict (lit "@lang") ((k, VList (VStr a :: VStr b :: l)) :: rest) ->
  forall v', place_index (VDict ((k, VList (VStr a :: VStr b :: l)) :: rest)) <> Ok v'.
Proof.
  intros a b l k rest N v' E. apply (proj1 (C110_lists_refuted ((k, VList (VStr a :: VStr b :: l)) :: rest))); [eauto|].
  eapply pl_here; [exact N|now left|now left|discriminate].
Qed.
Print Assumptions C110_reference_flows_refuted.
Example C110_nonvacuous :
  place_index (VDict [(lit "a", VList [VDict [(lit "@lang", VStr (lit "en")); (lit "#text", VStr (lit "x"))]]); (lit "b", VStr (lit "y"))]) =
  Ok (VDict [(lit "a", VList [VDict [(lit "@lang", VStr (lit "en")); (lit "#text", VStr (lit "x")); (lit "@index", VInt 1)]]); (lit "b", VStr (lit "y"))]).
Proof. reflexivity. Qed.

(** ** C111: unit files *)
(** Units as read: the main unit, the others, and none chosen by OpenLCA. *)
Theorem C111_units_read_partial :
  forall main l us, Forall2 (fun p u => p_ns p <> NsNone /\ exists g, p_group p = Some g /\ good_group g u) l us ->
    get_unit None (FlowFile NsPrefix main l) =
    Ok (Units (map (fun pu => (snd pu, p_mean (fst pu))) (filter (fun pu => str_eqb (p_id (fst pu)) main) (combine l us)))
              (map (fun pu => (snd pu, p_mean (fst pu))) (filter (fun pu => negb (str_eqb (p_id (fst pu)) main)) (combine l us))) []).
Proof.
  intros main l us F. unfold get_unit. cbn [f_ns f_main f_props]. rewrite (prop_plain _ _ _ F). cbn [bind app]. f_equal.
  induction (combine l us) as [|[p u] k IH]; [reflexivity|]. injection IH as I1 I2 I3. cbn [map filter fst snd].
  unfold of_role in *. cbn [flat_map fst snd]. destruct (str_eqb (p_id p) main); cbn [negb map app fst snd]; now rewrite ?I1, ?I2, ?I3.
Qed.
Print Assumptions C111_units_read_partial.
(** Files are read only when the flow names its namespace by a prefix, and every unit group does so with several
    units, or has it as the default one with a single unit. *)
Theorem C111_namespaces_refuted :
  forall olca f us, get_unit olca f = Ok us ->
    f_ns f = NsPrefix /\
    Forall (fun p => exists g, p_group p = Some g /\
              ((ug_ns g = NsPrefix /\ (2 <= List.length (ug_units g))%nat) \/ (ug_ns g = NsDefault /\ List.length (ug_units g) = 1%nat))) (f_props f).
Proof.
  intros olca [n main l] us H. unfold get_unit in H. cbn [f_ns f_main f_props] in *. destruct n; try discriminate. split; [reflexivity|].
  inv_bind H. clear H us. revert Ha. generalize (@nil (role * (pystr * R))).
  induction l as [|p l IH]; intros found H; [constructor|]. cbn [prop_units] in H. destruct (p_group p) as [g|] eqn:G; [|destruct (p_ns p); discriminate].
  assert (K : exists f, group_units (match olca with Some [] => None | o => o end) (if str_eqb (p_id p) main then RMain else RSec) (p_mean p) g = Ok f /\
                        exists f2, prop_units (match olca with Some [] => None | o => o end) main f2 l = Ok a).
  { destruct (p_ns p); try discriminate; inv_bind H; (eexists; split; [eassumption|]; destruct (found ++ a0); [discriminate|eauto]). }
  destruct K as (f & K & f2 & K2). constructor; [|eapply IH; exact K2]. exists g. split; [exact G|]. unfold group_units in K.
  destruct (ug_ns g); try discriminate; destruct (ug_units g) as [|e [|e' k]]; try discriminate; [left|right]; (split; [reflexivity|cbn; lia]).
Qed.
Print Assumptions C111_namespaces_refuted.
Example C111_nonvacuous : exists us, get_unit None (two_props 42) = Ok us /\ u_main us = [(lit "kg", 1)] /\ u_sec us = [(lit "MJ", 42)] /\ u_olca us = [].
Proof. eexists. split; [reflexivity|]. now split. Qed.
