(** Variables read from ILCD (C103-C106). *)
From Coq Require Import Ascii String List Bool Arith NArith ZArith Lia.
From Verif Require Import PyBase PyBaseFacts DotDictModel DotDictProofs ImportModel ImportSpec ImportProofs.
Import ListNotations.

(** ** C103: variable names *)
(** Whatever the process, every variable name written (of an exchange or of a parameter) starts with a
    letter, and a name that did so already is kept. *)
Theorem C103_letter_first :
  forall V (vars : list (ilcd_var V)) l ws ps, import_process vars l = Ok (ws, ps) ->
    (forall n f, In (Some (n, f)) ws -> starts_with_letter n) /\
    (forall p, In p ps -> starts_with_letter (p_variable p)).
Proof.
  intros V vars l ws ps. unfold import_process. destruct (import_exchanges _ l) as [[st ws']|] eqn:E; [|discriminate].
  cbn [bind]. intros [= <- <-]. destruct (exchanges_named V l _ _ _ (registered_named V vars) E) as [A W].
  split; [exact W|]. intros p P. unfold create_parameters in P. apply in_map_iff in P. destruct P as ([k [u v]] & <- & P).
  apply filter_In in P. cbn [p_variable]. rewrite (A _ _ _ (proj1 P)). apply ecs2_name_letter.
Qed.
Print Assumptions C103_letter_first.
Theorem C103_names_kept :
  forall V (vars : list (ilcd_var V)) l, NoDup (map x_name vars) -> plain l -> NoDup (refs l) -> incl (refs l) (map x_name vars) ->
    exists ws ps, import_process vars l = Ok (ws, ps) /\
      Forall2 new_name (written_refs l) (written_names ws) /\
      Forall (fun p => In (p_name p) (map x_name vars) /\ new_name (p_name p) (p_variable p)) ps.
Proof.
  intros V vars l ND P NR I. destruct (table_of V vars ND) as [A C].
  destruct (plain_run V l (fold_left register vars no_vars)) as (st & ws & E & K & _ & KD & W & _ & _).
  - exact P.
  - exact NR.
  - rewrite A, map_map. exact ND.
  - now apply table_keyed.
  - intros n Hn. apply I in Hn. apply in_map_iff in Hn. destruct Hn as (x & <- & X). eexists. now apply registered_get.
  - unfold import_process. rewrite E. cbn [bind]. eexists; eexists. split; [reflexivity|]. split.
    + rewrite W. clear. induction (written_refs l) as [|n m IH]; cbn [map]; constructor; [apply ecs2_name_new|exact IH].
    + apply Forall_forall. intros p Hp. unfold create_parameters in Hp. apply in_map_iff in Hp.
      destruct Hp as ([k [u v]] & <- & Hp). apply filter_In in Hp. destruct Hp as [Hp _]. cbn [p_name p_variable]. split.
      * rewrite A, map_map in K. cbn [fst] in K. change (map (fun x => x_name x) vars) with (map x_name vars) in K. rewrite <- K. apply in_map_iff. exists (k, (u, v)). now split.
      * destruct (KD _ _ _ Hp) as [<- N]. rewrite N. apply ecs2_name_new.
Qed.
Print Assumptions C103_names_kept.
Example C103_nonvacuous :
  import_process [IlcdVar (lit "_a") 1%Z None; IlcdVar (lit "b") 2%Z (Some (lit "_a*2"))]
                 [IExchange (Some (lit "b", lit "1.0")) Converted] =
  Ok ([Some (lit "b", Some (lit "uc_a*2"))], [Param (lit "_a") (lit "uc_a") 1%Z None]).
Proof. reflexivity. Qed.

(** ** C104: no variable is lost *)
(** When the names differ (also from "name_original"), the exchanges refer to variables of the process and
    the flow data sets of those exchanges are there, the conversion succeeds, and every variable is the
    variable of an exchange or a parameter of that name with its value. *)
Theorem C104_variables_kept_partial :
  forall V (vars : list (ilcd_var V)) l, NoDup (map x_name vars) -> no_original (map x_name vars) ->
    (forall e n f, In e l -> e_var e = Some (n, f) -> In n (map x_name vars) /\ e_fate e <> FileMissing) ->
    exists ws ps, import_process vars l = Ok (ws, ps) /\
      forall x, In x vars -> exists m, new_name (x_name x) m /\
        ((exists f, In (Some (m, f)) ws) \/
         (exists p, In p ps /\ p_name p = x_name x /\ p_variable p = m /\ p_value p = x_value x)).
Proof.
  intros V vars l ND NO H.
  destruct (exchanges_accounted V vars l ND NO H (fold_left register vars no_vars) []) as (st & ws & E & A).
  { intros x X. exists false, (make_var x). split; [now apply registered_get|]. split; [reflexivity|]. split; [reflexivity|discriminate]. }
  unfold import_process. rewrite E. cbn [bind app] in *. eexists; eexists. split; [reflexivity|].
  intros x X. exists (ecs2_name (x_name x)). split; [apply ecs2_name_new|].
  destruct (A x X) as (u & v & G & S & N & U). destruct u.
  - left. now apply U.
  - right. eexists. split; [apply params_In; exact G|]. cbn [p_name p_variable p_value]. rewrite N, S. auto.
Qed.
Print Assumptions C104_variables_kept_partial.
(** A variable whose exchange has no flow data set is gone. *)
Theorem C104_file_missing_refuted :
  forall V (x : ilcd_var V), import_process [x] [IExchange (Some (x_name x, lit "1.0")) FileMissing] = Ok ([None], []).
Proof.
  intros V x. unfold import_process. cbn [fold_left import_exchanges]. unfold import_exchange, get_variable. cbn [e_var e_fate register avail putf getf no_vars].
  rewrite !str_eqb_refl. reflexivity.
Qed.
Print Assumptions C104_file_missing_refuted.
(** A variable named like another one followed by "_original" is gone once the other has a factor. *)
Theorem C104_original_refuted :
  exists l ws ps, import_process [IlcdVar (lit "a") 1%Z None; IlcdVar (lit "a_original") 7%Z None] l = Ok (ws, ps) /\
    ws = [Some (lit "a", Some (lit "(a)*2"))] /\ map p_name ps = [lit "a"].
Proof. exists [IExchange (Some (lit "a", lit "2")) Converted]. eexists; eexists. split; [reflexivity|]. now split. Qed.
Print Assumptions C104_original_refuted.
Example C104_nonvacuous :
  import_process [IlcdVar (lit "a") 1%Z None; IlcdVar (lit "b") 2%Z None; IlcdVar (lit "c") 3%Z None]
                 [IExchange (Some (lit "b", lit "1.0")) Converted; IExchange (Some (lit "c", lit "1.0")) Unmapped; IExchange None Converted] =
  Ok ([Some (lit "b", None); None; None], [Param (lit "a") (lit "a") 1%Z None; Param (lit "c") (lit "c") 3%Z None]).
Proof. reflexivity. Qed.

(** ** C105: a variable name is written once *)
Theorem C105_once_partial :
  forall V (vars : list (ilcd_var V)) l, NoDup (map x_name vars) ->
    (forall n n' m, In n (map x_name vars) -> In n' (map x_name vars) -> new_name n m -> new_name n' m -> n = n') ->
    plain l -> NoDup (refs l) -> incl (refs l) (map x_name vars) ->
    exists ws ps, import_process vars l = Ok (ws, ps) /\ NoDup (written_names ws ++ map p_variable ps).
Proof.
  intros V vars l ND INJ P NR I. destruct (table_of V vars ND) as [A C].
  destruct (plain_run V l (fold_left register vars no_vars)) as (st & ws & E & K & _ & KD & W & U & _).
  - exact P.
  - exact NR.
  - rewrite A, map_map. exact ND.
  - now apply table_keyed.
  - intros n Hn. apply I in Hn. apply in_map_iff in Hn. destruct Hn as (x & <- & X). eexists. now apply registered_get.
  - unfold import_process. rewrite E. cbn [bind]. eexists; eexists. split; [reflexivity|].
    rewrite A, map_map in K. cbn [fst] in K. change (map (fun x => x_name x) vars) with (map x_name vars) in K. rewrite W.
    set (un := filter (fun kv => negb (fst (snd kv))) (avail st)).
    assert (PV : map p_variable (create_parameters st) = map ecs2_name (map fst un)).
    { unfold create_parameters. fold un. rewrite !map_map. apply map_ext_in. intros [k [u v]] Hu. cbn [p_variable fst].
      apply filter_In in Hu. destruct (KD _ _ _ (proj1 Hu)) as [<- N]. exact N. }
    rewrite PV, <- map_app.
    assert (IN : incl (written_refs l ++ map fst un) (map x_name vars)).
    { intros n Hn. apply in_app_or in Hn. destruct Hn as [Hn | Hn].
      - apply I. apply kept_in_refs. now apply written_in_kept.
      - rewrite <- K. apply in_map_iff in Hn. destruct Hn as (kv & <- & Hk). apply filter_In in Hk. apply in_map. tauto. }
    assert (N1 : NoDup (written_refs l ++ map fst un)).
    { assert (G : forall (a b : list pystr), NoDup a -> NoDup b -> (forall x, In x a -> ~ In x b) -> NoDup (a ++ b)).
      { clear. induction a as [|x a IH]; intros b Na Nb D; [exact Nb|]. inversion Na; subst. cbn [app]. constructor.
        - intros J. apply in_app_or in J. destruct J as [J | J]; [auto|]. apply (D x); [now left|exact J].
        - apply IH; auto. intros y Y. apply D. now right. }
      apply G.
      - clear - NR. induction l as [|e l IH]; [constructor|]. unfold refs, written_refs in *. cbn [flat_map] in *.
        destruct (e_var e) as [[n f]|]; [|exact (IH NR)]. cbn [app] in NR. inversion NR as [|? ? Hn Nr]; subst.
        destruct (e_fate e); cbn [app]; try exact (IH Nr). constructor; [|exact (IH Nr)].
        intros J. apply Hn. apply (kept_in_refs l n). now apply (written_in_kept l n).
      - unfold un. clear - K ND. rewrite <- K in ND. revert ND. generalize (avail st). clear.
        induction l as [|kv l IH]; intros ND; [constructor|]. cbn [map] in ND. inversion ND as [|? ? Hn Nd]; subst. cbn [filter].
        destruct (negb _); [|exact (IH Nd)]. cbn [map]. constructor; [|exact (IH Nd)].
        intros J. apply Hn. apply in_map_iff in J. destruct J as (x & <- & Hx). apply filter_In in Hx. apply in_map. tauto.
      - intros n Hn Hu. apply in_map_iff in Hu. destruct Hu as ([k [u v]] & <- & Hu). apply filter_In in Hu. destruct Hu as [Hu Hb].
        cbn [fst snd] in *. destruct u; [discriminate|]. destruct (U _ _ _ Hu) as (u0 & v0 & _ & [_ UT] & _).
        apply written_in_kept in Hn. now discriminate (UT (or_introl Hn)). }
    revert IN N1. generalize (written_refs l ++ map fst un). clear - INJ.
    induction l as [|n m IH]; intros IN N1; [constructor|]. inversion N1 as [|? ? Hn N2]; subst. cbn [map]. constructor.
    + intros J. apply in_map_iff in J. destruct J as (n' & Q & J). apply Hn.
      rewrite (INJ n n' (ecs2_name n)); [exact J|apply IN; now left|apply IN; now right|apply ecs2_name_new|rewrite <- Q; apply ecs2_name_new].
    + apply IH; [|exact N2]. intros x X. apply IN. now right.
Qed.
Print Assumptions C105_once_partial.
(** Two exchanges with the same variable both carry its name. *)
Theorem C105_two_uses_refuted :
  forall V (x : ilcd_var V), exists f f', import_process [x] [IExchange (Some (x_name x, lit "1.0")) Converted; IExchange (Some (x_name x, lit "1.0")) Converted] =
    Ok ([Some (ecs2_name (x_name x), f); Some (ecs2_name (x_name x), f')], []).
Proof.
  intros V x. unfold import_process. cbn [fold_left import_exchanges]. unfold import_exchange at 1, get_variable. cbn [e_var e_fate register avail putf getf no_vars].
  rewrite !str_eqb_refl. cbn [bind]. unfold import_exchange, get_variable. cbn [e_var e_fate avail putf getf]. rewrite !str_eqb_refl. cbn [bind].
  cbn [nonconf putf register no_vars].
  eexists; eexists. cbn [bind create_parameters filter avail fst snd negb map putf].
  rewrite !(proj2 (change_keeps _ _ _ _)). reflexivity.
Qed.
Print Assumptions C105_two_uses_refuted.
(** Names that differ become one name. *)
Theorem C105_collision_refuted :
  forall V n (v v' : V), letter_first n = false -> n <> lit "uc" ++ n /\
    exists ps, import_process [IlcdVar n v None; IlcdVar (lit "uc" ++ n) v' None] [] = Ok ([], ps) /\ map p_variable ps = [lit "uc" ++ n; lit "uc" ++ n].
Proof.
  intros V n v v' H. assert (D : n <> lit "uc" ++ n) by (intros E; apply (f_equal (@length N)) in E; rewrite app_length in E; cbn [length lit] in E; lia).
  split; [exact D|]. unfold import_process. cbn [fold_left import_exchanges bind]. eexists. split; [reflexivity|].
  assert (M : ecs2_name n = lit "uc" ++ n) by (unfold ecs2_name; now rewrite H).
  unfold create_parameters. rewrite map_map. unfold register. cbn [avail no_vars putf x_name nonconf].
  destruct (str_eqb n (lit "uc" ++ n)) eqn:E; [apply str_eqb_eq in E; contradiction|].
  cbn [filter fst snd negb map p_variable make_var iv_name x_name]. rewrite M. reflexivity.
Qed.
Print Assumptions C105_collision_refuted.
Example C105_nonvacuous :
  import_process [IlcdVar (lit "1a") 1%Z None; IlcdVar (lit "b") 2%Z None]
                 [IExchange (Some (lit "1a", lit "1.0")) Converted] =
  Ok ([Some (lit "uc1a", None)], [Param (lit "b") (lit "b") 2%Z None]).
Proof. reflexivity. Qed.

(** ** C106: formulas *)
(** With the factor 1.0, every variable used at most once and every exchange of a variable converted, each formula written is that of its variable, in which the names that
    do not start with a letter are replaced, each once. *)
Theorem C106_formulas_partial :
  forall V (vars : list (ilcd_var V)) l, NoDup (map x_name vars) -> Forall (fun x => x_name x <> []) vars ->
    plain l -> NoDup (refs l) -> incl (refs l) (map x_name vars) -> incl (refs l) (kept_refs l) ->
    exists odd, (forall n, In n odd <-> In n (map x_name vars) /\ ~ starts_with_letter n) /\ NoDup odd /\
    let image x := match x_formula x with None | Some [] => None | Some f => Some (renamed odd f) end in
    exists ws ps, import_process vars l = Ok (ws, ps) /\
      (forall n g, In (Some (n, g)) ws -> exists x, In x vars /\ new_name (x_name x) n /\ g = image x) /\
      (forall p, In p ps -> exists x, In x vars /\ p_name p = x_name x /\ p_value p = x_value x /\ p_formula p = image x).
Proof.
  intros V vars l ND NE P NR I KR. exists (odd_names V vars). split; [|split].
  { intros n. unfold odd_names. rewrite filter_In, negb_true_iff, <- letter_iff, not_true_iff_false. tauto. }
  { unfold odd_names. apply NoDup_filter, ND. }
  destruct (table_of V vars ND) as [A C]. intros image.
  assert (ON : Forall (fun n => n <> []) (odd_names V vars)).
  { apply Forall_forall. intros n Hn. apply filter_In in Hn. destruct Hn as [Hn _]. apply in_map_iff in Hn. destruct Hn as (x & <- & X).
    rewrite Forall_forall in NE. now apply NE. }
  set (st0 := fold_left register vars no_vars) in *.
  assert (IM : forall x, match iv_formula (change_formula st0 one_text (make_var x)) with Some [] => None | h => h end = image x).
  { intros x. unfold st0. rewrite table_changed by assumption. unfold make_var, image. cbn [iv_formula].
    destruct (x_formula x) as [[|c f]|]; try reflexivity.
    assert (Q := renamed_nonnil (odd_names V vars) (c :: f) ON ltac:(discriminate)). destruct (renamed _ _); [congruence|reflexivity]. }
  assert (G0 : forall n, In n (map x_name vars) -> exists x, In x vars /\ x_name x = n /\ getf n (avail st0) = Some (false, make_var x)).
  { intros n Hn. apply in_map_iff in Hn. destruct Hn as (x & <- & X). exists x. split; [exact X|]. split; [reflexivity|]. now apply registered_get. }
  destruct (plain_run V l st0) as (st & ws & E & K & NC & KD & W & U & WF).
  - exact P.
  - exact NR.
  - rewrite A, map_map. exact ND.
  - now apply table_keyed.
  - intros n Hn. destruct (G0 n (I n Hn)) as (x & _ & _ & G). eauto.
  - unfold import_process. fold st0. rewrite E. cbn [bind]. eexists; eexists. split; [reflexivity|]. split.
    + intros n g Hw. destruct (WF n g Hw) as (k & v0 & Hk & G & -> & ->).
      assert (Hk' : In k (map x_name vars)) by (apply I, kept_in_refs; now apply written_in_kept).
      destruct (G0 k Hk') as (x & X & <- & G'). rewrite G in G'. injection G' as ->. exists x. split; [exact X|]. split; [apply ecs2_name_new|apply IM].
    + intros p Hp. unfold create_parameters in Hp. apply in_map_iff in Hp. destruct Hp as ([k [u v]] & <- & Hp).
      apply filter_In in Hp. destruct Hp as [Hp Hu]. cbn [fst snd] in Hu. destruct u; [discriminate|].
      destruct (U _ _ _ Hp) as (u0 & v0 & J & [_ JT] & J2).
      assert (v = v0).
      { destruct J2 as [J2 | [J2 _]]; [exact J2|]. apply KR in J2. now discriminate (JT (or_introl J2)). }
      subst v0. rewrite A in J. apply in_map_iff in J. destruct J as (x & [= <- _ <-] & X). exists x. split; [exact X|].
      cbn [p_name p_value p_formula make_var iv_src]. split; [reflexivity|]. split; [reflexivity|].
      rewrite <- (IM x). unfold change_formula. rewrite NC. reflexivity.
Qed.
Print Assumptions C106_formulas_partial.
(** Without such names formulas are kept as they are. *)
Theorem C106_unchanged :
  forall V (vars : list (ilcd_var V)) l, NoDup (map x_name vars) -> Forall (fun x => starts_with_letter (x_name x)) vars ->
    plain l -> NoDup (refs l) -> incl (refs l) (map x_name vars) -> incl (refs l) (kept_refs l) ->
    exists ws ps, import_process vars l = Ok (ws, ps) /\
      (forall n f, In (Some (n, Some f)) ws -> exists x, In x vars /\ n = x_name x /\ x_formula x = Some f) /\
      (forall p f, In p ps -> p_formula p = Some f -> exists x, In x vars /\ p_name p = x_name x /\ x_formula x = Some f).
Proof.
  intros V vars l ND L P NR I KR. rewrite Forall_forall in L.
  destruct (C106_formulas_partial V vars l ND) as (odd & O & _ & ws & ps & E & W & Q); auto.
  { apply Forall_forall. intros x X. destruct (L x X) as (c & r & E & _). congruence. }
  assert (odd = []).
  { destruct odd as [|n odd]; [reflexivity|]. destruct (proj1 (O n) (or_introl eq_refl)) as [N H]. exfalso. apply H.
    apply in_map_iff in N. destruct N as (x & <- & X). now apply L. }
  subst odd. exists ws, ps. split; [exact E|]. split.
  - intros n f H. destruct (W _ _ H) as (x & X & N & F). exists x. split; [exact X|]. split; [now apply N, L|].
    destruct (x_formula x) as [[|c g]|]; [discriminate|exact (eq_sym F)|discriminate].
  - intros p f H Hf. destruct (Q _ H) as (x & X & N & _ & F). exists x. split; [exact X|]. split; [exact N|].
    rewrite Hf in F. destruct (x_formula x) as [[|c g]|]; [discriminate|exact (eq_sym F)|discriminate].
Qed.
Print Assumptions C106_unchanged.
(** With any other factor, even "1", the exchange and a parameter of the same name are both defined by the
    name itself; the formula of the variable is lost. *)
Theorem C106_factor_refuted :
  forall V (x : ilcd_var V) factor, factor <> lit "1.0" -> letter_first (x_name x) = true ->
    let self := Some (lit "(" ++ x_name x ++ lit ")*" ++ factor) in
    import_process [x] [IExchange (Some (x_name x, factor)) Converted] =
    Ok ([Some (x_name x, self)], [Param (x_name x) (x_name x) (x_value x) self]).
Proof.
  intros V x factor F L self. unfold import_process. cbn [fold_left import_exchanges].
  assert (F' : str_eqb factor one_text = false) by now apply str_eqb_neq.
  unfold import_exchange, get_variable. cbn [e_var e_fate register avail putf getf no_vars nonconf].
  rewrite !str_eqb_refl, F', L. cbv zeta.
  replace (iv_src (make_var x)) with x by reflexivity. cbn [register avail putf nonconf]. rewrite !str_eqb_refl, L. cbn [nonconf avail putf getf].
  assert (S : forall st, nonconf st = [] -> change_formula st factor (IVar x (ecs2_name (x_name x)) (Some (x_name x))) = IVar x (x_name x) self).
  { intros st H. unfold change_formula. cbn [iv_formula]. destruct (x_name x) as [|c n] eqn:Q; [discriminate|]. rewrite H, F'.
    cbn [iv_src iv_name fix_names fold_left]. unfold ecs2_name. rewrite L. reflexivity. }
  rewrite S by (cbn [register nonconf]; now rewrite L). cbn [avail nonconf no_vars putf]. rewrite ?str_eqb_refl, ?L. cbn [putf getf bind avail nonconf]. rewrite ?str_eqb_refl. cbn [putf getf bind avail nonconf]. rewrite ?str_eqb_refl. cbn [bind iv_name iv_formula].
  cbn [putf]. 
  destruct (str_eqb (x_name x) (x_name x ++ lit "_original")) eqn:Q; [apply str_eqb_eq in Q; symmetry in Q; now apply original_neq in Q|].
  unfold create_parameters. cbn [avail filter fst snd negb map]. unfold self.
  unfold change_formula. cbn [iv_formula nonconf fix_names fold_left iv_src iv_name]. reflexivity.
Qed.
Print Assumptions C106_factor_refuted.
(** The replacement of a name also hits longer names: the formula then refers to a variable that does not exist. *)
Theorem C106_substring_refuted :
  exists (vars : list (ilcd_var Z)) ps, import_process vars [] = Ok ([], ps) /\ map p_variable ps = [lit "uc_a"; lit "b_a"; lit "y"] /\
    map x_formula vars = [None; None; Some (lit "b_a*2")] /\ map p_formula ps = [None; None; Some (lit "buc_a*2")].
Proof.
  exists [IlcdVar (lit "_a") 1%Z None; IlcdVar (lit "b_a") 2%Z None; IlcdVar (lit "y") 4%Z (Some (lit "b_a*2"))]. eexists. split; [reflexivity|].
  split; [reflexivity|]. now split.
Qed.
Print Assumptions C106_substring_refuted.
(** It is repeated each time the variable is looked up. *)
Theorem C106_repeated_refuted :
  exists (vars : list (ilcd_var Z)) l ps, import_process vars l = Ok ([None], ps) /\ map p_variable ps = [lit "uc_a"; lit "y"] /\
    map p_formula ps = [None; Some (lit "ucuc_a*2")].
Proof.
  exists [IlcdVar (lit "_a") 1%Z None; IlcdVar (lit "y") 4%Z (Some (lit "_a*2"))], [IExchange (Some (lit "y", lit "1.0")) Unmapped].
  eexists. split; [reflexivity|]. now split.
Qed.
Print Assumptions C106_repeated_refuted.
Example C106_nonvacuous :
  import_process [IlcdVar (lit "_a") 1%Z None; IlcdVar (lit "b") 2%Z (Some (lit "_a*2+_a")); IlcdVar (lit "c") 2%Z (Some (lit "3-_a"))]
                 [IExchange (Some (lit "b", lit "1.0")) Converted] =
  Ok ([Some (lit "b", Some (lit "uc_a*2+uc_a"))], [Param (lit "_a") (lit "uc_a") 1%Z None; Param (lit "c") (lit "c") 2%Z (Some (lit "3-uc_a"))]).
Proof. reflexivity. Qed.
