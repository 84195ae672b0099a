(** Variables and formulas: theorems. *)
From Coq Require Import Ascii String List Bool Arith NArith ZArith QArith Qfield Lia Permutation.
Local Close Scope Q_scope.
From Verif Require Import PyBase PyBaseFacts PyValues DotDictModel DotDictProofs CommentSpec CommentProofs TextFacts SegmentFacts
  VariableModel VariableSpec VariableProofs FormulaProofs.
Import ListNotations.

(** a small world for the examples: units are their own names, kilogram and gram, values are integers *)
Definition toy : world Z :=
  {| w_unit := fun s => if str_in s [lit "kg"; lit "g"] then Ok s else Err ValueError;
     w_conv := fun a b => Ok (lit "__" ++ a ++ lit "_to_" ++ b ++ lit "__",
                              if str_eqb a b then 1%Z else if str_eqb a (lit "kg") then 1000%Z else 0%Z);
     w_float := fun s => if str_eqb s (lit "5") then Some (lit "5.0") else None;
     w_show := str_of_Z; w_one := Z.eqb 1 |}.
Definition flow1 (name : option pystr) (math : option pystr) (o f : Z) : raw Z :=
  {| r_name := name; r_math := math; r_type := lit "flow"; r_o := o; r_m := (o * f)%Z; r_f := f;
     r_conv := if Z.eqb 1 f then lit "__kg_to_kg__" else lit "__kg_to_g__" |}.

(** ** C39: one variable for each name *)
Theorem C39_one_variable_per_name {V} (W : world V) excs l vars refs :
  document W excs l = Ok (vars, refs) -> NoDup (map v_name vars).
Proof. intro H. pose proof (document_good W excs l vars refs H) as G. destruct (number_vars 1 l). apply G. Qed.
Print Assumptions C39_one_variable_per_name.
Lemma equation_only_like t : equation_only t = true <-> equation_like t.
Proof.
  split.
  - induction t as [|c t IH]; [discriminate|]. intro H. cbn [equation_only] in H. apply orb_true_iff in H as [H|H].
    + apply andb_true_iff in H as [P H]. apply prefixb_spec in P as [r P]. rewrite P in H. change (skipn 3 (lit "Eq_" ++ r)) with r in H.
      destruct r as [|a r]; [discriminate|]. destruct r as [|b r]; [discriminate|]. destruct r as [|u r]; [discriminate|]. destruct r as [|d r]; [discriminate|].
      apply andb_true_iff in H as [H D]. apply andb_true_iff in H as [H U0]. apply andb_true_iff in H as [A B].
      unfold is_lower, is_digit in *. apply andb_true_iff in A as [A1 A2], B as [B1 B2], D as [D1 D2].
      apply N.leb_le in A1, A2, B1, B2, D1, D2. apply N.eqb_eq in U0. subst u. exists [], a, b, d, r. rewrite P. cbn [app]. split; [reflexivity|]. lia.
    + destruct (IH H) as (p & a & b & d & q & E & L). exists (c :: p), a, b, d, q. split; [now rewrite E|exact L].
  - intros (p & a & b & d & q & -> & A & B & D). induction p as [|c p IH]; cbn [app].
    + change (equation_only (lit "Eq_" ++ a :: b :: ch "_" :: d :: q)) with
        ((true && (is_lower a && is_lower b && true && is_digit d)) || equation_only (tl (lit "Eq_" ++ a :: b :: ch "_" :: d :: q))).
      assert (H : is_lower a && is_lower b && true && is_digit d = true).
      { unfold is_lower, is_digit. rewrite !andb_true_iff, !N.leb_le. repeat split; lia. }
      rewrite H. reflexivity.
    + cbn [equation_only]. rewrite IH. apply orb_true_r.
Qed.
(** No given name is dropped, unless it looks like one of the converter's own names. *)
Theorem C39_every_name_has_a_variable {V} (W : world V) excs l vars refs :
  document W excs l = Ok (vars, refs) ->
  forall x t, In x l -> r_name x = Some t -> t <> [] -> ~ equation_like t -> exists u, In u vars /\ v_name u = t.
Proof.
  intros H x t Hx Ht Ne Eq0. assert (Eq : equation_only t = false) by (apply not_true_iff_false; intro E0; apply Eq0; now apply equation_only_like).
  clear Eq0. pose proof (document_good W excs l vars refs H) as G.
  destruct (number_vars 1 l) as [ls n] eqn:E. destruct G as (_ & _ & _ & C).
  assert (K : forall l m ls m' n', number_vars m l = (ls, m') -> In x l -> exists v, In (t, v) (all_claims W n' ls)).
  { clear - Ht Ne Eq. induction l as [|y l IH]; intros m ls m' n' E I; [contradiction|]. cbn in E.
    destruct (number_vars _ l) as [r m1] eqn:En. injection E as <- _. cbn [all_claims]. destruct I as [-> |I].
    - exists (r_o x). apply in_or_app. left. unfold var_of. rewrite Ht. destruct t as [|c t]; [contradiction|]. cbn [truthy orb].
      unfold claims. destruct (converts W x); [rewrite Eq; cbn [app]|]; now left.
    - destruct (IH _ _ _ (next W n' y) En I) as [v Hv]. exists v. apply in_or_app. now right. }
  destruct (K _ _ _ _ n E Hx) as [v Hv]. destruct (C _ Hv) as (u & Hu & Eu). eauto.
Qed.
Print Assumptions C39_every_name_has_a_variable.
Example C39_nonvacuous :
  exists vars refs, document toy [] [flow1 (Some (lit "a")) None 2 1000; flow1 (Some (lit "a")) None 3 1000; flow1 None None 4 1000] = Ok (vars, refs) /\
  map v_name vars = [lit "a"; lit "a__from_kg_to_g__"; lit "__kg_to_g__"; lit "Eq_uv_5"].
Proof. eexists. eexists. split; vm_compute; reflexivity. Qed.

(** ** C96: the variable of an exchange *)
Lemma refs_targets {V} (W : world V) : forall ls n, map fst (all_targets W n ls) = map fst ls.
Proof. induction ls as [|[x v] ls IH]; intro n; [reflexivity|]. cbn. now rewrite IH. Qed.
(** the value the variable of an amount should have *)
Definition expected {V} (W : world V) (x : raw V) (v : V) : Prop :=
  (changed W x = true /\ is_flow x /\ v = r_m x) \/ ((changed W x = false \/ ~ is_flow x) /\ v = r_o x).
Lemma targets_claimed {V} (W : world V) : forall ls n x t, In (x, Some t) (all_targets W n ls) ->
  exists v, expected W x v /\ In (t, v) (all_claims W n ls).
Proof.
  induction ls as [|[y v] ls IH]; intros n x t I; [contradiction|]. cbn [all_targets all_claims] in *. destruct I as [I|I].
  - injection I as -> I. unfold target in I. unfold claims, target. unfold converts in *. fold (changed W x) in *.
    destruct (changed W x) eqn:C; cbn [andb] in *; [destruct (str_eqb (r_type x) (lit "flow")) eqn:T|].
    + apply str_eqb_eq in T. exists (r_m x). split; [left; auto|]. apply in_or_app. left. apply in_or_app. right.
      injection I as <-. now left.
    + exists (r_o x). split; [right; split; [right|reflexivity]|].
      * intro F. unfold is_flow in F. rewrite F in T. discriminate T.
      * destruct v as [[name math]|]; [|discriminate I]. injection I as <-. now left.
    + exists (r_o x). split; [right; auto|]. destruct v as [[name math]|]; [|discriminate I]. injection I as <-. now left.
  - destruct (IH _ _ _ I) as (w & E & H). exists w. split; [exact E|]. apply in_or_app. now right.
Qed.
Lemma targets_none {V} (W : world V) : forall ls n x, In (x, None) (all_targets W n ls) ->
  converts W x = false /\ In (x, None) ls.
Proof.
  induction ls as [|[y v] ls IH]; intros n x I; [contradiction|]. cbn [all_targets] in I. destruct I as [I|I].
  - injection I as -> I. unfold target in I. destruct (converts W x); [discriminate|]. destruct v; [discriminate|]. split; [reflexivity|now left].
  - apply IH in I as [A B]. split; [exact A|now right].
Qed.
Theorem C96_variable_has_amount_partial {V} (W : world V) excs l vars refs k :
  document W excs l = Ok (vars, refs) -> well_named l -> factors_agree W l k ->
  map fst refs = l /\
  forall x t, In (x, t) refs ->
    match t with
    | Some name => exists v, expected W x v /\ has_value vars name v
    | None => (changed W x = false \/ ~ is_flow x) /\ truthy (r_name x) = false /\ truthy (r_math x) = false
    end.
Proof.
  intros H Wn [F1 F2]. pose proof (document_good W excs l vars refs H) as G.
  destruct (number_vars 1 l) as [ls n] eqn:E. destruct G as (Nd & -> & Or & Cl).
  destruct (bases_origin l 1 ls n E (proj2 (proj2 Wn))) as (M & _ & _).
  split; [now rewrite refs_targets|]. intros x [name|] I.
  - destruct (targets_claimed W ls n x name I) as (v & Ev & Cv). exists v. split; [exact Ev|].
    destruct (Cl _ Cv) as (u & Hu & Eu). cbn in Eu. exists u. split; [exact Hu|]. split; [exact Eu|].
    assert (Ff : forall y w, In (y, w) ls -> r_f y = k (r_conv y) /\ exists t, r_conv y = lit "__" ++ t).
    { intros y w Iy. apply F1. rewrite <- M. exact (in_map fst _ _ Iy). }
    assert (C1 : claimed W k ls n (name, v)) by (now apply all_claims_claimed with (W := W)).
    assert (C2 : claimed W k ls n (name, v_value u)).
    { rewrite <- Eu. destruct (Or u Hu) as [Hc|(a & b & Hab)].
      - exact (all_claims_claimed W k ls n (entry u) Ff Hc).
      - unfold entry in Hab. destruct (F2 _ _ _ _ Hab) as (Ev' & s & Es). rewrite Ev', Es. constructor. }
    split; [exact (claimed_fun W k l ls n n E Wn name (v_value u) v C2 C1)|].
    intros u' Hu' Eu'. clear - Nd Hu Hu' Eu Eu'. subst name. induction vars as [|w vars IH]; [contradiction|].
    inversion Nd as [|? ? Ni Nd']; subst. destruct Hu as [-> |Hu], Hu' as [-> |Hu']; auto.
    + exfalso. apply Ni. rewrite <- Eu'. now apply in_map.
    + exfalso. apply Ni. rewrite Eu'. now apply in_map.
  - apply targets_none in I as [Hc I]. split.
    + unfold converts in Hc. fold (changed W x) in Hc. apply andb_false_iff in Hc as [Hc|Hc]; [now left|right].
      intro Fl. unfold is_flow in Fl. rewrite Fl in Hc. discriminate Hc.
    + assert (K : forall l m ls m', number_vars m l = (ls, m') -> In (x, None) ls -> truthy (r_name x) || truthy (r_math x) = false).
      { clear. induction l as [|y l IH]; intros m ls m' E I; cbn in E; [injection E as <- _; contradiction|].
        destruct (number_vars _ l) as [r m1] eqn:En. injection E as <- _. destruct I as [I|I]; [|eauto].
        injection I as -> I. unfold var_of in I. now destruct (truthy (r_name x) || truthy (r_math x)). }
      specialize (K _ _ _ _ E I). apply orb_false_iff in K. exact K.
Qed.
Print Assumptions C96_variable_has_amount_partial.
Example C96_nonvacuous :
  let l := [flow1 (Some (lit "a")) (Some (lit "2*b")) 4 1000; flow1 (Some (lit "b")) None 2 1; flow1 None None 7 1000] in
  (exists vars refs, document toy [] l = Ok (vars, refs) /\ map snd refs = [Some (lit "a__from_kg_to_g__"); Some (lit "b"); Some (lit "Eq_uv_4")] /\
     map v_value vars = [4; 4000; 1000; 2; 7000]%Z) /\ well_named l.
Proof.
  split; [eexists; eexists; split; [vm_compute; reflexivity|split; vm_compute; reflexivity]|].
  assert (O : forall c, letter c -> c <> ch "E" -> own_name [c]).
  { intros c L Ne. split; [now exists c, []|]. repeat split.
    - intros (a & b & E). apply (f_equal (@List.length N)) in E. rewrite !app_length in E. cbn in E. lia.
    - intros (a & b & E). apply (f_equal (@List.length N)) in E. rewrite !app_length in E. cbn in E. lia.
    - intros (b & E). apply (f_equal (@List.length N)) in E. rewrite !app_length in E. cbn in E. lia. }
  split; [|split].
  - cbn. constructor; [apply O; [unfold letter; cbn; lia|discriminate]|]. constructor; [apply O; [unfold letter; cbn; lia|discriminate]|]. constructor.
  - cbn. constructor; [intros [I|[]]; discriminate I|]. constructor; [intros []|constructor].
  - repeat constructor.
Qed.
(** Two exchanges with the same variable name and different amounts: the second one refers to the variable of the first. *)
Theorem C96_same_name_refuted {V} (W : world V) excs name x y :
  r_name x = Some name -> r_name y = Some name -> name <> [] -> r_math x = None -> r_math y = None ->
  changed W x = false -> changed W y = false ->
  exists vars, document W excs [x; y] = Ok (vars, [(x, Some name); (y, Some name)]) /\
               vars = [{| v_name := name; v_formula := None; v_value := r_o x |}].
Proof.
  intros Nx Ny Ne Mx My Cx Cy. eexists. split; [|reflexivity]. unfold document. cbn [number_vars]. unfold var_of. rewrite Nx, Ny, Mx, My.
  destruct name as [|c t]; [contradiction|]. cbn [truthy orb constructs]. unfold construct. fold (changed W x). fold (changed W y). rewrite Cx, Cy. cbn [andb].
  unfold create, math_text. cbn [vs_names str_in existsb bind app vs_vars fst snd]. rewrite str_eqb_refl. reflexivity.
Qed.
Print Assumptions C96_same_name_refuted.
(** A variable whose name contains a pattern of the converter is not written when its flow changes unit. *)
Theorem C96_own_pattern_refuted {V} (W : world V) excs name x :
  equation_like name -> r_name x = Some name -> r_math x = None -> changed W x = true -> is_flow x ->
  exists vars refs, document W excs [x] = Ok (vars, refs) /\ vars <> [] /\
    forall u, In u vars -> v_name u = converted_name (r_conv x) name \/ v_name u = r_conv x.
Proof.
  intros Eq Nx Mx Cx Fx. apply equation_only_like in Eq.
  assert (Tn : truthy (Some name) = true) by (destruct name; [discriminate Eq|reflexivity]).
  unfold document. cbn [number_vars]. unfold var_of. rewrite Nx, Mx, Tn. cbn [orb constructs]. unfold construct. fold (changed W x). rewrite Cx, Fx.
  change (str_eqb (lit "flow") (lit "flow")) with true. cbn [andb]. rewrite Eq. cbn [bind math_text fst snd converted_math].
  unfold create. cbn [vs_names str_in existsb bind app vs_vars fst snd]. eexists. eexists. split; [reflexivity|].
  unfold create_plain. cbn [vs_names vs_vars]. destruct (str_in (r_conv x) [converted_name (r_conv x) name]); cbn [vs_vars app]; (split; [discriminate|]).
  - intros u [<-|[]]. now left.
  - intros u [<-|[<-|[]]]; [now left|now right].
Qed.
Print Assumptions C96_own_pattern_refuted.

(** ** C92: corrections of formulas *)
Theorem C92_unit_conversions_partial {V} (W : world V) st l tail (fac : pystr -> pystr) :
  Forall (fun pc => ~ occurs (lit "UnitConversion") (fst pc) /\ simple_call (snd pc)) l -> ~ occurs (lit "UnitConversion") tail ->
  Forall (fun pc => (exists v, call_factor W (snd pc) (fac (call_args (snd pc))) v) /\
                    ~ occurs (lit "UnitConversion") (call_value W (snd pc)) /\
                    ~ occurs (lit "UnitConversion") (lit "*" ++ fac (call_args (snd pc)))) l ->
  exists st', correct_unit_conversion W st (conv_formula call_text l tail) =
              Ok (st', conv_formula (fun c => lit "(" ++ call_value W c ++ lit "*" ++ fac (call_args c) ++ lit ")") l tail) /\
              forall pc, In pc l -> In (fac (call_args (snd pc))) (vs_names st').
Proof.
  intros Hl Ht Hi. destruct (correct_formula W fac st l tail (conj Hl Ht) Hi) as (st' & E & _ & F). exists st'. split; [exact E|exact F].
Qed.
Print Assumptions C92_unit_conversions_partial.
Theorem C92_references_partial {V} (show : V -> pystr) excs l tail (img : ref_call -> pystr) :
  shows_numbers show -> Forall (fun pc => ~ occurs (lit "Ref('") (fst pc) /\ plain_id (f_id (snd pc))) l -> ~ occurs (lit "Ref('") tail ->
  Forall (fun pc => ref_number show excs (snd pc) (img (snd pc))) l ->
  correct_ref show excs (ref_formula ref_text l tail) = Ok (ref_formula img l tail).
Proof. intros Hs Hl Ht Hi. now apply correct_ref_formula. Qed.
Print Assumptions C92_references_partial.
Example C92_nonvacuous :
  let c := {| c_arg := lit "5"; c_from := lit "kg"; c_to := lit "g" |} in
  let d := {| c_arg := lit "a+b"; c_from := lit "g"; c_to := lit "kg" |} in
  let r := {| f_id := lit "id1"; f_volume := true |} in
  conv_formula call_text [(lit "2*", c); (lit "+", d); (lit "-", c)] (lit "*x") =
    lit "2*UnitConversion(5, 'kg', 'g')+UnitConversion(a+b, 'g', 'kg')-UnitConversion(5, 'kg', 'g')*x" /\
  (exists st, correct_unit_conversion toy {| vs_names := []; vs_vars := [] |} (conv_formula call_text [(lit "2*", c); (lit "+", d); (lit "-", c)] (lit "*x")) =
              Ok (st, lit "2*(5.0*__kg_to_g__)+((a+b)*__g_to_kg__)-(5.0*__kg_to_g__)*x")) /\
  correct_ref str_of_Z [(lit "id1", (7, Some 9)%Z)] (ref_formula ref_text [(lit "1+", r)] []) = Ok (lit "1+9").
Proof. split; [reflexivity|]. split; [eexists|]; vm_compute; reflexivity. Qed.

(** A formula without anything to correct is written as it stands. *)
Lemma digit_comma_none t : (~ exists a b p q, t = p ++ [a; ch ","; b] ++ q /\ (48 <= a <= 57)%N /\ (48 <= b <= 57)%N) -> digit_comma_digit t = false.
Proof.
  intro H. induction t as [|a t IH]; [reflexivity|]. cbn [digit_comma_digit]. destruct t as [|b t]; [reflexivity|]. destruct t as [|c t]; [reflexivity|].
  apply orb_false_iff. split.
  - apply not_true_iff_false. intro E. apply andb_true_iff in E as [E Ec]. apply andb_true_iff in E as [Ea Eb]. apply N.eqb_eq in Eb. subst b.
    unfold is_digit in *. apply andb_true_iff in Ea as [A1 A2]. apply andb_true_iff in Ec as [C1 C2]. apply N.leb_le in A1, A2, C1, C2.
    apply H. exists a, c, [], t. split; [reflexivity|]. split; split; assumption.
  - apply IH. intros (x & y & p & q & E & Hx & Hy). apply H. exists x, y, (a :: p), q. split; [now rewrite E|]. split; assumption.
Qed.
Lemma correct_other_plain t : ~ In (ch "%") t -> (~ exists a b p q, t = p ++ [a; ch ","; b] ++ q /\ (48 <= a <= 57)%N /\ (48 <= b <= 57)%N) ->
  correct_other t = t.
Proof.
  intros Hp Hc. unfold correct_other.
  assert (E : infixb (lit "%") t = false).
  { apply not_true_iff_false. intro I. apply infixb_occurs in I as (a & b & ->). apply Hp. apply in_or_app. right. now left. }
  now rewrite E, digit_comma_none.
Qed.
Lemma correct_ref_none {V} (show : V -> pystr) excs t : ~ occurs (lit "Ref('") t -> correct_ref show excs t = Ok t.
Proof.
  intro H. pose proof (find_formula [] t (conj (Forall_nil _) H) (List.length t) (le_n _)) as F. cbn in F. unfold correct_ref. now rewrite F.
Qed.
Lemma create_plain_formula {V} (W : world V) excs st name t v : plain_formula t -> ~ In name (vs_names st) ->
  create W excs st name (Some t) v = Ok {| vs_names := vs_names st ++ [name]; vs_vars := vs_vars st ++ [{| v_name := name; v_formula := Some t; v_value := v |}] |}.
Proof.
  intros (H1 & H2 & H3 & H4) Hn. unfold create. destruct (str_in name (vs_names st)) eqn:E; [apply str_in_In in E; contradiction|].
  unfold correct_unit_conversion. assert (E1 : infixb uc_word t = false) by (apply not_true_iff_false; intro I; apply infixb_occurs in I; exact (H1 I)).
  rewrite E1. cbn [bind fst snd]. rewrite correct_ref_none by exact H2. cbn [bind vs_names vs_vars]. now rewrite correct_other_plain.
Qed.
Theorem C92_plain_unchanged {V} (W : world V) excs st name t v : plain_formula t -> ~ In name (vs_names st) ->
  exists st', create W excs st name (Some t) v = Ok st' /\ In {| v_name := name; v_formula := Some t; v_value := v |} (vs_vars st').
Proof.
  intros H Hn. eexists. split; [now apply create_plain_formula|]. cbn. apply in_or_app. right. now left.
Qed.
Print Assumptions C92_plain_unchanged.
(** Percent signs and decimal commas, character by character. *)
Theorem C92_characters_partial t :
  (~ In (ch "%") t -> correct_other t = if digit_comma_digit t then map (fun c => if N.eqb c (ch ",") then ch "." else c) t else t) /\
  (digit_comma_digit (flat_map (fun c => if N.eqb c (ch "%") then lit "/ 100" else [c]) t) = false ->
     correct_other t = flat_map (fun c => if N.eqb c (ch "%") then lit "/ 100" else [c]) t).
Proof.
  assert (P : infixb (lit "%") t = false -> flat_map (fun c => if N.eqb c (ch "%") then lit "/ 100" else [c]) t = t /\ ~ In (ch "%") t).
  { intro E. assert (N : ~ In (ch "%") t).
    { intro I. apply in_split in I as (a & b & ->). apply (not_infixb _ _ E). now exists a, b. }
    split; [|exact N]. clear E. induction t as [|c t IH]; [reflexivity|]. cbn [flat_map]. rewrite IH by (intro I; apply N; now right).
    destruct (N.eqb_spec c (ch "%")) as [-> | _]; [exfalso; apply N; now left|reflexivity]. }
  assert (Q : replace (lit "%") (lit "/ 100") t = flat_map (fun c => if N.eqb c (ch "%") then lit "/ 100" else [c]) t).
  { change (lit "%") with [ch "%"]. rewrite replace1_char. apply flat_map_ext. intro c. now rewrite N.eqb_sym. }
  split.
  - intro N. unfold correct_other.
    assert (E : infixb (lit "%") t = false).
    { apply not_true_iff_false. intro I. apply infixb_occurs in I as (a & b & ->). apply N. apply in_or_app. right. now left. }
    rewrite E. destruct (digit_comma_digit t); [|reflexivity]. change (lit ",") with [ch ","]. rewrite replace1_char.
    clear. induction t as [|c t IH]; [reflexivity|]. cbn [flat_map map]. rewrite IH, N.eqb_sym. now destruct (N.eqb c (ch ",")).
  - intro D. unfold correct_other. destruct (infixb (lit "%") t) eqn:E.
    + rewrite Q. now rewrite D.
    + destruct (P eq_refl) as [F _]. rewrite F in *. now rewrite D.
Qed.
Print Assumptions C92_characters_partial.
(** The argument separators of a function are lost as soon as one comma stands between two digits. *)
Theorem C92_separators_refuted f a b : ~ In (ch "%") f -> Forall (fun c => is_digit c = true) (a ++ b) -> a <> [] -> b <> [] ->
  ~ In (ch ",") f ->
  correct_other (f ++ lit "(" ++ a ++ lit "," ++ b ++ lit ")") = f ++ lit "(" ++ a ++ lit "." ++ b ++ lit ")".
Proof.
  intros Hp Hd Na Nb Hf. destruct (C92_characters_partial (f ++ lit "(" ++ a ++ lit "," ++ b ++ lit ")")) as [H _].
  assert (D : forall c, In c (a ++ b) -> is_digit c = true) by (rewrite Forall_forall in Hd; exact Hd).
  rewrite H.
  - assert (E : digit_comma_digit (f ++ lit "(" ++ a ++ lit "," ++ b ++ lit ")") = true).
    { destruct (exists_last Na) as (a' & x & ->). destruct b as [|y b]; [contradiction|].
      assert (G : forall p q, digit_comma_digit q = true -> digit_comma_digit (p ++ q) = true).
      { induction p as [|c p IH]; intros q Hq; [exact Hq|]. cbn [app]. specialize (IH q Hq). destruct (p ++ q) as [|d r]; [discriminate IH|].
        destruct r as [|e r]; [discriminate IH|]. cbn [digit_comma_digit] in *. rewrite IH. apply orb_true_r. }
      replace (f ++ lit "(" ++ (a' ++ [x]) ++ lit "," ++ (y :: b) ++ lit ")") with ((f ++ lit "(" ++ a') ++ x :: ch "," :: y :: b ++ lit ")")
        by (rewrite <- !app_assoc; reflexivity).
      apply G. cbn [digit_comma_digit]. rewrite (D x), (D y); [reflexivity| |]; apply in_or_app; [right; now left|left; apply in_or_app; right; now left]. }
    rewrite E, !map_app. cbn [map].
    assert (K : forall s, ~ In (ch ",") s -> map (fun c => if N.eqb c (ch ",") then ch "." else c) s = s).
    { induction s as [|c s IH]; intro N; [reflexivity|]. cbn [map]. rewrite IH by (intro I; apply N; now right).
      destruct (N.eqb_spec c (ch ",")) as [-> | _]; [exfalso; apply N; now left|reflexivity]. }
    assert (Ka : forall s, (forall c, In c s -> In c (a ++ b)) -> ~ In (ch ",") s) by (intros s Hs I; apply Hs, D in I; discriminate I).
    rewrite (K f Hf), (K a), (K b); [reflexivity| |]; apply Ka; intros c I; apply in_or_app; auto.
  - intro I. apply in_app_iff in I as [I|I]; [auto|]. cbn in I. destruct I as [I|I]; [discriminate I|].
    apply in_app_iff in I as [I|I]; [specialize (D _ (in_or_app _ _ _ (or_introl I))); discriminate D|]. cbn in I. destruct I as [I|I]; [discriminate I|].
    apply in_app_iff in I as [I|I]; [specialize (D _ (in_or_app _ _ _ (or_intror I))); discriminate D|]. cbn in I. destruct I as [I|[]]. discriminate I.
Qed.
Print Assumptions C92_separators_refuted.
(** A percent sign after a divisor: a/b% is read as a/(b/100), what is written as (a/b)/100. *)
Theorem C92_percent_refuted (number : pystr -> Q -> Prop) (reads : pystr -> Q -> Prop) a b x y :
  (forall s t p q, number s p -> number t q -> reads (s ++ lit "/" ++ t ++ lit "%") (p / (q / 100))%Q) ->
  (forall s t u p q r, number s p -> number t q -> number u r -> reads (s ++ lit "/" ++ t ++ lit "/ " ++ u) (p / q / r)%Q) ->
  (forall s v w, reads s v -> reads s w -> v == w)%Q ->
  number a x -> number b y -> number (lit "100") 100%Q -> ~ In (ch "%") (a ++ b) -> ~ (x == 0)%Q -> ~ (y == 0)%Q ->
  digit_comma_digit (a ++ lit "/" ++ b ++ lit "/ 100") = false ->
  exists v w, reads (a ++ lit "/" ++ b ++ lit "%") v /\ reads (correct_other (a ++ lit "/" ++ b ++ lit "%")) w /\
              (forall w', reads (correct_other (a ++ lit "/" ++ b ++ lit "%")) w' -> ~ (v == w')%Q).
Proof.
  intros Rp Rq Rf Na Nb Nc Hp Hx Hy Hd.
  assert (K : forall s, ~ In (ch "%") s -> flat_map (fun c => if N.eqb c (ch "%") then lit "/ 100" else [c]) s = s).
  { induction s as [|c s IH]; intro N; [reflexivity|]. cbn [flat_map]. rewrite IH by (intro I; apply N; now right).
    destruct (N.eqb_spec c (ch "%")) as [-> | _]; [exfalso; apply N; now left|reflexivity]. }
  assert (E : flat_map (fun c => if N.eqb c (ch "%") then lit "/ 100" else [c]) (a ++ lit "/" ++ b ++ lit "%") = a ++ lit "/" ++ b ++ lit "/ " ++ lit "100").
  { rewrite !flat_map_app, (K a), (K b); [reflexivity| |]; intro I; apply Hp; apply in_or_app; auto. }
  destruct (C92_characters_partial (a ++ lit "/" ++ b ++ lit "%")) as [_ C]. rewrite E in C. specialize (C Hd). rewrite C.
  exists (x / (y / 100))%Q, (x / y / 100)%Q. split; [now apply Rp|]. split; [now apply Rq|].
  intros w' R Ev. pose proof (Rf _ _ _ R (Rq _ _ _ _ _ _ Na Nb Nc)) as Ew. rewrite Ew in Ev.
  assert (F : (x * 10000 == x)%Q).
  { assert (G : (x / (y / 100) * y * 100 == x / y / 100 * y * 100)%Q) by now rewrite Ev.
    assert (G1 : (x / (y / 100) * y * 100 == x * 10000)%Q) by (field; auto).
    assert (G2 : (x / y / 100 * y * 100 == x)%Q) by (field; auto). now rewrite G1, G2 in G. }
  apply Hx. assert (G : (x * 9999 == 0)%Q) by (setoid_replace (x * 9999)%Q with (x * 10000 - x)%Q by ring; rewrite F; ring).
  apply Qmult_integral in G as [G|G]; [exact G|discriminate G].
Qed.
Print Assumptions C92_percent_refuted.
(** A reference to anything but an exchange of the data set (a parameter, a property) aborts the conversion. *)
Theorem C92_unknown_reference_refuted {V} (W : world V) excs st name p c tail v :
  ~ occurs (lit "UnitConversion") (p ++ ref_text c ++ tail) -> ~ occurs (lit "Ref('") p -> plain_id (f_id c) -> ~ occurs (lit "Ref('") tail ->
  getf (f_id c) excs = None -> ~ In name (vs_names st) ->
  create W excs st name (Some (p ++ ref_text c ++ tail)) v = Err KeyError.
Proof.
  intros Hu Hp Hc Ht Hg Hn. unfold create. destruct (str_in name (vs_names st)) eqn:E; [apply str_in_In in E; contradiction|].
  unfold correct_unit_conversion. assert (E1 : infixb uc_word (p ++ ref_text c ++ tail) = false) by (apply not_true_iff_false; intro I; apply infixb_occurs in I; exact (Hu I)).
  rewrite E1. cbn [bind fst snd]. unfold correct_ref.
  assert (F : find_refs (List.length (p ++ ref_text c ++ tail)) (p ++ ref_text c ++ tail) = [ref_arg c]).
  { assert (C : clean_refs [(p, c)] tail) by (split; [constructor; [exact (conj Hp Hc)|constructor]|exact Ht]).
    exact (find_formula [(p, c)] tail C _ (le_n _)). }
  rewrite F. cbn [correct_refs]. unfold ref_value, ref_arg. destruct Hc as (Hq & _). destruct (f_volume c).
  - unfold split. change (lit "', 'ProductionVolume") with (lit "'" ++ lit ", 'ProductionVolume").
    rewrite split_quiet; [|discriminate|].
    + cbn [rev app]. now rewrite Hg.
    + intros a d b Ea. change (prefixb (lit "'") (d :: b ++ lit "'" ++ lit ", 'ProductionVolume")) with ((39 =? d)%N && true).
      destruct (N.eqb_spec 39%N d) as [<- | _]; [|reflexivity]. exfalso. apply Hq. rewrite Ea. apply in_or_app. right. now left.
  - rewrite app_nil_r. unfold split. rewrite split_none by exact Hq. cbn [rev app]. now rewrite Hg.
Qed.
Print Assumptions C92_unknown_reference_refuted.
(** A conversion inside a conversion aborts: its closing bracket becomes part of a unit name. *)
Theorem C92_nested_refuted :
  correct_unit_conversion toy {| vs_names := []; vs_vars := [] |} (lit "UnitConversion(UnitConversion(5, 'kg', 'g'), 'g', 'kg')") = Err ValueError.
Proof. vm_compute. reflexivity. Qed.
Print Assumptions C92_nested_refuted.

(** ** C97: formulas agree with values *)
Lemma create_keeps {V} (W : world V) excs st name math v st' : create W excs st name math v = Ok st' -> exists w, vs_vars st' = vs_vars st ++ w.
Proof.
  unfold create. destruct (str_in name (vs_names st)); [intros [= <-]; exists []; now rewrite app_nil_r|]. destruct math as [t|].
  - intro H. apply bindv in H as (sm & Hs & H). apply bindv in H as (m & _ & H). injection H as <-. cbn [vs_vars].
    assert (K : exists w, vs_vars (fst sm) = vs_vars st ++ w).
    { unfold correct_unit_conversion in Hs. destruct (infixb uc_word t); [|injection Hs as <-; exists []; now rewrite app_nil_r].
      assert (G : forall es sm sm', correct_calls W es sm = Ok sm' -> exists w, vs_vars (fst sm') = vs_vars (fst sm) ++ w).
      { clear. induction es as [|e es IH]; intros sm sm' H; cbn in H; [injection H as <-; exists []; now rewrite app_nil_r|].
        apply bindv in H as (s1 & H1 & H). apply IH in H as [w E]. unfold correct_call in H1.
        destruct (split _ _); [discriminate|]. apply bindv in H1 as (us & _ & H1). destruct us as [|a [|b us]]; try discriminate.
        apply bindv in H1 as (cv & _ & H1). injection H1 as <-. cbn [fst] in E. unfold create_plain in E.
        destruct (str_in (fst cv) (vs_names (fst sm))); cbn [vs_vars] in E; [eauto|]. rewrite <- app_assoc in E. eauto. }
      exact (G _ _ _ Hs). }
    destruct K as [w ->]. rewrite <- app_assoc. eauto.
  - intros [= <-]. cbn. eauto.
Qed.
Lemma plain_keeps {V} (st : vstate V) name v : exists w, vs_vars (create_plain st name v) = vs_vars st ++ w.
Proof. unfold create_plain. destruct (str_in name (vs_names st)); [exists []; now rewrite app_nil_r|]. cbn. eauto. Qed.
(** variables stay once written *)
Lemma construct_keeps {V} (W : world V) excs st n x v st' n' t : construct W excs st n x v = Ok (st', n', t) -> exists w, vs_vars st' = vs_vars st ++ w.
Proof.
  unfold construct. destruct (negb (w_one W (r_f x)) && str_eqb (r_type x) (lit "flow")).
  - intro H. apply bindv in H as (st1 & H1 & H). apply bindv in H as (st2 & H2 & H). injection H as <- _ _.
    assert (K : exists w, vs_vars st1 = vs_vars st ++ w).
    { destruct v as [[name math]|]; [destruct (equation_only name)|]; try (injection H1 as <-; exists []; now rewrite app_nil_r). exact (create_keeps _ _ _ _ _ _ _ H1). }
    destruct K as [w1 E1]. destruct (create_keeps _ _ _ _ _ _ _ H2) as [w2 E2]. destruct (plain_keeps st2 (r_conv x) (r_f x)) as [w3 E3].
    exists (w1 ++ w2 ++ w3). rewrite E3, E2, E1. now rewrite !app_assoc.
  - destruct v as [[name math]|]; [|intros [= <- _ _]; exists []; now rewrite app_nil_r].
    intro H. apply bindv in H as (st1 & H1 & H). injection H as <- _ _. exact (create_keeps _ _ _ _ _ _ _ H1).
Qed.
Theorem C97_written_variables_stay {V} (W : world V) excs : forall l st n q, constructs W excs st n l = Ok q ->
  forall u, In u (vs_vars st) -> In u (vs_vars (fst q)).
Proof.
  induction l as [|[x v] l IH]; intros st n q H u Hu; cbn in H; [now injection H as <-|].
  apply bindv in H as ([[st1 n1] t] & H1 & H). apply bindv in H as (q' & H2 & H). injection H as <-. cbn [fst].
  apply (IH _ _ _ H2). destruct (construct_keeps _ _ _ _ _ _ _ _ _ H1) as [w ->]. apply in_or_app. now left.
Qed.
Print Assumptions C97_written_variables_stay.

Definition closed_math (conv t : pystr) : pystr := lit "(" ++ t ++ lit ")*" ++ conv.
Lemma closed_math_strip conv t d : is_space d = false -> math_text (Some (closed_math (conv ++ [d]) t)) = Some (closed_math (conv ++ [d]) t).
Proof.
  intro Hd. unfold math_text, closed_math. replace (lit "(" ++ t ++ lit ")*" ++ conv ++ [d]) with (ch "(" :: (t ++ lit ")*" ++ conv) ++ [d]) by (rewrite <- !app_assoc; reflexivity).
  rewrite strip_id; [reflexivity|reflexivity|exact Hd].
Qed.
(** the converted formula of a flow with another unit *)
Lemma construct_formula {V} (W : world V) excs st n x name t conv d st' n' r :
  converts W x = true -> r_conv x = conv ++ [d] -> is_space d = false -> plain_formula (closed_math (r_conv x) t) ->
  construct W excs st n x (Some (name, Some t)) = Ok (st', n', r) ->
  ~ In (converted_name (r_conv x) name) (vs_names st) -> converted_name (r_conv x) name <> name -> plain_formula t ->
  r = Some (converted_name (r_conv x) name) /\
  In {| v_name := converted_name (r_conv x) name; v_formula := Some (closed_math (r_conv x) t); v_value := r_m x |} (vs_vars st').
Proof.
  intros Cx Ec Hd Pf H Ni Nn Pt. unfold construct in H. fold (converts W x) in H. rewrite Cx in H.
  apply bindv in H as (st1 & H1 & H). cbn [fst snd] in H. apply bindv in H as (st2 & H2 & H). injection H as <- _ <-. split; [reflexivity|].
  assert (Ni1 : ~ In (converted_name (r_conv x) name) (vs_names st1)).
  { destruct (equation_only name); [now injection H1 as <-|]. destruct (in_dec (list_eq_dec N.eq_dec) name (vs_names st)) as [I|I].
    - unfold create in H1. apply str_in_In in I. rewrite I in H1. now injection H1 as <-.
    - rewrite create_plain_formula in H1 by assumption. injection H1 as <-. cbn [vs_names]. intro J. apply in_app_iff in J as [J|[J|[]]]; [auto|]. now apply Nn. }
  assert (Em : converted_math (r_conv x) (Some t) = Some (closed_math (r_conv x) t)).
  { unfold converted_math. rewrite Ec. fold (closed_math (conv ++ [d]) t). now apply closed_math_strip. }
  rewrite Em in H2. rewrite create_plain_formula in H2 by assumption. injection H2 as <-.
  match goal with |- In _ (vs_vars (create_plain ?s ?a ?b)) => destruct (plain_keeps s a b) as [w E]; rewrite E end.
  apply in_or_app. left. cbn [vs_vars]. apply in_or_app. right. now left.
Qed.
(** When the formula of a flow gives its amount in the original unit, the converted formula gives the amount in the final unit. *)
Theorem C97_converted_formula_partial {V} (W : world V) excs (mul : V -> V -> V) reads st n x name t conv d st' n' r :
  reading mul reads -> converts W x = true -> r_conv x = conv ++ [d] -> is_space d = false ->
  plain_formula t -> plain_formula (closed_math (r_conv x) t) ->
  construct W excs st n x (Some (name, Some t)) = Ok (st', n', r) ->
  ~ In (converted_name (r_conv x) name) (vs_names st) -> converted_name (r_conv x) name <> name ->
  reads t (r_o x) -> reads (r_conv x) (r_f x) -> r_m x = mul (r_o x) (r_f x) ->
  exists u f, In u (vs_vars st') /\ r = Some (v_name u) /\ v_formula u = Some f /\ v_value u = r_m x /\ reads f (v_value u).
Proof.
  intros Rd Cx Ec Hd Pt Pf H Ni Nn Rt Rc Em.
  destruct (construct_formula W excs st n x name t conv d st' n' r Cx Ec Hd Pf H Ni Nn Pt) as [-> Iu].
  eexists. eexists. split; [exact Iu|]. cbn. split; [reflexivity|]. split; [reflexivity|]. split; [reflexivity|]. rewrite Em.
  apply (rd_product mul reads Rd); assumption.
Qed.
Print Assumptions C97_converted_formula_partial.
(** The amount of a mapped elementary flow is multiplied by the factor of the mapping (1314-1316), its formula is not:
    formula and value of the written variable disagree. *)
Theorem C97_mapped_flow_refuted {V} (W : world V) excs (mul : V -> V -> V) reads st n x name t conv d st' n' r m cf :
  reading mul reads -> converts W x = true -> r_conv x = conv ++ [d] -> is_space d = false ->
  plain_formula t -> plain_formula (closed_math (r_conv x) t) ->
  construct W excs st n x (Some (name, Some t)) = Ok (st', n', r) ->
  ~ In (converted_name (r_conv x) name) (vs_names st) -> converted_name (r_conv x) name <> name ->
  reads t m -> reads (r_conv x) (r_f x) -> r_o x = mul cf m -> r_m x = mul (r_o x) (r_f x) ->
  mul (mul cf m) (r_f x) <> mul m (r_f x) ->
  exists u f, In u (vs_vars st') /\ r = Some (v_name u) /\ v_formula u = Some f /\ v_value u = r_m x /\ ~ reads f (v_value u).
Proof.
  intros Rd Cx Ec Hd Pt Pf H Ni Nn Rt Rc Eo Em Ne.
  destruct (construct_formula W excs st n x name t conv d st' n' r Cx Ec Hd Pf H Ni Nn Pt) as [-> Iu].
  eexists. eexists. split; [exact Iu|]. cbn. split; [reflexivity|]. split; [reflexivity|]. split; [reflexivity|]. rewrite Em, Eo. intro R.
  apply Ne. eapply (rd_function mul reads Rd); [exact R|]. apply (rd_product mul reads Rd); assumption.
Qed.
Print Assumptions C97_mapped_flow_refuted.
(** A flow without a name gets a variable whose formula multiplies its amount with the factor. *)
Theorem C97_unnamed_flow_partial {V} (W : world V) excs (mul : V -> V -> V) (reads : pystr -> V -> Prop) st n x conv d c u st' n' r :
  (forall a n b, reads n b -> reads (w_show W a ++ lit "*" ++ n) (mul a b)) ->
  converts W x = true -> r_conv x = conv ++ [d] -> is_space d = false -> w_show W (r_o x) = c :: u -> is_space c = false ->
  plain_formula (w_show W (r_o x) ++ lit "*" ++ r_conv x) ->
  construct W excs st n x None = Ok (st', n', r) -> ~ In (eq_name (lit "uv") n) (vs_names st) ->
  reads (r_conv x) (r_f x) -> r_m x = mul (r_o x) (r_f x) ->
  exists w f, In w (vs_vars st') /\ r = Some (v_name w) /\ v_formula w = Some f /\ v_value w = r_m x /\ reads f (v_value w).
Proof.
  intros Rd Cx Ec Hd Es Hc Pf H Ni Rc Em. unfold construct in H. fold (converts W x) in H. rewrite Cx in H. cbn [bind fst snd] in H.
  apply bindv in H as (st2 & H2 & H). injection H as <- _ <-.
  assert (Et : math_text (Some (w_show W (r_o x) ++ lit "*" ++ r_conv x)) = Some (w_show W (r_o x) ++ lit "*" ++ r_conv x)).
  { unfold math_text. rewrite Es, Ec. replace ((c :: u) ++ lit "*" ++ conv ++ [d]) with (c :: (u ++ lit "*" ++ conv) ++ [d]) by (cbn [app]; now rewrite <- !app_assoc).
    now rewrite strip_id. }
  rewrite Et, create_plain_formula in H2 by assumption. injection H2 as <-.
  exists {| v_name := eq_name (lit "uv") n; v_formula := Some (w_show W (r_o x) ++ lit "*" ++ r_conv x); v_value := r_m x |}, (w_show W (r_o x) ++ lit "*" ++ r_conv x).
  split.
  - match goal with |- In _ (vs_vars (create_plain ?s ?a ?b)) => destruct (plain_keeps s a b) as [w E]; rewrite E end.
    apply in_or_app. left. cbn [vs_vars]. apply in_or_app. right. now left.
  - cbn. split; [reflexivity|]. split; [reflexivity|]. split; [reflexivity|]. rewrite Em. now apply Rd.
Qed.
Print Assumptions C97_unnamed_flow_partial.
(** a flow of 6 kg given by the formula 3*b *)
Example C97_nonvacuous :
  let x := flow1 (Some (lit "a")) (Some (lit "3*b")) 6 1000 in
  converts toy x = true /\ r_conv x = lit "__kg_to_g_" ++ [ch "_"] /\
  exists st' n', construct toy [] {| vs_names := []; vs_vars := [] |} 1 x (Some (lit "a", Some (lit "3*b"))) = Ok (st', n', Some (lit "a__from_kg_to_g__")) /\
                 In {| v_name := lit "a__from_kg_to_g__"; v_formula := Some (lit "(3*b)*__kg_to_g__"); v_value := 6000%Z |} (vs_vars st').
Proof. split; [reflexivity|]. split; [reflexivity|]. eexists. eexists. split; [vm_compute; reflexivity|]. cbn. tauto. Qed.
