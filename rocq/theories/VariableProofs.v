(** Variables and formulas: lemmas. *)
From Coq Require Import Ascii String List Bool Arith NArith ZArith Lia Permutation.
From Verif Require Import PyBase PyBaseFacts PyDigits PyValues DotDictModel DotDictProofs CommentSpec CommentProofs TextFacts VariableModel VariableSpec.
Import ListNotations.

Lemma bindv {A B} (r : result A) (f : A -> result B) y : bind r f = Ok y -> exists x, r = Ok x /\ f x = Ok y.
Proof. destruct r; cbn; [eauto|discriminate]. Qed.

Section V.
Context {V : Type} (W : world V) (excs : list (pystr * (V * option V))).

(** [pending]: names taken whose variable is not written yet *)
Definition good (pending : list pystr) (st : vstate V) : Prop :=
  Permutation (pending ++ map v_name (vs_vars st)) (vs_names st) /\ NoDup (vs_names st).
(** where a variable may come from: given ones and factors *)
Definition from_units (c : pystr * V) : Prop := exists a b, w_conv W a b = Ok c.
Definition entry (u : variable V) : pystr * V := (v_name u, v_value u).
Definition grows (P : pystr * V -> Prop) (st st' : vstate V) : Prop :=
  incl (vs_names st) (vs_names st') /\ forall u, In u (vs_vars st') -> In u (vs_vars st) \/ P (entry u).

Lemma NoDup_add {A} (l : list A) x : NoDup l -> ~ In x l -> NoDup (l ++ [x]).
Proof. intros H N. apply (Permutation_NoDup (l := x :: l)); [apply Permutation_cons_append|now constructor]. Qed.
Lemma str_in_no x l : str_in x l = false -> ~ In x l.
Proof. intros H I. apply str_in_In in I. congruence. Qed.

Lemma plain_good p st name v : good p st -> good p (create_plain st name v).
Proof.
  intros [P N]. unfold create_plain. destruct (str_in name (vs_names st)) eqn:E; [now split|]. split; cbn.
  - rewrite map_app, app_assoc. cbn. now apply Permutation_app_tail.
  - apply NoDup_add; [exact N|now apply str_in_no].
Qed.
Lemma plain_grows st name v : grows (fun c => c = (name, v)) st (create_plain st name v) /\ In name (vs_names (create_plain st name v)).
Proof.
  unfold create_plain. destruct (str_in name (vs_names st)) eqn:E.
  - apply str_in_In in E. repeat split; [apply incl_refl|auto|exact E].
  - repeat split; cbn.
    + apply incl_appl, incl_refl.
    + intros u Hu. apply in_app_iff in Hu as [Hu|[<-|[]]]; auto.
    + apply in_or_app. right. now left.
Qed.
Lemma grows_trans (P : pystr * V -> Prop) a b c : grows P a b -> grows P b c -> grows P a c.
Proof.
  intros [H1 H2] [H3 H4]. split; [eapply incl_tran; eauto|]. intros u Hu. destruct (H4 u Hu) as [H|H]; [apply H2, H|auto].
Qed.
Lemma grows_weaken (P Q : pystr * V -> Prop) a b : (forall c, P c -> Q c) -> grows P a b -> grows Q a b.
Proof. intros PQ [H1 H2]. split; [exact H1|]. intros u Hu. destruct (H2 u Hu); auto. Qed.
Lemma grows_refl P st : grows P st st.
Proof. split; [apply incl_refl|auto]. Qed.

Lemma call_good p elem sm sm' : good p (fst sm) -> correct_call W elem sm = Ok sm' -> good p (fst sm') /\ grows from_units (fst sm) (fst sm').
Proof.
  intros G H. unfold correct_call in H. destruct (split _ _) as [|p0 ps]; [discriminate|].
  apply bindv in H as (us & _ & H). destruct us as [|a [|b us]]; try discriminate H.
  apply bindv in H as (cv & Hcv & H). injection H as <-. cbn [fst]. split; [now apply plain_good|].
  eapply grows_weaken; [|apply plain_grows]. intros c ->. exists a, b. destruct cv. exact Hcv.
Qed.
Lemma calls_good p : forall es sm sm', good p (fst sm) -> correct_calls W es sm = Ok sm' -> good p (fst sm') /\ grows from_units (fst sm) (fst sm').
Proof.
  induction es as [|e es IH]; intros sm sm' G H; cbn in H.
  - injection H as <-. split; [exact G|apply grows_refl].
  - apply bindv in H as (s1 & H1 & H). destruct (call_good _ _ _ _ G H1) as [G1 R1]. destruct (IH _ _ G1 H) as [G2 R2].
    split; [exact G2|]. eapply grows_trans; eauto.
Qed.
Lemma uc_good p st math sm : good p st -> correct_unit_conversion W st math = Ok sm -> good p (fst sm) /\ grows from_units st (fst sm).
Proof.
  unfold correct_unit_conversion. intros G H. destruct (infixb uc_word math).
  - exact (calls_good p _ (st, math) sm G H).
  - injection H as <-. split; [exact G|apply grows_refl].
Qed.
Lemma create_good st name math v st' : good [] st -> create W excs st name math v = Ok st' ->
  good [] st' /\ grows (fun c => c = (name, v) \/ from_units c) st st' /\ In name (vs_names st').
Proof.
  intros G H. unfold create in H. destruct (str_in name (vs_names st)) eqn:E.
  - injection H as <-. apply str_in_In in E. split; [exact G|]. split; [apply grows_refl|exact E].
  - pose proof (str_in_no _ _ E) as Ni. destruct G as [P N].
    assert (G1 : good [name] {| vs_names := vs_names st ++ [name]; vs_vars := vs_vars st |}).
    { split; cbn; [|now apply NoDup_add]. change (name :: map v_name (vs_vars st)) with ([name] ++ map v_name (vs_vars st)).
      eapply Permutation_trans; [apply Permutation_app_comm|]. now apply Permutation_app_tail. }
    destruct math as [t|].
    + apply bindv in H as (sm & Hs & H). apply bindv in H as (m & _ & H). injection H as <-.
      destruct (uc_good _ _ _ _ G1 Hs) as [[P2 N2] [R1 R2]]. cbn in R1, R2. split; [|split; [split|]]; cbn.
      * split; [|exact N2]. cbn. rewrite map_app. cbn. eapply Permutation_trans; [|exact P2]. apply Permutation_sym, Permutation_cons_append.
      * eapply incl_tran; [|exact R1]. apply incl_appl, incl_refl.
      * intros u Hu. apply in_app_iff in Hu as [Hu|[<-|[]]]; [|auto]. destruct (R2 u Hu); auto.
      * apply R1. apply in_or_app. right. now left.
    + injection H as <-. split; [|split; [split|]]; cbn.
      * split; cbn; [|now apply NoDup_add]. rewrite map_app. cbn. now apply Permutation_app_tail.
      * apply incl_appl, incl_refl.
      * intros u Hu. apply in_app_iff in Hu as [Hu|[<-|[]]]; auto.
      * apply in_or_app. right. now left.
Qed.

(** the names an amount asks for, with their values *)
Definition converts (x : raw V) : bool := (negb (w_one W (r_f x)) && str_eqb (r_type x) (lit "flow"))%bool.
Definition target (n : nat) (x : raw V) (v : option (pystr * option pystr)) : option pystr :=
  if converts x then Some (match v with Some (name, _) => converted_name (r_conv x) name | None => eq_name (lit "uv") n end)
  else option_map fst v.
Definition claims (n : nat) (x : raw V) (v : option (pystr * option pystr)) : list (pystr * V) :=
  if converts x then
    match v with Some (name, _) => if equation_only name then [] else [(name, r_o x)] | None => [] end ++
    match target n x v with Some t => [(t, r_m x)] | None => [] end ++ [(r_conv x, r_f x)]
  else match v with Some (name, _) => [(name, r_o x)] | None => [] end.
Definition next (n : nat) (x : raw V) : nat := if converts x then S n else n.
Fixpoint all_claims (n : nat) (l : list (raw V * option (pystr * option pystr))) : list (pystr * V) :=
  match l with [] => [] | (x, v) :: l' => claims n x v ++ all_claims (next n x) l' end.
Fixpoint all_targets (n : nat) (l : list (raw V * option (pystr * option pystr))) : list (raw V * option pystr) :=
  match l with [] => [] | (x, v) :: l' => (x, target n x v) :: all_targets (next n x) l' end.

Lemma construct_good st n x v st' n' t : good [] st -> construct W excs st n x v = Ok (st', n', t) ->
  good [] st' /\ grows (fun c => In c (claims n x v) \/ from_units c) st st' /\
  (forall c, In c (claims n x v) -> In (fst c) (vs_names st')) /\ n' = next n x /\ t = target n x v.
Proof.
  intros G H. unfold construct in H. unfold claims, next, target. fold (converts x) in H. destruct (converts x).
  - apply bindv in H as (st1 & H1 & H). apply bindv in H as (st2 & H2 & H). injection H as <- <- <-.
    assert (K1 : good [] st1 /\
                 grows (fun c => In c (match v with Some (name, _) => if equation_only name then [] else [(name, r_o x)] | None => [] end) \/ from_units c) st st1 /\
                 (forall c, In c (match v with Some (name, _) => if equation_only name then [] else [(name, r_o x)] | None => [] end) -> In (fst c) (vs_names st1))).
    { destruct v as [[name math]|].
      - destruct (equation_only name).
        + injection H1 as <-. split; [exact G|]. split; [apply grows_refl|contradiction].
        + destruct (create_good _ _ _ _ _ G H1) as (G1 & R1 & I1). split; [exact G1|]. split.
          * eapply grows_weaken; [|exact R1]. intros c [-> | Hc]; [left; now left|now right].
          * intros c [<-|[]]. exact I1.
      - injection H1 as <-. split; [exact G|]. split; [apply grows_refl|contradiction]. }
    destruct K1 as (G1 & R1 & I1). destruct (create_good _ _ _ _ _ G1 H2) as (G2 & R2 & I2).
    destruct (plain_grows st2 (r_conv x) (r_f x)) as [R3 I3].
    split; [now apply plain_good|]. split; [|split; [|split; [reflexivity|]]].
    + eapply grows_trans; [eapply grows_weaken; [|exact R1]|eapply grows_trans; [eapply grows_weaken; [|exact R2]|eapply grows_weaken; [|exact R3]]].
      * intros c [Hc|Hc]; [left; apply in_or_app; now left|now right].
      * intros c [-> | Hc]; [left; apply in_or_app; right; apply in_or_app; left|now right]. destruct v as [[name math]|]; now left.
      * intros c ->. left. apply in_or_app; right; apply in_or_app; right. now left.
    + intros c Hc. apply in_app_iff in Hc as [Hc|Hc]; [apply R3, R2, I1, Hc|].
      apply in_app_iff in Hc as [Hc|[<-|[]]]; [|exact I3]. apply R3. destruct v as [[name math]|]; destruct Hc as [<-|[]]; exact I2.
    + destruct v as [[name math]|]; reflexivity.
  - destruct v as [[name math]|].
    + apply bindv in H as (st1 & H1 & H). injection H as <- <- <-. destruct (create_good _ _ _ _ _ G H1) as (G1 & R1 & I1).
      split; [exact G1|]. split; [|split; [|split; reflexivity]].
      * eapply grows_weaken; [|exact R1]. intros c [-> | Hc]; [left; now left|now right].
      * intros c [<-|[]]. exact I1.
    + injection H as <- <- <-. split; [exact G|]. split; [apply grows_refl|]. split; [contradiction|split; reflexivity].
Qed.
Lemma constructs_good : forall l st n q, good [] st -> constructs W excs st n l = Ok q ->
  good [] (fst q) /\ grows (fun c => In c (all_claims n l) \/ from_units c) st (fst q) /\
  (forall c, In c (all_claims n l) -> In (fst c) (vs_names (fst q))) /\ snd q = all_targets n l.
Proof.
  induction l as [|[x v] l IH]; intros st n q G H; cbn in H.
  - injection H as <-. split; [exact G|]. split; [apply grows_refl|]. split; [contradiction|reflexivity].
  - apply bindv in H as ([[st1 n1] t] & H1 & H). apply bindv in H as (q' & H2 & H). injection H as <-. cbn [fst snd].
    destruct (construct_good _ _ _ _ _ _ _ G H1) as (G1 & R1 & I1 & -> & ->). destruct (IH _ _ _ G1 H2) as (G2 & R2 & I2 & E2).
    cbn [all_claims all_targets]. split; [exact G2|]. split; [|split].
    + eapply grows_trans; [eapply grows_weaken; [|exact R1]|eapply grows_weaken; [|exact R2]];
        (intros c [Hc|Hc]; [left; apply in_or_app; auto|now right]).
    + intros c Hc. apply in_app_iff in Hc as [Hc|Hc]; [apply R2, I1, Hc|apply I2, Hc].
    + now rewrite E2.
Qed.

Lemma document_good l vars refs : document W excs l = Ok (vars, refs) ->
  let (ls, n) := number_vars 1 l in
  NoDup (map v_name vars) /\ refs = all_targets n ls /\
  (forall u, In u vars -> In (entry u) (all_claims n ls) \/ from_units (entry u)) /\
  (forall c, In c (all_claims n ls) -> exists u, In u vars /\ v_name u = fst c).
Proof.
  unfold document. destruct (number_vars 1 l) as [ls n]. intro H. apply bindv in H as (q & Hq & H). injection H as <- <-.
  assert (G0 : good [] {| vs_names := []; vs_vars := [] |}) by (split; constructor).
  destruct (constructs_good _ _ _ _ G0 Hq) as ((P & N) & (_ & R) & I & E). cbn in P.
  split; [|split; [exact E|split]].
  - eapply Permutation_NoDup; [apply Permutation_sym; exact P|exact N].
  - intros u Hu. destruct (R u Hu) as [[]|Hc]. exact Hc.
  - intros c Hc. apply I in Hc. apply (Permutation_in _ (Permutation_sym P)) in Hc. apply in_map_iff in Hc as (u & Eu & Hu). eauto.
Qed.

(** ** names *)
Lemma no_from_uc b : ~ occurs (lit "__from") b -> ~ occurs (lit "__from") (b ++ lit "__uc").
Proof.
  intros H O. apply H. change (lit "__from") with (lit "__fro" ++ [109%N]) in *.
  refine (occurs_before (lit "__fro") 109%N b (lit "__uc") _ O). intro I. cbn in I. repeat destruct I as [I|I]; try discriminate I. exact I.
Qed.
Lemma base_short b rest : ~ occurs (lit "__from") b -> hd [] (split (lit "__from") (b ++ lit "__from" ++ rest)) = b.
Proof.
  intro H. unfold split. rewrite split_quiet; [reflexivity|discriminate|].
  refine (prefixb_cross_last 109%N (lit "__fro") b rest _ H). intro I. cbn in I. repeat destruct I as [I|I]; try discriminate I. exact I.
Qed.
Lemma converted_shape conv b : ~ occurs (lit "__from") b ->
  (exists r, converted_name conv b = b ++ lit "__from" ++ r) \/ converted_name conv b = b ++ lit "__uc".
Proof.
  intro H. unfold converted_name. destruct (Nat.leb _ 50); [left; exists (lit "_" ++ skipn 2 conv); reflexivity|right].
  change (lit "__from_") with (lit "__from" ++ lit "_"). rewrite <- app_assoc. now rewrite base_short.
Qed.
Lemma converted_inj c1 c2 b1 b2 : ~ occurs (lit "__from") b1 -> ~ occurs (lit "__from") b2 ->
  converted_name c1 b1 = converted_name c2 b2 -> b1 = b2.
Proof.
  intros H1 H2 E.
  destruct (converted_shape c1 b1 H1) as [[r1 E1]|E1], (converted_shape c2 b2 H2) as [[r2 E2]|E2]; rewrite E1, E2 in E.
  - apply (f_equal (fun s => hd [] (split (lit "__from") s))) in E. now rewrite !base_short in E.
  - exfalso. apply (no_from_uc b2 H2). rewrite <- E. now exists b1, r1.
  - exfalso. apply (no_from_uc b1 H1). rewrite E. now exists b2, r2.
  - now apply app_inv_tail in E.
Qed.

(** names the converter makes *)
Definition made_kinds : list pystr := [lit "fl"; lit "pr"; lit "pa"; lit "uv"].
Lemma eq_chars kind n c : In kind made_kinds -> In c (eq_name kind n) -> In c (lit "Eq_flpauvr") \/ isdig c.
Proof.
  intros K I. unfold eq_name in I. apply in_app_iff in I as [I|I]; [|apply in_app_iff in I as [I|I]; [|apply in_app_iff in I as [I|I]]].
  - left. cbn in I |- *. tauto.
  - left. cbn [In made_kinds] in K. repeat destruct K as [<-|K]; try contradiction; cbn in I |- *; tauto.
  - left. cbn in I |- *. tauto.
  - right. pose proof (str_of_N_digits (N.of_nat n)) as D. rewrite Forall_forall in D. now apply D.
Qed.
Definition ok_base (s : pystr) : Prop :=
  (exists c t, s = c :: t /\ letter c) /\ ~ occurs (lit "__from") s /\ ~ (exists t, s = t ++ lit "__uc").
Lemma eq_ok kind n : In kind made_kinds -> ok_base (eq_name kind n).
Proof.
  intro K. split; [|split].
  - exists 69%N, (lit "q_" ++ kind ++ lit "_" ++ str_of_N (N.of_nat n)). split; [reflexivity|unfold letter; lia].
  - apply (occurs_char _ _ 109%N); [cbn; tauto|]. intro I. apply (eq_chars _ _ _ K) in I as [I|I]; [|unfold isdig in I; lia].
    cbn in I. repeat destruct I as [I|I]; try discriminate I. exact I.
  - intros (t & E). assert (I : In 99%N (eq_name kind n)) by (rewrite E; apply in_or_app; right; cbn; tauto).
    apply (eq_chars _ _ _ K) in I as [I|I]; [|unfold isdig in I; lia].
    cbn in I. repeat destruct I as [I|I]; try discriminate I. exact I.
Qed.
Lemma eq_occurs kind n : occurs (lit "Eq_") (eq_name kind n).
Proof. exists [], (kind ++ lit "_" ++ str_of_N (N.of_nat n)). reflexivity. Qed.
Lemma eq_inj k1 k2 n1 n2 : In k1 made_kinds -> In k2 made_kinds -> eq_name k1 n1 = eq_name k2 n2 -> k1 = k2 /\ n1 = n2.
Proof.
  intros K1 K2 E. unfold eq_name in E. apply app_inv_head in E.
  assert (L : forall k, In k made_kinds -> List.length k = 2) by (intros k K; cbn [In made_kinds] in K; repeat destruct K as [<-|K]; try contradiction; reflexivity).
  assert (k1 = k2).
  { apply (f_equal (firstn 2)) in E. rewrite !firstn_app_len in E by auto. exact E. }
  subst k2. split; [reflexivity|]. apply app_inv_head in E. apply app_inv_head in E. apply str_of_N_inj in E. lia.
Qed.
Lemma own_ok s : own_name s -> ok_base s.
Proof. intros (A & B & _ & D). exact (conj A (conj B D)). Qed.
Lemma kinds_made t : In t kinds -> In (firstn 2 t) made_kinds /\ firstn 2 t <> lit "uv".
Proof. intro K. cbn [In kinds] in K. repeat destruct K as [<-|K]; try contradiction; (split; [cbn; tauto|discriminate]). Qed.
Lemma converted_not_ok conv b : ok_base b -> ~ ok_base (converted_name conv b).
Proof.
  intros (_ & F & _) (_ & F' & U'). destruct (converted_shape conv b F) as [[r E]|E]; rewrite E in *.
  - apply F'. now exists b, r.
  - apply U'. now exists b.
Qed.
Lemma converted_start conv b c t : ok_base b -> converted_name conv b = c :: t -> letter c.
Proof.
  intros ((d & u & -> & L) & F & _) E. destruct (converted_shape conv (d :: u) F) as [[r E']|E']; rewrite E' in E; cbn in E; now injection E as <- _.
Qed.

(** bases *)
Definition bases (ls : list (raw V * option (pystr * option pystr))) : list (raw V * pystr) :=
  flat_map (fun xv => match snd xv with Some (name, _) => [(fst xv, name)] | None => [] end) ls.
Lemma bases_origin : forall l n ls n', number_vars n l = (ls, n') -> Forall (fun x => In (r_type x) kinds) l ->
  map fst ls = l /\ n <= n' /\
  forall x name, In (x, name) (bases ls) -> In x l /\
    ((r_name x = Some name /\ In name (given_names l)) \/
     (exists k m, name = eq_name k m /\ n <= m /\ In k made_kinds /\ k <> lit "uv")).
Proof.
  induction l as [|x l IH]; intros n ls n' E F; cbn in E.
  - injection E as <- <-. repeat split; auto; contradiction.
  - inversion F as [|? ? Fx Fl]; subst. destruct (number_vars _ l) as [r n1] eqn:En. injection E as <- <-.
    destruct (IH _ _ _ En Fl) as (M & Le & O). split; [cbn; now rewrite M|].
    split; [destruct (var_of n x); lia|]. intros y name I. cbn [bases flat_map snd fst] in I. apply in_app_iff in I as [I|I].
    + unfold var_of in I. destruct (truthy (r_name x) || truthy (r_math x)); [|contradiction]. destruct I as [I|[]]. injection I as <- <-.
      split; [now left|]. destruct (r_name x) as [t|] eqn:Nx.
      * left. split; [reflexivity|]. unfold given_names. cbn [flat_map]. rewrite Nx. now left.
      * right. destruct (kinds_made _ Fx). eauto 6.
    + destruct (O y name I) as [Iy [[Ny Gy]|(k & m & -> & Lm & K)]]; (split; [now right|]).
      * left. split; [exact Ny|]. unfold given_names. cbn [flat_map]. apply in_or_app. now right.
      * right. exists k, m. split; [reflexivity|]. split; [destruct (var_of n x); lia|exact K].
Qed.
Lemma bases_NoDup : forall l n ls n', number_vars n l = (ls, n') -> well_named l -> NoDup (map snd (bases ls)).
Proof.
  induction l as [|x l IH]; intros n ls n' E (O & D & F); cbn in E.
  - injection E as <- _. constructor.
  - inversion F as [|? ? Fx Fl]; subst. destruct (number_vars _ l) as [r n1] eqn:En. injection E as <- <-.
    unfold given_names in O, D. cbn [flat_map] in O, D. apply Forall_app in O as [Ox Ol].
    assert (Dl : NoDup (given_names l)) by (destruct (r_name x); [now inversion D|exact D]).
    assert (W' : well_named l) by (split; [exact Ol|split; [exact Dl|exact Fl]]).
    pose proof (IH _ _ _ En W') as Nd. destruct (bases_origin _ _ _ _ En Fl) as (_ & _ & Or).
    cbn [bases flat_map snd fst]. unfold var_of in *. destruct (truthy (r_name x) || truthy (r_math x)); [|exact Nd].
    cbn [app map]. constructor; [|exact Nd]. cbn [snd]. intro I. apply in_map_iff in I as ([y name] & Ey & I). cbn in Ey. subst name.
    destruct (Or _ _ I) as [_ Hy]. destruct (r_name x) as [t|] eqn:Nx.
    + destruct Hy as [[_ Gy]|(k & m & Et & _)].
      * cbn in D. inversion D as [|? ? Nt _]; subst. exact (Nt Gy).
      * inversion Ox as [|? ? (_ & _ & Q & _) _]; subst. apply Q. apply eq_occurs.
    + destruct Hy as [[_ Gy]|(k & m & Et & Lm & K & _)].
      * unfold given_names in Ol. rewrite Forall_forall in Ol. destruct (Ol _ Gy) as (_ & _ & Q & _). apply Q. apply eq_occurs.
      * destruct (kinds_made _ Fx) as [K' _]. destruct (eq_inj _ _ _ _ K' K Et). lia.
Qed.
Lemma NoDup_snd_fun {A B} (l : list (A * B)) : NoDup (map snd l) -> forall x y b, In (x, b) l -> In (y, b) l -> x = y.
Proof.
  induction l as [|[a b'] l IH]; intros Nd x y b Hx Hy; [contradiction|]. inversion Nd as [|? ? Ni Nd']; subst.
  destruct Hx as [Hx|Hx], Hy as [Hy|Hy].
  - congruence.
  - injection Hx as -> ->. exfalso. apply Ni. now apply (in_map snd) in Hy.
  - injection Hy as -> ->. exfalso. apply Ni. now apply (in_map snd) in Hx.
  - eauto.
Qed.

(** the claims by kind *)
Fixpoint uvs (n : nat) (ls : list (raw V * option (pystr * option pystr))) : list (raw V * nat) :=
  match ls with
  | [] => []
  | (x, v) :: l' => (if converts x then [(x, n)] else []) ++ uvs (next n x) l'
  end.
Lemma uvs_ge : forall ls n x m, In (x, m) (uvs n ls) -> n <= m.
Proof.
  induction ls as [|[y v] ls IH]; intros n x m I; [contradiction|]. cbn in I. apply in_app_iff in I as [I|I].
  - destruct (converts y); [|contradiction]. destruct I as [I|[]]. injection I as _ <-. lia.
  - apply IH in I. unfold next in I. destruct (converts y); lia.
Qed.
Lemma uvs_NoDup : forall ls n, NoDup (map snd (uvs n ls)).
Proof.
  induction ls as [|[y v] ls IH]; intro n; [constructor|]. cbn [uvs]. destruct (converts y) eqn:E; [|apply IH].
  cbn [app map snd]. constructor; [|apply IH]. intro I. apply in_map_iff in I as ([x m] & Em & I). cbn in Em. subst m.
  apply uvs_ge in I. unfold next in I. rewrite E in I. lia.
Qed.
Variable k : pystr -> V.
Inductive claimed (ls : list (raw V * option (pystr * option pystr))) (n : nat) : pystr * V -> Prop :=
| KA x name : In (x, name) (bases ls) -> claimed ls n (name, r_o x)
| KB x name : In (x, name) (bases ls) -> claimed ls n (converted_name (r_conv x) name, r_m x)
| KC x m : In (x, m) (uvs n ls) -> claimed ls n (eq_name (lit "uv") m, r_m x)
| KD t : claimed ls n (lit "__" ++ t, k (lit "__" ++ t)).
Lemma claimed_cons xv ls n n' c : (forall y m, In (y, m) (uvs n' ls) -> In (y, m) (uvs n (xv :: ls))) ->
  claimed ls n' c -> claimed (xv :: ls) n c.
Proof.
  intros U [x name I|x name I|x m I|t]; [apply KA|apply KB|apply KC; auto|apply KD];
    (unfold bases; cbn [flat_map]; apply in_or_app; right; exact I).
Qed.
Lemma all_claims_claimed : forall ls n c, (forall x v, In (x, v) ls -> r_f x = k (r_conv x) /\ exists t, r_conv x = lit "__" ++ t) ->
  In c (all_claims n ls) -> claimed ls n c.
Proof.
  induction ls as [|[x v] ls IH]; intros n c F I; [contradiction|]. cbn [all_claims] in I. apply in_app_iff in I as [I|I].
  - unfold claims, target in I. destruct (converts x) eqn:Cx.
    + destruct (F x v (or_introl eq_refl)) as [Ff (t & Ft)].
      apply in_app_iff in I as [I|I]; [|apply in_app_iff in I as [I|[<-|[]]]].
      * destruct v as [[name math]|]; [|contradiction]. destruct (equation_only name); [contradiction|]. destruct I as [<-|[]].
        apply KA. now left.
      * destruct v as [[name math]|]; destruct I as [<-|[]]; [apply KB; now left|]. apply KC. cbn. rewrite Cx. now left.
      * rewrite Ff, Ft. apply KD.
    + destruct v as [[name math]|]; [|contradiction]. destruct I as [<-|[]]. apply KA. now left.
  - apply (claimed_cons _ _ _ (next n x)); [|apply IH; [|exact I]].
    + intros y m Iy. cbn [uvs]. apply in_or_app. now right.
    + intros y w Iy. apply (F y w). now right.
Qed.
Lemma letter_not_underscore b t : ok_base b -> b <> lit "__" ++ t.
Proof. intros ((c & u & -> & L) & _) E. change (lit "__" ++ t) with (95%N :: 95%N :: t) in E. injection E as E _. unfold letter in L. lia. Qed.
Lemma converted_not_underscore conv b t : ok_base b -> converted_name conv b <> lit "__" ++ t.
Proof. intros B E. pose proof (converted_start conv b 95%N (95%N :: t) B E) as L. unfold letter in L. lia. Qed.

Lemma claimed_fun l ls n0 n : number_vars 1 l = (ls, n0) -> well_named l ->
  forall s v1 v2, claimed ls n (s, v1) -> claimed ls n (s, v2) -> v1 = v2.
Proof.
  intros E Wn. destruct Wn as (O & D & F). pose proof (bases_NoDup _ _ _ _ E (conj O (conj D F))) as Nd.
  destruct (bases_origin _ _ _ _ E F) as (_ & _ & Or).
  assert (Ok1 : forall x b, In (x, b) (bases ls) -> ok_base b).
  { intros x b I. destruct (Or _ _ I) as [_ [[_ G]|(kd & m & -> & _ & K & _)]].
    - apply own_ok. rewrite Forall_forall in O. now apply O.
    - now apply eq_ok. }
  assert (Uv : forall m, ok_base (eq_name (lit "uv") m)) by (intro m; apply eq_ok; cbn; tauto).
  assert (NUv : forall x b m, In (x, b) (bases ls) -> b <> eq_name (lit "uv") m).
  { intros x b m I Eb. destruct (Or _ _ I) as [_ [[_ G]|(kd & m' & Eb' & _ & K & Nk)]].
    - rewrite Forall_forall in O. destruct (O _ G) as (_ & _ & Q & _). apply Q. rewrite Eb. apply eq_occurs.
    - rewrite Eb in Eb'. assert (Ku : In (lit "uv") made_kinds) by (cbn; tauto). destruct (eq_inj _ _ _ _ Ku K Eb') as [Ek _]. now apply Nk. }
  intros s v1 v2 H1 H2. remember (s, v1) as c1. remember (s, v2) as c2.
  destruct H1 as [x1 b1 I1|x1 b1 I1|x1 m1 I1|t1], H2 as [x2 b2 I2|x2 b2 I2|x2 m2 I2|t2]; injection Heqc1 as E1 <-; injection Heqc2 as E2 <-;
    pose proof (eq_trans E1 (eq_sym E2)) as Es; clear E1 E2 s.
  - subst b2. now rewrite (NoDup_snd_fun _ Nd x1 x2 b1 I1 I2).
  - exfalso. apply (converted_not_ok (r_conv x2) b2); [eauto|]. rewrite <- Es. eauto.
  - exfalso. exact (NUv _ _ m2 I1 Es).
  - exfalso. exact (letter_not_underscore b1 t2 (Ok1 _ _ I1) Es).
  - exfalso. apply (converted_not_ok (r_conv x1) b1); [eauto|]. rewrite Es. eauto.
  - assert (b1 = b2) by (apply (converted_inj (r_conv x1) (r_conv x2)); [apply (Ok1 _ _ I1)|apply (Ok1 _ _ I2)|exact Es]).
    subst b2. now rewrite (NoDup_snd_fun _ Nd x1 x2 b1 I1 I2).
  - exfalso. apply (converted_not_ok (r_conv x1) b1); [eauto|]. rewrite Es. apply Uv.
  - exfalso. exact (converted_not_underscore (r_conv x1) b1 t2 (Ok1 _ _ I1) Es).
  - exfalso. exact (NUv _ _ m1 I2 (eq_sym Es)).
  - exfalso. apply (converted_not_ok (r_conv x2) b2); [eauto|]. rewrite <- Es. apply Uv.
  - assert (Ku : In (lit "uv") made_kinds) by (cbn; tauto). destruct (eq_inj _ _ _ _ Ku Ku Es) as [_ Em]. subst m2.
    now rewrite (NoDup_snd_fun _ (uvs_NoDup ls n) x1 x2 m1 I1 I2).
  - exfalso. exact (letter_not_underscore _ t2 (Uv m1) Es).
  - exfalso. exact (letter_not_underscore b2 t1 (Ok1 _ _ I2) (eq_sym Es)).
  - exfalso. exact (converted_not_underscore (r_conv x2) b2 t1 (Ok1 _ _ I2) (eq_sym Es)).
  - exfalso. exact (letter_not_underscore _ t1 (Uv m2) (eq_sym Es)).
  - now rewrite Es.
Qed.
End V.
