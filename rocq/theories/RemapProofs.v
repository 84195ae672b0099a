From Coq Require Import Ascii String List Bool Arith NArith ZArith Reals Lia Lra.
From Verif Require Import PyBase PyBaseFacts PyValues MultiLangModel DotDictModel DotDictProofs XmlModel CommentSpec TextFacts RemapModel RemapSpec.
Import ListNotations.
Local Open Scope R_scope.

Lemma bind_Ok {A B} (r : result A) (f : A -> result B) b : bind r f = Ok b -> exists a, r = Ok a /\ f a = Ok b.
Proof. destruct r as [a|]; [|discriminate]. cbn [bind]. eauto. Qed.
Ltac inv_bind H := let a := fresh "a" in let Ha := fresh "Ha" in apply bind_Ok in H; destruct H as (a & Ha & H).

(** ** place_index *)
Lemma has_key_iff k (d : list (pystr * pyval)) : has_key k d = true <-> in_dict k d.
Proof.
  unfold has_key, in_dict. destruct (getf k d) eqn:E.
  - split; [|reflexivity]. intros _. apply getf_In in E. apply in_map_iff. exists (k, p). now split.
  - split; [discriminate|]. intros H. apply getf_None in E. contradiction.
Qed.
Definition place_value (w : pyval) : result pyval :=
  match w with
  | VDict _ => place_index w
  | VList l => bind (mapM place_index l) (fun l' => Ok (VList l'))
  | _ => Ok w
  end.
Fixpoint place_fields (d : list (pystr * pyval)) : result (list (pystr * pyval)) :=
  match d with
  | [] => Ok []
  | (k, w) :: d' => bind (place_value w) (fun w' => bind (place_fields d') (fun d'' => Ok ((k, w') :: d'')))
  end.
Lemma place_dict d : place_index (VDict d) =
  if has_key klang d then Ok (VDict (putf kindex (VInt 1) d)) else bind (place_fields d) (fun d' => Ok (VDict d')).
Proof.
  cbn [place_index]. destruct (has_key klang d); [reflexivity|]. f_equal.
  induction d as [|[k w] d IH]; [reflexivity|]. cbn [place_fields]. rewrite <- IH. f_equal.
  unfold place_value. destruct w; try reflexivity. f_equal.
  induction l as [|f l IHl]; [reflexivity|]. cbn [mapM]. now rewrite <- IHl.
Qed.

(** size, for induction through both kinds of nesting *)
Fixpoint vsize (v : pyval) : nat :=
  match v with
  | VDict d => S ((fix go (d : list (pystr * pyval)) := match d with [] => 0%nat | (_, w) :: d' => (vsize w + go d')%nat end) d)
  | VList l => S ((fix go (l : list pyval) := match l with [] => 0%nat | w :: l' => (vsize w + go l')%nat end) l)
  | _ => 1%nat
  end.
Lemma vsize_dict k w d : In (k, w) d -> (vsize w < vsize (VDict d))%nat.
Proof.
  intros H. cbn [vsize]. induction d as [|[k' w'] d IH]; [destruct H|]. destruct H as [[= _ ->] | H]; [lia|].
  specialize (IH H). lia.
Qed.
Lemma vsize_list v l : In v l -> (vsize v < vsize (VList l))%nat.
Proof.
  intros H. cbn [vsize]. induction l as [|w l IH]; [destruct H|]. destruct H as [-> | H]; [lia|]. specialize (IH H). lia.
Qed.

Lemma place_sound n : forall v v', (vsize v <= n)%nat -> place_index v = Ok v' -> numbered v v'.
Proof.
  induction n as [|n IH]; intros v v' S E; [destruct v; cbn in S; lia|].
  destruct v as [| | | | | | |d|]; try discriminate. rewrite place_dict in E.
  destruct (has_key klang d) eqn:K.
  - injection E as <-. constructor. now apply has_key_iff.
  - assert (K' : ~ in_dict (lit "@lang") d) by (intros H; apply has_key_iff in H; unfold klang in K; congruence).
    inv_bind E. injection E as <-. constructor; [exact K'|]. clear K K'.
    assert (S' : forall k w, In (k, w) d -> (vsize w <= n)%nat) by (intros k w H; apply vsize_dict in H; lia). clear S.
    revert a Ha. induction d as [|[k w] d IHd]; cbn [place_fields]; intros a Ha; [injection Ha as <-; constructor|].
    inv_bind Ha. inv_bind Ha. injection Ha as <-.
    assert (D : numbered_fields d a1) by (apply IHd; [intros j x Hj; apply (S' j x); now right|assumption]).
    assert (Sw : (vsize w <= n)%nat) by (apply (S' k w); now left).
    unfold place_value in Ha0. destruct w as [| | | | |l| |e|];
      try (injection Ha0 as <-; apply nf_other; [discriminate|discriminate|exact D]).
    + inv_bind Ha0. injection Ha0 as <-. apply nf_list; [|exact D].
      assert (Sl : forall v, In v l -> (vsize v <= n)%nat) by (intros v Hv; apply vsize_list in Hv; lia). clear Sw S'.
      revert a Ha. induction l as [|f l IHl]; cbn [mapM]; intros a Ha; [injection Ha as <-; constructor|].
      inv_bind Ha. inv_bind Ha. injection Ha as <-. constructor.
      * apply IH; [apply Sl; now left|assumption].
      * apply IHl; [intros v Hv; apply Sl; now right|assumption].
    + apply nf_dict; [now apply IH|exact D].
Qed.
Lemma place_total n : forall d, (vsize (VDict d) <= n)%nat -> ~ plain_in_list (VDict d) -> exists v', place_index (VDict d) = Ok v'.
Proof.
  induction n as [|n IH]; intros d S P; [cbn in S; lia|]. rewrite place_dict. destruct (has_key klang d) eqn:K; [eauto|].
  assert (K' : ~ in_dict (lit "@lang") d) by (intros H; apply has_key_iff in H; unfold klang in K; congruence).
  assert (G : forall d', incl d' d -> exists r, place_fields d' = Ok r).
  { induction d' as [|[k w] d' IHd]; intros I; cbn [place_fields]; [eauto|].
    assert (W : In (k, w) d) by (apply I; now left). destruct IHd as [r Er]; [intros x Hx; apply I; now right|].
    assert (H : exists w', place_value w = Ok w').
    { assert (Sw := vsize_dict _ _ _ W). unfold place_value. destruct w as [| | | | |l| |e|]; eauto.
      - assert (L : exists l', mapM place_index l = Ok l').
        { assert (IL : forall l0, incl l0 l -> exists l', mapM place_index l0 = Ok l').
          { induction l0 as [|f l0 IHl]; intros Il; cbn [mapM]; [eauto|].
            assert (F : In f l) by (apply Il; now left). destruct IHl as [l' El]; [intros x Hx; apply Il; now right|].
            assert (exists f', place_index f = Ok f') as [f' Ef].
            { assert (Sf := vsize_list _ _ F). destruct f as [| | | | | | |e|];
                try (exfalso; apply P; eapply pl_here; [exact K'|exact W|exact F|discriminate]).
              apply IH; [lia|]. intros Q. apply P. eapply pl_list; [exact K'|exact W|exact F|exact Q]. }
            rewrite Ef, El. cbn [bind]. eauto. }
          apply IL, incl_refl. }
        destruct L as [l' ->]. cbn [bind]. eauto.
      - apply IH; [lia|]. intros Q. apply P. eapply pl_dict; [exact K'|exact W|exact Q]. }
    destruct H as [w' ->]. rewrite Er. cbn [bind]. eauto. }
  destruct (G d (incl_refl d)) as [r ->]. cbn [bind]. eauto.
Qed.
Lemma place_fails v : plain_in_list v -> exists e, place_index v = Err e.
Proof.
  assert (M : forall l v e, In v l -> place_index v = Err e -> exists e', mapM place_index l = Err e').
  { induction l as [|f l IH]; intros w e H0 E; [destruct H0|]; destruct H0 as [-> | H]; cbn [mapM].
    - rewrite E. cbn [bind]. eauto.
    - destruct (place_index f) as [f'|e1]; cbn [bind]; [|eauto]. destruct (IH w e H E) as [e' ->]. cbn [bind]. eauto. }
  assert (G : forall d k w e, In (k, w) d -> place_value w = Err e -> exists e', place_fields d = Err e').
  { induction d as [|[j x] d IH]; intros k w e H0 E; [destruct H0|]; destruct H0 as [E0 | H]; cbn [place_fields].
    - injection E0 as -> ->. rewrite E. cbn [bind]. eauto.
    - destruct (place_value x) as [x'|e1]; cbn [bind]; [|eauto]. destruct (IH k w e H E) as [e' ->]. cbn [bind]. eauto. }
  assert (N : forall d, ~ in_dict (lit "@lang") d -> has_key klang d = false).
  { intros d H. destruct (has_key klang d) eqn:E; [|reflexivity]. apply has_key_iff in E. contradiction. }
  intros P. induction P as [d k l v K I J D | d k w K I P IH | d k l v K I J P IH].
  - assert (exists e, place_index v = Err e) as [e E] by (destruct v; try (cbn [place_index]; eauto); exfalso; now apply (D d0)).
    destruct (M l v e J E) as [e' E']. destruct (G d k (VList l) e' I) as [e2 E2]; [cbn [place_value]; now rewrite E'|].
    rewrite place_dict, (N d K), E2. cbn [bind]. eauto.
  - destruct IH as [e E]. destruct (G d k (VDict w) e I) as [e2 E2]; [exact E|]. rewrite place_dict, (N d K), E2. cbn [bind]. eauto.
  - destruct IH as [e E]. destruct (M l v e J E) as [e' E']. destruct (G d k (VList l) e' I) as [e2 E2]; [cbn [place_value]; now rewrite E'|].
    rewrite place_dict, (N d K), E2. cbn [bind]. eauto.
Qed.

(** ** units *)
Lemma scan_plain kind mean ref l : scan_units None kind mean ref l =
  (map (fun e => (kind, (ue_name e, mean))) (filter (fun e => str_eqb (ue_id e) ref) l), true).
Proof.
  induction l as [|e l IH]; [reflexivity|]. cbn [scan_units filter]. rewrite IH. destruct (str_eqb (ue_id e) ref); reflexivity.
Qed.
Lemma group_plain g u kind mean : good_group g u -> group_units None kind mean g = Ok [(kind, (u, mean))].
Proof.
  intros (N & L & F). unfold group_units. rewrite N. destruct (ug_units g) as [|e [|e' l]] eqn:U; cbn [List.length] in L; try lia.
  rewrite scan_plain. f_equal. rewrite <- (map_map ue_name (fun n => (kind, (n, mean)))). now rewrite F.
Qed.
Lemma prop_plain main l us : Forall2 (fun p u => p_ns p <> NsNone /\ exists g, p_group p = Some g /\ good_group g u) l us ->
  forall found, prop_units None main found l =
    Ok (found ++ map (fun pu => (if str_eqb (p_id (fst pu)) main then RMain else RSec, (snd pu, p_mean (fst pu)))) (combine l us)).
Proof.
  induction 1 as [|p u l us (N & g & G & Q) F IH]; intros found; cbn [prop_units combine map]; [now rewrite app_nil_r|].
  rewrite G. destruct (p_ns p); [| |congruence]; (rewrite (group_plain g u) by exact Q; cbn [bind];
    destruct (found ++ [(if str_eqb (p_id p) main then RMain else RSec, (u, p_mean p))]) eqn:E; [destruct found; discriminate|];
    rewrite <- E, IH, <- app_assoc; reflexivity).
Qed.

(** ** variables *)
Lemma change_first_names n m g l l' : (forall v v', g v = Ok v' -> v_name v' = m) -> change_first n g l = Ok l' ->
  In n (map v_name l) /\ In m (map v_name l') /\ (forall k, k <> n -> In k (map v_name l) -> In k (map v_name l')).
Proof.
  intros G. revert l'. induction l as [|v l IH]; intros l'; cbn [change_first]; [discriminate|].
  destruct (str_eqb (v_name v) n) eqn:E.
  - apply str_eqb_eq in E. intros H. inv_bind H. injection H as <-. cbn [map In]. split; [now left|]. split; [left; eauto|].
    intros k Hk [H | H]; [congruence|now right].
  - apply str_eqb_neq in E. intros H. inv_bind H. injection H as <-. destruct (IH _ Ha) as (I1 & I2 & I3). cbn [map In].
    split; [now right|]. split; [now right|]. intros k Hk [H | H]; [now left|right; auto].
Qed.
Lemma change_first_others n g l l' v : change_first n g l = Ok l' -> v_name v <> n -> In v l -> In v l'.
Proof.
  revert l'. induction l as [|w l IH]; intros l'; cbn [change_first]; [discriminate|]. destruct (str_eqb (v_name w) n) eqn:E.
  - apply str_eqb_eq in E. intros H N. inv_bind H. injection H as <-. intros [-> | I]; [congruence|now right].
  - intros H N. inv_bind H. injection H as <-. intros [-> | I]; [now left|right; eauto].
Qed.
Lemma change_first_gone n m g l l' : (forall v v', g v = Ok v' -> v_name v' = m) -> m <> n -> NoDup (map v_name l) ->
  change_first n g l = Ok l' -> ~ In n (map v_name l').
Proof.
  intros G M. revert l'. induction l as [|v l IH]; intros l'; cbn [change_first map]; [discriminate|]. intros N.
  inversion N as [|? ? Hv Nl]; subst. destruct (str_eqb (v_name v) n) eqn:E.
  - apply str_eqb_eq in E. intros H. inv_bind H. injection H as <-. cbn [map In]. intros [H | H]; [rewrite (G _ _ Ha) in H; congruence|].
    subst n. contradiction.
  - apply str_eqb_neq in E. intros H. inv_bind H. injection H as <-. cbn [map In]. intros [H | H]; [congruence|]. now apply (IH _ Nl Ha).
Qed.
Lemma change_first_absent n g l : ~ In n (map v_name l) -> change_first n g l = Err IndexError.
Proof.
  induction l as [|v l IH]; cbn [map change_first]; [reflexivity|]. intros H. destruct (str_eqb (v_name v) n) eqn:E.
  - apply str_eqb_eq in E. exfalso. apply H. now left.
  - rewrite IH; [reflexivity|]. intros I. apply H. now right.
Qed.
Lemma change_first_new n g l l' : change_first n g l = Ok l' -> exists v v', In v l /\ v_name v = n /\ g v = Ok v' /\ In v' l'.
Proof.
  revert l'. induction l as [|w l IH]; intros l'; cbn [change_first]; [discriminate|]. destruct (str_eqb (v_name w) n) eqn:E.
  - apply str_eqb_eq in E. intros H. inv_bind H. injection H as <-. exists w, a. split; [now left|]. split; [exact E|]. split; [exact Ha|now left].
  - intros H. inv_bind H. injection H as <-. destruct (IH _ Ha) as (v & v' & I1 & I2 & I3 & I4). exists v, v'.
    split; [now right|]. split; [exact I2|]. split; [exact I3|now right].
Qed.

Definition ref_of (x : exch) : option pystr := match x_var x with Some (c :: s) => Some (c :: s) | _ => None end.
(** the effect of a step on the reference and the table *)
Definition var_step (x x' : exch) (vars vs : list mvar) : Prop :=
  match ref_of x with
  | None => ref_of x' = None /\ vs = vars
  | Some n => exists m, ref_of x' = Some m /\ may_become n m /\ (In n (map v_name vars) -> In m (map v_name vs)) /\
                        forall k, k <> n -> In k (map v_name vars) -> In k (map v_name vs)
  end.
Lemma var_step_same x x' vars : x_var x' = x_var x -> var_step x x' vars vars.
Proof.
  intros E. unfold var_step, ref_of. rewrite E. destruct (x_var x) as [[|c s]|]; try (split; reflexivity).
  eexists. split; [reflexivity|]. split; [constructor|]. auto.
Qed.
Lemma conv_nonnil n u v : n ++ lit "_from_" ++ u ++ lit "_to_" ++ v <> [].
Proof. intros E. apply app_eq_nil in E. destruct E as [_ E]. discriminate. Qed.
Lemma plain_nonnil n : n <> [] -> plain_name n <> [].
Proof.
  intros H E. apply H. rewrite <- (split_join (lit "temp_olca_param") n) by discriminate.
  unfold plain_name, replace in E. destruct (split (lit "temp_olca_param") n) as [|p l]; [reflexivity|].
  destruct l as [|q l]; [exact E|]. cbn [join] in E. apply app_eq_nil in E. destruct E as [_ E]. discriminate.
Qed.
Lemma get_var_step vars n u nu f am vs m : get_var vars n u nu f am = Ok (vs, m) ->
  m = plain_name n ++ lit "_from_" ++ u ++ lit "_to_" ++ nu /\
  (In m (map v_name vs)) /\ forall k, k <> n -> In k (map v_name vars) \/ k = conv_name u nu -> In k (map v_name vs).
Proof.
  unfold get_var. intros H. inv_bind H. injection H as <- <-.
  set (m := plain_name n ++ lit "_from_" ++ u ++ lit "_to_" ++ nu) in *.
  apply change_first_names with (m := m) in Ha.
  - destruct Ha as (_ & I2 & I3). split; [reflexivity|]. split; [exact I2|]. intros k Hk I. apply I3; [exact Hk|].
    rewrite map_app, in_app_iff. cbn [map In v_name]. intuition.
  - intros v v' H. inv_bind H. inv_bind H. now injection H as <-.
Qed.
Lemma rename_step vars n vs m : rename_var vars n = Ok (vs, m) ->
  m = plain_name n /\ In m (map v_name vs) /\ forall k, k <> n -> In k (map v_name vars) -> In k (map v_name vs).
Proof.
  unfold rename_var. intros H. inv_bind H. injection H as <- <-. apply change_first_names with (m := plain_name n) in Ha.
  - destruct Ha as (_ & I2 & I3). auto.
  - intros v v' H. now injection H as <-.
Qed.
Lemma var_opt_rename x x' vars vs o : var_opt (x_var x) vars (rename_var vars) = Ok (vs, o) -> x_var x' = o -> var_step x x' vars vs.
Proof.
  unfold var_step, ref_of, var_opt. destruct (x_var x) as [[|c s]|]; try (intros [= <- <-] ->; split; reflexivity).
  intros H E. inv_bind H. destruct a as [vs' m]. injection H as <- <-. apply rename_step in Ha. destruct Ha as (-> & I & K). rewrite E.
  assert (Q := plain_nonnil (c :: s) ltac:(discriminate)). destruct (plain_name (c :: s)) as [|d t] eqn:P; [congruence|].
  eexists. split; [reflexivity|]. split; [rewrite <- P; apply mb_plain|]. split; auto.
Qed.
Lemma converted_step olca_fp x vars u nu am f x' vs : converted olca_fp x vars u nu am f = Ok (x', vs) -> var_step x x' vars vs.
Proof.
  unfold converted. intros H. inv_bind H. inv_bind H. inv_bind H. destruct a1 as [vs' o]. injection H as <- <-.
  unfold var_step, ref_of. cbn [with_amount x_var]. unfold var_opt in Ha1. destruct (x_var x) as [[|c s]|]; try (injection Ha1 as <- <-; split; reflexivity).
  inv_bind Ha1. destruct a1 as [vs2 m]. injection Ha1 as <- <-. apply get_var_step in Ha2. destruct Ha2 as (-> & I & K).
  assert (Q := conv_nonnil (plain_name (c :: s)) u nu).
  destruct (plain_name (c :: s) ++ lit "_from_" ++ u ++ lit "_to_" ++ nu) as [|d t] eqn:P; [congruence|].
  eexists. split; [reflexivity|]. split; [rewrite <- P; apply mb_conv|]. split; auto.
Qed.
Lemma remap_step fp ofp mp isf df us vars x o : remap fp ofp mp isf df us vars x = Ok o -> var_step x (o_exch o) vars (o_vars o).
Proof.
  unfold remap. intros H. inv_bind H. inv_bind H. destruct a0 as [[amount unit] main_unit]. destruct (getf (x_flow x) mp) as [r|].
  - destruct (str_in (r_type r) no_match); [injection H as <-; now apply var_step_same|].
    inv_bind H. inv_bind H. cbv zeta in H. inv_bind H. inv_bind H. inv_bind H.
    destruct (str_eqb (r_target_unit r) unit); [inv_bind H|destruct (str_eqb (r_source_unit r) unit); [inv_bind H|
      destruct (getf (r_source_unit r) (u_sec us)); [inv_bind H|]]].
    + destruct a5 as [vs v]. injection H as <-. cbn [o_exch o_vars]. eapply var_opt_rename; [exact Ha6|reflexivity].
    + destruct a5 as [vs v]. injection H as <-. cbn [o_exch o_vars]. apply converted_step in Ha6. exact Ha6.
    + destruct a5 as [vs v]. injection H as <-. cbn [o_exch o_vars]. apply converted_step in Ha6. exact Ha6.
    + injection H as <-. now apply var_step_same.
  - inv_bind H. destruct a0 as [vs v]. cbv zeta in H. inv_bind H. inv_bind H. inv_bind H. injection H as <-. cbn [o_exch o_vars].
    eapply var_opt_rename; [exact Ha1|reflexivity].
Qed.
Definition refs_of (l : list exch) : list pystr := flat_map (fun x => match ref_of x with Some n => [n] | None => [] end) l.
Lemma remap_all_refs fp ofp mp isf df l : forall vars xs vs ss,
  remap_all fp ofp mp isf df vars l = Ok (xs, vs, ss) ->
  (forall n, In n (refs_of (map snd l)) -> In n (map v_name vars)) -> NoDup (refs_of (map snd l)) -> apart (refs_of (map snd l)) ->
  (forall k, In k (map v_name vars) -> ~ In k (refs_of (map snd l)) -> In k (map v_name vs)) /\
  (forall m, In m (refs_of xs) -> In m (map v_name vs)).
Proof.
  induction l as [|[us x] l IH]; intros vars xs vs ss; cbn [remap_all map snd].
  - intros [= <- <- <-] _ _ _. split; [auto|intros m []].
  - intros H I N A. inv_bind H. inv_bind H. destruct a0 as [[xs' vs'] ss']. injection H as <- <- <-.
    apply remap_step in Ha. unfold var_step in Ha. unfold refs_of in I, N, A |- *. cbn [flat_map] in I, N, A |- *.
    fold (refs_of (map snd l)) in I, N, A |- *. fold (refs_of xs').
    destruct (ref_of x) as [n|] eqn:R.
    + cbn [app] in I, N, A |- *. inversion N as [|? ? Hn Nl]; subst. destruct Ha as (m & Em & B & I1 & I2). rewrite Em. cbn [app].
      assert (Hm : ~ In m (refs_of (map snd l))).
      { intros J. apply Hn. rewrite (A n m m); [exact J|now left|now right|exact B|reflexivity]. }
      destruct (IH _ _ _ _ Ha0) as [P Q].
      * intros k K. apply I2; [intros ->; contradiction|]. apply I. now right.
      * exact Nl.
      * intros k1 k2 o I1a I2a. apply A; now right.
      * split.
        -- intros k K J. apply P; [apply I2; [intros ->; apply J; now left|exact K]|]. intros F. apply J. now right.
        -- intros k [<- | K]; [|auto]. apply P; [|exact Hm]. apply I1, I. now left.
    + cbn [app] in I, N, A |- *. destruct Ha as [Em Ev]. rewrite Em. cbn [app]. rewrite Ev in Ha0. apply (IH _ _ _ _ Ha0); assumption.
Qed.

(** ** addresses *)
Lemma split_dir c : forall d acc n, ~ In c n -> last (split_aux [c] 0 acc (d ++ c :: n)) [] = n.
Proof.
  assert (L : forall n acc, ~ In c n -> split_aux [c] 0 acc n = [rev acc ++ n]).
  { induction n as [|e n IH]; intros acc N; cbn [split_aux]; [now rewrite app_nil_r|]. cbn [prefixb]. destruct (N.eqb_spec c e) as [-> | Q]; [exfalso; apply N; now left|].
    cbn [andb]. rewrite IH by (intros I; apply N; now right). cbn [rev]. now rewrite <- app_assoc. }
  induction d as [|e d IH]; intros acc n N; cbn [app split_aux prefixb].
  - rewrite N.eqb_refl. cbn [andb List.length Nat.sub]. rewrite L by exact N. reflexivity.
  - destruct (N.eqb_spec c e) as [-> | Q]; cbn [andb]; [|now apply IH]. cbn [List.length Nat.sub]. cbn [last].
    specialize (IH [] n N). destruct (split_aux [e] 0 [] (d ++ e :: n)) eqn:E; [now apply split_aux_nonnil in E|]. exact IH.
Qed.
Lemma base_dir d n : bare n -> base_name (d ++ ch "/" :: n) = n.
Proof. intros N. unfold base_name, split. change (lit "/") with [ch "/"]. now apply split_dir. Qed.
Lemma base_flows n : bare n -> base_name (lit "flows/" ++ n) = n.
Proof. intros N. change (lit "flows/" ++ n) with (lit "flows" ++ ch "/" :: n). now apply base_dir. Qed.
Lemma place_flows n : bare n -> replace (lit "../") [] (lit "../" ++ lit "flows/" ++ n) = lit "flows/" ++ n.
Proof.
  intros N. rewrite replace_hit by discriminate. cbn [app]. change (lit "flows/") with (map ch ["f";"l";"o";"w";"s";"/"]%char).
  cbn [map app]. rewrite !replace_miss by (cbn [prefixb lit]; reflexivity). do 6 f_equal.
  apply replace_absent; [discriminate|]. intros (a & b & ->). apply N. apply in_or_app. right. apply in_or_app. left. right. right. now left.
Qed.
Lemma bare_app a b : bare a -> bare b -> bare (a ++ b).
Proof. intros A B I. apply in_app_or in I. destruct I; auto. Qed.
Lemma bare_ext : bare (lit ".xml").
Proof. intros I. repeat (destruct I as [I | I]; [discriminate|]). destruct I. Qed.
Lemma bare_us : bare (lit "_").
Proof. intros I. repeat (destruct I as [I | I]; [discriminate|]). destruct I. Qed.
Lemma get_uri_address isf x u : x_uri x = Some u -> u <> [] -> isf (replace (lit "../") [] u) = true -> get_uri isf x = Ok (replace (lit "../") [] u).
Proof.
  intros U N F. unfold get_uri, flow_places. rewrite U. destruct u as [|c u]; [congruence|]. cbn [app find]. now rewrite F.
Qed.
