(** Exchanges: lemmas. *)
From Coq Require Import Ascii String List Bool Arith NArith ZArith Lia.
From Verif Require Import PyBase PyBaseFacts PyValues DotDictModel DotDictProofs ConverterProofs FlowModel FlowSpec.
Import ListNotations.

(** ** numbers *)
Lemma is_reference_spec x : is_reference x = true <-> reference_product x.
Proof.
  unfold is_reference, reference_product. destruct (fi_dir x); split; intro H.
  - discriminate.
  - destruct H. discriminate.
  - now apply str_eqb_eq in H.
  - destruct H as [_ ->]. apply str_eqb_refl.
Qed.

Lemma number_flows_ns l : forall st, fst (number_flows st l) = seq (n_counter st) (List.length l).
Proof.
  induction l as [|x l IH]; intro st; cbn; [reflexivity|].
  specialize (IH (snd (number_flow st x))). cbn in IH.
  unfold number_flow in *. cbn in IH.
  destruct (is_reference x);
    [destruct (number_flows {| n_counter := S (n_counter st); n_refs := n_refs st ++ [n_counter st];
          n_unit := match n_unit st with Some _ => None | None => Some (fi_text x) end |} l)
    |destruct (number_flows {| n_counter := S (n_counter st); n_refs := n_refs st; n_unit := n_unit st |} l)];
    cbn in *; now subst.
Qed.
Lemma number_flows_cons st x l :
  number_flows st (x :: l) =
  (n_counter st :: fst (number_flows (snd (number_flow st x)) l), snd (number_flows (snd (number_flow st x)) l)).
Proof.
  cbn [number_flows]. unfold number_flow. cbn [snd].
  match goal with |- context [number_flows ?a l] => destruct (number_flows a l) end. reflexivity.
Qed.
Lemma number_flows_refs l : forall st,
  n_refs (snd (number_flows st l)) =
  n_refs st ++ map fst (filter (fun p => is_reference (snd p)) (combine (seq (n_counter st) (List.length l)) l)).
Proof.
  induction l as [|x l IH]; intro st; [cbn; now rewrite app_nil_r|].
  rewrite number_flows_cons. cbn [snd]. rewrite IH. unfold number_flow. cbn.
  destruct (is_reference x); cbn; [now rewrite <- app_assoc|reflexivity].
Qed.
Lemma seq_nth_error n : forall s i, i < n -> nth_error (seq s n) i = Some (s + i).
Proof.
  induction n as [|n IH]; intros s i H; [lia|]. destruct i; cbn; [f_equal; lia|].
  rewrite IH; [f_equal; lia|lia].
Qed.
Lemma in_refs l : forall s k,
  In k (map fst (filter (fun p => is_reference (snd p)) (combine (seq s (List.length l)) l))) <->
  exists i x, nth_error l i = Some x /\ reference_product x /\ k = s + i.
Proof.
  induction l as [|x l IH]; intros s k; cbn.
  - split; [tauto|]. intros (i & y & H & _). now destruct i.
  - assert (T : In k (map fst (filter (fun p => is_reference (snd p)) (combine (seq (S s) (List.length l)) l))) <->
              exists i y, nth_error (x :: l) (S i) = Some y /\ reference_product y /\ k = s + S i).
    { rewrite IH. split; intros (i & y & H1 & H2 & H3); exists i, y; (split; [exact H1|split; [exact H2|lia]]). }
    destruct (is_reference x) eqn:R; cbn; [split; intro H|split; intro H].
    + destruct H as [<-|H].
      * exists 0, x. split; [reflexivity|split; [now apply is_reference_spec|lia]].
      * apply T in H as (i & y & H). now exists (S i), y.
    + destruct H as (i & y & H1 & H2 & H3). destruct i; [left; lia|]. right. apply T. now exists i, y.
    + apply T in H as (i & y & H). now exists (S i), y.
    + destruct H as (i & y & H1 & H2 & H3). destruct i.
      * cbn in H1. injection H1 as <-. apply is_reference_spec in H2. congruence.
      * apply T. now exists i, y.
Qed.

(** ** functional unit *)
Lemma count_refs_cons x l : count_refs (x :: l) = if is_reference x then S (count_refs l) else count_refs l.
Proof. unfold is_reference. cbn. destruct (fi_dir x); [reflexivity|]. now destruct (str_eqb (fi_group x) (lit "0")). Qed.
Lemma last_text_cons x l d : last_text (x :: l) d = last_text l (if is_reference x then Some (fi_text x) else d).
Proof. unfold is_reference. cbn. destruct (fi_dir x); [reflexivity|]. now destruct (str_eqb (fi_group x) (lit "0")). Qed.
Lemma last_text_none l d : count_refs l = 0 -> last_text l d = d.
Proof.
  revert d; induction l as [|x l IH]; intros d H; [reflexivity|].
  rewrite count_refs_cons in H. rewrite last_text_cons. destruct (is_reference x); [discriminate|]. auto.
Qed.
Lemma number_flows_unit l : forall st d,
  n_unit (snd (number_flows st l)) =
  match n_unit st with
  | None => if Nat.even (count_refs l) then None else last_text l d
  | Some t => if Nat.even (count_refs l) then (if Nat.eqb (count_refs l) 0 then Some t else last_text l d) else None
  end.
Proof.
  induction l as [|x l IH]; intros st d; [cbn; now destruct (n_unit st)|].
  rewrite number_flows_cons. cbn [snd]. rewrite count_refs_cons, last_text_cons.
  rewrite (IH _ (if is_reference x then Some (fi_text x) else d)). unfold number_flow. cbn [snd].
  destruct (is_reference x) eqn:R; cbn [n_unit].
  - rewrite Nat.even_succ, <- Nat.negb_even. destruct (n_unit st) as [t|].
    + destruct (Nat.even (count_refs l)); reflexivity.
    + destruct (Nat.even (count_refs l)) eqn:Ev; cbn [negb]; [|reflexivity].
      destruct (Nat.eqb_spec (count_refs l) 0) as [Z|Z]; [|reflexivity]. now rewrite (last_text_none l _ Z).
  - reflexivity.
Qed.

(** ** versions *)
Section Versions.
  Context {P : Type} (eqb : P -> P -> bool) (Heq : decides eqb).

  Lemma find_version_some fp l v : find_version eqb fp l = Some v -> In (v, fp) l.
  Proof.
    induction l as [|[w q] l IH]; cbn; [discriminate|]. destruct (eqb fp q) eqn:E; intro H.
    - injection H as <-. apply Heq in E as <-. now left.
    - right. auto.
  Qed.
  Lemma find_version_none fp l : find_version eqb fp l = None -> ~ In fp (map snd l).
  Proof.
    induction l as [|[w q] l IH]; cbn; [tauto|]. destruct (eqb fp q) eqn:E; intro H; [discriminate|].
    intros [<-|I]; [|now apply IH]. assert (X : eqb q q = true) by now apply Heq. congruence.
  Qed.
  Lemma max_version_ge (l : list (nat * P)) v fp : In (v, fp) l -> v <= max_version l.
  Proof.
    unfold max_version. induction l as [|[w q] l IH]; cbn; [tauto|]. intros [E|I].
    - injection E as <- <-. lia.
    - specialize (IH I). lia.
  Qed.

  Lemma file_name_eqb_spec a b : file_name_eqb a b = true <-> a = b.
  Proof.
    destruct a as [a n], b as [b m]. unfold file_name_eqb. cbn. rewrite andb_true_iff, Nat.eqb_eq.
    split; [intros [E <-]; apply str_eqb_eq in E; now subst|]. intros E. injection E as <- <-. split; [apply str_eqb_refl|reflexivity].
  Qed.
  Lemma file_content_app n m (fp : P) d :
    file_content n (d ++ [(m, fp)]) = if file_name_eqb n m then Some fp else file_content n d.
  Proof.
    induction d as [|[k q] d IH]; cbn; [now destruct (file_name_eqb n m)|].
    rewrite IH. destruct (file_name_eqb n m); [reflexivity|]. reflexivity.
  Qed.

  Definition entries (st : versions P) fid : list (nat * P) := match getf fid st with Some l => l | None => [] end.
  Definition Inv (st : versions P) (d : folder P) : Prop :=
    forall fid, NoDup (map fst (entries st fid)) /\ NoDup (map snd (entries st fid)) /\
                (forall v fp, In (v, fp) (entries st fid) -> file_content (fid, v) d = Some fp).
  Lemma Inv_nil d : Inv [] d.
  Proof. intro fid. cbn. repeat split; try constructor. intros ? ? []. Qed.

  Lemma NoDup_snoc {A} (l : list A) a : NoDup l -> ~ In a l -> NoDup (l ++ [a]).
  Proof.
    intros N H. induction l as [|b l IH]; cbn; [constructor; [tauto|constructor]|].
    inversion N; subst. constructor.
    - rewrite in_app_iff. cbn. intros [I|[<-|[]]]; [tauto|]. apply H. now left.
    - apply IH; auto. intro I. apply H. now right.
  Qed.

  (** one use: the table only grows, the result is in it, and the invariant is kept *)
  Lemma use_flow_ok st d fid fp v st' new :
    Inv st d -> use_flow eqb st fid fp = (v, st', new) ->
    let d' := if new then d ++ [((fid, v), fp)] else d in
    Inv st' d' /\ In (v, fp) (entries st' fid) /\ (forall g x, In x (entries st g) -> In x (entries st' g)).
  Proof.
    intros I E. cbn zeta.
    assert (G : forall l w, entries st fid = l -> ~ In w (map fst l) -> ~ In fp (map snd l) ->
              let st1 := putf fid (l ++ [(w, fp)]) st in
              Inv st1 (d ++ [((fid, w), fp)]) /\ In (w, fp) (entries st1 fid) /\ (forall g x, In x (entries st g) -> In x (entries st1 g))).
    { intros l w El Hw Hfp st1.
      assert (Hs : entries st1 fid = l ++ [(w, fp)]) by (unfold entries, st1; now rewrite getf_putf).
      assert (Ho : forall g, g <> fid -> entries st1 g = entries st g)
        by (intros g Hg; unfold entries, st1; now rewrite getf_putf_ne).
      split; [|split].
      - intro g. destruct (list_eq_dec N.eq_dec g fid) as [->|Hg].
        + rewrite Hs. specialize (I fid) as (N1 & N2 & F). rewrite El in *.
          rewrite !map_app. cbn. split; [now apply NoDup_snoc|]. split; [now apply NoDup_snoc|].
          intros u q. rewrite in_app_iff. cbn. rewrite file_content_app.
          intros [J|[J|[]]].
          * destruct (file_name_eqb (fid, u) (fid, w)) eqn:X; [|now apply F].
            apply file_name_eqb_spec in X. injection X as ->. exfalso. apply Hw. now apply (in_map fst) in J.
          * injection J as <- <-. replace (file_name_eqb (fid, w) (fid, w)) with true; [reflexivity|].
            symmetry. now apply file_name_eqb_spec.
        + rewrite (Ho g Hg). specialize (I g) as (N1 & N2 & F). repeat split; auto. intros u q J.
          rewrite file_content_app. destruct (file_name_eqb (g, u) (fid, w)) eqn:X; [|now apply F].
          apply file_name_eqb_spec in X. injection X as X _. now elim Hg.
      - rewrite Hs, in_app_iff. right. now left.
      - intros g x J. destruct (list_eq_dec N.eq_dec g fid) as [->|Hg].
        + rewrite Hs, in_app_iff. left. now rewrite <- El.
        + now rewrite (Ho g Hg). }
    unfold use_flow in E. destruct (getf fid st) as [l|] eqn:Ef.
    - assert (El : entries st fid = l) by (unfold entries; now rewrite Ef).
      destruct (find_version eqb fp l) as [w|] eqn:Fv.
      + injection E as <- <- <-. split; [exact I|]. split; [|auto]. rewrite El. now apply find_version_some.
      + injection E as <- <- <-. apply G; [exact El| |now apply find_version_none].
        intro J. apply in_map_iff in J as ([u q] & Eu & J). cbn in Eu. apply max_version_ge in J. lia.
    - injection E as <- <- <-. apply (G [] 1); [unfold entries; now rewrite Ef|tauto|tauto].
  Qed.

  Lemma use_flows_ok l : forall st d vs st' d',
    Inv st d -> use_flows eqb st d l = (vs, st', d') ->
    Inv st' d' /\ List.length vs = List.length l /\
    (forall i fid fp v, nth_error l i = Some (fid, fp) -> nth_error vs i = Some v -> In (v, fp) (entries st' fid)) /\
    (forall g x, In x (entries st g) -> In x (entries st' g)).
  Proof.
    induction l as [|[fid fp] l IH]; intros st d vs st' d' I E; cbn in E.
    - injection E as <- <- <-. repeat split; try apply I; auto. intros i ? ? ? H. now destruct i.
    - destruct (use_flow eqb st fid fp) as [[v st1] new] eqn:U.
      destruct (use_flows eqb st1 _ l) as [[vs2 st2] d2] eqn:R. injection E as <- <- <-.
      destruct (use_flow_ok _ _ _ _ _ _ _ I U) as (I1 & J1 & M1).
      destruct (IH _ _ _ _ _ I1 R) as (I2 & L2 & J2 & M2).
      split; [exact I2|]. split; [cbn; now rewrite L2|]. split; [|auto].
      intros i g gp w H1 H2. destruct i; cbn in *.
      + injection H1 as <- <-. injection H2 as <-. auto.
      + eauto.
  Qed.

  Lemma NoDup_fst_inj (l : list (nat * P)) v a b : NoDup (map fst l) -> In (v, a) l -> In (v, b) l -> a = b.
  Proof.
    induction l as [|[w q] l IH]; cbn; [tauto|]. intros N [E|I] [F|J]; inversion N; subst.
    - congruence.
    - injection E as -> ->. exfalso. apply H1. now apply (in_map fst) in J.
    - injection F as -> ->. exfalso. apply H1. now apply (in_map fst) in I.
    - auto.
  Qed.
  Lemma NoDup_snd_inj (l : list (nat * P)) v w a : NoDup (map snd l) -> In (v, a) l -> In (w, a) l -> v = w.
  Proof.
    induction l as [|[u q] l IH]; cbn; [tauto|]. intros N [E|I] [F|J]; inversion N; subst.
    - congruence.
    - injection E as -> ->. exfalso. apply H1. now apply (in_map snd) in J.
    - injection F as -> ->. exfalso. apply H1. now apply (in_map snd) in I.
    - auto.
  Qed.

  (** ** several files *)
  Definition consistent (c : pystr -> P) (uses : list (pystr * P)) : Prop := forall fid fp, In (fid, fp) uses -> fp = c fid.
  Definition table_of (c : pystr -> P) (st : versions P) : Prop := forall fid l, getf fid st = Some l -> l = [(1, c fid)].
  Definition folder_ok (c : pystr -> P) (d : folder P) : Prop := forall fid fp, file_content (fid, 1) d = Some fp -> fp = c fid.
  Lemma use_flows_consistent c l : forall st d vs st' d',
    consistent c l -> table_of c st -> use_flows eqb st d l = (vs, st', d') ->
    vs = repeat 1 (List.length l) /\ (folder_ok c d -> folder_ok c d') /\
    (forall fid, file_content (fid, 1) d <> None -> file_content (fid, 1) d' <> None).
  Proof.
    induction l as [|[fid fp] l IH]; intros st d vs st' d' C T E; cbn in E.
    - injection E as <- <- <-. cbn. auto.
    - assert (Ep : fp = c fid) by (apply C; now left).
      assert (C' : consistent c l) by (intros g gp J; apply C; now right).
      destruct (use_flow eqb st fid fp) as [[v st1] new] eqn:U.
      destruct (use_flows eqb st1 _ l) as [[vs2 st2] d2] eqn:R. injection E as <- <- <-.
      assert (X : v = 1 /\ table_of c st1).
      { unfold use_flow in U. destruct (getf fid st) as [t|] eqn:Ef.
        - pose proof (T _ _ Ef) as ->. cbn in U. replace (eqb fp (c fid)) with true in U by (symmetry; now apply Heq).
          injection U as <- <- <-. auto.
        - injection U as <- <- <-. split; [reflexivity|]. intros g t Eg.
          destruct (list_eq_dec N.eq_dec g fid) as [->|Hg].
          + rewrite getf_putf in Eg. injection Eg as <-. now rewrite Ep.
          + rewrite getf_putf_ne in Eg by exact Hg. auto. }
      destruct X as [-> T1]. destruct (IH _ _ _ _ _ C' T1 R) as (-> & F & K). split; [reflexivity|].
      split.
      + intro Fd. apply F. destruct new; [|exact Fd]. intros g gp Hg. rewrite file_content_app in Hg.
        destruct (file_name_eqb (g, 1) (fid, 1)) eqn:X; [|now apply Fd].
        apply file_name_eqb_spec in X. injection X as ->. injection Hg as <-. exact Ep.
      + intros g Hg. apply K. destruct new; [|exact Hg]. rewrite file_content_app. now destruct (file_name_eqb (g, 1) (fid, 1)).
  Qed.
  Lemma use_files_consistent c fs : forall d vss d',
    Forall (consistent c) fs -> use_files eqb d fs = (vss, d') ->
    vss = map (fun f => repeat 1 (List.length f)) fs /\ (folder_ok c d -> folder_ok c d') /\
    (forall fid, file_content (fid, 1) d <> None -> file_content (fid, 1) d' <> None) /\
    (forall f fid fp, In f fs -> In (fid, fp) f -> file_content (fid, 1) d' <> None).
  Proof.
    induction fs as [|f fs IH]; intros d vss d' C E; cbn in E.
    - injection E as <- <-. cbn. repeat split; auto; intros ? ? ? [].
    - inversion C as [|? ? Cf Cs]; subst.
      destruct (use_flows eqb [] d f) as [[vs st] d1] eqn:U. destruct (use_files eqb d1 fs) as [r d2] eqn:R.
      injection E as <- <-.
      assert (T0 : table_of c []) by (intros ? ? X; discriminate X).
      destruct (use_flows_consistent _ _ _ _ _ _ _ Cf T0 U) as (-> & F1 & K1).
      destruct (IH _ _ _ Cs R) as (-> & F2 & K2 & J2).
      split; [reflexivity|]. split; [auto|]. split; [auto|].
      intros g fid fp [<-|Hg] J; [|now apply (J2 g fid fp)].
      apply K2. destruct (use_flows_ok _ _ _ _ _ _ (Inv_nil d) U) as (I & L & A & _).
      destruct (In_nth_error _ _ J) as (i & Hi).
      assert (Hv : nth_error (repeat 1 (List.length f)) i = Some 1).
      { rewrite nth_error_repeat; [reflexivity|]. apply nth_error_Some. congruence. }
      specialize (A _ _ _ _ Hi Hv). destruct (I fid) as (_ & _ & B). rewrite (B _ _ A). discriminate.
  Qed.
End Versions.

(** ** allocation *)
Lemma add_allocation_none c x m : allocation_property c x = None -> add_allocation c x m = m.
Proof.
  intro H. unfold add_allocation. rewrite H. induction (af_props x) as [|p l IH]; [reflexivity|exact IH].
Qed.
Lemma schema_no_property x (o : option pystr) : schema_flow x ->
  allocation_property match o with Some p => set_master_property p class_attrs0 | None => class_attrs0 end x = None.
Proof.
  intro H. unfold allocation_property.
  replace (getf (lit "@specificAllocationProperty") (af_attrs x)) with (@None pystr).
  - destruct o; reflexivity.
  - symmetry. apply (proj2 (getf_None _ _)). intro I. apply in_map_iff in I as ([k v] & E & J). apply (H _ _ J). exact E.
Qed.
Lemma allocation_table_empty l o : Forall schema_flow l ->
  allocation_table match o with Some p => set_master_property p class_attrs0 | None => class_attrs0 end l = [].
Proof.
  unfold allocation_table. intro H. set (m := @nil (pystr * Z)) at 2. change (@nil (pystr * Z)) with m at 1.
  clearbody m. revert m. induction H as [|x l Hx Hl IH]; intro m; [reflexivity|].
  cbn. rewrite add_allocation_none by now apply schema_no_property. apply IH.
Qed.

(** ** files *)
Lemma make_all_spec l : forall known written k w,
  make_all known written l = (k, w) ->
  (forall x, In x k <-> In x known \/ In x l) /\
  (forall x, In x w <-> In x written \/ (In x l /\ ~ In x known)) /\
  (NoDup written -> (forall x, In x written -> In x known) -> NoDup w).
Proof.
  induction l as [|y l IH]; intros known written k w E; cbn in E.
  - injection E as <- <-. cbn. repeat split; intuition.
  - unfold make_once in E. destruct (str_in y known) eqn:Y.
    + apply str_in_In in Y. destruct (IH _ _ _ _ E) as (A & B & C). repeat split.
      * rewrite A. cbn. intuition.
      * rewrite A. cbn. intros [H|[<-|H]]; auto.
      * rewrite B. cbn. intuition.
      * rewrite B. cbn. intros [H|[[<-|H] N]]; [auto|now elim N|auto].
      * exact C.
    + assert (N : ~ In y known) by (intro I; apply str_in_In in I; congruence).
      destruct (IH _ _ _ _ E) as (A & B & C). repeat split.
      * rewrite A, in_app_iff. cbn. intuition.
      * rewrite A, in_app_iff. cbn. intuition.
      * rewrite B, !in_app_iff. cbn. intros [[H|[<-|[]]]|[H1 H2]]; auto. right. split; [auto|]. intro. apply H2. auto.
      * rewrite B, !in_app_iff. cbn. intros [H|[[<-|H] N2]]; auto.
        destruct (list_eq_dec N.eq_dec y x) as [<-|D]; [left; right; now left|]. right. split; [exact H|]. intuition.
      * intros W S. apply C.
        -- apply NoDup_snoc; [exact W|]. intro I. apply N. now apply S.
        -- intros x. rewrite !in_app_iff. cbn. intuition.
Qed.
