(** Properties C15-C19 and C61-C64: schema-driven structures. *)
From Coq Require Import Ascii String List Bool Arith NArith ZArith Lia Sorting.Sorted Sorting.Permutation.
From Verif Require Import PyBase PyBaseFacts PyValues Regex ValidatorsModel MultiLangModel
  DotDictModel DotDictSpec DotDictProofs SchemaModel SchemaTables SchemaProofs.
Import ListNotations.

(** Evaluation of both sides without normalising the (large) schema tables in the types. *)
Ltac vmr := match goal with |- @eq ?A ?a ?b => exact (@eq_refl A b <: @eq A a b) end.
Lemma ok_some {A} (r : result A) : is_ok r = true -> exists a, r = Ok a.
Proof. destruct r; [eauto|discriminate]. Qed.

(** The structures of Lavoisier used in the examples. *)
Definition sample_env : env := {| is_word := fun _ => true; fromiso := fun _ => None; ignore := false |}.
Definition L : universe := lavoisier sample_env.
Definition num (z : Z) : arg L := AScalar L (SInt z).
Definition str (s : string) : arg L := AScalar L (SStr (lit s)).
Definition lognormal0 : dd L := DD L ECS2_Lognormal [].
Definition uncertainty0 : dd L := DD L ECS2_ECS2Uncertainty [].

(** ** C15 *)
Theorem C15_only_schema_fields :
  forall (U : universe) d x k,
    produced U d -> part U d x -> In k (map fst (flds U x)) -> in_schema U (cls U x) k.
Proof.
  intros U d x k H P Hin. destruct (produced_part U d x H P) as [_ I].
  apply in_map_iff in Hin. destruct Hin as ([k' h] & <- & Hin).
  destruct (I _ _ Hin) as (f & R & _). unfold in_schema. apply getf_In in R. now apply (in_map fst) in R.
Qed.
Print Assumptions C15_only_schema_fields.

Lemma bare_names key k : names key k -> bare key = Some k.
Proof.
  intros [->|[->|(-> & H1 & H2)]]; [reflexivity|reflexivity|].
  destruct k as [|x k]; [congruence|]. unfold bare.
  destruct (N.eqb x (ch "@")) eqn:E1; [apply N.eqb_eq in E1; subst; destruct (H2 k); congruence|].
  destruct (N.eqb x (ch "#")) eqn:E2; [apply N.eqb_eq in E2; subst; destruct (H2 k); congruence|].
  reflexivity.
Qed.

Theorem C15_unknown_field_rejected :
  forall (U : universe) d key k a,
    names key k -> ~ in_schema U (cls U d) k ->
    exec U (OSet U [] key a) d = (d, Some AttributeError).
Proof.
  intros U d key k a N H. simpl. unfold set_item, set_item_with. rewrite (bare_names _ _ N).
  now rewrite (proj2 (getf_None k (valid U (cls U d))) H).
Qed.
Print Assumptions C15_unknown_field_rejected.

Definition run (os : list (op L)) (d : dd L) : dd L := fold_left (fun d o => fst (exec L o d)) os d.
Lemma run_produced os d : produced L d -> (forall o x, In o os -> In x (op_structs L o) -> produced L x) ->
  produced L (run os d).
Proof.
  revert d. induction os as [|o os IH]; intros d H Hs; [exact H|].
  apply IH; [|intros; eapply Hs; [right|]; eauto].
  destruct (exec L o d) as [d' e] eqn:E. simpl. eapply produced_exec; eauto.
  intros x Hx. eapply Hs; [left; reflexivity|auto].
Qed.
Definition program : list (op L) :=
  [OSet L [Attr (lit "lognormal")] (lit "@meanValue") (num 2);
   OSet L [Attr (lit "lognormal")] (lit "meanValue") (num 3);
   OSet L [Attr (lit "lognormal")] (lit "colour") (num 3);
   OSet L [] (lit "normal") (ADict L [(lit "@meanValue", num 4); (lit "variance", num 1)])].
Example C15_nonvacuous :
  produced L (run program uncertainty0) /\
  run program uncertainty0 =
    DD L ECS2_ECS2Uncertainty
      [(lit "lognormal", HL L [DD L ECS2_Lognormal [(lit "meanValue", HV L CReal (Some (SF (Fin (QArith_base.inject_Z 2)))))]]);
       (lit "normal", HL L [DD L ECS2_Normal
          [(lit "meanValue", HV L CReal (Some (SF (Fin (QArith_base.inject_Z 4)))));
           (lit "variance", HV L CReal (Some (SF (Fin (QArith_base.inject_Z 1)))))]])].
Proof.
  split; [|vmr].
  apply run_produced; [constructor|]. intros o x [<-|[<-|[<-|[<-|[]]]]] [].
Qed.

(** ** C16 *)
Theorem C16_unique_fields_hold_one_value :
  forall (U : universe) d x k h f,
    produced U d -> part U d x -> In (k, h) (flds U x) -> row U (cls U x) k f -> f_unique f = true ->
    single U h.
Proof.
  intros U d x k h f H P Hin R Hu. destruct (produced_part U d x H P) as [_ I].
  destruct (I _ _ Hin) as (f' & R' & F). unfold row in *. rewrite R in R'. inversion R'; subst f'.
  unfold fits in F. destruct (f_type f), h; try contradiction.
  - destruct F as [-> (vs & A & L1)]. specialize (L1 Hu).
    destruct vs as [|a [|b vs]]; try discriminate. simpl. eauto.
  - destruct F as [_ L1]. simpl. rewrite L1; auto.
Qed.
Print Assumptions C16_unique_fields_hold_one_value.

Theorem C16_second_value_rejected :
  forall (U : universe) d key k f h a,
    produced U d -> names key k -> row U (cls U d) k f -> f_unique f = true ->
    In (k, h) (flds U d) -> (forall l, a <> AList U l) ->
    exec U (OSet U [] key a) d = (d, Some ValueError).
Proof.
  intros U d key k f h a H N R Hu Hin NL. simpl. unfold set_item, set_item_with.
  rewrite (bare_names _ _ N). unfold row in R. rewrite R.
  destruct (produced_part U d d H (part_self U d)) as [ND I].
  destruct (I _ _ Hin) as (f' & R' & F). unfold row in R'. rewrite R in R'. inversion R'; subst f'.
  assert (T : truthy U h = true).
  { unfold fits in F. destruct (f_type f), h as [|[|]]; try contradiction; auto. now destruct F. }
  destruct a; try (unfold set_one; rewrite (In_getf _ _ _ ND Hin), T, Hu; reflexivity).
  exfalso. eapply NL; reflexivity.
Qed.
Print Assumptions C16_second_value_rejected.

Example C16_nonvacuous :
  exec L (OSet L [Attr (lit "lognormal")] (lit "meanValue") (num 3)) (run program uncertainty0)
    = (run program uncertainty0, Some ValueError).
Proof. vmr. Qed.

(** ** C17 *)
Theorem C17_failed_assignment_atomic_partial :
  forall E d p x key a d' e,
    let U := lavoisier E in
    produced U d -> present U p d x -> (forall l, a <> AList U l) ->
    exec U (OSet U p key a) d = (d', Some e) -> d' = d.
Proof.
  intros E d p x key a d' e U H P NL. unfold exec.
  destruct (set_item U x key a) as [x' o] eqn:S. intros X.
  assert (I : inv U x).
  { eapply produced_part; eauto. eapply present_part; eauto. }
  assert (AT : forall f0, o = Some f0 -> x' = x).
  { intros f0 ->. unfold set_item in S. rewrite set_item_many in S.
    destruct bare as [k|]; [|congruence].
    destruct (getf k (valid U (cls U x))) as [f|] eqn:R; [|congruence].
    assert (PA : parts_of U a = [a]) by (destruct a; auto; exfalso; eapply NL; reflexivity).
    rewrite PA in S. cbn [set_many] in S.
    destruct (set_one U (build U) k f x a) as [x1 [e1|]] eqn:S1; [|congruence]. inversion S; subst.
    eapply set_one_atomic; eauto. intros v _. apply all_clean. }
  destruct o as [f0|].
  - rewrite (at_path_present U _ p d x P f0) in X.
    + congruence.
    + now rewrite S.
    + rewrite S. simpl. now apply (AT f0).
  - exfalso. clear AT I H. revert d d' e P X.
    induction p as [|s p IH]; simpl; intros d d' e P X.
    + subst. congruence.
    + destruct P as (k & i & y & Ent & P). rewrite Ent in X.
      destruct (at_path U p (fun z => set_item U z key a) y) as [y' [e'|]] eqn:AP.
      * exact (IH _ _ _ P AP).
      * discriminate.
Qed.
Print Assumptions C17_failed_assignment_atomic_partial.

(** A failing list assignment keeps exactly the members before the rejected one. *)
Theorem C17_failed_list_keeps_prefix :
  forall E d key l d' e,
    let U := lavoisier E in
    produced U d -> (forall x, In x (structs U (AList U l)) -> produced U x) ->
    exec U (OSet U [] key (AList U l)) d = (d', Some e) ->
    d' = d \/
    exists l1 a l2, l = l1 ++ a :: l2 /\
      exec U (OSet U [] key (AList U l1)) d = (d', None) /\
      exec U (OSet U [] key (AList U [a])) d' = (d', Some e).
Proof.
  intros E d key l d' e U H Hs. simpl. unfold set_item. rewrite !set_item_many.
  destruct (bare key) as [k|] eqn:B; [|intros [= <- <-]; auto].
  destruct (getf k (valid U (cls U d))) as [f|] eqn:R; [|intros [= <- <-]; auto].
  intros S. right. cbn [parts_of] in S.
  assert (Hb : Forall (fun a => forall c x, build U c a = Ok x -> deep U (inv U) x) l).
  { change l with (parts_of U (AList U l)). apply build_deep. intros x Hx. now apply produced_inv, Hs. }
  destruct (set_many_prefix U (build U) k f l d d' e) as (l1 & a & l2 & EQ & S1 & S2); auto.
  { intros v _. apply all_clean. }
  { now apply produced_inv. }
  exists l1, a, l2. split; auto. rewrite !set_item_many, B, R. cbn [parts_of]. split; [exact S1|].
  assert (C : cls U d' = cls U d).
  { rewrite EQ in Hb. apply Forall_app in Hb. destruct Hb as [Hb _].
    eapply (set_many_deep U (build U) k f l1 d d' None); eauto. now apply produced_inv. }
  rewrite C, R. cbn [set_many]. now rewrite S2.
Qed.
Print Assumptions C17_failed_list_keeps_prefix.

(** A list whose second member is rejected leaves the first one behind. *)
Theorem C17_failed_assignment_atomic_refuted :
  exec L (OSet L [] (lit "meanValue") (AList L [num 1; num 2])) lognormal0
    = (DD L ECS2_Lognormal [(lit "meanValue", HV L CReal (Some (SF (Fin (QArith_base.inject_Z 1)))))], Some ValueError) /\
  fst (exec L (OSet L [] (lit "meanValue") (AList L [num 1; num 2])) lognormal0) <> lognormal0.
Proof.
  assert (E : exec L (OSet L [] (lit "meanValue") (AList L [num 1; num 2])) lognormal0
    = (DD L ECS2_Lognormal [(lit "meanValue", HV L CReal (Some (SF (Fin (QArith_base.inject_Z 1)))))], Some ValueError)) by vmr.
  rewrite E. split; [reflexivity|discriminate].
Qed.
Print Assumptions C17_failed_assignment_atomic_refuted.

(** So does a rejected single value under a path that did not exist. *)
Theorem C17_failed_path_assignment_refuted :
  exec L (OSet L [Attr (lit "lognormal")] (lit "meanValue") (str "x")) uncertainty0
    = (DD L ECS2_ECS2Uncertainty [(lit "lognormal", HL L [DD L ECS2_Lognormal []])], Some TypeError) /\
  uncertainty0 = DD L ECS2_ECS2Uncertainty [].
Proof. split; [vmr|reflexivity]. Qed.
Print Assumptions C17_failed_path_assignment_refuted.

Example C17_nonvacuous :
  exec L (OSet L [Attr (lit "lognormal")] (lit "mu") (str "x")) (run program uncertainty0)
    = (run program uncertainty0, Some TypeError) /\
  present L [Attr (lit "lognormal")] (run program uncertainty0)
    (DD L ECS2_Lognormal [(lit "meanValue", HV L CReal (Some (SF (Fin (QArith_base.inject_Z 2)))))]).
Proof.
  split; [vmr|]. exists (lit "lognormal"), 0%nat,
    (DD L ECS2_Lognormal [(lit "meanValue", HV L CReal (Some (SF (Fin (QArith_base.inject_Z 2)))))]).
  split; [vmr|reflexivity].
Qed.

(** ** C18 *)
Theorem C18_mandatory_fields_enforced :
  forall (U : universe) d,
    (exists o, get_dict U d = Ok o) <-> complete U d /\ ends_well U d /\ ordered U d.
Proof. exact get_dict_iff. Qed.
Print Assumptions C18_mandatory_fields_enforced.

Definition whole : dd L :=
  run [OSet L [] (lit "variance") (num 1); OSet L [] (lit "meanValue") (num 2); OSet L [] (lit "mu") (num 3);
       OSet L [] (lit "varianceWithPedigreeUncertainty") (num 4)] lognormal0.
Example C18_nonvacuous :
  get_dict L lognormal0 = Err AttributeError /\
  (exists o, get_dict L whole = Ok o) /\
  get_dict L (run [OSet L [] (lit "lognormal") (AStruct L lognormal0)] uncertainty0) = Err AttributeError.
Proof. split; [|split]; [vmr|apply ok_some; vmr|vmr]. Qed.

(** ** C19 *)
Theorem C19_document_fields_in_order :
  forall E d o,
    let U := lavoisier E in
    produced U d -> get_dict U d = Ok o ->
    exists items,
      o = DNode U (map (fun kv => match getf (fst kv) (valid U (cls U d)) with
                                  | Some f => (label U (fst kv) f, as_text U f (snd kv))
                                  | None => kv end) items) /\
      Permutation (map fst items) (map fst (flds U d)) /\
      StronglySorted (order_le U (cls U d)) (map fst items) /\
      (forall z, filter (order_is U (cls U d) z) (map fst items)
                 = filter (order_is U (cls U d) z) (map fst (flds U d))) /\
      (forall k v, In (k, v) items -> exists h, In (k, h) (flds U d) /\ shows U h v).
Proof.
  intros E d o U H. destruct d as [c fs]. apply get_dict_entries.
  - now apply produced_inv.
  - apply schema_labels.
Qed.
Print Assumptions C19_document_fields_in_order.

Definition document_names (r : result (doc L)) : list pystr :=
  match r with Ok (DNode _ l) => map fst l | _ => [] end.
Definition real_leaf (z : Z) : doc L := DLeaf L (OReal (Fin (QArith_base.inject_Z z))).
Example C19_nonvacuous :
  get_dict L whole = Ok (DNode L
     [(lit "@variance", real_leaf 1); (lit "@meanValue", real_leaf 2); (lit "@mu", real_leaf 3);
      (lit "@varianceWithPedigreeUncertainty", real_leaf 4)]) /\
  document_names (get_dict L (run [OSet L [] (lit "normal") (ADict L
                 [(lit "meanValue", num 1); (lit "varianceWithPedigreeUncertainty", num 1)]);
                              OSet L [] (lit "lognormal") (AStruct L whole)] uncertainty0))
     = [lit "lognormal"; lit "normal"].
Proof. split; vmr. Qed.

(** ** C61 *)
(** A nested structure given as a dict (or as nothing) has the class the schema declares. *)
Theorem C61_nested_class_partial :
  forall (U : universe) c a d,
    (forall x, a <> AStruct U x) -> build U c a = Ok d -> cls U d = c.
Proof.
  intros U c a d NS. destruct a as [|s|l|l|x].
  - intros [= <-]; reflexivity.
  - discriminate.
  - rewrite build_dict. assert (C : cls U (DD U c []) = c) by reflexivity. revert C. generalize (DD U c []).
    induction l as [|[k x] l IH]; intros d0 C; cbn [fill]; [congruence|].
    destruct (set_item U d0 k x) as [d1 [e1|]] eqn:S; [discriminate|]. apply IH.
    + intros y; discriminate.
    + rewrite <- C. unfold set_item in S. rewrite set_item_many in S.
      destruct (bare k) as [k'|]; [|discriminate]. destruct (getf k' (valid U (cls U d0))); [|discriminate].
      revert S. clear. generalize (parts_of U x) as l0. intros l0 S.
      assert (G : forall l0 y y', set_many U (build U) k' f y l0 = (y', None) -> cls U y' = cls U y).
      { clear. induction l0 as [|a l0 IH]; simpl; intros y y' S; [congruence|].
        destruct (set_one U (build U) k' f y a) as [y1 [e1|]] eqn:S1; [discriminate|].
        rewrite (IH _ _ S). unfold set_one in S1.
        repeat match type of S1 with
               | context[match ?t with _ => _ end] => destruct t
               end; inversion S1; reflexivity. }
      exact (G _ _ _ S).
  - discriminate.
  - exfalso. now apply (NS x).
Qed.
Print Assumptions C61_nested_class_partial.

(** An instance of another class is stored as it is. *)
Theorem C61_nested_class_refuted :
  exec L (OSet L [] (lit "lognormal") (AStruct L (DD L ECS2_Uniform []))) uncertainty0
    = (DD L ECS2_ECS2Uncertainty [(lit "lognormal", HL L [DD L ECS2_Uniform []])], None) /\
  option_map f_type (getf (lit "lognormal") (valid L ECS2_ECS2Uncertainty)) = Some (TSub ECS2_Lognormal).
Proof. split; vmr. Qed.
Print Assumptions C61_nested_class_refuted.

(** Its document is then produced under the wrong name. *)
Example C61_nonvacuous :
  document_names (get_dict L (run [OSet L [] (lit "lognormal") (AStruct L
                (run [OSet L [] (lit "minValue") (num 1); OSet L [] (lit "maxValue") (num 2)] (DD L ECS2_Uniform [])))]
              uncertainty0)) = [lit "lognormal"].
Proof. vmr. Qed.

(** ** C62 *)
(** A read that finds a value, or fails, changes nothing; reading twice is reading once. *)
Theorem C62_reading_changes_nothing_partial :
  forall (U : universe) d k,
    (In k (map fst (flds U d)) \/ snd (exec U (ORead U [] k) d) <> None ->
       fst (exec U (ORead U [] k) d) = d) /\
    exec U (ORead U [] k) (fst (exec U (ORead U [] k) d)) = exec U (ORead U [] k) d.
Proof.
  intros U d k. simpl. unfold read_only.
  assert (G : forall d' r, get_item U d k = (d', r) ->
            ((In k (map fst (flds U d)) \/ (exists e, r = Err e)) -> d' = d) /\ get_item U d' k = (d', r)).
  { intros d' r. unfold get_item. destruct (str_eqb k (lit "__name__")) eqn:Nm; [intros [= <- <-]; auto|].
    destruct (getf k (valid U (cls U d))) as [f|] eqn:R; [|intros [= <- <-]; rewrite R; auto].
    destruct (getf k (flds U d)) as [[v st|l]|] eqn:Gf.
    - intros [= <- <-]. rewrite R, Gf. auto.
    - destruct (f_unique f) eqn:Hu; [destruct l|]; intros [= <- <-]; rewrite R, Gf, Hu; auto.
    - destruct (f_type f) as [v|c] eqn:Ty; [intros [= <- <-]; rewrite R, Gf, Ty; auto|].
      destruct (f_unique f) eqn:Hu; [|intros [= <- <-]; rewrite R, Gf, Ty, Hu; auto].
      intros [= <- <-]. split.
      + intros [H|[e [=]]]. apply getf_None in Gf. contradiction.
      + cbn [cls flds]. rewrite R, getf_putf, Hu. reflexivity. }
  destruct (get_item U d k) as [d' r] eqn:E. destruct (G _ _ eq_refl) as [G1 G2]. split.
  - intros H. destruct r as [x|e]; simpl in *; apply G1; destruct H as [H|H]; eauto. congruence.
  - destruct r; simpl; rewrite G2; reflexivity.
Qed.
Print Assumptions C62_reading_changes_nothing_partial.

(** Reading an absent optional sub-structure creates it, and the document can no longer be produced. *)
Theorem C62_reading_changes_nothing_refuted :
  (exists o, get_dict L uncertainty0 = Ok o) /\
  snd (exec L (ORead L [] (lit "lognormal")) uncertainty0) = None /\
  get_dict L (fst (exec L (ORead L [] (lit "lognormal")) uncertainty0)) = Err AttributeError.
Proof. split; [apply ok_some; vmr|]. split; vmr. Qed.
Print Assumptions C62_reading_changes_nothing_refuted.

Example C62_nonvacuous :
  In (lit "lognormal") (map fst (flds L (run program uncertainty0))) /\
  snd (exec L (ORead L [] (lit "lognormal")) (run program uncertainty0)) = None.
Proof. split; [apply str_in_In; vmr|vmr]. Qed.

(** ** C63 *)
(** What a structure reports for a validated field is the validator's answer after the values
    assigned to that field, one after the other. *)
Theorem C63_field_reports_assigned_values :
  forall (U : universe) d x k v st,
    produced U d -> part U d x -> In (k, HV U v st) (flds U x) ->
    exists f vs, row U (cls U x) k f /\ f_type f = TVal v /\ added U v vs st /\
      get U x k = bind (vend U v st) (fun o => Ok (GVal U o)).
Proof.
  intros U d x k v st H P Hin. destruct (produced_part U d x H P) as [ND I].
  destruct (I _ _ Hin) as (f & R & F). unfold fits in F. destruct (f_type f) as [v'|c] eqn:Ty; [|contradiction].
  destruct F as [-> (vs & A & _)]. exists f, vs. split; [exact R|]. split; [exact Ty|]. split; [exact A|].
  unfold get. now rewrite (In_getf _ _ _ ND Hin).
Qed.
Print Assumptions C63_field_reports_assigned_values.

Example C63_nonvacuous :
  get L (run [OSet L [] (lit "sourceYear") (str "2001"); OSet L [] (lit "@sourceYear") (str "2002");
              OSet L [] (lit "sourceYear") (num 7)] (DD L ECS2_ECS2Source [])) (lit "sourceYear")
    = Ok (GVal L (OText (lit "2002"))).
Proof. vmr. Qed.

(** ** C64 *)
(** Assigning or reading a field leaves every other field of the structure as it was. *)
Theorem C64_other_fields_untouched :
  forall (U : universe) d key k a k',
    names key k -> k' <> k ->
    getf k' (flds U (fst (exec U (OSet U [] key a) d))) = getf k' (flds U d) /\
    (forall r, r <> k' -> getf k' (flds U (fst (exec U (ORead U [] r) d))) = getf k' (flds U d)).
Proof.
  assert (PO : forall A (l : list (pystr * A)) k v k', k' <> k -> getf k' (putf k v l) = getf k' l).
  { intros A l k v k' D. induction l as [|[k0 b] l IH]; simpl.
    - destruct (str_eqb k k') eqn:E; auto. apply str_eqb_eq in E. congruence.
    - destruct (str_eqb k0 k) eqn:E; simpl.
      + destruct (str_eqb k0 k') eqn:E2; auto. apply str_eqb_eq in E, E2. congruence.
      + rewrite IH. reflexivity. }
  intros U d key k a k' B D. apply bare_names in B. split.
  - simpl. unfold set_item. rewrite set_item_many, B.
    destruct (getf k (valid U (cls U d))) as [f|]; auto. generalize (parts_of U a). intros l. revert d.
    induction l as [|x l IH]; intros d; simpl; auto.
    assert (S1 : getf k' (flds U (fst (set_one U (build U) k f d x))) = getf k' (flds U d)).
    { unfold set_one.
      repeat match goal with
             | |- context[match ?t with _ => _ end] => destruct t
             end; simpl; auto. }
    destruct (set_one U (build U) k f d x) as [d1 [e1|]]; simpl in *; auto. now rewrite IH.
  - intros r Dr. simpl. unfold read_only, get_item. destruct (str_eqb r (lit "__name__")); auto.
    destruct (getf r (valid U (cls U d))) as [f|]; auto.
    destruct (getf r (flds U d)) as [[v st|l]|]; auto.
    + destruct (f_unique f); [destruct l|]; auto.
    + destruct (f_type f); auto. destruct (f_unique f); auto. simpl. apply PO. auto.
Qed.
Print Assumptions C64_other_fields_untouched.

Example C64_nonvacuous :
  flds L (fst (exec L (OSet L [] (lit "mu") (num 9)) (DD L ECS2_Lognormal [(lit "variance", HV L CReal (Some (SF NaN)))])))
    = [(lit "variance", HV L CReal (Some (SF NaN))); (lit "mu", HV L CReal (Some (SF (Fin (QArith_base.inject_Z 9)))))].
Proof. vmr. Qed.
