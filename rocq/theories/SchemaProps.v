(** Properties C18 and C63 (continued) and C65: documents of the Lavoisier structures. *)
From Coq Require Import Ascii String List Bool Arith NArith ZArith QArith Lia Sorting.Sorted Sorting.Permutation.
From Verif Require Import PyBase PyBaseFacts PyValues Regex RegexFacts ValidatorsModel ValidatorsSpec
  ValidatorsProofs MultiLangModel DotDictModel DotDictSpec DotDictProofs SchemaModel SchemaTables
  SchemaProofs SchemaSpec LeafProofs DotDictProps.
Import ListNotations.
Local Close Scope Q_scope.

(** ** C18, for the structures of Lavoisier: only the classes collecting unconverted data (never
    written as a document) have fields without a position. *)
Definition unplaced : list nat :=
  [ECS2_ILCD1ToECS2DataNotConverted; ILCD1_ECS2ToILCD1DataNotConverted_Flow_Property;
   ILCD1_ECS2ToILCD1DataNotConverted_Flow_ProductionVolume; ILCD1_ECS2ToILCD1DataNotConverted_Flow;
   ILCD1_ECS2ToILCD1DataNotConverted_Parameter; ILCD1_ECS2ToILCD1DataNotConverted].

Definition placed_table (t : list (pystr * field vc)) : bool :=
  forallb (fun kf => match f_order (snd kf) with Some _ => true | None => false end) t.
Lemma placed_ok : forallb (fun n => existsb (Nat.eqb n) unplaced || placed_table (nth n tables []))
                          (seq 0 (length tables)) = true.
Proof. vm_compute. reflexivity. Qed.
Lemma placed c k f : ~ In c unplaced -> getf k (schema c) = Some f -> exists o, f_order f = Some o.
Proof.
  intros N R. apply getf_In in R. unfold schema in R.
  destruct (Nat.lt_ge_cases c (length tables)) as [Lt|Ge].
  - pose proof placed_ok as P. rewrite forallb_forall in P. specialize (P c).
    rewrite in_seq in P. specialize (P ltac:(lia)). apply orb_true_iff in P. destruct P as [P|P].
    + exfalso. apply N. apply existsb_exists in P. destruct P as (y & Hy & E). apply Nat.eqb_eq in E. now subst.
    + unfold placed_table in P. rewrite forallb_forall in P. specialize (P _ R). cbn [snd] in P.
      destruct (f_order f); [eauto|discriminate].
  - rewrite nth_overflow in R by exact Ge. destruct R.
Qed.

Theorem C18_lavoisier_documents :
  forall E d,
    let U := lavoisier E in
    produced U d -> (forall x, part U d x -> ~ In (cls U x) unplaced) ->
    ((exists o, get_dict U d = Ok o) <-> complete U d /\ ends_well U d).
Proof.
  intros E d U H N. rewrite get_dict_iff. split; [tauto|]. intros [H1 H2]. split; [exact H1|]. split; [exact H2|].
  intros x k P Hk. apply in_map_iff in Hk. destruct Hk as ([k' h] & <- & Hk).
  destruct (produced_part U d x H P) as [_ I]. destruct (I _ _ Hk) as (f & R & _).
  unfold order_of. cbn [fst]. unfold row in R. rewrite R. eapply placed; [exact (N x P)|exact R].
Qed.
Print Assumptions C18_lavoisier_documents.

(** ** C63: an assignment appends exactly the given values *)
Definition values {U} (a : arg U) : list (arg U) := match a with AList _ l => l | _ => [a] end.
Definition state_of {U} (d : dd U) (k : pystr) : option (vstate U) :=
  match getf k (flds U d) with Some (HV _ _ st) => st | _ => None end.
Definition list_of {U} (d : dd U) (k : pystr) : list (dd U) :=
  match getf k (flds U d) with Some (HL _ l) => l | _ => [] end.

Lemma getf_put {A} k (h : A) l : getf k (putf k h l) = Some h.
Proof.
  induction l as [|[k' x] l IH]; simpl.
  - now rewrite str_eqb_refl.
  - destruct (str_eqb k' k) eqn:E; simpl; rewrite E; auto.
Qed.

Lemma set_many_plain U bld k f v : f_type f = TVal v -> forall l d d',
  (forall v' st, getf k (flds U d) = Some (HV U v' st) -> v' = v) ->
  set_many U bld k f d l = (d', None) -> l <> [] ->
  getf k (flds U d') = Some (HV U v (fold_left (fun s x => fst (vadd U v s (arg_pyval U x))) l (state_of d k))).
Proof.
  intros Ty. induction l as [|a l IH]; intros d d' Hv H NE; [congruence|]. clear NE. cbn [set_many] in H.
  destruct (set_one U bld k f d a) as [d1 [e|]] eqn:S; [discriminate|].
  assert (S1 : getf k (flds U d1) = Some (HV U v (fst (vadd U v (state_of d k) (arg_pyval U a))))).
  { unfold set_one in S. unfold state_of. rewrite Ty in S. destruct (getf k (flds U d)) as [[v' st|l']|] eqn:G.
    - destruct (truthy U _ && f_unique f); [discriminate|]. rewrite (Hv _ _ eq_refl) in S.
      destruct (vadd U v st (arg_pyval U a)) as [st' e']. inversion S; subst. cbn [flds fst]. apply getf_put.
    - destruct (truthy U _ && f_unique f); discriminate.
    - destruct (vadd U v None (arg_pyval U a)) as [st' [e'|]]; [discriminate|]. inversion S; subst.
      cbn [flds fst]. apply getf_put. }
  cbn [fold_left]. assert (ST : state_of d1 k = fst (vadd U v (state_of d k) (arg_pyval U a)))
    by (unfold state_of at 1; now rewrite S1).
  rewrite <- ST. destruct l as [|b l].
  - cbn [set_many] in H. inversion H; subst. cbn [fold_left]. rewrite ST. exact S1.
  - apply IH; [|exact H|discriminate]. intros v' st G. rewrite S1 in G. now inversion G.
Qed.
Lemma set_many_nested U bld k f c : f_type f = TSub c -> forall l d d',
  set_many U bld k f d l = (d', None) ->
  exists xs, Forall2 (fun a x => bld c a = Ok x) l xs /\ list_of d' k = list_of d k ++ xs.
Proof.
  intros Ty. induction l as [|a l IH]; intros d d' H; cbn [set_many] in H.
  - inversion H; subst. exists []. split; [constructor|now rewrite app_nil_r].
  - destruct (set_one U bld k f d a) as [d1 [e|]] eqn:S; [discriminate|].
    assert (S1 : exists x, bld c a = Ok x /\ list_of d1 k = list_of d k ++ [x]).
    { unfold set_one in S. unfold list_of at 2. rewrite Ty in S.
      destruct (getf k (flds U d)) as [[v' st|l']|] eqn:G.
      - destruct (truthy U _ && f_unique f); discriminate.
      - destruct (truthy U _ && f_unique f); [discriminate|]. destruct (bld c a) as [x|]; [|discriminate].
        inversion S; subst. exists x. split; auto. unfold list_of. cbn [flds]. now rewrite getf_put.
      - destruct (bld c a) as [x|]; [|discriminate].
        inversion S; subst. exists x. split; auto. unfold list_of. cbn [flds]. now rewrite getf_put. }
    destruct S1 as (x & Hx & L1). destruct (IH _ _ H) as (xs & F & L2). exists (x :: xs). split.
    + constructor; auto.
    + rewrite L2, L1, <- app_assoc. reflexivity.
Qed.

Theorem C63_assignment_adds_the_values :
  forall (U : universe) d key k f a d',
    produced U d -> names key k -> row U (cls U d) k f ->
    exec U (OSet U [] key a) d = (d', None) ->
    match f_type f with
    | TVal v => values a <> [] ->
        getf k (flds U d')
        = Some (HV U v (fold_left (fun s x => fst (vadd U v s (arg_pyval U x))) (values a) (state_of d k)))
    | TSub c =>
        exists xs, Forall2 (fun a x => build U c a = Ok x) (values a) xs /\
                   list_of d' k = list_of d k ++ xs
    end.
Proof.
  intros U d key k f a d' H N R X. cbn [exec at_path] in X. unfold set_item in X. rewrite set_item_many in X.
  rewrite (bare_names _ _ N) in X. unfold row in R. rewrite R in X.
  change (parts_of U a) with (values a) in X.
  destruct (f_type f) as [v|c] eqn:Ty.
  - intros NE. eapply set_many_plain; eauto. intros v' st G.
    destruct (produced_part U d d H (part_self U d)) as [_ I].
    apply getf_In in G. destruct (I _ _ G) as (f' & R' & F). unfold row in R'. rewrite R in R'.
    inversion R'; subst f'. unfold fits in F. rewrite Ty in F. tauto.
  - eapply set_many_nested; eauto.
Qed.
Print Assumptions C63_assignment_adds_the_values.

(** Building a structure from a dictionary is assigning its entries one after the other. *)
Inductive assigns {U} : dd U -> list (pystr * arg U) -> dd U -> Prop :=
| assigns_nil d : assigns d [] d
| assigns_cons d k a l d1 d2 : exec U (OSet U [] k a) d = (d1, None) -> assigns d1 l d2 ->
    assigns d ((k, a) :: l) d2.
Theorem C63_building_is_assigning :
  forall (U : universe) c l d, build U c (ADict U l) = Ok d <-> assigns (DD U c []) l d.
Proof.
  intros U c l d. rewrite build_dict. generalize (DD U c []). induction l as [|[k a] l IH]; intros d0; cbn [fill].
  - split; [intros [= <-]; constructor|]. intros H; inversion H; reflexivity.
  - destruct (set_item U d0 k a) as [d1 [e|]] eqn:S.
    + split; [discriminate|]. intros H; inversion H; subst. cbn [exec at_path] in *. congruence.
    + rewrite IH. split; intros H.
      * econstructor; eauto.
      * inversion H as [|? ? ? ? d3 ? X Y]; subst. cbn [exec at_path] in X. assert (d3 = d1) by congruence.
        now subst.
Qed.
Print Assumptions C63_building_is_assigning.

Example C63_assignment_nonvacuous :
  exec L (OSet L [] (lit "@meanValue") (num 2)) lognormal0
  = (DD L ECS2_Lognormal [(lit "meanValue", HV L CReal (Some (SF (Fin (inject_Z 2)))))], None).
Proof. vmr. Qed.

(** ** C65 *)
Theorem C65_leaves_satisfy_their_field :
  forall E d doc n o,
    let U := lavoisier E in
    produced U d -> get_dict U d = Ok doc -> leaf_in U doc n o ->
    exists x k f c, part U d x /\ row U (cls U x) k f /\ f_type f = TVal c /\
                    n = label U k f /\ acceptable E c o.
Proof.
  intros E d doc n o U H. 
  assert (D : forall x, part U d x -> inv U x) by (intros x; now apply produced_part).
  clear H. revert doc n o D. induction d as [c fs IH] using dd_ind2. intros doc n o D G Lf.
  pose proof (get_dict_entries U c fs doc (fun x P => D x P) (schema_labels E c) G)
    as (items & -> & _ & _ & _ & Sh).
  assert (Back : forall n' v, In (n', v) (map (fun kv : pystr * DotDictModel.doc U =>
                     match getf (fst kv) (valid U c) with
                     | Some f => (label U (fst kv) f, as_text U f (snd kv))
                     | None => kv end) items) ->
            exists k f h w, In (k, h) fs /\ row U c k f /\ fits U f h /\ shows U h w /\
                            n' = label U k f /\ v = as_text U f w).
  { intros n' v Hin. apply in_map_iff in Hin. destruct Hin as ([k w] & Eq & Hin).
    destruct (Sh _ _ Hin) as (h & Hh & S). destruct (D _ (part_self U _)) as [_ I].
    destruct (I _ _ Hh) as (f & R & F). cbn [fst snd] in Eq. unfold row in R. cbn [cls] in R. rewrite R in Eq.
    inversion Eq; subst. exists k, f, h, w. repeat (split; [assumption || reflexivity|]). reflexivity. }
  inversion Lf as [l n' o' Hin Ea Eb Ec|l n' ds d' m o' Hin Hd Hl Ea Eb Ec]; subst.
  - assert (X : exists v, In (n, v) (map (fun kv : pystr * DotDictModel.doc U =>
                     match getf (fst kv) (valid U c) with
                     | Some f => (label U (fst kv) f, as_text U f (snd kv))
                     | None => kv end) items) /\ (v = DLeaf U o \/ v = DStr U (DLeaf U o))).
    { destruct Hin as [Hin|Hin]; eexists; split; try exact Hin; auto. }
    destruct X as (v & Hv & Ev). destruct (Back _ _ Hv) as (k & f & h & w & Hh & R & F & S & -> & Ew).
    assert (W : w = DLeaf U o).
    { unfold as_text in Ew. destruct h as [vv st|l]; cbn [shows] in S.
      - destruct S as (o1 & _ & ->). destruct (f_xml_type f) as [t|]; [destruct (str_eqb t _)|];
          destruct Ev; congruence.
      - destruct S as (ds & _ & ->). destruct (f_xml_type f) as [t|]; [destruct (str_eqb t _)|];
          destruct Ev; congruence. }
    subst w. destruct h as [vv st|l]; cbn [shows] in S; [|destruct S as (ds & _ & ?); discriminate].
    destruct S as (o1 & S & Eo). inversion Eo; subst o1.
    unfold fits in F. destruct (f_type f) as [v0|] eqn:Ty; [|contradiction].
    destruct F as [-> (vs & A & _)]. exists (DD U c fs), k, f, v0.
    split; [constructor|]. split; [exact R|]. split; [exact Ty|]. split; [reflexivity|].
    eapply leaf_acceptable; [exact A|exact S].
  - assert (X : exists v, In (n', v) (map (fun kv : pystr * DotDictModel.doc U =>
                     match getf (fst kv) (valid U c) with
                     | Some f => (label U (fst kv) f, as_text U f (snd kv))
                     | None => kv end) items) /\ (v = DList U ds \/ v = DStr U (DList U ds))).
    { destruct Hin as [Hin|Hin]; eexists; split; try exact Hin; auto. }
    destruct X as (v & Hv & Ev). destruct (Back _ _ Hv) as (k & f & h & w & Hh & R & F & S & -> & Ew).
    assert (W : w = DList U ds).
    { unfold as_text in Ew. destruct h as [vv st|l]; cbn [shows] in S.
      - destruct S as (o1 & _ & ->). destruct (f_xml_type f) as [t|]; [destruct (str_eqb t _)|];
          destruct Ev; congruence.
      - destruct S as (ds' & _ & ->). destruct (f_xml_type f) as [t|]; [destruct (str_eqb t _)|];
          destruct Ev; congruence. }
    subst w. destruct h as [vv st|l]; cbn [shows] in S; [destruct S as (o1 & _ & ?); discriminate|].
    destruct S as (ds' & S & Eo). inversion Eo; subst ds'.
    destruct (Forall2_in_r _ _ _ _ S Hd) as (y & Hy & Gy).
    assert (Dy : forall z, part U y z -> inv U z).
    { intros z Pz. apply D. econstructor; [|exact Hy|exact Pz]. exact Hh. }
    destruct (IH k l y Hh Hy d' n o Dy Gy Hl) as (x & k' & f' & c' & P & Rest).
    exists x, k', f', c'. split; [|exact Rest]. econstructor; [|exact Hy|exact P]. exact Hh.
Qed.
Print Assumptions C65_leaves_satisfy_their_field.

(** Reference identifiers in particular: every leaf written for a UUID field starts with a UUID. *)
Theorem C65_identifiers_are_uuids :
  forall E o, acceptable E (CPat uuid_re) o -> exists s, o = OText s /\ is_uuid (firstn 36 s).
Proof.
  intros E o H. destruct o; try contradiction. exists s. split; auto.
  destruct (H eq_refl) as (u & t & g & -> & HM). apply M_uuid in HM.
  pose proof (is_uuid_len _ HM) as Hl. rewrite firstn_app, Hl, Nat.sub_diag, firstn_O.
  rewrite app_nil_r. rewrite firstn_all2 by lia. exact HM.
Qed.
Print Assumptions C65_identifiers_are_uuids.

Example C65_nonvacuous :
  produced L whole /\ cls L whole = ECS2_Lognormal /\ ~ In ECS2_Lognormal unplaced /\
  exists l, get_dict L whole = Ok (DNode L l) /\ leaf_in L (DNode L l) (lit "@meanValue") (OReal (Fin (inject_Z 2))).
Proof.
  split; [apply run_produced; [constructor|]; intros o x [<-|[<-|[<-|[<-|[]]]]] []|].
  split; [vmr|]. split; [intros [H|[H|[H|[H|[H|[H|[]]]]]]]; discriminate H|].
  exists [(lit "@variance", real_leaf 1); (lit "@meanValue", real_leaf 2); (lit "@mu", real_leaf 3);
      (lit "@varianceWithPedigreeUncertainty", real_leaf 4)].
  split; [vmr|]. constructor. left. right. left. reflexivity.
Qed.
