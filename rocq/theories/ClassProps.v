(** C124-C128: classifications and tags of exchanges, EcoSpold2 to ILCD. *)
From Coq Require Import Ascii String List Bool Arith NArith ZArith Lia.
From Verif Require Import PyBase PyBaseFacts PyValues DotDictModel XmlModel XmlSpec XmlProofs XmlProps HandleSpec
  HandleProofs ClassModel ClassSpec ClassProofs.
Import ListNotations.
Local Open Scope string_scope.
Local Open Scope list_scope.

(** [converts m c f]: the classification [c], without a context, becomes [f], in activities and exchanges. *)
Definition converts (m : mapping) (c : class_in) (f : field_out) : Prop :=
  c_context c = None /\ forall known, class_conversion m known c = Ok f.
(** The identifier of the classification is in the mapping. *)
Definition mapped (m : mapping) (c : class_in) (e : entry) : Prop := getf (c_id c) m = Some e.
Definition unmapped (m : mapping) (c : class_in) : Prop :=
  getf (c_id c) m = None /\
  forall e, getf (lit "NULL_UUID") m = Some e ->
    replace (lit ": ") (lit ":") (c_value c) <> replace (lit ": ") (lit ":") (e_value e).

(** * C124 *)
Theorem C124_mapped :
  forall m c e, like_shipped m -> mapped m c e -> c_context c = None ->
    exists f, converts m c f /\ path_of (e_class e) (e_id e) (f_classes f).
Proof.
  intros m c e L M X. exists (mkFieldOut (lit "ILCD") (steps e)). split; [|apply steps_path].
  split; [exact X|]. intros known. apply conversion_mapped; auto. eapply like_short; eauto.
Qed.
Print Assumptions C124_mapped.
(** For any mapping, as far as paths have at most ten steps. *)
Theorem C124_any_mapping :
  forall m c e, mapped m c e -> c_context c = None ->
    (length (split (lit "/") (e_class e)) <= 10 -> exists f, converts m c f /\ path_of (e_class e) (e_id e) (f_classes f)) /\
    (10 < length (split (lit "/") (e_class e)) -> forall known, class_conversion m known c = Err ValueError).
Proof.
  intros m c e M X. split.
  - intros S. exists (mkFieldOut (lit "ILCD") (steps e)). split; [|apply steps_path].
    split; [exact X|]. intros known. now apply conversion_mapped.
  - intros S known. unfold class_conversion, get_classification. rewrite (find_mapped _ _ _ M).
    rewrite put_too_long; [reflexivity| |lia]. rewrite levels_length. exact S.
Qed.
Print Assumptions C124_any_mapping.
(** A classification outside the mapping keeps its value. *)
Theorem C124_unmapped :
  forall m c, unmapped m c -> c_context c = None ->
    exists f, converts m c f /\ f_classes f = [mkClassOut (lit "0") (lit "0") (c_value c)].
Proof.
  intros m c [G N] X. exists (mkFieldOut (lit "ILCD") [mkClassOut (lit "0") (lit "0") (c_value c)]). split; [|reflexivity].
  split; [exact X|]. intros known. unfold class_conversion, get_classification, find_levels. rewrite G.
  assert (F : match getf null_uuid m with
              | Some e => if str_eqb (colons (c_value c)) (colons (e_value e)) then Some (levels e) else None
              | None => None end = None).
  { change null_uuid with (lit "NULL_UUID"). destruct (getf (lit "NULL_UUID") m) as [e|] eqn:E; [|reflexivity].
    destruct (str_eqb _ _) eqn:Q; [|reflexivity]. apply str_eqb_eq in Q. now destruct (N e eq_refl). }
  rewrite F. cbn [bind]. unfold class_not_converted. rewrite X. reflexivity.
Qed.
Print Assumptions C124_unmapped.
Example C124_nonvacuous :
  let e := mkEntry (lit "011: Cereals") (lit "Materials production/Food and renewable raw materials") (lit "2.11") in
  let c := mkClassIn (lit "CPC") (lit "011: Cereals") (lit "x") None in
  In (e_class e, e_id e) shipped /\ mapped [(lit "x", e)] c e /\
  class_conversion [(lit "x", e)] true c =
    Ok (mkFieldOut (lit "ILCD") [mkClassOut (lit "0") (lit "2") (lit "Materials production");
                                 mkClassOut (lit "1") (lit "2.11") (lit "Food and renewable raw materials")]) /\
  unmapped [] c.
Proof.
  cbv zeta. repeat split.
  - assert (H : existsb (fun p => (str_eqb (fst p) (lit "Materials production/Food and renewable raw materials") && str_eqb (snd p) (lit "2.11"))%bool) shipped = true)
      by (vm_compute; reflexivity).
    apply existsb_exists in H. destruct H as ([a b] & I & H). apply andb_true_iff in H. destruct H as [A B].
    apply str_eqb_eq in A, B. cbn [fst snd e_class e_id] in *. congruence.
  - discriminate.
Qed.

(** * C125: identifiers of classes *)
(** Identifiers tell classes apart. *)
Definition identified (m : mapping) (c c' : class_in) : Prop :=
  forall f f' o o', converts m c f -> converts m c' f' -> In o (f_classes f) -> In o' (f_classes f') ->
    o_id o = o_id o' -> o_level o = o_level o' /\ same_words (o_text o) (o_text o').
(** True of entries of the shipped mapping that have an identifier, up to capitals. *)
Theorem C125_identified_partial :
  forall m c c' e e', like_shipped m -> mapped m c e -> mapped m c' e' ->
    e_id e <> lit "#N/A" -> e_id e' <> lit "#N/A" -> identified m c c'.
Proof.
  intros m c c' e e' L M M' N N' f f' o o' [X C] [X' C'] O O' E.
  assert (Lin : forall k e, getf k m = Some e -> In (e_class e, e_id e) shipped).
  { intros k a G. clear - L G. unfold like_shipped in L. induction m as [|[k0 e0] m IH]; cbn [getf] in G; [discriminate|].
    destruct (str_eqb k0 k); [injection G as <-; apply (L k0); now left|apply IH; [|exact G]].
    intros k1 e1 I. apply (L k1). now right. }
  specialize (C true). specialize (C' true).
  rewrite (conversion_mapped m true c e M (like_short _ _ _ L M) X) in C.
  rewrite (conversion_mapped m true c' e' M' (like_short _ _ _ L M') X') in C'.
  injection C as <-. injection C' as <-. cbn [f_classes] in *. rewrite steps_pair in *.
  apply (shipped_agree (e_class e, e_id e) (e_class e', e_id e') o o'); auto; now apply (Lin _ _ M) || now apply (Lin _ _ M').
Qed.
Print Assumptions C125_identified_partial.
Theorem C125_steps_distinct_partial :
  forall m c e f, like_shipped m -> mapped m c e -> e_id e <> lit "#N/A" -> converts m c f -> NoDup (map o_id (f_classes f)).
Proof.
  intros m c e f L M N [X C]. specialize (C true).
  rewrite (conversion_mapped m true c e M (like_short _ _ _ L M) X) in C. injection C as <-. cbn [f_classes].
  rewrite steps_pair. apply shipped_nodup; [|exact N].
  clear - L M. unfold mapped, like_shipped in *. induction m as [|[k0 e0] m IH]; cbn [getf] in M; [discriminate|].
  destruct (str_eqb k0 (c_id c)); [injection M as <-; apply (L k0); now left|apply IH; [|exact M]].
  intros k1 e1 I. apply (L k1). now right.
Qed.
Print Assumptions C125_steps_distinct_partial.
(** Two values outside the mapping get the same identifier. *)
Theorem C125_unmapped_refuted :
  forall m c c', unmapped m c -> unmapped m c' -> c_context c = None -> c_context c' = None ->
    ~ same_words (c_value c) (c_value c') -> ~ identified m c c'.
Proof.
  intros m c c' U U' X X' N I. destruct (C124_unmapped _ _ U X) as (f & C & E). destruct (C124_unmapped _ _ U' X') as (f' & C' & E').
  destruct (I f f' _ _ C C' ltac:(rewrite E; now left) ltac:(rewrite E'; now left) eq_refl) as [_ W]. now apply N.
Qed.
Print Assumptions C125_unmapped_refuted.
(** So do all classes for which the table has no identifier; then even the steps of one path share it. *)
Theorem C125_no_identifier_refuted :
  forall m c e f o, like_shipped m -> mapped m c e -> e_id e = lit "#N/A" -> converts m c f -> In o (f_classes f) -> o_id o = lit "#N/A".
Proof.
  intros m c e f o L M N [X C] O. specialize (C true).
  rewrite (conversion_mapped m true c e M (like_short _ _ _ L M) X) in C. injection C as <-. cbn [f_classes] in O.
  rewrite (undotted e o); auto. rewrite N. cbn. intuition discriminate.
Qed.
Print Assumptions C125_no_identifier_refuted.
Definition count_na : nat := length (filter (fun p => str_eqb (snd p) (lit "#N/A")) shipped).
Example C125_nonvacuous : count_na = 21 /\
  let m := [(lit "x", mkEntry [] (lit "Systems/Rail") (lit "#N/A")); (lit "y", mkEntry [] (lit "Wastes/Other waste") (lit "#N/A"));
            (lit "z", mkEntry [] (lit "Systems") (lit "3"))] in
  (forall e, In e (map snd m) -> existsb (fun p => (str_eqb (fst p) (e_class e) && str_eqb (snd p) (e_id e))%bool) shipped = true) /\
  ~ identified m (mkClassIn (lit "CPC") [] (lit "x") None) (mkClassIn (lit "CPC") [] (lit "y") None) /\
  unmapped m (mkClassIn (lit "CPC") (lit "a") (lit "v") None) /\ unmapped m (mkClassIn (lit "CPC") (lit "b") (lit "w") None) /\
  ~ same_words (lit "a") (lit "b").
Proof.
  split; [vm_compute; reflexivity|]. cbv zeta. split; [|split; [|split; [|split]]].
  - intros e [<-|[<-|[<-|[]]]]; vm_compute; reflexivity.
  - intros I.
    specialize (I (mkFieldOut (lit "ILCD") [mkClassOut (lit "0") (lit "#N/A") (lit "Systems"); mkClassOut (lit "1") (lit "#N/A") (lit "Rail")])
      (mkFieldOut (lit "ILCD") [mkClassOut (lit "0") (lit "#N/A") (lit "Wastes"); mkClassOut (lit "1") (lit "#N/A") (lit "Other waste")])
      (mkClassOut (lit "0") (lit "#N/A") (lit "Systems")) (mkClassOut (lit "0") (lit "#N/A") (lit "Wastes"))).
    destruct I as [_ W]; [split; [reflexivity|intros []; reflexivity]|split; [reflexivity|intros []; reflexivity]|now left|now left|reflexivity|discriminate].
  - split; [reflexivity|discriminate].
  - split; [reflexivity|discriminate].
  - discriminate.
Qed.

(** * C126: all classifications of the two systems are converted, the preferred one first *)
Theorem C126_kept_in_order_partial :
  forall m cs, let kept := filter (fun c => str_in (c_system c) [lit "ISIC rev.4 ecoinvent"; lit "CPC"]) cs in
    (forall l, activity_classes m cs = Ok l -> Forall2 (fun c f => class_conversion m false c = Ok f) kept l) /\
    (forall l b, flow_classes m cs = Ok (l, b) -> Forall2 (fun c f => class_conversion m true c = Ok f) kept l).
Proof.
  intros m cs kept. split.
  - intros l H. rewrite activity_is in H. apply mapM_forall2, H.
  - intros l b H. rewrite flow_is in H. change (filter is_kept cs) with kept in H.
    destruct (mapM (class_conversion m true) kept) as [l'|] eqn:E; [|discriminate]. cbn [bind] in H. injection H as <- _.
    apply mapM_forall2, E.
Qed.
Print Assumptions C126_kept_in_order_partial.
(** The preferred system is first only if it is first in the data set: with a CPC classification before,
    the first class of the activity is that of CPC; and the other way round for products. *)
Theorem C126_preferred_first_refuted :
  forall m c c' cs l, c_system c = lit "CPC" -> c_system c' = lit "ISIC rev.4 ecoinvent" ->
    (activity_classes m (c :: c' :: cs) = Ok l -> exists f l', l = f :: l' /\ class_conversion m false c = Ok f) /\
    (forall b, flow_classes m (c' :: c :: cs) = Ok (l, b) -> exists f l', l = f :: l' /\ class_conversion m true c' = Ok f).
Proof.
  intros m c c' cs l S S'. split.
  - intros H. apply (proj1 (C126_kept_in_order_partial m (c :: c' :: cs))) in H. cbv zeta in H. cbn [filter] in H.
    rewrite S in H. cbn [str_in] in H. replace (str_in (lit "CPC") _) with true in H by reflexivity.
    inversion H; subst. eauto.
  - intros b H. apply (proj2 (C126_kept_in_order_partial m (c' :: c :: cs))) in H. cbv zeta in H. cbn [filter] in H.
    rewrite S' in H. replace (str_in (lit "ISIC rev.4 ecoinvent") _) with true in H by reflexivity.
    inversion H; subst. eauto.
Qed.
Print Assumptions C126_preferred_first_refuted.
(** All converted classifications claim to be of the same system, so an activity with a CPC and an ISIC
    classification has two different classifications of the system ILCD. *)
Theorem C126_one_system_refuted :
  forall m cs l, activity_classes m cs = Ok l ->
    1 < length (filter (fun c => str_in (c_system c) [lit "ISIC rev.4 ecoinvent"; lit "CPC"]) cs) ->
    ~ NoDup (map f_name l).
Proof.
  intros m cs l H L N. pose proof (proj1 (C126_kept_in_order_partial m cs) l H) as F. cbv zeta in F.
  rewrite activity_is in H. apply all_ilcd in H.
  destruct F as [|c f cs0 l0 A [|c' f' cs1 l1 B F]]; cbn in L; try lia.
  inversion H as [|? ? H1 H2]; subst. inversion H2 as [|? ? H3 H4]; subst. cbn [map] in N. rewrite H1, H3 in N.
  inversion N as [|? ? Z _]; subst. apply Z. now left.
Qed.
Print Assumptions C126_one_system_refuted.
(** The by-product class is the last one given. *)
Theorem C126_by_product :
  forall m cs l b, flow_classes m cs = Ok (l, b) ->
    match b with
    | None => forall c, In c cs -> c_system c <> lit "By-product classification"
    | Some v => exists before c after, cs = before ++ c :: after /\ c_system c = lit "By-product classification" /\ c_value c = v /\
                  forall c', In c' after -> c_system c' <> lit "By-product classification"
    end.
Proof.
  intros m cs l b H. rewrite flow_is in H. destruct (mapM _ _); [|discriminate]. cbn [bind] in H.
  assert (E : last_by_product None cs = b) by congruence. clear H. revert E.
  assert (G : forall cs b0, last_by_product b0 cs = b ->
    (b = b0 /\ forall c, In c cs -> c_system c <> lit "By-product classification") \/
    exists v before c after, b = Some v /\ cs = before ++ c :: after /\ c_system c = lit "By-product classification" /\ c_value c = v /\
                  forall c', In c' after -> c_system c' <> lit "By-product classification").
  { clear. induction cs as [|c cs IH]; intros b0 E; cbn [last_by_product] in E.
    - left. split; [congruence|intros c []].
    - destruct (str_eqb (c_system c) by_product) eqn:Q.
      + apply str_eqb_eq in Q. destruct (IH _ E) as [[-> F]|(v & be & d & af & A & B & C)].
        * right. exists (c_value c), [], c, cs. repeat split; auto.
        * right. exists v, (c :: be), d, af. rewrite B. repeat split; tauto.
      + destruct (IH _ E) as [[-> F]|(v & be & d & af & A & B & C)].
        * left. split; [reflexivity|]. intros d [<-|I]; [|now apply F]. intros Z.
          change by_product with (lit "By-product classification") in Q. rewrite Z, str_eqb_refl in Q. discriminate.
        * right. exists v, (c :: be), d, af. rewrite B. repeat split; tauto. }
  intros E. destruct (G cs None E) as [[-> F]|(v & be & d & af & -> & B & C & D & F)]; [exact F|].
  exists be, d, af. auto.
Qed.
Print Assumptions C126_by_product.
Definition ex_cpc := mkClassIn (lit "CPC") (lit "011: Cereals") (lit "x") None.
Definition ex_isic := mkClassIn (lit "ISIC rev.4 ecoinvent") (lit "0111:Growing of cereals") (lit "y") None.
Definition ex_by := mkClassIn (lit "By-product classification") (lit "Waste") (lit "z") None.
Definition ex_other v := mkFieldOut (lit "ILCD") [mkClassOut (lit "0") (lit "0") v].
Example C126_nonvacuous :
  activity_classes [] [ex_cpc; ex_by; ex_isic] = Ok [ex_other (lit "011: Cereals"); ex_other (lit "0111:Growing of cereals")] /\
  flow_classes [] [ex_isic; ex_by; ex_cpc] = Ok ([ex_other (lit "0111:Growing of cereals"); ex_other (lit "011: Cereals")], Some (lit "Waste")).
Proof. split; reflexivity. Qed.

(** * C127: contexts *)
(** A classification of an activity that says which context it comes from ends the conversion. *)
Theorem C127_context_stops_refuted :
  forall m cs c x y, In c cs -> c_system c = lit "CPC" \/ c_system c = lit "ISIC rev.4 ecoinvent" ->
    c_context c = Some (x :: y) -> exists e, activity_classes m cs = Err e.
Proof.
  intros m cs c x y I S X. rewrite activity_is. apply mapM_err_in with c.
  - apply filter_In. split; [exact I|]. unfold is_kept. destruct S as [-> | ->]; reflexivity.
  - unfold class_conversion. destruct (get_classification m c); cbn [bind]; [|now eexists].
    unfold class_not_converted. rewrite X. now eexists.
Qed.
Print Assumptions C127_context_stops_refuted.
(** In exchanges, and without contexts in activities, every classification is converted. *)
Theorem C127_converted_partial :
  forall m cs, like_shipped m ->
    (exists l b, flow_classes m cs = Ok (l, b)) /\
    (Forall (fun c => c_context c = None) cs -> exists l, activity_classes m cs = Ok l).
Proof.
  intros m cs L.
  assert (G : forall c, exists l, get_classification m c = Ok l).
  { intros c. unfold get_classification, find_levels. destruct (getf (c_id c) m) as [e|] eqn:E.
    - exists (steps e). apply put_steps. eapply like_short; eauto.
    - destruct (getf null_uuid m) as [e|] eqn:F; [|now eexists]. destruct (str_eqb _ _); [|now eexists].
      exists (steps e). apply put_steps. eapply like_short; eauto. }
  assert (A : forall k l, (forall c, In c l -> class_not_converted k c = Ok tt) -> exists r, mapM (class_conversion m k) l = Ok r).
  { intros k l. induction l as [|c l IH]; intros H; [now exists []|]. cbn [mapM]. unfold class_conversion at 1.
    destruct (G c) as [r ->]. cbn [bind]. rewrite (H c) by now left. cbn [bind].
    destruct IH as [rs ->]; [intros d I; apply H; now right|]. cbn [bind]. now eexists. }
  split.
  - rewrite flow_is. destruct (A true (filter is_kept cs)) as [r ->]; [|cbn [bind]; eauto].
    intros c _. unfold class_not_converted. destruct (c_context c) as [[|]|]; reflexivity.
  - intros F. rewrite activity_is. apply A. intros c I. apply filter_In in I. rewrite Forall_forall in F.
    unfold class_not_converted. now rewrite (F c (proj1 I)).
Qed.
Print Assumptions C127_converted_partial.
Example C127_nonvacuous :
  activity_classes [] [mkClassIn (lit "CPC") (lit "011: Cereals") (lit "x") (Some (lit "c"))] = Err AttributeError /\
  activity_classes [] [ex_cpc] = Ok [ex_other (lit "011: Cereals")] /\ like_shipped [].
Proof. repeat split. intros k e []. Qed.

(** * C128: tags of exchanges *)
Definition tag_value (e : elem) : option pyval := getf (lit "tag") (content (elem2dict e)).
Definition tagged (e : elem) (ts : list pystr) : Prop :=
  Forall proper (ekids e) /\ distinct_attributes (eattrib e) /\
  exists ks, named_kids (lit "tag") (ekids e) ks /\ Forall2 plain_text ks ts.
Lemma tag_value_is e ts : tagged e ts ->
  tag_value e = match ts with [] => None | [t] => Some (VStr t) | _ => Some (VList (map VStr ts)) end.
Proof.
  intros (P & D & ks & N & F). destruct (C25_content_kept_partial e P D) as (_ & _ & K).
  assert (X : xml_name (lit "tag")).
  { split; [discriminate|]. split; [cbn; intuition discriminate|]. split; intros r; discriminate. }
  unfold tag_value. rewrite (K _ _ X N). clear - F.
  assert (M : map elem2dict ks = map VStr ts) by (induction F; cbn; [reflexivity|]; f_equal; [now apply read_plain|auto]).
  destruct F as [|k t ks0 ts0 A [|k' t' ks1 ts1 B F]]; cbn in M; try reflexivity.
  - now rewrite (read_plain _ _ A).
  - cbn [map]. do 2 f_equal. exact M.
Qed.
Lemma mapM_strs l : mapM as_str (map VStr l) = Ok l.
Proof. induction l; cbn; [reflexivity|]. now rewrite IHl. Qed.
Lemma tag_comment_one t : t <> [] -> tag_comment (Some (VStr t)) = Ok (Some (lit "Tag " ++ join (lit "; ") (letters t))).
Proof.
  intros N. destruct t as [|c t]; [contradiction|]. unfold tag_comment. cbn [truthy iterate bind].
  replace (map (fun c => VStr [c]) (c :: t)) with (map VStr (letters (c :: t))) by (unfold letters; now rewrite map_map).
  rewrite mapM_strs. reflexivity.
Qed.
Lemma plain_nonempty e s : plain_text e s -> s <> [].
Proof. intros (_ & _ & _ & B) ->. apply B. constructor. Qed.
Lemma join_letters c c' t : length (join (lit "; ") (letters (c :: c' :: t))) > length (c :: c' :: t).
Proof.
  assert (A : forall t c, length (join (lit "; ") (letters (c :: t))) = length (c :: t) + 2 * length t).
  { clear. induction t as [|d t IH]; intros c; [reflexivity|]. unfold letters in *. cbn [map].
    rewrite join_cons by discriminate. rewrite !app_length. specialize (IH d). cbn [map] in IH. rewrite IH. cbn. lia. }
  rewrite A. cbn. lia.
Qed.
(** The comment of an exchange lists its tags, unless there is one with several letters. *)
Theorem C128_tags_partial :
  forall e ts, tagged e ts -> (tag_comment (tag_value e) = Ok (listing ts) <-> forall t, ts = [t] -> length t = 1).
Proof.
  intros e ts T. rewrite (tag_value_is _ _ T). destruct T as (_ & _ & ks & _ & F). destruct ts as [|t [|t' ts]].
  - split; [intros _ t; discriminate|reflexivity].
  - inversion F; subst. match goal with H : plain_text _ t |- _ => apply plain_nonempty in H; rename H into N end.
    rewrite (tag_comment_one _ N). split.
    + intros H z Z. assert (z = t) by congruence. subst z. destruct t as [|c [|c' t]]; [contradiction|reflexivity|exfalso].
      change (listing [c :: c' :: t]) with (Some (lit "Tag " ++ join (lit "; ") [c :: c' :: t])) in H. assert (E : join (lit "; ") (letters (c :: c' :: t)) = join (lit "; ") [c :: c' :: t]).
      { apply (app_inv_head (lit "Tag ")). congruence. }
      pose proof (join_letters c c' t) as L. rewrite E in L. cbn [join] in L. lia.
    + intros H. specialize (H t eq_refl). destruct t as [|c [|c' t]]; try discriminate. reflexivity.
  - split; [intros _ x; discriminate|]. intros _. unfold tag_comment. cbn [truthy map iterate bind].
    change (VStr t :: VStr t' :: map VStr ts) with (map VStr (t :: t' :: ts)). rewrite mapM_strs. reflexivity.
Qed.
Print Assumptions C128_tags_partial.
(** One tag is spelled out. *)
Theorem C128_one_tag_refuted :
  forall e t, tagged e [t] -> length t > 1 ->
    tag_comment (tag_value e) = Ok (Some (lit "Tag " ++ join (lit "; ") (letters t))) /\ tag_comment (tag_value e) <> Ok (Some (lit "Tag " ++ t)).
Proof.
  intros e t T L. split.
  - rewrite (tag_value_is _ _ T). apply tag_comment_one. intros ->. cbn in L. lia.
  - intros H. assert (G : forall x, [t] = [x] -> length x = 1).
    { apply (proj1 (C128_tags_partial e [t] T)). exact H. }
    specialize (G t eq_refl). lia.
Qed.
Print Assumptions C128_one_tag_refuted.
Example C128_nonvacuous :
  let tag s := Elem (lit "tag") [] (Some s) None [] in
  tagged (Elem (lit "intermediateExchange") [] None None [tag (lit "car")]) [lit "car"] /\
  tag_comment (tag_value (Elem (lit "intermediateExchange") [] None None [tag (lit "car")])) = Ok (Some (lit "Tag c; a; r")) /\
  tag_comment (tag_value (Elem (lit "intermediateExchange") [] None None [tag (lit "car"); tag (lit "bus")])) = Ok (Some (lit "Tag car; bus")).
Proof.
  cbv zeta. split; [|split; reflexivity].
  assert (N : name_of (lit "tag") (lit "tag")) by (split; [cbn; intuition discriminate|now left]).
  split; [|split].
  - constructor; [|constructor]. apply (proper_elem _ _ _ _ _ (lit "tag")); [exact N| |constructor].
    split; [discriminate|]. split; [cbn; intuition discriminate|]. split; intros r; discriminate.
  - exists []. split; constructor.
  - exists [Elem (lit "tag") [] (Some (lit "car")) None []]. split.
    + apply nk_take; [exact N|constructor].
    + constructor; [|constructor]. repeat split. intros B. inversion B; subst. discriminate.
Qed.
