(** Proofs about exchanges and their flow data sets. *)
From Coq Require Import Ascii String List Bool Arith NArith ZArith Lia.
From Verif Require Import PyBase PyBaseFacts PyValues MultiLangModel DotDictModel DotDictProofs UtilsModel ConverterModel
  XmlModel XmlSpec XmlProofs XmlProps KeysModel KeysSpec KeysProofs HandleModel HandleSpec OutputProofs HandleProofs ReferProofs
  AsideModel AsideSpec AsideProofs ReferModel ReferSpec InflowModel InflowSpec.
Import ListNotations.
Local Open Scope string_scope.
Local Open Scope list_scope.

(** * Reading *)
Lemma read_due keys doc cs : proper doc -> closes [] doc cs -> read keys doc = flat_map (due keys) cs.
Proof.
  intros P C. unfold read. pose proof (gen_spec keys doc P [] cs [] C) as G. rewrite app_nil_r in G. rewrite G. cbn.
  now rewrite app_nil_r.
Qed.
Lemma filter_flat_map {A B} (f : B -> bool) (g : A -> list B) l : filter f (flat_map g l) = flat_map (fun x => filter f (g x)) l.
Proof. induction l as [|x l IH]; [reflexivity|]. cbn [flat_map]. now rewrite filter_app, IH. Qed.
Lemma filter_none {A} (f : A -> bool) l : (forall x, In x l -> f x = false) -> filter f l = [].
Proof. induction l as [|x l IH]; intros H; [reflexivity|]. cbn. rewrite (H x (or_introl eq_refl)). apply IH. intros y Y. apply H. now right. Qed.
Lemma read_occurring keys doc k l : proper doc -> In k keys -> ~ In (ch "@") k -> occurring doc k l ->
  filter (fun kt => str_eqb (fst kt) k) (read keys doc) = map (fun e => (k, elem2dict e)) l.
Proof.
  intros P I N (cs & C & ->). rewrite (read_due _ _ _ P C), filter_flat_map. clear C.
  induction cs as [|c cs IH]; [reflexivity|]. cbn [flat_map filter]. rewrite IH. unfold due. rewrite filter_app.
  rewrite (filter_none _ (flat_map _ (eattrib (snd c)))), app_nil_r.
  2:{ intros y Y. apply in_flat_map in Y. destruct Y as (kv & _ & Y). destruct (in_dec _ _ _); [|contradiction].
      destruct Y as [<-|[]]. cbn [fst]. destruct (str_eqb _ k) eqn:Q; [|reflexivity]. apply str_eqb_eq in Q. destruct N. rewrite <- Q.
      apply in_or_app. right. right. now left. }
  destruct (in_dec (list_eq_dec N.eq_dec) (fst c) keys) as [J|J]; cbn [filter fst].
  - destruct (str_eqb (fst c) k) eqn:Q; [|reflexivity]. apply str_eqb_eq in Q. subst k. reflexivity.
  - destruct (str_eqb (fst c) k) eqn:Q; [|reflexivity]. apply str_eqb_eq in Q. subst k. contradiction.
Qed.
Lemma read_one doc k l : proper doc -> ~ In (ch "@") k -> occurring doc k l ->
  map snd (read [k] doc) = map elem2dict l.
Proof.
  intros P N O. pose proof (read_occurring [k] doc k l P (or_introl eq_refl) N O) as R.
  assert (F : forall r : list (pystr * pyval), (forall kt, In kt r -> In (fst kt) [k]) -> filter (fun kt => str_eqb (fst kt) k) r = r).
  { induction r as [|kt r IH]; [reflexivity|]. intros H. cbn [filter]. destruct (H kt (or_introl eq_refl)) as [E|[]].
    replace (str_eqb (fst kt) k) with true by (rewrite <- E; symmetry; apply str_eqb_refl). f_equal. apply IH. intros y Y. apply H. now right. }
  rewrite F in R. - rewrite R, map_map. reflexivity.
  - intros [k' x] H. apply (read_keys _ _ _ _ P H).
Qed.
Lemma closes_proper e : proper e -> forall p cs, closes p e cs -> Forall (fun c => proper (snd c)) cs.
Proof.
  induction e as [t a x l kids IH] using elem_ind2. intros P p cs C. inversion P as [? ? ? ? ? n Hn Hx Hk]; subst.
  inversion C as [? ? ? ? ? n' css Hn' Hc]; subst. apply Forall_app. split; [|repeat constructor; exact P].
  clear C P. revert css Hc. generalize (p ++ lit "/" ++ n'). intros q.
  induction kids as [|k ks IHk]; intros css Hc; inversion Hc; subst; [constructor|].
  inversion IH; inversion Hk; subst. apply Forall_app. split; [eauto|]. now apply IHk.
Qed.
Lemma occurring_exists doc p : proper doc -> exists l, occurring doc p l.
Proof. intros P. destruct (closes_exist doc P []) as [cs C]. now exists (map snd (filter (fun c => str_eqb (fst c) p) cs)), cs. Qed.
Lemma occurring_proper doc p l : proper doc -> occurring doc p l -> Forall proper l.
Proof.
  intros P (cs & C & ->). pose proof (closes_proper doc P [] cs C) as F. rewrite Forall_forall in *. intros e H.
  apply in_map_iff in H. destruct H as (c & <- & H). apply filter_In in H. now apply F.
Qed.
Lemma occurring_one doc p l l' : proper doc -> occurring doc p l -> occurring doc p l' -> ~ In (ch "@") p -> map elem2dict l = map elem2dict l'.
Proof. intros P O O' N. now rewrite <- (read_one doc p l P N O), <- (read_one doc p l' P N O'). Qed.

(** * The description of a flow *)
Lemma name_lists f : proper f -> exists l, ensure_list (elem2dict f) true = Ok l.
Proof.
  intros P. assert (K : Forall proper (ekids f)) by now inversion P.
  destruct (elem2dict_shape f K) as [(s & -> & _)| ->]; cbn [ensure_list].
  - destruct (str_eqb s []); now eexists.
  - destruct (raw f) as [|kv r]; now eexists.
Qed.
Lemma info_steps_ok l : (forall k x, In (k, x) l -> exists y, ensure_list x true = Ok y) -> forall i, exists j, info_steps i l = Ok j.
Proof.
  induction l as [|[k x] l IH]; intros H i; [now exists i|]. cbn [info_steps].
  assert (exists i', info_step i (k, x) = Ok i') as [i' ->].
  { unfold info_step. cbn [fst snd]. destruct (H k x (or_introl eq_refl)) as [y ->].
    destruct (str_eqb k kftype), (str_eqb k kfname), (str_eqb k kfcas), (str_eqb k kfformula); cbn [bind]; now eexists. }
  cbn [bind]. apply IH. intros k' x' I. apply (H k' x'). now right.
Qed.
Lemma flow_key_plain k : In k flow_keys -> ~ In (ch "@") k.
Proof.
  intros I A. assert (E : forallb (fun k => negb (existsb (N.eqb (ch "@")) k)) flow_keys = true) by (vm_compute; reflexivity).
  rewrite forallb_forall in E. specialize (E k I). apply negb_true_iff in E.
  assert (existsb (N.eqb (ch "@")) k = true) by (apply existsb_exists; exists (ch "@"); split; [exact A|apply N.eqb_refl]). congruence.
Qed.
Lemma info_exists doc : proper doc -> exists j, info_steps no_info (read flow_keys doc) = Ok j.
Proof.
  intros P. apply info_steps_ok. intros k x I. pose proof (read_keys _ _ _ _ P I) as K.
  destruct (read_parts _ _ _ _ P (flow_key_plain k K) I) as (f & Pf & ->). apply name_lists.
  clear I K. induction Pf; [exact P|]. inversion P as [? ? ? ? ? m Hm X F]; subst. rewrite Forall_forall in F. auto.
Qed.
Definition last_value (k : pystr) (l : list (pystr * pyval)) (d : option pyval) : option pyval :=
  fold_left (fun o kt => if str_eqb (fst kt) k then Some (snd kt) else o) l d.
Lemma last_value_filter k l : forall d, last_value k l d = last_value k (filter (fun kt => str_eqb (fst kt) k) l) d.
Proof.
  induction l as [|kt l IH]; intros d; [reflexivity|]. unfold last_value in *. cbn [fold_left filter].
  destruct (str_eqb (fst kt) k) eqn:Q; cbn [fold_left]; rewrite ?Q; apply IH.
Qed.
Ltac step_cases :=
  match goal with
  | H : info_steps ?i (?kt :: ?l) = Ok ?j |- _ =>
      cbn [info_steps] in H; unfold info_step in H
  end.
Lemma info_values l : (forall kt, In kt l -> In (fst kt) flow_keys) -> forall i j, info_steps i l = Ok j ->
  i_type j = last_value kftype l (i_type i) /\ i_cas j = last_value kfcas l (i_cas i) /\
  i_formula j = last_value kfformula l (i_formula i) /\ i_ref j = last_value kfref l (i_ref i).
Proof.
  induction l as [|[k x] l IH]; intros K i j H; [injection H as <-; now repeat split|].
  cbn [info_steps] in H. destruct (info_step i (k, x)) as [i'|] eqn:S; [|discriminate]. cbn [bind] in H.
  apply IH in H; [|intros kt I; apply K; now right]. destruct H as (-> & -> & -> & ->).
  assert (In k flow_keys) as Ik by (apply (K (k, x)); now left).
  unfold last_value. cbn [fold_left fst snd]. unfold info_step in S. cbn [fst snd] in S.
  destruct Ik as [<-|[<-|[<-|[<-|[<-|[]]]]]];
    match type of S with context [str_eqb ?a kftype] => idtac end;
    repeat match goal with
    | |- context [str_eqb ?a ?b] => let r := eval vm_compute in (str_eqb a b) in change (str_eqb a b) with r
    end;
    repeat match type of S with
    | context [str_eqb ?a ?b] => let r := eval vm_compute in (str_eqb a b) in change (str_eqb a b) with r in S
    end; cbv iota in *.
  - injection S as <-. now repeat split.
  - destruct (ensure_list x true) as [y|]; [|discriminate]. cbn [bind] in S. injection S as <-. now repeat split.
  - injection S as <-. now repeat split.
  - injection S as <-. now repeat split.
  - injection S as <-. now repeat split.
Qed.
Definition name_values (l : list (pystr * pyval)) : list pyval :=
  flat_map (fun kt => match ensure_list (snd kt) true with Ok y => y | Err _ => [] end) l.
Lemma info_names l : forall i j, info_steps i l = Ok j ->
  i_names j = match filter (fun kt => str_eqb (fst kt) kfname) l with
              | [] => i_names i
              | f => Some (match i_names i with Some n => n | None => [] end ++ name_values f)
              end.
Proof.
  induction l as [|[k x] l IH]; intros i j H; [now injection H as <-|].
  cbn [info_steps] in H. destruct (info_step i (k, x)) as [i'|] eqn:S; [|discriminate]. cbn [bind] in H.
  apply IH in H. rewrite H. clear H IH. cbn [filter fst]. unfold info_step in S. cbn [fst snd] in S.
  destruct (str_eqb k kftype) eqn:Q1.
  { injection S as <-. apply str_eqb_eq in Q1. subst k. reflexivity. }
  destruct (str_eqb k kfname) eqn:Q2.
  - destruct (ensure_list x true) as [y|] eqn:Y; [|discriminate]. cbn [bind] in S. injection S as <-. cbn [i_names].
    destruct (filter _ l) as [|f fs]; unfold name_values; cbn [flat_map snd]; rewrite Y, ?app_nil_r; [reflexivity|].
    now rewrite <- app_assoc.
  - destruct (str_eqb k kfcas); [now injection S as <-|]. destruct (str_eqb k kfformula); now injection S as <-.
Qed.
(** for one document *)
Section Info.
  Context (doc : elem) (i : info).
  Context (P : proper doc) (H : info_steps no_info (read flow_keys doc) = Ok i).
  Lemma keys_read kt : In kt (read flow_keys doc) -> In (fst kt) flow_keys.
  Proof. destruct kt. apply (read_keys _ _ _ _ P). Qed.
  Lemma last_occurring k l : In k flow_keys -> occurring doc k l ->
    last_value k (read flow_keys doc) None = match rev l with [] => None | e :: _ => Some (elem2dict e) end.
  Proof.
    intros I O. rewrite last_value_filter, (read_occurring flow_keys doc k l P I (flow_key_plain k I) O).
    clear O. destruct l as [|e l] using rev_ind; [reflexivity|]. rewrite rev_app_distr, map_app. cbn [map rev app].
    unfold last_value. rewrite fold_left_app. cbn [fold_left fst snd]. now rewrite str_eqb_refl.
  Qed.
  Lemma one_value k s : In k flow_keys -> one_text doc k s -> last_value k (read flow_keys doc) None = Some (VStr s).
  Proof. intros I (e & O & T). rewrite (last_occurring k [e] I O). cbn [rev app]. now rewrite (read_plain _ _ T). Qed.
  Lemma type_value s : one_text doc at_type s -> i_type i = Some (VStr s).
  Proof. intros T. destruct (info_values _ keys_read _ _ H) as (-> & _). apply one_value; [|exact T]. now left. Qed.
  Lemma reference_value s : one_text doc at_reference s -> i_ref i = Some (VStr s).
  Proof. intros T. destruct (info_values _ keys_read _ _ H) as (_ & _ & _ & ->). apply one_value; [|exact T]. do 4 right. now left. Qed.
  Lemma cas_value s : one_text doc at_cas s -> i_cas i = Some (VStr s).
  Proof. intros T. destruct (info_values _ keys_read _ _ H) as (_ & -> & _). apply one_value; [|exact T]. do 2 right. now left. Qed.
  Lemma formula_value s : one_text doc at_formula s -> i_formula i = Some (VStr s).
  Proof. intros T. destruct (info_values _ keys_read _ _ H) as (_ & _ & -> & _). apply one_value; [|exact T]. do 3 right. now left. Qed.
  Lemma no_type : occurring doc at_type [] -> i_type i = None.
  Proof. intros O. destruct (info_values _ keys_read _ _ H) as (-> & _). apply (last_occurring at_type []); [now left|exact O]. Qed.
  Lemma no_reference : occurring doc at_reference [] -> i_ref i = None.
  Proof. intros O. destruct (info_values _ keys_read _ _ H) as (_ & _ & _ & ->). apply (last_occurring at_reference []); [do 4 right; now left|exact O]. Qed.
  Lemma names_read l : occurring doc at_name l ->
    i_names i = match l with [] => None | _ => Some (flat_map (fun e => match ensure_list (elem2dict e) true with Ok y => y | Err _ => [] end) l) end.
  Proof.
    intros O. rewrite (info_names _ _ _ H). change kfname with at_name.
    rewrite (read_occurring flow_keys doc at_name l P (or_intror (or_introl eq_refl)) (flow_key_plain _ (or_intror (or_introl eq_refl))) O).
    destruct l as [|e l]; [reflexivity|]. cbn [map]. unfold name_values. cbn [app i_names no_info].
    change ((at_name, elem2dict e) :: map (fun e0 => (at_name, elem2dict e0)) l) with (map (fun e0 => (at_name, elem2dict e0)) (e :: l)).
    f_equal. rewrite flat_map_concat_map, map_map, <- flat_map_concat_map. reflexivity.
  Qed.
End Info.

(** * Elements *)
Lemma kids_get e d n ks : record_element e -> elem2dict e = VDict d -> xml_name (lit n) -> named_kids (lit n) (ekids e) ks ->
  getf (lit n) d = match ks with [] => None | [k] => Some (elem2dict k) | _ => Some (VList (map elem2dict ks)) end.
Proof. intros R Q X K. destruct (kids_read e d n R Q X) as (ks' & K' & _ & G). now rewrite <- (named_one _ _ _ _ K K') in G. Qed.
Lemma child_get e d n k : record_element e -> elem2dict e = VDict d -> xml_name (lit n) -> child e n k -> getf (lit n) d = Some (elem2dict k).
Proof. intros R Q X K. exact (kids_get e d n [k] R Q X K). Qed.
Ltac xname2 := repeat split; try discriminate; vm_compute; intuition discriminate.
Lemma x_krefprop : xml_name krefprop. Proof. xname2. Qed.
Lemma x_krefflow : xml_name krefflow. Proof. xname2. Qed.
Lemma x_mean : xml_name (lit "meanValue"). Proof. xname2. Qed.
Lemma xn_comment : xml_name kcomment. Proof. xname2. Qed.
Lemma x_allocations : xml_name (lit "allocations"). Proof. xname2. Qed.
Lemma x_allocation : xml_name (lit "allocation"). Proof. xname2. Qed.

Lemma spoken_read k ls : spoken k ls ->
  (elem2dict k = VStr (snd ls) /\ fst ls = lit "en" \/ elem2dict k = VDict [(klang, VStr (fst ls)); (ktext, VStr (snd ls))]) /\ snd ls <> [].
Proof.
  intros [[T E]|(L & T & B)].
  - split; [left; split; [now apply read_plain|exact E]|]. destruct T as (_ & _ & _ & B). intros Z. rewrite Z in B. apply B. constructor.
  - split; [right|intros E; apply B; rewrite E; constructor]. destruct k as [t a x tl ks]. destruct L as [A K]. cbn in A, K, T. subst.
    cbn [elem2dict map fold_left]. unfold own_entries. rewrite (real_nonblank _ B). reflexivity.
Qed.
Definition spoken_value (ls : pystr * pystr) : pyval := VDict [(klang, VStr (fst ls)); (ktext, VStr (snd ls))].
Lemma nonempty_truth s : s <> [] -> truth (VStr s) = true.
Proof. destruct s; [congruence|reflexivity]. Qed.
Lemma spoken_list k ls : spoken k ls -> ensure_list (elem2dict k) true = Ok [spoken_value ls].
Proof.
  intros S. destruct (spoken_read k ls S) as [[[-> E]| ->] N]; cbn [ensure_list].
  - destruct (snd ls) eqn:Q; [congruence|]. cbn [str_eqb]. unfold english, spoken_value. rewrite E, ?Q. reflexivity.
  - change (Ok (if truth (VStr (snd ls)) then [spoken_value ls] else []) = Ok [spoken_value ls]). now rewrite (nonempty_truth _ N).
Qed.
Lemma spoken_dict k ls : spoken k ls -> dict_or_text (elem2dict k) = spoken_value ls.
Proof. intros S. destruct (spoken_read k ls S) as [[[-> E]| ->] N]; [|reflexivity]. cbn. unfold english, spoken_value. now rewrite E. Qed.
Lemma keep_spoken l : Forall (fun ls : pystr * pystr => snd ls <> []) l -> keep_texts (map spoken_value l) = Ok (map spoken_value l).
Proof.
  induction 1 as [|ls l N F IH]; [reflexivity|]. cbn [map keep_texts].
  change (bind (keep_texts (map spoken_value l)) (fun r => Ok (if truth (VStr (snd ls)) then spoken_value ls :: r else r)) = Ok (spoken_value ls :: map spoken_value l)).
  rewrite IH. cbn [bind]. now rewrite (nonempty_truth _ N).
Qed.
Section Notes.
  Context (language : pyval).
  Lemma add_spoken ls : add_note language [] (spoken_value ls) = Ok (note_of ls).
  Proof. reflexivity. Qed.
  Lemma add_spoken_all l : mapM (add_note language []) (map spoken_value l) = Ok (map note_of l).
  Proof. induction l as [|ls l IH]; [reflexivity|]. cbn [map mapM]. rewrite add_spoken, IH. reflexivity. Qed.
  Lemma spoken_comments e d l : record_element e -> elem2dict e = VDict d -> comments_of e l -> comments language (elem2dict e) = Ok (map note_of l).
  Proof.
    intros R Q (ks & K & F). unfold comments. rewrite Q. cbn [get_or bind].
    assert (G := kids_get e d "generalComment" ks R Q xn_comment K). change (lit "generalComment") with kcomment in G. rewrite G.
    assert (N : Forall (fun ls : pystr * pystr => snd ls <> []) l).
    { clear -F. induction F as [|k ls ks l S F IH]; constructor; [|exact IH]. now destruct (spoken_read _ _ S). }
    assert (M : map dict_or_text (map elem2dict ks) = map spoken_value l).
    { clear -F. induction F as [|k ls ks l S F IH]; [reflexivity|]. cbn [map]. now rewrite (spoken_dict _ _ S), IH. }
    destruct ks as [|k [|k2 ks]].
    - inversion F; subst. reflexivity.
    - inversion F as [|? ls ? l' S F']; subst. inversion F'; subst. rewrite (spoken_list _ _ S). cbn [bind]. apply (add_spoken_all [ls]).
    - cbn [ensure_list]. rewrite M, (keep_spoken _ N). cbn [bind]. apply add_spoken_all.
  Qed.
End Notes.

(** * Properties *)
Lemma property_number p n i ds : flow_property p n i ds -> sub_item kinternal (elem2dict p) = Ok (VStr n).
Proof.
  intros (R & A & _). destruct (record_dict p R) as [d Q]. rewrite Q. cbn [sub_item].
  assert (G : getf (at_ "dataSetInternalID") d = Some (VStr n)) by (apply (record_attr p d _ R Q); now exists n).
  change (at_ "dataSetInternalID") with kinternal in G. now rewrite G.
Qed.
Lemma property_reference p n i ds : flow_property p n i ds ->
  exists r, sub_item krefprop (elem2dict p) = Ok (elem2dict r) /\ reference r i ds.
Proof.
  intros (R & _ & r & C & H). destruct (record_dict p R) as [d Q]. rewrite Q. exists r. split; [|exact H]. cbn [sub_item].
  now rewrite (child_get p d "referenceToFlowPropertyDataSet" r R Q x_krefprop C : getf krefprop d = _).
Qed.
Lemma property_id p n i ds : flow_property p n i ds -> object_id krefprop (elem2dict p) = Ok i.
Proof.
  intros H. destruct (property_reference p n i ds H) as (r & E & F). unfold object_id. rewrite E. cbn [bind].
  destruct (reference_read r i ds F) as (d & -> & A & _). change kref with kobject in A. cbn [sub_item]. now rewrite A.
Qed.
Lemma property_described p n i s k : flow_property p n i [k] -> in_language k s -> description (elem2dict p) = Ok s.
Proof.
  intros H L. destruct (property_reference p n i [k] H) as (r & E & F). unfold description. rewrite E. cbn [bind].
  destruct (reference_read r i [k] F) as (d & -> & _ & B). change kshort with kdescription in B. cbn [sub_item]. rewrite B. cbn [bind].
  destruct (in_language_read k s L) as [l ->]. reflexivity.
Qed.
Lemma property_undescribed p n i ds : flow_property p n i ds -> differently_described ds -> exists e, description (elem2dict p) = Err e.
Proof.
  intros H D. destruct (property_reference p n i ds H) as (r & E & F). unfold description. rewrite E. cbn [bind].
  destruct (reference_read r i ds F) as (d & -> & _ & B). change kshort with kdescription in B. cbn [sub_item]. rewrite B.
  destruct D as [->|[L|(k & s & -> & T)]].
  - now exists KeyError.
  - destruct ds as [|a [|b ds]]; cbn in L; try lia. now exists TypeError.
  - cbn [bind]. rewrite (read_plain _ _ T). now exists TypeError.
Qed.

Lemma fold_put_distinct {A} (l : list (pystr * A)) : NoDup (map fst l) -> forall d, (forall k, In k (map fst l) -> ~ In k (map fst d)) ->
  fold_left (fun d kv => putf (fst kv) (snd kv) d) l d = d ++ l.
Proof.
  induction l as [|[k v] l IH]; intros N d D; [now rewrite app_nil_r|]. cbn [fold_left fst snd]. inversion N as [|? ? N1 N2]; subst.
  assert (P : putf k v d = d ++ [(k, v)]).
  { assert (K : ~ In k (map fst d)) by (apply D; now left). clear -K. induction d as [|[k' v'] d IH]; [reflexivity|]. cbn [putf].
    destruct (str_eqb k' k) eqn:Q; [apply str_eqb_eq in Q; subst; destruct K; now left|]. cbn [app]. rewrite IH; [reflexivity|].
    intros I. apply K. now right. }
  rewrite P, IH; [now rewrite <- app_assoc|exact N2|]. intros k' I J. rewrite map_app in J. apply in_app_or in J. destruct J as [J|[J|[]]].
  - revert J. apply D. now right.
  - cbn in J. subst k'. contradiction.
Qed.
Lemma fold_put_last {A} (l : list (pystr * A)) k v l' d : ~ In k (map fst l') ->
  getf k (fold_left (fun d kv => putf (fst kv) (snd kv) d) (l ++ (k, v) :: l') d) = Some v.
Proof.
  intros N. rewrite fold_left_app. cbn [fold_left fst snd]. set (d1 := putf k v _).
  assert (G : getf k d1 = Some v) by apply getf_putf. clearbody d1. clear l d. revert d1 G N.
  induction l' as [|[k' v'] l' IH]; intros d1 G N; [exact G|]. cbn [fold_left fst snd]. apply IH.
  - rewrite XmlProofs.getf_putf_other; [exact G|]. intros ->. apply N. now left.
  - intros I. apply N. now right.
Qed.
Lemma putf_keys {A} k (v : A) d : map fst (putf k v d) = if str_in k (map fst d) then map fst d else map fst d ++ [k].
Proof.
  unfold str_in. induction d as [|[k' v'] d IH]; [reflexivity|]. cbn [putf map fst existsb].
  destruct (str_eqb k' k) eqn:Q.
  - apply str_eqb_eq in Q. subst. rewrite str_eqb_refl. reflexivity.
  - assert (Q' : str_eqb k k' = false). { destruct (str_eqb k k') eqn:Z; [|reflexivity]. apply str_eqb_eq in Z. subst. now rewrite str_eqb_refl in Q. }
    rewrite Q'. cbn [map fst orb]. rewrite IH. destruct (existsb _ _); reflexivity.
Qed.
Lemma fold_put_nodup {A} (l : list (pystr * A)) : forall d, NoDup (map fst d) -> NoDup (map fst (fold_left (fun d kv => putf (fst kv) (snd kv) d) l d)).
Proof.
  induction l as [|[k v] l IH]; intros d N; [exact N|]. cbn [fold_left fst snd]. apply IH. rewrite putf_keys.
  destruct (str_in k (map fst d)) eqn:E; [exact N|]. apply NoDup_rev in N. rewrite <- (rev_involutive (map fst d ++ [k])). apply NoDup_rev.
  rewrite rev_app_distr. cbn. constructor; [|exact N]. intros I. apply in_rev in I. apply str_in_In in I. congruence.
Qed.

Section Properties.
  Context {num : Type} (to_num : pyval -> result num) (more : pyval -> result unit) (language : pyval).
  Notation get_properties := (get_properties num to_num more language).
  Notation prop_steps := (prop_steps num to_num more language).
  Notation prop_step := (prop_step num to_num more language).
  Notation normal_init := (normal_init num to_num more language).
  Notation readable := (readable to_num more).
  (** what becomes of a property that is read *)
  Definition entry_of (da : pdata * num) : option (fprop num) :=
    match getf (pd_id (fst da)) fp_table with
    | None => None
    | Some row => Some (FProp (pd_name (fst da)) (pd_id (fst da)) row (snd da) (map note_of (pd_comments (fst da))))
    end.
  Lemma normal_init_ok p da : readable p da -> normal_init (elem2dict p) = Ok (entry_of da).
  Proof.
    intros (((s & F & L) & (k & C & T) & M) & O & V). unfold InflowModel.normal_init, entry_of.
    rewrite (property_described _ _ _ _ _ F L). cbn [bind]. rewrite (property_id _ _ _ _ F). cbn [bind].
    destruct (getf (pd_id (fst da)) fp_table) as [row|]; [|reflexivity].
    destruct F as (R & _). destruct (record_dict p R) as [d Q].
    assert (G := child_get p d "meanValue" k R Q x_mean C).
    rewrite (spoken_comments language p d _ R Q M), O. rewrite Q. cbn [sub_item]. rewrite G. cbn [bind].
    rewrite (read_plain _ _ T), V. reflexivity.
  Qed.
  Definition main_of (m : pystr) (das : list (pdata * num)) (o : option (pystr * pystr)) : option (pystr * pystr) :=
    fold_left (fun o da => if numbered m da then getf (pd_id (fst da)) un_table else o) das o.
  Lemma prop_steps_ok m ps das : Forall2 readable ps das -> forall st,
    prop_steps (Some (VStr m)) st (map elem2dict ps)
    = Ok (fold_left (fun d kv => putf (fst kv) (snd kv) d) (map (fun da => (pd_name (fst da), entry_of da)) (others m das)) (fst st),
          main_of m das (snd st)).
  Proof.
    induction 1 as [|p da ps das H F IH]; intros [d o]; [reflexivity|]. cbn [map InflowModel.prop_steps].
    assert (S : prop_step (Some (VStr m)) (d, o) (elem2dict p)
      = Ok (if numbered m da then (d, getf (pd_id (fst da)) un_table) else (putf (pd_name (fst da)) (entry_of da) d, o))).
    { unfold InflowModel.prop_step. pose proof H as H'. destruct H' as (((s & G & L) & _ & _) & _ & _).
      rewrite (property_number _ _ _ _ G). cbn [bind same]. unfold numbered. destruct (str_eqb (pd_number (fst da)) m).
      - rewrite (property_id _ _ _ _ G). reflexivity.
      - rewrite (property_described _ _ _ _ _ G L). cbn [bind]. rewrite (normal_init_ok _ _ H). reflexivity. }
    rewrite S. cbn [bind]. rewrite IH. unfold others, main_of. cbn [filter fold_left]. destruct (numbered m da); reflexivity.
  Qed.
  Lemma prop_steps_stop ref l t : In t l -> (forall st, exists e, prop_step ref st t = Err e) -> forall st, exists e, prop_steps ref st l = Err e.
  Proof.
    intros I H. induction l as [|t' l IH]; [contradiction|]. intros st. cbn [InflowModel.prop_steps]. destruct I as [->|I].
    - destruct (H st) as [e ->]. now exists e.
    - destruct (prop_step ref st t') as [st'|e]; [|now exists e]. cbn [bind]. now apply IH.
  Qed.
  Lemma undescribed_stops m p n i ds : flow_property p n i ds -> differently_described ds -> n <> m ->
    forall st, exists e, prop_step (Some (VStr m)) st (elem2dict p) = Err e.
  Proof.
    intros F D N st. unfold InflowModel.prop_step. rewrite (property_number _ _ _ _ F). cbn [bind same].
    destruct (str_eqb n m) eqn:Q; [apply str_eqb_eq in Q; contradiction|]. destruct (property_undescribed _ _ _ _ F D) as [e ->]. now exists e.
  Qed.
End Properties.

(** * Exchanges *)
Lemma bind_ok {A B} (r : result A) (f : A -> result B) y : bind r f = Ok y -> exists a, r = Ok a /\ f a = Ok y.
Proof. destruct r as [a|e]; [|discriminate]. intros H. now exists a. Qed.
Lemma allocations_element a l : Forall proper (ekids a) -> distinct_attributes (eattrib a) -> named_kids (lit "allocation") (ekids a) l -> l <> [] ->
  exists d, elem2dict a = VDict d /\ truth (VDict d) = true /\
    getf (lit "allocation") d = match l with [k] => Some (elem2dict k) | _ => Some (VList (map elem2dict l)) end.
Proof.
  intros P Q K N. destruct (C25_content_kept_partial a P Q) as (_ & _ & C). specialize (C _ _ x_allocation K).
  assert (G : getf (lit "allocation") (content (elem2dict a)) = match l with [k] => Some (elem2dict k) | _ => Some (VList (map elem2dict l)) end)
    by (destruct l; [congruence|exact C]).
  assert (S : exists v, getf (lit "allocation") (content (elem2dict a)) = Some v) by (rewrite G; destruct l as [|k [|k2 l]]; eauto).
  destruct S as [v S]. destruct (elem2dict a) as [| | | | | | |d|]; unfold content in S, G; try (vm_compute in S; discriminate S).
  exists d. repeat split; [|exact G]. destruct d; [discriminate S|reflexivity].
Qed.
Lemma allocation_read a c q : allocation_of a c q -> exists d, elem2dict a = VDict d /\ d <> [] /\
  getf (lit "@allocatedFraction") d = Some (VStr q) /\ getf (lit "@internalReferenceToCoProduct") d = Some (VStr c).
Proof.
  intros (R & C & Q). destruct (record_dict a R) as [d E]. exists d. split; [exact E|].
  assert (G : getf (lit "@allocatedFraction") d = Some (VStr q)) by (apply (record_attr a d "allocatedFraction" R E); now exists q).
  assert (H : getf (lit "@internalReferenceToCoProduct") d = Some (VStr c)) by (apply (record_attr a d "internalReferenceToCoProduct" R E); now exists c).
  repeat split; [|exact G|exact H]. intros ->. discriminate G.
Qed.
Section Allocations.
  Context {num : Type} (to_num : pyval -> result num) (refs : list (pystr * pystr)).
  Notation allocations := (allocations num to_num refs).
  Notation allocated := (allocated to_num refs).
  Lemma allocated_read l nvs : Forall2 allocated l nvs -> mapM (one_allocation num to_num refs) (map elem2dict l) = Ok (map allocation_name nvs).
  Proof.
    induction 1 as [|a nv l nvs (c & q & A & R & T) F IH]; [reflexivity|]. cbn [map mapM].
    destruct (allocation_read a c q A) as (d & -> & _ & G & H). unfold one_allocation at 1. cbn [sub_item]. rewrite G, H. cbn [bind].
    rewrite T. cbn [bind]. rewrite R. cbn [bind]. rewrite IH. reflexivity.
  Qed.
  Lemma allocations_read x l nvs : allocates x l -> 2 <= length l -> Forall2 allocated l nvs ->
    allocations (elem2dict x) = Ok (fold_left (fun d kv => putf (fst kv) (snd kv) d) (map allocation_name nvs) []).
  Proof.
    intros (R & a & C & P & Q & K) L F. destruct (record_dict x R) as [d E]. unfold InflowModel.allocations. rewrite E. cbn [get_or bind].
    rewrite (child_get x d "allocations" a R E x_allocations C).
    destruct (allocations_element a l P Q K) as (d' & E' & T & G). { intros ->. cbn in L. lia. }
    rewrite E', T. cbn [get_or bind]. rewrite G. destruct l as [|k [|k2 l]]; cbn in L; try lia. cbn [iterate bind].
    rewrite (allocated_read _ _ F). reflexivity.
  Qed.
  Lemma allocations_one x a c q : allocates x [a] -> allocation_of a c q -> exists e, allocations (elem2dict x) = Err e.
  Proof.
    intros (R & b & C & P & Q & K) A. destruct (record_dict x R) as [d E]. unfold InflowModel.allocations. rewrite E. cbn [get_or bind].
    rewrite (child_get x d "allocations" b R E x_allocations C).
    destruct (allocations_element b [a] P Q K) as (d' & E' & T & G); [discriminate|].
    rewrite E', T. cbn [get_or bind]. rewrite G. destruct (allocation_read a c q A) as (da & -> & N & _). cbn [iterate bind].
    destruct da as [|[k v] da]; [congruence|]. now exists TypeError.
  Qed.
  Lemma allocations_none x : record_element x -> named_kids (lit "allocations") (ekids x) [] -> allocations (elem2dict x) = Ok [].
  Proof.
    intros R K. destruct (record_dict x R) as [d E]. unfold InflowModel.allocations. rewrite E. cbn [get_or bind].
    now rewrite (kids_get x d "allocations" [] R E x_allocations K).
  Qed.
  Context (more : pyval -> result unit) (language : pyval).
  Notation exchange_init := (exchange_init num to_num more language refs).
  Lemma init_inv x i e : refers_to x i -> exchange_init (elem2dict x) = Ok e ->
    x_id e = VStr i /\ allocations (elem2dict x) = Ok (x_alloc e).
  Proof.
    intros (R & r & ds & C & F) H. destruct (record_dict x R) as [d E]. unfold InflowModel.exchange_init in H. rewrite E in H at 1. cbn [sub_item] in H.
    rewrite (child_get x d "referenceToFlowDataSet" r R E x_krefflow C : getf krefflow d = _) in H. cbn [bind] in H.
    destruct (reference_read r i ds F) as (d' & E' & A & _). rewrite E' in H. cbn [sub_item] in H. change kobject with kref in H. rewrite A in H. cbn [bind] in H.
    repeat (apply bind_ok in H; destruct H as (? & ? & H)). injection H as <-. split; [reflexivity|]. assumption.
  Qed.
  Lemma init_fails x : (exists e, allocations (elem2dict x) = Err e) -> exists e, exchange_init (elem2dict x) = Err e.
  Proof.
    intros [e H]. destruct (exchange_init (elem2dict x)) as [y|e'] eqn:Q; [|now exists e']. exfalso. unfold InflowModel.exchange_init in Q.
    repeat (apply bind_ok in Q; destruct Q as (? & ? & Q)). congruence.
  Qed.
End Allocations.

Lemma property_plain : ~ In (ch "@") at_property.
Proof. vm_compute. intuition discriminate. Qed.
(** * Whole exchanges *)
Section Whole.
  Context (num : Type) (to_num : pyval -> result num) (one zero : num) (add sub div : num -> num -> num) (is_zero : num -> bool).
  Context (more : pyval -> result unit) (language : pyval) (D : Type) (same_dim : D -> D -> bool) (dim : pystr -> option D).
  Context (mapping : list (pystr * target)) (compartments : list pystr) (master : list (pystr * list (pystr * md_row))) (use_master : bool).
  Context (cid : pystr -> pystr) (prints_kg prints_m3 : pystr -> bool) (refs : list (pystr * pystr)).
  Notation convert := (convert_exchange num to_num one zero sub div is_zero more language D same_dim dim mapping compartments master use_master cid prints_kg prints_m3 refs).
  Notation get_flow := (get_flow num to_num one zero sub div is_zero more language D same_dim dim mapping compartments master use_master cid prints_kg prints_m3).
  Notation exchange_init := (exchange_init num to_num more language refs).
  Notation product_info := (product_info num to_num one zero sub div is_zero more language D dim use_master prints_kg prints_m3).
  Notation elementary_info := (elementary_info num to_num one zero sub div is_zero more language D same_dim dim compartments master use_master prints_kg prints_m3).
  Notation get_properties := (get_properties num to_num more language).
  Notation convert_properties := (convert_properties num one zero sub div is_zero).
  Notation unit_id := (unit_id D same_dim dim).
  Notation factor := (factor num to_num one).
  Notation master_props := (master_props num to_num D dim).

  Lemma convert_none x e : exchange_init x = Ok e -> convert x None = Ok LeftOut.
  Proof. unfold InflowModel.convert_exchange. intros ->. reflexivity. Qed.
  Lemma convert_init x f o : convert x f = Ok o -> exists e, exchange_init x = Ok e.
  Proof. unfold InflowModel.convert_exchange. intros H. apply bind_ok in H. destruct H as (e & H & _). now exists e. Qed.
  Lemma convert_some x i e doc : refers_to x i -> exchange_init (elem2dict x) = Ok e -> i <> [] -> convert (elem2dict x) (Some doc) = get_flow e doc.
  Proof.
    intros R E N. destruct (init_inv to_num refs more language x i e R E) as [I _]. unfold InflowModel.convert_exchange. rewrite E. cbn [bind].
    rewrite I. destruct i; [congruence|reflexivity].
  Qed.
  Lemma refers_named x i : refers_to x i -> i <> [].
  Proof. intros (_ & r & ds & _ & F). now destruct F as (_ & _ & _ & N & _). Qed.

  (** what [convert] does with a readable exchange *)
  Lemma product_flow_get x i e doc : refers_to x i -> exchange_init (elem2dict x) = Ok e -> product_flow doc ->
    exists inf, info_steps no_info (read flow_keys doc) = Ok inf /\
    convert (elem2dict x) (Some doc) =
      bind (product_info inf doc) (fun r =>
          match r with
          | None => Ok LeftOut
          | Some (u, n, ps) =>
              bind (first_name inf) (fun _ =>
              bind (mapM (add_note language []) (match i_names inf with Some l => l | None => [] end)) (fun ns =>
              Ok (Written (Written_ false (cid i) ns u n one (truthy (i_cas inf)) None ps (x_alloc e) (x_comment e)))))
          end).
  Proof.
    intros R E (P & s & T & N). rewrite (convert_some x i e doc R E (refers_named x i R)). destruct (info_exists doc P) as [inf I]. exists inf.
    split; [exact I|]. unfold InflowModel.get_flow. rewrite I. cbn [bind]. rewrite (type_value doc inf P I s T).
    replace (same (VStr s) elementary) with false by (cbn [same elementary]; symmetry; destruct (str_eqb s (lit "Elementary flow")) eqn:Q; [apply str_eqb_eq in Q; contradiction|reflexivity]).
    destruct (init_inv to_num refs more language x i e R E) as [-> _]. reflexivity.
  Qed.
  Lemma elementary_flow_get x i e doc : refers_to x i -> exchange_init (elem2dict x) = Ok e -> elementary_flow doc ->
    exists inf, info_steps no_info (read flow_keys doc) = Ok inf /\
    convert (elem2dict x) (Some doc) =
              match getf i mapping with
              | None => Ok LeftOut
              | Some t =>
                  if str_in (strip (t_map t)) (map lit unmapped) then Ok LeftOut
                  else bind (elementary_info t inf doc) (fun r =>
                       bind (first_name inf) (fun _ =>
                       Ok (Written (Written_ true (t_id t) [(VStr (lit "en"), t_name t)] (fst (fst r)) (t_unit t) (snd (fst r))
                                             (truthy (i_cas inf)) (truthy (i_formula inf)) (snd r) (x_alloc e) (x_comment e)))))
              end.
  Proof.
    intros R E (P & T). rewrite (convert_some x i e doc R E (refers_named x i R)). destruct (info_exists doc P) as [inf I]. exists inf.
    split; [exact I|]. unfold InflowModel.get_flow. rewrite I. cbn [bind]. rewrite (type_value doc inf P I _ T).
    change (same (VStr (lit "Elementary flow")) elementary) with true. cbv iota.
    destruct (init_inv to_num refs more language x i e R E) as [-> _]. reflexivity.
  Qed.

  (** the names *)
  Lemma names_of doc inf ls : proper doc -> info_steps no_info (read flow_keys doc) = Ok inf -> named doc ls ->
    i_names inf = match ls with [] => None | _ => Some (map spoken_value ls) end.
  Proof.
    intros P I (ks & O & F). rewrite (names_read doc inf P I ks O).
    assert (M : flat_map (fun e => match ensure_list (elem2dict e) true with Ok y => y | Err _ => [] end) ks = map spoken_value ls).
    { clear -F. induction F as [|k s ks ls S F IH]; [reflexivity|]. cbn [flat_map map]. now rewrite (spoken_list _ _ S), IH. }
    rewrite M. destruct F; reflexivity.
  Qed.
  Lemma properties_of doc inf m ps das : proper doc -> info_steps no_info (read flow_keys doc) = Ok inf ->
    reference_number doc m -> occurring doc at_property ps -> Forall2 (readable to_num more) ps das ->
    get_properties inf doc = Ok (fold_left (fun d kv => putf (fst kv) (snd kv) d) (map (fun da => (pd_name (fst da), entry_of da)) (others m das)) [],
                                 main_of m das None).
  Proof.
    intros P I N O F. unfold InflowModel.get_properties. rewrite (reference_value doc inf P I m N).
    assert (Rd : map snd (read [kfprop] doc) = map elem2dict ps).
    { exact (read_one doc at_property ps P property_plain O). }
    rewrite Rd. apply (prop_steps_ok to_num more language m ps das F ([], None)).
  Qed.
End Whole.

(** * The properties written *)
Lemma putf_fresh {A} k (v : A) d : ~ In k (map fst d) -> putf k v d = d ++ [(k, v)].
Proof.
  intros K. induction d as [|[k' v'] d IH]; [reflexivity|]. cbn [putf].
  destruct (str_eqb k' k) eqn:Q; [apply str_eqb_eq in Q; subst; destruct K; now left|]. cbn [app]. rewrite IH; [reflexivity|].
  intros I. apply K. now right.
Qed.
Lemma getf_distinct {A} (d : list (pystr * A)) k v : NoDup (map fst d) -> In (k, v) d -> getf k d = Some v.
Proof.
  induction d as [|[k' v'] d IH]; [contradiction|]. intros N [E|I]; cbn [getf].
  - injection E as -> ->. now rewrite str_eqb_refl.
  - inversion N as [|? ? N1 N2]; subst. destruct (str_eqb k' k) eqn:Q; [|now apply IH].
    apply str_eqb_eq in Q. subst. destruct N1. change k with (fst (k, v)). now apply in_map.
Qed.
Lemma getf_absent {A} (d : list (pystr * A)) k : ~ In k (map fst d) -> getf k d = None.
Proof.
  induction d as [|[k' v'] d IH]; [reflexivity|]. intros N. cbn [getf]. destruct (str_eqb k' k) eqn:Q.
  - apply str_eqb_eq in Q. subst. destruct N. now left.
  - apply IH. intros I. apply N. now right.
Qed.
Lemma incl_nodup {A B} (f : A -> list (pystr * B)) (g : A -> pystr) l : (forall a kv, In kv (f a) -> fst kv = g a) -> (forall a, length (f a) <= 1) ->
  NoDup (map g l) -> NoDup (map fst (flat_map f l)).
Proof.
  intros F L. induction l as [|a l IH]; [constructor|]. cbn [map flat_map]. intros N. inversion N as [|? ? N1 N2]; subst. rewrite map_app.
  specialize (F a) as Fa. specialize (L a). destruct (f a) as [|[k v] [|? ?]]; [now apply IH| |cbn in L; lia]. cbn [map app fst].
  constructor; [|now apply IH]. rewrite (Fa (k, v) (or_introl eq_refl) : k = g a). intros I. apply N1. apply in_map_iff in I. destruct I as (kv & E & I).
  apply in_flat_map in I. destruct I as (b & Ib & I). rewrite <- E, (F b kv I). now apply in_map.
Qed.
Section Written.
  Context {num : Type}.
  Definition kept (l : list (pdata * num)) : list (pystr * fprop num) :=
    flat_map (fun da => match entry_of da with Some p => [(pd_name (fst da), p)] | None => [] end) l.
  Lemma kept_all l : convertible_only (map (fun da => (pd_name (fst da), entry_of da)) l) = kept l.
  Proof. unfold convertible_only, kept. induction l as [|da l IH]; [reflexivity|]. cbn [map flat_map fst snd]. now rewrite IH. Qed.
  Lemma kept_names l : forall k, In k (map fst (kept l)) -> In k (names l).
  Proof.
    intros k I. apply in_map_iff in I. destruct I as ([k' p] & <- & I). apply in_flat_map in I. destruct I as (da & J & I).
    destruct (entry_of da); [|contradiction]. destruct I as [I|[]]. injection I as <- _. apply (in_map (fun da => pd_name (fst da)) _ _ J).
  Qed.
  Lemma kept_nodup l : NoDup (names l) -> NoDup (map fst (kept l)).
  Proof.
    apply incl_nodup.
    - intros a kv I. destruct (entry_of a); [|contradiction]. destruct I as [<-|[]]. reflexivity.
    - intros a. destruct (entry_of a); cbn; lia.
  Qed.
  Lemma kept_read l : map (fun np => direct (snd np)) (kept l) = flat_map as_read l.
  Proof.
    induction l as [|da l IH]; [reflexivity|]. cbn [kept flat_map]. rewrite map_app. fold (kept l). rewrite IH. f_equal. unfold entry_of, as_read.
    destruct (getf (pd_id (fst da)) fp_table); reflexivity.
  Qed.
  Context (one zero : num) (sub div : num -> num -> num) (is_zero : num -> bool).
  Notation convert_properties := (convert_properties num one zero sub div is_zero).
  Notation finish_prop := (finish_prop num one zero div is_zero).
  Definition to_dry (dry : option num) (a : num) : num :=
    match dry with Some d => if is_zero d then zero else div a d | None => div a one end.
  Lemma finish_kept kg m3 dry l : map (finish_prop kg m3 dry) (map (fun np => (fst np, CRead (snd np))) (kept l)) = flat_map (by_name kg m3 (to_dry dry)) l.
  Proof.
    induction l as [|da l IH]; [reflexivity|]. cbn [kept flat_map]. rewrite !map_app. fold (kept l). rewrite IH. f_equal. clear IH.
    unfold entry_of, by_name, as_content, as_converted, InflowModel.finish_prop.
    destruct (getf (pd_id (fst da)) fp_table) as [row|]; cbn [map fst snd].
    - destruct (infixb _ _); [|reflexivity]. unfold content_prop. cbn [p_row p_amount p_comment].
      destruct kg, m3, (f_mass row) as [[? ?]|], (f_volume row) as [[? ?]|]; reflexivity.
    - destruct (infixb _ _); reflexivity.
  Qed.
  Lemma converted_plain kg m3 l : getf kwater (kept l) = None -> ~ In (lit "dry mass") (names l) ->
    convert_properties false kg m3 (kept l) = flat_map (by_name kg m3 (fun a => div a one)) l.
  Proof.
    intros W N. unfold InflowModel.convert_properties, with_masses. rewrite W. cbv zeta.
    rewrite (getf_absent _ (lit "dry mass")). { cbn [option_map]. exact (finish_kept kg m3 None l). }
    rewrite map_map. cbn [fst]. intros I. apply N, kept_names, I.
  Qed.
  Lemma converted_volume kg l : ~ In (lit "dry mass") (names l) ->
    convert_properties false kg true (kept l) = flat_map (by_name kg true (fun a => div a one)) l.
  Proof.
    intros N. unfold InflowModel.convert_properties, with_masses. cbv zeta.
    replace (match getf kwater (kept l) with Some _ => map (fun np => (fst np, CRead (snd np))) (kept l) | None => map (fun np => (fst np, CRead (snd np))) (kept l) end)
      with (map (fun np => (fst np, @CRead num (snd np))) (kept l)) by (destruct (getf kwater (kept l)); reflexivity).
    rewrite (getf_absent _ (lit "dry mass")). { cbn [option_map]. exact (finish_kept kg true None l). }
    rewrite map_map. cbn [fst]. intros I. apply N, kept_names, I.
  Qed.
  Lemma converted_water kg l da row : NoDup (names l ++ map lit ["wet mass"; "dry mass"; "water in wet mass"]) ->
    In da l -> pd_name (fst da) = lit "water content" -> getf (pd_id (fst da)) fp_table = Some row ->
    convert_properties false kg false (kept l)
    = flat_map (by_name kg false (to_dry (Some (sub one (snd da))))) l ++ masses one (sub one (snd da)) (snd da).
  Proof.
    intros N I E K.
    assert (N1 : NoDup (names l)) by (revert N; generalize (map lit ["wet mass"; "dry mass"; "water in wet mass"]); induction (names l) as [|n ns IH]; intros b X; [constructor|]; cbn in X; inversion X as [|? ? X1 X2]; subst; constructor; [intros Y; apply X1, in_or_app; now left|eapply IH; exact X2]).
    assert (F : forall k, In k (map lit ["wet mass"; "dry mass"; "water in wet mass"]) -> ~ In k (map fst (kept l))).
    { intros k J X. apply kept_names in X. revert N J X. clear. induction (names l) as [|n ns IH]; [now intros _ _ []|]. cbn [app]. intros N J [->|X].
      - inversion N as [|? ? X1 X2]; subst. apply X1, in_or_app. now right.
      - inversion N; subst. now apply IH. }
    assert (G : exists p, getf kwater (kept l) = Some p /\ p_amount p = snd da).
    { set (p := FProp (pd_name (fst da)) (pd_id (fst da)) row (snd da) (map note_of (pd_comments (fst da)))).
      exists p. split; [|reflexivity]. apply getf_distinct; [now apply kept_nodup|]. apply in_flat_map. exists da. split; [exact I|].
      unfold entry_of. rewrite K. left. unfold p. f_equal. exact E. }
    destruct G as (p & G & A). unfold InflowModel.convert_properties, with_masses. rewrite G, A. cbv zeta.
    set (d := map (fun np => (fst np, CRead (snd np))) (kept l)).
    assert (M : map fst d = map fst (kept l)) by (unfold d; rewrite map_map; reflexivity).
    assert (P : putf (lit "water in wet mass") (CMass (wet_water num (snd da)))
                  (putf (lit "dry mass") (CMass (dry_mass num one sub (snd da))) (putf (lit "wet mass") (CMass (wet_mass num one)) d))
                = d ++ [(lit "wet mass", CMass (wet_mass num one)); (lit "dry mass", CMass (dry_mass num one sub (snd da)));
                        (lit "water in wet mass", CMass (wet_water num (snd da)))]).
    { rewrite (putf_fresh (lit "wet mass")); [|rewrite M; apply F; now left].
      rewrite (putf_fresh (lit "dry mass")); [|rewrite map_app, M; intros X; apply in_app_or in X; destruct X as [X|[X|[]]]; [revert X; apply F; right; now left|discriminate X]].
      rewrite (putf_fresh (lit "water in wet mass")).
      - now rewrite <- !app_assoc.
      - rewrite !map_app, M. intros X. apply in_app_or in X. destruct X as [X|[X|[]]]; [|discriminate X].
        apply in_app_or in X. destruct X as [X|[X|[]]]; [revert X; apply F; right; right; now left|discriminate X]. }
    assert (Dr : getf (lit "dry mass") (putf (lit "water in wet mass") (CMass (wet_water num (snd da)))
                  (putf (lit "dry mass") (CMass (dry_mass num one sub (snd da))) (putf (lit "wet mass") (CMass (wet_mass num one)) d)))
                 = Some (CMass (dry_mass num one sub (snd da)))).
    { rewrite XmlProofs.getf_putf_other by discriminate. apply getf_putf. }
    rewrite Dr, P, map_app. cbn [option_map entry_amount dry_mass mass_prop wp_amount]. unfold d. rewrite finish_kept. reflexivity.
  Qed.
  Lemma plain_named kg m3 (change : num -> num) (l : list (pdata * num)) : Forall (fun n => ~ called_content n) (names l) -> flat_map (by_name kg m3 change) l = flat_map (as_converted (fun a => a)) l.
  Proof.
    induction l as [|da l IH]; [reflexivity|]. cbn [names map]. intros F. inversion F as [|? ? N F']; subst. cbn [flat_map]. rewrite (IH F'). f_equal.
    unfold by_name. destruct (infixb (lit " content") (pd_name (fst da))) eqn:Q; [|reflexivity]. destruct N. now apply infixb_spec in Q.
  Qed.
End Written.
