(** Lemmas: exchanges as they are written and read. *)
From Coq Require Import Ascii String List Bool Arith NArith ZArith QArith Lia.
From Verif Require Import PyBase PyBaseFacts PyDigits PyValues MultiLangModel DotDictModel DotDictProofs UtilsModel ConverterModel
  XmlModel XmlSpec XmlProofs XmlProps KeysModel KeysSpec KeysProofs HandleModel HandleSpec OutputProofs HandleProofs ReferProofs
  ClassProofs FlowModel ExchangeModel AsideModel AsideSpec AsideProofs ReferModel ReferSpec InflowModel InflowSpec InflowProofs OutflowModel OutflowSpec OutflowProofs
  CrossModel CrossSpec.
From Verif Require ReviewProofs ValidatorsSpec AttachProofs.
Import ListNotations.
Local Open Scope string_scope.
Local Open Scope list_scope.

(** * Written parts *)
Section Emitted.
  Context (show : pyval -> pystr) (ns : pystr).
  Lemma emit_tag v : forall key, Forall (fun e => etag e = qualified ns key) (emit show ns key v).
  Proof.
    revert v. fix IH 1. intros v key. destruct v as [| b | z | f | s | l | l | d |]; try (repeat constructor).
    - cbn [emit]. induction l as [|v l IHl]; [constructor|]. cbn [flat_map]. apply Forall_app. split; [exact (IH v key)|exact IHl].
    - cbn [emit]. induction l as [|v l IHl]; [constructor|]. cbn [flat_map]. apply Forall_app. split; [exact (IH v key)|exact IHl].
  Qed.
  Lemma called_app n a b : called n (a ++ b) = called n a ++ called n b.
  Proof. apply filter_app. Qed.
  Lemma called_all n l : Forall (fun e => local (etag e) = n) l -> called n l = l.
  Proof. induction 1 as [|e l E F IH]; [reflexivity|]. unfold called in *. cbn [filter]. now rewrite E, str_eqb_refl, IH. Qed.
  Lemma called_none n l : Forall (fun e => local (etag e) <> n) l -> called n l = [].
  Proof.
    induction 1 as [|e l E F IH]; [reflexivity|]. unfold called in *. cbn [filter]. rewrite IH. destruct (str_eqb _ n) eqn:Q; [|reflexivity].
    apply str_eqb_eq in Q. contradiction.
  Qed.
  Lemma emit_called n key v : name_ok (bare_key key) = true -> called n (emit show ns key v) = if str_eqb (bare_key key) n then emit show ns key v else [].
  Proof.
    intros K. pose proof (emit_tag v key) as T. destruct (str_eqb (bare_key key) n) eqn:Q.
    - apply str_eqb_eq in Q. apply called_all. eapply Forall_impl; [|exact T]. intros e E. now rewrite E, (qualified_local _ _ K).
    - apply called_none. eapply Forall_impl; [|exact T]. intros e E Z. rewrite E, (qualified_local _ _ K) in Z. now rewrite Z, str_eqb_refl in Q.
  Qed.
  Lemma kids_other names n d : other_names names d -> In n (map lit names) -> called n (kids_of show ns d) = [].
  Proof.
    intros [O G] I. induction d as [|[k v] d IH]; [reflexivity|]. inversion O as [|? ? O1 O2]; subst. cbn [good forallb fst snd] in G. apply andb_true_iff in G.
    destruct G as [G1 G2]. apply andb_true_iff in G1. destruct G1 as [G0 _]. unfold kids_of. cbn [flat_map fst snd] in *. rewrite called_app. fold (kids_of show ns d). rewrite (IH O2 G2), app_nil_r.
    destruct (is_child k); [|reflexivity]. cbn [negb orb] in G0. rewrite (emit_called n k v G0). destruct (str_eqb (bare_key k) n) eqn:Q; [|reflexivity].
    apply str_eqb_eq in Q. subst n. exfalso. exact (O1 eq_refl I).
  Qed.
  Lemma kids_one k v : is_child k = true -> kids_of show ns [(k, v)] = emit show ns k v.
  Proof. intros C. unfold kids_of. cbn [flat_map fst snd]. now rewrite C, app_nil_r. Qed.
End Emitted.

(** * The reports of the reader *)
Lemma due_plain k1 k2 c : ~ In (ch "@") k1 -> ~ In (ch "@") k2 ->
  due [k1; k2] c = if str_eqb (fst c) k1 then [(k1, elem2dict (snd c))] else if str_eqb (fst c) k2 then [(k2, elem2dict (snd c))] else [].
Proof.
  intros A1 A2. unfold due. match goal with |- context [_ ++ flat_map ?f (eattrib (snd c))] => assert (X : flat_map f (eattrib (snd c)) = []) end.
  { induction (eattrib (snd c)) as [|kv l IH]; [reflexivity|]. cbn [flat_map]. rewrite IH, app_nil_r. destruct (in_dec _ _ _) as [I|]; [|reflexivity]. exfalso.
    assert (J : forall k, k = fst c ++ lit "/@" ++ fst kv -> In (ch "@") k). { intros k ->. apply in_or_app. right. right. now left. }
    destruct I as [E|[E|[]]]; [exact (A1 (J _ E))|exact (A2 (J _ E))]. }
  rewrite X, app_nil_r. clear X. destruct (str_eqb (fst c) k1) eqn:Q1; [apply str_eqb_eq in Q1; rewrite Q1|].
  - destruct (in_dec _ _ _) as [I|N]; [reflexivity|exfalso; apply N; now left].
  - destruct (str_eqb (fst c) k2) eqn:Q2; [apply str_eqb_eq in Q2; rewrite Q2|].
    + destruct (in_dec _ _ _) as [I|N]; [reflexivity|exfalso; apply N; right; now left].
    + destruct (in_dec _ _ _) as [I|N]; [|reflexivity]. destruct I as [E|[E|[]]]; rewrite E, str_eqb_refl in *; discriminate.
Qed.
Lemma due_left k1 k2 cs : ~ In (ch "@") k1 -> ~ In (ch "@") k2 -> filter (fun c : pystr * elem => str_eqb (fst c) k2) cs = [] ->
  flat_map (due [k1; k2]) cs = map (fun e => (k1, elem2dict e)) (map snd (filter (fun c => str_eqb (fst c) k1) cs)).
Proof.
  intros A1 A2. induction cs as [|c cs IH]; [reflexivity|]. intros E. cbn [flat_map filter] in *. rewrite (due_plain k1 k2 c A1 A2).
  destruct (str_eqb (fst c) k2) eqn:Q2; [discriminate|]. rewrite (IH E). destruct (str_eqb (fst c) k1); reflexivity.
Qed.
Lemma due_right k1 k2 cs : ~ In (ch "@") k1 -> ~ In (ch "@") k2 -> filter (fun c : pystr * elem => str_eqb (fst c) k1) cs = [] ->
  flat_map (due [k1; k2]) cs = map (fun e => (k2, elem2dict e)) (map snd (filter (fun c => str_eqb (fst c) k2) cs)).
Proof.
  intros A1 A2. induction cs as [|c cs IH]; [reflexivity|]. intros E. cbn [flat_map filter] in *. rewrite (due_plain k1 k2 c A1 A2).
  destruct (str_eqb (fst c) k1) eqn:Q1; [discriminate|]. rewrite (IH E). destruct (str_eqb (fst c) k2); reflexivity.
Qed.
Lemma nil_snd {A B} (l : list (A * B)) : map snd l = [] -> l = [].
Proof. destruct l; [reflexivity|discriminate]. Qed.

(** What is found below a root: [n1] and [n2] are two different children. *)
Section Below.
  Context (root n1 n2 : pystr) (p1 p2 : list pystr).
  Context (Slash : Forall (fun m => ~ In (ch "/") m) (root :: n1 :: n2 :: p1 ++ p2)) (Ne : n1 <> n2).
  Notation k1 := (path (root :: n1 :: p1)). Notation k2 := (path (root :: n2 :: p2)).
  Context (A1 : ~ In (ch "@") k1) (A2 : ~ In (ch "@") k2).
  Lemma slash_parts : Forall (fun m => ~ In (ch "/") m) (n1 :: p1) /\ Forall (fun m => ~ In (ch "/") m) (n2 :: p2) /\ ~ In (ch "/") root.
  Proof.
    inversion Slash as [|? ? S0 S]; subst. inversion S as [|? ? S1 S']; subst. inversion S' as [|? ? S2 S'']; subst. apply Forall_app in S''. destruct S'' as [T1 T2].
    repeat split; [constructor| constructor |]; assumption.
  Qed.
  Lemma path_split n p : path (root :: n :: p) = (lit "/" ++ root) ++ lit "/" ++ n ++ path p.
  Proof. change (path (root :: n :: p)) with ((lit "/" ++ root) ++ (lit "/" ++ n) ++ path p). now rewrite <- !app_assoc. Qed.
  Lemma kids_due kids : Forall proper kids -> forall css, closes_all (lit "/" ++ root) kids css ->
    flat_map (due [k1; k2]) css
    = flat_map (fun k => if str_eqb (local (etag k)) n1 then map (fun e => (k1, elem2dict e)) (under p1 k)
                         else if str_eqb (local (etag k)) n2 then map (fun e => (k2, elem2dict e)) (under p2 k) else []) kids.
  Proof.
    destruct slash_parts as (S1 & S2 & _).
    induction kids as [|k kids IH]; intros P css C; inversion C as [|? ? c1 cs1 C1 C2]; subst; [reflexivity|]. inversion P as [|? ? P1 P2]; subst.
    rewrite flat_map_app. cbn [flat_map]. rewrite (IH P2 _ C2). f_equal.
    pose proof (closes_under k P1 p1 n1 (lit "/" ++ root) c1 C1 S1) as U1. pose proof (closes_under k P1 p2 n2 (lit "/" ++ root) c1 C1 S2) as U2.
    rewrite <- !path_split in U1, U2. destruct (str_eqb (local (etag k)) n1) eqn:Q1.
    - apply str_eqb_eq in Q1. destruct (str_eqb (local (etag k)) n2) eqn:Q2; [apply str_eqb_eq in Q2; congruence|].
      rewrite <- U1. apply due_left; [exact A1|exact A2|now apply nil_snd].
    - etransitivity; [exact (due_right k1 k2 c1 A1 A2 (nil_snd _ U1))|]. rewrite U2. now destruct (str_eqb (local (etag k)) n2).
  Qed.
End Below.
Lemma read_below root n1 n2 p1 p2 t a x l kids : Forall (fun m => ~ In (ch "/") m) (root :: n1 :: n2 :: p1 ++ p2) -> n1 <> n2 ->
  ~ In (ch "@") (path (root :: n1 :: p1)) -> ~ In (ch "@") (path (root :: n2 :: p2)) -> proper (Elem t a x l kids) -> local t = root ->
  read [path (root :: n1 :: p1); path (root :: n2 :: p2)] (Elem t a x l kids)
  = flat_map (fun k => if str_eqb (local (etag k)) n1 then map (fun e => (path (root :: n1 :: p1), elem2dict e)) (under p1 k)
                       else if str_eqb (local (etag k)) n2 then map (fun e => (path (root :: n2 :: p2), elem2dict e)) (under p2 k) else []) kids.
Proof.
  intros Slash Ne A1 A2 P E. destruct (closes_exist _ P []) as [cs C]. rewrite (read_due _ _ _ P C). inversion C as [? ? ? ? ? n css N Ca]; subst.
  pose proof (name_local _ _ N) as E. cbn [app] in Ca. change (ch "/" :: n) with (lit "/" ++ n) in Ca. rewrite <- E in Ca.
  inversion P as [? ? ? ? ? n0 _ _ Pk]; subst. rewrite flat_map_app.
  etransitivity; [exact (f_equal2 (@List.app _) (kids_due (local t) n1 n2 p1 p2 Slash Ne A1 A2 kids Pk css Ca) eq_refl)|]. cbn [flat_map].
  match goal with |- _ ++ due ?ks ?c ++ [] = _ => assert (X : due ks c = []); [|rewrite X; now rewrite !app_nil_r] end.
  rewrite (due_plain _ _ _ A1 A2). cbn [fst app].
  assert (L : forall m p, str_eqb (lit "/" ++ local t) (path (local t :: m :: p)) = false).
  { intros m p. destruct (str_eqb _ _) eqn:Q; [|reflexivity]. apply str_eqb_eq in Q. apply (f_equal (@List.length N.t)) in Q. cbn [path flat_map] in Q. rewrite !app_length in Q. cbn in Q. lia. }
  change (ch "/" :: local t) with (lit "/" ++ local t). now rewrite !L.
Qed.

(** * The written exchange *)
Lemma lit_ne a b : str_eqb (lit a) (lit b) = false -> lit a <> lit b.
Proof. intros H E. now rewrite E, str_eqb_refl in H. Qed.
Section Exchange.
  Context (show : pyval -> pystr) (ns : pystr).
  Definition entries (n : nat) (s : sent) : list (pystr * pyval) := match exchange_dict n s with VDict d => d | _ => [] end.
  Definition exchange_elem (n : nat) (s : sent) : elem :=
    Elem (qualified ns (lit "exchange")) (attributes show (entries n s)) (own_text show (entries n s)) None (kids_of show ns (entries n s)).
  Lemma emit_exchange n s : emit show ns (lit "exchange") (exchange_dict n s) = [exchange_elem n s].
  Proof. reflexivity. Qed.
  Definition comment_of (ls : pystr * pystr) : elem :=
    Elem (qualified ns (lit "generalComment")) [(xml_lang, fst ls)] (cdata (snd ls)) None [].
  Definition ref_elem (s : sent) : elem :=
    Elem (qualified ns krefflow) [(lit "type", lit "flow data set"); (lit "refObjectId", s_id s); (lit "version", s_version s); (lit "uri", flow_uri s)] None None
      [Elem (qualified ns (lit "common:shortDescription")) [(xml_lang, lit "en")] (cdata (s_name s)) None []].
  Notation kids := (fun n s => kids_of show ns (entries n s)).
  Context {num : Type} (to_num : pyval -> result num).
  Context (n : nat) (s : sent) (W : well_sent to_num show s).
  Lemma uncertainty_other k : ~ In k (map lit uncertainty_of_exchange) -> called k (kids_of show ns (s_uncertainty s)) = [] /\
    attributes show (s_uncertainty s) = [] /\ getf ktext (s_uncertainty s) = None.
  Proof.
    intros N. destruct W as (_ & _ & _ & U & _). clear W. induction (s_uncertainty s) as [|[a v] l IH]; [now repeat split|]. inversion U as [|? ? [U1 U2] U3]; subst. cbn [fst snd] in *.
    destruct (IH U3) as (I1 & I2 & I3). unfold kids_of, attributes in *. cbn [flat_map fst snd getf]. rewrite called_app, I1, I2, app_nil_r.
    apply in_map_iff in U1. destruct U1 as (b & <- & U1).
    assert (K : name_ok (bare_key (lit b)) = true /\ is_child (lit b) = true /\ bare_key (lit b) = lit b).
    { destruct U1 as [<-|[<-|[<-|[<-|[]]]]]; repeat split; reflexivity. }
    destruct K as (K1 & K2 & K3). rewrite K2, (emit_called show ns k _ _ K1), K3. destruct (str_eqb (lit b) k) eqn:Q.
    - exfalso. apply str_eqb_eq in Q. apply N. rewrite <- Q. now apply in_map.
    - repeat split; [|].
      + destruct U1 as [<-|[<-|[<-|[<-|[]]]]]; reflexivity.
      + destruct U1 as [<-|[<-|[<-|[<-|[]]]]]; exact I3.
  Qed.
  Lemma unc_good : good (VDict (s_uncertainty s)) = true.
  Proof.
    destruct W as (_ & _ & _ & U & _). clear W. cbn [good]. induction (s_uncertainty s) as [|[a v] l IH]; [reflexivity|]. inversion U as [|? ? [U1 U2] U3]; subst. cbn [forallb fst snd] in *. rewrite (IH U3), U2.
    apply in_map_iff in U1. destruct U1 as (b & <- & U1). destruct U1 as [<-|[<-|[<-|[<-|[]]]]]; reflexivity.
  Qed.
  Notation tail_of s := (match s_sources s with [] => [] | l => [(lit "referencesToDataSource", VDict [(lit "referenceToDataSource", VList l)])] end ++
    match s_comments s with [] => [] | l => [(lit "generalComment", VList (map (fun ls : pystr * pystr => VDict [(lit "@xml:lang", VStr (fst ls)); (ktext, VStr (snd ls))]) l))] end).
  Notation variable_of s := (match s_variable s with Some v => [(lit "referenceToVariable", VStr v)] | None => [] end).
  Notation amounts_of s := [(lit "meanAmount", match s_variable s with Some _ => VFloat (Fin (Qmake 1 1)) | None => s_amount s end); (lit "resultingAmount", s_amount s)].
  Notation first_of n s := [(kinternal, VInt (Z.of_nat n)); (krefflow, VList [flow_ref (s_id s) (s_version s) (flow_uri s) (s_name s)]);
          (lit "exchangeDirection", VStr (direction_name (fi_dir (s_flow s))))].
  Lemma entries_are : entries n s = first_of n s ++ variable_of s ++ amounts_of s ++ s_uncertainty s ++ tail_of s.
  Proof. reflexivity. Qed.
  Lemma amount_good : good (s_amount s) = true.
  Proof. destruct W as (_ & _ & (q & (f & ->) & _) & _). reflexivity. Qed.
  Lemma entries_good : good (exchange_dict n s) = true.
  Proof.
    change (exchange_dict n s) with (VDict (entries n s)). rewrite entries_are. cbn [good]. rewrite !forallb_app. pose proof unc_good as U. cbn [good] in U. rewrite U.
    pose proof amount_good as A. destruct W as (_ & _ & _ & _ & S & _). destruct (s_variable s); cbn [forallb good fst snd]; rewrite ?A.
    all: destruct (s_sources s) as [|so sos]; cbn [forallb good fst snd app]; cbn [forallb] in S; rewrite ?S.
    all: destruct (s_comments s) as [|c cs]; try reflexivity; cbn [forallb good fst snd andb]; rewrite ?andb_true_r; try (apply forallb_forall; intros v I; apply in_map_iff in I; destruct I as (ls & <- & _); reflexivity).
  Qed.
  Lemma exchange_attributes : attributes show (entries n s) = [(lit "dataSetInternalID", str_of_Z (Z.of_nat n))].
  Proof.
    rewrite entries_are. rewrite !attributes_app. destruct (uncertainty_other (lit "x")) as (_ & A & _); [vm_compute; intuition discriminate|]. rewrite A.
    destruct (s_variable s), (s_sources s), (s_comments s); reflexivity.
  Qed.
  Lemma exchange_kids_proper : Forall proper (ekids (exchange_elem n s)).
  Proof.
    pose proof (emit_proper show ns (exchange_dict n s) (lit "exchange") eq_refl entries_good) as P. rewrite emit_exchange in P. inversion P as [|? ? P1 _]; subst.
    inversion P1; subst. assumption.
  Qed.
  Lemma exchange_proper : proper (exchange_elem n s).
  Proof. pose proof (emit_proper show ns (exchange_dict n s) (lit "exchange") eq_refl entries_good) as P. rewrite emit_exchange in P. now inversion P. Qed.
  Lemma exchange_record : record_element (exchange_elem n s).
  Proof.
    split; [exact exchange_kids_proper|]. cbn [exchange_elem eattrib]. rewrite exchange_attributes. split; [|discriminate]. exists [lit "dataSetInternalID"].
    split; [|repeat constructor; intros []]. repeat constructor. vm_compute. intuition discriminate.
  Qed.
  Lemma comments_emitted : flat_map (emit show ns (lit "generalComment")) (map (fun ls : pystr * pystr => VDict [(lit "@xml:lang", VStr (fst ls)); (ktext, VStr (snd ls))]) (s_comments s))
    = map comment_of (s_comments s).
  Proof. induction (s_comments s) as [|c l IH]; [reflexivity|]. cbn [map flat_map]. rewrite IH. reflexivity. Qed.
  Lemma exchange_called k : ~ In k (map lit uncertainty_of_exchange) ->
    called k (kids_of show ns (entries n s)) =
      (if str_eqb krefflow k then [ref_elem s] else []) ++
      (if str_eqb (lit "exchangeDirection") k then emit show ns (lit "exchangeDirection") (VStr (direction_name (fi_dir (s_flow s)))) else []) ++
      match s_variable s with Some v => if str_eqb (lit "referenceToVariable") k then emit show ns (lit "referenceToVariable") (VStr v) else [] | None => [] end ++
      (if str_eqb (lit "meanAmount") k then emit show ns (lit "meanAmount") (match s_variable s with Some _ => VFloat (Fin (Qmake 1 1)) | None => s_amount s end) else []) ++
      (if str_eqb (lit "resultingAmount") k then emit show ns (lit "resultingAmount") (s_amount s) else []) ++
      (if str_eqb (lit "referencesToDataSource") k then match s_sources s with [] => [] | l => emit show ns (lit "referencesToDataSource") (VDict [(lit "referenceToDataSource", VList l)]) end else []) ++
      (if str_eqb (lit "generalComment") k then map comment_of (s_comments s) else []).
  Proof.
    intros N. rewrite entries_are, !kids_app, !called_app. destruct (uncertainty_other k N) as (-> & _). cbn [app].
    assert (One : forall key v, is_child (lit key) = true -> name_ok (bare_key (lit key)) = true -> bare_key (lit key) = lit key ->
      called k (kids_of show ns [(lit key, v)]) = if str_eqb (lit key) k then emit show ns (lit key) v else []).
    { intros key v C K B. rewrite (kids_one show ns _ _ C), (emit_called show ns k _ _ K), B. reflexivity. }
    assert (F : called k (kids_of show ns (first_of n s)) = (if str_eqb krefflow k then [ref_elem s] else []) ++
      (if str_eqb (lit "exchangeDirection") k then emit show ns (lit "exchangeDirection") (VStr (direction_name (fi_dir (s_flow s)))) else [])).
    { change (kids_of show ns (first_of n s)) with (kids_of show ns [(krefflow, VList [flow_ref (s_id s) (s_version s) (flow_uri s) (s_name s)])] ++
        kids_of show ns [(lit "exchangeDirection", VStr (direction_name (fi_dir (s_flow s))))]). rewrite called_app. f_equal; [|now apply One].
      rewrite (One "referenceToFlowDataSet"); reflexivity. }
    assert (A : called k (kids_of show ns (amounts_of s)) =
      (if str_eqb (lit "meanAmount") k then emit show ns (lit "meanAmount") (match s_variable s with Some _ => VFloat (Fin (Qmake 1 1)) | None => s_amount s end) else []) ++
      (if str_eqb (lit "resultingAmount") k then emit show ns (lit "resultingAmount") (s_amount s) else [])).
    { match goal with |- called k (kids_of show ns [?a; ?b]) = _ => change (kids_of show ns [a; b]) with (kids_of show ns ([a] ++ [b])) end.
      rewrite kids_app, called_app. f_equal; now apply One. }
    rewrite F, A, <- !app_assoc. do 2 f_equal. f_equal; [destruct (s_variable s); [now apply One|reflexivity]|]. do 2 f_equal. f_equal.
    - destruct (s_sources s) as [|so sos]; [destruct (str_eqb (lit "referencesToDataSource") k); reflexivity|]. apply (One "referencesToDataSource"); reflexivity.
    - rewrite <- comments_emitted. destruct (s_comments s) as [|c cs]; [destruct (str_eqb (lit "generalComment") k); reflexivity|]. apply (One "generalComment"); reflexivity.
  Qed.
  Lemma exchange_named k : ~ In k (map lit uncertainty_of_exchange) -> named_kids k (ekids (exchange_elem n s)) (called k (kids_of show ns (entries n s))).
  Proof. intros N. exact (named_local k _ exchange_kids_proper). Qed.
End Exchange.

(** * The exchange as it is read *)
Lemma x_resulting : xml_name (lit "resultingAmount"). Proof. xname2. Qed.
Lemma x_meanamount : xml_name (lit "meanAmount"). Proof. xname2. Qed.
Lemma x_exdirection : xml_name (lit "exchangeDirection"). Proof. xname2. Qed.
Lemma direction_nonblank d : ~ blank (Some (direction_name d)).
Proof. intros B. destruct d; inversion B as [|? ? Z]; discriminate Z. Qed.
Section Read.
  Context (show : pyval -> pystr) (ns : pystr) {num : Type} (to_num : pyval -> result num).
  Context (n : nat) (s : sent) (W : well_sent to_num show s).
  Notation y := (exchange_elem show ns n s).
  Lemma kid_named k : In k ["referenceToFlowDataSet"; "exchangeDirection"; "resultingAmount"; "generalComment"; "allocations"; "location"; "functionType"; "dataSourceType"; "dataDerivationTypeStatus"] ->
    named_kids (lit k) (ekids y) (called (lit k) (kids_of show ns (entries n s))).
  Proof. intros _. apply (named_local (lit k)). exact (exchange_kids_proper show ns to_num n s W). Qed.
  Ltac other_ := vm_compute; intuition discriminate.
  Lemma kid_called k l : ~ In (lit k) (map lit uncertainty_of_exchange) ->
    (if str_eqb krefflow (lit k) then [ref_elem ns s] else []) ++
      (if str_eqb (lit "exchangeDirection") (lit k) then emit show ns (lit "exchangeDirection") (VStr (direction_name (fi_dir (s_flow s)))) else []) ++
      match s_variable s with Some v => if str_eqb (lit "referenceToVariable") (lit k) then emit show ns (lit "referenceToVariable") (VStr v) else [] | None => [] end ++
      (if str_eqb (lit "meanAmount") (lit k) then emit show ns (lit "meanAmount") (match s_variable s with Some _ => VFloat (Fin (Qmake 1 1)) | None => s_amount s end) else []) ++
      (if str_eqb (lit "resultingAmount") (lit k) then emit show ns (lit "resultingAmount") (s_amount s) else []) ++
      (if str_eqb (lit "referencesToDataSource") (lit k) then match s_sources s with [] => [] | l => emit show ns (lit "referencesToDataSource") (VDict [(lit "referenceToDataSource", VList l)]) end else []) ++
      (if str_eqb (lit "generalComment") (lit k) then map (comment_of ns) (s_comments s) else []) = l ->
    named_kids (lit k) (ekids y) l.
  Proof.
    intros N E. rewrite <- E, <- (exchange_called show ns to_num n s W (lit k) N). apply (named_local (lit k)). exact (exchange_kids_proper show ns to_num n s W).
  Qed.
  Ltac kid_ := apply kid_called; [other_|destruct (s_variable s); cbn -[emit direction_name map ref_elem]; rewrite ?app_nil_r; reflexivity].
  Lemma kid_ref : child y "referenceToFlowDataSet" (ref_elem ns s).
  Proof. unfold child. kid_. Qed.
  Lemma kid_direction : child y "exchangeDirection" (Elem (qualified ns (lit "exchangeDirection")) [] (Some (direction_name (fi_dir (s_flow s)))) None []).
  Proof. unfold child. apply kid_called; [other_|]. destruct (s_variable s), (fi_dir (s_flow s)); reflexivity. Qed.
  Lemma kid_resulting : child y "resultingAmount" (Elem (qualified ns (lit "resultingAmount")) [] (Some (show (s_amount s))) None []).
  Proof.
    unfold child. apply kid_called; [other_|]. pose proof W as W'. destruct W' as (_ & _ & (q & (f & E) & B & _) & _).
    rewrite <- (nonblank_some _ B). rewrite E. destruct (s_variable s); reflexivity.
  Qed.
  Lemma kid_comments : named_kids (lit "generalComment") (ekids y) (map (comment_of ns) (s_comments s)).
  Proof. kid_. Qed.
  Lemma kid_none k : In k ["allocations"; "location"; "functionType"; "dataSourceType"; "dataDerivationTypeStatus"] -> named_kids (lit k) (ekids y) [].
  Proof. intros [<-|[<-|[<-|[<-|[<-|[]]]]]]; apply kid_called; try other_; destruct (s_variable s); reflexivity. Qed.
  Lemma ref_is : reference (ref_elem ns s) (s_id s) [Elem (qualified ns (lit "common:shortDescription")) [(xml_lang, lit "en")] (cdata (s_name s)) None []].
  Proof.
    assert (P : Forall proper [Elem (qualified ns (lit "common:shortDescription")) [(xml_lang, lit "en")] (cdata (s_name s)) None []]).
    { apply (emit_proper show ns (VDict [(lit "@xml:lang", VStr (lit "en")); (ktext, VStr (s_name s))]) (lit "common:shortDescription")); reflexivity. }
    split; [exact P|]. split.
    - exists [lit "type"; lit "refObjectId"; lit "version"; lit "uri"]. split; repeat constructor; vm_compute; intuition discriminate.
    - split; [exists (lit "refObjectId"); split; [right; now left|apply simple_attr; vm_compute; intuition discriminate]|]. split; [apply W|].
      exact (named_local (lit "shortDescription") _ P).
  Qed.
  Lemma y_refers : refers_to y (s_id s).
  Proof. split; [exact (exchange_record show ns to_num n s W)|]. eexists _, _. split; [exact kid_ref|exact ref_is]. Qed.
  Lemma y_comments : comments_of y (s_comments s).
  Proof.
    exists (map (comment_of ns) (s_comments s)). split; [exact kid_comments|]. destruct W as (_ & _ & _ & _ & _ & C). clear W.
    induction C as [|ls l C1 C2 IH]; constructor; [|exact IH]. right. split; [now split|]. split; [cbn [comment_of etext]; now apply nonblank_some|exact C1].
  Qed.
  Lemma y_number : attribute y "dataSetInternalID" (str_of_Z (Z.of_nat n)).
  Proof.
    exists (lit "dataSetInternalID"). split; [|apply simple_attr; vm_compute; intuition discriminate]. cbn [exchange_elem eattrib].
    rewrite (exchange_attributes show ns to_num n s W). now left.
  Qed.
  Lemma find_named d : find_flow d (elem2dict y) =
    match get_file (Some (map (fun nf => (fst nf, File)) d)) (Reference (Some (flow_uri s)) (Some (s_id s)) (Some (s_version s))) with
    | None => None
    | Some m => getf m d
    end.
  Proof.
    pose proof (exchange_record show ns to_num n s W) as R. destruct (record_dict y R) as [dy E]. unfold find_flow. rewrite E. cbn [sub_item].
    rewrite (child_get y dy "referenceToFlowDataSet" _ R E x_krefflow kid_ref : getf krefflow dy = _).
    assert (Rr : record_element (ref_elem ns s)). { destruct ref_is as (P & Q & _). split; [exact P|]. split; [exact Q|discriminate]. }
    destruct (record_dict _ Rr) as [dr Er]. rewrite Er. cbn [sub_item].
    assert (G : forall k v, In (lit k, v) (eattrib (ref_elem ns s)) -> ~ In (ch "}") (lit k) -> getf (AsideModel.at_ k) dr = Some (VStr v)).
    { intros k v I N. apply (record_attr _ dr k Rr Er). exists v. split; [reflexivity|]. exists (lit k). split; [exact I|now apply simple_attr]. }
    change (lit "@uri") with (AsideModel.at_ "uri"). change (lit "@version") with (AsideModel.at_ "version"). change kobject with (AsideModel.at_ "refObjectId").
    rewrite (G "uri" (flow_uri s)), (G "version" (s_version s)), (G "refObjectId" (s_id s)); [reflexivity|..];
      try (right; right; right; now left); try (right; right; now left); try (right; now left); vm_compute; intuition discriminate.
  Qed.
  Context (more : pyval -> result unit) (language : pyval) (refs : list (pystr * pystr)).
  Lemma exchange_read q : read_as to_num show (s_amount s) q -> more (elem2dict y) = Ok tt ->
    exchange_init num to_num more language refs (elem2dict y)
    = Ok (InEx num (VStr (s_id s)) q (map note_of (s_comments s)) (VStr (direction_name (fi_dir (s_flow s)))) (VStr (str_of_Z (Z.of_nat n))) []).
  Proof.
    intros (_ & B & T) M. pose proof (exchange_record show ns to_num n s W) as R. destruct (record_dict y R) as [d E]. unfold exchange_init.
    rewrite (spoken_comments language y d _ R E y_comments), M, (allocations_none to_num refs y R (kid_none "allocations" (or_introl eq_refl))).
    assert (X : mapM (extra language (elem2dict y)) extra_names = Ok [[]; []; []; []]).
    { assert (O : forall k, In k ["location"; "functionType"; "dataSourceType"; "dataDerivationTypeStatus"] -> extra language (elem2dict y) k = Ok []).
      { intros k I. unfold extra. rewrite E. cbn [InflowModel.get_or bind]. rewrite (kids_get y d k [] R E); [reflexivity| |].
        - destruct I as [<-|[<-|[<-|[<-|[]]]]]; xname2.
        - apply kid_none. now right. }
      unfold extra_names. cbn [mapM]. rewrite !O by (cbn; intuition). reflexivity. }
    rewrite X, E. cbn [sub_item InflowModel.get_or bind].
    rewrite (child_get y d "referenceToFlowDataSet" _ R E x_krefflow kid_ref : getf krefflow d = _). cbn [bind].
    destruct (reference_read (ref_elem ns s) (s_id s) _ ref_is) as (d' & E' & A & S). rewrite E'. cbn [sub_item]. change kobject with kref. rewrite A. cbn [bind].
    assert (F : exists v, flow_name (VDict d') = Ok v).
    { unfold flow_name. cbn [sub_item]. change kdescription with ReferModel.kshort. rewrite S. cbn [bind].
      assert (B2 : ~ blank (Some (s_name s))) by apply W.
      match goal with |- context [elem2dict ?e] => rewrite (spoken_list e (lit "en", s_name s)) end; [exists (VStr (s_name s)); reflexivity|].
      right. split; [now split|]. split; [now apply nonblank_some|exact B2]. }
    destruct F as [v F]. rewrite F. cbn [bind]. rewrite (child_get y d "resultingAmount" _ R E x_resulting kid_resulting). rewrite (read_plain _ (show (s_amount s))); [|now repeat split]. rewrite T. cbn [bind].
    rewrite (child_get y d "exchangeDirection" _ R E x_exdirection kid_direction). rewrite (read_plain _ (direction_name (fi_dir (s_flow s)))); [|repeat split; apply direction_nonblank]. cbn [bind].
    assert (Nb : getf kinternal d = Some (VStr (str_of_Z (Z.of_nat n)))). { apply (record_attr y d "dataSetInternalID" R E). eexists. split; [reflexivity|exact y_number]. }
    rewrite Nb. cbn [bind concat app]. now rewrite app_nil_r.
  Qed.
End Read.

(** * Numbers *)
Definition numbered_from (c : nat) (l : list sent) : list (nat * sent) := combine (seq c (length l)) l.
Definition refs_of (l : list (nat * sent)) : list nat := map fst (filter (fun ns => is_reference (s_flow (snd ns))) l).
Lemma dicts_numbered l : forall st, fst (exchange_dicts st l) = map (fun ns => exchange_dict (fst ns) (snd ns)) (numbered_from (n_counter st) l) /\
  n_refs (snd (exchange_dicts st l)) = n_refs st ++ refs_of (numbered_from (n_counter st) l).
Proof.
  induction l as [|s l IH]; intros st; [split; [reflexivity|now rewrite app_nil_r]|]. unfold numbered_from. cbn [exchange_dicts number_flow length seq combine map fst snd].
  match goal with |- context [exchange_dicts ?t l] => pose proof (IH t) as [I1 I2]; destruct (exchange_dicts t l) as [ds st2] end. cbn [fst snd] in *. unfold refs_of. cbn [filter snd].
  rewrite I1, I2. destruct (is_reference (s_flow s)); cbn [n_counter n_refs map fst]; rewrite <- ?app_assoc; split; reflexivity.
Qed.
Lemma number_given l : forall c n s, In (n, s) (numbered_from c l) -> (In n (refs_of (numbered_from c l)) <-> is_reference (s_flow s) = true).
Proof.
  assert (Lo : forall l c n s, In (n, s) (numbered_from c l) -> (c <= n)%nat).
  { intros l0 c n s I. unfold numbered_from in I. apply in_combine_l in I. apply in_seq in I. lia. }
  assert (Lr : forall l c n, In n (refs_of (numbered_from c l)) -> (c <= n)%nat).
  { intros l0 c n I. unfold refs_of in I. apply in_map_iff in I. destruct I as ([m s] & E & I). apply filter_In in I. cbn [fst] in E. subst m. exact (Lo _ _ _ _ (proj1 I)). }
  induction l as [|x l IH]; intros c n s I; [destruct I|]. unfold numbered_from in *. cbn [length seq combine] in *. unfold refs_of. cbn [filter snd].
  destruct I as [E|I].
  - injection E as <- <-. destruct (is_reference (s_flow x)) eqn:Q; [split; [reflexivity|now left]|]. split; [|discriminate].
    intros J. apply (Lr l (S c) c) in J. lia.
  - pose proof (Lo l (S c) n s I) as G. rewrite <- (IH (S c) n s I). destruct (is_reference (s_flow x)); [|reflexivity].
    cbn [map fst In]. split; [intros [E|J]; [lia|exact J]|now right].
Qed.

(** * The process as it is read *)
Section Process.
  Context (show : pyval -> pystr) (ns : pystr) {num : Type} (to_num : pyval -> result num).
  Context (p : parts) (l : list sent) (Pk : parts_ok ns p) (W : Forall (well_sent to_num show) l).
  Notation numbered := (numbered_from 1 l).
  Notation ds := (map (fun x => exchange_dict (fst x) (snd x)) numbered).
  Notation rs := (refs_of numbered).
  Definition process_elem : elem :=
    Elem (qualified ns (lit "processDataSet")) (attributes show (process_entries p rs ds)) (own_text show (process_entries p rs ds)) None
         (kids_of show ns (process_entries p rs ds)).
  Lemma process_is : process_dict p l = VDict [(lit "processDataSet", VDict (process_entries p rs ds))].
  Proof. unfold process_dict. pose proof (dicts_numbered l numbering0) as [I1 I2]. destruct (exchange_dicts numbering0 l) as [a st]. cbn [fst snd] in *. rewrite I1, I2. reflexivity. Qed.
  Lemma process_written : unparse show (process_dict p l) = Ok process_elem.
  Proof.
    rewrite process_is. unfold unparse, process_entries. rewrite getf_app, (ok_space _ _ Pk). reflexivity.
  Qed.
  Lemma in_numbered n s : In (n, s) numbered -> well_sent to_num show s.
  Proof. intros I. apply in_combine_r in I. rewrite Forall_forall in W. now apply W. Qed.
  Lemma dicts_good : forallb good ds = true.
  Proof.
    apply forallb_forall. intros v I. apply in_map_iff in I. destruct I as ([n s] & <- & I). exact (entries_good show to_num n s (in_numbered n s I)).
  Qed.
  Lemma good_app a b : good (VDict a) = true -> good (VDict b) = true -> good (VDict (a ++ b)) = true.
  Proof. cbn [good]. intros A B. rewrite forallb_app. rewrite A, B. reflexivity. Qed.
  Lemma good_entry k v : name_ok (bare_key k) = true -> good v = true -> good (VDict [(k, v)]) = true.
  Proof. intros A B. cbn [good forallb fst snd]. now rewrite A, B, orb_true_r. Qed.
  Lemma refs_good : good (VList (map (fun n => VInt (Z.of_nat n)) rs)) = true.
  Proof. cbn [good]. apply forallb_forall. intros v I. apply in_map_iff in I. destruct I as (n & <- & _). reflexivity. Qed.
  Lemma quant_good : good (VDict (quant_head p ++ [(lit "referenceToReferenceFlow", VList (map (fun n => VInt (Z.of_nat n)) rs))] ++ quant_tail p)) = true.
  Proof. destruct (ok_quant _ _ Pk) as [[_ A] [_ B]]. apply good_app; [exact A|]. apply good_app; [|exact B]. apply good_entry; [reflexivity|exact refs_good]. Qed.
  Lemma process_good : good (VDict (process_entries p rs ds)) = true.
  Proof.
    unfold process_entries. destruct (ok_head _ _ Pk) as [_ A], (ok_middle _ _ Pk) as [_ B], (ok_info _ _ Pk) as [[_ C] [_ D]].
    apply good_app; [exact A|]. apply good_app; [|apply good_app; [exact B|]].
    - apply good_entry; [reflexivity|]. apply good_app; [exact C|]. apply good_app; [|exact D]. apply good_entry; [reflexivity|exact quant_good].
    - apply good_entry; [reflexivity|]. apply good_entry; [reflexivity|exact dicts_good].
  Qed.
  Lemma process_proper : proper process_elem.
  Proof. pose proof (emit_proper show ns _ (lit "processDataSet") eq_refl process_good) as P. now inversion P. Qed.
  (** the parts in which something is found *)
  Notation quant_entries := (quant_head p ++ [(lit "referenceToReferenceFlow", VList (map (fun n => VInt (Z.of_nat n)) rs))] ++ quant_tail p).
  Notation info_entries := (info_head p ++ [(lit "quantitativeReference", VDict quant_entries)] ++ info_tail p).
  Definition number_elem (n : nat) : elem := Elem (qualified ns (lit "referenceToReferenceFlow")) [] (cdata (str_of_Z (Z.of_nat n))) None [].
  Lemma under_called n m e : under (n :: m) e = flat_map (under m) (called n (ekids e)).
  Proof. reflexivity. Qed.
  Lemma quant_under : flat_map (under [lit "quantitativeReference"; lit "referenceToReferenceFlow"]) (emit show ns (lit "processInformation") (VDict info_entries)) = map number_elem rs.
  Proof.
    destruct (ok_info _ _ Pk) as [A B], (ok_quant _ _ Pk) as [C D].
    assert (E : forall key d, emit show ns key (VDict d) = [Elem (qualified ns key) (attributes show d) (own_text show d) None (kids_of show ns d)]) by reflexivity.
    rewrite E. cbn [flat_map]. rewrite app_nil_r, under_called. cbn [ekids]. rewrite !kids_app, !called_app.
    rewrite (kids_other show ns ["quantitativeReference"] _ _ A), (kids_other show ns ["quantitativeReference"] _ _ B) by now left.
    rewrite app_nil_r, app_nil_l. rewrite kids_one by reflexivity. rewrite emit_called by reflexivity.
    change (str_eqb (bare_key (lit "quantitativeReference")) (lit "quantitativeReference")) with true. cbn iota.
    rewrite E. cbn [flat_map]. rewrite app_nil_r, under_called. cbn [ekids]. rewrite !kids_app, !called_app.
    rewrite (kids_other show ns ["referenceToReferenceFlow"] _ _ C), (kids_other show ns ["referenceToReferenceFlow"] _ _ D) by now left.
    rewrite app_nil_r, app_nil_l. rewrite kids_one by reflexivity. rewrite emit_called by reflexivity.
    change (str_eqb (bare_key (lit "referenceToReferenceFlow")) (lit "referenceToReferenceFlow")) with true. cbn iota. cbn [emit].
    generalize (refs_of numbered) as r. clear. induction r as [|n r IH]; [reflexivity|]. cbn [map flat_map]. rewrite flat_map_app, IH. reflexivity.
  Qed.
  Lemma exchanges_under : flat_map (under [lit "exchange"]) (emit show ns (lit "exchanges") (VDict [(lit "exchange", VList ds)])) = map (fun x => exchange_elem show ns (fst x) (snd x)) numbered.
  Proof.
    assert (E : forall key d, emit show ns key (VDict d) = [Elem (qualified ns key) (attributes show d) (own_text show d) None (kids_of show ns d)]) by reflexivity.
    rewrite E. cbn [flat_map]. rewrite app_nil_r, under_called. cbn [ekids]. rewrite kids_one by reflexivity. rewrite emit_called by reflexivity.
    change (str_eqb (bare_key (lit "exchange")) (lit "exchange")) with true. cbn iota. cbn [emit].
    generalize numbered as r. clear. induction r as [|n r IH]; [reflexivity|]. cbn [map flat_map]. rewrite flat_map_app, IH. reflexivity.
  Qed.
  Lemma skip_other (f g : elem -> list (pystr * pyval)) n1 n2 names d : other_names names d -> In n1 (map lit names) -> In n2 (map lit names) ->
    flat_map (fun k => if str_eqb (local (etag k)) n1 then f k else if str_eqb (local (etag k)) n2 then g k else []) (kids_of show ns d) = [].
  Proof.
    intros O I1 I2. pose proof (kids_other show ns names n1 d O I1) as C1. pose proof (kids_other show ns names n2 d O I2) as C2. unfold called in *.
    induction (kids_of show ns d) as [|k ks IH]; [reflexivity|]. cbn [flat_map filter] in *. destruct (str_eqb (local (etag k)) n1); [discriminate|].
    destruct (str_eqb (local (etag k)) n2); [discriminate|]. exact (IH C1 C2).
  Qed.
  Lemma keep_one (k : pystr) (q : list pystr) (g : elem -> list (pystr * pyval)) n1 n2 es : Forall (fun e => local (etag e) = n1) es ->
    flat_map (fun e => if str_eqb (local (etag e)) n1 then map (fun x => (k, elem2dict x)) (under q e) else if str_eqb (local (etag e)) n2 then g e else []) es
    = map (fun x => (k, elem2dict x)) (flat_map (under q) es).
  Proof. induction 1 as [|e es E F IH]; [reflexivity|]. cbn [flat_map]. rewrite IH, E, str_eqb_refl, map_app. reflexivity. Qed.
  Lemma keep_two (k : pystr) (q : list pystr) (g : elem -> list (pystr * pyval)) n1 n2 es : Forall (fun e => local (etag e) = n2) es -> str_eqb n2 n1 = false ->
    flat_map (fun e => if str_eqb (local (etag e)) n1 then g e else if str_eqb (local (etag e)) n2 then map (fun x => (k, elem2dict x)) (under q e) else []) es
    = map (fun x => (k, elem2dict x)) (flat_map (under q) es).
  Proof. intros F D. induction F as [|e es E F IH]; [reflexivity|]. cbn [flat_map]. rewrite IH, E, D, str_eqb_refl, map_app. reflexivity. Qed.
  Lemma process_read : read [kreference; kexchange] process_elem =
    map (fun n => (kreference, elem2dict (number_elem n))) rs ++ map (fun x => (kexchange, elem2dict (exchange_elem show ns (fst x) (snd x)))) numbered.
  Proof.
    pose proof (read_below (lit "processDataSet") (lit "processInformation") (lit "exchanges") [lit "quantitativeReference"; lit "referenceToReferenceFlow"] [lit "exchange"]
      (qualified ns (lit "processDataSet")) (attributes show (process_entries p rs ds)) (own_text show (process_entries p rs ds)) None (kids_of show ns (process_entries p rs ds))) as R.
    change (path [lit "processDataSet"; lit "processInformation"; lit "quantitativeReference"; lit "referenceToReferenceFlow"]) with kreference in R.
    change (path [lit "processDataSet"; lit "exchanges"; lit "exchange"]) with kexchange in R.
    change process_elem with (Elem (qualified ns (lit "processDataSet")) (attributes show (process_entries p rs ds)) (own_text show (process_entries p rs ds)) None (kids_of show ns (process_entries p rs ds))).
    rewrite R; clear R; [| | | | | exact process_proper | now apply qualified_local].
    2: { repeat constructor; vm_compute; intuition discriminate. }
    2: { vm_compute. discriminate. }
    2: { vm_compute. intuition discriminate. }
    2: { vm_compute. intuition discriminate. }
    unfold process_entries. rewrite !kids_app, !flat_map_app.
    rewrite (skip_other _ _ _ _ _ _ (ok_head _ _ Pk)) by (cbn; auto). rewrite (skip_other _ _ _ _ _ _ (ok_middle _ _ Pk)) by (cbn; auto). rewrite !app_nil_l.
    rewrite !kids_one by reflexivity.
    assert (T : forall k v, name_ok (bare_key (lit k)) = true -> bare_key (lit k) = lit k -> Forall (fun e => local (etag e) = lit k) (emit show ns (lit k) v)).
    { intros k v K B. eapply Forall_impl; [|exact (emit_tag show ns v (lit k))]. intros e X. cbn beta in X. rewrite X, (qualified_local ns _ K). exact B. }
    etransitivity; [apply f_equal2; [exact (keep_one _ _ _ _ _ _ (T "processInformation" _ eq_refl eq_refl))|exact (keep_two _ _ _ (lit "processInformation") _ _ (T "exchanges" _ eq_refl eq_refl) eq_refl)]|].
    rewrite quant_under, exchanges_under, !map_map. reflexivity.
  Qed.
End Process.

(** * The exchanges as they arrive *)
Lemma number_blank z : ~ blank (Some (str_of_Z (Z.of_nat z))).
Proof.
  assert (N : str_of_Z (Z.of_nat z) <> []). { destruct z; [discriminate|]. cbn [Z.of_nat str_of_Z]. apply str_of_N_nonnil. }
  pose proof (str_of_Z_nospace (Z.of_nat z)) as H. intros B. destruct (str_of_Z (Z.of_nat z)) as [|c r]; [congruence|]. specialize (H c (or_introl eq_refl)).
  unfold blank in B. inversion B; subst. congruence.
Qed.
Lemma number_value ns n : elem2dict (number_elem ns n) = VStr (str_of_Z (Z.of_nat n)).
Proof. apply read_plain. repeat split; [|apply number_blank]. cbn [number_elem etext]. apply nonblank_some, number_blank. Qed.
Lemma same_number n l : existsb (same (VStr (str_of_Z (Z.of_nat n)))) (map (fun m => VStr (str_of_Z (Z.of_nat m))) l) = true <-> In n l.
Proof.
  rewrite existsb_exists. split.
  - intros (v & I & E). apply in_map_iff in I. destruct I as (m & <- & I). cbn [same] in E. apply str_eqb_eq in E. apply str_of_Z_inj in E. apply Nat2Z.inj in E. now subst.
  - intros I. eexists. split; [apply in_map_iff; exists n; split; [reflexivity|exact I]|]. apply str_eqb_refl.
Qed.
Section Arrive.
  Context (num : Type) (to_num : pyval -> result num) (one zero : num) (mul sub div : num -> num -> num) (is_zero : num -> bool).
  Context (more : pyval -> result unit) (language : pyval) (D : Type) (same_dim : D -> D -> bool) (dim : pystr -> option D).
  Context (mapping : list (pystr * target)) (compartments : list pystr) (master : list (pystr * list (pystr * md_row))) (use_master : bool).
  Context (cid : pystr -> pystr) (prints_kg prints_m3 : pystr -> bool) (refs : list (pystr * pystr)).
  Notation conversion := (convert_exchange num to_num one zero sub div is_zero more language D same_dim dim mapping compartments master use_master cid prints_kg prints_m3 refs).
  Notation arrive := (arrive num to_num one zero mul sub div is_zero more language D same_dim dim mapping compartments master use_master cid prints_kg prints_m3 refs).
  Notation arrive_all := (arrive_all num to_num one zero mul sub div is_zero more language D same_dim dim mapping compartments master use_master cid prints_kg prints_m3 refs).
  Notation arrivals := (arrivals num to_num one zero mul sub div is_zero more language D same_dim dim mapping compartments master use_master cid prints_kg prints_m3 refs).
  Lemma arrive_numbers {A} d (f : A -> pyval) (l : list A) rest : forall numbers, arrive_all d numbers (map (fun a => (kreference, f a)) l ++ rest) = arrive_all d (numbers ++ map f l) rest.
  Proof.
    induction l as [|a l IH]; intros numbers; [now rewrite app_nil_r|]. cbn [map List.app CrossModel.arrive_all]. rewrite str_eqb_refl, IH, <- app_assoc. reflexivity.
  Qed.
  Lemma arrive_exchanges {A} d numbers (f : A -> pyval) (l : list A) : forall rs, arrive_all d numbers (map (fun a => (kexchange, f a)) l) = Ok rs <->
    Forall2 (fun a r => arrive numbers (f a) (find_flow d (f a)) = Ok r) l rs.
  Proof.
    induction l as [|a l IH]; intros rs; cbn [map CrossModel.arrive_all].
    - split; [intros H; injection H as <-; constructor|]. intros H. now inversion H.
    - change (str_eqb kexchange kreference) with false. cbn iota. split.
      + intros H. apply bind_ok in H. destruct H as (r & H1 & H). apply bind_ok in H. destruct H as (rs' & H2 & H). injection H as <-. constructor; [exact H1|now apply IH].
      + intros H. inversion H as [|? r ? rs' H1 H2]; subst. rewrite H1. cbn [bind]. rewrite (proj2 (IH rs') H2). reflexivity.
  Qed.
  Context (show : pyval -> pystr) (ns : pystr).
  Notation at_number l := (map (fun m => VStr (str_of_Z (Z.of_nat m))) (refs_of (numbered_from 1 l))).
  Lemma arrivals_are d p l rs : parts_ok ns p -> Forall (well_sent to_num show) l -> arrivals d (process_elem show ns p l) = Ok rs <->
    Forall2 (fun x r => arrive (at_number l) (elem2dict (exchange_elem show ns (fst x) (snd x))) (find_flow d (elem2dict (exchange_elem show ns (fst x) (snd x)))) = Ok r) (numbered_from 1 l) rs.
  Proof.
    intros P W. unfold CrossModel.arrivals. rewrite (process_read show ns to_num p l P W).
    rewrite (arrive_numbers d (fun n => elem2dict (number_elem ns n))). cbn [List.app].
    rewrite <- (arrive_exchanges d (at_number l) (fun x => elem2dict (exchange_elem show ns (fst x) (snd x)))).
    rewrite (map_ext _ _ (number_value ns)). reflexivity.
  Qed.
  Lemma numbered_nth l : forall c i n s, nth_error (numbered_from c l) i = Some (n, s) <-> nth_error l i = Some s /\ n = (c + i)%nat.
  Proof.
    induction l as [|x l IH]; intros c i n s; [destruct i; split; try discriminate; intros [? _]; discriminate|]. unfold numbered_from in *. cbn [length seq combine]. destruct i as [|i]; cbn [nth_error].
    - split; [intros H; injection H as <- <-; split; [reflexivity|lia]|]. intros [H ->]. injection H as <-. now rewrite Nat.add_0_r.
    - rewrite IH. split; intros [H ->]; (split; [exact H|lia]).
  Qed.
  Lemma forall2_nth {A B} (R : A -> B -> Prop) l rs : Forall2 R l rs -> forall i a b, nth_error l i = Some a -> nth_error rs i = Some b -> R a b.
  Proof. induction 1 as [|x y l rs H F IH]; intros [|i] a b E1 E2; try discriminate; cbn [nth_error] in *; [congruence|now apply (IH i)]. Qed.
  Lemma forall2_len {A B} (R : A -> B -> Prop) l rs : Forall2 R l rs -> length l = length rs.
  Proof. induction 1 as [|x y l rs H F IH]; [reflexivity|]. cbn [length]. now rewrite IH. Qed.
  Lemma init_more x e : exchange_init num to_num more language refs x = Ok e -> more x = Ok tt.
  Proof.
    unfold exchange_init. intros H. do 6 (apply bind_ok in H; destruct H as (? & _ & H)). apply bind_ok in H. destruct H as ([] & H & _). exact H.
  Qed.
  (** what is known of an exchange that arrives *)
  Lemma arrived_inv numbers n s file a : well_sent to_num show s -> arrive numbers (elem2dict (exchange_elem show ns n s)) file = Ok (Some a) ->
    exists e q, file = Some e /\ conversion (elem2dict (exchange_elem show ns n s)) (Some e) = Ok (Written (a_written a)) /\
      read_as to_num show (s_amount s) q /\ a_amount a = mul q (w_factor (a_written a)) /\
      forall k, proper e -> one_text e at_type k -> set_group (existsb (same (VStr (str_of_Z (Z.of_nat n)))) numbers) (direction_name (fi_dir (s_flow s))) k = Ok (a_field a, a_group a).
  Proof.
    intros W H. pose proof W as W'. destruct W' as (_ & _ & (q & Rq) & _). unfold CrossModel.arrive in H. apply bind_ok in H. destruct H as (o & C & H). destruct o as [|w]; [discriminate|].
    destruct file as [e|]; [|discriminate]. apply bind_ok in H. destruct H as (ie & I & H). pose proof (init_more _ _ I) as M.
    rewrite (exchange_read show ns to_num n s W more language refs q Rq M) in I. injection I as <-. apply bind_ok in H. destruct H as (inf & Inf & H). cbn [x_direction x_number x_amount] in H.
    destruct (i_type inf) as [[| | | |kind| | | |]|] eqn:T; try discriminate H. apply bind_ok in H. destruct H as (fg & G & H). injection H as <-. cbn [a_written a_amount a_field a_group].
    exists e, q. split; [reflexivity|]. split; [exact C|]. split; [exact Rq|]. split; [reflexivity|]. intros k P O. rewrite (type_value e inf P Inf k O) in T. injection T as <-. rewrite G. now destruct fg.
  Qed.
  (** all of them *)
  Lemma arrivals_inv d p l doc rs : parts_ok ns p -> Forall (well_sent to_num show) l -> unparse show (process_dict p l) = Ok doc -> arrivals d doc = Ok rs ->
    length rs = length l /\
    forall i s a, nth_error l i = Some s -> nth_error rs i = Some (Some a) ->
      exists e q y, find_flow d (elem2dict y) = Some e /\ y = exchange_elem show ns (S i) s /\ conversion (elem2dict y) (Some e) = Ok (Written (a_written a)) /\
      read_as to_num show (s_amount s) q /\ a_amount a = mul q (w_factor (a_written a)) /\
      forall k, proper e -> one_text e at_type k -> set_group (is_reference (s_flow s)) (direction_name (fi_dir (s_flow s))) k = Ok (a_field a, a_group a).
  Proof.
    intros P W U H. rewrite (process_written show ns p l P) in U. injection U as <-. apply (arrivals_are d p l rs P W) in H. split.
    - pose proof (forall2_len _ _ _ H) as L. unfold numbered_from in L. rewrite combine_length, seq_length, Nat.min_id in L. now symmetry.
    - intros i s a E1 E2. pose proof (proj2 (numbered_nth l 1 i (S i) s) (conj E1 eq_refl)) as E. pose proof (forall2_nth _ _ _ H i _ _ E E2) as A. cbn [fst snd] in A.
      assert (Ws : well_sent to_num show s) by (rewrite Forall_forall in W; apply W; exact (nth_error_In _ _ E1)).
      destruct (arrived_inv _ _ _ _ _ Ws A) as (e & q & F & C & Rq & Am & G). exists e, q, (exchange_elem show ns (S i) s). repeat split; try assumption; try apply Rq. intros k Pe O. specialize (G k Pe O).
      pose proof (number_given l 1 (S i) s (nth_error_In _ _ E)) as Ng. pose proof (same_number (S i) (refs_of (numbered_from 1 l))) as Sn.
      replace (is_reference (s_flow s)) with (existsb (same (VStr (str_of_Z (Z.of_nat (S i))))) (at_number l)); [exact G|].
      destruct (is_reference (s_flow s)).
      + apply Sn, Ng. reflexivity.
      + destruct (existsb _ _); [|reflexivity]. symmetry. apply Ng, Sn. reflexivity.
  Qed.
End Arrive.

(** * Groups *)
Lemma group_exact f by_ k fld z : allowed_group (fi_dir f) (fi_group f) by_ -> kind_of_flow f by_ = Some k ->
  set_group (is_reference f) (direction_name (fi_dir f)) k = Ok (fld, z) -> comes_back (fi_dir f) (fi_group f) by_ fld z.
Proof.
  destruct f as [d g t]. cbn [fi_dir fi_group]. unfold allowed_group, kind_of_flow, is_reference. cbn [fi_dir fi_group]. intros A K S.
  destruct d.
  - destruct A as [A|[-> ->]].
    + assert (E : k <> elementary_kind /\ (k = waste_kind \/ k = product_kind)).
      { destruct by_ as [c|]; [destruct (str_eqb c (lit "Waste")); injection K as <-; (split; [discriminate|auto])|].
        destruct A as [<-|[<-|[<-|[<-|[]]]]]; injection K as <-; (split; [discriminate|auto]). }
      destruct E as [_ [->| ->]]; injection S as <- <-; now constructor.
    + injection K as <-. injection S as <- <-. constructor.
  - destruct A as [A|[-> ->]].
    + destruct A as [<-|[<-|[<-|[<-|[]]]]].
      * destruct by_ as [c|]; [destruct (str_eqb c (lit "Waste"))|]; injection K as <-; injection S as <- <-; constructor.
      * destruct by_ as [c|]; [destruct (str_eqb c (lit "Waste")) eqn:Q|]; injection K as <-; injection S as <- <-.
        -- apply str_eqb_eq in Q. subst c. apply back_waste. now left.
        -- apply back_product; [now left|]. intros ->. discriminate Q.
        -- constructor.
      * destruct by_ as [c|]; [destruct (str_eqb c (lit "Waste")) eqn:Q|]; injection K as <-; injection S as <- <-.
        -- apply str_eqb_eq in Q. subst c. apply back_waste. right; now left.
        -- apply back_product; [right; now left|]. intros ->. discriminate Q.
        -- constructor.
      * destruct by_ as [c|]; [destruct (str_eqb c (lit "Waste")) eqn:Q|]; injection K as <-; injection S as <- <-.
        -- apply str_eqb_eq in Q. subst c. apply back_waste. do 2 right; now left.
        -- apply back_product; [do 2 right; now left|]. intros ->. discriminate Q.
        -- constructor.
    + injection K as <-. injection S as <- <-. constructor.
Qed.

(** * Files *)
Lemma uuid_end u : ValidatorsSpec.is_uuid u -> exists v c, u = v ++ [c] /\ ValidatorsSpec.hexchar c.
Proof.
  intros (a & b & c & d & e & -> & _ & _ & _ & _ & [L F]). destruct e as [|x e] using rev_ind; [discriminate|]. apply Forall_app in F. destruct F as [_ F]. inversion F as [|? ? Fx _]; subst.
  exists (a ++ lit "-" ++ b ++ lit "-" ++ c ++ lit "-" ++ d ++ lit "-" ++ e), x. split; [now rewrite <- !app_assoc|exact Fx].
Qed.
Lemma file_in d n : is_file (map (fun nf : pystr * elem => (fst nf, File)) d) n = true <-> In n (map fst d).
Proof.
  unfold is_file. rewrite existsb_exists. split.
  - intros ([m k] & I & E). apply in_map_iff in I. destruct I as ([m' e] & X & I). cbn [fst] in X. injection X as <- <-. apply str_eqb_eq in E. subst n. apply in_map_iff. now exists (m', e).
  - intros I. apply in_map_iff in I. destruct I as ([m e] & <- & I). exists (m, File). split; [apply in_map_iff; now exists (m, e)|apply str_eqb_refl].
Qed.
Lemma not_file d l n v c : names_written d l -> n = v ++ [c] -> c <> ch "l" -> is_file (map (fun nf : pystr * elem => (fst nf, File)) d) n = false.
Proof.
  intros N -> C. destruct (is_file _ _) eqn:E; [|reflexivity]. apply file_in in E. apply N in E. destruct E as (s & _ & E). unfold flow_file_name in E.
  apply (f_equal (fun l => last l 0%N)) in E. rewrite last_last in E. change (lit ".xml") with (lit ".xm" ++ [ch "l"]) in E. rewrite !app_assoc, last_last in E. contradiction.
Qed.
Lemma uri_last s : ValidatorsSpec.is_uuid (s_id s) -> ~ In (ch "/") (s_version s) ->
  last (split (lit "/") (flow_uri s)) [] = s_id s ++ (if s_own s then lit "_" ++ s_version s else []).
Proof.
  intros U V. set (t := s_id s ++ (if s_own s then lit "_" ++ s_version s else [])).
  replace (flow_uri s) with (join (lit "/") [lit ".."; lit "flows"; t]) by (unfold flow_uri, uri_of, t; destruct (s_own s); reflexivity).
  change (lit "/") with [ch "/"]. rewrite ReviewProofs.split_char_of_join; [reflexivity|discriminate|]. repeat constructor.
  - vm_compute; intuition discriminate.
  - vm_compute; intuition discriminate.
  - unfold t. intros I. apply in_app_or in I. destruct I as [I|I]; [exact (AttachProofs.uuid_slash _ U I)|]. destruct (s_own s); [|contradiction].
    apply in_app_or in I. destruct I as [I|I]; [vm_compute in I; intuition discriminate|exact (V I)].
Qed.
Lemma digit_not_l c : (48 <= c <= 57)%N -> c <> ch "l". Proof. intros H ->. vm_compute in H. destruct H as [_ H]. now apply H. Qed.
Lemma hex_not_l c : ValidatorsSpec.hexchar c -> c <> ch "l". Proof. intros [H|H] ->; vm_compute in H; destruct H as [_ H]; now apply H. Qed.
Lemma app_same {A} (a : list A) : forall b x y, length a = length b -> a ++ x = b ++ y -> a = b /\ x = y.
Proof.
  induction a as [|c a IH]; intros [|c' b] x y L E; try discriminate L; [now split|]. cbn [List.app] in E. injection E as <- E. injection L as L. destruct (IH b x y L E) as [-> ->]. now split.
Qed.
Lemma same_file_id s t : ValidatorsSpec.is_uuid (s_id s) -> ValidatorsSpec.is_uuid (s_id t) -> s_id s ++ lit "_" ++ s_version s ++ lit ".xml" = flow_file_name t -> s_own t = true /\ s_id t = s_id s.
Proof.
  intros U1 U2 E. unfold flow_file_name in E. pose proof (AttachProofs.uuid_length _ U1) as L1. pose proof (AttachProofs.uuid_length _ U2) as L2.
  apply app_same in E; [|congruence]. destruct E as [E1 E2]. split; [|now symmetry]. destruct (s_own t); [reflexivity|discriminate E2].
Qed.
Lemma flow_found d l s e y : names_written d l -> Forall (fun s => ValidatorsSpec.is_uuid (s_id s) /\ version_ok (s_version s)) l -> NoDup (map fst d) ->
  (forall a b, In a l -> In b l -> s_id a = s_id b -> s_own a = s_own b) -> In s l -> In (flow_file_name s, e) d ->
  find_flow d y = match get_file (Some (map (fun nf => (fst nf, File)) d)) (Reference (Some (flow_uri s)) (Some (s_id s)) (Some (s_version s))) with None => None | Some m => getf m d end ->
  find_flow d y = Some e.
Proof.
  intros N F Nd Ap Is I ->. rewrite Forall_forall in F. destruct (F s Is) as [U [(v & c & Ev & Dc) Vs]].
  assert (G : get_file (Some (map (fun nf => (fst nf, File)) d)) (Reference (Some (flow_uri s)) (Some (s_id s)) (Some (s_version s))) = Some (flow_file_name s)).
  { unfold get_file, options. cbn [ExchangeModel.r_uri ExchangeModel.r_id ExchangeModel.r_version or_empty]. rewrite (uri_last s U Vs). cbn [find].
    assert (J : is_file (map (fun nf : pystr * elem => (fst nf, File)) d) (flow_file_name s) = true) by (apply file_in; apply in_map_iff; now exists (flow_file_name s, e)).
    unfold flow_file_name in J |- *. destruct (s_own s) eqn:O.
    - rewrite (not_file d l (s_id s ++ lit "_" ++ s_version s) (s_id s ++ lit "_" ++ v) c N); [|rewrite Ev, !app_assoc; reflexivity|now apply digit_not_l].
      rewrite <- app_assoc in J |- *. now rewrite J.
    - rewrite app_nil_r. destruct (uuid_end _ U) as (v' & c' & Eu & Hc). rewrite (not_file d l (s_id s) v' c' N Eu (hex_not_l _ Hc)).
      match goal with |- context [is_file _ ?n] => destruct (is_file (map (fun nf : pystr * elem => (fst nf, File)) d) n) eqn:Q end.
      + apply file_in in Q. apply N in Q. destruct Q as (t & It & Q). destruct (same_file_id s t U (proj1 (F t It)) Q) as [Ot Ei]. rewrite (Ap t s It Is Ei) in Ot. congruence.
      + cbn [List.app] in J |- *. now rewrite J. }
  rewrite G. clear -Nd I. induction d as [|[m f] d IH]; [destruct I|]. cbn [map fst getf] in *. inversion Nd as [|? ? N1 N2]; subst. destruct I as [E|I].
  - injection E as -> ->. now rewrite str_eqb_refl.
  - destruct (str_eqb m (flow_file_name s)) eqn:Q; [|now apply IH]. apply str_eqb_eq in Q. subst m. destruct N1. apply in_map_iff. now exists (flow_file_name s, e).
Qed.
