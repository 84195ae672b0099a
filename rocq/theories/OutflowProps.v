(** C149-C156: products and their flow data sets, from EcoSpold2 to ILCD, and back. *)
From Coq Require Import Ascii String List Bool Arith NArith ZArith Lia.
From Coq Require QArith_base.
From Verif Require Import PyBase PyBaseFacts PyDigits PyValues ValidatorsSpec MultiLangModel DotDictModel DotDictProofs UtilsModel UtilsSpec UtilsProps FlowModel ConverterModel
  XmlModel XmlSpec XmlProofs XmlProps KeysModel KeysSpec KeysProofs HandleModel HandleSpec OutputProofs HandleProofs ReferProofs
  ClassProofs AsideModel AsideSpec AsideProofs AsideProps ReferModel ReferSpec InflowModel InflowSpec InflowProofs InflowProps OutflowModel OutflowSpec OutflowProofs.
Import ListNotations.
Local Open Scope string_scope.
Local Open Scope list_scope.

(** * The tables *)
Lemma dimensions_known : forallb (fun kr => match r_unit (snd kr) with None => true | _ => match getf (r_id (snd kr)) un_table with Some _ => true | None => false end end) to_fp = true.
Proof. vm_compute. reflexivity. Qed.
Lemma dimension_known k row : getf k to_fp = Some row -> r_unit row <> None -> exists u n, getf (r_id row) un_table = Some (u, n).
Proof.
  intros G N. apply HandleProofs.In_getf in G. pose proof dimensions_known as T. rewrite forallb_forall in T. specialize (T _ G). cbn [snd] in T.
  destruct (r_unit row) as [s|]; [|congruence]. destruct (getf (r_id row) un_table) as [[u n]|]; [|discriminate]. exists u, n. reflexivity.
Qed.
Lemma identifiers_apart : forallb (fun kr => negb (str_in (fst kr) (map fst to_fp))) fp_table = true.
Proof. vm_compute. reflexivity. Qed.
Lemma identifier_apart i : In i (map fst fp_table) -> ~ In i (map fst to_fp).
Proof.
  intros I J. apply in_map_iff in I. destruct I as (kr & <- & I). pose proof identifiers_apart as T. rewrite forallb_forall in T. specialize (T _ I).
  apply str_in_In in J. now rewrite J in T.
Qed.

Lemma leaf_plain k s : ~ blank (Some s) -> plain_text (leaf k [] s) s.
Proof. intros B. repeat split; [cbn [leaf etext]; now apply nonblank_some|exact B]. Qed.
Lemma spoken_nonblank k ls : spoken k ls -> ~ blank (Some (snd ls)).
Proof. intros [[(_ & _ & _ & B) _]|(_ & _ & B)]; exact B. Qed.
Lemma texts_nonblank x n ls : texts_of x n ls -> Forall (fun l => ~ blank (Some (snd l))) ls.
Proof. intros (ks & _ & F). induction F as [|k l ks ls S F IH]; constructor; [exact (spoken_nonblank _ _ S)|exact IH]. Qed.

Section Products.
  Context (uid : pystr -> result pystr) (show : pyval -> pystr) (now : pystr).
  (** the flow data set with the identifier [id], written for the exchange [x] *)
  Definition product_written (x : elem) (classes : list class_entry) (kind key : pystr) (ps : list (bool * draft)) (version id : pystr) (doc : elem) : Prop :=
    exists d, elem2dict x = VDict d /\ flow_file uid show now d classes (Some kind) key ps version = Ok (id, doc).
  (** Every product with a name and a unit of a known dimension has a flow data set. *)
  Section Written.
    Context (x : elem) (fid l n : pystr) (names syns : list (pystr * pystr)) (classes : list class_entry) (kind key : pystr) (row : to_row).
    Context (ps : list (bool * draft)) (version id : pystr).
    Context (X : product_exchange x fid ((l, n) :: names) syns) (U : uid fid = Ok id) (Row : getf key to_fp = Some row) (L : Forall (fun bp => legal_draft (snd bp)) ps).
    Notation doc := (flow_root show id version now n (join (lit "; ") (map snd syns)) classes (flow_note fid) kind (property_dict 0 (unit_draft row) :: property_dicts 1 ps)).
    Lemma written_root : product_written x classes kind key ps version id doc.
    Proof.
      destruct X as (R & _). destruct (record_dict x R) as [d Q]. exists d. split; [exact Q|]. now apply (flow_made uid show now x d fid l n names syns id key row).
    Qed.
    Lemma written_only id' doc' : product_written x classes kind key ps version id' doc' -> id' = id /\ doc' = doc.
    Proof.
      intros (d & Q & H). rewrite (flow_made uid show now x d fid l n names syns id key row ps kind version classes X Q U Row) in H. injection H as E1 E2. split; symmetry; [exact E1|exact E2].
    Qed.
  End Written.

  (** * C155: parts of the data set *)
  Theorem C155_identified :
    forall x fid l n names syns classes kind key row ps version id, product_exchange x fid ((l, n) :: names) syns -> uid fid = Ok id -> getf key to_fp = Some row ->
      Forall (fun bp => legal_draft (snd bp)) ps -> ~ blank (Some id) -> ~ blank (Some version) ->
      exists doc, product_written x classes kind key ps version id doc /\ proper doc /\
        one_text doc (lit "/flowDataSet/flowInformation/dataSetInformation/UUID") id /\
        one_text doc (lit "/flowDataSet/administrativeInformation/publicationAndOwnership/dataSetVersion") version.
  Proof.
    intros x fid l n names syns classes kind key row ps version id X U Row L Bi Bv. eexists. split; [exact (written_root x fid l n names syns classes kind key row ps version id X U Row)|].
    split; [now apply (doc_proper show now _ _ _ _ _ _ _ _ _ key Row L)|]. split.
    - eexists. split; [exact (doc_uuid show now _ _ _ _ _ _ _ _ _ key Row L)|now apply leaf_plain].
    - eexists. split; [exact (doc_version show now _ _ _ _ _ _ _ _ _ key Row L)|now apply leaf_plain].
  Qed.
  (** The file is named after the identifier and the version. *)
  Theorem C155_file_name :
    forall d classes kind key ps version id name v doc, make_flow uid now d classes kind key ps version = Ok (id, name, v) ->
      flow_file uid show now d classes kind key ps version = Ok (id, doc) -> name = id ++ lit "_" ++ version.
  Proof.
    intros d classes kind key ps version id name v doc H _. unfold make_flow in H. apply bind_ok in H. destruct H as (ns & _ & H). apply bind_ok in H. destruct H as (syn & _ & H).
    apply bind_ok in H. destruct H as (u & _ & H). destruct ns as [|n ns]; [discriminate|]. apply bind_ok in H. destruct H as (f & _ & H). destruct f; try discriminate H.
    apply bind_ok in H. destruct H as (i & _ & H). injection H as <- <- _. reflexivity.
  Qed.
  (** The parts of a data set are in the order that the format demands. *)
  Theorem C155_order :
    forall x fid l n names syns classes kind key row ps version id doc, product_exchange x fid ((l, n) :: names) syns -> uid fid = Ok id -> getf key to_fp = Some row ->
      Forall (fun bp => legal_draft (snd bp)) ps -> product_written x classes kind key ps version id doc ->
      map (fun k => local (etag k)) (ekids doc) = map lit ["flowInformation"; "modellingAndValidation"; "administrativeInformation"; "flowProperties"].
  Proof.
    intros x fid l n names syns classes kind key row ps version id doc X U Row L W.
    destruct (written_only x fid l n names syns classes kind key row ps version id X U Row id doc W) as [_ ->].
    now destruct (flow_places show id version now n (join (lit "; ") (map snd syns)) classes (flow_note fid) kind (property_dict 0 (unit_draft row) :: property_dicts 1 ps)) as (E & _).
  Qed.

  (** * C156: numbers of properties *)
  Definition numbers (ps : list elem) (ns : list pystr) : Prop := Forall2 (fun p n => attribute p "dataSetInternalID" n) ps ns.
  (** The properties of a product have different numbers, and the reference property is the one for the unit. *)
  Theorem C156_numbered :
    forall x fid l n names syns classes kind key row ps version id doc, product_exchange x fid ((l, n) :: names) syns -> uid fid = Ok id -> getf key to_fp = Some row ->
      Forall (fun bp => legal_draft (snd bp)) ps -> product_written x classes kind key ps version id doc ->
      exists m p es ms ds, reference_number doc m /\ occurring doc at_property (p :: es) /\ flow_property p m (r_id row) ds /\ numbers (p :: es) (m :: ms) /\ NoDup (m :: ms) /\
        length es = length (filter fst ps).
  Proof.
    intros x fid l n names syns classes kind key row ps version id doc X U Row L W.
    destruct (written_only x fid l n names syns classes kind key row ps version id X U Row id doc W) as [_ ->].
    destruct (doc_properties show now id version n (join (lit "; ") (map snd syns)) classes (flow_note fid) kind row ps key Row L) as (ks & O & A & N & S).
    exists (lit "0"), (property_elem show 0 (unit_draft row)), (map (fun np => property_elem show (fst np) (snd np)) ks), (map (fun np => str_of_Z (Z.of_nat (fst np))) ks).
    assert (Att : forall k p, attribute (property_elem show k p) "dataSetInternalID" (str_of_Z (Z.of_nat k))).
    { intros k p. exists (lit "dataSetInternalID"). split; [now left|]. apply simple_attr. vm_compute. intuition discriminate. }
    destruct (property_flow show 0 (unit_draft row) (unit_legal key row Row)) as (s & F & _).
    exists [s]. split.
    - eexists. split; [exact (doc_reference show now _ _ _ _ _ _ _ _ _ key Row L)|]. apply leaf_plain. intros B. inversion B as [|? ? Z]. discriminate Z.
    - split; [exact O|]. split; [exact F|]. split; [|split].
      + constructor; [exact (Att 0%nat _)|]. clear O A N S. induction ks as [|k ks IH]; constructor; [apply Att|exact IH].
      + constructor.
        * intros I. apply in_map_iff in I. destruct I as (np & E & I). rewrite Forall_forall in A. destruct (A _ I) as [G _].
          change (lit "0") with (str_of_Z (Z.of_nat 0)) in E. apply str_of_Z_inj in E. lia.
        * clear -N. induction ks as [|k ks IH]; [constructor|]. cbn [map] in *. inversion N as [|? ? N1 N2]; subst. constructor; [|now apply IH].
          intros I. apply N1. apply in_map_iff in I. destruct I as (np & E & I). apply str_of_Z_inj in E. apply Nat2Z.inj in E. rewrite <- E. now apply in_map.
      + rewrite map_length, <- (map_length snd ks), S. apply map_length.
  Qed.
End Products.

(** * Products that go to ILCD and come back *)
Section Back.
  Context (uid : pystr -> result pystr) (show : pyval -> pystr) (now : pystr).
  Context (num : Type) (to_num : pyval -> result num) (one zero : num) (sub div : num -> num -> num) (is_zero : num -> bool).
  Context (more : pyval -> result unit) (language : pyval) (D : Type) (same_dim : D -> D -> bool) (dim : pystr -> option D).
  Context (mapping : list (pystr * target)) (compartments : list pystr) (master : list (pystr * list (pystr * md_row))) (use_master : bool).
  Context (cid : pystr -> pystr) (prints_kg prints_m3 : pystr -> bool) (refs : list (pystr * pystr)).
  Notation writes := (writes num to_num one zero sub div is_zero more language D same_dim dim mapping compartments master use_master cid prints_kg prints_m3 refs).
  Notation sound := (sound num to_num one zero sub div is_zero more language D same_dim dim mapping compartments master use_master cid prints_kg prints_m3 refs).
  Notation flow_with := (flow_with num to_num more).
  (** the exchange [y] of ILCD is read with the flow data set [doc] *)
  Definition read_with (y doc : elem) (id : pystr) : Prop :=
    refers_to y id /\ sound y /\ forall ps, occurring doc at_property ps -> Forall (fun p => more (elem2dict p) = Ok tt) ps.
  (** the property [p], as it is read again *)
  Definition returned (p : draft) (da : pdata * num) : Prop :=
    pd_id (fst da) = r_id (d_row p) /\ pd_name (fst da) = r_name (d_row p) /\ pd_comments (fst da) = d_comment p /\
    to_num (VStr (show (d_mean p))) = Ok (snd da).
  Lemma returned_names qs das : Forall2 returned qs das -> map (fun da => pd_name (fst da)) das = map (fun p => r_name (d_row p)) qs.
  Proof. induction 1 as [|p da qs das H F IH]; [reflexivity|]. cbn [map]. destruct H as (_ & -> & _). now rewrite IH. Qed.
  Notation kept_drafts ps := (map snd (filter fst ps)).
  Record product_data (x : elem) (fid l n : pystr) (names syns : list (pystr * pystr)) (kind key : pystr) (row : to_row) (ps : list (bool * draft)) (id : pystr) : Prop := Product_data {
    pr_exchange : product_exchange x fid ((l, n) :: names) syns;
    pr_uid : uid fid = Ok id;
    pr_row : getf key to_fp = Some row;
    pr_unit : r_unit row <> None;
    pr_kind : ~ blank (Some kind) /\ kind <> lit "Elementary flow";
    pr_legal : Forall (fun bp => legal_draft (snd bp)) ps;
    pr_one : readable_number to_num show (VFloat (Fin (QArith_base.Qmake 1 1)));
    pr_numbers : Forall (fun p => readable_number to_num show (d_mean p)) (kept_drafts ps) }.

  Lemma forall_pairs (ks : list (nat * draft)) : Forall (fun np => (1 <= fst np)%nat /\ legal_draft (snd np)) ks ->
    Forall (fun p => readable_number to_num show (d_mean p)) (map snd ks) ->
    Forall (fun p => more (elem2dict p) = Ok tt) (map (fun np => property_elem show (fst np) (snd np)) ks) ->
    exists das, Forall2 (readable to_num more) (map (fun np => property_elem show (fst np) (snd np)) ks) das /\
      Forall2 returned (map snd ks) das /\ Forall (fun da => numbered (lit "0") da = false) das.
  Proof.
    induction ks as [|[k p] ks IH]; intros A R M; [exists []; repeat split; constructor|]. cbn [map fst snd] in *.
    inversion A as [|? ? [A1 A2] A3]; subst. inversion R as [|? ? [B (q & Q)] R3]; subst. inversion M as [|? ? M1 M3]; subst.
    destruct (IH A3 R3 M3) as (das & F1 & F2 & F3). exists ((pdata_of show k p, q) :: das). cbn [fst snd] in *. repeat split; constructor; try assumption.
    - split; [now apply property_written|]. now split.
    - now repeat split.
    - unfold numbered. cbn [fst pdata_of pd_number]. destruct (str_eqb _ _) eqn:E; [|reflexivity]. apply str_eqb_eq in E.
      change (lit "0") with (str_of_Z (Z.of_nat 0)) in E. apply str_of_Z_inj in E. lia.
  Qed.
  Lemma back x fid l n names syns classes kind key row ps version id doc : product_data x fid l n names syns kind key row ps id ->
    product_written uid show now x classes kind key ps version id doc ->
    product_flow doc /\ named doc [(lit "en", n)] /\ occurring doc at_cas [] /\
    forall y, read_with y doc id -> exists da das, flow_with doc (lit "0") (da :: das) /\ pd_id (fst da) = r_id row /\ filter (numbered (lit "0")) (da :: das) = [da] /\
      others (lit "0") (da :: das) = das /\ Forall2 returned (kept_drafts ps) das.
  Proof.
    intros [X U Row Un [Kb Ke] L (B1 & q & Q1) Rn] W.
    destruct (written_only uid show now x fid l n names syns classes kind key row ps version id X U Row id doc W) as [_ ->].
    split; [|split; [|split]].
    - split; [now apply (doc_proper show now _ _ _ _ _ _ _ _ _ key Row L)|]. exists kind. split; [|exact Ke].
      eexists. split; [exact (doc_type show now _ _ _ _ _ _ _ _ _ key Row L)|now apply leaf_plain].
    - eexists. split; [exact (doc_name show now _ _ _ _ _ _ _ _ _ key Row L)|]. constructor; [|constructor]. right. split; [split; reflexivity|].
      destruct X as (_ & _ & T & _). apply texts_nonblank in T. inversion T as [|? ? T1 T2]; subst. cbn [leaf etext snd] in *. split; [now apply nonblank_some|exact T1].
    - exact (doc_cas show now _ _ _ _ _ _ _ _ _ key Row L).
    - intros y (_ & _ & M).
      destruct (doc_properties show now id version n (join (lit "; ") (map snd syns)) classes (flow_note fid) kind row ps key Row L) as (ks & O & A & _ & S).
      specialize (M _ O). inversion M as [|? ? M1 M2]; subst. rewrite <- S in Rn |- *. destruct (forall_pairs ks A Rn M2) as (das & F1 & F2 & F3).
      exists (pdata_of show 0 (unit_draft row), q), das. split; [|split; [reflexivity|split; [|split; [|exact F2]]]].
      + split; [eexists; split; [exact (doc_reference show now _ _ _ _ _ _ _ _ _ key Row L)|]; apply leaf_plain; intros B; inversion B as [|? ? Z]; discriminate Z|].
        eexists. split; [exact O|]. constructor; [|exact F1]. split; [apply property_written; [exact (unit_legal key row Row)|exact B1]|]. now split.
      + cbn [filter]. change (numbered (lit "0") (pdata_of show 0 (unit_draft row), q)) with true. cbv iota. f_equal. clear -F3.
        induction F3 as [|da das H F IH]; [reflexivity|]. cbn [filter]. now rewrite H.
      + unfold others. cbn [filter]. change (numbered (lit "0") (pdata_of show 0 (unit_draft row), q)) with true. cbn [negb]. clear -F3.
        induction F3 as [|da das H F IH]; [reflexivity|]. cbn [filter]. rewrite H. cbn [negb]. now rewrite IH.
  Qed.

  (** * C149: products survive *)
  (** A product of EcoSpold2 that is converted to ILCD and back has the same identifier, and its first name, as English. *)
  Theorem C149_product_returns_partial :
    forall x fid l n names syns classes kind key row ps version id doc y, product_data x fid l n names syns kind key row ps id -> cid id = fid ->
      product_written uid show now x classes kind key ps version id doc -> read_with y doc id ->
      (forall k u m, getf k un_table = Some (u, m) -> dim (unit_text m) <> None) ->
      exists w, writes y doc w /\ w_elem w = false /\ w_flow w = fid /\ w_names w = [(VStr (lit "en"), n)] /\ w_factor w = one /\
                getf (r_id row) un_table = Some (w_uid w, w_unit w).
  Proof.
    intros x fid l n names syns classes kind key row ps version id doc y P C W R Dm.
    destruct (back x fid l n names syns classes kind key row ps version id doc P W) as (Pf & Nm & _ & H). destruct (H y R) as (da & das & F & I & One & _ & _).
    destruct (dimension_known key row (pr_row _ _ _ _ _ _ _ _ _ _ _ P) (pr_unit _ _ _ _ _ _ _ _ _ _ _ P)) as (u & m & T). destruct R as (Ry & Sy & _).
    rewrite <- I in T. destruct (C148_product_written num to_num one zero sub div is_zero more language D same_dim dim mapping compartments master use_master cid prints_kg prints_m3 refs
      y id doc (lit "0") (da :: das) da u m [(lit "en", n)] Ry Sy Pf F One T (Dm _ _ _ T) Nm ltac:(discriminate)) as (w & Ww & E1 & E2 & E3 & E4 & E5 & E6 & _).
    exists w. split; [exact Ww|]. split; [exact E1|]. split; [now rewrite E2|]. split; [now rewrite E3|]. split; [exact E6|]. rewrite <- I, E4, E5. exact T.
  Qed.
  (** Names in other languages, and further names, are lost. *)
  Theorem C149_names_refuted :
    forall x fid l n names syns classes kind key row ps version id doc y w, product_data x fid l n names syns kind key row ps id ->
      product_written uid show now x classes kind key ps version id doc -> read_with y doc id -> writes y doc w ->
      w_names w = [(VStr (lit "en"), n)].
  Proof.
    intros x fid l n names syns classes kind key row ps version id doc y w P W R H.
    destruct (back x fid l n names syns classes kind key row ps version id doc P W) as (Pf & Nm & _). destruct R as (Ry & _).
    destruct (product_inv num to_num one zero sub div is_zero more language D same_dim dim mapping compartments master use_master cid prints_kg prints_m3 refs y id doc w Ry Pf H)
      as (e & inf & ns & u & m & wps & _ & I & _ & -> & M). cbn [w_names]. destruct Pf as [Pd _]. rewrite (names_of doc inf _ Pd I Nm) in M.
    rewrite (add_spoken_all language [(lit "en", n)]) in M. now injection M as <-.
  Qed.

  (** A product with a unit of a dimension that the table does not have stops the conversion. *)
  Theorem C149_unit_refuted :
    forall x classes kind key ps version id doc, getf key to_fp = None -> ~ product_written uid show now x classes kind key ps version id doc.
  Proof.
    intros x classes kind key ps version id doc N (d & _ & H). unfold flow_file in H. apply bind_ok in H. destruct H as (r & M & _). unfold make_flow in M.
    apply bind_ok in M. destruct M as (ns & _ & M). apply bind_ok in M. destruct M as (syn & _ & M). unfold unit_property in M. now rewrite N in M.
  Qed.

  (** * C150: CAS numbers *)
  (** The CAS number of a product is never written, so it is lost. *)
  Theorem C150_cas_refuted :
    forall x fid l n names syns classes kind key row ps version id doc c, product_data x fid l n names syns kind key row ps id -> attribute x "casNumber" c ->
      product_written uid show now x classes kind key ps version id doc ->
      occurring doc at_cas [] /\ forall y w, read_with y doc id -> writes y doc w -> w_cas w = None.
  Proof.
    intros x fid l n names syns classes kind key row ps version id doc c P _ W.
    destruct (back x fid l n names syns classes kind key row ps version id doc P W) as (Pf & _ & Cas & _). split; [exact Cas|]. intros y w (Ry & _) H.
    destruct (product_inv num to_num one zero sub div is_zero more language D same_dim dim mapping compartments master use_master cid prints_kg prints_m3 refs y id doc w Ry Pf H)
      as (e & inf & ns & u & m & wps & _ & I & _ & -> & _). cbn [w_cas]. destruct Pf as [Pd _].
    destruct (info_values _ (keys_read doc Pd) _ _ I) as (_ & -> & _). change kfcas with at_cas. change (i_cas no_info) with (@None pyval). rewrite (last_occurring doc Pd at_cas []); [reflexivity|do 2 right; now left|exact Cas].
  Qed.

  (** * C152: properties *)
  (** With the default option, the properties come back with their amounts and comments, if their names differ... *)
  Theorem C152_amounts_partial :
    forall x fid l n names syns classes kind key row ps version id doc y w, product_data x fid l n names syns kind key row ps id ->
      product_written uid show now x classes kind key ps version id doc -> read_with y doc id -> writes y doc w -> use_master = true ->
      NoDup (map (fun p => r_name (d_row p)) (kept_drafts ps)) ->
      exists das, Forall2 returned (kept_drafts ps) das /\ w_props w = flat_map as_read das.
  Proof.
    intros x fid l n names syns classes kind key row ps version id doc y w P W R H Um N.
    destruct (back x fid l n names syns classes kind key row ps version id doc P W) as (Pf & _ & _ & B). destruct (B y R) as (da & das & F & _ & _ & O & Ret). destruct R as (Ry & _).
    exists das. split; [exact Ret|]. rewrite (C142_properties_kept_partial num to_num one zero sub div is_zero more language D same_dim dim mapping compartments master use_master cid prints_kg prints_m3 refs
      y id doc w (lit "0") (da :: das) Um Ry Pf H F).
    - now rewrite O.
    - rewrite O. unfold InflowSpec.names. assert (E : map (fun da => pd_name (fst da)) das = map (fun p => r_name (d_row p)) (kept_drafts ps)); [|now rewrite E].
      exact (returned_names _ _ Ret).
  Qed.
  (** ... but with identifiers that no property of EcoSpold2 has. *)
  Theorem C152_identifiers_refuted :
    forall x fid l n names syns classes kind key row ps version id doc y w p, product_data x fid l n names syns kind key row ps id ->
      product_written uid show now x classes kind key ps version id doc -> read_with y doc id -> writes y doc w -> use_master = true ->
      In p (w_props w) -> ~ In (wp_id p) (map fst to_fp).
  Proof.
    intros x fid l n names syns classes kind key row ps version id doc y w p P W R H Um I.
    destruct (back x fid l n names syns classes kind key row ps version id doc P W) as (Pf & _). destruct R as (Ry & _).
    apply identifier_apart. exact (proj1 (C143_identifiers_refuted num to_num one zero sub div is_zero more language D same_dim dim mapping compartments master use_master cid prints_kg prints_m3 refs
      y id doc w p Um Ry Pf H I)).
  Qed.
  (** Without the master data option, properties other than contents get the identifiers that the table gives. *)
  Theorem C152_converted_partial :
    forall x fid l n names syns classes kind key row ps version id doc y w, product_data x fid l n names syns kind key row ps id ->
      product_written uid show now x classes kind key ps version id doc -> read_with y doc id -> writes y doc w -> use_master = false ->
      NoDup (map (fun p => r_name (d_row p)) (kept_drafts ps)) ->
      Forall (fun p => ~ called_content (r_name (d_row p)) /\ r_name (d_row p) <> lit "dry mass") (kept_drafts ps) ->
      exists das, Forall2 returned (kept_drafts ps) das /\ w_props w = flat_map (as_converted (fun a => a)) das.
  Proof.
    intros x fid l n names syns classes kind key row ps version id doc y w P W R H Um N Ct.
    destruct (back x fid l n names syns classes kind key row ps version id doc P W) as (Pf & _ & _ & B). destruct (B y R) as (da & das & F & _ & _ & O & Ret). destruct R as (Ry & _).
    assert (E : map (fun da => pd_name (fst da)) das = map (fun p => r_name (d_row p)) (kept_drafts ps)).
    { exact (returned_names _ _ Ret). }
    exists das. split; [exact Ret|]. rewrite (C143_identifiers_partial num to_num one zero sub div is_zero more language D same_dim dim mapping compartments master use_master cid prints_kg prints_m3 refs
      y id doc w (lit "0") (da :: das) Um Ry Pf H F).
    - now rewrite O.
    - rewrite O. unfold InflowSpec.names. now rewrite E.
    - rewrite O. unfold InflowSpec.names. rewrite E. apply Forall_forall. intros m I. apply in_map_iff in I. destruct I as (p & <- & I). rewrite Forall_forall in Ct. now apply Ct.
  Qed.
End Back.
(** the property of EcoSpold2 that [k] becomes, on the way to ILCD and back *)
Definition becomes (k k' : pystr) : Prop :=
  exists row frow, getf k to_fp = Some row /\ getf (r_id row) fp_table = Some frow /\ f_pid frow = k'.
Lemma becomes_known k k' : (match getf k to_fp with Some row => match getf (r_id row) fp_table with Some frow => str_eqb (f_pid frow) k' | None => false end | None => false end) = true -> becomes k k'.
Proof.
  unfold becomes. destruct (getf k to_fp) as [row|]; [|discriminate]. destruct (getf (r_id row) fp_table) as [frow|] eqn:Q; [|discriminate].
  intros E. exists row, frow. split; [reflexivity|]. split; [exact Q|now apply str_eqb_eq].
Qed.
(** Price and the heating values are themselves again; the true value relation is a price, and the energy content the gross
    heating value. *)
Theorem C152_returning_partial :
  Forall (fun k => becomes (lit k) (lit k)) ["38f94dd1-d5aa-41b8-b182-c0c42985d9dc"; "d61b8768-8ef6-4a99-ae16-9e51f24ad5b5"; "48c987bb-3144-4872-b5c7-b1389c40be25"].
Proof. repeat constructor; apply becomes_known; vm_compute; reflexivity. Qed.
Theorem C152_mixed_refuted :
  becomes (lit "7a3978ea-3e26-4329-bc8b-0915d58a7e6f") (lit "38f94dd1-d5aa-41b8-b182-c0c42985d9dc") /\
  becomes (lit "6bc8ac5e-cc4c-45fb-93dc-53c0e45091df") (lit "d61b8768-8ef6-4a99-ae16-9e51f24ad5b5").
Proof. split; apply becomes_known; vm_compute; reflexivity. Qed.

(** * C149 with the identifiers of this program *)
(** The identifiers are encrypted on the way to ILCD, and decrypted with the same key on the way back. *)
Theorem C149_identifier_returns_partial :
  forall aes key now show num to_num one zero sub div is_zero more language D same_dim dim mapping compartments master use_master prints_kg prints_m3 refs
         x fid l n names syns classes kind fkey row ps version id doc y,
    let uid := fun f => uuid_from_uuid aes f key (lit "flow_conversion_1") in
    let cid := fun i => match uuid_from_uuid aes i key (lit "flow_conversion_2") with Ok f => f | Err _ => [] end in
    byte_valued aes -> is_uuid fid -> product_data uid show num to_num x fid l n names syns kind fkey row ps id ->
    product_written uid show now x classes kind fkey ps version id doc ->
    read_with num to_num one zero sub div is_zero more language D same_dim dim mapping compartments master use_master cid prints_kg prints_m3 refs y doc id ->
    (forall k u m, getf k un_table = Some (u, m) -> dim (unit_text m) <> None) ->
    exists w, writes num to_num one zero sub div is_zero more language D same_dim dim mapping compartments master use_master cid prints_kg prints_m3 refs y doc w /\
      w_flow w = fid /\ w_names w = [(VStr (lit "en"), n)].
Proof.
  intros aes key now show num to_num one zero sub div is_zero more language D same_dim dim mapping compartments master use_master prints_kg prints_m3 refs
    x fid l n names syns classes kind fkey row ps version id doc y uid cid B U P W R Dm.
  assert (C : cid id = fid).
  { destruct (proj1 (C21_conversion_reversible aes key fid B U)) as (w & E1 & E2). pose proof (pr_uid _ _ _ _ _ _ _ _ _ _ _ _ _ _ _ P) as E. unfold uid in E.
    rewrite E1 in E. injection E as ->. unfold cid. now rewrite E2. }
  destruct (C149_product_returns_partial uid show now num to_num one zero sub div is_zero more language D same_dim dim mapping compartments master use_master cid prints_kg prints_m3 refs
    x fid l n names syns classes kind fkey row ps version id doc y P C W R Dm) as (w & H1 & _ & H2 & H3 & _). exists w. now repeat split.
Qed.

(** * C151: synonyms *)
Theorem C151_synonyms_joined_partial :
  forall uid show now x fid l n names syns classes kind key row ps version id, product_exchange x fid ((l, n) :: names) syns -> uid fid = Ok id -> getf key to_fp = Some row ->
    Forall (fun bp => legal_draft (snd bp)) ps ->
    exists doc k, product_written uid show now x classes kind key ps version id doc /\ occurring doc at_synonyms [k] /\
      etext k = match syns with [] => None | _ => Some (join (lit "; ") (map snd syns)) end.
Proof.
  intros uid show now x fid l n names syns classes kind key row ps version id X U Row L. eexists. eexists.
  split; [exact (written_root uid show now x fid l n names syns classes kind key row ps version id X U Row)|]. split; [exact (doc_synonyms show now _ _ _ _ _ _ _ _ _ key Row L)|].
  cbn [leaf etext]. destruct X as (_ & _ & _ & T & _). apply texts_nonblank in T. clear -T. destruct syns as [|s ss]; [reflexivity|]. inversion T as [|? ? T1 T2]; subst.
  cbn [map]. destruct s as [a [|c s]]; [destruct T1; constructor|]. destruct ss; reflexivity.
Qed.
(** The languages of synonyms are lost: the element has no language. *)
Theorem C151_languages_refuted :
  forall uid show now x fid l n names syns classes kind key row ps version id doc, product_exchange x fid ((l, n) :: names) syns -> uid fid = Ok id -> getf key to_fp = Some row ->
    Forall (fun bp => legal_draft (snd bp)) ps -> product_written uid show now x classes kind key ps version id doc -> exists k, occurring doc at_synonyms [k] /\ eattrib k = [].
Proof.
  intros uid show now x fid l n names syns classes kind key row ps version id doc X U Row L W.
  destruct (written_only uid show now x fid l n names syns classes kind key row ps version id X U Row id doc W) as [_ ->].
  eexists. split; [exact (doc_synonyms show now _ _ _ _ _ _ _ _ _ key Row L)|reflexivity].
Qed.
(** A synonym without a text, among others, stops the conversion. *)
Theorem C151_empty_refuted :
  forall uid show now x d ks k classes kind key ps version, record_element x -> elem2dict x = VDict d -> named_kids (lit "synonym") (ekids x) ks -> 2 <= length ks ->
    In k ks -> empty_element k -> exists e, flow_file uid show now d classes kind key ps version = Err e.
Proof.
  intros uid show now x d ks k classes kind key ps version R Q K L I E. destruct (empty_synonym x d ks k R Q K L I E) as [e Z].
  unfold flow_file, make_flow. destruct (name_texts d) as [ns|e']; [|now exists e']. cbn [bind]. rewrite Z. now exists e.
Qed.

(** * C153: comments of exchanges *)
Theorem C153_comments :
  forall language x d fid names syns cs vs (produced : bool), product_exchange x fid names syns -> elem2dict x = VDict d ->
    texts_of x "comment" cs -> texts_of x "productionVolumeComment" vs ->
    (if produced then exists s, attribute x "productionVolumeAmount" s /\ s <> [] else forall s, attribute x "productionVolumeAmount" s -> s = []) ->
    exchange_notes language d
    = Ok (map note_of cs ++ if produced then map (fun v => (VStr (fst v), lit "Production Volume Comment: " ++ snd v)) vs else []).
Proof. intros language x d fid names syns cs vs b P Q C V A. exact (notes_of language x d fid names syns cs vs b P Q C V A). Qed.
(** The linked activity never gets into the comment. *)
Theorem C153_link_refuted :
  forall language x d fid names syns cs vs (produced : bool) s ns, product_exchange x fid names syns -> elem2dict x = VDict d -> attribute x "activityLinkId" s ->
    texts_of x "comment" cs -> texts_of x "productionVolumeComment" vs ->
    (if produced then exists s, attribute x "productionVolumeAmount" s /\ s <> [] else forall s, attribute x "productionVolumeAmount" s -> s = []) ->
    exchange_notes language d = Ok ns -> forall l, In (l, lit "Ecoinvent activity linkable id: " ++ s) ns -> In (l, lit "Ecoinvent activity linkable id: " ++ s) (map note_of cs).
Proof.
  intros language x d fid names syns cs vs b s ns P Q _ C V A H l I. rewrite (notes_of language x d fid names syns cs vs b P Q C V A) in H. injection H as <-.
  apply in_app_or in I. destruct I as [I|I]; [exact I|]. exfalso. destruct b; [|contradiction]. apply in_map_iff in I. destruct I as (v & E & _). discriminate E.
Qed.

(** * C154: versions *)
Theorem C154_version_kept_partial : forall v, long_version v -> new_version v 0 = Ok v.
Proof.
  intros v (a & b & c & -> & [La Fa] & [Lb Fb] & [Lc Fc]). unfold new_version. rewrite (version_parts a b c Fa Fb Fc).
  destruct c as [|c1 [|c2 [|c3 [|c4 c]]]]; try discriminate Lc. inversion Fc as [|? ? F1 Fc']; subst. inversion Fc' as [|? ? F2 Fc'']; subst. inversion Fc'' as [|? ? F3 _]; subst.
  destruct (three_digits c1 c2 c3 F1 F2 F3) as (n & -> & E). rewrite N.add_0_r, E. reflexivity.
Qed.
(** A version of two parts, which the format allows, stops the conversion. *)
Theorem C154_short_version_refuted : forall v add, short_version v -> new_version v add = Err IndexError.
Proof. intros v add (a & b & -> & [_ Fa] & [_ Fb]). unfold new_version. now rewrite (version_short a b Fa Fb). Qed.
Lemma decimal_text n : Forall decimal (str_of_N n).
Proof. eapply Forall_impl; [|apply str_of_N_digits]. intros c H. exact H. Qed.
(** The versions of products are legal up to 999. *)
Theorem C154_product_version : forall v, long_version (version_text v) <-> v <= 999.
Proof.
  intros v. pose proof (str_of_N_len (N.of_nat v) 2) as Ln. change (10 ^ N.of_nat 3)%N with 1000%N in Ln. unfold version_text. set (t := str_of_N (N.of_nat v)) in *.
  split.
  - intros (a & b & c & E & [La _] & [Lb _] & [Lc _]). apply (f_equal (@length N)) in E. rewrite !app_length, repeat_length, La, Lb, Lc in E. cbn [length] in E.
    change (length (lit "01.00.")) with 6 in E. change (length (lit ".")) with 1 in E. assert (X : length t <= 3) by lia. apply Ln in X. lia.
  - intros H. assert (X : length t <= 3) by (apply Ln; lia). exists (lit "01"), (lit "00"), (pad3 t). split; [reflexivity|].
    split; [split; [reflexivity|repeat constructor; vm_compute; discriminate]|]. split; [split; [reflexivity|repeat constructor; vm_compute; discriminate]|].
    split; [now apply pad3_length|]. apply pad3_digits, decimal_text.
Qed.

(** * Examples *)
Definition shows (v : pyval) : pystr := match v with VFloat (Fin q) => if Z.eqb (QArith_base.Qnum q) 1 then lit "1.0" else lit "2.5" | _ => [] end.
Definition ids (f : pystr) : result pystr := Ok (lit "i-" ++ f).
Definition back_ids (f : pystr) : pystr := skipn 2 f.
Definition bar (ks : list elem) : elem :=
  elem_ "intermediateExchange" [("intermediateExchangeId", "f1"); ("casNumber", "7439-89-6"); ("activityLinkId", "a1"); ("productionVolumeAmount", "5")]
    ([says "name" "de" "Stahl"; says "name" "en" "Steel"] ++ ks).
Definition bar_kids : list elem := [says "synonym" "en" "iron alloy"; says "synonym" "de" "Eisen"; says "comment" "en" "estimated"; says "productionVolumeComment" "en" "of 2012"].
Definition mass_key : pystr := lit "7844486d-bbaf-3c45-9487-7fe3476c5b6f".
Definition row_of (k : string) : to_row := match getf (lit k) to_fp with Some r => r | None => ToRow [] [] None [] [] end.
Definition price : draft := Draft (row_of "38f94dd1-d5aa-41b8-b182-c0c42985d9dc") (VFloat (Fin (QArith_base.Qmake 5 2))) [] [(lit "en", lit "in 2012")].
Definition heat : draft := Draft (row_of "48c987bb-3144-4872-b5c7-b1389c40be25") (VFloat (Fin (QArith_base.Qmake 5 2))) [(lit "minimumValue", VFloat (Fin (QArith_base.Qmake 2 1)))] [].
Definition bar_props : list (bool * draft) := [(false, heat); (true, price)].
Definition bar_doc : elem :=
  match flow_file ids shows (lit "2026-01-01T00:00:00") (match elem2dict (bar bar_kids) with VDict d => d | _ => [] end) [ClassEntry (lit "CPC") [(0%Z, lit "41", lit "metals")]]
          (Some (lit "Product flow")) mass_key bar_props (lit "01.00.000") with
  | Ok (_, e) => e
  | Err _ => bar []
  end.
Definition conv_back (use : bool) (x : elem) (file : option elem) :=
  convert_exchange pystr nums (lit "1") (lit "0") (op "-") (op "/") (fun a => str_eqb a (lit "1-1")) (fun _ => Ok tt) (VStr (lit "en"))
    pystr str_eqb dims maps [lit "air"] masters use back_ids (fun u => str_eqb u (lit "kg")) (fun u => str_eqb u (lit "m3")) names_of_refs (elem2dict x) file.
Ltac spoken_ := right; split; [now split|split; [reflexivity|eapply not_blank; reflexivity]].
Lemma texts_found e n ks ls : forallb (fun e => name_ok (etag e)) (ekids e) = true -> filter (fun e => str_eqb (etag e) (lit n)) (ekids e) = ks -> Forall2 spoken ks ls -> texts_of e n ls.
Proof. intros N E F. exists ks. split; [now apply kids_found|exact F]. Qed.
Ltac texts_ := eapply texts_found; [vm|vm_compute; reflexivity|repeat (constructor; [spoken_|]); constructor].
Lemma bar_product : product_exchange (bar bar_kids) (lit "f1") [(lit "de", lit "Stahl"); (lit "en", lit "Steel")] [(lit "en", lit "iron alloy"); (lit "de", lit "Eisen")].
Proof.
  split; [apply recordb_sound; vm|]. split; [apply attr_given; [vm|now left]|]. split; [|split; [|split; now apply kids_found]].
  - apply (texts_found _ _ [says "name" "de" "Stahl"; says "name" "en" "Steel"]); [vm|vm|]. repeat (constructor; [spoken_|]). constructor.
  - apply (texts_found _ _ [says "synonym" "en" "iron alloy"; says "synonym" "de" "Eisen"]); [vm|vm|]. repeat (constructor; [spoken_|]). constructor.
Qed.
Lemma row_found k : (match getf (lit k) to_fp with Some _ => true | None => false end) = true -> getf (lit k) to_fp = Some (row_of k).
Proof. unfold row_of. now destruct (getf (lit k) to_fp). Qed.
Lemma bar_data : product_data ids shows pystr nums (bar bar_kids) (lit "f1") (lit "de") (lit "Stahl") [(lit "en", lit "Steel")]
  [(lit "en", lit "iron alloy"); (lit "de", lit "Eisen")] (lit "Product flow") mass_key (row_of "7844486d-bbaf-3c45-9487-7fe3476c5b6f") bar_props (lit "i-f1").
Proof.
  constructor.
  - exact bar_product.
  - reflexivity.
  - apply row_found. vm.
  - vm_compute. discriminate.
  - split; [eapply not_blank; reflexivity|discriminate].
  - constructor; [|constructor; [|constructor]]; cbn [snd].
    + split; [eexists; apply row_found; vm|]. split; [eexists; reflexivity|]. split; [|constructor]. constructor; [|constructor]. split; [now left|]. right. eexists. reflexivity.
    + split; [eexists; apply row_found; vm|]. split; [eexists; reflexivity|]. split; [constructor|]. constructor; [|constructor]. eapply not_blank; reflexivity.
  - split; [|eexists; reflexivity]. change (shows _) with (lit "1.0"). eapply not_blank; reflexivity.
  - constructor; [|constructor]. split; [|eexists; reflexivity]. change (shows _) with (lit "2.5"). eapply not_blank; reflexivity.
Qed.
Lemma bar_written : product_written ids shows (lit "2026-01-01T00:00:00") (bar bar_kids) [ClassEntry (lit "CPC") [(0%Z, lit "41", lit "metals")]]
  (lit "Product flow") mass_key bar_props (lit "01.00.000") (lit "i-f1") bar_doc.
Proof. eexists. split; [vm_compute; reflexivity|vm_compute; reflexivity]. Qed.
Definition steel_back : elem := exch "i-f1" [].
Example C149_nonvacuous :
  exists w, conv_back true steel_back (Some bar_doc) = Ok (Written w) /\ refers_to steel_back (lit "i-f1") /\ conv_back true steel_back None = Ok LeftOut /\
    w_flow w = lit "f1" /\ w_names w = [(VStr (lit "en"), lit "Stahl")] /\ w_unit w = lit "kg".
Proof. eexists. split; [apply out_writes; vm|]. split; [refers_|]. split; [vm|]. repeat split; vm. Qed.
Example C150_nonvacuous :
  attribute (bar bar_kids) "casNumber" (lit "7439-89-6") /\
  product_data ids shows pystr nums (bar bar_kids) (lit "f1") (lit "de") (lit "Stahl") [(lit "en", lit "Steel")]
    [(lit "en", lit "iron alloy"); (lit "de", lit "Eisen")] (lit "Product flow") mass_key (row_of "7844486d-bbaf-3c45-9487-7fe3476c5b6f") bar_props (lit "i-f1") /\
  occurring bar_doc at_cas [].
Proof.
  split; [apply attr_given; [vm|right; now left]|]. split; [exact bar_data|].
  destruct (back ids shows (lit "2026-01-01T00:00:00") pystr nums (lit "1") (lit "0") (op "-") (op "/") (fun a => str_eqb a (lit "1-1")) (fun _ => Ok tt) (VStr (lit "en"))
    pystr str_eqb dims maps [lit "air"] masters true back_ids (fun u => str_eqb u (lit "kg")) (fun u => str_eqb u (lit "m3")) names_of_refs
    _ _ _ _ _ _ _ _ _ _ _ _ _ _ bar_data bar_written) as (_ & _ & C & _). exact C.
Qed.
Example C151_nonvacuous :
  product_exchange (bar bar_kids) (lit "f1") [(lit "de", lit "Stahl"); (lit "en", lit "Steel")] [(lit "en", lit "iron alloy"); (lit "de", lit "Eisen")] /\
  synonym_text (match elem2dict (bar bar_kids) with VDict d => d | _ => [] end) = Ok (lit "iron alloy; Eisen") /\
  empty_element (elem_ "synonym" [] []) /\
  exists e, synonym_text (match elem2dict (bar [says "synonym" "en" "iron"; elem_ "synonym" [] []]) with VDict d => d | _ => [] end) = Err e.
Proof. split; [exact bar_product|]. split; [vm|]. split; [now repeat split|]. eexists. vm_compute. reflexivity. Qed.
Example C152_nonvacuous :
  (exists w, conv_back true steel_back (Some bar_doc) = Ok (Written w) /\
     map (fun p => (wp_id p, wp_name p, wp_amount p)) (w_props w) = [(lit "67b63204-ef91-44b2-a927-2f4ead1fae17", lit "price", lit "2.5")]) /\
  (exists w, conv_back false steel_back (Some bar_doc) = Ok (Written w) /\
     map (fun p => (wp_id p, wp_amount p, wp_comment p)) (w_props w) = [(lit "38f94dd1-d5aa-41b8-b182-c0c42985d9dc", lit "2.5", [(VStr (lit "en"), lit "in 2012")])]).
Proof. split; (eexists; split; [apply out_writes; vm|vm]). Qed.
Example C153_nonvacuous :
  attribute (bar bar_kids) "activityLinkId" (lit "a1") /\ texts_of (bar bar_kids) "comment" [(lit "en", lit "estimated")] /\
  exchange_notes (VStr (lit "en")) (match elem2dict (bar bar_kids) with VDict d => d | _ => [] end)
  = Ok [(VStr (lit "en"), lit "estimated"); (VStr (lit "en"), lit "Production Volume Comment: of 2012")].
Proof.
  split; [apply attr_given; [vm|do 2 right; now left]|]. split; [|vm].
  apply (texts_found _ _ [says "comment" "en" "estimated"]); [vm|vm|]. repeat (constructor; [spoken_|]). constructor.
Qed.
Example C154_nonvacuous :
  long_version (lit "03.00.004") /\ new_version (lit "03.00.004") 0 = Ok (lit "03.00.004") /\ short_version (lit "03.00") /\ new_version (lit "03.00") 0 = Err IndexError /\
  long_version (version_text 999).
Proof.
  split; [exists (lit "03"), (lit "00"), (lit "004"); repeat split; repeat constructor; vm_compute; discriminate|]. split; [vm|].
  split; [exists (lit "03"), (lit "00"); repeat split; repeat constructor; vm_compute; discriminate|]. split; [vm|]. apply C154_product_version. lia.
Qed.
Example C155_nonvacuous :
  product_written ids shows (lit "2026-01-01T00:00:00") (bar bar_kids) [ClassEntry (lit "CPC") [(0%Z, lit "41", lit "metals")]]
    (lit "Product flow") mass_key bar_props (lit "01.00.000") (lit "i-f1") bar_doc /\
  map (fun k => local (etag k)) (ekids bar_doc) = map lit ["flowInformation"; "modellingAndValidation"; "administrativeInformation"; "flowProperties"].
Proof. split; [exact bar_written|vm]. Qed.
Example C156_nonvacuous :
  map (fun p => eattrib p) (flat_map ekids (filter (fun k => str_eqb (local (etag k)) (lit "flowProperties")) (ekids bar_doc)))
  = [[(lit "dataSetInternalID", lit "0")]; [(lit "dataSetInternalID", lit "2")]].
Proof. vm. Qed.

Print Assumptions C155_identified.
Print Assumptions C155_file_name.
Print Assumptions C155_order.
Print Assumptions C156_numbered.
Print Assumptions C149_product_returns_partial.
Print Assumptions C149_names_refuted.
Print Assumptions C149_unit_refuted.
Print Assumptions C150_cas_refuted.
Print Assumptions C152_amounts_partial.
Print Assumptions C152_identifiers_refuted.
Print Assumptions C152_converted_partial.
Print Assumptions C152_returning_partial.
Print Assumptions C152_mixed_refuted.
Print Assumptions C149_identifier_returns_partial.
Print Assumptions C151_synonyms_joined_partial.
Print Assumptions C151_languages_refuted.
Print Assumptions C151_empty_refuted.
Print Assumptions C153_comments.
Print Assumptions C153_link_refuted.
Print Assumptions C154_version_kept_partial.
Print Assumptions C154_short_version_refuted.
Print Assumptions C154_product_version.
