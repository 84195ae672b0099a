(** C164-C168: exchanges that go to ILCD and come back. *)
From Coq Require Import Ascii String List Bool Arith NArith ZArith Lia.
From Coq Require QArith.
From Verif Require Import PyBase PyBaseFacts PyDigits PyValues ValidatorsSpec MultiLangModel DotDictModel DotDictProofs UtilsModel ConverterModel
  XmlModel XmlSpec XmlProofs XmlProps KeysModel KeysSpec KeysProofs HandleModel HandleSpec OutputProofs HandleProofs ReferProofs
  ClassProofs FlowModel ExchangeModel AsideModel AsideSpec AsideProofs AsideProps ReferModel ReferSpec InflowModel InflowSpec InflowProofs InflowProps
  OutflowModel OutflowSpec OutflowProofs OutflowProps CrossModel CrossSpec CrossProofs.
Import ListNotations.
Local Open Scope string_scope.
Local Open Scope list_scope.

Lemma x_inputGroup : xml_name (lit "inputGroup"). Proof. xname2. Qed.
Lemma x_outputGroup : xml_name (lit "outputGroup"). Proof. xname2. Qed.
Lemma nonblank_truth s : ~ blank (Some s) -> truth (VStr s) = true.
Proof. intros B. destruct s; [destruct B; constructor|reflexivity]. Qed.
Lemma group_read x dir g s : exchange_group x dir g -> sent_for x s -> fi_dir (s_flow s) = dir /\ fi_group (s_flow s) = g.
Proof.
  intros [R G] (d & E & H). unfold direction_of in H. destruct dir.
  - destruct G as (k & C & T). pose proof (child_get x d "inputGroup" k R E x_inputGroup C) as Gt. rewrite (read_plain k g T) in Gt.
    unfold given in H. rewrite Gt in H. destruct T as (_ & _ & _ & B). rewrite (nonblank_truth g B) in H. unfold AsideModel.item in H. rewrite Gt in H. cbn in H. now injection H as <-.
  - destruct G as [N (k & C & T)]. pose proof (kids_get x d "inputGroup" [] R E x_inputGroup N) as Gi. pose proof (child_get x d "outputGroup" k R E x_outputGroup C) as Gt.
    rewrite (read_plain k g T) in Gt. unfold given in H. cbv beta iota in Gi. rewrite Gi in H. unfold AsideModel.item in H. rewrite Gt in H. cbn in H. now injection H as <-.
Qed.

Section Journey.
  Context (num : Type) (to_num : pyval -> result num) (one zero : num) (mul sub div : num -> num -> num) (is_zero : num -> bool).
  Context (more : pyval -> result unit) (language : pyval) (D : Type) (same_dim : D -> D -> bool) (dim : pystr -> option D).
  Context (mapping : list (pystr * target)) (compartments : list pystr) (master : list (pystr * list (pystr * md_row))) (use_master : bool).
  Context (cid : pystr -> pystr) (prints_kg prints_m3 : pystr -> bool) (refs : list (pystr * pystr)).
  Context (show : pyval -> pystr) (ns : pystr).
  Notation arrivals := (arrivals num to_num one zero mul sub div is_zero more language D same_dim dim mapping compartments master use_master cid prints_kg prints_m3 refs).
  (** the exchanges [l] are written to a process, and are [rs] after the way back; [d] are the files of the flows *)
  Definition journey (d : files) (l : list sent) (rs : list (option (arrived num))) : Prop :=
    exists p doc, parts_ok ns p /\ Forall (well_sent to_num show) l /\ unparse show (process_dict p l) = Ok doc /\ arrivals d doc = Ok rs.
  (** the [i]-th exchange is [x], its flow data set [e] has the type that the conversion gives it, and it comes back as [a] *)
  Record returns (d : files) (l : list (elem * sent)) (rs : list (option (arrived num))) (i : nat) (x : elem) (s : sent) (dir : direction) (g : pystr)
                 (a : arrived num) : Prop := Returns {
    of_journey : journey d (map snd l) rs;
    of_folder : folder_for d (map snd l);
    of_sent : Forall (fun xs => sent_for (fst xs) (snd xs)) l;
    of_there : nth_error l i = Some (x, s);
    of_back : nth_error rs i = Some (Some a);
    of_group : exchange_group x dir g /\ allowed_group dir g (s_by s);
    of_file : exists e k, In (flow_file_name s, e) d /\ kind_of_flow (s_flow s) (s_by s) = Some k /\ proper e /\ one_text e at_type k }.

  (** * C168: order *)
  Theorem C168_order : forall d l rs, journey d l rs -> length rs = length l.
  Proof.
    intros d l rs (p & doc & P & W & U & A).
    now destruct (arrivals_inv num to_num one zero mul sub div is_zero more language D same_dim dim mapping compartments master use_master cid prints_kg prints_m3 refs show ns d p l doc rs P W U A).
  Qed.

  (** * C164: groups *)
  (** Exactly these groups come back. *)
  Theorem C164_groups :
    forall d l rs i x s dir g a, returns d l rs i x s dir g a -> comes_back dir g (s_by s) (a_field a) (a_group a).
  Proof.
    intros d l rs i x s dir g a [(p & doc & P & W & U & A) F Sn T B [G Al] (e & k & I & K & Pe & O)].
    assert (Es : nth_error (map snd l) i = Some s) by (rewrite nth_error_map, T; reflexivity).
    destruct (arrivals_inv num to_num one zero mul sub div is_zero more language D same_dim dim mapping compartments master use_master cid prints_kg prints_m3 refs show ns d p (map snd l) doc rs P W U A) as [_ H].
    destruct (H i s a Es B) as (e' & q & y & Fd & -> & _ & _ & _ & Sg).
    assert (Ws : well_sent to_num show s) by (rewrite Forall_forall in W; apply W; exact (nth_error_In _ _ Es)).
    rewrite (flow_found d (map snd l) s e (elem2dict (exchange_elem show ns (S i) s)) (in_names _ _ F) (in_ids _ _ F) (in_once _ _ F) (in_apart _ _ F) (nth_error_In _ _ Es) I (find_named show ns to_num (S i) s Ws d)) in Fd.
    injection Fd as <-. specialize (Sg k Pe O). rewrite Forall_forall in Sn. pose proof (Sn _ (nth_error_In _ _ T)) as Sx. cbn [fst snd] in Sx.
    destruct (group_read x dir g s G Sx) as [<- <-]. exact (group_exact (s_flow s) (s_by s) k _ _ Al K Sg).
  Qed.
  Theorem C164_kept_partial :
    forall d l rs i x s dir g a, returns d l rs i x s dir g a -> kept_group dir g (s_by s) -> field_direction (a_field a) = dir /\ group_number (a_group a) g.
  Proof.
    intros d l rs i x s dir g a H K. apply C164_groups in H. remember (s_by s) as b eqn:Hb. clear Hb. destruct dir.
    - destruct K as [->|[-> ->]]; inversion H as [| |g' by_ I| | | | | |]; subst; try discriminate; try (split; reflexivity).
      exfalso. clear -I. vm_compute in I. intuition discriminate.
    - destruct K as [->|[[-> ->]|[[-> E]|[-> E]]]]; inversion H as [| | |by_| | | |g' I|g' c I Nw]; subst; try discriminate; try (split; reflexivity);
        try (exfalso; clear -I; vm_compute in I; intuition discriminate); exfalso.
      + now apply E.
      + destruct E as [E|E]; [discriminate E|]. injection E as E. now apply Nw.
  Qed.
  (** Inputs of materials, fuels, services and from technosphere are all inputs from technosphere. *)
  Theorem C164_inputs_refuted :
    forall d l rs i x s g a, returns d l rs i x s Input g a -> In g (map lit ["1"; "2"; "3"]) -> a_field a = InputGroup /\ a_group a = 5%Z.
  Proof.
    intros d l rs i x s g a H I. apply C164_groups in H. inversion H; subst; try now split. exfalso. clear -I. vm_compute in I. intuition discriminate.
  Qed.
  (** Stock additions are by-products, or wastes. *)
  Theorem C164_stock_refuted :
    forall d l rs i x s a, returns d l rs i x s Output (lit "5") a -> a_field a = OutputGroup /\ (a_group a = 2%Z \/ a_group a = 3%Z).
  Proof. intros d l rs i x s a H. apply C164_groups in H. inversion H; subst; split; auto. Qed.
  (** The by-product class decides, whatever the group. *)
  Theorem C164_class_refuted :
    forall d l rs i x s g c a, returns d l rs i x s Output g a -> s_by s = Some c -> g <> lit "0" -> a_group a = if str_eqb c (lit "Waste") then 3%Z else 2%Z.
  Proof.
    intros d l rs i x s g c a H E N. apply C164_groups in H. rewrite E in H. inversion H as [| | | | | | |g' I|g' c' I Nw]; subst; [congruence|reflexivity|].
    destruct (str_eqb c (lit "Waste")) eqn:Q; [apply str_eqb_eq in Q; contradiction|reflexivity].
  Qed.
  (** Two outputs of one product that share a flow data set have the same group in the end, whatever the groups were. *)
  Theorem C164_shared_refuted :
    forall d l rs i j s t a b, journey d l rs -> nth_error l i = Some s -> nth_error l j = Some t -> nth_error rs i = Some (Some a) -> nth_error rs j = Some (Some b) ->
      s_own s = s_own t -> s_id s = s_id t -> s_version s = s_version t ->
      fi_dir (s_flow s) = Output -> fi_dir (s_flow t) = Output -> fi_group (s_flow s) <> lit "0" -> fi_group (s_flow t) <> lit "0" ->
      (forall n e, In (n, e) d -> proper e /\ exists k, one_text e at_type k) -> a_group a = a_group b.
  Proof.
    intros d l rs i j s t a b (p & doc & P & W & U & A) Es Et Ea Eb Eo Ei Ev Ds Dt Gs Gt T.
    destruct (arrivals_inv num to_num one zero mul sub div is_zero more language D same_dim dim mapping compartments master use_master cid prints_kg prints_m3 refs show ns d p l doc rs P W U A) as [_ H].
    destruct (H i s a Es Ea) as (e & q & y & Fd & -> & _ & _ & _ & Sg). destruct (H j t b Et Eb) as (e' & q' & y' & Fd' & -> & _ & _ & _ & Sg'). rewrite Forall_forall in W.
    pose proof (W s (nth_error_In _ _ Es)) as Ws. pose proof (W t (nth_error_In _ _ Et)) as Wt.
    rewrite (find_named show ns to_num (S i) s Ws d) in Fd. rewrite (find_named show ns to_num (S j) t Wt d) in Fd'.
    assert (Eu : flow_uri s = flow_uri t) by (unfold flow_uri; now rewrite Eo, Ei, Ev).
    assert (Ie : exists n, In (n, e) d). { destruct (get_file _ _) as [m|]; [|discriminate]. apply HandleProofs.In_getf in Fd. now exists m. }
    rewrite Eu, Ei, Ev, Fd' in Fd. injection Fd as ->. destruct Ie as [n Ie]. destruct (T _ _ Ie) as (Pe & k & O). specialize (Sg k Pe O). specialize (Sg' k Pe O).
    assert (R : forall u, fi_dir (s_flow u) = Output -> fi_group (s_flow u) <> lit "0" -> is_reference (s_flow u) = false).
    { intros u X Y. unfold is_reference. rewrite X. destruct (str_eqb _ _) eqn:Q; [apply str_eqb_eq in Q; contradiction|reflexivity]. }
    rewrite (R s Ds Gs), Ds in Sg. rewrite (R t Dt Gt), Dt in Sg'. rewrite Sg in Sg'. now injection Sg' as _ ->.
  Qed.

  (** * C167: the flow data set of every exchange is found again *)
  Theorem C167_found :
    forall d l p doc, parts_ok ns p -> Forall (well_sent to_num show) l -> unparse show (process_dict p l) = Ok doc -> folder_for d l ->
      exists refs vs, read [kreference; kexchange] doc = map (fun v => (kreference, v)) refs ++ map (fun v => (kexchange, v)) vs /\
        Forall2 (fun s v => forall e, In (flow_file_name s, e) d -> find_flow d v = Some e) l vs.
  Proof.
    intros d l p doc P W U F. rewrite (process_written show ns p l P) in U. injection U as <-. rewrite (process_read show ns to_num p l P W).
    exists (map (fun n => elem2dict (number_elem ns n)) (refs_of (numbered_from 1 l))), (map (fun x => elem2dict (exchange_elem show ns (fst x) (snd x))) (numbered_from 1 l)). rewrite !map_map. split; [reflexivity|].
    assert (A : forall l' n, Forall (fun s => In s l) l' ->
      Forall2 (fun s v => forall e, In (flow_file_name s, e) d -> find_flow d v = Some e) l' (map (fun x => elem2dict (exchange_elem show ns (fst x) (snd x))) (numbered_from n l'))).
    { induction l' as [|s l' IH]; intros n A; [constructor|]. inversion A as [|? ? A1 A2]; subst. unfold numbered_from. cbn [length seq combine map fst snd].
      constructor; [|exact (IH (S n) A2)]. intros e I. rewrite Forall_forall in W.
      exact (flow_found d l s e _ (in_names _ _ F) (in_ids _ _ F) (in_once _ _ F) (in_apart _ _ F) A1 I (find_named show ns to_num n s (W s A1) d)). }
    apply A. rewrite Forall_forall. trivial.
  Qed.

  (** * C168: products *)
  Notation conversion := (convert_exchange num to_num one zero sub div is_zero more language D same_dim dim mapping compartments master use_master cid prints_kg prints_m3 refs).
  Notation arrive := (arrive num to_num one zero mul sub div is_zero more language D same_dim dim mapping compartments master use_master cid prints_kg prints_m3 refs).
  Lemma journey_at d l rs i s : journey d l rs -> nth_error l i = Some s ->
    well_sent to_num show s /\ exists r numbers, nth_error rs i = Some r /\
      arrive numbers (elem2dict (exchange_elem show ns (S i) s)) (find_flow d (elem2dict (exchange_elem show ns (S i) s))) = Ok r.
  Proof.
    intros (p & doc & P & W & U & A) E. rewrite (process_written show ns p l P) in U. injection U as <-.
    split; [rewrite Forall_forall in W; apply W; exact (nth_error_In _ _ E)|].
    apply (arrivals_are num to_num one zero mul sub div is_zero more language D same_dim dim mapping compartments master use_master cid prints_kg prints_m3 refs show ns d p l rs P W) in A.
    pose proof (proj2 (numbered_nth l 1 i (S i) s) (conj E eq_refl)) as En. destruct (nth_error rs i) as [r|] eqn:R.
    - exists r. eexists. split; [reflexivity|]. exact (forall2_nth _ _ _ A i _ _ En R).
    - exfalso. apply nth_error_None in R. apply forall2_len in A. rewrite <- A in R. apply nth_error_None in R. congruence.
  Qed.
  Theorem C168_product_returns_partial :
    forall uid now d l rs i s x fid lang n names syns classes kind key row ps version doc,
      journey d l rs -> folder_for d l -> nth_error l i = Some s -> In (flow_file_name s, doc) d ->
      product_data uid show num to_num x fid lang n names syns kind key row ps (s_id s) -> product_written uid show now x classes kind key ps version (s_id s) doc ->
      cid (s_id s) = fid -> (forall ps, occurring doc at_property ps -> Forall (fun p => more (elem2dict p) = Ok tt) ps) ->
      (forall k u m, getf k un_table = Some (u, m) -> dim (unit_text m) <> None) ->
      exists a q, nth_error rs i = Some (Some a) /\ w_elem (a_written a) = false /\ w_flow (a_written a) = fid /\ w_names (a_written a) = [(VStr (lit "en"), n)] /\
        w_comment (a_written a) = map note_of (s_comments s) /\ read_as to_num show (s_amount s) q /\ a_amount a = mul q one.
  Proof.
    intros uid now d l rs i s x fid lang n names syns classes kind key row ps version doc J F E I P W C M Dm.
    destruct (journey_at d l rs i s J E) as (Ws & r & numbers & R & A).
    rewrite (flow_found d l s doc _ (in_names _ _ F) (in_ids _ _ F) (in_once _ _ F) (in_apart _ _ F) (nth_error_In _ _ E) I (find_named show ns to_num (S i) s Ws d)) in A.
    pose proof (y_refers show ns to_num (S i) s Ws) as Rf. set (y := exchange_elem show ns (S i) s) in *.
    assert (In_ : exists ie, exchange_init num to_num more language refs (elem2dict y) = Ok ie).
    { unfold CrossModel.arrive in A. apply bind_ok in A. destruct A as (o & A & _). exact (convert_init _ _ _ _ _ _ _ _ _ _ _ _ _ _ _ _ _ _ _ _ _ _ _ A). }
    destruct In_ as (ie & In_).
    assert (Sd : sound num to_num one zero sub div is_zero more language D same_dim dim mapping compartments master use_master cid prints_kg prints_m3 refs y).
    { unfold sound, converts, convert_exchange. rewrite In_. reflexivity. }
    destruct (C149_product_returns_partial uid show now num to_num one zero sub div is_zero more language D same_dim dim mapping compartments master use_master cid prints_kg prints_m3 refs
      x fid lang n names syns classes kind key row ps version (s_id s) doc y P C W (conj Rf (conj Sd M)) Dm) as (w & Ww & E1 & E2 & E3 & E4 & _).
    destruct r as [a|].
    - destruct (arrived_inv num to_num one zero mul sub div is_zero more language D same_dim dim mapping compartments master use_master cid prints_kg prints_m3 refs show ns numbers (S i) s (Some doc) a Ws A)
        as (e & q & Ee & Cv & Rq & Am & _). injection Ee as <-. unfold writes, converts in Ww. fold y in Cv. rewrite Ww in Cv. injection Cv as Ew. subst w.
      exists a, q. repeat split; try assumption; try apply Rq; [|now rewrite Am, E4].
      destruct (back uid show now num to_num one zero sub div is_zero more language D same_dim dim mapping compartments master use_master cid prints_kg prints_m3 refs x fid lang n names syns classes kind key row ps version (s_id s) doc P W) as (Pf & _).
      destruct (product_inv num to_num one zero sub div is_zero more language D same_dim dim mapping compartments master use_master cid prints_kg prints_m3 refs y (s_id s) doc (a_written a) Rf Pf Ww) as (ie' & inf & nn & u & m & pp & In' & _ & _ & Eq & _).
      rewrite Eq. cbn [w_comment]. unfold y in In'. rewrite (exchange_read show ns to_num (S i) s Ws more language refs q Rq (init_more _ _ _ _ _ _ _ In')) in In'. injection In' as <-. reflexivity.
    - exfalso. unfold CrossModel.arrive in A. unfold writes, converts in Ww. rewrite Ww in A. cbn [bind] in A. rewrite In_ in A. cbn [bind] in A. apply bind_ok in A. destruct A as (inf & _ & A).
      destruct (x_direction ie); try discriminate A. destruct (i_type inf) as [[]|]; try discriminate A. apply bind_ok in A. destruct A as (? & _ & A). discriminate A.
  Qed.

  (** * C165, C166: elementary exchanges *)
  Section Elementary.
    (** the mapping and the scale of the conversion to ILCD; the one of the conversion from ILCD is [mapping] *)
    Context (scale : pystr -> option num) (outward : list (pystr * target)) (as_value : num -> pyval) (version_of : pystr -> result pystr).
    Notation leaves := (leaves to_num one mul scale outward as_value version_of).
    Lemma elementary_id x i a dx : elementary_exchange x i a -> elem2dict x = VDict dx ->
      getf (AsideModel.at_ "elementaryExchangeId") dx = Some (VStr i) /\ getf (AsideModel.at_ "amount") dx = Some (VStr a).
    Proof. intros (R & I & A) E. split; (apply (record_attr x dx _ R E); eexists; split; [reflexivity|assumption]). Qed.
    Lemma leaves_row x i a s : elementary_exchange x i a -> leaves x (Ok (Some s)) ->
      exists t f k n, getf i outward = Some t /\ ~ In (t_map t) (map lit not_mapped) /\ row_factor to_num one t f /\ to_num (VStr a) = Ok n /\ scale (t_unit t) = Some k /\
        s_id s = t_id t /\ s_name s = t_name t /\ s_amount s = as_value (mul (mul n f) k) /\ s_own s = false /\ s_comments s = [].
    Proof.
      intros X (dx & E & H). destruct (elementary_id x i a dx X E) as [Gi Ga]. unfold sent_elementary, elementary_out, AsideModel.item in H. rewrite Gi, Ga in H. cbn [bind] in H.
      destruct (getf i outward) as [t|] eqn:T; [|discriminate]. destruct (str_in (t_map t) (map lit not_mapped)) eqn:M; [discriminate|].
      apply bind_ok in H. destruct H as (r & H1 & H). apply bind_ok in H1. destruct H1 as (f & Hf & H1). apply bind_ok in H1. destruct H1 as (n & Hn & H1).
      destruct (scale (t_unit t)) as [k|] eqn:K; [|discriminate]. injection H1 as <-. apply bind_ok in H. destruct H as (fl & _ & H). apply bind_ok in H. destruct H as (v & _ & H). injection H as <-.
      exists t, f, k, n. repeat split; try assumption; try reflexivity.
      - intros I. apply str_in_In in I. congruence.
      - unfold factor_out in Hf. unfold row_factor. destruct (str_in (t_factor t) [[]; lit "n/a"]); [now injection Hf|exact Hf].
    Qed.
    Theorem C165_elementary_returns_partial :
      forall d l rs i s a e x fid amt t, journey d l rs -> folder_for d l -> nth_error l i = Some s -> nth_error rs i = Some (Some a) ->
        elementary_exchange x fid amt -> leaves x (Ok (Some s)) -> In (flow_file_name s, e) d -> elementary_flow e -> getf fid outward = Some t ->
        exists t' n f k q g, getf (t_id t) mapping = Some t' /\ w_elem (a_written a) = true /\ w_flow (a_written a) = t_id t' /\ w_names (a_written a) = [(VStr (lit "en"), t_name t')] /\
          w_unit (a_written a) = t_unit t' /\
          to_num (VStr amt) = Ok n /\ row_factor to_num one t f /\ scale (t_unit t) = Some k /\ read_as to_num show (as_value (mul (mul n f) k)) q /\
          row_factor to_num one t' g /\ a_amount a = mul q g.
    Proof.
      intros d l rs i s a e x fid amt t J F E R X L I El T. destruct (leaves_row x fid amt s X L) as (t0 & f & k & n & T0 & _ & Rf & Tn & Sc & Ei & _ & Ea & _).
      rewrite T in T0. injection T0 as <-. destruct (journey_at d l rs i s J E) as (Ws & r & numbers & R' & A). rewrite R in R'. injection R' as <-.
      rewrite (flow_found d l s e _ (in_names _ _ F) (in_ids _ _ F) (in_once _ _ F) (in_apart _ _ F) (nth_error_In _ _ E) I (find_named show ns to_num (S i) s Ws d)) in A.
      pose proof (y_refers show ns to_num (S i) s Ws) as Ry.
      destruct (arrived_inv num to_num one zero mul sub div is_zero more language D same_dim dim mapping compartments master use_master cid prints_kg prints_m3 refs show ns numbers (S i) s (Some e) a Ws A)
        as (e' & q & Ee & Cv & Rq & Am & _). injection Ee as <-. rewrite Ei in Ry.
      destruct (elementary_inv num to_num one zero sub div is_zero more language D same_dim dim mapping compartments master use_master cid prints_kg prints_m3 refs
        _ (t_id t) e (a_written a) Ry El Cv) as (ie & inf & t' & u & cf & ps & _ & _ & T' & _ & _ & Ew).
      destruct (C148_elementary_written num to_num one zero sub div is_zero more language D same_dim dim mapping compartments master use_master cid prints_kg prints_m3 refs
        _ (t_id t) e (a_written a) t' Ry El Cv T') as (W1 & W2 & W3 & _ & _ & W4).
      exists t', n, f, k, q, (w_factor (a_written a)). rewrite Ea in Rq. repeat split; try assumption; try apply Rq. now rewrite Ew.
    Qed.
    (** The identifier is the same, if the two mappings agree on it. *)
    Theorem C165_identifier_partial :
      forall d l rs i s a e x fid amt t t', journey d l rs -> folder_for d l -> nth_error l i = Some s -> nth_error rs i = Some (Some a) ->
        elementary_exchange x fid amt -> leaves x (Ok (Some s)) -> In (flow_file_name s, e) d -> elementary_flow e -> getf fid outward = Some t ->
        getf (t_id t) mapping = Some t' -> (w_flow (a_written a) = fid <-> t_id t' = fid).
    Proof.
      intros d l rs i s a e x fid amt t t' J F E R X L I El T T'.
      destruct (C165_elementary_returns_partial d l rs i s a e x fid amt t J F E R X L I El T) as (t0 & _ & _ & _ & _ & _ & T0 & _ & -> & _). rewrite T' in T0. injection T0 as <-. reflexivity.
    Qed.
    (** Two flows of EcoSpold2 with one counterpart in ILCD are the same flow afterwards. *)
    Theorem C165_two_flows_refuted :
      forall d l rs i j s1 s2 a1 a2 e1 e2 x1 x2 fid1 fid2 amt1 amt2 t1 t2, journey d l rs -> folder_for d l ->
        nth_error l i = Some s1 -> nth_error l j = Some s2 -> nth_error rs i = Some (Some a1) -> nth_error rs j = Some (Some a2) ->
        elementary_exchange x1 fid1 amt1 -> elementary_exchange x2 fid2 amt2 -> leaves x1 (Ok (Some s1)) -> leaves x2 (Ok (Some s2)) ->
        In (flow_file_name s1, e1) d -> In (flow_file_name s2, e2) d -> elementary_flow e1 -> elementary_flow e2 ->
        getf fid1 outward = Some t1 -> getf fid2 outward = Some t2 -> t_id t1 = t_id t2 -> fid1 <> fid2 ->
        w_flow (a_written a1) = w_flow (a_written a2) /\ ~ (w_flow (a_written a1) = fid1 /\ w_flow (a_written a2) = fid2).
    Proof.
      intros d l rs i j s1 s2 a1 a2 e1 e2 x1 x2 fid1 fid2 amt1 amt2 t1 t2 J F E1 E2 R1 R2 X1 X2 L1 L2 I1 I2 El1 El2 T1 T2 Et N.
      destruct (C165_elementary_returns_partial d l rs i s1 a1 e1 x1 fid1 amt1 t1 J F E1 R1 X1 L1 I1 El1 T1) as (u1 & _ & _ & _ & _ & _ & U1 & _ & V1 & _).
      destruct (C165_elementary_returns_partial d l rs j s2 a2 e2 x2 fid2 amt2 t2 J F E2 R2 X2 L2 I2 El2 T2) as (u2 & _ & _ & _ & _ & _ & U2 & _ & V2 & _).
      rewrite Et, U2 in U1. injection U1 as <-. rewrite V1, V2. split; [reflexivity|]. intros [A B]. congruence.
    Qed.
    (** An exchange has no counterpart exactly if its flow has no row, or a row of one of two types. *)
    Theorem C166_left_out :
      forall x i a, elementary_exchange x i a ->
        (leaves x (Ok None) <-> getf i outward = None \/ exists t, getf i outward = Some t /\ (t_map t = lit "NO_MATCH_MAPPING" \/ t_map t = lit "NO MATCH")).
    Proof.
      intros x i a X. pose proof X as X'. destruct X' as (R & _). destruct (record_dict x R) as [dx E]. destruct (elementary_id x i a dx X E) as [Gi Ga]. split.
      - intros (dx' & E' & H). rewrite E in E'. injection E' as <-. unfold sent_elementary, elementary_out, AsideModel.item in H. rewrite Gi, Ga in H. cbn [bind] in H.
        destruct (getf i outward) as [t|] eqn:T; [right|now left]. exists t. split; [reflexivity|]. destruct (str_in (t_map t) (map lit not_mapped)) eqn:M.
        + apply str_in_In in M. destruct M as [M|[M|[]]]; [left|right]; now symmetry.
        + exfalso. apply bind_ok in H. destruct H as (r & H1 & H). apply bind_ok in H1. destruct H1 as (f & Hf & H1). apply bind_ok in H1. destruct H1 as (n & Hn & H1).
          destruct (scale (t_unit t)) as [k|] eqn:K; [|discriminate]. injection H1 as <-. apply bind_ok in H. destruct H as (fl & _ & H). apply bind_ok in H. destruct H as (v & _ & H). discriminate H.
      - intros H. exists dx. split; [exact E|]. unfold sent_elementary, elementary_out, AsideModel.item. rewrite Gi, Ga. cbn [bind].
        destruct H as [-> |(t & -> & H)]; [reflexivity|]. destruct (str_in (t_map t) (map lit not_mapped)) eqn:M; [reflexivity|]. exfalso.
        assert (I : In (t_map t) (map lit not_mapped)) by (destruct H as [-> | ->]; [now left|right; now left]). apply str_in_In in I. congruence.
    Qed.
    (** The way back knows two more types of rows without a counterpart, and ignores blanks around them: such a row is used on the way to ILCD. *)
    Theorem C166_no_target_refuted :
      forall x i a t r, elementary_exchange x i a -> getf i outward = Some t -> no_target (strip (t_map t)) ->
        t_map t <> lit "NO_MATCH_MAPPING" -> t_map t <> lit "NO MATCH" -> leaves x (Ok r) -> exists s, r = Some s /\ s_id s = t_id t.
    Proof.
      intros x i a t r X T _ N1 N2 H. destruct r as [s|].
      - exists s. split; [reflexivity|]. destruct (leaves_row x i a s X H) as (t0 & _ & _ & _ & T0 & _ & _ & _ & _ & -> & _). rewrite T in T0. now injection T0 as <-.
      - exfalso. apply (C166_left_out x i a X) in H. rewrite T in H. destruct H as [H|(t0 & T0 & H)]; [discriminate|]. injection T0 as <-. destruct H; contradiction.
    Qed.
  End Elementary.
End Journey.

(** * C165: amounts, as rational numbers *)
Section Amounts.
  Import QArith.
  Context (to_num : pyval -> result Q) (zero : Q) (sub div : Q -> Q -> Q) (is_zero : Q -> bool).
  Context (more : pyval -> result unit) (language : pyval) (D : Type) (same_dim : D -> D -> bool) (dim : pystr -> option D).
  Context (mapping : list (pystr * target)) (compartments : list pystr) (master : list (pystr * list (pystr * md_row))) (use_master : bool).
  Context (cid : pystr -> pystr) (prints_kg prints_m3 : pystr -> bool) (refs : list (pystr * pystr)) (show : pyval -> pystr) (ns : pystr).
  Context (scale : pystr -> option Q) (outward : list (pystr * target)) (as_value : Q -> pyval) (version_of : pystr -> result pystr).
  Notation journey := (journey Q to_num 1%Q zero Qmult sub div is_zero more language D same_dim dim mapping compartments master use_master cid prints_kg prints_m3 refs show ns).
  Notation leaves := (leaves to_num 1%Q Qmult scale outward as_value version_of).
  (** numbers are written in full *)
  Definition exact : Prop := forall n q, read_as to_num show (as_value n) q -> q == n.
  Lemma amount_back d l rs i s a e x fid amt t t' n f k g : exact -> journey d l rs -> folder_for d l -> nth_error l i = Some s -> nth_error rs i = Some (Some a) ->
    elementary_exchange x fid amt -> leaves x (Ok (Some s)) -> In (flow_file_name s, e) d -> elementary_flow e -> getf fid outward = Some t -> getf (t_id t) mapping = Some t' ->
    to_num (VStr amt) = Ok n -> row_factor to_num 1 t f -> scale (t_unit t) = Some k -> row_factor to_num 1 t' g -> a_amount a == n * f * k * g.
  Proof.
    intros Ex J F E R X L I El T T' N Rf K Rg.
    destruct (C165_elementary_returns_partial Q to_num 1 zero Qmult sub div is_zero more language D same_dim dim mapping compartments master use_master cid prints_kg prints_m3 refs show ns
      scale outward as_value version_of d l rs i s a e x fid amt t J F E R X L I El T) as (t0 & n0 & f0 & k0 & q & g0 & T0 & _ & _ & _ & _ & N0 & F0 & K0 & Rq & G0 & ->).
    rewrite T' in T0. injection T0 as <-. rewrite N in N0. injection N0 as <-. rewrite K in K0. injection K0 as <-.
    assert (U : forall u b c, row_factor to_num 1 u b -> row_factor to_num 1 u c -> b = c).
    { intros u b c A B. unfold row_factor in A, B. destruct (str_in _ _); congruence. }
    rewrite (U t f0 f F0 Rf) in Rq. rewrite (U t' g0 g G0 Rg). rewrite (Ex _ _ Rq). reflexivity.
  Qed.
  Theorem C165_amount_partial :
    forall d l rs i s a e x fid amt t t' n f k g, exact -> journey d l rs -> folder_for d l -> nth_error l i = Some s -> nth_error rs i = Some (Some a) ->
      elementary_exchange x fid amt -> leaves x (Ok (Some s)) -> In (flow_file_name s, e) d -> elementary_flow e -> getf fid outward = Some t -> getf (t_id t) mapping = Some t' ->
      to_num (VStr amt) = Ok n -> row_factor to_num 1 t f -> scale (t_unit t) = Some k -> row_factor to_num 1 t' g -> f * g == 1 -> k == 1 -> a_amount a == n.
  Proof.
    intros d l rs i s a e x fid amt t t' n f k g Ex J F E R X L I El T T' N Rf K Rg Fg Kg.
    rewrite (amount_back d l rs i s a e x fid amt t t' n f k g Ex J F E R X L I El T T' N Rf K Rg), Kg.
    transitivity (n * (f * g)); [ring|]. rewrite Fg. ring.
  Qed.
  (** The factors of the mappings are inverse, but the unit of the row is not the one that ILCD has: it is scaled on the way to ILCD, and not on the way back. *)
  Theorem C165_scale_refuted :
    forall d l rs i s a e x fid amt t t' n f k g, exact -> journey d l rs -> folder_for d l -> nth_error l i = Some s -> nth_error rs i = Some (Some a) ->
      elementary_exchange x fid amt -> leaves x (Ok (Some s)) -> In (flow_file_name s, e) d -> elementary_flow e -> getf fid outward = Some t -> getf (t_id t) mapping = Some t' ->
      to_num (VStr amt) = Ok n -> row_factor to_num 1 t f -> scale (t_unit t) = Some k -> row_factor to_num 1 t' g -> f * g == 1 -> ~ k == 1 -> ~ n == 0 -> ~ a_amount a == n.
  Proof.
    intros d l rs i s a e x fid amt t t' n f k g Ex J F E R X L I El T T' N Rf K Rg Fg Kg Nz H. apply Kg.
    rewrite (amount_back d l rs i s a e x fid amt t t' n f k g Ex J F E R X L I El T T' N Rf K Rg) in H.
    assert (H' : n * k == n * 1). { transitivity (n * f * k * g); [|rewrite H; ring]. transitivity (n * k * (f * g)); [rewrite Fg|]; ring. }
    apply Qmult_inj_l in H'; assumption.
  Qed.
End Amounts.
(** * Examples *)
Section Trip.
  Import QArith.
  Definition trip_u1 : pystr := lit "11111111-1111-1111-1111-111111111111".
  Definition trip_u2 : pystr := lit "22222222-2222-2222-2222-222222222222".
  Definition trip_u3 : pystr := lit "33333333-3333-3333-3333-333333333333".
  Definition trip_u4 : pystr := lit "44444444-4444-4444-4444-444444444444".
  Definition trip_shown : list (pystr * Q) := [(lit "1.0", 1); (lit "2.5", 5 # 2); (lit "5.0", 5); (lit "0.001", 1 # 1000); (lit "2", 2); (lit "0.5", 1 # 2); (lit "1", 1)].
  Definition trip_show (v : pyval) : pystr :=
    match v with VFloat (Fin q) => match find (fun tq => Qeq_bool (snd tq) q) trip_shown with Some (t, _) => t | None => [] end | _ => [] end.
  Definition trip_to_num (v : pyval) : result Q := match v with VStr s => match getf s trip_shown with Some q => Ok q | None => Err ValueError end | _ => Err TypeError end.
  Definition trip_as_value (q : Q) : pyval := VFloat (Fin q).
  Definition trip_scale (u : pystr) : option Q := Some (if str_eqb u (lit "g") then 1 # 1000 else 1).
  Definition trip_outward : list (pystr * target) :=
    [(lit "e1", Target [] trip_u3 (lit "CO2") (lit "air") (lit "2") (lit "kg")); (lit "e5", Target [] trip_u3 (lit "CO2") (lit "air") (lit "2") (lit "kg"));
     (lit "e4", Target [] trip_u4 (lit "CH4") (lit "air") [] (lit "g")); (lit "e9", Target (lit "NO_MAPPING") trip_u4 (lit "CH4") (lit "air") [] (lit "kg"));
     (lit "e8", Target (lit "NO MATCH") [] [] [] [] [])].
  Definition trip_inward : list (pystr * target) :=
    [(trip_u3, Target [] (lit "e1") (lit "Carbon dioxide") (lit "air") (lit "0.5") (lit "kg")); (trip_u4, Target [] (lit "e4") (lit "Methane") (lit "air") [] (lit "kg"))].
  Definition trip_version_of (_ : pystr) : result pystr := Ok (lit "03.00.004").
  Definition trip_uid (_ : pystr) : result pystr := Ok trip_u1.
  Definition trip_cid (i : pystr) : pystr := if str_eqb i trip_u1 then lit "f1" else lit "f2".
  Definition trip_now : pystr := lit "2026-01-01T00:00:00".
  Definition trip_ns : pystr := lit "http://lca.jrc.it/ILCD/Process".
  Definition trip_steel (g : string) : elem := elem_ "intermediateExchange" [("intermediateExchangeId", "f1")] [says "name" "de" "Stahl"; says "synonym" "en" "alloy"; txt "outputGroup" g].
  Definition trip_coal : elem := elem_ "intermediateExchange" [("intermediateExchangeId", "f2")] [says "name" "en" "Coal"; txt "inputGroup" "1"].
  Definition trip_gas (i a : string) : elem := elem_ "elementaryExchange" [("elementaryExchangeId", i); ("amount", a)] [txt "outputGroup" "4"].
  Definition trip_price : list (bool * draft) := [(true, price)].
  Definition trip_steel_doc : elem :=
    match flow_file trip_uid trip_show trip_now (match elem2dict (trip_steel "0") with VDict d => d | _ => [] end) [] (Some (lit "Product flow")) mass_key trip_price (lit "01.00.000") with
    | Ok (_, e) => e
    | Err _ => trip_steel "0"
    end.
  Definition trip_made (dir : direction) (g : string) (id name : pystr) (a : Q) (notes : list (pystr * pystr)) : sent :=
    Sent {| fi_dir := dir; fi_group := lit g; fi_text := [] |} None true id (lit "01.00.000") name (trip_as_value a) None [] [] notes.
  Definition trip_emitted (id name : pystr) (a : Q) : sent :=
    Sent {| fi_dir := Output; fi_group := lit "4"; fi_text := [] |} None false id (lit "03.00.004") name (trip_as_value a) None [] [] [].
  Definition trip_way : list (elem * sent) :=
    [(trip_steel "0", trip_made Output "0" trip_u1 (lit "Stahl") 1 [(lit "en", lit "estimated")]);
     (trip_coal, trip_made Input "1" trip_u2 (lit "Coal") (5 # 2) []);
     (trip_gas "e1" "2.5", trip_emitted trip_u3 (lit "CO2") ((5 # 2) * 2 * 1));
     (trip_gas "e4" "1.0", trip_emitted trip_u4 (lit "CH4") (1 * 1 * (1 # 1000)));
     (trip_gas "e5" "2.5", trip_emitted trip_u3 (lit "CO2") ((5 # 2) * 2 * 1));
     (trip_steel "2", trip_made Output "2" trip_u1 (lit "Stahl") 1 []);
     (trip_steel "5", trip_made Output "5" trip_u1 (lit "Stahl") 1 [])].
  Definition trip_l : list sent := map snd trip_way.
  Definition trip_folder : files := [(trip_u1 ++ lit "_01.00.000.xml", trip_steel_doc); (trip_u2 ++ lit "_01.00.000.xml", product []); (trip_u3 ++ lit ".xml", emission); (trip_u4 ++ lit ".xml", emission)].
  Definition trip_p : parts := Parts [(lit "@xmlns", VStr trip_ns)] [] [] [] [] [].
  Definition trip_arrivals (doc : elem) :=
    arrivals Q trip_to_num 1 0 Qmult Qminus Qdiv (fun q => Qeq_bool q 0) (fun _ => Ok tt) (VStr (lit "en")) pystr str_eqb (fun u => Some u) trip_inward [lit "air"] masters false trip_cid
      (fun u => str_eqb u (lit "kg")) (fun u => str_eqb u (lit "m3")) [] trip_folder doc.
  Definition trip_rs : list (option (arrived Q)) :=
    match unparse trip_show (process_dict trip_p trip_l) with Ok doc => match trip_arrivals doc with Ok r => r | Err _ => [] end | Err _ => [] end.
  Definition trip_journey := journey Q trip_to_num 1 0 Qmult Qminus Qdiv (fun q => Qeq_bool q 0) (fun _ => Ok tt) (VStr (lit "en")) pystr str_eqb (fun u => Some u) trip_inward [lit "air"] masters false trip_cid
      (fun u => str_eqb u (lit "kg")) (fun u => str_eqb u (lit "m3")) [] trip_show trip_ns.

  Lemma trip_uuid c : (48 <= c <= 57)%N -> is_uuid (repeat c 8 ++ lit "-" ++ repeat c 4 ++ lit "-" ++ repeat c 4 ++ lit "-" ++ repeat c 4 ++ lit "-" ++ repeat c 12).
  Proof.
    intros C. assert (F : forall n, Forall hexchar (repeat c n)) by (induction n; constructor; [now left|assumption]).
    eexists _, _, _, _, _. split; [reflexivity|]. repeat split; try apply repeat_length; apply F.
  Qed.
  Ltac known_ q := exists q; split; [eexists; reflexivity|]; split; [eapply not_blank; vm_compute; reflexivity|vm_compute; reflexivity].
  Lemma trip_sent : Forall (well_sent trip_to_num trip_show) trip_l.
  Proof.
    unfold trip_l, trip_way. cbn [map snd].
    repeat (constructor; [split; [discriminate|]; split; [eapply not_blank; vm_compute; reflexivity|]; split;
      [first [known_ 1|known_ (5 # 2)|known_ 5|known_ (1 # 1000)]|]; split; [constructor|]; split; [reflexivity|];
      first [constructor; fail|constructor; [eapply not_blank; vm_compute; reflexivity|constructor]|constructor]|]).
    constructor.
  Qed.
  Lemma trip_parts : parts_ok trip_ns trip_p.
  Proof. constructor; repeat split; try reflexivity; repeat constructor; try (vm_compute; discriminate). Qed.
  Lemma trip_there : trip_journey trip_folder trip_l trip_rs.
  Proof.
    destruct (unparse trip_show (process_dict trip_p trip_l)) as [doc|] eqn:E; [|vm_compute in E; discriminate E].
    exists trip_p, doc. split; [exact trip_parts|]. split; [exact trip_sent|]. split; [exact E|]. fold (trip_arrivals doc). unfold trip_rs. rewrite E.
    destruct (trip_arrivals doc) eqn:A; [reflexivity|]. exfalso.
    assert (X : match unparse trip_show (process_dict trip_p trip_l) with Ok d => match trip_arrivals d with Ok _ => true | Err _ => false end | Err _ => false end = true) by (vm_compute; reflexivity).
    rewrite E, A in X. discriminate X.
  Qed.
  Lemma trip_versions : version_ok (lit "01.00.000") /\ version_ok (lit "03.00.004").
  Proof.
    split; (split; [|vm_compute; intuition discriminate]).
    - exists (lit "01.00.00"), (ch "0"). split; [reflexivity|]. vm_compute. split; discriminate.
    - exists (lit "03.00.00"), (ch "4"). split; [reflexivity|]. vm_compute. split; discriminate.
  Qed.
  Lemma trip_files : folder_for trip_folder trip_l.
  Proof.
    pose proof trip_versions as [V1 V2].
    assert (A : is_uuid trip_u1 /\ is_uuid trip_u2 /\ is_uuid trip_u3 /\ is_uuid trip_u4).
    { repeat split; [apply (trip_uuid 49)|apply (trip_uuid 50)|apply (trip_uuid 51)|apply (trip_uuid 52)]; split; discriminate. }
    destruct A as (A1 & A2 & A3 & A4). constructor.
    - intros n [<-|[<-|[<-|[<-|[]]]]].
      + exists (nth 0 trip_l (trip_emitted [] [] 0)). split; [now left|reflexivity].
      + exists (nth 1 trip_l (trip_emitted [] [] 0)). split; [right; now left|reflexivity].
      + exists (nth 2 trip_l (trip_emitted [] [] 0)). split; [right; right; now left|reflexivity].
      + exists (nth 3 trip_l (trip_emitted [] [] 0)). split; [right; right; right; now left|reflexivity].
    - cbn [map fst trip_folder]. repeat constructor; vm_compute; intuition discriminate.
    - repeat (constructor; [split; assumption|]). constructor.
    - intros a b Ia Ib. cbn [trip_l trip_way map snd In] in Ia, Ib.
      destruct Ia as [<-|[<-|[<-|[<-|[<-|[<-|[<-|[]]]]]]]]; destruct Ib as [<-|[<-|[<-|[<-|[<-|[<-|[<-|[]]]]]]]]; intros E; try reflexivity; vm_compute in E; discriminate E.
  Qed.
  Lemma trip_groups : Forall (fun xs => sent_for (fst xs) (snd xs)) trip_way.
  Proof. repeat (constructor; [eexists; split; vm_compute; reflexivity|]). constructor. Qed.
  Definition trip_back (i : nat) : arrived Q := match nth_error trip_rs i with Some (Some a) => a | _ => Arrived (Written_ false [] [] [] [] 0 None None [] [] []) InputGroup 9 0 end.
  Lemma trip_at i : match nth_error trip_rs i with Some (Some _) => true | _ => false end = true -> nth_error trip_rs i = Some (Some (trip_back i)).
  Proof. unfold trip_back. destruct (nth_error trip_rs i) as [[a|]|]; try discriminate. reflexivity. Qed.
  Notation trip_returns := (returns Q trip_to_num 1 0 Qmult Qminus Qdiv (fun q => Qeq_bool q 0) (fun _ => Ok tt) (VStr (lit "en")) pystr str_eqb (fun u => Some u) trip_inward [lit "air"] masters false trip_cid
      (fun u => str_eqb u (lit "kg")) (fun u => str_eqb u (lit "m3")) [] trip_show trip_ns).
  Example C164_nonvacuous :
    trip_returns trip_folder trip_way trip_rs 1 trip_coal (trip_made Input "1" trip_u2 (lit "Coal") (5 # 2) []) Input (lit "1") (trip_back 1) /\
    map (fun r => match r with Some a => Some (a_field a, a_group a) | None => None end) trip_rs
    = [Some (OutputGroup, 0%Z); Some (InputGroup, 5%Z); Some (OutputGroup, 4%Z); Some (OutputGroup, 4%Z); Some (OutputGroup, 4%Z); Some (OutputGroup, 2%Z); Some (OutputGroup, 2%Z)].
  Proof.
    split; [|vm]. constructor.
    - exact trip_there.
    - exact trip_files.
    - exact trip_groups.
    - reflexivity.
    - apply trip_at. vm.
    - split; [|left; now left]. split; [apply recordb_sound; vm|]. eexists. split; [apply child_found; vm_compute; reflexivity|]. repeat split. eapply not_blank; vm_compute; reflexivity.
    - exists (product []), (lit "Product flow"). split; [right; now left|]. split; [reflexivity|]. split; [apply properb_sound; vm|]. one_text_ "typeOfDataSet" "Product flow".
  Qed.
  Lemma trip_leaves i a r : match elem2dict (trip_gas i a) with VDict d => sent_elementary Q trip_to_num 1 Qmult trip_scale trip_outward trip_as_value trip_version_of d | _ => Err TypeError end = r ->
    r <> Err TypeError -> leaves trip_to_num 1 Qmult trip_scale trip_outward trip_as_value trip_version_of (trip_gas i a) r.
  Proof. intros <- N. destruct (elem2dict (trip_gas i a)) as [| | | | | | |d|] eqn:E; try (now destruct N). exists d. now split. Qed.
  Lemma trip_gas_is i a : recordb (trip_gas i a) = true -> elementary_exchange (trip_gas i a) (lit i) (lit a).
  Proof. intros R. split; [now apply recordb_sound|]. split; (apply attr_given; [reflexivity|]); [now left|right; now left]. Qed.
  Lemma trip_exact : exact trip_to_num trip_show trip_as_value.
  Proof.
    intros n q (_ & B & T). unfold trip_as_value, trip_show in *. destruct (find (fun tq => Qeq_bool (snd tq) n) trip_shown) as [[t m]|] eqn:F; [|destruct B; constructor].
    assert (M : In (t, m) trip_shown /\ Qeq_bool m n = true) by (apply find_some in F; exact F). destruct M as [I M]. apply Qeq_bool_iff in M. rewrite <- M. clear F M B n.
    destruct I as [I|[I|[I|[I|[I|[I|[I|[]]]]]]]]; injection I as <- <-; vm_compute in T; injection T as <-; reflexivity.
  Qed.
  Example C165_nonvacuous :
    trip_journey trip_folder trip_l trip_rs /\ folder_for trip_folder trip_l /\ exact trip_to_num trip_show trip_as_value /\
    elementary_exchange (trip_gas "e1" "2.5") (lit "e1") (lit "2.5") /\ elementary_exchange (trip_gas "e4" "1.0") (lit "e4") (lit "1.0") /\
    leaves trip_to_num 1 Qmult trip_scale trip_outward trip_as_value trip_version_of (trip_gas "e1" "2.5") (Ok (nth_error trip_l 2)) /\
    leaves trip_to_num 1 Qmult trip_scale trip_outward trip_as_value trip_version_of (trip_gas "e4" "1.0") (Ok (nth_error trip_l 3)) /\
    leaves trip_to_num 1 Qmult trip_scale trip_outward trip_as_value trip_version_of (trip_gas "e5" "2.5") (Ok (nth_error trip_l 4)) /\
    elementary_flow emission /\ row_factor trip_to_num 1 (Target [] trip_u3 (lit "CO2") (lit "air") (lit "2") (lit "kg")) 2 /\
    map (fun i => (w_flow (a_written (trip_back i)), w_names (a_written (trip_back i)), a_amount (trip_back i))) [2; 3; 4]%nat
    = [(lit "e1", [(VStr (lit "en"), lit "Carbon dioxide")], 5 # 2); (lit "e4", [(VStr (lit "en"), lit "Methane")], 1 # 1000); (lit "e1", [(VStr (lit "en"), lit "Carbon dioxide")], 5 # 2)].
  Proof.
    split; [exact trip_there|]. split; [exact trip_files|]. split; [exact trip_exact|]. split; [apply trip_gas_is; vm|]. split; [apply trip_gas_is; vm|].
    do 3 (split; [apply trip_leaves; [vm_compute; reflexivity|vm_compute; discriminate]|]). split; [elementary_|]. split; [vm|]. vm_compute. reflexivity.
  Qed.
  Example C166_nonvacuous :
    leaves trip_to_num 1 Qmult trip_scale trip_outward trip_as_value trip_version_of (trip_gas "e8" "2.5") (Ok None) /\
    leaves trip_to_num 1 Qmult trip_scale trip_outward trip_as_value trip_version_of (trip_gas "e7" "2.5") (Ok None) /\
    no_target (strip (lit "NO_MAPPING")) /\ exists s, leaves trip_to_num 1 Qmult trip_scale trip_outward trip_as_value trip_version_of (trip_gas "e9" "2.5") (Ok (Some s)) /\ s_id s = trip_u4.
  Proof.
    do 2 (split; [apply trip_leaves; [vm_compute; reflexivity|discriminate]|]). split; [right; right; right; now left|].
    eexists. split; [apply trip_leaves; [vm_compute; reflexivity|discriminate]|vm].
  Qed.
  Example C167_nonvacuous :
    folder_for trip_folder trip_l /\ parts_ok trip_ns trip_p /\ Forall (well_sent trip_to_num trip_show) trip_l /\
    map fst trip_folder = [trip_u1 ++ lit "_01.00.000.xml"; trip_u2 ++ lit "_01.00.000.xml"; trip_u3 ++ lit ".xml"; trip_u4 ++ lit ".xml"] /\
    map flow_file_name (firstn 4 trip_l) = map fst trip_folder.
  Proof. split; [exact trip_files|]. split; [exact trip_parts|]. split; [exact trip_sent|]. split; reflexivity. Qed.
  Lemma trip_data : product_data trip_uid trip_show Q trip_to_num (trip_steel "0") (lit "f1") (lit "de") (lit "Stahl") [] [(lit "en", lit "alloy")] (lit "Product flow") mass_key
    (row_of "7844486d-bbaf-3c45-9487-7fe3476c5b6f") trip_price trip_u1.
  Proof.
    constructor.
    - split; [apply recordb_sound; vm|]. split; [apply attr_given; [vm|now left]|]. split; [|split; [|split; now apply kids_found]].
      + apply (texts_found _ _ [says "name" "de" "Stahl"]); [vm|vm|]. constructor; [spoken_|constructor].
      + apply (texts_found _ _ [says "synonym" "en" "alloy"]); [vm|vm|]. constructor; [spoken_|constructor].
    - reflexivity.
    - apply row_found. vm.
    - vm_compute. discriminate.
    - split; [eapply not_blank; reflexivity|discriminate].
    - constructor; [|constructor]. cbn [snd]. split; [eexists; apply row_found; vm|]. split; [eexists; reflexivity|]. split; [constructor|]. constructor; [|constructor]. eapply not_blank; reflexivity.
    - split; [|eexists; reflexivity]. change (trip_show _) with (lit "1.0"). eapply not_blank; reflexivity.
    - constructor; [|constructor]. split; [|eexists; reflexivity]. change (trip_show _) with (lit "2.5"). eapply not_blank; reflexivity.
  Qed.
  Example C168_nonvacuous :
    trip_journey trip_folder trip_l trip_rs /\ In (flow_file_name (nth 0 trip_l (trip_emitted [] [] 0)), trip_steel_doc) trip_folder /\
    product_data trip_uid trip_show Q trip_to_num (trip_steel "0") (lit "f1") (lit "de") (lit "Stahl") [] [(lit "en", lit "alloy")] (lit "Product flow") mass_key
      (row_of "7844486d-bbaf-3c45-9487-7fe3476c5b6f") trip_price trip_u1 /\
    product_written trip_uid trip_show trip_now (trip_steel "0") [] (lit "Product flow") mass_key trip_price (lit "01.00.000") trip_u1 trip_steel_doc /\
    nth_error trip_rs 0 = Some (Some (trip_back 0)) /\ w_flow (a_written (trip_back 0)) = lit "f1" /\ w_comment (a_written (trip_back 0)) = [(VStr (lit "en"), lit "estimated")].
  Proof.
    split; [exact trip_there|]. split; [now left|]. split; [exact trip_data|]. split; [eexists; split; vm_compute; reflexivity|]. split; [apply trip_at; vm|]. split; vm.
  Qed.
End Trip.

Print Assumptions C164_class_refuted.
Print Assumptions C164_groups.
Print Assumptions C164_inputs_refuted.
Print Assumptions C164_kept_partial.
Print Assumptions C164_shared_refuted.
Print Assumptions C164_stock_refuted.
Print Assumptions C165_amount_partial.
Print Assumptions C165_elementary_returns_partial.
Print Assumptions C165_identifier_partial.
Print Assumptions C165_scale_refuted.
Print Assumptions C165_two_flows_refuted.
Print Assumptions C166_left_out.
Print Assumptions C166_no_target_refuted.
Print Assumptions C167_found.
Print Assumptions C168_order.
Print Assumptions C168_product_returns_partial.
