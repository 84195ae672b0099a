(** C140-C148: exchanges and their flow data sets, from ILCD to EcoSpold2. *)
From Coq Require Import Ascii String List Bool Arith NArith ZArith Lia.
From Verif Require Import PyBase PyBaseFacts PyValues MultiLangModel DotDictModel DotDictProofs UtilsModel ConverterModel
  XmlModel XmlSpec XmlProofs XmlProps KeysModel KeysSpec KeysProofs HandleModel HandleSpec OutputProofs HandleProofs ReferProofs
  ClassProofs AsideModel AsideSpec AsideProofs AsideProps ReferModel ReferSpec InflowModel InflowSpec InflowProofs.
Import ListNotations.
Local Open Scope string_scope.
Local Open Scope list_scope.

(** * The tables *)
Lemma ids_disjoint : forallb (fun kr => negb (existsb (fun kr' => str_eqb (fst kr) (f_pid (snd kr'))) fp_table)) fp_table = true.
Proof. vm_compute. reflexivity. Qed.
Lemma not_converted k : In k (map fst fp_table) -> ~ In k (map (fun kr => f_pid (snd kr)) fp_table).
Proof.
  intros I J. apply in_map_iff in I. destruct I as (kr & <- & I). apply in_map_iff in J. destruct J as (kr' & E & J).
  pose proof ids_disjoint as T. rewrite forallb_forall in T. specialize (T _ I). apply negb_true_iff in T.
  assert (X : existsb (fun kr' => str_eqb (fst kr) (f_pid (snd kr'))) fp_table = true); [|congruence].
  apply existsb_exists. exists kr'. split; [exact J|]. apply str_eqb_eq. now symmetry.
Qed.
Lemma units_named_once : forallb (fun r => forallb (fun r' => implb (str_eqb (snd (snd r)) (snd (snd r'))) (str_eqb (fst (snd r)) (fst (snd r')))) un_table) un_table = true.
Proof. vm_compute. reflexivity. Qed.
Lemma unit_named k k' u u' n : In (k, (u, n)) un_table -> In (k', (u', n)) un_table -> u = u'.
Proof.
  intros I J. pose proof units_named_once as T. rewrite forallb_forall in T. specialize (T _ I). rewrite forallb_forall in T. specialize (T _ J).
  cbn [fst snd] in T. rewrite str_eqb_refl in T. now apply str_eqb_eq in T.
Qed.

Section Conversion.
  Context (num : Type) (to_num : pyval -> result num) (one zero : num) (add sub div : num -> num -> num) (is_zero : num -> bool).
  Context (more : pyval -> result unit) (language : pyval) (D : Type) (same_dim : D -> D -> bool) (dim : pystr -> option D).
  Context (mapping : list (pystr * target)) (compartments : list pystr) (master : list (pystr * list (pystr * md_row))) (use_master : bool).
  Context (cid : pystr -> pystr) (prints_kg prints_m3 : pystr -> bool) (refs : list (pystr * pystr)).
  Notation conversion := (convert_exchange num to_num one zero sub div is_zero more language D same_dim dim mapping compartments master use_master cid prints_kg prints_m3 refs).
  (** the conversion of the exchange [x], whose flow data set is [file] *)
  Definition converts (x : elem) (file : option elem) (r : result (outcome num)) : Prop := conversion (elem2dict x) file = r.
  Definition stops (x : elem) (file : option elem) : Prop := exists e, converts x file (Err e).
  Definition writes (x : elem) (doc : elem) (w : written num) : Prop := converts x (Some doc) (Ok (Written w)).
  (** nothing in the exchange itself stops the conversion *)
  Definition sound (x : elem) : Prop := converts x None (Ok LeftOut).
  (** a flow with the reference property [m] and the properties [das] *)
  Definition flow_with (doc : elem) (m : pystr) (das : list (pdata * num)) : Prop :=
    reference_number doc m /\ exists ps, occurring doc at_property ps /\ Forall2 (readable to_num more) ps das.
  Notation exchange_init := (exchange_init num to_num more language refs).
  Notation product_info := (product_info num to_num one zero sub div is_zero more language D dim use_master prints_kg prints_m3).
  Notation elementary_info := (elementary_info num to_num one zero sub div is_zero more language D same_dim dim compartments master use_master prints_kg prints_m3).
  Notation unit_id := (unit_id D same_dim dim).

  Lemma sound_init x : sound x -> exists e, exchange_init (elem2dict x) = Ok e.
  Proof. apply convert_init. Qed.
  Lemma written_alloc x i f w : refers_to x i -> converts x f (Ok (Written w)) -> allocations num to_num refs (elem2dict x) = Ok (w_alloc w).
  Proof.
    intros R H. unfold converts in H. destruct (convert_init _ _ _ _ _ _ _ _ _ _ _ _ _ _ _ _ _ _ _ _ _ _ _ H) as [e E].
    unfold convert_exchange in H. rewrite E in H. cbn [bind] in H.
    destruct (init_inv to_num refs more language x i e R E) as [X A]. rewrite A. f_equal.
    destruct f as [doc|]; [|discriminate]. rewrite X in H. destruct i as [|c i]; [discriminate|]. unfold get_flow in H.
    apply bind_ok in H. destruct H as (inf & _ & H). destruct (i_type inf); [|discriminate]. destruct (same _ _).
    - rewrite X in H. destruct (getf _ mapping) as [t|]; [|discriminate]. destruct (str_in _ _); [discriminate|].
      apply bind_ok in H. destruct H as (r & _ & H). apply bind_ok in H. destruct H as (n & _ & H). now injection H as <-.
    - apply bind_ok in H. destruct H as ([[[u n] ps]|] & _ & H); [|discriminate].
      apply bind_ok in H. destruct H as (? & _ & H). apply bind_ok in H. destruct H as (ns & _ & H). now injection H as <-.
  Qed.

  (** * C140: allocations *)
  Theorem C140_allocations_kept_partial :
    forall x i doc w l nvs, refers_to x i -> writes x doc w -> allocates x l -> 2 <= length l ->
      Forall2 (allocated to_num refs) l nvs -> NoDup (map fst nvs) -> w_alloc w = map allocation_name nvs.
  Proof.
    intros x i doc w l nvs R H A L F N. pose proof (written_alloc x i _ w R H) as Al.
    rewrite (allocations_read to_num refs x l nvs A L F) in Al. injection Al as <-.
    rewrite fold_put_distinct; [reflexivity| |intros k _ []]. rewrite map_map. cbn [allocation_name fst].
    clear -N. induction nvs as [|nv nvs IH]; cbn [map]; [constructor|]. cbn [map] in N. inversion N as [|? ? N1 N2]; subst. constructor; [|now apply IH].
    intros I. apply N1. apply in_map_iff in I. destruct I as (nv' & E & I). apply app_inv_head in E. rewrite <- E. now apply in_map.
  Qed.
  Theorem C140_none_kept :
    forall x i doc w, refers_to x i -> writes x doc w -> named_kids (lit "allocations") (ekids x) [] -> w_alloc w = [].
  Proof.
    intros x i doc w R H K. pose proof (written_alloc x i _ w R H) as A. rewrite (allocations_none to_num refs x) in A; [now injection A as <-| |exact K].
    now destruct R.
  Qed.
  (** A single allocation stops the conversion, with or without a flow data set. *)
  Theorem C140_single_refuted :
    forall x a c q file, allocates x [a] -> allocation_of a c q -> stops x file.
  Proof.
    intros x a c q file A O. destruct (init_fails to_num refs more language x (allocations_one to_num refs x a c q A O)) as [e E].
    exists e. unfold converts, convert_exchange. now rewrite E.
  Qed.
  (** Of two allocations to products with the same name, only the last is kept. *)
  Theorem C140_same_name_refuted :
    forall x i doc w a b n p q, refers_to x i -> writes x doc w -> allocates x [a; b] ->
      allocated to_num refs a (n, p) -> allocated to_num refs b (n, q) -> w_alloc w = [allocation_name (n, q)].
  Proof.
    intros x i doc w a b n p q R H A Aa Ab. pose proof (written_alloc x i _ w R H) as Al.
    rewrite (allocations_read to_num refs x [a; b] [(n, p); (n, q)] A) in Al; [|cbn; lia|repeat constructor; assumption].
    injection Al as <-. cbn [map fold_left allocation_name fst snd putf]. now rewrite str_eqb_refl.
  Qed.

  (** * Flows *)
  Lemma product_inv x i doc w : refers_to x i -> product_flow doc -> writes x doc w ->
    exists e inf ns u n ps, exchange_init (elem2dict x) = Ok e /\ info_steps no_info (read flow_keys doc) = Ok inf /\
      product_info inf doc = Ok (Some (u, n, ps)) /\
      w = Written_ false (cid i) ns u n one (truthy (i_cas inf)) None ps (x_alloc e) (x_comment e) /\
      mapM (add_note language []) (match i_names inf with Some l => l | None => [] end) = Ok ns.
  Proof.
    intros R P H. destruct (convert_init _ _ _ _ _ _ _ _ _ _ _ _ _ _ _ _ _ _ _ _ _ _ _ H) as [e E].
    destruct (product_flow_get num to_num one zero sub div is_zero more language D same_dim dim mapping compartments master use_master cid prints_kg prints_m3 refs x i e doc R E P) as (inf & I & C).
    unfold writes, converts in H. rewrite C in H. apply bind_ok in H. destruct H as ([[[u n] ps]|] & Q & H); [|discriminate].
    apply bind_ok in H. destruct H as (? & _ & H). apply bind_ok in H. destruct H as (ns & M & H). exists e, inf, ns, u, n, ps.
    repeat split; try assumption. now injection H as <-.
  Qed.
  Lemma elementary_inv x i doc w : refers_to x i -> elementary_flow doc -> writes x doc w ->
    exists e inf t u cf ps, exchange_init (elem2dict x) = Ok e /\ info_steps no_info (read flow_keys doc) = Ok inf /\
      getf i mapping = Some t /\ str_in (strip (t_map t)) (map lit unmapped) = false /\ elementary_info t inf doc = Ok (u, cf, ps) /\
      w = Written_ true (t_id t) [(VStr (lit "en"), t_name t)] u (t_unit t) cf (truthy (i_cas inf)) (truthy (i_formula inf)) ps (x_alloc e) (x_comment e).
  Proof.
    intros R P H. destruct (convert_init _ _ _ _ _ _ _ _ _ _ _ _ _ _ _ _ _ _ _ _ _ _ _ H) as [e E].
    destruct (elementary_flow_get num to_num one zero sub div is_zero more language D same_dim dim mapping compartments master use_master cid prints_kg prints_m3 refs x i e doc R E P) as (inf & I & C).
    unfold writes, converts in H. rewrite C in H. destruct (getf i mapping) as [t|]; [|discriminate]. destruct (str_in _ _) eqn:U; [discriminate|].
    apply bind_ok in H. destruct H as ([[u cf] ps] & Q & H).
    apply bind_ok in H. destruct H as (? & _ & H). exists e, inf, t, u, cf, ps.
    repeat split; try assumption. now injection H as <-.
  Qed.
  Lemma props_of doc inf m das : proper doc -> info_steps no_info (read flow_keys doc) = Ok inf -> flow_with doc m das ->
    get_properties num to_num more language inf doc
    = Ok (fold_left (fun d kv => putf (fst kv) (snd kv) d) (map (fun da => (pd_name (fst da), entry_of da)) (others m das)) [], main_of m das None).
  Proof. intros P I (M & ps & O & F). now apply (properties_of num to_num more language doc inf m ps das). Qed.
  Lemma props_distinct m das : NoDup (names (others m das)) ->
    fold_left (fun d kv => putf (fst kv) (snd kv) d) (map (fun da : pdata * num => (pd_name (fst da), entry_of da)) (others m das)) []
    = map (fun da => (pd_name (fst da), entry_of da)) (others m das).
  Proof. intros N. rewrite fold_put_distinct; [reflexivity| |intros k _ []]. rewrite map_map. exact N. Qed.
  Lemma main_one m da das : filter (numbered m) das = [da] -> main_of (num := num) m das None = getf (pd_id (fst da)) un_table.
  Proof.
    unfold main_of. generalize (@None (pystr * pystr)). induction das as [|b das IH]; intros o; [discriminate|]. cbn [filter fold_left].
    destruct (numbered m b) eqn:Q; [|now apply IH]. intros H. injection H as -> H. clear -H.
    generalize (getf (pd_id (fst da)) un_table). induction das as [|b das IH]; [reflexivity|]. cbn [filter fold_left] in *. intros o.
    destruct (numbered m b); [discriminate|]. now apply IH.
  Qed.
  Lemma product_props x i doc w m das : refers_to x i -> product_flow doc -> writes x doc w -> flow_with doc m das -> NoDup (names (others m das)) ->
    w_props w = convert_properties num one zero sub div is_zero use_master (prints_kg (w_unit w)) (prints_m3 (w_unit w)) (kept (others m das)) /\
    main_of m das None = Some (w_uid w, w_unit w).
  Proof.
    intros R P H F N. destruct (product_inv x i doc w R P H) as (e & inf & ns & u & n & ps & E & I & Q & -> & _). cbn [w_props w_uid w_unit].
    unfold InflowModel.product_info in Q. destruct (i_names inf); [|discriminate]. apply bind_ok in Q. destruct Q as (? & _ & Q).
    destruct P as [P _]. rewrite (props_of doc inf m das P I F), (props_distinct m das N) in Q. cbn [bind fst snd] in Q. rewrite kept_all in Q.
    destruct (main_of m das None) as [[u' n']|]; [|discriminate]. destruct (dim (unit_text n')); [|discriminate].
    injection Q as -> -> <-. split; reflexivity.
  Qed.

  (** * C141: descriptions of properties *)
  (** A property of a product flow, other than the reference property, that has no description, several, or one without
      a language stops the conversion. *)
  Theorem C141_described_otherwise_refuted :
    forall x i doc m ps p n j ds, refers_to x i -> product_flow doc -> reference_number doc m -> occurring doc at_property ps -> In p ps ->
      flow_property p n j ds -> differently_described ds -> n <> m -> stops x (Some doc).
  Proof.
    intros x i doc m ps p n j ds R P M O I F Df N. unfold stops, converts.
    destruct (conversion (elem2dict x) (Some doc)) as [o|e] eqn:H; [|now exists e]. exfalso.
    destruct (convert_init _ _ _ _ _ _ _ _ _ _ _ _ _ _ _ _ _ _ _ _ _ _ _ H) as [e E].
    destruct (product_flow_get num to_num one zero sub div is_zero more language D same_dim dim mapping compartments master use_master cid prints_kg prints_m3 refs x i e doc R E P) as (inf & Inf & C).
    rewrite C in H. apply bind_ok in H. destruct H as (r & Q & _). unfold InflowModel.product_info in Q. destruct (i_names inf); [|discriminate].
    apply bind_ok in Q. destruct Q as (? & _ & Q). apply bind_ok in Q. destruct Q as (st & Q & _). unfold get_properties in Q.
    destruct P as [P _]. rewrite (reference_value doc inf P Inf m M) in Q.
    rewrite (read_one doc at_property ps P property_plain O : map snd (read [kfprop] doc) = _) in Q.
    destruct (prop_steps_stop to_num more language (Some (VStr m)) (map elem2dict ps) (elem2dict p)) with (st := (@nil (pystr * option (fprop num)), @None (pystr * pystr))) as [e' Z].
    - now apply in_map.
    - exact (undescribed_stops to_num more language m p n j ds F Df N).
    - congruence.
  Qed.

  (** * C148: products are converted with their names and numbers *)
  Theorem C148_product_written :
    forall x i doc m das da u n ls, refers_to x i -> sound x -> product_flow doc -> flow_with doc m das ->
      filter (numbered m) das = [da] -> getf (pd_id (fst da)) un_table = Some (u, n) -> dim (unit_text n) <> None ->
      named doc ls -> ls <> [] ->
      exists w, writes x doc w /\ w_elem w = false /\ w_flow w = cid i /\ w_names w = map note_of ls /\
                w_uid w = u /\ w_unit w = n /\ w_factor w = one /\ (forall c, one_text doc at_cas c -> w_cas w = Some (VStr c)) /\ w_formula w = None.
  Proof.
    intros x i doc m das da u n ls R S P F One T Dm Nm L. destruct (sound_init x S) as [e E].
    destruct (product_flow_get num to_num one zero sub div is_zero more language D same_dim dim mapping compartments master use_master cid prints_kg prints_m3 refs x i e doc R E P) as (inf & I & C).
    unfold writes, converts. rewrite C. destruct P as [P _]. unfold InflowModel.product_info, first_name. rewrite (names_of doc inf ls P I Nm).
    destruct ls as [|l ls]; [congruence|]. rewrite (add_spoken_all language (l :: ls)). cbn [bind].
    rewrite (props_of doc inf m das P I F). cbn [bind snd fst]. rewrite (main_one m da das One), T.
    destruct (dim (unit_text n)) eqn:Q; [|congruence]. cbn [bind map].
    change (sub_item ktext (spoken_value l)) with (Ok (VStr (snd l))). cbn [bind].
    eexists. split; [reflexivity|]. cbn [w_elem w_flow w_names w_uid w_unit w_factor w_cas w_formula].
    repeat split. intros c Cas. rewrite (cas_value doc inf P I c Cas). unfold truthy. destruct Cas as (k & _ & Tx). destruct Tx as (_ & _ & _ & B). rewrite nonempty_truth; [reflexivity|].
    intros ->. apply B. constructor.
  Qed.
  (** Product flows whose properties are described once each, with a language, are written. *)
  Theorem C141_described_once_partial :
    forall x i doc m das da u n ls, refers_to x i -> sound x -> product_flow doc -> flow_with doc m das ->
      filter (numbered m) das = [da] -> getf (pd_id (fst da)) un_table = Some (u, n) -> dim (unit_text n) <> None ->
      named doc ls -> ls <> [] -> exists w, writes x doc w.
  Proof.
    intros x i doc m das da u n ls R S P F One T Dm Nm L. destruct (C148_product_written x i doc m das da u n ls R S P F One T Dm Nm L) as (w & H & _). now exists w.
  Qed.

  (** * C142: which properties of products are kept *)
  (** With the default option, the known properties of a product flow, except the reference property, are written
      with their amounts and comments, if their descriptions differ. *)
  Theorem C142_properties_kept_partial :
    forall x i doc w m das, use_master = true -> refers_to x i -> product_flow doc -> writes x doc w -> flow_with doc m das ->
      NoDup (names (others m das)) -> w_props w = flat_map as_read (others m das).
  Proof.
    intros x i doc w m das U R P H F N. destruct (product_props x i doc w m das R P H F N) as [-> _]. rewrite U. apply kept_read.
  Qed.
  Lemma kept_once {A} (f : pystr * A -> wprop num) (d : list (pystr * A)) n : NoDup (map fst d) -> (forall kv, In kv d -> wp_name (f kv) = fst kv) ->
    forall p q, In p (map f d) -> In q (map f d) -> wp_name p = n -> wp_name q = n -> p = q.
  Proof.
    intros N F p q I J E E'. apply in_map_iff in I. apply in_map_iff in J. destruct I as (a & <- & I), J as (b & <- & J).
    f_equal. rewrite (F _ I) in E. rewrite (F _ J) in E'. clear F. revert N I J. induction d as [|c d IH]; [contradiction|].
    cbn [map]. intros N I J. inversion N as [|? ? N1 N2]; subst. destruct I as [->|I], J as [->|J]; [reflexivity| | |now apply IH].
    - destruct N1. apply in_map_iff. now exists b.
    - destruct N1. apply in_map_iff. exists a. split; [congruence|exact I].
  Qed.
  Lemma entries_named l : forall d : list (pystr * option (fprop num)), (forall k p, In (k, Some p) d -> p_name p = k) ->
    forall k p, In (k, Some p) (fold_left (fun d kv => putf (fst kv) (snd kv) d) (map (fun da => (pd_name (fst da), entry_of da)) l) d) -> p_name p = k.
  Proof.
    induction l as [|da l IH]; intros d Hd; [exact Hd|]. cbn [map fold_left fst snd]. apply IH. intros k p I.
    assert (X : In (k, Some p) d \/ (k, Some p) = (pd_name (fst da), entry_of da)).
    { clear -I. revert I. generalize (entry_of da) as v. generalize (pd_name (fst da)) as n. intros n v I.
      induction d as [|[k' v'] d IH]; cbn [putf] in I; [destruct I as [I|[]]; right; now symmetry|].
      destruct (str_eqb k' n) eqn:Q.
      - apply str_eqb_eq in Q. subst n. destruct I as [I|I]; [right; now symmetry|left; now right].
      - destruct I as [I|I]; [left; now left|]. destruct (IH I) as [J|J]; [left; now right|now right]. }
    destruct X as [X|X]; [now apply Hd|]. injection X as -> X. unfold entry_of in X. destruct (getf _ fp_table); [|discriminate]. injection X as X. subst p. reflexivity.
  Qed.
  (** At most one property is written for each description. *)
  Theorem C142_same_description_refuted :
    forall x i doc w m das p q, use_master = true -> refers_to x i -> product_flow doc -> writes x doc w -> flow_with doc m das ->
      In p (w_props w) -> In q (w_props w) -> wp_name p = wp_name q -> p = q.
  Proof.
    intros x i doc w m das p q U R P H F Ip Iq E. destruct (product_inv x i doc w R P H) as (e & inf & ns & u & n & ps & _ & I & Q & -> & _). cbn [w_props] in *.
    unfold InflowModel.product_info in Q. destruct (i_names inf); [|discriminate]. apply bind_ok in Q. destruct Q as (? & _ & Q).
    destruct P as [P _]. rewrite (props_of doc inf m das P I F) in Q. cbn [bind fst snd] in Q.
    destruct (main_of m das None) as [[u' n']|]; [|discriminate]. destruct (dim (unit_text n')); [|discriminate]. injection Q as -> -> Q. subst ps. rewrite U in *.
    unfold convert_properties in Ip, Iq.
    match type of Ip with In _ (map _ (convertible_only ?f)) => set (dd := f) in * end. assert (Nd : NoDup (map fst dd)) by (apply fold_put_nodup; constructor).
    assert (Hn : forall k p, In (k, Some p) dd -> p_name p = k) by (apply entries_named; intros ? ? []).
    apply (kept_once (fun np => direct (snd np)) (convertible_only dd) (wp_name q)); auto.
    - clear -Nd. revert Nd. apply (incl_nodup (fun np => match snd np with Some p => [(fst np, p)] | None => [] end) fst).
      + intros [k [p|]] kv J; [destruct J as [<-|[]]; reflexivity|contradiction].
      + intros [k [p|]]; cbn; lia.
    - intros [k p'] J. apply in_flat_map in J. destruct J as ([k' [p''|]] & J & J'); [|contradiction]. destruct J' as [J'|[]]. injection J' as <- <-.
      cbn [fst snd direct wp_name]. now apply Hn.
  Qed.

  (** * C143: identifiers of properties *)
  Definition known_entries (d : list (pystr * option (fprop num))) : Prop := forall k p, In (k, Some p) d -> getf (p_id p) fp_table = Some (p_row p).
  Lemma putf_in {A} k (v : A) d kv : In kv (putf k v d) -> In kv d \/ kv = (k, v).
  Proof.
    induction d as [|[k' v'] d IH]; cbn [putf]; [intros [I|[]]; right; now symmetry|].
    destruct (str_eqb k' k) eqn:Q; [apply str_eqb_eq in Q; subst k'|]; intros [I|I]; [right; now symmetry|left; now right|left; now left|].
    destruct (IH I) as [J|J]; [left; now right|now right].
  Qed.
  Lemma steps_known ref l : forall st st', known_entries (fst st) -> prop_steps num to_num more language ref st l = Ok st' -> known_entries (fst st').
  Proof.
    induction l as [|t l IH]; intros st st' K H; cbn [prop_steps] in H; [now injection H as <-|]. apply bind_ok in H. destruct H as (s & S & H).
    apply (IH s st'); [|exact H]. unfold prop_step in S. apply bind_ok in S. destruct S as (i & _ & S). destruct ref as [r|]; [|discriminate].
    destruct (same i r).
    - apply bind_ok in S. destruct S as (o & _ & S). injection S as <-. exact K.
    - apply bind_ok in S. destruct S as (n & _ & S). apply bind_ok in S. destruct S as (p & Np & S). injection S as <-. cbn [fst].
      intros k q I. apply putf_in in I. destruct I as [I|I]; [now apply K in I|]. injection I as -> <-. unfold normal_init in Np.
      apply bind_ok in Np. destruct Np as (? & _ & Np). apply bind_ok in Np. destruct Np as (o & _ & Np). destruct (getf o fp_table) as [row|] eqn:G; [|discriminate].
      repeat (apply bind_ok in Np; destruct Np as (? & _ & Np)). injection Np as <-. exact G.
  Qed.
  (** With the default option, a property of a product flow is written with the identifier of the property of ILCD,
      which is not one of those that EcoSpold2 has for it. *)
  Theorem C143_identifiers_refuted :
    forall x i doc w p, use_master = true -> refers_to x i -> product_flow doc -> writes x doc w -> In p (w_props w) ->
      In (wp_id p) (map fst fp_table) /\ ~ In (wp_id p) (map (fun kr => f_pid (snd kr)) fp_table).
  Proof.
    intros x i doc w p U R P H I. destruct (product_inv x i doc w R P H) as (e & inf & ns & u & n & ps & _ & Inf & Q & -> & _). cbn [w_props] in I.
    assert (X : In (wp_id p) (map fst fp_table)); [|split; [exact X|now apply not_converted]].
    unfold InflowModel.product_info in Q. destruct (i_names inf); [|discriminate]. apply bind_ok in Q. destruct Q as (? & _ & Q).
    apply bind_ok in Q. destruct Q as (st & G & Q). destruct (snd st) as [[u' n']|]; [|discriminate]. destruct (dim _); [|discriminate].
    injection Q as -> -> <-. rewrite U in I. unfold convert_properties in I. apply in_map_iff in I. destruct I as ([k q] & <- & I).
    apply in_flat_map in I. destruct I as ([k' [q'|]] & I & J); [|contradiction]. destruct J as [J|[]]. injection J as <- <-.
    cbn [snd direct wp_id]. assert (K : known_entries (fst st)) by (refine (steps_known _ _ _ _ _ G); intros ? ? []).
    apply K in I. apply HandleProofs.In_getf in I. apply (in_map fst) in I. exact I.
  Qed.
  (** Without the master data option, properties get the identifiers and names of EcoSpold2. *)
  Theorem C143_identifiers_partial :
    forall x i doc w m das, use_master = false -> refers_to x i -> product_flow doc -> writes x doc w -> flow_with doc m das ->
      NoDup (names (others m das)) -> Forall (fun n => ~ called_content n /\ n <> lit "dry mass") (names (others m das)) ->
      w_props w = flat_map (as_converted (fun a => a)) (others m das).
  Proof.
    intros x i doc w m das U R P H F N C. destruct (product_props x i doc w m das R P H F N) as [-> _]. rewrite U. rewrite Forall_forall in C.
    rewrite converted_plain.
    - apply plain_named. apply Forall_forall. intros n I. now apply C.
    - apply getf_absent. intros I. apply kept_names in I. apply C in I. destruct I as [I _]. apply I. now exists (lit "water"), [].
    - intros I. apply C in I. now destruct I.
  Qed.
  (** An elementary flow gets the properties of the master data. *)
  Definition master_entry (iv : pystr * md_row) (w : wprop num) : Prop :=
    exists k u a, In (k, (u, d_unit (snd iv))) un_table /\ to_num (VStr (replace (lit ",") (lit ".") (d_amount (snd iv)))) = Ok a /\
      w = WProp (fst iv) (d_name (snd iv)) u (d_unit (snd iv)) a (match d_comment (snd iv) with [] => [] | c => [(VStr (lit "en"), c)] end).
  Lemma master_prop_entry iv w : master_prop num to_num D dim iv = Ok w -> master_entry iv w.
  Proof.
    unfold master_prop. intros H. apply bind_ok in H. destruct H as (a & A & H). destruct (dim _); [|discriminate].
    destruct (find _ un_table) as [[k [u n]]|] eqn:Q; [|discriminate]. injection H as <-. apply find_some in Q. destruct Q as [I Q]. cbn [fst snd] in *.
    apply str_eqb_eq in Q. subst n. now exists k, u, a.
  Qed.
  Theorem C143_master_data_kept_partial :
    forall x i doc w t l, use_master = true -> refers_to x i -> elementary_flow doc -> writes x doc w -> getf i mapping = Some t ->
      getf (t_id t) master = Some l -> NoDup (map (fun iv => d_name (snd iv)) l) -> Forall2 master_entry l (w_props w).
  Proof.
    intros x i doc w t l U R P H T M N. destruct (elementary_inv x i doc w R P H) as (e & inf & t' & u & cf & ps & _ & _ & T' & _ & Q & ->). cbn [w_props].
    rewrite T in T'. injection T' as <-. unfold InflowModel.elementary_info in Q. destruct (str_in _ _); [|discriminate]. apply bind_ok in Q.
    destruct Q as (? & _ & Q). destruct (dim _); [|discriminate]. apply bind_ok in Q. destruct Q as (? & _ & Q). apply bind_ok in Q.
    destruct Q as (ps' & A & Q). injection Q as _ _ ->. rewrite U, M in A. unfold master_props in A. apply bind_ok in A. destruct A as (ws & A & B).
    injection B as <-. apply PyBaseFacts.mapM_forall2 in A.
    assert (Nw : map wp_name ws = map (fun iv => d_name (snd iv)) l).
    { clear -A. induction A as [|iv w l ws H F IH]; [reflexivity|]. cbn [map]. rewrite IH. f_equal. apply master_prop_entry in H.
      destruct H as (k & u & a & _ & _ & ->). reflexivity. }
    assert (X : map snd (fold_left (fun d w => putf (wp_name w) w d) ws []) = ws).
    { assert (Y : forall ws d, fold_left (fun d (w : wprop num) => putf (wp_name w) w d) ws d = fold_left (fun d kv => putf (fst kv) (snd kv) d) (map (fun w => (wp_name w, w)) ws) d).
      { clear. induction ws as [|w ws IH]; intros d; [reflexivity|]. cbn [map fold_left fst snd]. apply IH. }
      rewrite Y, fold_put_distinct; [|rewrite map_map; change (NoDup (map wp_name ws)); rewrite Nw; exact N|intros k _ []].
      cbn [app]. rewrite map_map. cbn [snd]. apply map_id. }
    rewrite X. clear -A. induction A; constructor; [now apply master_prop_entry|assumption].
  Qed.
  Lemma elementary_stops x i doc t : refers_to x i -> elementary_flow doc -> getf i mapping = Some t -> ~ no_target (strip (t_map t)) ->
    (forall inf, info_steps no_info (read flow_keys doc) = Ok inf -> forall r, elementary_info t inf doc = Ok r -> forall n, first_name inf = Ok n -> False) -> stops x (Some doc).
  Proof.
    intros R P T M S. unfold stops, converts. destruct (conversion (elem2dict x) (Some doc)) as [o|e] eqn:H; [|now exists e]. exfalso.
    destruct (convert_init _ _ _ _ _ _ _ _ _ _ _ _ _ _ _ _ _ _ _ _ _ _ _ H) as [e E].
    destruct (elementary_flow_get num to_num one zero sub div is_zero more language D same_dim dim mapping compartments master use_master cid prints_kg prints_m3 refs x i e doc R E P) as (inf & Inf & C).
    rewrite C, T in H. destruct (str_in (strip (t_map t)) (map lit unmapped)) eqn:Q; [apply str_in_In in Q; contradiction|].
    apply bind_ok in H. destruct H as (r & Hr & H). apply bind_ok in H. destruct H as (n & Hn & _). exact (S inf Inf r Hr n Hn).
  Qed.
  (** A property of the master data in a unit that the table of units does not have stops the conversion. *)
  Theorem C143_master_unit_refuted :
    forall x i doc t l iv, use_master = true -> refers_to x i -> elementary_flow doc -> getf i mapping = Some t ->
      ~ no_target (strip (t_map t)) -> getf (t_id t) master = Some l -> In iv l ->
      ~ In (d_unit (snd iv)) (map (fun r => snd (snd r)) un_table) -> stops x (Some doc).
  Proof.
    intros x i doc t l iv U R P T M G I N. apply (elementary_stops x i doc t R P T M). intros inf Inf r Q n _.
    unfold InflowModel.elementary_info in Q. destruct (str_in _ _); [|discriminate]. apply bind_ok in Q.
    destruct Q as (? & _ & Q). destruct (dim _); [|discriminate]. apply bind_ok in Q. destruct Q as (? & _ & Q). apply bind_ok in Q.
    destruct Q as (ps' & A & Q). rewrite U, G in A. unfold master_props in A. apply bind_ok in A. destruct A as (ws & A & _).
    destruct (mapM_err_in (master_prop num to_num D dim) l iv I) as [e X]; [|congruence].
    destruct (master_prop num to_num D dim iv) as [w|e] eqn:Z; [|now exists e]. apply master_prop_entry in Z. destruct Z as (k & u & a & J & _).
    destruct N. apply (in_map (fun r => snd (snd r))) in J. exact J.
  Qed.

  (** * C144: water contents *)
  (** Without the master data option, the contents of a flow with a property described as 'water content' are divided by
      its dry mass, and the masses are added. *)
  Theorem C144_dry_mass_partial :
    forall x i doc w m das da row, use_master = false -> refers_to x i -> product_flow doc -> writes x doc w -> flow_with doc m das ->
      NoDup (names (others m das) ++ map lit ["wet mass"; "dry mass"; "water in wet mass"]) ->
      In da (others m das) -> pd_name (fst da) = lit "water content" -> getf (pd_id (fst da)) fp_table = Some row -> prints_m3 (w_unit w) = false ->
      let dry := sub one (snd da) in
      w_props w = flat_map (by_name (prints_kg (w_unit w)) false (fun a => if is_zero dry then zero else div a dry)) (others m das)
                  ++ masses one dry (snd da).
  Proof.
    intros x i doc w m das da row U R P H F N I E K V dry.
    assert (N1 : NoDup (names (others m das))) by (revert N; generalize (map lit ["wet mass"; "dry mass"; "water in wet mass"]); induction (names (others m das)) as [|n ns IH]; intros b X; [constructor|]; cbn in X; inversion X as [|? ? X1 X2]; subst; constructor; [intros Y; apply X1, in_or_app; now left|eapply IH; exact X2]).
    destruct (product_props x i doc w m das R P H F N1) as [-> _]. rewrite U, V. exact (converted_water one zero sub div is_zero _ _ da row N I E K).
  Qed.
  (** A water content with any other description changes nothing: contents stay contents of the wet mass, though they are
      written as contents of the dry mass, and no masses are added. *)
  Theorem C144_other_description_refuted :
    forall x i doc w m das, use_master = false -> refers_to x i -> product_flow doc -> writes x doc w -> flow_with doc m das ->
      NoDup (names (others m das)) -> ~ In (lit "water content") (names (others m das)) -> ~ In (lit "dry mass") (names (others m das)) ->
      w_props w = flat_map (by_name (prints_kg (w_unit w)) (prints_m3 (w_unit w)) (fun a => div a one)) (others m das).
  Proof.
    intros x i doc w m das U R P H F N W Dr. destruct (product_props x i doc w m das R P H F N) as [-> _]. rewrite U.
    apply converted_plain; [|exact Dr]. apply getf_absent. intros I. now apply kept_names in I.
  Qed.
  (** For a flow in cubic metres they are not divided either. *)
  Theorem C144_volume :
    forall x i doc w m das, use_master = false -> refers_to x i -> product_flow doc -> writes x doc w -> flow_with doc m das ->
      NoDup (names (others m das)) -> ~ In (lit "dry mass") (names (others m das)) -> prints_m3 (w_unit w) = true ->
      w_props w = flat_map (by_name (prints_kg (w_unit w)) true (fun a => div a one)) (others m das).
  Proof.
    intros x i doc w m das U R P H F N Dr V. destruct (product_props x i doc w m das R P H F N) as [-> _]. rewrite U, V. now apply converted_volume.
  Qed.

  (** * C145: units *)
  Theorem C145_product_unit :
    forall x i doc w m das da, refers_to x i -> product_flow doc -> writes x doc w -> flow_with doc m das ->
      filter (numbered m) das = [da] -> getf (pd_id (fst da)) un_table = Some (w_uid w, w_unit w).
  Proof.
    intros x i doc w m das da R P H F One. destruct (product_inv x i doc w R P H) as (e & inf & ns & u & n & ps & _ & Inf & Q & -> & _). cbn [w_uid w_unit].
    unfold InflowModel.product_info in Q. destruct (i_names inf); [|discriminate]. apply bind_ok in Q. destruct Q as (? & _ & Q).
    destruct P as [P _]. rewrite (props_of doc inf m das P Inf F) in Q. cbn [bind snd] in Q. rewrite (main_one m da das One) in Q.
    destruct (getf (pd_id (fst da)) un_table) as [[u' n']|]; [|discriminate]. destruct (dim _); [|discriminate]. now injection Q as -> ->.
  Qed.
  Lemma unit_id_row u l i : unit_id u l = Ok i -> exists k n a b, In (k, (i, n)) l /\ dim (unit_text n) = Some a /\ dim u = Some b /\ same_dim a b = true.
  Proof.
    induction l as [|[k [j n]] l IH]; [discriminate|]. cbn [InflowModel.unit_id]. destruct (dim (unit_text n)) as [a|] eqn:A; [|discriminate].
    destruct (dim u) as [b|] eqn:B; [|discriminate]. destruct (same_dim a b) eqn:S.
    - intros H. injection H as ->. exists k, n, a, b. split; [now left|now repeat split].
    - intros H. destruct (IH H) as (k' & n' & a' & b' & I & X). exists k', n', a', b'. split; [now right|exact X].
  Qed.
  (** The unit of an elementary flow is the one of the mapping, with the identifier of a unit of the same dimension. *)
  Theorem C145_elementary_unit_row :
    forall x i doc w t, refers_to x i -> elementary_flow doc -> writes x doc w -> getf i mapping = Some t ->
      w_unit w = t_unit t /\
      exists k n a b, In (k, (w_uid w, n)) un_table /\ dim (unit_text n) = Some a /\ dim (t_unit t) = Some b /\ same_dim a b = true.
  Proof.
    intros x i doc w t R P H T. destruct (elementary_inv x i doc w R P H) as (e & inf & t' & u & cf & ps & _ & _ & T' & _ & Q & ->). cbn [w_unit w_uid].
    rewrite T in T'. injection T' as <-. split; [reflexivity|]. unfold InflowModel.elementary_info in Q. destruct (str_in _ _); [|discriminate]. apply bind_ok in Q.
    destruct Q as (? & _ & Q). destruct (dim (t_unit t)) eqn:Dt; [|discriminate]. apply bind_ok in Q. destruct Q as (u' & Q' & Q). apply bind_ok in Q.
    destruct Q as (ps' & _ & Q). injection Q as -> _ _. rewrite <- Dt. exact (unit_id_row _ _ _ Q').
  Qed.
  Theorem C145_elementary_unit_partial :
    forall x i doc w t, refers_to x i -> elementary_flow doc -> writes x doc w -> getf i mapping = Some t ->
      (forall k u n a b, In (k, (u, n)) un_table -> dim (unit_text n) = Some a -> dim (t_unit t) = Some b -> same_dim a b = true -> n = t_unit t) ->
      exists k, In (k, (w_uid w, w_unit w)) un_table.
  Proof.
    intros x i doc w t R P H T A. destruct (C145_elementary_unit_row x i doc w t R P H T) as (-> & k & n & a & b & I & X & Y & Z).
    exists k. now rewrite <- (A _ _ _ _ _ I X Y Z).
  Qed.
  (** A unit that the table does not have is written with the identifier of another unit. *)
  Theorem C145_elementary_unit_refuted :
    forall x i doc w t, refers_to x i -> elementary_flow doc -> writes x doc w -> getf i mapping = Some t ->
      ~ In (t_unit t) (map (fun r => snd (snd r)) un_table) -> w_unit w = t_unit t /\ exists k n, In (k, (w_uid w, n)) un_table /\ n <> w_unit w.
  Proof.
    intros x i doc w t R P H T N. destruct (C145_elementary_unit_row x i doc w t R P H T) as (E & k & n & a & b & I & _). split; [exact E|].
    exists k, n. split; [exact I|]. rewrite E. intros ->. apply N. apply (in_map (fun r => snd (snd r))) in I. exact I.
  Qed.

  (** * C146: which exchanges are left out, and which stop the conversion *)
  Theorem C146_no_file : forall x o, converts x None (Ok o) -> o = LeftOut.
  Proof.
    intros x o H. unfold converts, convert_exchange in H. apply bind_ok in H. destruct H as (e & _ & H). now injection H as <-.
  Qed.
  Theorem C146_product_left_out :
    forall x i doc m das da ls, refers_to x i -> sound x -> product_flow doc -> flow_with doc m das -> filter (numbered m) das = [da] ->
      named doc ls -> ls <> [] -> (converts x (Some doc) (Ok LeftOut) <-> getf (pd_id (fst da)) un_table = None).
  Proof.
    intros x i doc m das da ls R S P F One Nm L. destruct (sound_init x S) as [e E].
    destruct (product_flow_get num to_num one zero sub div is_zero more language D same_dim dim mapping compartments master use_master cid prints_kg prints_m3 refs x i e doc R E P) as (inf & I & C).
    unfold converts. rewrite C. destruct P as [P _]. unfold InflowModel.product_info. rewrite (names_of doc inf ls P I Nm).
    destruct ls as [|l ls]; [congruence|]. rewrite (add_spoken_all language (l :: ls)). cbn [bind].
    rewrite (props_of doc inf m das P I F). cbn [bind snd fst]. rewrite (main_one m da das One).
    destruct (getf (pd_id (fst da)) un_table) as [[u n]|]; [|now split]. split; [|discriminate]. intros H. exfalso.
    destruct (dim (unit_text n)); [|discriminate]. cbn [bind] in H. apply bind_ok in H. destruct H as (? & _ & H). discriminate H.
  Qed.
  Theorem C146_elementary_left_out :
    forall x i doc, refers_to x i -> sound x -> elementary_flow doc ->
      (converts x (Some doc) (Ok LeftOut) <-> forall t, getf i mapping = Some t -> no_target (strip (t_map t))).
  Proof.
    intros x i doc R S P. destruct (sound_init x S) as [e E].
    destruct (elementary_flow_get num to_num one zero sub div is_zero more language D same_dim dim mapping compartments master use_master cid prints_kg prints_m3 refs x i e doc R E P) as (inf & I & C).
    unfold converts. rewrite C. destruct (getf i mapping) as [t|]; [|now split]. destruct (str_in (strip (t_map t)) (map lit unmapped)) eqn:Q.
    - split; [|reflexivity]. intros _ t' X. injection X as <-. now apply str_in_In.
    - split; intros H.
      + exfalso. apply bind_ok in H. destruct H as (r & _ & H). apply bind_ok in H. destruct H as (n & _ & H). discriminate H.
      + specialize (H t eq_refl). change (In (strip (t_map t)) (map lit unmapped)) in H. apply str_in_In in H. congruence.
  Qed.
  (** A flow data set without a type, a product flow without a name, and a mapping to a compartment that EcoSpold2 does not
      have stop the conversion. *)
  Theorem C146_no_type_refuted :
    forall x i doc, refers_to x i -> proper doc -> occurring doc at_type [] -> stops x (Some doc).
  Proof.
    intros x i doc R P O. unfold stops, converts. destruct (conversion (elem2dict x) (Some doc)) as [o|e] eqn:H; [|now exists e]. exfalso.
    destruct (convert_init _ _ _ _ _ _ _ _ _ _ _ _ _ _ _ _ _ _ _ _ _ _ _ H) as [e E].
    rewrite (convert_some num to_num one zero sub div is_zero more language D same_dim dim mapping compartments master use_master cid prints_kg prints_m3 refs x i e doc R E (refers_named x i R)) in H.
    unfold get_flow in H. apply bind_ok in H. destruct H as (inf & I & H). now rewrite (no_type doc inf P I O) in H.
  Qed.
  Theorem C146_no_name_refuted :
    forall x i doc, refers_to x i -> product_flow doc -> occurring doc at_name [] -> stops x (Some doc).
  Proof.
    intros x i doc R P O. unfold stops, converts. destruct (conversion (elem2dict x) (Some doc)) as [o|e] eqn:H; [|now exists e]. exfalso.
    destruct (convert_init _ _ _ _ _ _ _ _ _ _ _ _ _ _ _ _ _ _ _ _ _ _ _ H) as [e E].
    destruct (product_flow_get num to_num one zero sub div is_zero more language D same_dim dim mapping compartments master use_master cid prints_kg prints_m3 refs x i e doc R E P) as (inf & I & C).
    destruct P as [P _]. rewrite C in H. apply bind_ok in H. destruct H as (r & Q & _). unfold InflowModel.product_info in Q.
    now rewrite (names_read doc inf P I [] O) in Q.
  Qed.
  Theorem C146_elementary_stops_refuted :
    forall x i doc t, refers_to x i -> elementary_flow doc -> getf i mapping = Some t -> ~ no_target (strip (t_map t)) ->
      occurring doc at_name [] \/ ~ In (t_context t) compartments -> stops x (Some doc).
  Proof.
    intros x i doc t R P T M O. apply (elementary_stops x i doc t R P T M). intros inf I r Q n Fn. destruct O as [O|O].
    - destruct P as [P _]. unfold first_name in Fn. now rewrite (names_read doc inf P I [] O) in Fn.
    - unfold InflowModel.elementary_info in Q. destruct (str_in (t_context t) compartments) eqn:X; [|discriminate]. apply str_in_In in X. contradiction.
  Qed.

  (** * C148, elementary flows *)
  Theorem C148_elementary_written :
    forall x i doc w t, refers_to x i -> elementary_flow doc -> writes x doc w -> getf i mapping = Some t ->
      w_elem w = true /\ w_flow w = t_id t /\ w_names w = [(VStr (lit "en"), t_name t)] /\
      (forall c, one_text doc at_cas c -> w_cas w = Some (VStr c)) /\ (forall f, one_text doc at_formula f -> w_formula w = Some (VStr f)) /\
      (if str_in (t_factor t) [[]; lit "n/a"] then w_factor w = one else to_num (VStr (t_factor t)) = Ok (w_factor w)).
  Proof.
    intros x i doc w t R P H T. destruct (elementary_inv x i doc w R P H) as (e & inf & t' & u & cf & ps & _ & I & T' & _ & Q & ->).
    rewrite T in T'. injection T' as <-. cbn [w_elem w_flow w_names w_cas w_formula w_factor]. destruct P as [P _].
    assert (V : forall s k, plain_text k s -> truthy (Some (VStr s)) = Some (VStr s)).
    { intros s k Tx. unfold truthy. destruct Tx as (_ & _ & _ & B). rewrite nonempty_truth; [reflexivity|]. intros ->. apply B. constructor. }
    repeat split.
    - intros c Cas. rewrite (cas_value doc inf P I c Cas). destruct Cas as (k & _ & Tx). now apply (V c k).
    - intros c Cas. rewrite (formula_value doc inf P I c Cas). destruct Cas as (k & _ & Tx). now apply (V c k).
    - unfold InflowModel.elementary_info in Q. destruct (str_in (t_context t) compartments); [|discriminate]. apply bind_ok in Q.
      destruct Q as (cf' & Q' & Q). destruct (dim (t_unit t)); [|discriminate]. apply bind_ok in Q. destruct Q as (u' & _ & Q). apply bind_ok in Q.
      destruct Q as (ps' & _ & Q). injection Q as _ <- _. unfold factor in Q'. destruct (str_in (t_factor t) [[]; lit "n/a"]); [now injection Q'|exact Q'].
  Qed.

  (** * C147: exchanges that are merged *)
  Lemma last_app {A} (f : setting num -> option A) l l' : last_of num f (l ++ l') = match last_of num f l' with Some a => Some a | None => last_of num f l end.
  Proof.
    unfold last_of. rewrite fold_left_app. generalize (fold_left (fun o s => match f s with Some a => Some a | None => o end) l None).
    induction l' as [|s l' IH] using rev_ind; intros o; [reflexivity|]. rewrite !fold_left_app. cbn [fold_left]. destruct (f s); [reflexivity|]. apply IH.
  Qed.
  Lemma last_none {A} (f : setting num -> option A) l : (forall s, In s l -> f s = None) -> last_of num f l = None.
  Proof.
    unfold last_of. induction l as [|s l IH]; [reflexivity|]. intros H. cbn [fold_left]. rewrite (H s (or_introl eq_refl)). apply IH. intros s' I. apply H. now right.
  Qed.
  Lemma flat_none {A B} (f : A -> list B) l : (forall s, In s l -> f s = []) -> flat_map f l = [].
  Proof. induction l as [|s l IH]; [reflexivity|]. intros H. cbn [flat_map]. rewrite (H s (or_introl eq_refl)). apply IH. intros s' I. apply H. now right. Qed.
  Lemma comments_shown (cs : list note) : flat_map (fun s : setting num => match s with SComment n => [n] | _ => [] end) (map SComment cs) = cs.
  Proof. induction cs as [|c cs IH]; [reflexivity|]. cbn [map flat_map app]. now rewrite IH. Qed.
  Lemma flow_comments cs a v ps : shown_comments (finish_flow (num := num) cs a v ps) = cs.
  Proof.
    unfold shown_comments, finish_flow. rewrite !flat_map_app, comments_shown. cbn [flat_map app]. rewrite (flat_none _ (map SProperty ps)).
    - destruct v as [[n [f|]]|]; cbn; now rewrite app_nil_r.
    - intros s I. apply in_map_iff in I. now destruct I as (p & <- & _).
  Qed.
  (** The comments of the first exchange appear twice. *)
  Theorem C147_comments_twice_refuted :
    forall cs a v ps others, shown_comments (finish_merged add cs a v ps others) = cs ++ cs.
  Proof. intros. unfold finish_merged, shown_comments. rewrite flat_map_app. fold (@shown_comments num). f_equal; apply flow_comments. Qed.
  Theorem C147_amount :
    forall cs a v ps others, shown_amount (finish_merged add cs a v ps others) = Some (fold_left add others a).
  Proof.
    intros. unfold finish_merged, shown_amount. rewrite last_app. unfold finish_flow at 1. cbn [app map]. rewrite last_app. reflexivity.
  Qed.
  (** The variable and the formula are those of the first exchange, though the amount is the sum of all. *)
  Theorem C147_formula_refuted :
    forall cs a n f ps others, shown_variable (finish_merged add cs a (Some (Variable_ n (Some f))) ps others) = Some n /\
      shown_formula (finish_merged add cs a (Some (Variable_ n (Some f))) ps others) = Some f.
  Proof.
    intros. unfold finish_merged, shown_variable, shown_formula, finish_flow. cbn [v_name v_formula map app].
    split; (rewrite last_app, last_none; [|intros s I; rewrite ?app_nil_r in I; apply in_app_or in I; destruct I as [I|[<-|[]]]; [apply in_map_iff in I; now destruct I as (p & <- & _)|reflexivity]]);
      (rewrite last_app; match goal with |- match last_of _ ?g ?l with _ => _ end = _ => change l with ([SAmount a; SVariable n; SFormula f; SCalculated] ++ map SProperty ps) end;
       rewrite last_app, last_none; [reflexivity|]; intros s I; apply in_map_iff in I; now destruct I as (p & <- & _)).
  Qed.
  Theorem C147_merged_partial :
    forall a ps others, let l := finish_merged add [] a None ps others in
      shown_comments l = [] /\ shown_amount l = Some (fold_left add others a) /\ shown_variable l = None /\ shown_formula l = None /\ shown_properties l = ps.
  Proof.
    intros a ps others l. split; [apply (C147_comments_twice_refuted [] a None ps others)|]. split; [apply C147_amount|].
    unfold l, finish_merged, finish_flow. cbn [map app].
    assert (X : forall s, In s (SAmount a :: map SProperty ps ++ [SAmount (fold_left add others a)]) -> (exists b, s = SAmount b) \/ exists p, s = SProperty p).
    { intros s [<-|I]; [left; now exists a|]. apply in_app_or in I. destruct I as [I|[<-|[]]]; [|left; eexists; reflexivity].
      apply in_map_iff in I. destruct I as (p & <- & _). right. now exists p. }
    split; [|split].
    - apply last_none. intros s I. now destruct (X s I) as [[b ->]|[p ->]].
    - apply last_none. intros s I. now destruct (X s I) as [[b ->]|[p ->]].
    - unfold shown_properties. cbn [flat_map app]. rewrite flat_map_app. cbn [flat_map app]. rewrite app_nil_r. clear. induction ps as [|p ps IH]; [reflexivity|].
      cbn [map flat_map app]. now rewrite IH.
  Qed.
End Conversion.
(** * C145: one unit, two identifiers *)
Theorem C145_dimensionless_refuted :
  forall k u k' row, In (k, (u, lit "dimensionless")) un_table -> In (k', row) fp_table -> f_unit row = lit "dimensionless" -> f_uid row <> u.
Proof.
  assert (T : forallb (fun r => forallb (fun kr => implb (str_eqb (snd (snd r)) (lit "dimensionless") && str_eqb (f_unit (snd kr)) (lit "dimensionless"))
                                                      (negb (str_eqb (f_uid (snd kr)) (fst (snd r))))) fp_table) un_table = true) by (vm_compute; reflexivity).
  intros k u k' row I J E Q. rewrite forallb_forall in T. specialize (T _ I). rewrite forallb_forall in T. specialize (T _ J). cbn [fst snd] in T.
  rewrite E, Q, !str_eqb_refl in T. discriminate T.
Qed.

(** * Examples *)
Fixpoint places (p : pystr) (e : elem) : list (pystr * elem) :=
  match e with Elem t _ _ _ ks => flat_map (places (p ++ lit "/" ++ t)) ks ++ [(p ++ lit "/" ++ t, e)] end.
Lemma places_close e : properb e = true -> forall p, closes p e (places p e).
Proof.
  induction e as [t a x l ks IH] using elem_ind2. cbn [properb]. rewrite andb_true_iff, forallb_forall. intros [N F] p. cbn [places].
  constructor; [now apply name_ok_spec|]. generalize (p ++ lit "/" ++ t). clear N p. intros p. induction ks as [|k ks IHk]; [constructor|]. cbn [flat_map].
  inversion IH as [|? ? H1 H2]; subst. constructor; [apply H1, F; now left|]. apply IHk; [exact H2|]. intros y I. apply F. now right.
Qed.
Lemma found doc p l : properb doc = true -> map snd (filter (fun c => str_eqb (fst c) p) (places [] doc)) = l -> occurring doc p l.
Proof. intros P <-. exists (places [] doc). split; [now apply places_close|reflexivity]. Qed.
Lemma child_found e n k : forallb (fun e => name_ok (etag e)) (ekids e) = true -> filter (fun e => str_eqb (etag e) (lit n)) (ekids e) = [k] -> child e n k.
Proof. intros N E. unfold child. rewrite <- E. apply named_filter. apply Forall_forall. now rewrite forallb_forall in N. Qed.
Lemma kids_found e n ks : forallb (fun e => name_ok (etag e)) (ekids e) = true -> filter (fun e => str_eqb (etag e) (lit n)) (ekids e) = ks -> named_kids (lit n) (ekids e) ks.
Proof. intros N E. rewrite <- E. apply named_filter. apply Forall_forall. now rewrite forallb_forall in N. Qed.
Ltac vm := vm_compute; reflexivity.
Ltac in_text := intros B; inversion B as [|? ? B1 B2]; discriminate B1.

Definition nums (v : pyval) : result pystr := match v with VStr s => Ok s | _ => Err TypeError end.
Definition op (o : string) (a b : pystr) : pystr := a ++ lit o ++ b.
Definition dims (u : pystr) : option pystr := Some (if str_in u [lit "Bq"; lit "kBq"] then lit "activity" else u).
Definition maps : list (pystr * target) :=
  [(lit "e1", Target [] (lit "t1") (lit "Thorium-230") (lit "air") (lit "0.001") (lit "Bq"));
   (lit "e2", Target [] (lit "t2") (lit "Carbon dioxide") (lit "air") (lit "n/a") (lit "kg"));
   (lit "e3", Target (lit "NO_MAPPING ") [] [] [] [] []);
   (lit "e4", Target [] (lit "t4") [] (lit "moon") (lit "n/a") (lit "kg"));
   (lit "e5", Target [] (lit "t5") [] (lit "air") (lit "n/a") (lit "kg"))].
Definition masters : list (pystr * list (pystr * md_row)) :=
  [(lit "t2", [(lit "p1", MdRow (lit "dry mass") (lit "kg") (lit "1,5") [] (lit "measured"))]);
   (lit "t5", [(lit "p2", MdRow (lit "working time") (lit "hour") (lit "1") [] [])])].
Definition names_of_refs : list (pystr * pystr) := [(lit "1", lit "steel"); (lit "2", lit "slag"); (lit "3", lit "slag")].
Definition conv (use : bool) (x : elem) (file : option elem) :=
  convert_exchange pystr nums (lit "1") (lit "0") (op "-") (op "/") (fun a => str_eqb a (lit "1-1")) (fun _ => Ok tt) (VStr (lit "en"))
    pystr str_eqb dims maps [lit "air"] masters use (fun s => lit "c-" ++ s) (fun u => str_eqb u (lit "kg")) (fun u => str_eqb u (lit "m3")) names_of_refs (elem2dict x) file.
Definition says (t l s : string) : elem := Elem (lit t) [(xml_lang, lit l)] (Some (lit s)) None [].
Definition alloc (c q : string) : elem := elem_ "allocation" [("internalReferenceToCoProduct", c); ("allocatedFraction", q)] [].
Definition exch (i : string) (ks : list elem) : elem :=
  elem_ "exchange" [("dataSetInternalID", "0")]
    ([elem_ "referenceToFlowDataSet" [("refObjectId", i)] [says "shortDescription" "en" "a flow"];
      txt "exchangeDirection" "Output"; txt "resultingAmount" "2"] ++ ks).
Definition prop (n i v : string) (ds : list elem) : elem :=
  elem_ "flowProperty" [("dataSetInternalID", n)] [elem_ "referenceToFlowPropertyDataSet" [("refObjectId", i)] ds; txt "meanValue" v].
Definition flow (ty : string) (nm : list elem) (ps : list elem) : elem :=
  elem_ "flowDataSet" []
    [elem_ "flowInformation" [] [elem_ "dataSetInformation" [] [elem_ "name" [] nm; txt "CASNumber" "124-38-9"; txt "sumFormula" "CO2"];
                                 elem_ "quantitativeReference" [] [txt "referenceToReferenceFlowProperty" "0"]];
     elem_ "modellingAndValidation" [] [elem_ "LCIMethod" [] [txt "typeOfDataSet" ty]];
     elem_ "flowProperties" [] ps].
Definition mass_id : string := "93a60a56-a3c8-11da-a746-0800200b9a66".
Definition water_id : string := "7ec8d70e-4ffc-4024-86b7-6141cc0a2bf5".
Definition chromium_id : string := "f2149ae0-b105-4299-b1f1-cf1fd1577867".
Definition mass : elem := prop "0" mass_id "1" [says "shortDescription" "en" "Mass"].
Definition water (name : string) : elem := prop "1" water_id "0.2" [says "shortDescription" "en" name].
Definition chromium (name : string) : elem := prop "2" chromium_id "0.1" [says "shortDescription" "en" name].
Definition product (ps : list elem) : elem := flow "Product flow" [says "baseName" "de" "Stahl"; says "baseName" "en" "Steel"] (mass :: ps).
Definition emission : elem := flow "Elementary flow" [says "baseName" "en" "CO2"] [mass].
Definition dmass : pdata * pystr := (PData (lit "0") (lit mass_id) (lit "Mass") (lit "1") [], lit "1").
Definition dwater (name : string) : pdata * pystr := (PData (lit "1") (lit water_id) (lit name) (lit "0.2") [], lit "0.2").
Definition dchromium (name : string) : pdata * pystr := (PData (lit "2") (lit chromium_id) (lit name) (lit "0.1") [], lit "0.1").

Lemma exch_refers i ks : recordb (exch i ks) = true -> lit i <> [] -> filter (fun e => str_eqb (etag e) (lit "referenceToFlowDataSet")) ks = [] ->
  refers_to (exch i ks) (lit i).
Proof.
  intros R N F. pose proof (recordb_sound _ R) as R'. split; [exact R'|].
  exists (elem_ "referenceToFlowDataSet" [("refObjectId", i)] [says "shortDescription" "en" "a flow"]), [says "shortDescription" "en" "a flow"]. split.
  - apply child_found.
    + unfold recordb in R. rewrite !andb_true_iff in R. destruct R as [[[R _] _] _]. rewrite forallb_forall in *. intros e I. specialize (R e I). destruct e. cbn in R.
      apply andb_true_iff in R. apply R.
    + change (ekids (exch i ks)) with ([elem_ "referenceToFlowDataSet" [("refObjectId", i)] [says "shortDescription" "en" "a flow"];
        txt "exchangeDirection" "Output"; txt "resultingAmount" "2"] ++ ks). rewrite filter_app, F. reflexivity.
  - repeat split; [repeat constructor; apply properb_sound; vm| | |exact N|].
    + exists [lit "refObjectId"]. split; [repeat constructor; now apply name_ok_spec|]. repeat constructor. intros [].
    + exists (lit "refObjectId"). split; [now left|now apply name_ok_spec].
    + now apply kids_found.
Qed.
Lemma prop_is n i v name : lit i <> [] -> lit name <> [] -> ~ blank (Some (lit name)) -> ~ blank (Some (lit v)) ->
  readable nums (fun _ => Ok tt) (prop n i v [says "shortDescription" "en" name]) (PData (lit n) (lit i) (lit name) (lit v) [], lit v).
Proof.
  intros N M B B'. split; [|split; reflexivity]. cbn [fst]. split; [|split].
  - exists (says "shortDescription" "en" name). split; [|split; [exists (lit "en"); now split|left; now split]]. split; [apply recordb_sound; reflexivity|].
    split; [apply attr_given; [reflexivity|now left]|]. exists (elem_ "referenceToFlowPropertyDataSet" [("refObjectId", i)] [says "shortDescription" "en" name]).
    split; [now apply child_found|]. repeat split; [repeat constructor; apply properb_sound; reflexivity| | |exact N|now apply kids_found].
    + exists [lit "refObjectId"]. split; [repeat constructor; now apply name_ok_spec|]. repeat constructor. intros [].
    + exists (lit "refObjectId"). split; [now left|now apply name_ok_spec].
  - exists (txt "meanValue" v). split; [now apply child_found|]. now repeat split.
  - exists []. split; [now apply kids_found|constructor].
Qed.
Lemma not_blank s c r : lit s = c :: r -> is_space c = false -> ~ blank (Some (lit s)).
Proof. intros -> N B. inversion B. congruence. Qed.
Ltac readable_ := apply prop_is; [discriminate|discriminate|eapply not_blank; reflexivity|eapply not_blank; reflexivity].

Ltac one_text_ t s := exists (txt t s); split; [apply found; vm|repeat split; eapply not_blank; reflexivity].
Ltac product_ := split; [apply properb_sound; vm|exists (lit "Product flow"); split; [one_text_ "typeOfDataSet" "Product flow"|discriminate]].
Ltac elementary_ := split; [apply properb_sound; vm|one_text_ "typeOfDataSet" "Elementary flow"].
Ltac refers_ := apply exch_refers; [vm|discriminate|reflexivity].
Definition steel : elem := exch "f1" [].
Definition plain_steel : elem := product [water "Water content"; chromium "Chromium, part"].
Definition wet_steel : elem := product [water "water content"; chromium "Chromium content"].
Definition dry_steel : elem := product [water "Water content"; chromium "Chromium content"].
Definition twin_steel : elem := product [water "content"; chromium "content"].
Definition mute_steel : elem := product [prop "1" water_id "0.2" [says "shortDescription" "en" "Water"; says "shortDescription" "de" "Wasser"]].
Definition odd_steel : elem := flow "Product flow" [says "baseName" "en" "Steel"] [prop "0" water_id "1" [says "shortDescription" "en" "Water"]].
Definition nameless : elem := flow "Product flow" [] [mass].
Definition typeless : elem := elem_ "flowDataSet" [] [].
Notation with_ doc das := (flow_with pystr nums (fun _ => Ok tt) doc (lit "0") das).
Lemma reference_is (doc : elem) : occurring doc at_reference [txt "referenceToReferenceFlowProperty" "0"] -> reference_number doc (lit "0").
Proof. intros O. exists (txt "referenceToReferenceFlowProperty" "0"). split; [exact O|]. repeat split. eapply not_blank; reflexivity. Qed.
Ltac with__ ps := split; [apply reference_is, found; vm|exists ps; split; [apply found; vm|repeat (constructor; [readable_|]); constructor]].
Lemma wet_with : with_ wet_steel [dmass; dwater "water content"; dchromium "Chromium content"].
Proof. with__ [mass; water "water content"; chromium "Chromium content"]. Qed.
Lemma dry_with : with_ dry_steel [dmass; dwater "Water content"; dchromium "Chromium content"].
Proof. with__ [mass; water "Water content"; chromium "Chromium content"]. Qed.
Lemma plain_with : with_ plain_steel [dmass; dwater "Water content"; dchromium "Chromium, part"].
Proof. with__ [mass; water "Water content"; chromium "Chromium, part"]. Qed.
Lemma odd_with : with_ odd_steel [(PData (lit "0") (lit water_id) (lit "Water") (lit "1") [], lit "1")].
Proof. with__ [prop "0" water_id "1" [says "shortDescription" "en" "Water"]]. Qed.
Definition out (r : result (outcome pystr)) : option (written pystr) := match r with Ok (Written w) => Some w | _ => None end.
Lemma out_writes r w : out r = Some w -> r = Ok (Written w).
Proof. destruct r as [[|w']|]; cbn; try discriminate. now intros [= ->]. Qed.
Definition halts (r : result (outcome pystr)) : bool := match r with Err _ => true | _ => false end.
Lemma halts_err r : halts r = true -> exists e, r = Err e.
Proof. destruct r as [o|e]; [discriminate|]. now exists e. Qed.

Definition slag_alloc (l : list elem) : elem := exch "f1" [elem_ "allocations" [] l].
Lemma allocates_found l : recordb (slag_alloc l) = true -> forallb properb l = true -> forallb (fun e => str_eqb (etag e) (lit "allocation")) l = true -> allocates (slag_alloc l) l.
Proof.
  intros R P T. split; [now apply recordb_sound|].
  exists (elem_ "allocations" [] l). split; [now apply child_found|]. cbn [elem_ ekids eattrib map]. split; [|split].
    + apply Forall_forall. rewrite forallb_forall in P. intros e I. now apply properb_sound, P.
    + exists []. split; constructor.
    + assert (F : filter (fun e => str_eqb (etag e) (lit "allocation")) l = l) by (clear P R; induction l as [|e l IH]; [reflexivity|]; cbn in *; apply andb_true_iff in T; destruct T as [-> T]; now rewrite (IH T)).
      rewrite <- F at 2. apply named_filter. apply Forall_forall. intros e I. rewrite forallb_forall in P. specialize (P e I). destruct e. cbn in P. apply andb_true_iff in P. apply P.
Qed.
Ltac allocated_ := do 2 eexists; split; [split; [apply recordb_sound; vm|split; (apply attr_given; [vm|cbn; tauto])]|split; vm].
Example C140_nonvacuous :
  (exists w, conv true (slag_alloc [alloc "1" "70"; alloc "2" "30"]) (Some plain_steel) = Ok (Written w) /\
     allocates (slag_alloc [alloc "1" "70"; alloc "2" "30"]) [alloc "1" "70"; alloc "2" "30"] /\
     Forall2 (allocated nums names_of_refs) [alloc "1" "70"; alloc "2" "30"] [(lit "steel", lit "70"); (lit "slag", lit "30")] /\
     w_alloc w = [(lit "allocation for steel", lit "70"); (lit "allocation for slag", lit "30")]) /\
  (exists w, conv true (slag_alloc [alloc "2" "70"; alloc "3" "30"]) (Some plain_steel) = Ok (Written w) /\
     w_alloc w = [(lit "allocation for slag", lit "30")]) /\
  allocates (slag_alloc [alloc "1" "100"]) [alloc "1" "100"] /\ (exists e, conv true (slag_alloc [alloc "1" "100"]) None = Err e).
Proof.
  split; [|split; [|split]].
  - eexists. split; [apply out_writes; vm|]. split; [now apply allocates_found|]. split; [|reflexivity].
    constructor; [allocated_|constructor; [allocated_|constructor]].
  - eexists. split; [apply out_writes; vm|reflexivity].
  - now apply allocates_found.
  - apply halts_err. vm.
Qed.
Example C141_nonvacuous :
  (exists e, conv true steel (Some mute_steel) = Err e) /\ product_flow mute_steel /\
  (exists w, conv true steel (Some plain_steel) = Ok (Written w)) /\ conv true steel None = Ok LeftOut.
Proof. split; [apply halts_err; vm|]. split; [product_|]. split; [eexists; apply out_writes; vm|vm]. Qed.
Example C142_nonvacuous :
  refers_to steel (lit "f1") /\ product_flow plain_steel /\ with_ plain_steel [dmass; dwater "Water content"; dchromium "Chromium, part"] /\
  (exists w, conv true steel (Some plain_steel) = Ok (Written w) /\ map wp_name (w_props w) = [lit "Water content"; lit "Chromium, part"]) /\
  (exists w, conv true steel (Some twin_steel) = Ok (Written w) /\ map wp_id (w_props w) = [lit chromium_id]).
Proof.
  split; [refers_|]. split; [product_|]. split; [exact plain_with|]. split; (eexists; split; [apply out_writes; vm|vm]).
Qed.
Example C143_nonvacuous :
  (exists w, conv true steel (Some plain_steel) = Ok (Written w) /\ map wp_id (w_props w) = [lit water_id; lit chromium_id]) /\
  (exists w, conv false steel (Some (product [chromium "Chromium, part"])) = Ok (Written w) /\ map wp_id (w_props w) = [lit "e1d2c19b-3a97-4f52-a83f-fe88400452c2"]) /\
  elementary_flow emission /\
  (exists w, conv true (exch "e2" []) (Some emission) = Ok (Written w) /\ map wp_amount (w_props w) = [lit "1.5"]) /\
  (exists e, conv true (exch "e5" []) (Some emission) = Err e).
Proof.
  split; [eexists; split; [apply out_writes; vm|vm]|]. split; [eexists; split; [apply out_writes; vm|vm]|]. split; [elementary_|].
  split; [eexists; split; [apply out_writes; vm|vm]|apply halts_err; vm].
Qed.
Example C144_nonvacuous :
  with_ wet_steel [dmass; dwater "water content"; dchromium "Chromium content"] /\ with_ dry_steel [dmass; dwater "Water content"; dchromium "Chromium content"] /\
  (exists w, conv false steel (Some wet_steel) = Ok (Written w) /\
     map wp_name (w_props w) = [lit "water content"; lit "concentration, chromium"; lit "wet mass"; lit "dry mass"; lit "water in wet mass"] /\
     map wp_amount (w_props w) = [lit "0.2/1-0.2"; lit "0.1"; lit "1"; lit "1-0.2"; lit "0.2"]) /\
  (exists w, conv false steel (Some dry_steel) = Ok (Written w) /\ map wp_amount (w_props w) = [lit "0.2/1"; lit "0.1"]).
Proof.
  split; [exact wet_with|]. split; [exact dry_with|]. split; (eexists; split; [apply out_writes; vm|]); [split; vm|vm].
Qed.
Example C145_nonvacuous :
  (exists w, conv true steel (Some plain_steel) = Ok (Written w) /\ w_unit w = lit "kg") /\
  (exists w, conv true (exch "e1" []) (Some emission) = Ok (Written w) /\ w_unit w = lit "Bq" /\ w_uid w = lit "4923348e-591b-4772-b224-d19df86f04c9") /\
  refers_to (exch "e1" []) (lit "e1") /\ elementary_flow emission /\ ~ In (lit "Bq") (map (fun r => snd (snd r)) un_table) /\
  In (lit "93a60a56-a3c8-17da-a746-0800200c9a66", (lit "4923348e-591b-4772-b224-d19df86f04c9", lit "kBq")) un_table /\
  (exists k u, In (k, (u, lit "dimensionless")) un_table) /\ exists k row, In (k, row) fp_table /\ f_unit row = lit "dimensionless".
Proof.
  split; [eexists; split; [apply out_writes; vm|vm]|]. split; [eexists; split; [apply out_writes; vm|split; vm]|]. split; [refers_|]. split; [elementary_|].
  split; [|split; [|split]].
  - intros I. apply str_in_In in I. vm_compute in I. discriminate.
  - apply HandleProofs.In_getf. vm.
  - exists (lit "specific_dimensionless"), (lit "ef6ecb4d-863b-4cee-adb4-95076bded0a1"). apply HandleProofs.In_getf. vm.
  - destruct (getf (lit water_id) fp_table) as [row|] eqn:Q; [|vm_compute in Q; discriminate Q]. exists (lit water_id), row. split; [now apply HandleProofs.In_getf|].
    assert (X : option_map f_unit (getf (lit water_id) fp_table) = Some (lit "dimensionless")) by vm. rewrite Q in X. now injection X.
Qed.
Example C146_nonvacuous :
  with_ odd_steel [(PData (lit "0") (lit water_id) (lit "Water") (lit "1") [], lit "1")] /\ conv true steel (Some odd_steel) = Ok LeftOut /\
  conv true (exch "e3" []) (Some emission) = Ok LeftOut /\ conv true (exch "e9" []) (Some emission) = Ok LeftOut /\
  (occurring typeless at_type [] /\ exists e, conv true steel (Some typeless) = Err e) /\
  (occurring nameless at_name [] /\ exists e, conv true steel (Some nameless) = Err e) /\ (exists e, conv true (exch "e4" []) (Some emission) = Err e).
Proof.
  split; [exact odd_with|]. split; [vm|]. split; [vm|]. split; [vm|].
  split; [split; [apply found; vm|apply halts_err; vm]|]. split; [split; [apply found; vm|apply halts_err; vm]|apply halts_err; vm].
Qed.
Example C147_nonvacuous :
  let l := finish_merged (op "+") [(VStr (lit "en"), lit "note")] (lit "1") (Some (Variable_ (lit "x") (Some (lit "2*y")))) [] [lit "3"] in
  shown_comments l = [(VStr (lit "en"), lit "note"); (VStr (lit "en"), lit "note")] /\ shown_amount l = Some (lit "1+3") /\ shown_formula l = Some (lit "2*y").
Proof. repeat split. Qed.
Example C148_nonvacuous :
  named plain_steel [(lit "de", lit "Stahl"); (lit "en", lit "Steel")] /\ one_text plain_steel at_cas (lit "124-38-9") /\
  (exists w, conv true steel (Some plain_steel) = Ok (Written w) /\ w_flow w = lit "c-f1" /\ map snd (w_names w) = [lit "Stahl"; lit "Steel"]) /\
  (exists w, conv true (exch "e1" []) (Some emission) = Ok (Written w) /\ w_flow w = lit "t1" /\ w_factor w = lit "0.001" /\ w_formula w = Some (VStr (lit "CO2"))).
Proof.
  split; [|split; [one_text_ "CASNumber" "124-38-9"|]].
  - exists [says "baseName" "de" "Stahl"; says "baseName" "en" "Steel"]. split; [apply found; vm|].
    repeat (constructor; [right; split; [now split|split; [reflexivity|eapply not_blank; reflexivity]]|]). constructor.
  - split; (eexists; split; [apply out_writes; vm|repeat split; vm]).
Qed.

Print Assumptions C140_allocations_kept_partial.
Print Assumptions C140_none_kept.
Print Assumptions C140_single_refuted.
Print Assumptions C140_same_name_refuted.
Print Assumptions C141_described_otherwise_refuted.
Print Assumptions C148_product_written.
Print Assumptions C141_described_once_partial.
Print Assumptions C142_properties_kept_partial.
Print Assumptions C142_same_description_refuted.
Print Assumptions C143_identifiers_refuted.
Print Assumptions C143_identifiers_partial.
Print Assumptions C143_master_data_kept_partial.
Print Assumptions C143_master_unit_refuted.
Print Assumptions C144_dry_mass_partial.
Print Assumptions C144_other_description_refuted.
Print Assumptions C144_volume.
Print Assumptions C145_product_unit.
Print Assumptions C145_elementary_unit_row.
Print Assumptions C145_elementary_unit_partial.
Print Assumptions C145_elementary_unit_refuted.
Print Assumptions C146_no_file.
Print Assumptions C146_product_left_out.
Print Assumptions C146_elementary_left_out.
Print Assumptions C146_no_type_refuted.
Print Assumptions C146_no_name_refuted.
Print Assumptions C146_elementary_stops_refuted.
Print Assumptions C148_elementary_written.
Print Assumptions C147_comments_twice_refuted.
Print Assumptions C147_amount.
Print Assumptions C147_formula_refuted.
Print Assumptions C147_merged_partial.
Print Assumptions C145_dimensionless_refuted.
