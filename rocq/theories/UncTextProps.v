(** Properties C84-C86: uncertainty information kept in comments. *)
From Coq Require Import Ascii String List Bool Arith NArith ZArith Sorted Lia.
From Verif Require Import PyBase PyBaseFacts PyValues ValidatorsModel MultiLangModel MultiLangSpec DotDictModel CommentModel CommentSpec CommentProofs TextFacts
  Regex ReviewModel ReviewProofs ReviewProps UncTextModel UncTextSpec UncTextProofs.
Import ListNotations.

(** ** The rows of the comment *)
Lemma sorted_keys_nodup rows : StronglySorted str_lt (map fst rows) -> NoDup (map (@fst pystr pystr) rows).
Proof.
  induction rows as [|r rows IH]; cbn [map]; intros H; [constructor|]. inversion H as [|? ? Hs Hf]; subst. constructor; [|now apply IH].
  rewrite Forall_forall in Hf. intros Hi. apply Hf in Hi as [_ Hn]. congruence.
Qed.
Lemma rows_at L rows : language_rows (Some sep_default) L rows -> (exists i v, In (i, en, v) L) ->
  exists R1 t R2, rows = R1 ++ (en, t) :: R2 /\ lang_text (Some sep_default) L en t /\
    (forall k x, In (k, x) (R1 ++ R2) -> k <> en /\ lang_text (Some sep_default) L k x).
Proof.
  intros (Hs & Hk & Ht) He. apply Hk in He. apply in_map_iff in He as ([k t] & E & Hin). cbn in E. subst k.
  destruct (in_split _ _ Hin) as (R1 & R2 & ->). exists R1, t, R2. split; [reflexivity|]. split; [now apply Ht|].
  intros k x Hx. split.
  - intros ->. apply sorted_keys_nodup in Hs. rewrite map_app in Hs. cbn [map fst] in Hs. apply NoDup_remove_2 in Hs. apply Hs.
    rewrite <- map_app. now apply (in_map fst) in Hx.
  - apply Ht. rewrite in_app_iff in *. cbn [In]. tauto.
Qed.
Lemma text_without m L k t : In m marks -> lang_text (Some sep_default) L k t -> (forall i v, In (i, k, v) L -> ~ occurs m v) -> ~ occurs m t.
Proof.
  intros Hm (idxs & _ & _ & ->) H Hc. destruct (mark_ok m Hm) as [H1 H2].
  apply occurs_newline_join in Hc as (l & Hl & Hc); auto. apply in_map_iff in Hl as (i & <- & _). cbn [merged] in Hc.
  apply occurs_semicolon_join in Hc as (v & Hv & Hc); auto.
  - apply texts_at_In in Hv. now apply (H i v).
  - revert Hm. unfold marks. intros [<-|[<-|[<-|[<-|[]]]]]; apply not_in_lit; reflexivity.
  - revert Hm. unfold marks. intros [<-|[<-|[<-|[<-|[]]]]]; discriminate.
Qed.
(** texts in another language are plain *)
Lemma foreign_plain fl u U L i k v : unc_texts fl u = Ok U -> among U L -> Forall (fun c => plain (snd c)) (u_comments u) -> k <> en ->
  In (i, k, v) L -> plain v.
Proof.
  intros HU (O1 & O2 & -> & _ & Hp) Hc Hk Hi. rewrite Forall_forall in Hp. rewrite !in_app_iff in Hi.
  assert (Ho : In (i, k, v) (O1 ++ O2) -> plain v) by (intros H; exact (Hp _ H)). rewrite in_app_iff in Ho.
  destruct Hi as [Hi|[Hi|Hi]]; [apply Ho; auto| |apply Ho; auto].
  apply unc_texts_body in HU as (nc & _ & [(_ & ->)|(_ & ->)]); [destruct Hi|].
  destruct Hi as [E|Hi]; [congruence|]. unfold body_triples in Hi. rewrite !in_app_iff in Hi. destruct Hi as [Hi|[Hi|Hi]].
  - apply in_map_iff in Hi as (x & E & _). congruence.
  - unfold comment_triples in Hi. apply in_map_iff in Hi as ([j c] & E & Hi). cbn [fst snd] in E.
    assert (In c (u_comments u)).
    { clear -Hi. revert Hi. generalize 801%Z. induction (u_comments u) as [|y l IH]; intros z H; [destruct H|]. cbn [number_from] in H.
      destruct H as [H|H]; [left; congruence|right; now apply IH in H]. }
    rewrite Forall_forall in Hc. apply Hc in H. replace v with (snd c) by congruence. exact H.
  - apply in_map_iff in Hi as (x & E & _). congruence.
Qed.
Lemma en_plain u : Forall (fun c => plain (snd c)) (u_comments u) -> Forall plain (of_lang en (u_comments u)).
Proof.
  intros H. unfold of_lang. apply Forall_map. rewrite Forall_forall in *. intros x Hx. apply filter_In in Hx as [Hx _]. now apply H.
Qed.
Lemma en_present fl u U L : unc_texts fl u = Ok U -> U <> [] -> among U L -> exists i v, In (i, en, v) L.
Proof.
  intros HU Hne (O1 & O2 & -> & _). apply unc_texts_body in HU as (nc & _ & [(_ & ->)|(_ & ->)]); [contradiction|].
  exists 800%Z, header. rewrite !in_app_iff. right. left. now left.
Qed.

(** What every theorem assumes: the texts written for [u] reach the comment, whose rows are [rows]. *)
Definition stored (fl : pystr -> option pystr) (u : unc) (L : list triple) (rows : list (pystr * pystr)) : Prop :=
  exists U, unc_texts fl u = Ok U /\ U <> [] /\ (length (u_comments u) < 97)%nat /\ Forall (fun c => plain (snd c)) (u_comments u) /\
    among U L /\ language_rows (Some sep_default) L rows.

Lemma stored_rows fl u L rows : stored fl u L rows -> exists R1 R2 nc A B,
  rows = R1 ++ (en, join newline (A ++ mid_lines u nc ++ B)) :: R2 /\ not_converted_text fl u = Ok nc /\
  Forall plain A /\ Forall plain B /\ Forall plain (of_lang en (u_comments u)) /\
  (forall i v, In (i, en, v) L -> (899 < i)%Z -> exists l, In l B /\ occurs v l) /\
  ((forall i v, In (i, en, v) L -> (i <= 899)%Z) -> B = []) /\
  (forall k x m, In m marks -> In (k, x) (R1 ++ R2) -> k <> en /\ ~ occurs m x).
Proof.
  intros (U & HU & Hne & Hl & Hc & Ha & Hr). destruct (rows_at L rows Hr (en_present _ _ _ _ HU Hne Ha)) as (R1 & t & R2 & E & Ht & Ho).
  destruct (unc_text fl u U L t HU Hne Hl Ha Ht) as (nc & A & B & En & HA & HB & Et & H1 & H2). subst t.
  exists R1, R2, nc, A, B. repeat (split; [first [assumption|now apply en_plain]|]). intros k x m Hm Hx. apply Ho in Hx as [Hk Hx]. split; [exact Hk|].
  apply (text_without m L k x Hm Hx). intros i v Hv. apply plain_mark; [exact Hm|]. exact (foreign_plain fl u U L i k v HU Ha Hc Hk Hv).
Qed.
Lemma skip_rows R : Forall (fun r => infixb header_nl (snd r) = false) R -> forall st, read_rows st R = Ok st.
Proof.
  induction 1 as [|[k x] R Hx HR IH]; intros st; [reflexivity|]. cbn [read_rows read_row]. cbn [snd] in Hx. rewrite Hx. cbn [bind]. apply IH.
Qed.
Lemma read_rows_app R1 R2 : forall st, read_rows st (R1 ++ R2) = bind (read_rows st R1) (fun st' => read_rows st' R2).
Proof.
  induction R1 as [|r R1 IH]; intros st; [reflexivity|]. cbn [app read_rows]. destruct (read_row st r); [|reflexivity]. cbn [bind]. apply IH.
Qed.
Lemma normal_read_row R1 R2 t : (forall k x m, In m marks -> In (k, x) (R1 ++ R2) -> k <> en /\ ~ occurs m x) ->
  normal_read (R1 ++ (en, t) :: R2) = read_row nothing_found (en, t).
Proof.
  intros H. assert (F : Forall (fun r => infixb header_nl (snd r) = false) (R1 ++ R2)).
  { apply Forall_forall. intros [k x] Hx. apply absent_infixb. intros Hc. apply occurs_prefix in Hc. revert Hc. destruct in_marks as (Hh & _).
    now apply (H k x header Hh). }
  apply Forall_app in F as [F1 F2]. unfold normal_read. rewrite read_rows_app, skip_rows by exact F1. cbn [bind read_rows].
  destruct (read_row nothing_found (en, t)); [|reflexivity]. cbn [bind]. now apply skip_rows.
Qed.

(** ** C84: distributions without counterpart *)
Definition raw_texts_ok (u : unc) : Prop := forall x, getf (lit "n") (u_params u) = Some x -> number_text x.
Lemma names_ok kind names : unsupported kind names -> Forall number_text names.
Proof.
  intros H. assert (F : forall l, forallb (fun s => nonempty s && forallb (fun c => negb (N.eqb c 44 || N.eqb c 61 || N.eqb c 10 || is_space c)) s)%bool l = true -> Forall number_text l).
  { intros l Hl. rewrite forallb_forall in Hl. apply Forall_forall. intros s Hs. apply Hl, andb_prop in Hs as [H1 H2]. split; [now destruct s|].
    intros c Hc. rewrite forallb_forall in H2. apply H2, negb_true_iff in Hc. apply orb_false_elim in Hc as [Hc E4]. apply orb_false_elim in Hc as [Hc E3].
    apply orb_false_elim in Hc as [E1 E2]. apply N.eqb_neq in E1, E2, E3. auto. }
  apply F. now destruct H.
Qed.
Lemma pedigree_no_nc u : Forall score (map snd (u_pedigree u)) -> getf (lit "variance") (u_params u) = None ->
  Forall (fun l => ~ occurs mark_nc l) (joined (pedigree_texts u)).
Proof.
  intros Hs Hv. unfold pedigree_texts. rewrite Hv. destruct (u_pedigree u) as [|p ped]; [constructor|]. cbn [joined join]. constructor; [|constructor].
  apply (occurs_char mark_nc _ 78%N); [now left|]. rewrite !in_app_iff. intros [H|[H|H]].
  - revert H. now apply not_in_lit.
  - assert (F : forall l, Forall score l -> ~ In 78%N (join [comma] l)).
    { clear. induction l as [|x l IH]; intros H; [intros []|]. inversion H as [|? ? (c & -> & Hc) Hl]; subst. destruct l as [|y l].
      - cbn. intros [E|[]]. lia.
      - rewrite join_cons by discriminate. rewrite !in_app_iff. intros [[E|[]]|[[E|[]]|E]]; [lia|discriminate E|now apply IH in E]. }
    now apply F in H.
  - revert H. now apply not_in_lit.
Qed.

Theorem C84_distribution_kept : forall V (fv : pystr -> option V) fl u L rows names vs,
  unsupported (u_kind u) names -> prints fv fl -> raw_texts_ok u -> stored fl u L rows ->
  Forall score (map snd (u_pedigree u)) -> getf (lit "variance") (u_params u) = None ->
  Forall2 (fun n v => exists x, getf n (u_params u) = Some x /\ fv x = Some v) names vs ->
  other_read fv rows = Ok (Some (u_kind u, combine names vs)).
Proof.
  intros V fv fl u L rows names vs Hk Hp Hraw Hst Hs Hv Hvs.
  destruct (stored_rows fl u L rows Hst) as (R1 & R2 & nc & A & B & -> & En & HA & HB & Hen & _ & _ & Ho).
  destruct (nc_text fl u names nc Hk En) as (name & items & -> & Ei & Hn & Hz & Hw).
  destruct in_marks as (Hh & _ & _ & Hm).
  assert (Hvals : Forall2 (fun p v => fv (snd p) = Some v) items vs /\ Forall (fun p => number_text (fst p) /\ number_text (snd p)) items).
  { assert (Hno := names_ok _ _ Hk). clear -Hp Hraw Hw Ei Hvs Hno. revert names vs Ei Hvs Hno. induction Hw as [|[k y] items (x & Ex & Hx) Hw IH]; intros names vs Ei Hvs Hno.
    - cbn in Ei. subst names. inversion Hvs; subst. split; constructor.
    - cbn [map fst] in Ei. subst names. inversion Hvs as [|? v ? vs' (x' & Ex' & Hx') Hvs']; subst. inversion Hno as [|? ? Hk Hno']; subst.
      destruct (IH _ _ eq_refl Hvs' Hno') as [I1 I2]. cbn [fst snd] in *. assert (x' = x) by congruence. subst x'.
      destruct Hx as [Hx|[-> ->]].
      + destruct (Hp x y Hx) as [P1 P2]. split; constructor; auto. cbn [snd]. congruence.
      + split; constructor; auto. }
  destruct Hvals as [Hvals Hclean].
  assert (Hne : items <> []) by (intros ->; cbn in Ei; subst names; inversion Hk).
  unfold other_read. rewrite (find_row _ R1 R2 _ items eq_refl); auto.
  - cbn [bind]. apply restore_items; auto.
  - apply Forall_forall. intros [k x] Hx. apply nc_absent. apply (Ho k x mark_nc Hm). apply in_or_app. now left.
  - unfold mid_lines. cbn [nc_lines].
    set (ps := join (lit ", ") (map kv items)).
    assert (EA : A ++ (header :: of_lang en (u_comments u) ++ joined (pedigree_texts u) ++ [newline ++ mark_nc ++ name ++ mid_nc ++ ps]) ++ B
      = (A ++ header :: of_lang en (u_comments u) ++ joined (pedigree_texts u)) ++ (newline ++ mark_nc ++ name ++ mid_nc ++ ps) :: B).
    { rewrite <- !app_assoc. f_equal. cbn [app]. f_equal. rewrite <- !app_assoc. reflexivity. }
    refine (eq_trans (f_equal (fun l => search_with match_nc (join newline l)) EA) _).
    apply search_nc; auto; [|now apply items_line].
    apply Forall_app. split; [now apply plain_free|]. constructor; [apply not_infixb; reflexivity|]. apply Forall_app. split; [now apply plain_free|].
    now apply pedigree_no_nc.
Qed.
Print Assumptions C84_distribution_kept.

Theorem C84_nothing_invented : forall V (fv : pystr -> option V) rows,
  (forall k t, In (k, t) rows -> ~ occurs (lit "Not Converted: ") t) -> other_read fv rows = Ok None.
Proof.
  intros V fv rows H. assert (E : init_from_comment rows = Ok None); [|unfold other_read; now rewrite E].
  induction rows as [|[k t] rows IH]; [reflexivity|]. cbn [init_from_comment]. rewrite nc_absent.
  - apply IH. intros k' t' Hi. apply (H k' t'). now right.
  - apply (H k t). now left.
Qed.
Print Assumptions C84_nothing_invented.

Lemma attribute_err x e : attribute x = Err e -> e = IndexError.
Proof. unfold attribute. destruct (split [equals] x) as [|a [|b l]]; congruence. Qed.
Lemma attribute_no_equals x : ~ In equals x -> attribute x = Err IndexError.
Proof.
  intros H. unfold attribute, split. rewrite split_last; [reflexivity|discriminate|]. apply (occurs_char _ x equals); [now left|exact H].
Qed.
Lemma mapM_attribute_err l x : In x l -> ~ In equals x -> mapM attribute l = Err IndexError.
Proof.
  induction l as [|y l IH]; intros Hi Hx; [destruct Hi|]. cbn [mapM]. destruct (attribute y) as [p|e] eqn:E.
  - cbn [bind]. destruct Hi as [->|Hi]; [rewrite attribute_no_equals in E by exact Hx; discriminate|]. rewrite IH by auto. reflexivity.
  - apply attribute_err in E. now subst e.
Qed.
(** A line of this form written by hand, with a part that is not name=value, stops the conversion. *)
Theorem C84_foreign_text_refuted : forall V (fv : pystr -> option V) P name params B k rows x,
  Forall (fun l => ~ occurs (lit "Not Converted: ") l) P -> name <> [] -> Forall (fun c => (97 <= c <= 122)%N) name -> one_line params ->
  In 61%N params -> In x (split (lit ",") params) -> ~ In 61%N x ->
  other_read fv ((k, join newline (P ++ (newline ++ lit "Not Converted: " ++ name ++ lit " distribution with parameters " ++ params) :: B)) :: rows) = Err IndexError.
Proof.
  intros V fv P name params B k rows x HP Hn Ha Hp He Hi Hx. unfold other_read. cbn [init_from_comment].
  change (lit "Not Converted: ") with mark_nc in *. change (lit " distribution with parameters ") with mid_nc. rewrite search_nc; auto.
  - replace (existsb (N.eqb equals) params) with true by (symmetry; apply existsb_exists; exists equals; split; [exact He|reflexivity]).
    unfold attributes_of. change (lit ",") with [comma] in Hi. rewrite (mapM_attribute_err _ x Hi Hx). reflexivity.
  - rewrite forallb_forall. rewrite Forall_forall in Ha. intros c Hc. apply Ha in Hc. unfold is_Az, between. apply andb_true_intro. split; apply N.leb_le; lia.
Qed.
Print Assumptions C84_foreign_text_refuted.

(** ** C85: pedigree and variance *)
Definition supported (u : unc) : Prop := forall names, ~ unsupported (u_kind u) names.
Lemma getf_member {A} k (l : list (pystr * A)) a : getf k l = Some a -> In (k, a) l.
Proof.
  induction l as [|[k' b] l IH]; [discriminate|]. cbn [getf]. destruct (str_eqb k' k) eqn:E; [|intros H; right; now apply IH].
  apply str_eqb_eq in E. intros H. left. congruence.
Qed.
Lemma supported_none fl u nc : supported u -> not_converted_text fl u = Ok nc -> nc = None.
Proof.
  intros H E. unfold not_converted_text in E. destruct (getf (u_kind u) not_converted_kinds) as [p|] eqn:Ek; [|congruence]. exfalso.
  apply getf_member in Ek. unfold supported in H.
  destruct Ek as [E1|[E1|[E1|[E1|[]]]]]; apply (f_equal fst) in E1; cbn [fst] in E1; rewrite <- E1 in H; eapply H; constructor.
Qed.
Definition with_pedigree (u : unc) : Prop := length (u_pedigree u) = 5%nat /\ Forall score (map snd (u_pedigree u)).

Lemma ped_texts_var u v : with_pedigree u -> getf (lit "variance") (u_params u) = Some v -> v <> [] ->
  joined (pedigree_texts u) = [ped_line (join [comma] (map snd (u_pedigree u))) (sep_var ++ v)].
Proof.
  intros [Hl _] Hv Hn. unfold pedigree_texts. rewrite Hv. destruct (u_pedigree u) as [|p ped]; [discriminate|].
  destruct v; [contradiction|]. cbn [nonempty joined join]. unfold ped_line, sep_var. change sep_default with (lit "; "). f_equal. now rewrite <- !app_assoc.
Qed.
Lemma decimal_b v : decimal v -> v <> [] /\ forallb is_num v = true /\ float_ok v = true.
Proof.
  intros (a & b & Hd & Hn & Hs).
  assert (F : forall l, Forall (fun c => (48 <= c <= 57)%N) l -> forallb is_digit l = true /\ filter (N.eqb 46%N) l = []).
  { induction 1 as [|c l Hc _ [I1 I2]]; [now split|]. cbn [forallb filter]. rewrite I1, I2. split.
    - rewrite andb_true_r. unfold is_digit, between. apply andb_true_intro. split; apply N.leb_le; lia.
    - destruct (N.eqb_spec 46 c); [lia|reflexivity]. }
  assert (G : forall l, forallb is_digit l = true -> forallb is_num l = true).
  { intros l H. rewrite forallb_forall in *. intros c Hc. unfold is_num. now rewrite (H c Hc). }
  assert (X : forall l, forallb is_digit l = true -> l <> [] -> existsb is_digit l = true).
  { intros [|c l] H Hl; [contradiction|]. cbn in *. apply andb_prop in H as [-> _]. reflexivity. }
  apply Forall_app in Hd as [Ha Hb]. destruct (F a Ha) as [A1 A2], (F b Hb) as [B1 B2]. unfold float_ok. destruct Hs as [[-> ->]| ->].
  - rewrite app_nil_r in Hn. rewrite A2. repeat split; auto. rewrite X; auto.
  - split; [destruct a; discriminate|]. rewrite !forallb_app, !existsb_app, !filter_app, A2, B2, (G a A1), (G b B1). split; [reflexivity|].
    apply andb_true_intro. split; [|reflexivity]. destruct a as [|c a]; [|rewrite (X (c :: a) A1) by discriminate; reflexivity].
    cbn [app] in Hn. rewrite (X b B1 Hn). now rewrite !orb_true_r.
Qed.

(** scores and variance of every written pedigree *)
Lemma variance_read fl u L rows d w : supported u -> stored fl u L rows -> with_pedigree u ->
  getf (lit "variance") (u_params u) = Some (d ++ w) -> d <> [] -> forallb is_num d = true ->
  match w with [] => True | c :: _ => is_num c = false end -> Forall (fun c => In c exp_chars) w -> float_ok d = true ->
  exists B, Forall plain B /\ ((forall i v, In (i, en, v) L -> (i <= 899)%Z) -> B = []) /\
  normal_read rows = Ok {| f_pedigree := Some (join [comma] (map snd (u_pedigree u))); f_var := Some d;
    f_comment := vis en (join newline (of_lang en (u_comments u) ++ (lit "; " ++ w) :: B)) |}.
Proof.
  intros Hsup Hst Hped Hv Hd Hn Hw HE Hf. assert (Hnn : d ++ w <> []) by (destruct d; [contradiction|discriminate]).
  destruct (stored_rows fl u L rows Hst) as (R1 & R2 & nc & A & B & -> & En & HA & HB & Hen & _ & H0 & Ho).
  apply (supported_none fl u nc Hsup) in En. subst nc. exists B. split; [exact HB|]. split; [exact H0|]. rewrite normal_read_row by exact Ho. destruct Hped as [Hl Hs].
  assert (Hl' : length (map snd (u_pedigree u)) = 5%nat) by now rewrite map_length.
  destruct (five_scores _ Hl' Hs) as (S1 & S2 & S3 & _). unfold mid_lines. rewrite (ped_texts_var u (d ++ w)) by (auto; now split).
  cbn [nc_lines]. rewrite app_nil_r. cbn [app]. rewrite <- app_assoc. cbn [app].
  rewrite read_variance; auto. rewrite Hf. reflexivity.
Qed.

Theorem C85_pedigree_kept_partial : forall fl u L rows v, supported u -> stored fl u L rows -> with_pedigree u ->
  map fst (u_pedigree u) = pedigree_names -> getf (lit "variance") (u_params u) = Some v -> decimal v ->
  exists f g, normal_read rows = Ok f /\ f_pedigree f = Some g /\ read_pedigree g = u_pedigree u /\ f_var f = Some v.
Proof.
  intros fl u L rows v Hsup Hst Hped Hnames Hv Hd. destruct (decimal_b v Hd) as (D1 & D2 & D3).
  destruct (variance_read fl u L rows v [] Hsup Hst Hped) as (B & _ & _ & E); auto; [now rewrite app_nil_r|].
  eexists; eexists. split; [exact E|]. split; [reflexivity|]. split; [|reflexivity]. destruct Hped as [Hl Hs].
  unfold read_pedigree. destruct (five_scores (map snd (u_pedigree u))) as (_ & _ & _ & ->); [now rewrite map_length|exact Hs|].
  rewrite <- Hnames. clear. induction (u_pedigree u) as [|[a b] l IH]; [reflexivity|]. cbn. now rewrite IH.
Qed.
Print Assumptions C85_pedigree_kept_partial.

(** The names of the scores are not written: the matrix read is the one written only when its attributes come in the order expected. *)
Lemma combine_iff {A B} (l : list (A * B)) (ks : list A) : length ks = length l -> combine ks (map snd l) = l <-> map fst l = ks.
Proof.
  revert ks; induction l as [|[a b] l IH]; intros [|k ks] H; try discriminate; [now split|]. cbn [map fst snd combine]. injection H as H.
  specialize (IH ks H). split; intros E; injection E; intros; f_equal; try congruence; now apply IH.
Qed.
Theorem C85_order_refuted : forall fl u L rows v, supported u -> stored fl u L rows -> with_pedigree u ->
  getf (lit "variance") (u_params u) = Some v -> decimal v ->
  exists f g, normal_read rows = Ok f /\ f_pedigree f = Some g /\ (read_pedigree g = u_pedigree u <-> map fst (u_pedigree u) = pedigree_names).
Proof.
  intros fl u L rows v Hsup Hst Hped Hv Hd. destruct (decimal_b v Hd) as (D1 & D2 & D3).
  destruct (variance_read fl u L rows v [] Hsup Hst Hped) as (B & _ & _ & E); auto; [now rewrite app_nil_r|].
  eexists; eexists. split; [exact E|]. split; [reflexivity|]. destruct Hped as [Hl Hs].
  unfold read_pedigree. destruct (five_scores (map snd (u_pedigree u))) as (_ & _ & _ & ->); [now rewrite map_length|exact Hs|].
  apply combine_iff. now rewrite Hl.
Qed.
Print Assumptions C85_order_refuted.

(** A matrix without exactly five scores stops the conversion back. *)
Lemma scores_length l : l <> [] -> Forall score l -> length (join [comma] l) = (2 * length l - 1)%nat /\ Forall (fun c => is_digit c = true \/ c = comma) (join [comma] l).
Proof.
  induction l as [|x l IH]; intros Hn H; [contradiction|]. inversion H as [|? ? Hx Hl]; subst. apply score_b in Hx as (c & -> & Hc).
  destruct l as [|y l]; [split; [reflexivity|constructor; [now left|constructor]]|]. rewrite join_cons by discriminate.
  destruct (IH ltac:(discriminate) Hl) as [I1 I2]. split; [rewrite !app_length, I1; cbn; lia|]. cbn [app]. constructor; [now left|]. constructor; [now right|exact I2].
Qed.
Lemma scores_ok_chars s : scores_ok s = true -> Forall (fun c => is_digit c = true \/ c = comma) s.
Proof.
  unfold scores_ok. do 10 (destruct s as [|? s]; try discriminate). unfold is_score. intros H.
  repeat match goal with H : (_ && _)%bool = true |- _ => apply andb_prop in H as [? ?] end.
  repeat (constructor; [first [now left|right; now apply N.eqb_eq]|]). constructor.
Qed.
Lemma match_ped_miss g w : length g <> 9%nat -> Forall (fun c => is_digit c = true \/ c = comma) g -> match_ped (mark_ped ++ g ++ lit ")" ++ w) = None.
Proof.
  intros Hl Hg. unfold match_ped. rewrite prefixb_app, skipn_app_len. cbv zeta.
  destruct (scores_ok (firstn 9 (g ++ lit ")" ++ w)) && prefixb (lit ")") (skipn 9 (g ++ lit ")" ++ w)))%bool eqn:E; [|reflexivity]. exfalso.
  apply andb_prop in E as [E1 E2]. rewrite Forall_forall in Hg. destruct (le_lt_dec 9 (length g)) as [H|H].
  - rewrite skipn_app in E2. replace (9 - length g)%nat with 0%nat in E2 by lia.
    destruct (skipn 9 g) as [|c r] eqn:Es; [apply (f_equal (@length N)) in Es; rewrite skipn_length in Es; cbn in Es; lia|].
    assert (Hc : In c g) by (rewrite <- (firstn_skipn 9 g), Es; apply in_or_app; right; now left).
    cbn [app] in E2. apply prefixb_spec in E2 as [z Ez]. assert (c = 41%N) by (injection Ez; auto). subst c. apply Hg in Hc as [Hc|Hc]; discriminate Hc.
  - apply scores_ok_chars in E1. rewrite Forall_forall in E1.
    assert (Hi : In 41%N (firstn 9 (g ++ lit ")" ++ w))).
    { rewrite firstn_app. apply in_or_app. right. destruct (9 - length g)%nat eqn:En; [lia|]. now left. }
    apply E1 in Hi as [Hi|Hi]; discriminate Hi.
Qed.
Lemma search_miss pre mark (M : pystr -> option (pystr * pystr)) s : (forall s v r, M s = Some (v, r) -> prefixb mark s = true /\ length r < length s) ->
  mark <> [] -> quiet mark pre -> M (mark ++ s) = None -> (forall a b, tl mark ++ s = a ++ b -> prefixb mark b = false) -> search_with M (pre ++ mark ++ s) = None.
Proof.
  intros HM Hm Hq H0 Hr. rewrite (search_quiet mark M HM) by exact Hq. destruct mark as [|c m]; [contradiction|]. cbn [app search_with]. cbn [app] in H0. rewrite H0.
  apply search_all_none. intros a b E. destruct (M b) as [[v r]|] eqn:Eb; [|reflexivity]. apply HM in Eb as [Eb _]. rewrite (Hr a b E) in Eb. discriminate.
Qed.
Theorem C85_score_missing_refuted : forall fl u L rows, supported u -> stored fl u L rows ->
  u_pedigree u <> [] -> length (u_pedigree u) <> 5%nat -> Forall score (map snd (u_pedigree u)) -> getf (lit "variance") (u_params u) = None ->
  normal_read rows = Err AttributeError.
Proof.
  intros fl u L rows Hsup Hst Hn Hl Hs Hv.
  destruct (stored_rows fl u L rows Hst) as (R1 & R2 & nc & A & B & -> & En & HA & HB & Hen & _ & _ & Ho).
  apply (supported_none fl u nc Hsup) in En. subst nc. rewrite normal_read_row by exact Ho.
  assert (Hms : map snd (u_pedigree u) <> []) by now destruct (u_pedigree u).
  destruct (scores_length _ Hms Hs) as [Hlen Hg]. rewrite map_length in Hlen.
  set (g := join [comma] (map snd (u_pedigree u))) in *.
  assert (Ej : joined (pedigree_texts u) = [ped_line g []]).
  { unfold pedigree_texts. rewrite Hv. subst g. destruct (u_pedigree u); [contradiction|]. reflexivity. }
  unfold mid_lines. rewrite Ej. cbn [nc_lines]. rewrite app_nil_r. cbn [app]. rewrite <- app_assoc. cbn [app].
  destruct in_marks as (Hh & Hp & _ & _). set (P := of_lang en (u_comments u)) in *.
  assert (E1 := row_split A (P ++ ped_line g [] :: B)). destruct E1 as (E1 & E2); [now destruct P|exact HA| |].
  { apply Forall_app. split; [now apply plain_free|]. constructor; [|now apply plain_free].
    apply (ped_free g [] 85%N); auto; try discriminate; [now left|apply not_in_lit; reflexivity]. }
  unfold read_row. rewrite E1, E2. cbv zeta.
  assert (Ec : join newline (P ++ ped_line g [] :: B) = closed_lines P ++ mark_ped ++ g ++ lit ")" ++ tail B).
  { rewrite join_mid. unfold ped_line. rewrite app_nil_r. now rewrite <- !app_assoc. }
  assert (Hi : infixb mark_ped (join newline (P ++ ped_line g [] :: B)) = true).
  { apply infixb_occurs. rewrite Ec. now exists (closed_lines P), (g ++ lit ")" ++ tail B). }
  assert (Hsn : search_with match_ped (join newline (P ++ ped_line g [] :: B)) = None).
  { rewrite Ec. apply (search_miss _ mark_ped match_ped); [exact match_ped_mark|discriminate|now apply plain_quiet| |].
    - apply match_ped_miss; [|exact Hg]. destruct (u_pedigree u); [contradiction|]. cbn [length] in *. lia.
    - intros a b E. apply not_true_iff_false. intros Hc. apply prefixb_spec in Hc as [x ->].
      assert (Hoc : ~ occurs mark_ped ((tl mark_ped ++ g ++ lit ")") ++ tail B)).
      { destruct (mark_ok mark_ped Hp) as [M1 M2]. apply not_in_tail; auto; [|now apply plain_free].
        apply (occurs_char mark_ped _ 80%N); [now left|]. rewrite !in_app_iff. intros [H|[H|H]].
        - revert H. apply not_in_lit. reflexivity.
        - rewrite Forall_forall in Hg. apply Hg in H as [H|H]; discriminate H.
        - revert H. apply not_in_lit. reflexivity. }
      apply Hoc. exists a, x. rewrite <- E. now rewrite <- !app_assoc. }
  rewrite Hi, Hsn. reflexivity.
Qed.
Print Assumptions C85_score_missing_refuted.

(** A variance with an exponent is cut before it. *)
Theorem C85_exponent_refuted : forall fl u L rows d e w, supported u -> stored fl u L rows -> with_pedigree u ->
  decimal d -> e = 101%N \/ e = 69%N -> Forall (fun c => In c (lit "0123456789.eE+-")) w ->
  getf (lit "variance") (u_params u) = Some (d ++ e :: w) ->
  exists f, normal_read rows = Ok f /\ f_var f = Some d.
Proof.
  intros fl u L rows d e w Hsup Hst Hped Hd He Hw Hv. destruct (decimal_b d Hd) as (D1 & D2 & D3).
  destruct (variance_read fl u L rows d (e :: w) Hsup Hst Hped) as (B & _ & _ & E); auto.
  - destruct He as [->| ->]; reflexivity.
  - constructor; [|exact Hw]. destruct He as [->| ->]; vm_compute; tauto.
  - eexists. split; [exact E|reflexivity].
Qed.
Print Assumptions C85_exponent_refuted.

(** ** C86: the comment of the uncertainty *)
Lemma plain_read fl u L rows : supported u -> stored fl u L rows -> u_pedigree u = [] -> exists B, Forall plain B /\
  (forall i v, In (i, en, v) L -> (899 < i)%Z -> exists l, In l B /\ occurs v l) /\ ((forall i v, In (i, en, v) L -> (i <= 899)%Z) -> B = []) /\
  normal_read rows = Ok {| f_pedigree := None; f_var := None; f_comment := vis en (join newline (of_lang en (u_comments u) ++ B)) |}.
Proof.
  intros Hsup Hst Hped. destruct (stored_rows fl u L rows Hst) as (R1 & R2 & nc & A & B & -> & En & HA & HB & Hen & H1 & H0 & Ho).
  apply (supported_none fl u nc Hsup) in En. subst nc. exists B. split; [exact HB|]. split; [exact H1|]. split; [exact H0|].
  rewrite normal_read_row by exact Ho. unfold mid_lines, pedigree_texts. rewrite Hped. cbn [joined nc_lines app]. rewrite app_nil_r.
  destruct (of_lang en (u_comments u) ++ B) as [|x r] eqn:E.
  - unfold read_row. rewrite row_header_last by exact HA. reflexivity.
  - rewrite <- E. rewrite read_plain; [reflexivity|now rewrite E|exact HA|apply Forall_app; now split].
Qed.
Lemma vis_visible lang c : visible_text c -> vis lang c = [(lang, c)].
Proof.
  intros (x & Hx & Hs). unfold vis. destruct c as [|y c]; [destruct Hx|]. cbn [nonempty andb]. destruct (isspace (y :: c)) eqn:E; [|reflexivity]. exfalso.
  unfold isspace in E. rewrite forallb_forall in E. apply E in Hx. congruence.
Qed.

Theorem C86_comment_kept_partial : forall fl u L rows cs, supported u -> stored fl u L rows -> u_pedigree u = [] ->
  (forall i v, In (i, en, v) L -> (i <= 899)%Z) -> in_language en (u_comments u) cs -> visible_text (join newline cs) ->
  exists f, normal_read rows = Ok f /\ f_comment f = [(en, join newline cs)].
Proof.
  intros fl u L rows cs Hsup Hst Hp Hown Hcs Hvis. destruct (plain_read fl u L rows Hsup Hst Hp) as (B & _ & _ & HB & E).
  rewrite (HB Hown), app_nil_r, (in_language_of _ _ _ Hcs), (vis_visible en _ Hvis) in E. eexists. split; [exact E|reflexivity].
Qed.
Print Assumptions C86_comment_kept_partial.

(** A comment of the exchange itself comes back as part of the comment of its uncertainty. *)
Theorem C86_own_comment_refuted : forall fl u L rows i x, supported u -> stored fl u L rows -> u_pedigree u = [] ->
  In (i, en, x) L -> (899 < i)%Z -> visible_text x ->
  exists f c, normal_read rows = Ok f /\ f_comment f = [(en, c)] /\ occurs x c.
Proof.
  intros fl u L rows i x Hsup Hst Hp Hi Hlt (c & Hc & Hs). destruct (plain_read fl u L rows Hsup Hst Hp) as (B & _ & H1 & _ & E).
  destruct (H1 i x Hi Hlt) as (l & Hl & Ho).
  assert (Ho' : occurs x (join newline (of_lang en (u_comments u) ++ B))).
  { destruct Ho as (a & b & ->). destruct (occurs_join newline (a ++ x ++ b) (of_lang en (u_comments u) ++ B)) as (a' & b' & ->).
    - apply in_or_app. now right.
    - exists (a' ++ a), (b ++ b'). now rewrite <- !app_assoc. }
  rewrite vis_visible in E.
  - eexists; eexists. split; [exact E|]. split; [reflexivity|exact Ho'].
  - exists c. split; [|exact Hs]. destruct Ho' as (a & b & ->). rewrite !in_app_iff. auto.
Qed.
Print Assumptions C86_own_comment_refuted.

(** With a pedigree and a variance, the separator of the two stays behind as a line of the comment. *)
Theorem C86_separator_refuted : forall fl u L rows v cs, supported u -> stored fl u L rows -> with_pedigree u ->
  getf (lit "variance") (u_params u) = Some v -> decimal v -> (forall i v, In (i, en, v) L -> (i <= 899)%Z) -> in_language en (u_comments u) cs ->
  exists f, normal_read rows = Ok f /\ f_comment f = [(en, join newline (cs ++ [lit "; "]))].
Proof.
  intros fl u L rows v cs Hsup Hst Hped Hv Hd Hown Hcs. destruct (decimal_b v Hd) as (D1 & D2 & D3).
  destruct (variance_read fl u L rows v [] Hsup Hst Hped) as (B & _ & HB & E); auto; [now rewrite app_nil_r|].
  assert (V : visible_text (join newline (cs ++ [lit "; "]))).
  { exists 59%N. split; [|reflexivity]. destruct (occurs_join newline (lit "; ") (cs ++ [lit "; "])) as (a & b & E').
    - apply in_or_app. right. now left.
    - refine (eq_ind_r (fun s => In 59%N s) _ E'). rewrite !in_app_iff. right. left. now left. }
  rewrite (HB Hown), (in_language_of _ _ _ Hcs) in E. eexists. split; [exact E|]. cbn [f_comment]. exact (vis_visible en _ V).
Qed.
Print Assumptions C86_separator_refuted.

(** Comments in other languages have no header and are not read. *)
Lemma read_row_langs st k t f : read_row st (k, t) = Ok f -> forall k' c, In (k', c) (f_comment f) -> In (k', c) (f_comment st) \/ k' = k.
Proof.
  unfold read_row. destruct (infixb header_nl t); [|intros H k' c Hi; injection H as <-; now left]. cbv zeta.
  match goal with |- bind ?x _ = _ -> _ => destruct x as [[ped c1]|]; [|discriminate] end. cbn [bind].
  match goal with |- bind ?x _ = _ -> _ => destruct x as [[var c2]|]; [|discriminate] end. cbn [bind].
  intros H k' c Hi. injection H as <-. cbn [f_comment] in Hi. apply in_app_or in Hi as [Hi|Hi]; [now left|right].
  destruct (_ && _)%bool; [|destruct Hi]. destruct Hi as [E|[]]. congruence.
Qed.
Theorem C86_other_language_refuted : forall fl u L rows f, stored fl u L rows -> normal_read rows = Ok f ->
  forall k c, In (k, c) (f_comment f) -> k = en.
Proof.
  intros fl u L rows f Hst Hr k c Hi. destruct (stored_rows fl u L rows Hst) as (R1 & R2 & nc & A & B & -> & _ & _ & _ & _ & _ & _ & Ho).
  rewrite normal_read_row in Hr by exact Ho. destruct (read_row_langs _ _ _ _ Hr k c Hi) as [[]|H]. exact H.
Qed.
Print Assumptions C86_other_language_refuted.

(** ** The hypotheses can be met *)
Lemma plain_b s : forallb (fun m => negb (infixb m s)) marks = true -> plain s.
Proof.
  intros H. rewrite forallb_forall in H. assert (F : forall m, In m marks -> ~ occurs m s).
  { intros m Hm. apply not_infixb. now apply negb_true_iff, H. }
  destruct in_marks as (H1 & H2 & H3 & H4). unfold plain. repeat split; [exact (F _ H1)|exact (F _ H2)|exact (F _ H3)|exact (F _ H4)].
Qed.
Definition example_ped : list (pystr * pystr) := combine pedigree_names [lit "1"; lit "2"; lit "3"; lit "4"; lit "5"].
Definition example_unc (kind : pystr) (params ped : list (pystr * pystr)) : unc :=
  {| u_kind := kind; u_params := params; u_pedigree := ped; u_comments := [(en, lit "measured"); (lit "de", lit "gemessen")] |}.
Definition example_list (fl : pystr -> option pystr) (u : unc) (own : list triple) : list triple :=
  match unc_texts fl u with Ok U => U ++ own | Err _ => [] end.
Definition lang_idx (L : list triple) (k : pystr) (idxs : list Z) : pystr := join newline (map (fun i => merged (Some sep_default) (texts_at L i k)) idxs).
Definition de : pystr := lit "de".
Definition same_indexes (L : list triple) (k : pystr) (idxs : list Z) : bool :=
  forallb (fun a => negb (str_eqb (snd (fst a)) k) || existsb (Z.eqb (fst (fst a))) idxs)%bool L &&
  forallb (fun i => existsb (fun a => Z.eqb (fst (fst a)) i && str_eqb (snd (fst a)) k)%bool L) idxs.
Lemma lang_idx_ok L k idxs : StronglySorted Z.lt idxs -> same_indexes L k idxs = true -> lang_text (Some sep_default) L k (lang_idx L k idxs).
Proof.
  intros Hs H. unfold same_indexes in H. apply andb_prop in H as [H1 H2]. rewrite forallb_forall in H1, H2. exists idxs. split; [exact Hs|]. split; [|reflexivity]. intros i. split.
  - intros Hi. apply H2, existsb_exists in Hi as ([[j k'] v] & Hi & E). cbn [fst snd] in E. apply andb_prop in E as [E1 E2].
    apply Z.eqb_eq in E1. apply str_eqb_eq in E2. subst. now exists v.
  - intros [v Hv]. apply H1 in Hv. cbn [fst snd] in Hv. rewrite str_eqb_refl in Hv. cbn [negb orb] in Hv.
    apply existsb_exists in Hv as (j & Hj & E). apply Z.eqb_eq in E. now subst.
Qed.
Lemma example_stored fl u own idxs U : unc_texts fl u = Ok U -> U <> [] -> u_comments u = [(en, lit "measured"); (de, lit "gemessen")] ->
  Forall outside own -> Forall (fun a => plain (snd a)) own -> StronglySorted Z.lt idxs -> same_indexes (U ++ own) en idxs = true ->
  same_indexes (U ++ own) de [802%Z] = true -> forallb (fun a => str_in (snd (fst a)) [de; en]) (U ++ own) = true -> idxs <> [] ->
  stored fl u (U ++ own) [(de, lang_idx (U ++ own) de [802%Z]); (en, lang_idx (U ++ own) en idxs)].
Proof.
  intros HU Hn Hc Ho Hp Hs He Hd Hl Hi. exists U. split; [exact HU|]. split; [exact Hn|]. rewrite Hc. split; [cbn; lia|].
  split; [repeat constructor; apply plain_b; reflexivity|]. split; [exists [], own; auto|].
  assert (Td := lang_idx_ok (U ++ own) de [802%Z] ltac:(repeat constructor) Hd). assert (Te := lang_idx_ok (U ++ own) en idxs Hs He).
  split; [|split].
  - cbn [map fst]. constructor; [constructor; constructor|]. constructor; [|constructor]. split; [reflexivity|discriminate].
  - intros k. cbn [map fst]. split.
    + intros [<-|[<-|[]]].
      * destruct Td as (l & _ & Hk & _). unfold same_indexes in Hd. apply andb_prop in Hd as [_ Hd]. cbn [forallb] in Hd. rewrite andb_true_r in Hd.
        apply existsb_exists in Hd as ([[j k'] v] & Hv & E). apply andb_prop in E as [_ E]. apply str_eqb_eq in E. cbn in E. subst k'. now exists j, v.
      * unfold same_indexes in He. apply andb_prop in He as [_ He]. rewrite forallb_forall in He. destruct idxs as [|i idxs]; [contradiction|].
        specialize (He i (or_introl eq_refl)). apply existsb_exists in He as ([[j k'] v] & Hv & E). apply andb_prop in E as [_ E].
        apply str_eqb_eq in E. cbn in E. subst k'. now exists j, v.
    + intros (i & v & Hv). rewrite forallb_forall in Hl. apply Hl in Hv. cbn [fst snd] in Hv.
      unfold str_in in Hv. apply existsb_exists in Hv as (x & Hx & E). apply str_eqb_eq in E. subst k. exact Hx.
  - intros k t [E|[E|[]]]; injection E as <- <-; assumption.
Qed.

Definition ident (x : pystr) : option pystr := Some x.
Definition example_beta : unc := example_unc (lit "beta") [(lit "minValue", lit "1.0"); (lit "mostLikelyValue", lit "2.0"); (lit "maxValue", lit "4.0")] example_ped.
Definition example_log : unc := example_unc (lit "lognormal") [(lit "variance", lit "0.04")] example_ped.
Definition own_text : list triple := [(1000%Z, en, lit "from the plant")].

Lemma example_pedigree k ps : with_pedigree (example_unc k ps example_ped).
Proof. split; [reflexivity|]. cbn. repeat constructor; eexists; (split; [reflexivity|lia]). Qed.
Example C84_nonvacuous : exists rows L, unsupported (u_kind example_beta) [lit "minValue"; lit "mostLikelyValue"; lit "maxValue"] /\ raw_texts_ok example_beta /\ stored ident example_beta L rows /\ Forall score (map snd (u_pedigree example_beta)) /\ other_read ident rows = Ok (Some (lit "beta", [(lit "minValue", lit "1.0"); (lit "mostLikelyValue", lit "2.0"); (lit "maxValue", lit "4.0")])).
Proof.
  eexists; eexists. split; [constructor|]. split; [intros x H; discriminate H|]. split; [|split].
  - eapply (example_stored ident example_beta own_text [800; 801; 898; 899; 1000]%Z);
      [vm_compute; reflexivity|discriminate|reflexivity| | |repeat constructor|vm_compute; reflexivity|vm_compute; reflexivity|vm_compute; reflexivity|discriminate].
    + constructor; [right; cbn; lia|constructor].
    + constructor; [apply plain_b; reflexivity|constructor].
  - apply (example_pedigree (lit "beta") []).
  - vm_compute. reflexivity.
Qed.
Example C85_nonvacuous : exists rows L f, supported example_log /\ stored ident example_log L rows /\ with_pedigree example_log /\ map fst (u_pedigree example_log) = pedigree_names /\ decimal (lit "0.04") /\ normal_read rows = Ok f /\ f_pedigree f = Some (lit "1,2,3,4,5") /\ f_var f = Some (lit "0.04").
Proof.
  eexists; eexists; eexists. split; [intros names H; inversion H|]. split; [|split; [apply example_pedigree|split; [reflexivity|split; [|split; [|split]]]]].
  - eapply (example_stored ident example_log own_text [800; 801; 898; 1000]%Z);
      [vm_compute; reflexivity|discriminate|reflexivity| | |repeat constructor|vm_compute; reflexivity|vm_compute; reflexivity|vm_compute; reflexivity|discriminate].
    + constructor; [right; cbn; lia|constructor].
    + constructor; [apply plain_b; reflexivity|constructor].
  - exists (lit "0"), (lit "04"). split; [apply Forall_forall; intros c Hc; vm_compute in Hc; repeat (destruct Hc as [<-|Hc]; [lia|]); destruct Hc|]. split; [discriminate|right; reflexivity].
  - vm_compute. reflexivity.
  - reflexivity.
  - reflexivity.
Qed.
Definition example_uniform : unc := example_unc (lit "uniform") [(lit "minValue", lit "1"); (lit "maxValue", lit "2")] [].
Example C86_nonvacuous : exists rows rows' L L' f f', supported example_uniform /\ in_language en (u_comments example_uniform) [lit "measured"] /\ stored ident example_uniform L rows /\ normal_read rows = Ok f /\ f_comment f = [(en, lit "measured")] /\ stored ident example_uniform L' rows' /\ normal_read rows' = Ok f' /\ f_comment f' = [(en, lit "measured" ++ newline ++ lit "from the plant")].
Proof.
  do 6 eexists. split; [intros names H; inversion H|]. split; [repeat constructor; discriminate|].
  split; [|split; [|split; [|split; [|split]]]].
  - eapply (example_stored ident example_uniform [] [800; 801]%Z);
      [vm_compute; reflexivity|discriminate|reflexivity|constructor|constructor|repeat constructor|vm_compute; reflexivity|vm_compute; reflexivity|vm_compute; reflexivity|discriminate].
  - vm_compute. reflexivity.
  - reflexivity.
  - eapply (example_stored ident example_uniform own_text [800; 801; 1000]%Z);
      [vm_compute; reflexivity|discriminate|reflexivity| | |repeat constructor|vm_compute; reflexivity|vm_compute; reflexivity|vm_compute; reflexivity|discriminate].
    + constructor; [right; cbn; lia|constructor].
    + constructor; [apply plain_b; reflexivity|constructor].
  - vm_compute. reflexivity.
  - reflexivity.
Qed.
(** a matrix whose attributes come in another order *)
Definition example_swapped : unc := example_unc (lit "lognormal") [(lit "variance", lit "0.04")] (rev example_ped).
Example C85_order_witness : exists rows L f g, stored ident example_swapped L rows /\ normal_read rows = Ok f /\ f_pedigree f = Some g /\
  getf (lit "reliability") (u_pedigree example_swapped) = Some (lit "1") /\ getf (lit "reliability") (read_pedigree g) = Some (lit "5").
Proof.
  do 4 eexists. split; [|split; [|split; [|split]]].
  - eapply (example_stored ident example_swapped [] [800; 801; 898]%Z);
      [vm_compute; reflexivity|discriminate|reflexivity|constructor|constructor|repeat constructor|vm_compute; reflexivity|vm_compute; reflexivity|vm_compute; reflexivity|discriminate].
  - vm_compute. reflexivity.
  - reflexivity.
  - reflexivity.
  - reflexivity.
Qed.
