From Coq Require Import Ascii String List Bool Arith NArith ZArith Sorted Lia.
From Verif Require Import PyBase PyBaseFacts PyValues ValidatorsModel MultiLangModel MultiLangSpec DotDictModel CommentModel CommentSpec CommentProofs TextFacts
  Regex ReviewModel ReviewProofs ReviewProps UncTextModel UncTextSpec.
Import ListNotations.

(** ** The lines of the comment *)
Definition joined (l : list pystr) : list pystr := match l with [] => [] | _ => [join sep_default l] end.
Definition of_lang (k : pystr) (l : list (pystr * pystr)) : list pystr := map snd (filter (fun x => str_eqb (fst x) k) l).
Definition nc_lines (o : option pystr) : list pystr := match o with Some x => [x] | None => [] end.
Definition mid_lines (u : unc) (nc : option pystr) : list pystr :=
  header :: of_lang en (u_comments u) ++ joined (pedigree_texts u) ++ nc_lines nc.

Lemma in_language_of k l r : in_language k l r -> of_lang k l = r.
Proof.
  intros H. induction H as [|t l r H IH|k' t l r Hn H IH]; unfold of_lang in *; cbn [filter fst].
  - reflexivity.
  - rewrite str_eqb_refl. cbn [map snd]. now rewrite IH.
  - rewrite (proj2 (str_eqb_neq k' k) Hn). exact IH.
Qed.

Lemma sorted_unique : forall a b, StronglySorted Z.lt a -> StronglySorted Z.lt b -> (forall i, In i a <-> In i b) -> a = b.
Proof.
  induction a as [|x a IH]; intros b Ha Hb H.
  - destruct b as [|y b]; [reflexivity|]. destruct (proj2 (H y) (or_introl eq_refl)).
  - destruct b as [|y b]; [destruct (proj1 (H x) (or_introl eq_refl))|].
    inversion Ha as [|? ? Sa Fa]; inversion Hb as [|? ? Sb Fb]; subst. rewrite Forall_forall in Fa, Fb.
    assert (x = y).
    { destruct (proj1 (H x) (or_introl eq_refl)) as [E|E]; [congruence|]. destruct (proj2 (H y) (or_introl eq_refl)) as [E'|E']; [congruence|].
      apply Fb in E. apply Fa in E'. lia. }
    subst y. f_equal. apply IH; auto. intros i. split; intros Hi.
    + destruct (proj1 (H i) (or_intror Hi)) as [<-|E]; [|exact E]. apply Fa in Hi. lia.
    + destruct (proj2 (H i) (or_intror Hi)) as [<-|E]; [|exact E]. apply Fb in Hi. lia.
Qed.
Lemma sorted_filter (p : Z -> bool) l : StronglySorted Z.lt l -> StronglySorted Z.lt (filter p l).
Proof.
  induction 1 as [|x l Hs IH Hf]; cbn; [constructor|]. destruct (p x); [|exact IH]. constructor; [exact IH|].
  rewrite Forall_forall in *. intros y Hy. apply filter_In in Hy. now apply Hf.
Qed.
Lemma sorted_app a b : StronglySorted Z.lt a -> StronglySorted Z.lt b -> (forall x y, In x a -> In y b -> (x < y)%Z) -> StronglySorted Z.lt (a ++ b).
Proof.
  induction 1 as [|x a Hs IH Hf]; intros Hb H; cbn; [exact Hb|]. constructor.
  - apply IH; auto. intros; apply H; auto. now right.
  - rewrite Forall_forall in *. intros y Hy. apply in_app_or in Hy as [Hy|Hy]; [now apply Hf|]. apply H; auto. now left.
Qed.
Lemma sorted_parts l : StronglySorted Z.lt l ->
  l = filter (fun i => i <? 800)%Z l ++ filter (fun i => (800 <=? i) && (i <=? 899))%Z l ++ filter (fun i => 899 <? i)%Z l.
Proof.
  intros H. apply sorted_unique; [exact H| |].
  - repeat apply sorted_app; try (apply sorted_filter; exact H).
    + intros x y Hx Hy. apply filter_In in Hx as [_ Hx], Hy as [_ Hy]. apply andb_prop in Hx. lia.
    + intros x y Hx Hy. apply filter_In in Hx as [_ Hx]. apply in_app_or in Hy as [Hy|Hy]; apply filter_In in Hy as [_ Hy];
        [apply andb_prop in Hy|]; lia.
  - intros i. rewrite !in_app_iff, !filter_In. split; [|tauto]. intros Hi.
    destruct (Z.ltb_spec i 800); [left; auto|]. destruct (Z.ltb_spec 899 i); [right; right; auto|].
    right; left. split; [exact Hi|]. apply andb_true_intro. lia.
Qed.

Lemma texts_at_app L1 L2 i k : texts_at (L1 ++ L2) i k = texts_at L1 i k ++ texts_at L2 i k.
Proof. unfold texts_at. now rewrite filter_app, map_app. Qed.
Lemma texts_at_none L i k : (forall u, ~ In (i, k, u) L) -> texts_at L i k = [].
Proof. intros H. destruct (texts_at L i k) as [|u l] eqn:E; [reflexivity|]. destruct (H u). apply texts_at_In. rewrite E. now left. Qed.

Definition comment_triples (i : Z) (l : list (pystr * pystr)) : list triple :=
  map (fun x => (fst x, fst (snd x), snd (snd x))) (number_from i l).
Lemma comment_range l : forall i j k u, In (j, k, u) (comment_triples i l) -> (i <= j < i + Z.of_nat (length l))%Z.
Proof.
  induction l as [|x l IH]; intros i j k u H; [destruct H|]. cbn [comment_triples number_from map] in H. cbn [length].
  destruct H as [E|H]; [cbn in E; assert (i = j) by congruence; lia|]. apply IH in H. lia.
Qed.
Fixpoint en_indexes (i : Z) (l : list (pystr * pystr)) : list Z :=
  match l with [] => [] | x :: l' => if str_eqb (fst x) en then i :: en_indexes (i + 1) l' else en_indexes (i + 1) l' end.
Lemma en_indexes_ge l : forall i j, In j (en_indexes i l) -> (i <= j < i + Z.of_nat (length l))%Z.
Proof.
  induction l as [|x l IH]; intros i j H; [destruct H|]. cbn [en_indexes] in H. cbn [length].
  destruct (str_eqb (fst x) en); [destruct H as [<-|H]; [lia|]|]; apply IH in H; lia.
Qed.
Lemma en_indexes_sorted l : forall i, StronglySorted Z.lt (en_indexes i l).
Proof.
  induction l as [|x l IH]; intros i; cbn [en_indexes]; [constructor|]. destruct (str_eqb (fst x) en); [|apply IH].
  constructor; [apply IH|]. apply Forall_forall. intros j Hj. apply en_indexes_ge in Hj. lia.
Qed.
Lemma en_indexes_In l : forall i j, In j (en_indexes i l) <-> exists u, In (j, en, u) (comment_triples i l).
Proof.
  induction l as [|[k t] l IH]; intros i j; [split; [intros []|intros [u []]]|].
  cbn [en_indexes fst]. unfold comment_triples. cbn [number_from map fst snd]. fold (comment_triples (i + 1) l).
  destruct (str_eqb k en) eqn:E.
  - apply str_eqb_eq in E as ->. cbn [In]. rewrite IH. split.
    + intros [<-|[u H]]; [exists t; now left|exists u; now right].
    + intros [u [H|H]]; [left; congruence|right; now exists u].
  - rewrite IH. split; [intros [u H]; exists u; now right|]. intros [u [H|H]]; [|now exists u].
    assert (k = en) by congruence. subst k. now rewrite str_eqb_refl in E.
Qed.
Lemma en_indexes_texts l : forall i, map (fun j => join sep_default (texts_at (comment_triples i l) j en)) (en_indexes i l) = of_lang en l.
Proof.
  induction l as [|[k t] l IH]; intros i; [reflexivity|]. cbn [en_indexes fst].
  change (comment_triples i ((k, t) :: l)) with ([(i, k, t)] ++ comment_triples (i + 1) l).
  assert (Hm : map (fun j => join sep_default (texts_at ([(i, k, t)] ++ comment_triples (i + 1) l) j en)) (en_indexes (i + 1) l) = of_lang en l).
  { rewrite <- (IH (i + 1)%Z). apply map_ext_in. intros j Hj. apply en_indexes_ge in Hj. rewrite texts_at_app.
    rewrite (texts_at_none [(i, k, t)]); [reflexivity|]. intros u [E|[]]. assert (i = j) by congruence. lia. }
  unfold of_lang in *. cbn [filter fst]. destruct (str_eqb k en) eqn:E; [|exact Hm].
  cbn [map snd]. f_equal; [|exact Hm]. apply str_eqb_eq in E as ->. rewrite texts_at_app.
  rewrite (texts_at_none (comment_triples (i + 1) l)); [|intros u H; apply comment_range in H; lia].
  unfold texts_at. cbn [filter fst snd]. rewrite Z.eqb_refl, str_eqb_refl. cbn. reflexivity.
Qed.

(** the texts written, with few comments *)
Definition body_triples (u : unc) (nc : option pystr) : list triple :=
  map (fun x => (898%Z, en, x)) (pedigree_texts u) ++ comment_triples 801 (u_comments u) ++ map (fun x => (899%Z, en, x)) (nc_lines nc).
Lemma unc_texts_body fl u U : unc_texts fl u = Ok U -> exists nc, not_converted_text fl u = Ok nc /\
  (body_triples u nc = [] /\ U = [] \/ body_triples u nc <> [] /\ U = (800%Z, en, header) :: body_triples u nc).
Proof.
  unfold unc_texts. destruct (not_converted_text fl u) as [nc|] eqn:E; [|discriminate]. cbn [bind]. intros H. exists nc. split; [reflexivity|].
  assert (Eb : body_triples u nc = map (fun x => (898%Z, en, x)) (pedigree_texts u) ++ map (fun x => (fst x, fst (snd x), snd (snd x))) (number_from 801 (u_comments u))
              ++ match nc with Some x => [(899%Z, en, x)] | None => [] end).
  { unfold body_triples, comment_triples. now destruct nc. }
  cbv zeta in H. rewrite <- Eb in H. destruct (body_triples u nc) as [|a b]; injection H as <-; [left; now split|right; split; [discriminate|reflexivity]].
Qed.
Lemma const_texts (c i : Z) l : texts_at (map (fun x => (c, en, x)) l) i en = if Z.eqb c i then l else [].
Proof.
  induction l as [|x l IH]; [now destruct (Z.eqb c i)|]. unfold texts_at in *. cbn [map filter fst snd]. rewrite str_eqb_refl, andb_true_r.
  destruct (Z.eqb c i) eqn:E; cbn [map snd]; rewrite IH; reflexivity.
Qed.
Definition mid_indexes (u : unc) (nc : option pystr) : list Z :=
  800%Z :: en_indexes 801 (u_comments u) ++ map (fun _ => 898%Z) (joined (pedigree_texts u)) ++ map (fun _ => 899%Z) (nc_lines nc).
Lemma joined_cases l : l = [] /\ joined l = [] \/ l <> [] /\ joined l = [join sep_default l].
Proof. destruct l; [left|right]; split; auto; discriminate. Qed.

Lemma occurs_join sep x l : In x l -> occurs x (join sep l).
Proof.
  induction l as [|y l IH]; [intros []|]. intros H. destruct l as [|z l].
  - destruct H as [->|[]]. exists [], []. cbn. now rewrite app_nil_r.
  - rewrite join_cons by discriminate. destruct H as [->|H]; [now exists [], (sep ++ join sep (z :: l))|].
    destruct (IH H) as (a & b & ->). exists (y ++ sep ++ a), b. now rewrite <- !app_assoc.
Qed.
Lemma unc_text fl u U L t : unc_texts fl u = Ok U -> U <> [] -> (length (u_comments u) < 97)%nat -> among U L ->
  lang_text (Some sep_default) L en t ->
  exists nc A B, not_converted_text fl u = Ok nc /\ Forall plain A /\ Forall plain B /\ t = join newline (A ++ mid_lines u nc ++ B) /\
    (forall i v, In (i, en, v) L -> (899 < i)%Z -> exists l, In l B /\ occurs v l) /\
    ((forall i v, In (i, en, v) L -> (i <= 899)%Z) -> B = []).
Proof.
  intros HU Hne Hlen (O1 & O2 & EL & Ho & Hp) (idxs & Hs & Hin & Et).
  apply unc_texts_body in HU as (nc & Enc & [(_ & E)|(Hb & EU)]); [contradiction|]. exists nc.
  set (mid := fun i => ((800 <=? i) && (i <=? 899))%Z).
  assert (Hout : forall i k v, In (i, k, v) (O1 ++ O2) -> mid i = false /\ plain v).
  { intros i k v H. rewrite Forall_forall in Ho, Hp. split; [|exact (Hp _ H)]. apply Ho in H. unfold outside in H. cbn in H.
    unfold mid. apply andb_false_iff. lia. }
  assert (HmidU : forall i k v, In (i, k, v) U -> mid i = true).
  { intros i k v H. subst U. destruct H as [E|H]; [assert (i = 800%Z) by congruence; subst; reflexivity|].
    unfold body_triples in H. apply in_app_or in H as [H|H]; [|apply in_app_or in H as [H|H]].
    - apply in_map_iff in H as (x & E & _). assert (i = 898%Z) by congruence; subst; reflexivity.
    - apply comment_range in H. unfold mid. apply andb_true_intro. lia.
    - apply in_map_iff in H as (x & E & _). assert (i = 899%Z) by congruence; subst; reflexivity. }
  assert (TU : forall i, mid i = true -> texts_at L i en = texts_at U i en).
  { intros i Hi. rewrite EL, !texts_at_app.
    rewrite (texts_at_none O1), (texts_at_none O2); [now rewrite app_nil_r| |];
      intros v H; destruct (Hout i en v) as [E _]; try (apply in_or_app; auto); congruence. }
  assert (TO : forall i, mid i = false -> Forall plain (texts_at L i en)).
  { intros i Hi. apply Forall_forall. intros v Hv. apply texts_at_In in Hv. rewrite EL in Hv. rewrite !in_app_iff in Hv.
    destruct Hv as [H|[H|H]]; [apply (Hout i en v); apply in_or_app; auto| |apply (Hout i en v); apply in_or_app; auto].
    apply HmidU in H. congruence. }
  assert (Emid : filter mid idxs = mid_indexes u nc).
  { apply sorted_unique; [apply sorted_filter; exact Hs| |].
    - unfold mid_indexes. constructor.
      + apply sorted_app; [apply en_indexes_sorted| |].
        * destruct (joined_cases (pedigree_texts u)) as [(_ & ->)|(_ & ->)]; destruct nc; cbn; repeat constructor; lia.
        * intros x y Hx Hy. apply en_indexes_ge in Hx. apply in_app_or in Hy as [Hy|Hy]; apply in_map_iff in Hy as (? & <- & _); lia.
      + apply Forall_forall. intros y Hy. rewrite !in_app_iff in Hy. destruct Hy as [Hy|[Hy|Hy]];
          [apply en_indexes_ge in Hy; lia| |]; apply in_map_iff in Hy as (? & <- & _); lia.
    - intros i. rewrite filter_In, Hin. unfold mid_indexes. cbn [In]. rewrite !in_app_iff, en_indexes_In. split.
      + intros ((v & Hv) & Hi). apply texts_at_In in Hv. rewrite (TU i Hi), texts_at_In in Hv. subst U.
        destruct Hv as [E|Hv]; [left; congruence|right]. unfold body_triples in Hv. rewrite !in_app_iff in Hv. destruct Hv as [Hv|[Hv|Hv]].
        * right; left. apply in_map_iff in Hv as (x & E & Hx). assert (i = 898%Z) by congruence; subst i.
          destruct (pedigree_texts u); [destruct Hx|]. now left.
        * left. now exists v.
        * right; right. apply in_map_iff in Hv as (x & E & Hx). assert (i = 899%Z) by congruence; subst i.
          destruct nc; [now left|destruct Hx].
      + intros H. assert (exists v, In (i, en, v) U) as [v Hv].
        { subst U. unfold body_triples. destruct H as [<-|[[v H]|[H|H]]].
          - exists header. now left.
          - exists v. right. rewrite !in_app_iff. auto.
          - apply in_map_iff in H as (x & <- & Hx). destruct (pedigree_texts u) as [|y l] eqn:Ep; [destruct Hx|]. exists y. right. rewrite ?Ep.
            apply in_or_app. left. now left.
          - apply in_map_iff in H as (x & <- & Hx). destruct nc as [y|]; [|destruct Hx]. exists y. right. rewrite !in_app_iff. right. right. now left. }
        split; [|now apply HmidU in Hv]. exists v. rewrite EL, !in_app_iff. auto. }
  set (line := fun i => merged (Some sep_default) (texts_at L i en)) in *.
  exists (map line (filter (fun i => i <? 800)%Z idxs)), (map line (filter (fun i => 899 <? i)%Z idxs)).
  assert (Hplain : forall i, mid i = false -> plain (line i)).
  { intros i Hi. unfold line. cbn [merged]. specialize (TO i Hi). rewrite Forall_forall in TO.
    repeat split; intros Hc; (apply occurs_semicolon_join in Hc as (v & Hv & Hc);
      [apply TO in Hv; destruct Hv as (P1 & P2 & P3 & P4); contradiction|discriminate| |discriminate]);
      intros Hi'; vm_compute in Hi'; repeat (destruct Hi' as [Hi'|Hi']; [discriminate|]); destruct Hi'. }
  split; [exact Enc|]. split; [|split; [|split; [|split]]].
  4: { intros i v Hv Hi. exists (line i). split.
       - apply in_map. apply filter_In. split; [apply Hin; now exists v|]. apply Z.ltb_lt. exact Hi.
       - unfold line. cbn [merged]. apply occurs_join. now apply texts_at_In. }
  4: { intros H. destruct (filter (fun i => 899 <? i)%Z idxs) as [|i r] eqn:E; [reflexivity|]. exfalso.
       assert (Hi : In i (filter (fun i => 899 <? i)%Z idxs)) by (rewrite E; now left). apply filter_In in Hi as [Hi Hl].
       apply Hin in Hi as [v Hv]. apply H in Hv. apply Z.ltb_lt in Hl. lia. }
  - apply Forall_map, Forall_forall. intros i Hi. apply filter_In in Hi as [_ Hi]. apply Hplain. unfold mid. apply andb_false_iff. lia.
  - apply Forall_map, Forall_forall. intros i Hi. apply filter_In in Hi as [_ Hi]. apply Hplain. unfold mid. apply andb_false_iff. lia.
  - rewrite Et. f_equal. fold line. rewrite (sorted_parts idxs Hs) at 1. rewrite !map_app. f_equal. f_equal. fold mid. rewrite Emid.
    assert (TUb : forall i, mid i = true -> i <> 800%Z -> line i = join sep_default (texts_at (body_triples u nc) i en)).
    { intros i Hi Hn. unfold line. cbn [merged]. rewrite (TU i Hi), EU. f_equal.
      change ((800%Z, en, header) :: body_triples u nc) with ([(800%Z, en, header)] ++ body_triples u nc). rewrite texts_at_app.
      rewrite (texts_at_none [(800%Z, en, header)]); [reflexivity|]. intros v [E|[]]. congruence. }
    assert (Tb : forall i, texts_at (body_triples u nc) i en =
      (if Z.eqb 898 i then pedigree_texts u else []) ++ texts_at (comment_triples 801 (u_comments u)) i en ++ (if Z.eqb 899 i then nc_lines nc else [])).
    { intros i. unfold body_triples. now rewrite !texts_at_app, !const_texts. }
    assert (Tc : forall i, (898 <= i)%Z -> texts_at (comment_triples 801 (u_comments u)) i en = []).
    { intros i Hi. apply texts_at_none. intros v H. apply comment_range in H. lia. }
    unfold mid_indexes, mid_lines. cbn [map]. f_equal.
    + unfold line. cbn [merged]. rewrite (TU 800%Z eq_refl), EU.
      change ((800%Z, en, header) :: body_triples u nc) with ([(800%Z, en, header)] ++ body_triples u nc). rewrite texts_at_app, Tb.
      rewrite (texts_at_none (comment_triples 801 (u_comments u))) by (intros v H; apply comment_range in H; lia). reflexivity.
    + rewrite !map_app. f_equal; [|f_equal].
      * rewrite <- (en_indexes_texts (u_comments u) 801). apply map_ext_in. intros i Hi. apply en_indexes_ge in Hi.
        rewrite TUb, Tb; [|unfold mid; apply andb_true_intro; lia|lia].
        destruct (Z.eqb_spec 898 i); [lia|]. destruct (Z.eqb_spec 899 i); [lia|]. cbn [app]. now rewrite app_nil_r.
      * destruct (joined_cases (pedigree_texts u)) as [(_ & ->)|(_ & ->)]; [reflexivity|]. cbn [map]. f_equal.
        rewrite TUb, Tb, Tc by (reflexivity || lia). change (898 =? 898)%Z with true. change (899 =? 898)%Z with false. cbn iota. now rewrite !app_nil_r.
      * destruct nc as [x|]; [|reflexivity]. cbn [nc_lines map]. f_equal.
        rewrite TUb, Tb, Tc by (reflexivity || lia). reflexivity.
Qed.

(** ** Reading a row *)
Definition tail (B : list pystr) : pystr := match B with [] => [] | _ => newline ++ join newline B end.
Lemma join_tail x B : join newline (x :: B) = x ++ tail B.
Proof. destruct B; [cbn; now rewrite app_nil_r|]. rewrite join_cons by discriminate. reflexivity. Qed.
Lemma join_mid P x B : join newline (P ++ x :: B) = closed_lines P ++ x ++ tail B.
Proof. rewrite join_newline by discriminate. now rewrite join_tail. Qed.
Lemma not_in_tail m x B : m <> [] -> one_line m -> ~ occurs m x -> Forall (fun l => ~ occurs m l) B -> ~ occurs m (x ++ tail B).
Proof.
  intros Hm Ho Hx HB Hc. rewrite <- join_tail in Hc. apply occurs_newline_join in Hc as (l & [<-|Hl] & Hc); auto.
  rewrite Forall_forall in HB. now apply (HB l).
Qed.
Lemma occurs_prefix m m' s : occurs (m ++ m') s -> occurs m s.
Proof. intros (a & b & ->). exists a, (m' ++ b). now rewrite <- app_assoc. Qed.
Lemma quiet_prefix m m' s : quiet m s -> quiet (m ++ m') s.
Proof.
  intros H a c b w E. apply not_true_iff_false. intros Hp. apply prefixb_spec in Hp as [r Hr].
  specialize (H a c b w E). rewrite Hr, <- app_assoc, prefixb_app in H. discriminate.
Qed.
Lemma replace_one m pre post : m <> [] -> quiet m pre -> ~ occurs m post -> replace m [] (pre ++ m ++ post) = pre ++ post.
Proof.
  intros Hm Hq Hp. rewrite replace_front; [|intros a c b E; apply (Hq a c b _ E)]. rewrite replace_hit by exact Hm.
  now rewrite replace_absent.
Qed.

Definition marks : list pystr := [header; mark_ped; mark_var; mark_nc].
Lemma mark_ok m : In m marks -> m <> [] /\ one_line m.
Proof.
  intros [<-|[<-|[<-|[<-|[]]]]]; (split; [discriminate|]); intros H; vm_compute in H; repeat (destruct H as [H|H]; [discriminate|]); destruct H.
Qed.
Lemma plain_mark m s : In m marks -> plain s -> ~ occurs m s.
Proof. intros [<-|[<-|[<-|[<-|[]]]]] (H1 & H2 & H3 & H4); assumption. Qed.
Lemma plain_free m ls : In m marks -> Forall plain ls -> Forall (fun l => ~ occurs m l) ls.
Proof. intros Hm. apply Forall_impl. intros l. now apply plain_mark. Qed.
Lemma plain_quiet m ls : In m marks -> Forall plain ls -> quiet m (closed_lines ls).
Proof. intros Hm H. destruct (mark_ok m Hm). apply quiet_lines; auto. now apply plain_free. Qed.
Lemma free_join m ls : In m marks -> Forall (fun l => ~ occurs m l) ls -> ~ occurs m (join newline ls).
Proof.
  intros Hm H Hc. destruct (mark_ok m Hm) as [H1 H2]. apply occurs_newline_join in Hc as (l & Hl & Hc); auto.
  rewrite Forall_forall in H. now apply (H l).
Qed.
Lemma in_marks : In header marks /\ In mark_ped marks /\ In mark_var marks /\ In mark_nc marks.
Proof. unfold marks. cbn [In]. tauto. Qed.

Lemma row_split A rest : rest <> [] -> Forall plain A -> Forall (fun l => ~ occurs header l) rest ->
  infixb header_nl (join newline (A ++ header :: rest)) = true /\
  last (split header_nl (join newline (A ++ header :: rest))) [] = join newline rest.
Proof.
  intros Hne HA Hr. destruct in_marks as (Hh & _).
  assert (E : join newline (A ++ header :: rest) = closed_lines A ++ header_nl ++ join newline rest).
  { rewrite join_mid. unfold header_nl. destruct rest; [contradiction|]. cbn [tail]. now rewrite <- !app_assoc. }
  rewrite E. split.
  - apply infixb_occurs. now exists (closed_lines A), (join newline rest).
  - unfold split. rewrite split_quiet.
    + rewrite split_last; [reflexivity|discriminate|]. intros Hc. apply occurs_prefix in Hc. revert Hc. now apply free_join.
    + discriminate.
    + intros a c b E'. exact (quiet_prefix header newline _ (plain_quiet header A Hh HA) a c b _ E').
Qed.
Lemma row_no_header ls : Forall (fun l => ~ occurs header l) ls -> infixb header_nl (join newline ls) = false.
Proof.
  intros H. apply not_true_iff_false. intros Hc. apply infixb_occurs, occurs_prefix in Hc. revert Hc. apply free_join; [apply in_marks|exact H].
Qed.
Lemma row_header_last A : Forall plain A -> infixb header_nl (join newline (A ++ [header])) = false.
Proof.
  intros HA. apply not_true_iff_false. intros Hc. apply infixb_occurs in Hc. revert Hc. rewrite join_mid. cbn [tail]. rewrite app_nil_r.
  apply quiet_not_occurs; [discriminate|apply quiet_prefix, plain_quiet; [apply in_marks|exact HA]|].
  intros (a & b & E). apply (f_equal (@length N)) in E. unfold header_nl in E. rewrite !app_length in E. cbn [length newline] in E. lia.
Qed.

Lemma score_b s : score s -> exists c, s = [c] /\ is_digit c = true.
Proof. intros (c & -> & H). exists c. split; [reflexivity|]. unfold is_digit, between. apply andb_true_intro. split; apply N.leb_le; lia. Qed.
Lemma five_scores l : length l = 5%nat -> Forall score l ->
  scores_ok (join [comma] l) = true /\ length (join [comma] l) = 9%nat /\ Forall (fun c => is_digit c = true \/ c = comma) (join [comma] l) /\
  split [comma] (join [comma] l) = l.
Proof.
  intros Hl H. split; [|split; [|split]].
  4: { apply split_char_of_join; [now destruct l|]. revert H. apply Forall_impl. intros s (c & -> & Hc) [E|[]]. unfold comma in E. lia. }
  all: destruct l as [|a [|b [|c [|d [|e [|]]]]]]; try discriminate Hl.
  all: repeat match goal with H : Forall score (_ :: _) |- _ => inversion H; clear H; subst end.
  all: repeat match goal with H : score _ |- _ => apply score_b in H as (? & -> & ?) end.
  - cbn [join app scores_ok]. unfold is_score.
    repeat match goal with H : is_digit _ = true |- _ => rewrite H; clear H end. reflexivity.
  - reflexivity.
  - cbn [join app]. repeat (constructor; [first [now left|now right]|]). constructor.
Qed.

Lemma match_ped_mark s v r : match_ped s = Some (v, r) -> prefixb mark_ped s = true /\ length r < length s.
Proof.
  unfold match_ped. destruct (prefixb mark_ped s) eqn:E; [|discriminate]. intros H. split; [reflexivity|].
  apply prefixb_spec in E as [x ->]. rewrite skipn_app_len in H. destruct (_ && _)%bool; [|discriminate].
  assert (r = skipn 10 x) by congruence. subst r. rewrite app_length, skipn_length. change (length mark_ped) with 11%nat. lia.
Qed.
Lemma match_ped_hit g w : scores_ok g = true -> length g = 9%nat -> match_ped (mark_ped ++ g ++ lit ")" ++ w) = Some (g, w).
Proof.
  intros Hg Hl. unfold match_ped. rewrite prefixb_app, skipn_app_len. cbv zeta.
  rewrite (firstn_app_len g _ 9 Hl), (skipn_app_n g _ 9 Hl), Hg.
  replace (skipn 10 (g ++ lit ")" ++ w)) with w; [reflexivity|].
  change (lit ")" ++ w) with ([41%N] ++ w). rewrite app_assoc. symmetry. apply skipn_app_n. rewrite app_length, Hl. reflexivity.
Qed.
Lemma span_stop p a r : forallb p a = true -> match r with [] => True | c :: _ => p c = false end -> span p (a ++ r) = (a, r).
Proof. intros Ha Hr. destruct r as [|c r]; [rewrite app_nil_r; now apply span_end|now apply span_run]. Qed.
Lemma match_var_mark s v r : match_var s = Some (v, r) -> prefixb mark_var s = true /\ length r < length s.
Proof.
  unfold match_var. destruct (prefixb mark_var s) eqn:E; [|discriminate]. intros H. split; [reflexivity|].
  apply prefixb_spec in E as [x ->]. rewrite skipn_app_len in H. destruct (span is_num x) as [a b] eqn:Es. apply span_split in Es. subst x.
  destruct a as [|c a]; [discriminate|]. assert (r = b) by congruence. subst r. rewrite !app_length. change (length mark_var) with 16%nat. lia.
Qed.
Lemma match_var_hit d r : d <> [] -> forallb is_num d = true -> match r with [] => True | c :: _ => is_num c = false end ->
  match_var (mark_var ++ d ++ r) = Some (d, r).
Proof.
  intros Hd Hn Hr. unfold match_var. rewrite prefixb_app, skipn_app_len, (span_stop _ _ _ Hn Hr). destruct d; [contradiction|reflexivity].
Qed.

Definition vis (lang c : pystr) : list (pystr * pystr) := if (nonempty c && negb (isspace c))%bool then [(lang, c)] else [].
Lemma absent_infixb m s : ~ occurs m s -> infixb m s = false.
Proof. intros H. apply not_true_iff_false. intros Hc. now apply H, infixb_occurs. Qed.
Lemma read_plain st lang A rest : rest <> [] -> Forall plain A -> Forall plain rest ->
  read_row st (lang, join newline (A ++ header :: rest)) =
  Ok {| f_pedigree := f_pedigree st; f_var := f_var st; f_comment := f_comment st ++ vis lang (join newline rest) |}.
Proof.
  intros Hne HA Hr. destruct in_marks as (Hh & Hp & Hv & _).
  destruct (row_split A rest Hne HA (plain_free header rest Hh Hr)) as (E1 & E2). unfold read_row. rewrite E1, E2. cbv zeta.
  rewrite (absent_infixb mark_ped) by (apply free_join; [exact Hp|now apply plain_free]). cbn [bind].
  rewrite (absent_infixb mark_var) by (apply free_join; [exact Hv|now apply plain_free]). reflexivity.
Qed.
(** the line of the pedigree: the scores [g], then [x] *)
Definition ped_line (g x : pystr) : pystr := mark_ped ++ g ++ lit ")" ++ x.
Lemma ped_free g x c m : Forall (fun c => is_digit c = true \/ c = comma) g -> In c m -> ~ In c mark_ped -> is_digit c = false -> c <> comma -> c <> 41%N ->
  ~ In c x -> ~ occurs m (ped_line g x).
Proof.
  intros Hg Hc H1 H2 H3 H4 H5. apply (occurs_char m _ c Hc). unfold ped_line. rewrite !in_app_iff. intros [H|[H|[H|H]]]; try contradiction.
  - rewrite Forall_forall in Hg. apply Hg in H as [H|H]; congruence.
  - destruct H as [H|[]]. apply H4. rewrite <- H. reflexivity.
Qed.
Definition sep_var : pystr := lit "; " ++ mark_var.
Lemma not_in_lit (c : N) (l : pystr) : existsb (N.eqb c) l = false -> ~ In c l.
Proof. intros H Hi. assert (existsb (N.eqb c) l = true) by (apply existsb_exists; exists c; split; [exact Hi|apply N.eqb_refl]). congruence. Qed.

Lemma read_ped st lang A P g x B : Forall plain A -> Forall plain P -> Forall plain B -> scores_ok g = true -> length g = 9%nat ->
  Forall (fun c => is_digit c = true \/ c = comma) g -> ~ In 85%N x -> ~ occurs mark_ped x ->
  read_row st (lang, join newline (A ++ header :: P ++ ped_line g x :: B)) =
  (let c := join newline (P ++ x :: B) in
   bind (if infixb mark_var c
          then match search_with match_var c with
               | Some g => if float_ok g then Ok (Some g, replace (mark_var ++ g) [] c) else Err ValueError
               | None => Err AttributeError
               end
          else Ok (f_var st, c)) (fun '(var, c) =>
    Ok {| f_pedigree := Some g; f_var := var; f_comment := f_comment st ++ vis lang c |})).
Proof.
  intros HA HP HB Hg Hl Hd Hu Hx. destruct in_marks as (Hh & Hp & Hv & _).
  assert (E1 := row_split A (P ++ ped_line g x :: B)). destruct E1 as (E1 & E2); [now destruct P|exact HA| |].
  { apply Forall_app. split; [now apply plain_free|]. constructor; [|now apply plain_free].
    apply (ped_free g x 85%N); auto; try discriminate; [now left|apply not_in_lit; reflexivity]. }
  unfold read_row. rewrite E1, E2. cbv zeta.
  assert (Ec : join newline (P ++ ped_line g x :: B) = closed_lines P ++ (mark_ped ++ g ++ lit ")") ++ x ++ tail B).
  { rewrite join_mid. unfold ped_line. now rewrite <- !app_assoc. }
  assert (Hi : infixb mark_ped (join newline (P ++ ped_line g x :: B)) = true).
  { apply infixb_occurs. rewrite Ec. exists (closed_lines P), (g ++ lit ")" ++ x ++ tail B). now rewrite <- !app_assoc. }
  rewrite Hi.
  assert (Hs : search_with match_ped (join newline (P ++ ped_line g x :: B)) = Some g).
  { rewrite Ec. rewrite (search_quiet mark_ped match_ped match_ped_mark) by (now apply plain_quiet).
    rewrite <- !app_assoc. apply (search_hit match_ped) with (r := x ++ tail B). now apply match_ped_hit. }
  rewrite Hs.
  assert (Hr : replace (mark_ped ++ g ++ lit ")") [] (join newline (P ++ ped_line g x :: B)) = join newline (P ++ x :: B)).
  { rewrite Ec, join_mid. apply replace_one; [discriminate|apply quiet_prefix; now apply plain_quiet|].
    intros Hc. apply occurs_prefix in Hc. revert Hc. destruct (mark_ok mark_ped Hp). apply not_in_tail; auto. now apply plain_free. }
  rewrite Hr. cbn [bind]. reflexivity.
Qed.
Lemma read_scores st lang A P g B : Forall plain A -> Forall plain P -> Forall plain B -> scores_ok g = true -> length g = 9%nat ->
  Forall (fun c => is_digit c = true \/ c = comma) g ->
  read_row st (lang, join newline (A ++ header :: P ++ ped_line g [] :: B)) =
  Ok {| f_pedigree := Some g; f_var := f_var st; f_comment := f_comment st ++ vis lang (join newline (P ++ [] :: B)) |}.
Proof.
  intros HA HP HB Hg Hl Hd. rewrite read_ped; auto; [|intros (a & b & E); destruct a; discriminate]. cbv zeta.
  rewrite (absent_infixb mark_var); [reflexivity|]. destruct in_marks as (_ & _ & Hv & _). apply free_join; [exact Hv|].
  apply Forall_app. split; [now apply plain_free|]. constructor; [|now apply plain_free]. intros (a & b & E); destruct a; discriminate.
Qed.
Definition exp_chars : pystr := lit "0123456789.eE+-".
Lemma exp_not c w : existsb (N.eqb c) exp_chars = false -> Forall (fun c => In c exp_chars) w -> ~ In c w.
Proof. intros Hc Hw Hi. rewrite Forall_forall in Hw. apply Hw in Hi. revert Hi. now apply not_in_lit. Qed.
Lemma read_variance st lang A P g d w B : Forall plain A -> Forall plain P -> Forall plain B -> scores_ok g = true -> length g = 9%nat ->
  Forall (fun c => is_digit c = true \/ c = comma) g -> d <> [] -> forallb is_num d = true ->
  match w with [] => True | c :: _ => is_num c = false end -> Forall (fun c => In c exp_chars) w ->
  read_row st (lang, join newline (A ++ header :: P ++ ped_line g (sep_var ++ d ++ w) :: B)) =
  if float_ok d
  then Ok {| f_pedigree := Some g; f_var := Some d; f_comment := f_comment st ++ vis lang (join newline (P ++ (lit "; " ++ w) :: B)) |}
  else Err ValueError.
Proof.
  intros HA HP HB Hg Hl Hd Hdn Hdig Hw HE. destruct in_marks as (_ & Hp & Hv & _).
  assert (Hnum : forall c, is_num c = false -> ~ In c d).
  { intros c H Hi. rewrite forallb_forall in Hdig. apply Hdig in Hi. congruence. }
  assert (Hx : forall c, existsb (N.eqb c) sep_var = false -> is_num c = false -> existsb (N.eqb c) exp_chars = false -> ~ In c (sep_var ++ d ++ w)).
  { intros c H1 H2 H3. rewrite !in_app_iff. intros [H|[H|H]]; revert H; [now apply not_in_lit|now apply Hnum|now apply exp_not]. }
  rewrite read_ped; auto; [|apply (occurs_char mark_ped _ 80%N); [now left|now apply Hx]].
  cbv zeta.
  assert (Ec : join newline (P ++ (sep_var ++ d ++ w) :: B) = (closed_lines P ++ lit "; ") ++ (mark_var ++ d) ++ w ++ tail B).
  { rewrite join_mid. unfold sep_var. now rewrite <- !app_assoc. }
  assert (Hq : quiet mark_var (closed_lines P ++ lit "; ")).
  { apply quiet_app; [now apply plain_quiet|]. apply quiet_b_ok. reflexivity. }
  assert (Hi : infixb mark_var (join newline (P ++ (sep_var ++ d ++ w) :: B)) = true).
  { apply infixb_occurs. rewrite Ec. exists (closed_lines P ++ lit "; "), (d ++ w ++ tail B). now rewrite <- !app_assoc. }
  assert (Hs : search_with match_var (join newline (P ++ (sep_var ++ d ++ w) :: B)) = Some d).
  { rewrite Ec. rewrite (search_quiet mark_var match_var match_var_mark) by exact Hq.
    rewrite <- app_assoc. apply (search_hit match_var) with (r := w ++ tail B). apply match_var_hit; auto.
    destruct w; [|exact Hw]. destruct B; [exact I|reflexivity]. }
  rewrite Hi, Hs. destruct (float_ok d); [|reflexivity]. cbn [bind].
  assert (Hr : replace (mark_var ++ d) [] (join newline (P ++ (sep_var ++ d ++ w) :: B)) = join newline (P ++ (lit "; " ++ w) :: B)).
  { rewrite Ec, join_mid. rewrite replace_one; [now rewrite <- !app_assoc|discriminate|now apply quiet_prefix|].
    intros Hc. apply occurs_prefix in Hc. revert Hc. destruct (mark_ok mark_var Hv). apply not_in_tail; auto; [|now apply plain_free].
    apply (occurs_char mark_var w 58%N); [vm_compute; tauto|]. now apply exp_not. }
  rewrite Hr. reflexivity.
Qed.

(** ** Texts of the distributions without counterpart *)
Lemma search_at {A} (M : pystr -> option (A * pystr)) pre s v r : (forall a c b, pre = a ++ c :: b -> M (c :: b ++ s) = None) ->
  M s = Some (v, r) -> search_with M (pre ++ s) = Some v.
Proof.
  intros H Hs. induction pre as [|c pre IH]; cbn [app].
  - destruct s; cbn [search_with]; now rewrite Hs.
  - cbn [search_with]. rewrite (H [] c pre eq_refl). apply IH. intros a d b E. apply (H (c :: a) d b). now rewrite E.
Qed.
Lemma match_nc_prefix s : prefixb (newline ++ mark_nc) s = false -> match_nc s = None.
Proof. intros H. unfold match_nc. now rewrite H. Qed.
Lemma nc_absent t : ~ occurs mark_nc t -> search_with match_nc t = None.
Proof.
  intros H. apply search_all_none. intros a b ->. apply match_nc_prefix. apply not_true_iff_false. intros Hp. apply prefixb_spec in Hp as [x ->].
  apply H. exists (a ++ newline), x. now rewrite <- !app_assoc.
Qed.
Lemma match_nc_hit name ps B : name <> [] -> forallb is_Az name = true -> one_line ps ->
  exists r, match_nc (newline ++ mark_nc ++ name ++ mid_nc ++ ps ++ tail B) = Some (ps, r).
Proof.
  intros Hn Ha Hp. unfold match_nc. rewrite app_assoc, prefixb_app, skipn_app_len.
  rewrite (span_stop is_Az name) by (auto; reflexivity). destruct name; [contradiction|].
  rewrite prefixb_app, skipn_app_len. destruct B as [|b B].
  - cbn [tail]. rewrite app_nil_r, cut_line_end by exact Hp. eexists; reflexivity.
  - cbn [tail]. change (newline ++ join newline (b :: B)) with (10%N :: join newline (b :: B)). rewrite cut_line_one by exact Hp. eexists; reflexivity.
Qed.
Lemma search_nc P name ps B : Forall (fun l => ~ occurs mark_nc l) P -> name <> [] -> forallb is_Az name = true -> one_line ps ->
  search_with match_nc (join newline (P ++ (newline ++ mark_nc ++ name ++ mid_nc ++ ps) :: B)) = Some ps.
Proof.
  intros HP Hn Ha Hp. rewrite join_mid. rewrite <- !app_assoc.
  destruct (match_nc_hit name ps B Hn Ha Hp) as [r Hr]. apply (search_at match_nc _ _ ps r); [|exact Hr].
  intros a c b E. apply match_nc_prefix. apply not_true_iff_false. intros H. apply prefixb_spec in H as [x Hx].
  cbn [newline app] in Hx. injection Hx as -> Hx. destruct b as [|d b]; [discriminate Hx|].
  assert (Hq : quiet mark_nc (closed_lines P)) by (destruct in_marks as (_ & _ & _ & Hm); destruct (mark_ok _ Hm); now apply quiet_lines).
  specialize (Hq (a ++ [10%N]) d b (newline ++ mark_nc ++ name ++ mid_nc ++ ps ++ tail B)).
  rewrite <- app_assoc in Hq. specialize (Hq E).
  assert (prefixb mark_nc (d :: b ++ newline ++ mark_nc ++ name ++ mid_nc ++ ps ++ tail B) = true); [|congruence].
  apply prefixb_spec. exists x. exact Hx.
Qed.

Lemma strip_clean s : s <> [] -> (forall c, In c s -> is_space c = false) -> strip s = s.
Proof.
  intros Hn H. destruct s as [|c s]; [contradiction|]. destruct (@exists_last _ (c :: s) Hn) as (l & d & E).
  destruct l as [|c' l].
  - cbn in E. injection E as -> ->. unfold strip, lstrip, rstrip. cbn. rewrite (H d (or_introl eq_refl)). cbn. rewrite (H d (or_introl eq_refl)). reflexivity.
  - cbn in E. injection E as -> ->. apply strip_id; apply H; [now left|right; apply in_or_app; right; now left].
Qed.
Definition kv (p : pystr * pystr) : pystr := fst p ++ lit "=" ++ snd p.
Lemma join_spaced x xs : join (lit ", ") (x :: xs) = join [comma] (x :: map (cons 32%N) xs).
Proof.
  revert x. induction xs as [|y xs IH]; intros x; [reflexivity|]. rewrite join_cons by discriminate.
  cbn [map]. rewrite (join_cons [comma]) by discriminate. rewrite IH. destruct xs; reflexivity.
Qed.
Lemma clean_no c s : number_text s -> c = comma \/ c = equals \/ c = 32%N \/ c = 10%N -> ~ In c s.
Proof. intros (_ & H) Hc Hi. destruct (H c Hi) as (H1 & H2 & H3 & H4). unfold comma, equals in Hc. destruct Hc as [->|[->|[->| ->]]]; try congruence. discriminate H4. Qed.
Lemma attribute_at sp k v : sp = [] \/ sp = [32%N] -> number_text k -> number_text v -> attribute (sp ++ kv (k, v)) = Ok (k, v).
Proof.
  intros Hsp Hk Hv. unfold attribute, kv. cbn [fst snd].
  assert (E : sp ++ k ++ lit "=" ++ v = join [equals] [sp ++ k; v]) by (cbn [join]; now rewrite <- app_assoc).
  assert (Hsk : ~ In equals (sp ++ k)).
  { rewrite in_app_iff. intros [H|H]; [destruct Hsp as [->| ->]; [destruct H|destruct H as [H|[]]; discriminate]|]. revert H. apply clean_no; auto. }
  rewrite E, split_char_of_join; [|discriminate|repeat constructor; [exact Hsk|apply clean_no; auto]].
  rewrite (strip_clean v); [|apply Hv|intros c Hc; apply Hv in Hc; tauto].
  assert (Es : strip (sp ++ k) = k).
  { destruct Hsp as [->| ->]; cbn [app]; [|unfold strip; cbn [lstrip]; change (is_space 32) with true; cbn iota; fold (strip k)];
      (apply strip_clean; [apply Hk|intros c Hc; apply Hk in Hc; tauto]). }
  rewrite Es. rewrite replace_absent; [reflexivity|discriminate|].
  apply (occurs_char _ k 32%N); [now left|]. apply clean_no; auto.
Qed.
Lemma kv_no_comma p : number_text (fst p) -> number_text (snd p) -> ~ In comma (kv p).
Proof.
  intros H1 H2. unfold kv. rewrite !in_app_iff. intros [H|[H|H]]; [revert H; apply clean_no; auto| |revert H; apply clean_no; auto].
  destruct H as [H|[]]. discriminate H.
Qed.
Lemma mapM_Ok {A B} (f : A -> result B) (g : A -> B) l : (forall x, In x l -> f x = Ok (g x)) -> mapM f l = Ok (map g l).
Proof.
  induction l as [|x l IH]; intros H; [reflexivity|]. cbn [mapM map]. rewrite (H x (or_introl eq_refl)). cbn [bind].
  rewrite IH; [reflexivity|]. intros y Hy. apply H. now right.
Qed.
Lemma attributes_at items : items <> [] -> Forall (fun p => number_text (fst p) /\ number_text (snd p)) items ->
  attributes_of (join (lit ", ") (map kv items)) = Ok (rev items).
Proof.
  intros Hne H. destruct items as [|[k v] items]; [contradiction|]. inversion H as [|? ? [Hk Hv] Hr]; subst. cbn [fst snd] in Hk, Hv. unfold attributes_of.
  cbn [map]. rewrite join_spaced, split_char_of_join; [|discriminate|].
  - cbn [mapM]. assert (E0 := attribute_at [] k v (or_introl eq_refl) Hk Hv). cbn [app] in E0. rewrite E0.
    assert (E : mapM attribute (map (cons 32%N) (map kv items)) = Ok items).
    { clear H Hk Hv Hne E0. induction Hr as [|[a b] l [H1 H2] Hr IH]; [reflexivity|]. cbn [map mapM].
      assert (E1 := attribute_at [32%N] a b (or_intror eq_refl) H1 H2). cbn [app] in E1. rewrite E1. cbn [bind]. now rewrite IH. }
    cbn [bind]. rewrite E. reflexivity.
  - constructor; [now apply kv_no_comma|]. rewrite !Forall_map. revert Hr. apply Forall_impl. intros q [H1 H2] [E|Hi]; [discriminate E|].
    revert Hi. now apply kv_no_comma.
Qed.
Lemma items_line items : items <> [] -> Forall (fun p => number_text (fst p) /\ number_text (snd p)) items ->
  one_line (join (lit ", ") (map kv items)) /\ existsb (N.eqb equals) (join (lit ", ") (map kv items)) = true.
Proof.
  intros Hne H. split.
  - induction H as [|p items [H1 H2] Hr IH]; [contradiction|]. assert (Hp : ~ In 10%N (kv p)).
    { unfold kv. rewrite !in_app_iff. intros [Hc|[Hc|Hc]]; [revert Hc; apply clean_no; auto|destruct Hc as [Hc|[]]; discriminate Hc|revert Hc; apply clean_no; auto]. }
    destruct items as [|q items]; [exact Hp|]. cbn [map]. rewrite join_cons by discriminate. unfold one_line. rewrite !in_app_iff.
    intros [Hc|[Hc|Hc]]; [contradiction|destruct Hc as [Hc|[Hc|[]]]; discriminate Hc|]. now apply IH.
  - destruct items as [|p items]; [contradiction|]. apply existsb_exists. exists equals. split; [|reflexivity].
    destruct (occurs_join (lit ", ") (kv p) (map kv (p :: items)) (or_introl eq_refl)) as (a & b & ->).
    rewrite !in_app_iff. right. left. unfold kv. rewrite !in_app_iff. right. left. now left.
Qed.

Lemma find_row (rows R1 R2 : list (pystr * pystr)) t items : rows = R1 ++ (en, t) :: R2 ->
  Forall (fun r => search_with match_nc (snd r) = None) R1 ->
  items <> [] -> Forall (fun p => number_text (fst p) /\ number_text (snd p)) items ->
  search_with match_nc t = Some (join (lit ", ") (map kv items)) -> init_from_comment rows = Ok (Some (rev items)).
Proof.
  intros -> HR Hne Hi Ht. induction HR as [|[k x] R1 Hx HR IH]; cbn [app init_from_comment].
  - rewrite Ht. destruct (items_line items Hne Hi) as [_ ->]. rewrite attributes_at by auto. reflexivity.
  - cbn [snd] in Hx. rewrite Hx. exact IH.
Qed.

Lemma mapM_forall2 {A B} (f : A -> result B) l r : mapM f l = Ok r -> Forall2 (fun x y => f x = Ok y) l r.
Proof.
  revert r; induction l as [|x l IH]; intros r H; cbn [mapM] in H.
  - injection H as <-. constructor.
  - destruct (f x) as [y|] eqn:E; [|discriminate]. cbn [bind] in H. destruct (mapM f l) as [r'|] eqn:E'; [|discriminate]. cbn [bind] in H.
    injection H as <-. constructor; [exact E|]. now apply IH.
Qed.
Definition written_as (fl : pystr -> option pystr) (ps : list (pystr * pystr)) (p : pystr * pystr) : Prop :=
  exists x, getf (fst p) ps = Some x /\ (fl x = Some (snd p) \/ fst p = lit "n" /\ x = snd p).
Lemma param_written fl ps q x : param_text fl ps q = Ok x -> (snd q = false -> fst q = lit "n") ->
  exists y, x = kv (fst q, y) /\ written_as fl ps (fst q, y).
Proof.
  unfold param_text, written_as. destruct q as [k b]. cbn [fst snd]. destruct (getf k ps) as [v|]; [|discriminate].
  destruct b; intros H Hn.
  - destruct (fl v) as [y|] eqn:E; [|discriminate]. injection H as <-. exists y. split; [reflexivity|]. exists v. split; [reflexivity|now left].
  - injection H as <-. exists v. split; [reflexivity|]. exists v. split; [reflexivity|]. right. split; [now apply Hn|reflexivity].
Qed.
Lemma params_written fl ps qs l : mapM (param_text fl ps) qs = Ok l -> Forall (fun q => snd q = false -> fst q = lit "n") qs ->
  exists items, l = map kv items /\ map fst items = map fst qs /\ Forall (written_as fl ps) items.
Proof.
  intros H. apply mapM_forall2 in H. induction H as [|q x qs l Hq H IH]; intros Hn.
  - exists []. repeat split; constructor.
  - inversion Hn as [|? ? H1 H2]; subst. destruct (IH H2) as (items & -> & E & F). apply param_written in Hq as (y & -> & Hy); [|exact H1].
    exists ((fst q, y) :: items). cbn [map fst]. rewrite E. repeat split. now constructor.
Qed.
Lemma nc_text fl u names nc : unsupported (u_kind u) names -> not_converted_text fl u = Ok nc -> exists name items,
  nc = Some (newline ++ mark_nc ++ name ++ mid_nc ++ join (lit ", ") (map kv items)) /\ map fst items = names /\
  name <> [] /\ forallb is_Az name = true /\ Forall (written_as fl (u_params u)) items.
Proof.
  unfold not_converted_text. intros Hk H.
  assert (exists name qs, getf (u_kind u) not_converted_kinds = Some (name, qs) /\ map fst qs = names /\ name <> [] /\ forallb is_Az name = true /\
    Forall (fun q : pystr * bool => snd q = false -> fst q = lit "n") qs) as (name & qs & E & En & H1 & H2 & H3).
  { inversion Hk as [E1 E2|E1 E2|E1 E2|E1 E2]; eexists; eexists;
      (split; [vm_compute; reflexivity|split; [reflexivity|split; [discriminate|split; [reflexivity|]]]]);
      repeat constructor; cbn; try discriminate; auto. }
  rewrite E in H. destruct (mapM _ qs) as [l|] eqn:El; [|discriminate]. cbn [bind] in H. injection H as <-.
  apply params_written in El as (items & -> & E3 & F); [|exact H3]. exists name, items. rewrite E3. auto.
Qed.
Lemma restore_items {V} (fv : pystr -> option V) kind names items : unsupported kind names -> map fst items = names ->
  forall vs, Forall2 (fun p v => fv (snd p) = Some v) items vs -> restore fv (rev items) = Ok (Some (kind, combine names vs)).
Proof.
  intros Hk En vs Hv.
  destruct Hk; repeat (destruct items as [|[? ?] items]; try discriminate En);
    cbn [map fst] in En; injection En as; subst;
    repeat match goal with H : Forall2 _ (_ :: _) _ |- _ => inversion H; clear H; subst | H : Forall2 _ [] _ |- _ => inversion H; clear H; subst end;
    cbn [snd] in *;
    cbn [rev app]; vm_compute;
    repeat match goal with H : fv ?p = Some _ |- _ => rewrite H; clear H end; reflexivity.
Qed.
