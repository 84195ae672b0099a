(** C43, C44, C46, C98-C102: exchanges, referenced files and sources in the direction ILCD to EcoSpold2. *)
From Coq Require Import Ascii String List Bool Arith NArith ZArith Lia.
From Verif Require Import PyBase PyBaseFacts PyDigits PyValues ValidatorsModel CommentSpec CommentProofs DotDictModel DotDictProofs
  ExchangeModel ExchangeSpec ExchangeProofs.
Import ListNotations.

(** ** C43 *)
Theorem C43_ids_distinct :
  forall hash fuel l st, finish_ids hash fuel no_ids l = Some st ->
    distinct_ids (id_of st) /\ (forall n, In n (map fst (id_of st)) <-> In n (map fst l)).
Proof.
  intros hash fuel l st H. destruct (finish_ids_ok hash fuel l no_ids st) as [[D _] F]; [|exact H|].
  - split; [split; constructor|intros x []].
  - split; [exact D|]. intros n. rewrite F. cbn. intuition.
Qed.
Print Assumptions C43_ids_distinct.

Theorem C43_ids_found :
  forall hash l, injective hash -> exists st, finish_ids hash (S (length l)) no_ids l = Some st.
Proof. intros hash l J. apply finish_ids_found; [exact J|]. cbn. lia. Qed.
Print Assumptions C43_ids_found.

(** The first exchange of a name gets the identifier made of the process and that name. *)
Theorem C43_first_id :
  forall hash fuel used base u, new_id hash fuel used base = Some u ->
    ~ In u used /\ (~ In (hash base) used -> u = hash base) /\
    (u = hash base \/ exists n, (1 <= n)%N /\ u = hash (base ++ str_of_N n) /\
       forall k, (1 <= k < n)%N -> In (hash (base ++ str_of_N k)) used).
Proof.
  intros hash fuel used base u H. split; [eapply new_id_new; exact H|]. revert H. unfold new_id.
  destruct (str_in (hash base) used) eqn:E.
  - intros H. split; [intros N; apply str_in_In in E; contradiction|right].
    assert (G : forall fuel i, next_id hash fuel used base i = Some u ->
              exists n, (i <= n)%N /\ u = hash (base ++ str_of_N n) /\
                forall k, (i <= k < n)%N -> In (hash (base ++ str_of_N k)) used).
    { clear. induction fuel as [|f IH]; intros i; cbn [next_id]; [discriminate|].
      destruct (str_in _ used) eqn:E.
      - intros H. destruct (IH _ H) as (n & L & -> & A). exists n. split; [lia|]. split; [reflexivity|].
        intros k Hk. destruct (N.eq_dec k i) as [-> | Hn]; [now apply str_in_In|apply A; lia].
      - intros [= <-]. exists i. split; [lia|]. split; [reflexivity|]. intros k Hk. lia. }
    exact (G fuel 1%N H).
  - intros [= <-]. auto.
Qed.
Print Assumptions C43_first_id.

(** three exchanges of one name, and one of them finished again by merging *)
Example C43_nonvacuous :
  option_map id_of (finish_ids (fun s => s) 5 no_ids [(0, lit "p-co2"); (1, lit "p-co2"); (2, lit "p-co2"); (0, lit "p-co2")]) =
  Some [(0, lit "p-co23"); (1, lit "p-co21"); (2, lit "p-co22")].
Proof. reflexivity. Qed.

(** ** C44 *)
Theorem C44_groups_legal_partial :
  forall reference direction kind, In kind flow_kinds ->
    ~ (reference = true /\ kind = lit "Elementary flow") ->
    exists f z, set_group reference direction kind = Ok (f, z) /\
      match f with
      | InputGroup => legal_input (str_eqb kind (lit "Elementary flow")) z
      | OutputGroup => legal_output (str_eqb kind (lit "Elementary flow")) z
      end.
Proof.
  intros r d k Hk Hr. unfold set_group, group_of. cbn [flow_kinds In] in Hk.
  destruct r; [|destruct (str_eqb d (lit "Input"))];
    destruct Hk as [<- | [<- | [<- | [<- | []]]]];
    try (exfalso; apply Hr; now split);
    (eexists; eexists; split; [vm_compute; reflexivity|vm_compute; tauto]).
Qed.
Print Assumptions C44_groups_legal_partial.

(** A reference flow that is an elementary flow is refused. *)
Theorem C44_elementary_reference_refuted :
  forall direction, set_group true direction (lit "Elementary flow") = Err ValueError.
Proof. reflexivity. Qed.
Print Assumptions C44_elementary_reference_refuted.

(** Flows of any other kind are refused unless they are the reference flow. *)
Theorem C44_other_kinds :
  forall direction kind, ~ In kind flow_kinds ->
    (exists e, set_group false direction kind = Err e) /\ set_group true direction kind = Ok (OutputGroup, 0%Z).
Proof.
  intros d k Hk.
  assert (K : forall x, In x flow_kinds -> str_eqb k x = false).
  { intros x X. destruct (str_eqb k x) eqn:E; [|reflexivity]. apply str_eqb_eq in E. subst. contradiction. }
  assert (G : forall f, group_check k f VNone = Err TypeError \/ group_check k f VNone = Err ValueError).
  { intros f. unfold group_check. destruct (str_eqb k elementary_kind), f; vm_compute; auto. }
  assert (N : forall c, incl (map fst c) flow_kinds -> getf k c = (None : option Z)).
  { intros c I. apply getf_None. intros J. apply Hk, I, J. }
  split.
  - unfold set_group, group_of. destruct (str_eqb d (lit "Input")).
    + rewrite (N input_codes) by (cbn; intros x X; exact X). destruct (G InputGroup) as [E | E]; unfold opt_val; rewrite E; cbn [bind]; eauto.
    + rewrite (N output_codes) by (cbn; intros x X; exact X). destruct (G OutputGroup) as [E | E]; unfold opt_val; rewrite E; cbn [bind]; eauto.
  - unfold set_group, group_of, group_check. unfold elementary_kind.
    rewrite (K (lit "Elementary flow")) by now left. reflexivity.
Qed.
Print Assumptions C44_other_kinds.

Example C44_nonvacuous :
  set_group false (lit "Output") (lit "Waste flow") = Ok (OutputGroup, 3%Z) /\
  set_group false (lit "Input") (lit "Elementary flow") = Ok (InputGroup, 4%Z) /\
  set_group true (lit "Output") (lit "Product flow") = Ok (OutputGroup, 0%Z).
Proof. repeat split. Qed.

(** ** C102: the direction of an exchange *)
Theorem C102_direction_kept_partial :
  forall direction kind f z, set_group false direction kind = Ok (f, z) -> (f = InputGroup <-> direction = lit "Input").
Proof.
  intros d k f z. unfold set_group, group_of. destruct (str_eqb d (lit "Input")) eqn:E.
  - apply str_eqb_eq in E. destruct (group_check _ _ _); cbn [bind]; [|discriminate]. intros [= <- _]. now split.
  - apply str_eqb_neq in E. destruct (group_check _ _ _); cbn [bind]; [|discriminate]. intros [= <- _]. split; [discriminate|contradiction].
Qed.
Print Assumptions C102_direction_kept_partial.

(** A reference flow that enters the process (a waste that is treated) leaves it after the conversion. *)
Theorem C102_reference_input_refuted :
  forall kind, kind <> lit "Elementary flow" -> set_group true (lit "Input") kind = Ok (OutputGroup, 0%Z).
Proof.
  intros k H. unfold set_group, group_of, group_check, elementary_kind. apply str_eqb_neq in H. now rewrite H.
Qed.
Print Assumptions C102_reference_input_refuted.
Example C102_nonvacuous :
  set_group false (lit "Input") (lit "Waste flow") = Ok (InputGroup, 5%Z) /\ lit "Waste flow" <> lit "Elementary flow".
Proof. split; [reflexivity|discriminate]. Qed.

(** ** C46 *)
Theorem C46_file_resolution :
  forall d x,
    let uri := or_empty (r_uri x) in let id_ := or_empty (r_id x) in
    let n2 := id_ ++ lit "_" ++ or_empty (r_version x) ++ lit ".xml" in let n3 := id_ ++ lit ".xml" in
    (forall n, last_part uri n -> In (n, File) d -> get_file (Some d) x = Some n) /\
    ((forall n, last_part uri n -> ~ In (n, File) d) ->
       (In (n2, File) d -> get_file (Some d) x = Some n2) /\
       (~ In (n2, File) d ->
          (In (n3, File) d -> get_file (Some d) x = Some n3) /\
          (~ In (n3, File) d ->
             (id_ = [] -> get_file (Some d) x = None) /\
             (forall n, get_file (Some d) x = Some n -> id_ <> [] /\ contains id_ n /\
                exists before k after, d = before ++ (n, k) :: after /\ forall e, In e before -> ~ contains id_ (fst e)) /\
             (id_ <> [] -> get_file (Some d) x = None -> forall e, In e d -> ~ contains id_ (fst e))))).
Proof.
  intros d x uri id_ n2 n3. unfold get_file, options.
  fold uri. fold id_. fold n2. fold n3. cbn [find].
  assert (U := last_part_of uri). set (n1 := last (split (lit "/") uri) []) in *.
  assert (F : forall n, ~ In (n, File) d -> is_file d n = false).
  { intros n H. destruct (is_file d n) eqn:E; [|reflexivity]. apply is_file_In in E. contradiction. }
  split.
  - intros n L I. rewrite (last_part_unique _ _ _ L U) in *. now rewrite (proj2 (is_file_In d n1) I).
  - intros H1. rewrite (F n1 (H1 _ U)). split.
    + intros I. now rewrite (proj2 (is_file_In d n2) I).
    + intros H2. rewrite (F n2 H2). split.
      * intros I. now rewrite (proj2 (is_file_In d n3) I).
      * intros H3. rewrite (F n3 H3).
        assert (C : forall s, infixb id_ s = true <-> contains id_ s) by (intros s; apply infixb_occurs).
        assert (S : (id_ = [] /\ match r_id x with None | Some [] => None | Some i => option_map fst (find (fun e => infixb i (fst e)) d) end = None) \/
                    (id_ <> [] /\ match r_id x with None | Some [] => None | Some i => option_map fst (find (fun e => infixb i (fst e)) d) end
                                  = option_map fst (find (fun e => infixb id_ (fst e)) d))).
        { unfold id_, or_empty. destruct (r_id x) as [[|c i]|]; [now left|right; split; [discriminate|reflexivity]|now left]. }
        clearbody id_. destruct S as [[S1 S2]|[S1 S2]]; rewrite S2.
        -- split; [auto|]. split; [discriminate|]. contradiction.
        -- split; [contradiction|].
           assert (G : match find (fun e => infixb id_ (fst e)) d with
                       | Some (n, k) => infixb id_ n = true /\ exists before after, d = before ++ (n, k) :: after /\ forall e, In e before -> infixb id_ (fst e) = false
                       | None => forall e, In e d -> infixb id_ (fst e) = false
                       end).
           { clear. induction d as [|[n k] d IH]; cbn [find]; [intros e []|].
             cbn [fst]. destruct (infixb id_ n) eqn:E.
             - split; [exact E|]. exists [], d. split; [reflexivity|intros e []].
             - destruct (find _ d) as [[n' k']|].
               + destruct IH as (A & b & a & -> & B). split; [exact A|]. exists ((n, k) :: b), a.
                 split; [reflexivity|]. intros e [<- | I]; [exact E|now apply B].
               + intros e [<- | I]; [exact E|now apply IH]. }
           destruct (find _ d) as [[n k]|]; cbn [option_map fst].
           ++ split; [|discriminate]. intros m [= <-]. destruct G as (A & b & a & E & B).
              split; [exact S1|]. split; [now apply C|]. exists b, k, a. split; [exact E|].
              intros e I. rewrite <- C, (B _ I). discriminate.
           ++ split; [discriminate|]. intros _ _ e I. rewrite <- C, (G _ I). discriminate.
Qed.
Print Assumptions C46_file_resolution.

(** The result exists; without the folder there is none. *)
Theorem C46_result_exists :
  forall dir x n, get_file dir x = Some n -> exists d k, dir = Some d /\ In (n, k) d.
Proof.
  intros [d|] x n; [|discriminate]. intros H. exists d. revert H. unfold get_file.
  destruct (find (is_file d) (options x)) as [m|] eqn:E.
  - intros [= <-]. apply find_some in E. destruct E as [_ E]. apply is_file_In in E. exists File. now split.
  - destruct (r_id x) as [[|c i]|]; try discriminate. destruct (find _ d) as [[m k]|] eqn:G; [|discriminate].
    intros [= <-]. apply find_some in G. exists k. now split.
Qed.
Print Assumptions C46_result_exists.

(** What is found by the identifier need not be a data set file: a folder of that name is taken. *)
Theorem C46_folder_refuted :
  forall id_, id_ <> [] -> get_file (Some [(id_, Folder)]) (Reference None (Some id_) None) = Some id_ /\
    convertible (Some [(id_, Folder)]) (Reference None (Some id_) None) = true.
Proof.
  intros i H. assert (G : get_file (Some [(i, Folder)]) (Reference None (Some i) None) = Some i).
  { unfold get_file, options, is_file. cbn [or_empty r_id r_uri r_version find existsb fst option_map].
    destruct i as [|c i]; [congruence|].
    assert (C : infixb (c :: i) (c :: i) = true) by (apply infixb_occurs; exists [], []; now rewrite app_nil_r).
    rewrite C. reflexivity. }
  split; [exact G|]. unfold convertible. rewrite G. cbn [r_id]. destruct i; [congruence|reflexivity].
Qed.
Print Assumptions C46_folder_refuted.
(** A reference is converted exactly when a file is found and it has an identifier. *)
Theorem C46_converted_with_file_and_id :
  forall dir x, convertible dir x = true <-> (exists n, get_file dir x = Some n) /\ exists i, r_id x = Some i /\ i <> [].
Proof.
  intros dir x. unfold convertible. split.
  - destruct (get_file dir x) as [n|]; [|discriminate]. destruct (r_id x) as [[|c i]|]; try discriminate. intros _.
    split; [now exists n|]. exists (c :: i). split; [reflexivity|discriminate].
  - intros [[n ->] (i & -> & N)]. destruct i; [congruence|reflexivity].
Qed.
Print Assumptions C46_converted_with_file_and_id.
Example C46_nonvacuous :
  let d := [(lit "i_01.xml", File); (lit "i.xml", File); (lit "f.xml", File)] in
  get_file (Some d) (Reference (Some (lit "../flows/f.xml")) (Some (lit "i")) (Some (lit "01"))) = Some (lit "f.xml") /\
  get_file (Some d) (Reference (Some (lit "../flows/g.xml")) (Some (lit "i")) (Some (lit "01"))) = Some (lit "i_01.xml") /\
  get_file (Some d) (Reference None (Some (lit "i")) (Some (lit "02"))) = Some (lit "i.xml") /\
  get_file (Some d) (Reference None (Some (lit "_0")) None) = Some (lit "i_01.xml").
Proof. repeat split. Qed.

(** ** C98: sources read back *)
Theorem C98_sources_read_back_partial :
  forall a y p, trimmed a -> ExchangeSpec.one_line a -> is_year y -> trimmed p -> ExchangeSpec.one_line p ->
    (~ page_mark (32%N :: p) ->
       forall name, read_citation (source_short_ref (Some a) (Some y) (Some p)) name = Ok (Cited a (Some y) (Some p))) /\
    (~ page_mark a ->
       forall name, read_citation (source_short_ref (Some a) (Some y) None) name = Ok (Cited a (Some y) None)) /\
    (~ year_mark a ->
       read_citation (source_short_ref (Some a) None None) (source_short_ref (Some a) None None) = Ok (Cited a None None)).
Proof.
  intros a y p Ta Oa Hy Tp Op.
  assert (Y : ~ In 10%N y).
  { intros I. destruct Hy as [_ F]. rewrite Forall_forall in F. apply F in I. discriminate. }
  assert (A : removelast (strip (a ++ lit ", ")) = a).
  { unfold strip. change (a ++ lit ", ") with (a ++ 44%N :: [32%N]). rewrite lstrip_app_nonspace by reflexivity.
    rewrite (rstrip_last _ 44%N [32%N]) by reflexivity. rewrite removelast_last.
    destruct (trimmed_ends a Ta) as [-> | [(c & r & -> & Hc) _]]; [reflexivity|]. cbn [lstrip]. now rewrite Hc. }
  split; [|split].
  - intros Hp name. cbn [source_short_ref].
    assert (E : a ++ lit ", (" ++ y ++ lit ") p. " ++ p = (a ++ lit ", ") ++ 40%N :: y ++ 41%N :: lit " p. " ++ p).
    { rewrite <- app_assoc. reflexivity. }
    rewrite E, read_with_page; [now rewrite A, Tp| |cbn; tauto|exact Hy|cbn; tauto|exact Hp].
    unfold ExchangeSpec.one_line in *. rewrite !in_app_iff. cbn [In]. rewrite in_app_iff. cbn [In lit app].
    intuition; try discriminate.
  - intros Hp name. cbn [source_short_ref].
    assert (E : a ++ lit ", (" ++ y ++ lit ")" = (a ++ lit ", ") ++ 40%N :: y ++ 41%N :: []).
    { rewrite <- app_assoc. reflexivity. }
    rewrite E, read_without_page; [now rewrite A| | |cbn; tauto|exact Hy|cbn; tauto| |].
    + unfold ExchangeSpec.one_line in *. rewrite !in_app_iff. cbn [In]. rewrite in_app_iff. cbn [In lit app].
      intuition; try discriminate.
    + apply strip_between.
      * destruct (trimmed_ends a Ta) as [-> | [(c & r & -> & Hc) _]]; [eexists; eexists; split; [reflexivity|reflexivity]|].
        exists c. eexists. split; [cbn [app]; reflexivity|exact Hc].
      * exists ((a ++ lit ", ") ++ 40%N :: y), 41%N. split; [|reflexivity].
        exact (app_assoc (a ++ lit ", ") (40%N :: y) [41%N]).
    + rewrite <- E. now apply author_no_page.
    + intros (p' & o' & y' & k' & r' & E' & _). apply (f_equal (@length N)) in E'. rewrite app_length in E'. cbn [length] in E'. lia.
  - intros Ha. cbn [source_short_ref]. rewrite read_nothing by assumption. now rewrite Ta.
Qed.
Print Assumptions C98_sources_read_back_partial.

(** The page of the source a data set is published in is never written: it is looked for under a key
    that attributes do not have. *)
Theorem C98_published_page_refuted :
  forall attributes, Forall (fun kv => exists s, fst kv = 64%N :: s) attributes ->
    published_ref attributes =
    source_short_ref (getf (lit "@publishedSourceFirstAuthor") attributes) (getf (lit "@publishedSourceYear") attributes) None.
Proof.
  intros l F. unfold published_ref. replace (getf (lit "pageNumbers") l) with (None : option pystr); [reflexivity|].
  symmetry. apply getf_None. intros I. apply in_map_iff in I. destruct I as ((k & v) & E & I).
  rewrite Forall_forall in F. apply F in I. cbn [fst] in *. destruct I as [s ->]. discriminate.
Qed.
Print Assumptions C98_published_page_refuted.
Example C98_nonvacuous :
  trimmed (lit "Frischknecht R.") /\ is_year (lit "2007") /\ ~ page_mark (lit " 12-14") /\
  read_citation (lit "Frischknecht R., (2007) p. 12-14") [] = Ok (Cited (lit "Frischknecht R.") (Some (lit "2007")) (Some (lit "12-14"))) /\
  published_ref [(lit "@publishedSourceFirstAuthor", lit "A"); (lit "@publishedSourceYear", lit "2007"); (lit "@pageNumbers", lit "3")] = lit "A, (2007)".
Proof.
  split; [reflexivity|]. split; [split; [reflexivity|repeat constructor]|]. split; [now apply no_page_mark|]. split; reflexivity.
Qed.

(** ** C99: citations not written by this program *)
(** One punctuation mark before the year, any of the brackets, and any text after it. *)
Theorem C99_citation_partial :
  forall a c o y k rest name, trimmed a -> is_space c = false -> In o [40; 91]%N -> is_year y -> In k [41; 93]%N ->
    let t := a ++ c :: 32%N :: o :: y ++ k :: rest in
    ExchangeSpec.one_line t -> trimmed t -> ~ page_mark t -> ~ year_mark rest ->
    read_citation t name = Ok (Cited a (Some y) None).
Proof.
  intros a c o y k rest name Ta Hc Ho Hy Hk t Ot Tt Hp Hr.
  assert (E : t = (a ++ [c; 32%N]) ++ o :: y ++ k :: rest) by (unfold t; now rewrite <- app_assoc).
  rewrite E in *. rewrite read_without_page; try assumption.
  - unfold strip. change (a ++ [c; 32%N]) with (a ++ c :: [32%N]). rewrite lstrip_app_nonspace by exact Hc.
    rewrite (rstrip_last _ c [32%N]) by (exact Hc || reflexivity). rewrite removelast_last.
    destruct (trimmed_ends a Ta) as [-> | [(d & r & -> & Hd) _]]; [reflexivity|]. cbn [lstrip]. now rewrite Hd.
  - cbn [In] in *. tauto.
Qed.
Print Assumptions C99_citation_partial.

(** "Author (year)", the usual form, loses the last letter of the author. *)
Theorem C99_author_cut_refuted :
  forall a y name, trimmed a -> a <> [] -> ExchangeSpec.one_line a -> ~ page_mark (a ++ [32%N]) -> is_year y ->
    read_citation (a ++ lit " (" ++ y ++ lit ")") name = Ok (Cited (removelast a) (Some y) None) /\ removelast a <> a.
Proof.
  intros a y name Ta Na Oa Hp Hy. split.
  - assert (Y : ~ In 10%N y).
    { intros I. destruct Hy as [_ F]. rewrite Forall_forall in F. apply F in I. discriminate. }
    assert (E : a ++ lit " (" ++ y ++ lit ")" = (a ++ [32%N]) ++ 40%N :: y ++ 41%N :: []).
    { rewrite <- app_assoc. reflexivity. }
    destruct (trimmed_ends a Ta) as [-> | [(c & r & Ec & Hc) (q & d & Ed & Hd)]]; [congruence|].
    rewrite E, read_without_page; [| | |cbn; tauto|exact Hy|cbn; tauto| |].
    + replace (strip (a ++ [32%N])) with a; [reflexivity|]. symmetry. unfold strip. rewrite Ec. cbn [app lstrip]. rewrite Hc.
      change (c :: r ++ [32%N]) with ((c :: r) ++ [32%N]). rewrite <- Ec, Ed. rewrite <- (app_assoc q [d] [32%N]).
      exact (rstrip_last q d [32%N] Hd eq_refl).
    + unfold ExchangeSpec.one_line in *. rewrite !in_app_iff. cbn [In]. rewrite in_app_iff. cbn [In].
      intuition; try discriminate.
    + apply strip_between.
      * exists c, (r ++ [32%N] ++ 40%N :: y ++ [41%N]). split; [|exact Hc]. rewrite Ec, <- app_assoc. reflexivity.
      * exists ((a ++ [32%N]) ++ 40%N :: y), 41%N. split; [|reflexivity].
        exact (app_assoc (a ++ [32%N]) (40%N :: y) [41%N]).
    + apply page_mark_before; [exact Hp| |exact (page_mark_short y 41%N Hy [40%N] ltac:(cbn; lia))].
      intros u o z k w _ H Ho [L F] Hk Hu.
      destruct z as [|a0 [|a1 [|a2 [|a3 [|]]]]]; try discriminate.
      apply Forall_inv in F as F0. apply Forall_inv_tail in F. apply Forall_inv in F as F1. apply Forall_inv_tail in F.
      apply Forall_inv in F as F2. apply Forall_inv_tail in F. apply Forall_inv in F as F3.
      assert (D1 : is_udigit 40 = false) by reflexivity.
      destruct Hy as [Ly Fy]. destruct y as [|y0 [|y1 [|y2 [|y3 [|]]]]]; try discriminate.
      destruct u as [|u0 [|u1 [|u2 [|u3 [|u4 [|u5 [|u6 [|u7 [|u8 [|u9 u]]]]]]]]]]; cbn [app lit length] in *; try lia;
        injection H; intros; subst; try congruence; try discriminate.
      cbn [In] in Hk. lia.
    + intros (p' & o' & y' & k' & r' & E' & _). apply (f_equal (@length N)) in E'. rewrite app_length in E'. cbn [length] in E'. lia.
  - destruct (@exists_last _ a Na) as (q & d & ->). rewrite removelast_last. intros H.
    apply (f_equal (@length N)) in H. rewrite app_length in H. cbn [length] in H. lia.
Qed.
Print Assumptions C99_author_cut_refuted.
Example C99_nonvacuous :
  read_citation (lit "ISO (2006)") [] = Ok (Cited (lit "IS") (Some (lit "2006")) None) /\
  read_citation (lit "Doka, G. [2003]: Life cycle") [] = Ok (Cited (lit "Doka, G") (Some (lit "2003")) None) /\
  ~ page_mark (lit "ISO ").
Proof. split; [reflexivity|]. split; [reflexivity|]. now apply no_page_mark. Qed.

(** ** C100: user master data *)
Theorem C100_master_once :
  forall l, let m := mentions l in
    NoDup (map fst (m_sources m)) /\ NoDup (map fst (m_persons m ++ m_companies m)) /\
    (forall i a y t, In (MSource i a y t) l -> In i (map fst (m_sources m))) /\
    (forall r i n, In (MContact r i n) l -> In i (map fst (m_persons m ++ m_companies m))) /\
    (forall i, In i (map fst (m_sources m)) -> exists a y t, In (MSource i a y t) l).
Proof.
  intros l m. destruct (mentions_ok l) as (N1 & N2 & _).
  split; [exact N1|]. split; [exact N2|]. split; [intros i a y t; apply mentioned_source|].
  split; [intros r i n; apply mentioned_contact|].
  intros i. unfold m, mentions. clear. rewrite <- (rev_involutive l). rewrite <- fold_left_rev_right, rev_involutive.
  induction (rev l) as [|x k IH]; cbn [fold_right rev]; [intros []|]. intros H.
  apply step_from in H. destruct H as [H | (a & y & t & ->)].
  - destruct (IH H) as (a & y & t & I). exists a, y, t. apply in_or_app. now left.
  - exists a, y, t. apply in_or_app. right. now left.
Qed.
Print Assumptions C100_master_once.

(** A contact first met as a company has no entry as a person, although persons refer to it. *)
Theorem C100_person_missing_refuted :
  forall i n n', m_persons (mentions [MContact Company i n; MContact Person i n']) = [].
Proof. intros i n n'. unfold mentions. cbn [fold_left mention_step str_in existsb all_contacts empty_master]. now rewrite str_eqb_refl. Qed.
Print Assumptions C100_person_missing_refuted.
(** A flow exchanged twice has two entries. *)
Theorem C100_flow_twice_refuted :
  forall i l l', ~ NoDup (m_flows (mentions (MFlow i :: l ++ MFlow i :: l'))).
Proof.
  intros i l l'. assert (G : forall k m, exists e, m_flows (fold_left mention_step k m) = m_flows m ++ e).
  { clear. induction k as [|x k IH]; intros m; cbn [fold_left]; [exists []; now rewrite app_nil_r|].
    destruct (IH (mention_step m x)) as [e E]. rewrite E. destruct x as [j a y t | r j n | j]; cbn [mention_step].
    - destruct (str_in _ _); now exists e.
    - destruct (str_in _ _); [now exists e|]. destruct r; now exists e.
    - exists (j :: e). cbn [m_flows]. now rewrite <- app_assoc. }
  unfold mentions. cbn [fold_left]. rewrite fold_left_app. cbn [fold_left].
  destruct (G l (mention_step empty_master (MFlow i))) as [e E].
  set (m := fold_left mention_step l _) in *. destruct (G l' (mention_step m (MFlow i))) as [e' E']. rewrite E'.
  cbn [mention_step m_flows]. rewrite E. cbn [mention_step m_flows empty_master app].
  intros N. apply NoDup_remove_1 in N || idtac. inversion N as [|? ? H ?]; subst. apply H.
  rewrite <- app_assoc. apply in_or_app. right. now left.
Qed.
Print Assumptions C100_flow_twice_refuted.
Example C100_nonvacuous :
  map fst (m_sources (mentions [MSource (lit "s") [] [] []; MSource (lit "t") [] [] []; MSource (lit "s") [] [] []])) = [lit "s"; lit "t"].
Proof. reflexivity. Qed.

(** ** C101: the source of an exchange *)
Theorem C101_one_source_partial :
  forall i t n c, read_citation t n = Ok c ->
    set_sources no_source [(i, (t, n))] = Ok (SourceField (Some i) (Some (c_author c)) (c_year c) (c_page c)).
Proof.
  intros i t n c H. cbn [set_sources]. unfold set_source. rewrite H. cbn [bind].
  destruct c as [a y p]; destruct y, p; reflexivity.
Qed.
Print Assumptions C101_one_source_partial.
(** With two sources, the author of one can be put beside the year of the other, ... *)
Theorem C101_mixed_refuted :
  forall i j t n t' n' c c', read_citation t n = Ok c -> read_citation t' n' = Ok c' -> c_page c = None -> c_year c' = None ->
    exists f, set_sources no_source [(i, (t, n)); (j, (t', n'))] = Ok f /\
      s_id f = Some j /\ s_author f = Some (c_author c') /\ s_year f = c_year c.
Proof.
  intros i j t n t' n' [a y p] [a' y' p'] H H' P Y. cbn [c_page c_year c_author] in *. subst.
  cbn [set_sources]. unfold set_source. rewrite H. cbn [bind c_page s_page no_source c_author c_year opt_or]. rewrite H'.
  cbn [bind c_page s_page c_author c_year opt_or s_year]. destruct p'; (eexists; split; [reflexivity|]; cbn; destruct y; auto).
Qed.
Print Assumptions C101_mixed_refuted.
(** ... and two sources with pages end the conversion. *)
Theorem C101_two_pages_refuted :
  forall i j t n t' n' c c', read_citation t n = Ok c -> read_citation t' n' = Ok c' -> c_page c <> None -> c_page c' <> None ->
    set_sources no_source [(i, (t, n)); (j, (t', n'))] = Err ValueError.
Proof.
  intros i j t n t' n' [a y [p|]] [a' y' [p'|]] H H' P P'; cbn [c_page] in *; try congruence.
  cbn [set_sources]. unfold set_source. rewrite H. cbn [bind c_page s_page no_source opt_or]. rewrite H'. reflexivity.
Qed.
Print Assumptions C101_two_pages_refuted.
Example C101_nonvacuous :
  set_sources no_source [(lit "i", (lit "Doka, (2003)", [])); (lit "j", (lit "ecoinvent", lit "ecoinvent"))]
  = Ok (SourceField (Some (lit "j")) (Some (lit "ecoinvent")) (Some (lit "2003")) None) /\
  set_sources no_source [(lit "i", (lit "A, (2003) p. 1", [])); (lit "j", (lit "B, (2004) p. 2", []))] = Err ValueError.
Proof. split; reflexivity. Qed.
