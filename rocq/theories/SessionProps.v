(** C178 - C184: several converters in one program. *)
From Coq Require Import Ascii String List Bool Arith NArith ZArith Lia.
From Verif Require Import PyBase PyBaseFacts PyValues MultiLangModel DotDictModel DotDictProofs ConverterModel ConverterProofs SessionModel SessionSpec SessionProofs.
Import ListNotations.
Local Open Scope string_scope.
Local Open Scope list_scope.

(** files for the examples *)
Definition v11 : option version := Some [lit "1"; lit "1"].
Definition plain : file := File v11 [VInt 1] None Fine All.
Definition eco (p : string) : request := Request IlcdToEco (lit "EF3.0", lit "ecoinvent3.7") (lit p) (lit "out") [].
Definition olca (p : string) : request := Request OlcaToOlca (lit "OpenLCA", lit "EF3.1") (lit p) (lit "out") [].
Definition all_readable (p : pystr) : bool := true.
Definition some_disk (p : pystr) : list file :=
  if str_eqb p (lit "two") then [plain; File v11 [] None Fine All]
  else if str_eqb p (lit "empty") then [File v11 [] None Fine All]
  else if str_eqb p (lit "bad") then [File v11 [] (Some [VInt 7]) (Fails KeyError true) All]
  else if str_eqb p (lit "rel") then [File v11 [] (Some [VInt 5]) Fine All; File v11 [] None Fine All]
  else [plain].

(** * C178: options *)
Theorem C178_options_in_force : forall readable disk ops k es f u n v,
  adds readable disk ops (Convert k) es -> In (k, f, inl u) es -> wanted_option k n ops v ->
  if str_eqb n (lit "ignore_string_length_restrictions") then u_limits u = v else getf n (u_opts u) = Some v.
Proof.
  intros readable disk ops k es f u n v A Hin (r & l & d & Si & G & ->).
  destruct (tracked readable disk _ _ _ _ Si) as (c & C & T).
  assert (F := run_ind readable disk ops k es c (fun a _ => same_settings c a)
    (fun _ r0 => forall u0, r0 = inl u0 -> if str_eqb n (lit "ignore_string_length_restrictions") then u_limits u0 = latest (option_for k n) d l else getf n (u_opts u0) = Some (latest (option_for k n) d l)) C A (same_refl c)).
  rewrite Forall_forall in F. refine (proj2 (F _ _ Hin) u eq_refl). clear F.
  intros g c0 w0 c1 w1 r0 _ S Hf. apply convert_file_ok in Hf. split; [destruct r0; eapply same_trans; [exact S|apply Hf|exact S|apply Hf]|].
  intros u0 ->. assert (T0 := tracks_same _ _ _ _ _ T S). destruct T0 as (T1 & T2 & T3 & _).
  assert (ND : NoDup (map fst (c_opts c0))) by (rewrite T2; apply options_nodup).
  assert (V : getf n (c_opts c0) = Some (latest (option_for k n) d l)) by (rewrite T3, G; reflexivity).
  destruct (str_eqb n (lit "ignore_string_length_restrictions")) eqn:En.
  - rewrite (d_limits _ _ _ _ _ _ _ Hf). unfold set_limits. cbn [w_limits]. apply str_eqb_eq in En. subst n. rewrite (applied true _ [] (lit "ignore_string_length_restrictions") _ ND (str_eqb_refl _) V). reflexivity.
  - rewrite (d_opts _ _ _ _ _ _ _ Hf). apply applied; [exact ND|exact En|exact V].
Qed.
Print Assumptions C178_options_in_force.
(** two converters of one direction with different options, used in turn *)
Definition two_options : list op := [New (eco "a"); New (eco "b"); SetOption 0 (lit "sum_same_elementary_amounts") (VBool true); Convert 0; Convert 1].
Example C178_nonvacuous : exists f u1 u2,
  adds all_readable some_disk two_options (Convert 0) [(0, f, inl u1)] /\ getf (lit "sum_same_elementary_amounts") (u_opts u1) = Some (VBool true) /\
  wanted_option 0 (lit "sum_same_elementary_amounts") two_options (VBool true) /\
  adds all_readable some_disk (two_options ++ [Convert 0]) (Convert 1) [(1, f, inl u2)] /\ getf (lit "sum_same_elementary_amounts") (u_opts u2) = Some (VBool false).
Proof.
  do 3 eexists. split; [vm_compute; reflexivity|]. split; [vm_compute; reflexivity|]. split; [|split; [vm_compute; reflexivity|vm_compute; reflexivity]].
  exists (eco "a"), (tl two_options), (VBool false). split; [reflexivity|]. split; vm_compute; reflexivity.
Qed.

(** * C179: the mapping of elementary flows *)
(** the first file *)
Theorem C179_first_partial : forall readable disk ops k es f u,
  adds readable disk ops (Convert k) ((k, f, inl u) :: es) -> ~ In (Convert k) ops -> wanted_mapping k ops (u_map u).
Proof.
  intros readable disk ops k es f u A N. destruct (run_of readable disk _ _ _ (k, f, inl u) A (or_introl eq_refl)) as (c & c' & w' & l & C & E & M & _).
  destruct l as [|[f0 r0] l]; [discriminate|]. cbn in M. injection M as <- <- _. destruct (files_first _ _ _ _ _ _ _ _ _ E) as (c1 & w1 & Ef). apply convert_file_ok in Ef.
  destruct (no_convert_made _ _ _ _ _ C N) as (_ & Vn & _). pose proof (d_load _ _ _ _ _ _ _ Ef) as L. rewrite Vn in L.
  assert (R : reload None (f_version f) = true) by (destruct (f_version f); reflexivity). rewrite R in L. destruct L as (p & Ap & _ & Mp).
  destruct (tracked_inv _ _ _ _ _ C) as (r & l' & Si & T). exists r, l'. split; [exact Si|]. rewrite (d_map _ _ _ _ _ _ _ Ef), Mp, <- Ap. apply T.
Qed.
Print Assumptions C179_first_partial.
(** a converter that is alone and whose mapping is chosen before it is used *)
Theorem C179_alone_partial : forall readable disk ops k es f u d,
  adds readable disk ops (Convert k) es -> In (k, f, inl u) es ->
  works_on k ops d -> alone k ops d -> settled (sets_mapping k) k ops -> fine_mappings readable k ops -> wanted_mapping k ops (u_map u).
Proof.
  intros readable disk ops k es f u d A Hin (r & l & Si & Dr) Al Se Fi. destruct (tracked readable disk _ _ _ _ Si) as (c & C & T).
  assert (Dc : c_dir c = d) by (rewrite (proj1 T); exact Dr). subst d. rewrite <- Dc in Al.
  pose proof (map_inv _ _ _ _ _ C Se Fi Al) as Inv. pose proof (asked_fine _ _ _ _ _ C Fi) as R.
  assert (F := run_ind readable disk ops k es c (fun a b => same_settings c a /\ (c_made a = true -> w_map b (c_dir a) = asked a)) (fun _ r0 => forall u0, r0 = inl u0 -> u_map u0 = asked c) C A (conj (same_refl c) Inv)).
  rewrite Forall_forall in F. assert (U : u_map u = asked c); [|exists r, l; split; [exact Si|rewrite U; apply T]]. refine (proj2 (F _ _ Hin) u eq_refl). clear F.
  intros g c0 w0 c1 w1 r0 _ [S I0] Hf. pose proof (same_asked _ _ S) as As. rewrite <- As in R. destruct (map_step _ _ _ _ _ _ _ Hf R I0) as [I1 U1]. split.
  - split; [|exact I1]. apply convert_file_ok in Hf. destruct r0; eapply same_trans; [exact S|apply Hf|exact S|apply Hf].
  - intros u0 ->. now rewrite U1.
Qed.
Print Assumptions C179_alone_partial.
(** a mapping that is chosen after a file was converted is not used for files of the same format version *)
Theorem C179_late_refuted : forall readable disk ops k es f u l es' f' u' v,
  adds readable disk ops (Convert k) (es ++ [(k, f, inl u)]) -> Forall settings l ->
  adds readable disk (ops ++ Convert k :: l) (Convert k) ((k, f', inl u') :: es') ->
  f_version f = Some v -> f_version f' = Some v -> u_map u' = u_map u.
Proof.
  intros readable disk ops k es f u l es' f' u' v A Q A' Vf Vf'.
  destruct (run_of readable disk _ _ _ (k, f, inl u) A) as (c & c' & w' & fs & C & E & M & C1 & W1); [apply in_or_app; right; now left|].
  destruct (events_split _ _ _ _ _ M) as (a' & b' & -> & _ & _ & Eb). destruct b'; [|discriminate]. cbn in E. destruct (files_last _ _ _ _ _ _ _ _ _ E) as (c0 & w0 & Ef & S).
  apply convert_file_ok in Ef. destruct (quiet readable disk l _ _ _ Q C1) as (c2 & C2 & D2 & M2 & V2 & _ & W2). rewrite <- app_assoc in C2, W2. cbn [app] in C2, W2.
  destruct (run_of readable disk _ _ _ (k, f', inl u') A' (or_introl eq_refl)) as (c3 & c3' & w3' & fs' & C3 & E3 & M3 & _). rewrite C2 in C3. injection C3 as <-.
  destruct fs' as [|[g r] fs']; [discriminate|]. cbn in M3. injection M3 as <- <- _. destruct (files_first _ _ _ _ _ _ _ _ _ E3) as (c4 & w4 & E4). apply convert_file_ok in E4.
  pose proof (d_load _ _ _ _ _ _ _ E4) as L. rewrite V2, (d_version _ _ _ _ _ _ _ Ef), Vf, Vf', same_reload in L. destruct L as [_ L].
  rewrite (d_map _ _ _ _ _ _ _ E4), L, W2, W1, D2, (d_map _ _ _ _ _ _ _ Ef). destruct (d_settings _ _ _ _ _ _ _ Ef) as [-> _]. reflexivity.
Qed.
Print Assumptions C179_late_refuted.
(** a converter goes on with the mapping that another converter has used *)
Theorem C179_other_refuted : forall readable disk ops k j es f u l1 es1 g u1 l2 es2 f' u' v d,
  adds readable disk ops (Convert k) (es ++ [(k, f, inl u)]) -> Forall settings l1 ->
  adds readable disk (ops ++ Convert k :: l1) (Convert j) (es1 ++ [(j, g, inl u1)]) -> Forall settings l2 ->
  adds readable disk ((ops ++ Convert k :: l1) ++ Convert j :: l2) (Convert k) ((k, f', inl u') :: es2) ->
  j <> k -> works_on k ops d -> works_on j (ops ++ Convert k :: l1) d -> f_version f = Some v -> f_version f' = Some v -> u_map u' = u_map u1.
Proof.
  intros readable disk ops k j es f u l1 es1 g u1 l2 es2 f' u' v d A Q1 A1 Q2 A2 Hjk Wk Wj Vf Vf'.
  destruct (run_of readable disk _ _ _ (k, f, inl u) A) as (c & c' & w' & fs & C & E & M & C1 & W1); [apply in_or_app; right; now left|].
  destruct (events_split _ _ _ _ _ M) as (a' & b' & -> & _ & _ & Eb). destruct b'; [|discriminate]. cbn in E. destruct (files_last _ _ _ _ _ _ _ _ _ E) as (c0 & w0 & Ef & S).
  apply convert_file_ok in Ef. destruct (quiet readable disk l1 _ _ _ Q1 C1) as (c2 & C2 & D2 & M2 & V2 & _ & W2). rewrite <- app_assoc in C2, W2. cbn [app] in C2, W2.
  set (opsj := ops ++ Convert k :: l1) in *.
  destruct (run_of readable disk _ _ _ (j, g, inl u1) A1) as (cj & cj' & wj' & fj & Cj & Ej & Mj & Cj1 & Wj1); [apply in_or_app; right; now left|].
  destruct (events_split _ _ _ _ _ Mj) as (aj & bj & -> & _ & _ & Ebj). destruct bj; [|discriminate]. cbn in Ej. destruct (files_last _ _ _ _ _ _ _ _ _ Ej) as (cj0 & wj0 & Efj & Sj). apply convert_file_ok in Efj.
  assert (Ck : nth_error (s_convs (session readable disk (opsj ++ [Convert j]))) k = Some c2) by (rewrite session_app; apply do_other; [exact C2|cbn; congruence]).
  destruct (quiet readable disk l2 _ _ _ Q2 Ck) as (c3 & C3 & D3 & M3 & V3 & _ & W3). rewrite <- app_assoc in C3, W3. cbn [app] in C3, W3.
  destruct (run_of readable disk _ _ _ (k, f', inl u') A2 (or_introl eq_refl)) as (x & x' & wx & fx & Cx & Ex & Mx & _). rewrite C3 in Cx. injection Cx as <-.
  destruct fx as [|[h r] fx]; [discriminate|]. cbn in Mx. injection Mx as <- <- _. destruct (files_first _ _ _ _ _ _ _ _ _ Ex) as (c4 & w4 & E4). apply convert_file_ok in E4.
  pose proof (d_load _ _ _ _ _ _ _ E4) as L. rewrite V3, V2, (d_version _ _ _ _ _ _ _ Ef), Vf, Vf', same_reload in L. destruct L as [_ L].
  assert (Dc : c_dir c3 = d).
  { destruct Wk as (r & l & Si & Dr). destruct (tracked readable disk _ _ _ _ Si) as (cc & Cc & T). rewrite C in Cc. injection Cc as <-.
    rewrite D3, D2. destruct (d_settings _ _ _ _ _ _ _ Ef) as [-> _]. destruct S as [-> _]. rewrite (proj1 T). exact Dr. }
  assert (Dj : c_dir cj0 = d).
  { destruct Wj as (r & l & Si & Dr). destruct (tracked readable disk _ _ _ _ Si) as (cc & Cc & T). rewrite Cj in Cc. injection Cc as <-. destruct Sj as [-> _]. rewrite (proj1 T). exact Dr. }
  rewrite (d_map _ _ _ _ _ _ _ E4), L, W3, Wj1, Dc, (d_map _ _ _ _ _ _ _ Efj), Dj. reflexivity.
Qed.
Print Assumptions C179_other_refuted.
(** the user asks for another mapping: it is ignored; another converter replaces it *)
Definition my : pystr := lit "my.json".
Example C179_nonvacuous : exists f u0 u1 u2 u3,
  adds all_readable some_disk [New (eco "a"); SetMapping 0 my] (Convert 0) [(0, f, inl u0)] /\ u_map u0 = Some my /\
  adds all_readable some_disk [New (eco "a"); Convert 0; SetMapping 0 my] (Convert 0) [(0, f, inl u1)] /\
  wanted_mapping 0 [New (eco "a"); Convert 0; SetMapping 0 my] (Some my) /\ u_map u1 = Some (lit "Mappings/ilcd1_to_ecs2_elementary_flows.json") /\
  adds all_readable some_disk [New (eco "a"); Convert 0; New (eco "b"); SetMapping 1 my] (Convert 1) [(1, f, inl u2)] /\
  adds all_readable some_disk [New (eco "a"); Convert 0; New (eco "b"); SetMapping 1 my; Convert 1] (Convert 0) [(0, f, inl u3)] /\
  wanted_mapping 0 [New (eco "a"); Convert 0; New (eco "b"); SetMapping 1 my; Convert 1] (Some (lit "Mappings/ilcd1_to_ecs2_elementary_flows.json")) /\ u_map u3 = Some my.
Proof.
  do 5 eexists. split; [vm_compute; reflexivity|]. split; [vm_compute; reflexivity|]. split; [vm_compute; reflexivity|].
  split; [exists (eco "a"), [Convert 0; SetMapping 0 my]; split; vm_compute; reflexivity|]. split; [vm_compute; reflexivity|]. split; [vm_compute; reflexivity|]. split; [vm_compute; reflexivity|].
  split; [exists (eco "a"), [Convert 0; New (eco "b"); SetMapping 1 my; Convert 1]; split; vm_compute; reflexivity|]. vm_compute; reflexivity.
Qed.

(** * C180: the folder *)
Theorem C180_folder_partial : forall readable disk ops k es f u,
  adds readable disk ops (Convert k) es -> In (k, f, inl u) es -> settled (sets_folder k) k ops -> wanted_folder k ops (u_folder u).
Proof.
  intros readable disk ops k es f u A Hin Se. destruct (run_of readable disk _ _ _ _ A Hin) as (c & _ & _ & _ & C & _).
  destruct (tracked_inv _ _ _ _ _ C) as (r & l & Si & T). exists r, l. split; [exact Si|].
  assert (F := run_ind readable disk ops k es c (fun a _ => same_settings c a /\ forall q, c_out a = Some q -> q = c_save c) (fun _ r0 => forall u0, r0 = inl u0 -> u_folder u0 = c_save c) C A (conj (same_refl c) (folder_inv _ _ _ _ _ C Se))).
  rewrite Forall_forall in F. assert (U : u_folder u = c_save c); [|rewrite U; apply T]. refine (proj2 (F _ _ Hin) u eq_refl). clear F.
  intros g c0 w0 c1 w1 r0 _ [S O] Hf. apply convert_file_ok in Hf. assert (Sv : c_save c0 = c_save c) by (destruct S as (_ & _ & _ & _ & _ & -> & _); reflexivity). split.
  - split; [destruct r0; eapply same_trans; [exact S|apply Hf|exact S|apply Hf]|]. intros q Hq. destruct r0.
    + rewrite (d_out _ _ _ _ _ _ _ Hf) in Hq. destruct (c_out c0) as [q0|] eqn:E; [apply O; congruence|congruence].
    + destruct (c_out c0) as [q0|] eqn:E; [rewrite (x_out _ _ _ _ _ _ Hf _ E) in Hq; apply O; congruence|]. rewrite (x_out_new _ _ _ _ _ _ Hf _ E Hq). exact Sv.
  - intros u0 ->. rewrite (d_folder _ _ _ _ _ _ _ Hf). destruct (c_out c0) as [q0|]; [now apply O|exact Sv].
Qed.
Print Assumptions C180_folder_partial.
(** all files of a converter go to one folder, whatever is assigned to [save_path] *)
Theorem C180_folder_refuted : forall readable disk ops k f1 u1 f2 u2,
  In (k, f1, inl u1) (events readable disk ops) -> In (k, f2, inl u2) (events readable disk ops) -> u_folder u1 = u_folder u2.
Proof.
  intros readable disk ops k f1 u1 f2 u2 H1 H2. pose proof (same_folder_inv readable disk ops k) as I0. destruct (nth_error _ k) as [c|]; [|now contradiction (I0 _ _ H1)].
  pose proof (I0 _ _ H1). pose proof (I0 _ _ H2). congruence.
Qed.
Print Assumptions C180_folder_refuted.
Example C180_nonvacuous : exists f u1 u2,
  events all_readable some_disk [New (eco "a"); SetSave 0 (lit "x"); Convert 0; SetSave 0 (lit "y"); Convert 0] = [(0, f, inl u1); (0, f, inl u2)] /\ u_folder u2 = lit "x" /\
  wanted_folder 0 [New (eco "a"); SetSave 0 (lit "x"); Convert 0; SetSave 0 (lit "y")] (lit "y").
Proof.
  do 3 eexists. split; [vm_compute; reflexivity|]. split; [vm_compute; reflexivity|]. exists (eco "a"), [SetSave 0 (lit "x"); Convert 0; SetSave 0 (lit "y")]. split; vm_compute; reflexivity.
Qed.

(** * C181: the input *)
Theorem C181_input_partial : forall readable disk ops k es r l,
  adds readable disk ops (Convert k) es -> since_new k ops = Some (r, l) ->
  map (fun e => snd (fst e)) es = firstn (length es) (disk (r_path r)) /\
  ((forall e, In e es -> exists u, snd e = inl u) -> map (fun e => snd (fst e)) es = disk (r_path r)).
Proof.
  intros readable disk ops k es r l A Si. destruct (tracked readable disk _ _ _ _ Si) as (c & C & T). assert (Ip : c_input c = r_path r) by apply T.
  destruct (convert_files readable (disk (c_input c)) (c, s_classes (session readable disk ops))) as [[c' w'] fs] eqn:E.
  apply (adds_convert _ _ _ _ _ _ _ _ _ C E) in A. subst es. rewrite map_map, map_length. cbn. rewrite <- Ip. split; [exact (files_events _ _ _ _ _ _ _ E)|].
  intros H. assert (H' : forall fr, In fr fs -> exists u, snd fr = inl u).
  { intros fr Hf. apply (H (k, fst fr, snd fr)). apply in_map_iff. exists fr. auto. }
  exact (files_all _ _ _ _ _ _ _ E H').
Qed.
Print Assumptions C181_input_partial.
(** assignments to [path] and [convert_additional_fields] change nothing *)
Theorem C181_path_refuted : forall readable disk ops, events readable disk ops = events readable disk (filter (fun o => negb (inert o)) ops).
Proof. intros readable disk ops. apply like_session. Qed.
Print Assumptions C181_path_refuted.
Example C181_nonvacuous : exists f u,
  events all_readable some_disk [New (eco "a"); SetPath 0 (lit "two"); SetOption 0 (lit "convert_additional_fields") (VBool true); Convert 0] = [(0, f, inl u)] /\
  wanted_input 0 [New (eco "a"); SetPath 0 (lit "two")] (lit "two") /\ length (some_disk (lit "two")) = 2.
Proof.
  do 2 eexists. split; [vm_compute; reflexivity|]. split; [|reflexivity]. exists (eco "a"), [SetPath 0 (lit "two")]. split; vm_compute; reflexivity.
Qed.

(** * C182: processes without exchanges *)
Theorem C182_references_partial : forall readable disk ops k es f u,
  adds readable disk ops (Convert k) es -> In (k, f, inl u) es -> works_on k ops IlcdToEco -> f_refs f <> [] -> u_refs u = Some (f_refs f).
Proof.
  intros readable disk ops k es f u A Hin (r & l & Si & Dr) NE. destruct (tracked readable disk _ _ _ _ Si) as (c & C & T).
  assert (F := run_ind readable disk ops k es c (fun a _ => same_settings c a) (fun g r0 => forall u0, r0 = inl u0 -> f_refs g <> [] -> u_refs u0 = Some (f_refs g)) C A (same_refl c)).
  rewrite Forall_forall in F. refine (proj2 (F _ _ Hin) u eq_refl NE). clear F.
  intros g c0 w0 c1 w1 r0 _ S Hf. apply convert_file_ok in Hf. split; [destruct r0; eapply same_trans; [exact S|apply Hf|exact S|apply Hf]|].
  intros u0 -> Ng. assert (D : c_dir c0 = IlcdToEco) by (destruct S as [-> _]; rewrite (proj1 T); exact Dr). destruct (d_refs _ _ _ _ _ _ _ Hf D) as [E _]. rewrite E. destruct (f_refs g); [now contradiction Ng|reflexivity].
Qed.
Print Assumptions C182_references_partial.
(** the first file of a program fails if its process has no exchanges *)
Theorem C182_alone_refuted : forall readable disk r f rest, r_dir r = IlcdToEco -> disk (r_path r) = f :: rest -> f_refs f = [] ->
  exists e, adds readable disk [New r] (Convert 0) [(0, f, inr e)].
Proof.
  intros readable disk r f rest D Dk Rf. unfold adds, events, session. cbn [app fold_left do_op s_convs initial nth_error new c_input s_classes s_events]. rewrite Dk. cbn [convert_files].
  match goal with |- context [convert_file readable f ?cw] => destruct (convert_file readable f cw) as [[c' w'] [u|e]] eqn:E end.
  - exfalso. apply convert_file_ok in E. destruct (d_refs _ _ _ _ _ _ _ E D) as (E1 & _ & E2). rewrite Rf in E1. cbn in E1. contradiction.
  - exists e. reflexivity.
Qed.
Print Assumptions C182_alone_refuted.
(** after another process it is converted with the exchanges of that process *)
Theorem C182_after_refuted : forall readable disk ops k a f1 u1 f2 u2 b,
  adds readable disk ops (Convert k) (a ++ (k, f1, inl u1) :: (k, f2, inl u2) :: b) -> works_on k ops IlcdToEco -> f_refs f2 = [] -> u_refs u2 = u_refs u1.
Proof.
  intros readable disk ops k a f1 u1 f2 u2 b A (r & l & Si & Dr) Rf.
  destruct (run_of readable disk _ _ _ (k, f1, inl u1) A) as (c & c' & w' & fs & C & E & M & _); [apply in_or_app; right; now left|].
  destruct (events_split _ _ _ _ _ M) as (a' & b' & -> & _ & _ & Eb). destruct b' as [|[g r'] b']; [discriminate|]. cbn in Eb. injection Eb as <- <- _. cbn in E.
  destruct (files_next _ _ _ _ _ _ _ _ _ _ _ _ E) as (c0 & w0 & c1 & w1 & c2 & w2 & E1 & E2 & S). destruct (tracked readable disk _ _ _ _ Si) as (cc & Cc & T). rewrite C in Cc. injection Cc as <-.
  assert (D0 : c_dir c0 = IlcdToEco) by (destruct S as [-> _]; rewrite (proj1 T); exact Dr). apply convert_file_ok in E1. apply convert_file_ok in E2.
  assert (D1 : c_dir c1 = IlcdToEco) by (destruct (d_settings _ _ _ _ _ _ _ E1) as [-> _]; exact D0).
  destruct (d_refs _ _ _ _ _ _ _ E1 D0) as (_ & R1 & _). destruct (d_refs _ _ _ _ _ _ _ E2 D1) as (R2 & _ & _). rewrite R2, Rf. exact R1.
Qed.
Print Assumptions C182_after_refuted.
Example C182_nonvacuous : exists f1 f2 u1 u2 e,
  events all_readable some_disk [New (eco "two"); Convert 0] = [(0, f1, inl u1); (0, f2, inl u2)] /\ f_refs f2 = [] /\ u_refs u2 = Some (f_refs f1) /\ f_refs f1 <> [] /\
  events all_readable some_disk [New (eco "empty"); Convert 0] = [(0, f2, inr e)].
Proof. do 5 eexists. split; [vm_compute; reflexivity|]. split; [reflexivity|]. split; [reflexivity|]. split; [discriminate|]. vm_compute; reflexivity. Qed.

(** * C183: variables *)
Theorem C183_variables_partial : forall readable disk ops k es f u,
  adds readable disk ops (Convert k) es -> In (k, f, inl u) es -> works_on k ops OlcaToOlca -> no_late (events readable disk ops) ->
  u_rel u = match f_rel f with Some l => l | None => [] end.
Proof.
  intros readable disk ops k es f u A Hin (r & l & Si & Dr) N. pose proof (rel_inv _ _ _ N) as W. destruct (run_of readable disk _ _ _ _ A Hin) as (c & c' & w' & fs & C & E & M & _).
  destruct (tracked_inv _ _ _ _ _ C) as (r' & l' & Si' & T). rewrite Si in Si'. injection Si' as <- <-. subst es. apply in_map_iff in Hin as ([f0 r0] & Eq & Hin). cbn in Eq. injection Eq as -> ->.
  apply (rel_used _ _ _ _ _ _ _ _ _ E W); [rewrite (proj1 T); exact Dr|exact Hin].
Qed.
Print Assumptions C183_variables_partial.
(** a process without variables gets those of a process whose conversion failed, even in another converter *)
Theorem C183_variables_refuted : forall readable disk r1 r2 f1 rest1 e l f2 rest2 p1 p2,
  r_dir r1 = OlcaToOlca -> r_dir r2 = OlcaToOlca -> default_mapping (r_lists r1) = Some p1 -> readable p1 = true -> default_mapping (r_lists r2) = Some p2 -> readable p2 = true ->
  disk (r_path r1) = f1 :: rest1 -> f_version f1 = Some [lit "1"; lit "1"] -> f_end f1 = Fails e true -> f_rel f1 = Some l ->
  disk (r_path r2) = f2 :: rest2 -> f_version f2 = Some [lit "1"; lit "1"] -> f_end f2 = Fine -> f_rel f2 = None ->
  adds readable disk [New r1] (Convert 0) [(0, f1, inr e)] /\
  exists u es, adds readable disk [New r1; Convert 0; New r2] (Convert 1) ((1, f2, inl u) :: es) /\ u_rel u = l.
Proof.
  intros readable disk [d1 l1 pa1 s1 h1] [d2 l2 pa2 s2 h2] [v1 g1 rl1 en1 cl1] rest1 e l [v2 g2 rl2 en2 cl2] rest2 p1 p2 D1 D2 M1 R1 M2 R2 K1 V1 E1 L1 K2 V2 E2 L2.
  cbn [r_dir r_lists r_path f_version f_end f_rel] in *. subst.
  unfold adds, events, session. cbn [app fold_left do_op s_convs initial nth_error new c_input s_classes s_events r_dir r_lists r_path r_save r_hash]. rewrite K1. cbn [convert_files]. unfold convert_file at 1 2 3. cbn [f_end].
  split.
  - cbn. rewrite M1, R1. reflexivity.
  - cbn. rewrite M1, R1. cbn. rewrite K2. cbn. rewrite M2, R2. cbn. destruct (convert_files readable rest2 _) as [[c' w'] es]. cbn. eexists. eexists. split; [reflexivity|reflexivity].
Qed.
Print Assumptions C183_variables_refuted.
Example C183_nonvacuous : exists f1 f2 u e, events all_readable some_disk [New (olca "bad"); Convert 0; New (olca "a"); Convert 1] = [(0, f1, inr e); (1, f2, inl u)] /\ u_rel u = [VInt 7] /\ f_rel f2 = None /\
  exists g1 g2 u1 u2, events all_readable some_disk [New (olca "rel"); Convert 0] = [(0, g1, inl u1); (0, g2, inl u2)] /\ u_rel u1 = [VInt 5] /\ u_rel u2 = [].
Proof. do 4 eexists. split; [vm_compute; reflexivity|]. split; [reflexivity|]. split; [reflexivity|]. do 4 eexists. split; [vm_compute; reflexivity|]. split; reflexivity. Qed.

(** * C184: replacing parts of a converter *)
Theorem C184_input_manager_partial : forall x old, snd (assign_part PInput x old) = None -> fst (assign_part PInput x old) = x /\ use_part PInput x = None.
Proof. intros x old. unfold assign_part, is_instance. destruct x as [rs|rs a]; cbn [role_of]; [discriminate|]. destruct (existsb (role_eqb IsInput) rs) eqn:E; [|discriminate]. intros _. cbn. now rewrite E. Qed.
Print Assumptions C184_input_manager_partial.
(** a class is refused, so the parts that a converter was made with cannot be put back *)
Theorem C184_class_refuted : forall p rs old, assign_part p (AClass rs) old = (old, Some TypeError).
Proof. reflexivity. Qed.
Print Assumptions C184_class_refuted.
(** objects are accepted and cannot be used, unless they can be called *)
Theorem C184_object_refuted : forall p rs old, p <> PInput -> In (role_of p) rs ->
  assign_part p (AnObject rs false) old = (AnObject rs false, None) /\ use_part p (AnObject rs false) = Some TypeError /\ use_part p (default_part p) = None.
Proof.
  intros p rs old Np Hin. assert (E : existsb (role_eqb (role_of p)) rs = true) by (apply existsb_exists; exists (role_of p); split; [exact Hin|now destruct p]).
  unfold assign_part. cbn [is_instance]. rewrite E. destruct p; [|now contradiction Np|]; repeat split.
Qed.
Print Assumptions C184_object_refuted.
(** no dictionary with arguments for the mapping is accepted *)
Theorem C184_mapping_refuted : forall d, assign_config d = None <-> d = [].
Proof. intros [|x d]; cbn; split; congruence. Qed.
Print Assumptions C184_mapping_refuted.
Example C184_nonvacuous : snd (assign_part PInput (AnObject [IsInput] false) (default_part PInput)) = None /\
  assign_part POutput (default_part POutput) (AClass []) = (AClass [], Some TypeError) /\ assign_config [(lit "file", VStr (lit "x"))] = Some TypeError.
Proof. repeat split. Qed.
