(** Properties C26 (whole runs), C29, C30, C50, C71 and C72: runs of a converter. *)
From Coq Require Import Ascii String List Bool Arith NArith ZArith Lia.
From Verif Require Import PyBase PyBaseFacts PyValues MultiLangModel DotDictModel DotDictProofs XmlModel OutputModel OutputSpec OutputProofs
  ConverterModel ConverterProofs DriverModel DriverSpec DriverProofs.
Import ListNotations.

(** * A small conversion for the examples: a file has a version, an identifier, a text and may fail
    half-way; the structure collects the texts, the document is the structure. *)
Record toy_file := { t_version : option version; t_id : pystr; t_text : pystr; t_fails : bool; t_broken : bool }.
Definition toy (ilcd : bool) (hash : pystr) : plant toy_file (pystr * list pystr) (list pystr) unit unit := {|
  p_ilcd := ilcd; p_hash := hash; p_fresh := ([], []);
  p_info := fun f => if t_broken f then Err KeyError else Ok (t_version f, Some (t_text f), tt);
  p_load := fun _ _ c => (c, None);
  p_setup := fun _ c x => (c, x, None);
  p_body := fun f c x => (c, (t_id f, snd x ++ [t_text f]), if t_fails f then Some ValueError else None);
  p_end := fun c x => (c, x, None); p_reset := fun c x => (c, x, None);
  p_delete := fun c x => (c, x, None);
  p_doc := fun x => Ok (snd x); p_uuid := fun x => Ok (fst x);
  p_title := fun h x => Ok (fst x ++ h); p_input_cleanup := None |}.
Definition good (v id text : pystr) : toy_file :=
  {| t_version := Some [v]; t_id := id; t_text := text; t_fails := false; t_broken := false |}.
Definition bad (v id text : pystr) : toy_file :=
  {| t_version := Some [v]; t_id := id; t_text := text; t_fails := true; t_broken := false |}.
Definition broken : toy_file := {| t_version := None; t_id := []; t_text := []; t_fails := false; t_broken := true |}.
Definition start_world {S D} : conv S D * world D unit := (new_conv, {| w_cls := tt; w_hash := []; w_folder := [] |}).

(** ** C26: no run, successful or not, changes or removes a file of the output folder *)
Theorem C26_existing_outputs_kept :
  forall File Struct Doc Cls Attrs (p : plant File Struct Doc Cls Attrs) to_file l rest s,
    (exists extra, adds s (fst (convert p to_file l rest s)) extra) /\
    (NoDup (names_of s) -> NoDup (names_of (fst (convert p to_file l rest s)))).
Proof. intros. apply convert_grows. Qed.
Print Assumptions C26_existing_outputs_kept.
Example C26_runs_nonvacuous :
  let s := fst (convert (toy false []) true [(good (lit "1") (lit "a") (lit "x"), true)] None start_world) in
  names_of (fst (convert (toy false []) true [(good (lit "1") (lit "a") (lit "y"), false); (bad (lit "1") (lit "b") (lit "z"), true)] None s))
  = [lit "a.spold"; lit "a (1).spold"].
Proof. vm_compute. reflexivity. Qed.

(** ** C29 *)
(** One output per file, reported in order, each holding exactly the document of its own file. *)
Theorem C29_to_file_one_output_per_file :
  forall File Struct Doc Cls Attrs (p : plant File Struct Doc Cls Attrs) l s s' names,
    at_rest p s -> convert p true l None s = (s', Ok names) ->
    at_rest p s' /\ length names = length l /\
    exists outs, adds s s' outs /\ map fst outs = names /\
      Forall2 (fun fb o => exists x, converted p (p_end p) (fst fb) x /\ holds_one p x (snd o)) l outs.
Proof.
  intros File Struct Doc Cls Attrs p l s s' names R H. unfold convert in H.
  destruct (run p true l None s) as [s1 [ns|e]] eqn:E.
  - inversion H; subst. destruct (to_file_run p l s s' names R E) as (R' & outs & A & N & Q).
    split; [exact R'|]. split; [rewrite <- N, map_length; revert Q; clear; induction 1; cbn [length]; congruence|].
    exists outs. split; [exact A|]. split; [exact N|]. revert Q. clear. induction 1 as [|fb o l outs (x & C & HO & _) Q IH]; constructor; eauto.
  - exfalso. unfold clean in H. destruct (p_input_cleanup p); [discriminate|]. destruct (c_map _); [|discriminate].
    destruct (on_mapping _ _) as [s2 [[]|]]; discriminate.
Qed.
Print Assumptions C29_to_file_one_output_per_file.

(** In database mode every non-empty batch is reported once, and its outputs hold the documents of its
    files: one archive (ILCD), or one file per document, the last of which is reported (EcoSpold2). *)
Theorem C29_database_one_report_per_batch :
  forall File Struct Doc Cls Attrs (p : plant File Struct Doc Cls Attrs) batches s s' names,
    at_rest p s -> convert p false (concat (map yield_files batches)) None s = (s', Ok names) ->
    at_rest p s' /\
    exists reports : list (list File * pystr * list (pystr * out Doc)),
      map (fun r => fst (fst r)) reports = filter (fun b => match b with [] => false | _ => true end) batches /\
      map (fun r => snd (fst r)) reports = names /\ adds s s' (concat (map snd reports)) /\
      Forall (fun r => exists xs, Forall2 (converted_any p) (fst (fst r)) xs /\ batch_outputs p xs (snd (fst r)) (snd r)) reports.
Proof.
  intros File Struct Doc Cls Attrs p bs s s' names R H. unfold convert in H.
  destruct (run p false _ None s) as [s1 [ns|e]] eqn:E.
  - inversion H; subst. exact (database_run p bs s s' names R E).
  - exfalso. unfold clean in H. destruct (p_input_cleanup p); [discriminate|]. destruct (c_map _); [|discriminate].
    destruct (on_mapping _ _) as [s2 [[]|]]; discriminate.
Qed.
Print Assumptions C29_database_one_report_per_batch.

(** When the data sets of a batch have different identifiers the archive has one member per file. *)
Theorem C29_archive_complete_partial :
  forall File Struct Doc Cls Attrs (p : plant File Struct Doc Cls Attrs) xs z us,
    archived p xs z -> map (p_uuid p) xs = map (@Ok pystr) us -> NoDup us ->
    Forall2 (fun x m => exists u, p_uuid p x = Ok u /\ fst m = u ++ lit ".xml" /\ p_doc p x = Ok (snd m)) xs z.
Proof. intros. eapply archived_distinct; eauto. Qed.
Print Assumptions C29_archive_complete_partial.

(** Two data sets with the same identifier: the document of the first one is lost without an error. *)
Theorem C29_all_documents_written_refuted :
  let l := yield_files [good (lit "1") (lit "a") (lit "first"); good (lit "1") (lit "a") (lit "second")] in
  let '(s', r) := convert (toy true []) false l None start_world in
  r = Ok [lit "ILCD.zip"] /\ w_folder (snd s') = [(lit "ILCD.zip", Zip [(lit "a.xml", [lit "second"])])].
Proof. vm_compute. split; reflexivity. Qed.
Print Assumptions C29_all_documents_written_refuted.
Example C29_nonvacuous :
  (let '(s', r) := convert (toy true (lit "#")) false
     (yield_files [good (lit "1") (lit "a") (lit "first"); good (lit "2") (lit "b") (lit "second")]) None start_world in
   r = Ok [lit "ILCD#.zip"] /\
   w_folder (snd s') = [(lit "ILCD#.zip", Zip [(lit "a.xml", [lit "first"]); (lit "b.xml", [lit "second"])])]) /\
  (let '(s', r) := convert (toy false []) false
     (yield_files [good (lit "1") (lit "a") (lit "first"); good (lit "1") (lit "b") (lit "second")]) None start_world in
   r = Ok [lit "b.spold"] /\
   w_folder (snd s') = [(lit "a.spold", Spold [lit "first"]); (lit "b.spold", Spold [lit "second"])]).
Proof. vm_compute. repeat split. Qed.

(** ** C30 *)
(** After a file that could be opened failed, no file of the same version can be converted any more. *)
Theorem C30_reuse_after_failure_refuted :
  forall File Struct Doc Cls Attrs (p : plant File Struct Doc Cls Attrs) s bad good v n a n' a' to_file last last' rest e,
    sane s -> p_input_cleanup p = None -> (forall c x, snd (p_delete p c x) = None) ->
    p_info p bad = Ok (Some v, n, a) -> p_info p good = Ok (Some v, n', a') ->
    snd (convert p to_file [(bad, last)] rest s) = Err e ->
    forall k, let again := fun s => fst (convert p to_file [(good, last')] None s) in
      snd (convert p to_file [(good, last')] None (Nat.iter k again (fst (convert p to_file [(bad, last)] rest s)))) = Err AttributeError.
Proof.
  intros File Struct Doc Cls Attrs p s bad good v n a n' a' tf b b' rest e Sa Cl De I I' H k again.
  assert (X : let s1 := fst (convert p tf [(bad, b)] rest s) in c_map (fst s1) = false /\ c_version (fst s1) = Some v).
  { unfold convert in H |- *. pose proof (run_one_version p tf bad b rest (Some v) n a s I) as V.
    pose proof (run_sane p tf rest [(bad, b)] s Sa) as S1. destruct (run p tf [(bad, b)] rest s) as [s1 [ns|e1]]; [discriminate|].
    cbn [fst] in *. destruct (clean p e1 s1) as [s2 r] eqn:C. destruct (clean_ok p e1 s1 s2 r Cl De S1 C) as (_ & M & V2).
    cbn [fst]. split; [exact M|]. congruence. }
  cbn in X. set (s1 := fst (convert p tf [(bad, b)] rest s)) in *. clearbody s1. clear H.
  assert (Y : c_map (fst (Nat.iter k again s1)) = false /\ c_version (fst (Nat.iter k again s1)) = Some v).
  { induction k as [|k IH]; [exact X|]. change (Nat.iter (S k) again s1) with (again (Nat.iter k again s1)). destruct IH as [M V].
    destruct (no_mapping p tf good b' None v n' a' _ Cl I' M V) as (s2 & E & M2 & V2 & _). assert (Ea : again (Nat.iter k again s1) = s2) by (unfold again at 1; rewrite E; reflexivity). rewrite Ea. auto. }
  destruct Y as [M V]. destruct (no_mapping p tf good b' None v n' a' _ Cl I' M V) as (s2 & E & _). rewrite E. reflexivity.
Qed.
Print Assumptions C30_reuse_after_failure_refuted.

(** With another version the converter goes on, but data of the failed file stay in the next document;
    after a failure inside a batch nothing can be written. *)
Theorem C30_no_leftovers_refuted :
  (let '(s1, r1) := convert (toy true []) true [(bad (lit "1") (lit "a") (lit "failed"), true)] None start_world in
   let '(s2, r2) := convert (toy true []) true [(good (lit "2") (lit "b") (lit "good"), true)] None s1 in
     r1 = Err ValueError /\ r2 = Ok [lit "b.zip"] /\
     w_folder (snd s2) = [(lit "b.zip", Zip [(lit "b.xml", [lit "failed"; lit "good"])])]) /\
  (let '(s1, r1) := convert (toy true []) false
       (yield_files [good (lit "1") (lit "a") (lit "one"); bad (lit "1") (lit "b") (lit "two")]) None start_world in
   let '(s2, r2) := convert (toy true []) true [(good (lit "2") (lit "c") (lit "three"), true)] None s1 in
     r1 = Err ValueError /\ r2 = Err FileNotFoundError /\
     w_folder (snd s2) = []).
Proof. vm_compute. repeat split. Qed.
Print Assumptions C30_no_leftovers_refuted.

(** A file that cannot even be opened does no harm to a converter that has not converted anything yet. *)
Theorem C30_reuse_after_failure_partial :
  forall File Struct Doc Cls Attrs (p : plant File Struct Doc Cls Attrs) w f last l rest to_file e,
    p_input_cleanup p = None -> p_info p f = Err e ->
    convert p to_file ((f, last) :: l) rest (new_conv, w) = ((new_conv, w), Err e).
Proof.
  intros File Struct Doc Cls Attrs p w f b l rest tf e Cl I. unfold convert. cbn [run]. unfold andthen at 1, start_conversion. rewrite I.
  unfold clean. rewrite Cl. reflexivity.
Qed.
Print Assumptions C30_reuse_after_failure_partial.
(** and after a success the converter is as good as before: *)
Theorem C30_reuse_after_success :
  forall File Struct Doc Cls Attrs (p : plant File Struct Doc Cls Attrs) l s s' names,
    at_rest p s -> convert p true l None s = (s', Ok names) -> at_rest p s'.
Proof. intros. eapply C29_to_file_one_output_per_file; eauto. Qed.
Print Assumptions C30_reuse_after_success.
Example C30_nonvacuous :
  (let s1 := fst (convert (toy true []) true [(broken, true)] None start_world) in
   snd (convert (toy true []) true [(good (lit "1") (lit "a") (lit "x"), true)] None s1) = Ok [lit "a.zip"]) /\
  (let s1 := fst (convert (toy true []) true [(bad (lit "1") (lit "a") (lit "x"), true)] None start_world) in
   snd (convert (toy true []) true [(good (lit "1") (lit "a") (lit "x"), true)] None s1) = Err AttributeError) /\
  snd (convert (toy true []) true [(good (lit "1") (lit "a") (lit "x"), true)] None start_world) = Ok [lit "a.zip"].
Proof. vm_compute. repeat split. Qed.

(** ** C50 *)
(** When the mapping uses only what is prepared for each file, the structure obtained for a file, hence
    its document, is the same whatever was converted before. *)
Theorem C50_successive_files_independent_partial :
  forall File Struct Doc Cls Attrs V (view : Cls -> V) (p : plant File Struct Doc Cls Attrs), self_contained view p ->
    forall f x x', converted p (p_end p) f x -> converted p (p_end p) f x' -> x = x'.
Proof.
  intros File Struct Doc Cls Attrs V view p (H1 & H2 & H3) f x x'
    (v & n & a & c1 & c2 & c3 & c4 & x1 & x2 & I & A & B & C) (v' & n' & a' & c1' & c2' & c3' & c4' & x1' & x2' & I' & A' & B' & C').
  rewrite I in I'. inversion I'; subst v' n' a'.
  pose proof (H1 a c1 c1' (p_fresh p)) as (S1 & S2 & _). rewrite A, A' in S1, S2. cbn [fst snd] in S1, S2. subst x1'.
  pose proof (H2 f c2 c2' x1 S1) as (S3 & S4 & _). rewrite B, B' in S3, S4. cbn [fst snd] in S3, S4. subst x2'.
  pose proof (H3 c3 c3' x2 S3) as (_ & S6 & _). rewrite C, C' in S6. exact S6.
Qed.
Print Assumptions C50_successive_files_independent_partial.
(** so the output of a file is the same after any history *)
Theorem C50_outputs_independent_partial :
  forall File Struct Doc Cls Attrs V (view : Cls -> V) (p : plant File Struct Doc Cls Attrs), self_contained view p ->
    forall before f last last' s s' names t t' names',
      at_rest p s -> convert p true (before ++ [(f, last)]) None s = (s', Ok names) ->
      at_rest p t -> convert p true [(f, last')] None t = (t', Ok names') ->
      exists k k' n n' o, w_folder (snd s') = k ++ [(n, o)] /\ w_folder (snd t') = k' ++ [(n', o)].
Proof.
  intros File Struct Doc Cls Attrs V view p SC before f b b' s s' names t t' names' R H R' H'.
  destruct (C29_to_file_one_output_per_file _ _ _ _ _ p _ _ _ _ R H) as (_ & _ & outs & A & _ & Q).
  destruct (C29_to_file_one_output_per_file _ _ _ _ _ p _ _ _ _ R' H') as (_ & _ & outs' & A' & _ & Q').
  inversion Q' as [|? [n' o'] ? ? (x' & C' & HO') Q'']; subst. inversion Q''; subst.
  apply Forall2_app_inv_l in Q. destruct Q as (o1 & o2 & _ & Q2 & ->).
  inversion Q2 as [|? [n o] ? ? (x & C & HO) Q3]; subst. inversion Q3; subst. cbn [fst snd] in *.
  pose proof (C50_successive_files_independent_partial _ _ _ _ _ _ view p SC f x x' C C') as ->.
  assert (o = o').
  { destruct HO as (d & D & O), HO' as (d' & D' & O'). assert (d = d') by congruence. subst d'. destruct (p_ilcd p).
    - destruct O as (u & U & ->), O' as (u' & U' & ->). assert (u = u') by congruence. subst. reflexivity.
    - congruence. }
  subst o'. unfold adds in A, A'. exists (w_folder (snd s) ++ o1), (w_folder (snd t)), n, n', o. rewrite A, A', app_assoc. auto.
Qed.
Print Assumptions C50_outputs_independent_partial.

(** The default language (converter.py 206-212 with ECS2_to_ILCD1_conversion.py 1811 and 1867): a class
    attribute, set when the file has the attribute; texts without language get it. *)
Definition as_version (i : option ival) : option version :=
  match i with
  | Some (IOne (VTuple l)) => Some (map (fun v => match v with VStr s => s | _ => [] end) l)
  | _ => None
  end.
Definition as_name (i : option ival) : option pystr := match i with Some (IOne (VStr s)) => Some s | _ => None end.
Definition set_all (attrs cls : list (pystr * ival)) : list (pystr * ival) :=
  fold_left (fun c kv => putf (fst kv) (snd kv) c) attrs cls.
Definition language (cls : list (pystr * ival)) : pystr :=
  match getf (lit "_default_language") cls with Some (IOne (VStr s)) => s | _ => lit "en" end.
Definition language_plant : plant elem (option pystr) pystr (list (pystr * ival)) (list (pystr * ival)) := {|
  p_ilcd := false; p_hash := []; p_fresh := None;
  p_info := fun e => match file_information ecs2_initial_info e with
                     | Ok i => Ok (as_version (i_version i), as_name (i_filename i), i_mapping i)
                     | Err x => Err x
                     end;
  p_load := fun _ _ c => (c, None);
  p_setup := fun a c x => (set_all a c, x, None);
  p_body := fun _ c _ => (c, Some (language c), None);
  p_end := fun c x => (c, x, None); p_reset := fun c x => (c, x, None);
  p_delete := fun c x => (putf (lit "_default_language") (IOne (VStr (lit "en"))) c, x, None);
  p_doc := fun x => match x with Some l => Ok l | None => Err KeyError end; p_uuid := fun _ => Ok (lit "u");
  p_title := fun h _ => Ok (lit "t" ++ h); p_input_cleanup := None |}.
Definition spold (attrs : list (pystr * pystr)) : elem :=
  Elem (lit "ecoSpold") [] None None
   [Elem (lit "activityDataset") [] None None
     [Elem (lit "activityDescription") [] None None
       [Elem (lit "activity") [] None None [Elem (lit "activityName") [] (Some (lit "steel")) None []]];
      Elem (lit "administrativeInformation") [] None None
       [Elem (lit "fileAttributes") ((lit "internalSchemaVersion", lit "2.0.10") :: attrs) None None []]]].
Theorem C50_successive_files_independent_refuted :
  let start := (new_conv, {| w_cls := []; w_hash := []; w_folder := [] |}) in
  let german := spold [(lit "defaultLanguage", lit "de")] in
  let unmarked := spold [] in
  let '(s1, r1) := convert language_plant true [(unmarked, true)] None start in
  let '(s2, r2) := convert language_plant true [(german, true); (unmarked, true)] None start in
    r1 = Ok [lit "t.spold"] /\ r2 = Ok [lit "t.spold"; lit "t (1).spold"] /\
    w_folder (snd s1) = [(lit "t.spold", Spold (lit "en"))] /\
    w_folder (snd s2) = [(lit "t.spold", Spold (lit "de")); (lit "t (1).spold", Spold (lit "de"))].
Proof. vm_compute. repeat split. Qed.
Print Assumptions C50_successive_files_independent_refuted.
Example C50_nonvacuous : self_contained (fun _ => tt) (toy true []).
Proof. split; [|split]; intros; repeat split. Qed.

(** ** C71: the exception that reaches the caller is the one that stopped the conversion *)
Theorem C71_original_error_reported_partial :
  forall File Struct Doc Cls Attrs (p : plant File Struct Doc Cls Attrs) to_file l rest s s1 e,
    sane s -> p_input_cleanup p = None -> (forall c x, snd (p_delete p c x) = None) ->
    run p to_file l rest s = (s1, Err e) -> snd (convert p to_file l rest s) = Err e.
Proof.
  intros File Struct Doc Cls Attrs p tf l rest s s1 e Sa Cl De H. unfold convert. rewrite H.
  pose proof (run_sane p tf rest l s Sa) as S1. rewrite H in S1. cbn [fst] in S1.
  destruct (clean p e s1) as [s2 r] eqn:C. destruct (clean_ok p e s1 s2 r Cl De S1 C) as (-> & _). reflexivity.
Qed.
Print Assumptions C71_original_error_reported_partial.
(** ILCD1_format.py 52-53: before anything was extracted the clean-up of the input fails itself. *)
Definition ilcd_input_cleanup (extracted : bool) : option exn := if extracted then None else Some AttributeError.
(** An archive without processes: the delivery fails (UnboundLocalError), and the caller gets the
    AttributeError of the clean-up instead; likewise whenever the mapping cannot be deleted. *)
Theorem C71_original_error_reported_refuted :
  forall File Struct Doc Cls Attrs (p : plant File Struct Doc Cls Attrs) to_file s members e,
    (forall m, In m members -> is_process m = false) ->
    archive_files members = Err e -> p_input_cleanup p = ilcd_input_cleanup false ->
    e = UnboundLocalError /\ snd (convert p to_file [] (Some e) s) = Err AttributeError.
Proof.
  intros File Struct Doc Cls Attrs p tf s ms e N A Cl. split.
  - unfold archive_files, extract in A. destruct (find is_process ms) as [m|] eqn:F; [|now inversion A].
    apply find_some in F. destruct F as [I P]. rewrite (N m I) in P. discriminate.
  - unfold convert. cbn [run raise]. unfold raise, clean. rewrite Cl. reflexivity.
Qed.
Print Assumptions C71_original_error_reported_refuted.
Theorem C71_delete_masks_refuted :
  forall File Struct Doc Cls Attrs (p : plant File Struct Doc Cls Attrs) to_file l rest s s1 e e',
    sane s -> p_input_cleanup p = None -> (forall c x, snd (p_delete p c x) = Some e') ->
    run p to_file l rest s = (s1, Err e) -> c_map (fst s1) = true -> snd (convert p to_file l rest s) = Err e'.
Proof.
  intros File Struct Doc Cls Attrs p tf l rest s s1 e e' Sa Cl De H M. unfold convert. rewrite H.
  pose proof (run_sane p tf rest l s Sa) as S1. rewrite H in S1. cbn [fst] in S1. specialize (S1 M). unfold have in S1.
  unfold clean. rewrite Cl. destruct (c_data (fst s1)) as [d|] eqn:D; [|congruence].
  cbn [set_data fst c_map]. rewrite M. unfold on_mapping, andthen, the_data. cbn [set_data fst snd c_data d_struct].
  pose proof (De (w_cls (snd s1)) (d_struct d)) as DE. cbn.
  destruct (p_delete p (w_cls (snd s1)) (d_struct d)) as [[c x] o]. cbn [snd] in DE. subst o. reflexivity.
Qed.
Print Assumptions C71_delete_masks_refuted.
Example C71_nonvacuous :
  snd (convert (toy true []) true [(bad (lit "1") (lit "a") (lit "x"), true)] None start_world) = Err ValueError /\
  archive_files [lit "flows/x.xml"] = Err UnboundLocalError.
Proof. vm_compute. split; reflexivity. Qed.

(** ** C72: outputs carry the hash of the request *)
Theorem C72_names_carry_the_hash_partial :
  forall File Struct Doc Cls Attrs (p : plant File Struct Doc Cls Attrs) l s s' names,
    at_rest p s -> (c_data (fst s) = None \/ w_hash (snd s) = p_hash p) -> convert p true l None s = (s', Ok names) ->
    exists outs, adds s s' outs /\ map fst outs = names /\
      Forall2 (fun fb o => exists x t, converted p (p_end p) (fst fb) x /\ p_title p (p_hash p) x = Ok t /\ named p t (fst o)) l outs.
Proof.
  intros File Struct Doc Cls Attrs p l s s' names R HH H. unfold convert in H.
  destruct (run p true l None s) as [s1 [ns|e]] eqn:E.
  - inversion H; subst. destruct (to_file_run p l s s' names R E) as (R' & outs & A & N & Q).
    exists outs. split; [exact A|]. split; [exact N|].
    assert (X : hash0 p s = p_hash p) by (unfold hash0; destruct (c_data (fst s)); destruct HH; congruence).
    rewrite X in Q. revert Q. clear. induction 1 as [|fb o l outs (x & C & HO & t & T & NM) Q IH]; constructor; eauto 10.
  - exfalso. unfold clean in H. destruct (p_input_cleanup p); [discriminate|]. destruct (c_map _); [|discriminate].
    destruct (on_mapping _ _) as [s2 [[]|]]; discriminate.
Qed.
Print Assumptions C72_names_carry_the_hash_partial.
(** Two converters in turn: the second use of the first one writes with the hash of the other. *)
Theorem C72_names_carry_the_hash_refuted :
  let one := toy true (lit "-one") in let two := toy true (lit "-two") in
  let '(c1, w1) := fst (convert one true [(good (lit "1") (lit "a") (lit "x"), true)] None start_world) in
  let '(c2, w2) := fst (convert two true [(good (lit "1") (lit "b") (lit "x"), true)] None (new_conv, w1)) in
  snd (convert one true [(good (lit "1") (lit "c") (lit "x"), true)] None (c1, w2)) = Ok [lit "c-two.zip"].
Proof. vm_compute. reflexivity. Qed.
Print Assumptions C72_names_carry_the_hash_refuted.
Example C72_nonvacuous :
  snd (convert (toy true (lit "-one")) true [(good (lit "1") (lit "a") (lit "x"), true)] None start_world) = Ok [lit "a-one.zip"].
Proof. vm_compute. reflexivity. Qed.
