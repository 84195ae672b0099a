(** Properties C26, C27, C28 and C68: output names and the list of inputs. *)
From Coq Require Import Ascii String List Bool Arith NArith ZArith Lia.
From Verif Require Import PyBase PyBaseFacts PyValues PyDigits MultiLangModel DotDictModel OutputModel OutputSpec OutputProofs.
Import ListNotations.

(** ** C26 *)
Theorem C26_name_is_free :
  forall folder name ext, exists r,
    (forall fuel, length folder < fuel -> check_name_for_existence fuel folder name ext = Some r) /\
    ~ In (r ++ ext) folder /\ first_free folder name ext r.
Proof.
  intros folder name ext. destruct (check_name_spec folder name ext) as (r & F & H). exists r. split; [exact H|].
  split; [|exact F]. destruct F as (k & _ & N & _). exact N.
Qed.
Print Assumptions C26_name_is_free.
Example C26_nonvacuous :
  check_name_for_existence 4 [lit "a (1).zip"; lit "a.zip"; lit "a (3).zip"] (lit "a") (lit ".zip") = Some (lit "a (2)").
Proof. reflexivity. Qed.

(** ** C27 *)
Theorem C27_no_slash_in_names :
  forall fmt a b c d hash r,
    ilcd_filename fmt a b c d hash = Ok r \/ ecs2_filename fmt a b c d hash = Ok r -> ~ In (ch "/") r.
Proof.
  intros fmt a b c d hash r [H|H].
  - unfold ilcd_filename in H.
    destruct (match a with VList _ => _ | _ => _ end); cbn [bind] in H; [|discriminate]. inversion H; subst.
    rewrite spelled_replace. apply spelled_no_slash.
  - unfold ecs2_filename in H. destruct (text_of a); cbn [bind] in H; [|discriminate].
    destruct (bind (first_of b) text_of); cbn [bind] in H; [|discriminate].
    destruct (year_of c); cbn [bind] in H; [|discriminate]. destruct (year_of d); cbn [bind] in H; [|discriminate].
    inversion H; subst. rewrite spelled_replace. apply spelled_no_slash.
Qed.
Print Assumptions C27_no_slash_in_names.

(** The name is made of the name, the place, the years and the suffix asked for, slashes spelled out. *)
Theorem C27_names_say_what_they_name :
  forall (fmt : pyval -> pystr) hash rest (n g y1 y2 : pystr) (f1 f2 : list (pystr * pyval)) loc ys ye,
    getf ktext f1 = Some (VStr n) -> getf ktext f2 = Some (VStr g) -> (forall s, fmt (VStr s) = s) ->
    firstn 4 y1 = ys -> firstn 4 y2 = ye ->
    ecs2_filename fmt (VDict f1) (VList (VDict f2 :: rest)) (VStr y1) (VStr y2) hash
      = Ok (spelled (n ++ lit ", " ++ g ++ lit ", " ++ ys ++ lit " - " ++ ye ++ hash)) /\
    ilcd_filename fmt (VList (VDict f1 :: rest)) (VStr loc) (VStr y1) (VStr y2) hash
      = Ok (spelled (n ++ lit ", " ++ loc ++ lit ", " ++ y1 ++ lit " - " ++ y2 ++ hash)) /\
    ilcd_filename fmt (VDict f1) (VStr loc) (VStr y1) (VStr y2) hash
      = Ok (spelled (n ++ lit ", " ++ loc ++ lit ", " ++ y1 ++ lit " - " ++ y2 ++ hash)).
Proof.
  intros fmt hash rest n g y1 y2 f1 f2 loc ys ye H1 H2 F E1 E2.
  unfold ecs2_filename, ilcd_filename, first_of, text_of, year_of. cbn [bind]. rewrite H1, H2. cbn [bind].
  rewrite !F, E1, E2, !spelled_replace. auto.
Qed.
Print Assumptions C27_names_say_what_they_name.
Example C27_nonvacuous :
  ecs2_filename (fun v => match v with VStr s => s | _ => [] end)
    (VDict [(ktext, VStr (lit "heat/steam"))]) (VList [VDict [(ktext, VStr (lit "BR"))]])
    (VStr (lit "2010-01-01")) (VStr (lit "2012-12-31")) (lit "_x")
  = Ok (lit "heat per steam, BR, 2010 - 2012_x").
Proof. reflexivity. Qed.

(** ** C28 *)
Theorem C28_each_file_once_last_marked :
  forall (F : Type) (fs : list F) (l : F),
    yield_files (@nil F) = [] /\ yield_files (fs ++ [l]) = map (fun f => (f, false)) fs ++ [(l, true)].
Proof. intros. split; [reflexivity|apply yield_snoc]. Qed.
Print Assumptions C28_each_file_once_last_marked.

(** A folder of EcoSpold2 files: exactly the files with one of the two endings, each once. *)
Theorem C28_folder_delivered :
  forall names, NoDup names ->
    NoDup (map fst (ecs2_multiple names)) /\
    forall x, In x (map fst (ecs2_multiple names)) <->
              In x names /\ (ends_with (lit ".spold") x \/ ends_with (lit ".SPOLD") x).
Proof.
  intros names N. unfold ecs2_multiple. rewrite yield_fst. split.
  - apply files_of_extension_NoDup; auto.
    + constructor; [intros [H|[]]; discriminate|]. constructor; [intros []|constructor].
    + exists 6. repeat constructor.
  - intros x. rewrite files_of_extension_In. split.
    + intros (H & e & [<-|[<-|[]]] & E); auto.
    + intros (H & [E|E]); split; auto; [exists (lit ".spold")|exists (lit ".SPOLD")]; simpl; auto.
Qed.
Print Assumptions C28_folder_delivered.
Example C28_nonvacuous :
  ecs2_multiple [lit "a.spold"; lit "b.txt"; lit "c.SPOLD"; lit "d.spold"]
  = [(lit "a.spold", false); (lit "d.spold", false); (lit "c.SPOLD", true)].
Proof. reflexivity. Qed.

(** ** C68 *)
Theorem C68_archive_processes_delivered_partial :
  forall root members, plain_root root ->
    (exists m, In m members /\ process_of root m) ->
    (forall m, In m members -> looks_like_process m -> process_of root m) ->
    exists fs, archive_files members = Ok (yield_files fs) /\
      (forall m, In m fs <-> In m members /\ process_of root m) /\ (NoDup members -> NoDup fs).
Proof. exact archive_ok. Qed.
Print Assumptions C68_archive_processes_delivered_partial.

(** Processes in a second folder, in a subfolder, or below a folder whose name ends with
    "processes" are left out without notice. *)
Theorem C68_archive_processes_delivered_refuted :
  (exists ms m, In m ms /\ looks_like_process m /\
     archive_files ms = Ok [(lit "a/processes/x.xml", true)] /\ m = lit "b/processes/y.xml") /\
  (exists ms m, In m ms /\ looks_like_process m /\
     archive_files ms = Ok [(lit "processes/x.xml", true)] /\ m = lit "processes/old/y.xml") /\
  (exists ms m, In m ms /\ process_of (lit "my-processes/") m /\ archive_files ms = Ok []).
Proof.
  split; [|split].
  - exists [lit "a/processes/x.xml"; lit "b/processes/y.xml"], (lit "b/processes/y.xml").
    split; [right; now left|]. split; [apply is_process_spec; reflexivity|]. split; reflexivity.
  - exists [lit "processes/x.xml"; lit "processes/old/y.xml"], (lit "processes/old/y.xml").
    split; [right; now left|]. split; [apply is_process_spec; reflexivity|]. split; reflexivity.
  - exists [lit "my-processes/processes/x.xml"], (lit "my-processes/processes/x.xml").
    split; [now left|]. split; [|reflexivity]. exists (lit "x.xml"). split; [reflexivity|].
    split; [apply notin_b; reflexivity|]. exists (lit "x"). reflexivity.
Qed.
Print Assumptions C68_archive_processes_delivered_refuted.
Example C68_nonvacuous :
  archive_files [lit "ILCD/flows/f.xml"; lit "ILCD/processes/p.xml"; lit "ILCD/processes/q.xml"]
  = Ok [(lit "ILCD/processes/p.xml", false); (lit "ILCD/processes/q.xml", true)] /\ plain_root (lit "ILCD/").
Proof.
  split; [reflexivity|]. right. exists (lit "ILC"), (ch "D"). split; [reflexivity|]. split; [discriminate|].
  intros (a & b & E). assert (X : infixb (lit "processes/") (lit "ILCD/") = true) by (apply infixb_spec; eauto).
  discriminate.
Qed.
