(** formats/abstractions.py, formats/ILCD1_format.py, formats/ECS2_format.py and the [get_filename]
    methods: which inputs are read and under which name outputs are written. *)
From Coq Require Import Ascii String List Bool Arith NArith ZArith.
From Verif Require Import PyBase PyValues MultiLangModel DotDictModel.
Import ListNotations.

(** * abstractions.py 131-138 [check_name_for_existence].
    [folder]: the names of the files in the output folder.  The [while] loop takes fuel; a theorem
    shows that it always ends. *)
Fixpoint check_loop (fuel : nat) (folder : list pystr) (name ext : pystr) (i : N) (name_ : pystr) : option pystr :=
  match fuel with
  | O => None
  | S f => if str_in (name_ ++ ext) folder
           then check_loop f folder name ext (i + 1) (name ++ lit " (" ++ str_of_N i ++ lit ")")
           else Some name_
  end.
Definition check_name_for_existence (fuel : nat) (folder : list pystr) (name ext : pystr) : option pystr :=
  if str_in (name ++ ext) folder then check_loop fuel folder name ext 1 name else Some name.

(** * ILCD1_structure.py 504-511 and ECS2_structure.py 869-875 [get_filename].
    [fmt] is f-string formatting of a value. *)
Section Filename.
  Context (fmt : pyval -> pystr).
  (** [v['#text']] *)
  Definition text_of (v : pyval) : result pyval :=
    match v with
    | VDict d => match getf ktext d with Some t => Ok t | None => Err KeyError end
    | _ => Err TypeError
    end.
  Definition first_of (v : pyval) : result pyval :=
    match v with
    | VList (x :: _) => Ok x
    | VList [] => Err IndexError
    | _ => Err TypeError
    end.
  (** The arguments are the values returned by the [get] calls. *)
  Definition ilcd_filename (base_name location reference_year valid_until : pyval) (hash : pystr) : result pystr :=
    bind (match base_name with
          | VList _ => bind (first_of base_name) text_of
          | _ => text_of base_name
          end) (fun b =>
    Ok (replace (lit "/") (lit " per ")
         (fmt b ++ lit ", " ++ fmt location ++ lit ", " ++ fmt reference_year ++ lit " - " ++ fmt valid_until ++ hash))).
  (** [v[:4]] of a text *)
  Definition year_of (v : pyval) : result pyval :=
    match v with VStr s => Ok (VStr (firstn 4 s)) | VList l => Ok (VList (firstn 4 l)) | _ => Err TypeError end.
  Definition ecs2_filename (activity_name shortname start_date end_date : pyval) (hash : pystr) : result pystr :=
    bind (text_of activity_name) (fun a =>
    bind (bind (first_of shortname) text_of) (fun g =>
    bind (year_of start_date) (fun s =>
    bind (year_of end_date) (fun e =>
    Ok (replace (lit "/") (lit " per ")
         (fmt a ++ lit ", " ++ fmt g ++ lit ", " ++ fmt s ++ lit " - " ++ fmt e ++ hash)))))).
End Filename.

(** * abstractions.py 81-87 [_yield_files] *)
Fixpoint yield_from {F} (n : nat) (i : nat) (files : list F) : list (F * bool) :=
  match files with
  | [] => []
  | f :: fs => (if negb (Nat.eqb i (n - 1)) then (f, false) else (f, true)) :: yield_from n (S i) fs
  end.
Definition yield_files {F} (files : list F) : list (F * bool) := yield_from (length files) 0 files.

(** * abstractions.py 89-93 [_get_files_of_extension].
    [path.glob('*'+ve)] lists the entries whose name ends with [ve]. *)
Definition glob_suffix (ve : pystr) (names : list pystr) : list pystr := filter (suffixb ve) names.
Definition files_of_extension (names : list pystr) (ext : list pystr) : list pystr :=
  flat_map (fun ve => glob_suffix ve names) ext.

(** [_valid_extensions]: ILCD1_format.py 19, ECS2_format.py 16 *)
Definition ecs2_extensions : list pystr := [lit ".spold"; lit ".SPOLD"].
Definition ilcd_extensions : list pystr := [lit ".zip"; lit ".ZIP"; lit ".xml"].

(** abstractions.py 51-63 [_verify_path] on a file: some extension must match (OSError otherwise) *)
Definition verify_file (ext : list pystr) (name : pystr) : result unit :=
  if existsb (fun ve => suffixb ve name) ext then Ok tt else Err OtherError.

(** ECS2_format.py 18-23 *)
Definition ecs2_single (name : pystr) : list (pystr * bool) := [(name, true)].
Definition ecs2_multiple (names : list pystr) : list (pystr * bool) :=
  yield_files (files_of_extension names ecs2_extensions).

(** * ILCD1_format.py 21-50 [_extract], [_single_file_input], [_multiple_file_input].
    An archive is the list of its member names; after extraction the folder "p/processes" holds the
    members "p/processes/x" ([extractall] keeps the relative paths; normalised names are assumed). *)
Definition is_process (x : pystr) : bool :=
  ((prefixb (lit "processes/") x || infixb (lit "/processes/") x) && suffixb (lit ".xml") x)%bool.
(** [Path(root, p, 'processes')] relative to the root: trailing slashes of [p] do not matter *)
Fixpoint drop_slashes (s : pystr) : pystr :=
  match s with c :: s' => if N.eqb c (ch "/") then drop_slashes s' else s | [] => [] end.
Definition process_dir (p : pystr) : pystr :=
  match rev (drop_slashes (rev p)) with
  | [] => lit "processes/"
  | q => q ++ lit "/processes/"
  end.
(** members directly in the folder [d] (which ends with '/'): their names in the folder *)
Fixpoint members_in (d : pystr) (members : list pystr) : list pystr :=
  match members with
  | [] => []
  | m :: ms => if (prefixb d m && negb (infixb (lit "/") (skipn (length d) m)) && negb (str_eqb (skipn (length d) m) []))%bool
               then skipn (length d) m :: members_in d ms else members_in d ms
  end.
(** [x.split("processes/")[0]] *)
Definition before_processes (x : pystr) : pystr := hd [] (split (lit "processes/") x).
(** lines 22-34; with no process in the archive [_path] is unbound *)
Definition extract (members : list pystr) : result pystr :=
  match find is_process members with
  | Some x => Ok (before_processes x)
  | None => Err UnboundLocalError
  end.
Definition archive_files (members : list pystr) : result (list (pystr * bool)) :=
  bind (extract members) (fun p =>
  let d := process_dir p in
  Ok (map (fun fb => (d ++ fst fb, snd fb))
          (yield_files (files_of_extension (members_in d members) (skipn 2 ilcd_extensions))))).
(** the archives one after the other; what was delivered before an exception stays delivered *)
Fixpoint ilcd_multiple (archives : list (list pystr)) : list (pystr * bool) * option exn :=
  match archives with
  | [] => ([], None)
  | a :: rest =>
      match archive_files a with
      | Err e => ([], Some e)
      | Ok l => let '(r, e) := ilcd_multiple rest in (l ++ r, e)
      end
  end.
