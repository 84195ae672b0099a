(** ILCD to ILCD: the sources and contacts of the archive are copied to the output
    (ILCD1_to_ILCD1_conversion.py 376-384 [set_file_info]; formats/ILCD1_format.py 81-93 [start_conversion];
    converter.py 203-212, 216-235, 257-266). *)
From Coq Require Import Ascii String List Bool Arith NArith ZArith.
From Verif Require Import PyBase PyValues MultiLangModel DotDictModel.
Import ListNotations.

(** what a folder lists; the content of a file is a text *)
Inductive entry := AFile (content : pystr) | AFolder.
Definition listing := list (pystr * entry).
(** an archive; a folder may be missing *)
Record archive := Archive { a_sources : option listing; a_contacts : option listing; a_documents : option listing }.
(** the folders of the output, as contents by name *)
Record outcome := Outcome { o_sources : list (pystr * pystr); o_contacts : list (pystr * pystr); o_documents : list (pystr * pystr) }.

(** 382-384: [shutil.copy] fails on a folder and replaces a file of the same name *)
Fixpoint copy_files (l : listing) (o : list (pystr * pystr)) : result (list (pystr * pystr)) :=
  match l with
  | [] => Ok o
  | (n, AFile c) :: l' => copy_files l' (putf n c o)
  | (_, AFolder) :: _ => Err OtherError
  end.
(** 382: [iterdir] fails without the folder *)
Definition copy_folder (f : option listing) (o : list (pystr * pystr)) : result (list (pystr * pystr)) :=
  match f with Some l => copy_files l o | None => Err FileNotFoundError end.
(** 381-384 *)
Definition set_file_info (a : archive) (o : outcome) : result outcome :=
  bind (copy_folder (a_sources a) (o_sources o)) (fun s =>
  bind (copy_folder (a_contacts a) (o_contacts o)) (fun c => Ok (Outcome s c (o_documents o)))).
(** the processes of several archives in one output, each with its archive *)
Fixpoint gather (l : list archive) (o : outcome) : result outcome :=
  match l with [] => Ok o | a :: l' => bind (set_file_info a o) (gather l') end.
