(** ILCD input: what is opened for a path (formats/abstractions.py 51-76, 89-93; formats/ILCD1_format.py 21-50),
    on [archive_files] of OutputModel.v. *)
From Coq Require Import Ascii String List Bool Arith NArith ZArith.
From Verif Require Import PyBase PyValues OutputModel.
Import ListNotations.

(** a zip archive with its members, any other file, a folder *)
Inductive kind := Zipped (members : list pystr) | Unzipped | Directory.
(** the path of the request: a file, or a folder with its entries *)
Inductive input := One (name : pystr) (k : kind) | Many (entries : list (pystr * kind)).

(** 22: [zipfile.ZipFile] fails on everything else *)
Definition open_archive (k : kind) : result (list (pystr * bool)) :=
  match k with Zipped m => archive_files m | _ => Err OtherError end.
(** 43-50: one archive after the other; an exception ends it *)
Fixpoint open_all (l : list (pystr * kind)) : list (pystr * bool) * option exn :=
  match l with
  | [] => ([], None)
  | (_, k) :: l' => match open_archive k with
                    | Err e => ([], Some e)
                    | Ok fs => let '(r, e) := open_all l' in (fs ++ r, e)
                    end
  end.
(** 44-45: all entries, files or not, with one of the first two endings *)
Definition archives_of (entries : list (pystr * kind)) : list (pystr * kind) :=
  flat_map (fun ve => filter (fun e => suffixb ve (fst e)) entries) (firstn 2 ilcd_extensions).
(** the request is refused, or these files are delivered before the end or an exception *)
Definition ilcd_input (p : input) : result (list (pystr * bool) * option exn) :=
  match p with
  | One n k => bind (verify_file ilcd_extensions n) (fun _ => Ok (open_all [(n, k)]))
  | Many es => Ok (open_all (archives_of es))
  end.
