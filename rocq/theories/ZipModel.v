(** The archive that ILCD output is packed into (formats/utils.py 11-17, formats/ILCD1_format.py 55-110), and what is there when it is unpacked. *)
From Coq Require Import Ascii String List Bool Arith NArith ZArith.
From Verif Require Import PyBase PyValues DotDictModel OutputModel.
Import ListNotations.

(** The temporary folder: files in it, and folders with their files.  Lavoisier makes no folders below these. *)
Record tree := Tree { t_files : list pystr; t_folders : list (pystr * list pystr) }.

Definition slash : pystr := lit "/".
(** [os.path.join] in [os.walk]: the folder itself first, then each folder in it *)
Definition walk (root : pystr) (t : tree) : list pystr :=
  map (fun f => root ++ slash ++ f) (t_files t) ++
  flat_map (fun d => map (fun f => root ++ slash ++ fst d ++ slash ++ f) (snd d)) (t_folders t).
(** utils.py 11-17; [ZipInfo.from_file] removes slashes at the beginning *)
Definition zip_members (root : pystr) (t : tree) : list pystr := map (fun p => drop_slashes (skipn (List.length root) p)) (walk root t).

(** [extractall]: a folder is there when a member is in it *)
Definition unpacked_folder (members : list pystr) (d : pystr) : bool := existsb (prefixb (d ++ slash)) members.

(** ILCD1_format.py 55-76 (the files of [_additional_files]), 84-92 *)
Definition default_tree : tree :=
  Tree [lit "ILCDLocations.xml"; lit "ILCDFlowCategorization.xml"; lit "ILCDClassification.xml"; lit "lavoisier.log"]
    [(lit "processes", []);
     (lit "external_docs", [lit "ILCD_Compliance_Rules_Draft_88d4f8d9-60f9-43d1-9ea3-329c10d7d727.pdf"; lit "ILCD-Data-Network_Compliance-Entry-level_Version1.1_Jan2012.pdf"]);
     (lit "sources", [lit "0d388ade-52ab-4ca6-8a9b-f06df45d880c.xml"; lit "9ba3ac1e-6797-4cc0-afd5-1b8f7bf28c6a.xml"; lit "a97a0155-0234-4b87-b4ce-a45da52f2a40.xml"; lit "cada7914-53c3-47ec-ac27-659b21240a99.xml"; lit "88d4f8d9-60f9-43d1-9ea3-329c10d7d727.xml"]);
     (lit "contacts", [lit "d0d5f8bb-9311-49d1-9e30-2f20a6977f4f.xml"; lit "631b917e-eb39-4d0f-aae6-98c805513b2f.xml"; lit "97f476bd-415a-4463-955a-019202b70ae4.xml"]);
     (lit "flowproperties", []); (lit "unitgroups", [])].
(** a file written into a folder: once under its name *)
Fixpoint add_file (f : pystr) (l : list pystr) : list pystr :=
  match l with [] => [f] | x :: l' => if str_eqb x f then l else x :: add_file f l' end.
Definition save (df : pystr * pystr) (t : tree) : tree :=
  Tree (t_files t) (putf (fst df) (add_file (snd df) (match getf (fst df) (t_folders t) with Some l => l | None => [] end)) (t_folders t)).
(** 94-98: a process is written under its identifier *)
Definition save_process (uuid : pystr) : tree -> tree := save (lit "processes", uuid ++ lit ".xml").
(** an output: the data sets of flows, sources, ... and the processes *)
Definition output_tree (others : list (pystr * pystr)) (uuids : list pystr) : tree := fold_right save_process (fold_right save default_tree others) uuids.
