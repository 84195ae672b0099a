(** What the statements C217-C220 say about folders and trees. *)
From Coq Require Import Ascii String List Bool Arith NArith ZArith Reals.
From Verif Require Import PyBase PyValues MultiLangModel DotDictModel XmlModel RemapModel FolderModel.
Import ListNotations.

(** a unit group like those of Lavoisier_Default_Files: namespace without prefix, several units *)
Definition crowded (g : unit_group) : Prop := ug_ns g = NsDefault /\ 2 <= length (ug_units g).

(** the element at a path of positions *)
Fixpoint at_path (path : list nat) (e : elem) : option elem :=
  match path with
  | [] => Some e
  | i :: p => match nth_error (ekids e) i with Some k => at_path p k | None => None end
  end.
(** an element without its children, of which only the number is kept *)
Definition label (e : elem) : pystr * list (pystr * pystr) * option pystr * option pystr * nat :=
  match e with Elem t a x y k => (t, a, x, y, length k) end.
Definition label_at (path : list nat) (e : elem) := option_map label (at_path path e).
