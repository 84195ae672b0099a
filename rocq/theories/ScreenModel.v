(** What conversions print (conversions/utils.py 67-72, converter.py 216-267).  The texts of the messages are given;
    which of them are printed, and the lines of converter.py 246, are modelled. *)
From Coq Require Import Ascii String List Bool Arith NArith ZArith.
From Verif Require Import PyBase PyValues UtilsModel XmlModel.
Import ListNotations.

(** A file of the input: its path, what is given to [Print.output] before it is opened by [iterate] and whether it gets
    there, what is given to it afterwards and whether the conversion of the file ends without error. *)
Record reading := Reading { g_path : pystr; g_before : list pystr; g_opened : bool; g_after : list pystr; g_ended : bool }.

(** [Print.quiet], which all converters share, and the lines on the screen *)
Record terminal := Terminal { t_quiet : pyval; t_lines : list pystr }.

(** utils.py 69-72 *)
Definition output (x : pystr) (t : terminal) : terminal :=
  if truth (t_quiet t) then t else Terminal (t_quiet t) (t_lines t ++ [x]).
Definition outputs (xs : list pystr) (t : terminal) : terminal := fold_left (fun t x => output x t) xs t.
(** converter.py 246 *)
Definition converting (path : pystr) : pystr := [9%N] ++ lit "Converting " ++ rpart_last (ch "/") path.
Definition print (x : pystr) (t : terminal) : terminal := Terminal (t_quiet t) (t_lines t ++ [x]).

(** converter.py 217 and 260-265, for one file; [quiet] is the attribute of the converter *)
Definition one_file (quiet : pyval) (g : reading) (t : terminal) : terminal :=
  let t1 := outputs (g_before g) (Terminal quiet (t_lines t)) in
  if g_opened g then outputs (g_after g) (print (converting (g_path g)) t1) else t1.
(** 259-267: the first error ends the conversion *)
Fixpoint run (quiet : pyval) (gs : list reading) (t : terminal) : terminal :=
  match gs with
  | [] => t
  | g :: gs' => let t' := one_file quiet g t in if (g_opened g && g_ended g)%bool then run quiet gs' t' else t'
  end.
(** conversions one after the other, with converters of their own *)
Definition session (cs : list (pyval * list reading)) (t : terminal) : terminal := fold_left (fun t c => run (fst c) (snd c) t) cs t.
(** [Print.quiet = None] (utils.py 68) *)
Definition fresh : terminal := Terminal VNone [].
