(** The log files of conversions to EcoSpold2 (formats/utils.py 19-52, formats/ECS2_format.py 26-44,
    formats/abstractions.py 119-152, converter.py 227-267).  A log is a list of records. *)
From Coq Require Import Ascii String List Bool Arith NArith ZArith.
From Verif Require Import PyBase PyValues DotDictModel OutputModel.
Import ListNotations.

(** Records: the heading (28-29), the two that the list of flows looks for (44), any other one, and the
    two endings (32, 35).  Two records are next to each other when no other one is between them. *)
Inductive line := Heading | Flow (name id : pystr) | Unconverted | Message (t : pystr) | Ended (name : pystr) | Closed.

(** a file of the input: its name (configurations.py 48-60) and what its conversion logs *)
Record dataset := DataSet { t_name : pystr; t_lines : list line }.

(** [data.filename], [log_path], [multi_files] of the output; the files of the output folder; the handler of the root
    logger ([None]: those of the application); whether [logging.handlers] still is the module *)
Record logging := Logging {
  l_name : pystr; l_path : pystr; l_multi : bool;
  l_logs : list (pystr * list line);
  l_lists : list (pystr * list (pystr * pystr));
  l_handler : option pystr;
  l_module : bool }.

Definition content (p : pystr) (fs : list (pystr * list line)) : list line := match getf p fs with Some l => l | None => [] end.
(** 23-26: the file is opened to append; handlers of the application write elsewhere *)
Definition write (x : line) (s : logging) : logging :=
  match l_handler s with
  | Some p => Logging (l_name s) (l_path s) (l_multi s) (putf p (content p (l_logs s) ++ [x]) (l_logs s)) (l_lists s) (l_handler s) (l_module s)
  | None => s
  end.

(** ECS2_format.py 27 *)
Definition log_file (name : pystr) : pystr := replace (lit "/") (lit "_per_") name ++ lit ".log".
(** converter.py 228-230, ECS2_format.py 26-28, utils.py 21-29; [force=True] removes all handlers *)
Definition start_output (d : dataset) (s : logging) : logging :=
  if l_multi s then s
  else write Heading (Logging (t_name d) (log_file (t_name d)) false (l_logs s) (l_lists s) (Some (log_file (t_name d))) (l_module s)).
Definition say (ls : list line) (s : logging) : logging := fold_left (fun s x => write x s) ls s.

(** 44: 36 digits, letters a to f and dashes; characters that are no white space, and blanks *)
Definition hex_or_dash (c : N) : bool := ((48 <=? c) && (c <=? 57) || (97 <=? c) && (c <=? 102) || (c =? 45))%N%bool.
Definition plain_id (i : pystr) : bool := Nat.eqb (List.length i) 36 && forallb hex_or_dash i.
Definition plain_name (n : pystr) : bool := negb (Nat.eqb (List.length n) 0) && forallb (fun c => (c =? 32)%N || negb (is_space c)) n.
Definition found_at (x : line) (r : list line) : list (pystr * pystr) :=
  match x, r with Flow n i, Unconverted :: _ => if plain_name n && plain_id i then [(i, n)] else [] | _, _ => [] end.
Fixpoint listed (ls : list line) : list (pystr * pystr) :=
  match ls with
  | x :: r => found_at x r ++ listed r
  | [] => []
  end.

(** abstractions.py 127-130 with utils.py 31-32; 148-150 *)
Definition reset_output (s : logging) : logging :=
  let s := write (Ended (l_name s)) s in Logging (l_name s) (l_path s) true (l_logs s) (l_lists s) (l_handler s) (l_module s).
(** ECS2_format.py 41-44, utils.py 34-49; the list of a log [x.log] is [x_not_converted_elementary_flows.log] *)
Definition end_output (s : logging) : logging :=
  let s := write Closed (write (Ended (l_name s)) s) in
  let found := listed (content (l_path s) (l_logs s)) in
  Logging (l_name s) (l_path s) false (l_logs s) (match found with [] => l_lists s | _ => putf (l_path s) found (l_lists s) end) (l_handler s) false.

(** converter.py 260-266 *)
Definition one (to_file : bool) (s : logging) (f : dataset * bool) : logging :=
  let s := say (t_lines (fst f)) (start_output (fst f) s) in if snd f || to_file then end_output s else reset_output s.
Definition log_run (to_file : bool) (ds : list dataset) (s : logging) : logging := fold_left (one to_file) (yield_files ds) s.

(** ILCD1_to_ECS2_conversion.py 399-401, 99-100, 1035-1041: an elementary flow without counterpart; the record between
    the two when its uncertainty is normal or lognormal and its comment gives no basic variance *)
Definition flow_lines (name id : pystr) (no_variance : bool) : list line :=
  Flow name id :: (if no_variance then [Message (lit "no pedigree information")] else []) ++ [Unconverted].
