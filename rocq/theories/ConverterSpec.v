(** Vocabulary for options, requests and file information. *)
From Coq Require Import Ascii String List Bool Arith NArith ZArith QArith.
From Verif Require Import PyBase PyValues DotDictModel ConverterModel OutputSpec.
Import ListNotations.
Local Close Scope Q_scope.

(** A value that Python considers equal to True or to False. *)
Inductive boolean_like : pyval -> Prop :=
| bl_bool b : boolean_like (VBool b)
| bl_int z : z = 0%Z \/ z = 1%Z -> boolean_like (VInt z)
| bl_float q : (q == 0 \/ q == 1)%Q -> boolean_like (VFloat (Fin q)).

(** Assignments, whatever their outcome. *)
Fixpoint assignments (l : list (pystr * pyval)) (c : converter) : converter :=
  match l with [] => c | (k, v) :: l' => assignments l' (fst (set_attr k v c)) end.

(** Supported formats, and the flow lists of a format. *)
Definition supported (a : pystr) : Prop := a = lit "EcoSpold2" \/ a = lit "ILCD1" \/ a = lit "OLCAILCD1".
Definition flow_list_of (a l : pystr) : Prop :=
  (a = lit "EcoSpold2" /\ l = lit "ecoinvent3.7") \/
  ((a = lit "ILCD1" \/ a = lit "OLCAILCD1") /\ l = lit "EF3.0").
(** An input that can be opened: a folder, or a file with an ending of the format. *)
Definition usable_input (a : pystr) (p : paths) : Prop :=
  p_exists p = true /\
  (p_is_dir p = true \/
   (a = lit "EcoSpold2" /\ (ends_with (lit ".spold") (p_name p) \/ ends_with (lit ".SPOLD") (p_name p))) \/
   (a <> lit "EcoSpold2" /\ (ends_with (lit ".zip") (p_name p) \/ ends_with (lit ".ZIP") (p_name p) \/
                              ends_with (lit ".xml") (p_name p)))).

(** [found tbl k rs v]: the first report for the key [k] in [rs] has value [v]; [all_found] collects
    every report for [k]. *)
Inductive found (tbl : itable) (k : ikey) : list (pystr * pyval) -> option pyval -> Prop :=
| f_none : found tbl k [] None
| f_here p t f v rs : getf p tbl = Some (k, f) -> f t = Ok v -> found tbl k ((p, t) :: rs) (Some v)
| f_later p t k' f rs o : getf p tbl = Some (k', f) -> k' <> k -> found tbl k rs o -> found tbl k ((p, t) :: rs) o.
Inductive all_found (tbl : itable) (k : ikey) : list (pystr * pyval) -> list pyval -> Prop :=
| a_none : all_found tbl k [] []
| a_here p t f v rs vs : getf p tbl = Some (k, f) -> f t = Ok v -> all_found tbl k rs vs -> all_found tbl k ((p, t) :: rs) (v :: vs)
| a_skip p t k' f rs vs : getf p tbl = Some (k', f) -> k' <> k -> all_found tbl k rs vs -> all_found tbl k ((p, t) :: rs) vs.
