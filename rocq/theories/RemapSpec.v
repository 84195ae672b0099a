(** What the theorems about moving ILCD exchanges to other flows mean. *)
From Coq Require Import Ascii String List Bool Arith NArith ZArith Reals.
From Verif Require Import PyBase PyValues MultiLangModel DotDictModel RemapModel.
Import ListNotations.
Local Open Scope R_scope.

(** the bounds of a distribution multiplied by [f] *)
Definition scaled_by (f : R) (d d' : distribution) : Prop :=
  d_type d' = d_type d /\ (forall a, d_min d = Some a -> d_min d' = Some (a * f)) /\ (forall b, d_max d = Some b -> d_max d' = Some (b * f)).
(** the amount, in the reference unit of the flow, of [a] units with [factor] of a property of which the flow has [mean] *)
Definition true_amount (mean factor a : R) : R := a * factor / mean.

(** the name under which the variable [n] may be found after an exchange that refers to it *)
Inductive may_become (n : pystr) : pystr -> Prop :=
| mb_same : may_become n n
| mb_plain : may_become n (replace (lit "temp_olca_param") (lit "p_") n)
| mb_conv u v : may_become n (replace (lit "temp_olca_param") (lit "p_") n ++ lit "_from_" ++ u ++ lit "_to_" ++ v).
(** names that do not become one another *)
Definition apart (names : list pystr) : Prop :=
  forall n n' o, In n names -> In n' names -> may_become n o -> o = n' -> n = n'.

(** the reference of an exchange finds one of the files in the output: by its address, which is relative to the
    folder of the process, or else by its id *)
Definition resolves (saved_ : list saved) (x : exch) : Prop :=
  exists d n, In (d, n) saved_ /\
    match x_uri x with
    | Some u => u = lit "../" ++ d ++ lit "/" ++ n
    | None => d = lit "flows" /\
              (n = x_flow x ++ lit ".xml" \/
               n = x_flow x ++ lit "_" ++ (match x_version x with Some v => v | None => [] end) ++ lit ".xml")
    end.
(** a file name: no folders in it *)
Definition bare (n : pystr) : Prop := ~ In (ch "/") n.

(** ** nested dictionaries *)
Definition in_dict (k : pystr) (d : list (pystr * pyval)) : Prop := In k (map fst d).
(** [v'] is [v], with "@index" 1 in every text that has a language, and nothing else changed *)
Inductive numbered : pyval -> pyval -> Prop :=
| nu_text d : in_dict (lit "@lang") d -> numbered (VDict d) (VDict (putf (lit "@index") (VInt 1) d))
| nu_dict d d' : ~ in_dict (lit "@lang") d -> numbered_fields d d' -> numbered (VDict d) (VDict d')
with numbered_fields : list (pystr * pyval) -> list (pystr * pyval) -> Prop :=
| nf_nil : numbered_fields [] []
| nf_dict k w w' d d' : numbered (VDict w) w' -> numbered_fields d d' -> numbered_fields ((k, VDict w) :: d) ((k, w') :: d')
| nf_list k l l' d d' : numbered_list l l' -> numbered_fields d d' -> numbered_fields ((k, VList l) :: d) ((k, VList l') :: d')
| nf_other k w d d' : (forall e, w <> VDict e) -> (forall e, w <> VList e) -> numbered_fields d d' -> numbered_fields ((k, w) :: d) ((k, w) :: d')
with numbered_list : list pyval -> list pyval -> Prop :=
| nl_nil : numbered_list [] []
| nl_cons v v' l l' : numbered v v' -> numbered_list l l' -> numbered_list (v :: l) (v' :: l').
(** somewhere a list holds something that is not a dictionary, such as a text without attributes *)
Inductive plain_in_list : pyval -> Prop :=
| pl_here d k l v : ~ in_dict (lit "@lang") d -> In (k, VList l) d -> In v l -> (forall e, v <> VDict e) -> plain_in_list (VDict d)
| pl_dict d k w : ~ in_dict (lit "@lang") d -> In (k, VDict w) d -> plain_in_list (VDict w) -> plain_in_list (VDict d)
| pl_list d k l v : ~ in_dict (lit "@lang") d -> In (k, VList l) d -> In v l -> plain_in_list v -> plain_in_list (VDict d).

(** ** unit files *)
(** a unit group in a file with a prefixed namespace, with at least two units and its reference unit once *)
Definition good_group (g : unit_group) (reference_unit : pystr) : Prop :=
  ug_ns g = NsPrefix /\ (2 <= List.length (ug_units g))%nat /\
  map ue_name (filter (fun e => str_eqb (ue_id e) (ug_ref g)) (ug_units g)) = [reference_unit].
