(** What the streaming reader should report, read off the document tree. *)
From Coq Require Import Ascii String List Bool Arith NArith ZArith.
From Verif Require Import PyBase PyValues MultiLangModel DotDictModel XmlModel.
Import ListNotations.

(** [name_of t n]: [n] is the name in [t], which may carry a "{namespace}" prefix. *)
Definition name_of (t n : pystr) : Prop :=
  ~ In (ch "}") n /\ (t = n \/ exists ns, t = lit "{" ++ ns ++ lit "}" ++ n).
(** XML names: not empty, without '/', not starting with '@' or '#'. *)
Definition xml_name (n : pystr) : Prop :=
  n <> [] /\ ~ In (ch "/") n /\ (forall r, n <> ch "@" :: r) /\ (forall r, n <> ch "#" :: r).
(** Every element of the document has a proper name. *)
Inductive proper : elem -> Prop :=
| proper_elem t a x l kids n : name_of t n -> xml_name n -> Forall proper kids -> proper (Elem t a x l kids).

(** The elements in the order in which they close, with their path. *)
Inductive closes (prefix : pystr) : elem -> list (pystr * elem) -> Prop :=
| closes_elem t a x l kids n css :
    name_of t n -> closes_all (prefix ++ lit "/" ++ n) kids css ->
    closes prefix (Elem t a x l kids) (css ++ [(prefix ++ lit "/" ++ n, Elem t a x l kids)])
with closes_all (prefix : pystr) : list elem -> list (pystr * elem) -> Prop :=
| closes_nil : closes_all prefix [] []
| closes_cons e es c cs : closes prefix e c -> closes_all prefix es cs -> closes_all prefix (e :: es) (c ++ cs).

(** Reports due for one closing element. *)
Definition due (keys : list pystr) (pe : pystr * elem) : list (pystr * pyval) :=
  (if in_dec (list_eq_dec N.eq_dec) (fst pe) keys then [(fst pe, elem2dict (snd pe))] else []) ++
  flat_map (fun kv => if in_dec (list_eq_dec N.eq_dec) (fst pe ++ lit "/@" ++ fst kv) keys
                      then [(fst pe ++ lit "/@" ++ fst kv, VStr (snd kv))] else []) (eattrib (snd pe)).

(** The content of an element as a dictionary; an element with a text only is that text. *)
Definition content (v : pyval) : list (pystr * pyval) :=
  match v with VDict d => d | _ => [(lit "#text", v)] end.
(** the children called [n] *)
Inductive named_kids (n : pystr) : list elem -> list elem -> Prop :=
| nk_nil : named_kids n [] []
| nk_take k ks r : name_of (etag k) n -> named_kids n ks r -> named_kids n (k :: ks) (k :: r)
| nk_skip k ks r : ~ name_of (etag k) n -> named_kids n ks r -> named_kids n (k :: ks) r.
