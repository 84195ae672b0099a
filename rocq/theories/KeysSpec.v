(** Which documents belong to a format, which paths they can have, and when two documents differ only in
    given fields. *)
From Coq Require Import Ascii String List Bool Arith NArith ZArith.
From Verif Require Import PyBase PyValues MultiLangModel DotDictModel XmlModel XmlSpec KeysModel.
Import ListNotations.

(** An attribute in a namespace: ElementTree writes "{namespace}name". *)
Definition namespaced (k : pystr) : Prop := exists ns n, k = lit "{" ++ ns ++ lit "}" ++ n.
(** [fits s e]: attributes (without namespace) and children of [e] are among those of the shape. *)
Inductive fits : shape -> elem -> Prop :=
| fits_elem s t a x l es :
    Forall (fun kv => In (fst kv) (s_attrs s) \/ namespaced (fst kv)) a ->
    Forall (fun k => exists n s', In (n, s') (s_kids s) /\ name_of (etag k) n /\ fits s' k) es ->
    fits s (Elem t a x l es).
(** A document of a format: its root is one of the children of the top shape. *)
Definition document (top : shape) (e : elem) : Prop :=
  exists n s, In (n, s) (s_kids top) /\ name_of (etag e) n /\ fits s e.

(** The paths of a shape, as the reader writes them. *)
Inductive route : shape -> pystr -> Prop :=
| route_attribute s a : In a (s_attrs s) -> route s (lit "/@" ++ a)
| route_child s n s' : In (n, s') (s_kids s) -> route s (lit "/" ++ n)
| route_below s n s' p : In (n, s') (s_kids s) -> route s' p -> route s (lit "/" ++ n ++ p).

(** [below p q]: the path [q] lies inside the element at path [p]. *)
Definition below (p q : pystr) : Prop := exists r, q = p ++ lit "/" ++ r.

(** [alike hidden q e e']: [e] and [e'], both at path [q], are the same up to attributes and elements
    whose path is in [hidden]; those may differ, be absent or be added, with any content. *)
Inductive alike (hidden : list pystr) (q : pystr) : elem -> elem -> Prop :=
| alike_elem t a a' x l es es' :
    alike_attrs hidden q a a' -> alike_all hidden q es es' ->
    alike hidden q (Elem t a x l es) (Elem t a' x l es')
with alike_all (hidden : list pystr) (q : pystr) : list elem -> list elem -> Prop :=
| alike_nil : alike_all hidden q [] []
| alike_both k k' n es es' :
    name_of (etag k) n -> etag k' = etag k -> alike hidden (q ++ lit "/" ++ n) k k' ->
    alike_all hidden q es es' -> alike_all hidden q (k :: es) (k' :: es')
| alike_drop k n es es' :
    name_of (etag k) n -> In (q ++ lit "/" ++ n) hidden -> alike_all hidden q es es' ->
    alike_all hidden q (k :: es) es'
| alike_add k n es es' :
    name_of (etag k) n -> In (q ++ lit "/" ++ n) hidden -> alike_all hidden q es es' ->
    alike_all hidden q es (k :: es')
with alike_attrs (hidden : list pystr) (q : pystr) : list (pystr * pystr) -> list (pystr * pystr) -> Prop :=
| attrs_nil : alike_attrs hidden q [] []
| attrs_both kv a a' : alike_attrs hidden q a a' -> alike_attrs hidden q (kv :: a) (kv :: a')
| attrs_drop k v a a' : In (q ++ lit "/@" ++ k) hidden -> alike_attrs hidden q a a' ->
    alike_attrs hidden q ((k, v) :: a) a'
| attrs_add k v a a' : In (q ++ lit "/@" ++ k) hidden -> alike_attrs hidden q a a' ->
    alike_attrs hidden q a ((k, v) :: a').
(** two whole documents *)
Definition alike_documents (hidden : list pystr) (e e' : elem) : Prop :=
  etag e = etag e' /\ exists n, name_of (etag e) n /\ alike hidden (lit "/" ++ n) e e'.
