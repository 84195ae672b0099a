(** formats/utils.py 53-121 [XMLStreamIterable]: the streaming XML reader. *)
From Coq Require Import Ascii String List Bool Arith NArith ZArith.
From Verif Require Import PyBase PyValues MultiLangModel DotDictModel.
Import ListNotations.

(** An ElementTree element.  [tag] and the attribute names are as ElementTree stores them:
    "{namespace}name" or "name"; attributes in document order; [tail] is the text after the element. *)
Inductive elem := Elem (tag : pystr) (attrib : list (pystr * pystr)) (text tail : option pystr) (kids : list elem).
Definition etag (e : elem) := match e with Elem t _ _ _ _ => t end.
Definition eattrib (e : elem) := match e with Elem _ a _ _ _ => a end.
Definition etext (e : elem) := match e with Elem _ _ t _ _ => t end.
Definition ekids (e : elem) := match e with Elem _ _ _ _ k => k end.

Fixpoint take_until (c : N) (s : pystr) : pystr :=
  match s with [] => [] | x :: s' => if N.eqb x c then [] else x :: take_until c s' end.
Fixpoint drop_until (c : N) (s : pystr) : pystr :=
  match s with [] => [] | x :: s' => if N.eqb x c then s' else drop_until c s' end.
(** [s.rpartition(c)[-1]] and [s.rpartition(c)[0]] *)
Definition rpart_last (c : N) (s : pystr) : pystr := rev (take_until c (rev s)).
Definition rpart_first (c : N) (s : pystr) : pystr := rev (drop_until c (rev s)).

(** lines 70 and 78: name without namespace *)
Definition local (t : pystr) : pystr := if infixb (lit "}") t then rpart_last (ch "}") t else t.

(** line 71: the text, when it is not blank *)
Definition real_text (t : option pystr) : option pystr :=
  match t with
  | Some s => if (negb (str_eqb s []) && negb (isspace s))%bool then Some s else None
  | None => None
  end.

Definition has_key (k : pystr) (d : list (pystr * pyval)) : bool :=
  match getf k d with Some _ => true | None => false end.
(** lines 77-84 *)
Definition add_child (r : list (pystr * pyval)) (nv : pystr * pyval) : list (pystr * pyval) :=
  match getf (fst nv) r with
  | Some (VList l) => putf (fst nv) (VList (l ++ [snd nv])) r
  | Some x => putf (fst nv) (VList ([x] ++ [snd nv])) r
  | None => putf (fst nv) (snd nv) r
  end.
(** lines 86-87 *)
Definition only_text (r : list (pystr * pyval)) : pyval :=
  match r with
  | [(k, v)] => if str_eqb k ktext then v else VDict r
  | _ => VDict r
  end.
(** lines 69-75: attributes and text *)
Definition own_entries (attrib : list (pystr * pystr)) (text : option pystr) (no_kids : bool)
  : list (pystr * pyval) :=
  let r := fold_left (fun r kv => putf (lit "@" ++ local (fst kv)) (VStr (snd kv)) r) attrib [] in
  let r := match real_text text with Some s => putf ktext (VStr s) r | None => r end in
  if (no_kids && has_key klang r && negb (has_key ktext r))%bool then putf ktext (VStr []) r else r.

Fixpoint elem2dict (e : elem) : pyval :=
  match e with
  | Elem _ attrib text _ kids =>
      only_text (fold_left add_child (map (fun k => (local (etag k), elem2dict k)) kids)
                           (own_entries attrib text (match kids with [] => true | _ => false end)))
  end.

(** [etree.iterparse(file, events=["start","end"])]: the events of a document. An element is complete
    at its end event. *)
Inductive event := EStart (e : elem) | EEnd (e : elem).
Fixpoint events (e : elem) : list event :=
  match e with
  | Elem t a x l kids => EStart e :: flat_map events kids ++ [EEnd e]
  end.

(** lines 98-104: [any(b)].  [n.text is not None or not str(n.text).isspace()] *)
Definition text_flag (t : option pystr) : bool :=
  match t with Some _ => true | None => negb (isspace (lit "None")) end.
Definition worth_reporting (e : elem) : bool :=
  (negb (match eattrib e with [] => true | _ => false end) || text_flag (etext e)
   || negb (match ekids e with [] => true | _ => false end))%bool.

(** lines 91-117 [gen_return]: reports and final path *)
Fixpoint gen_return (keys : list pystr) (path : pystr) (evs : list event) : list (pystr * pyval) * pystr :=
  match evs with
  | [] => ([], path)
  | EStart e :: evs' => gen_return keys (path ++ lit "/" ++ rpart_last (ch "}") (etag e)) evs'
  | EEnd e :: evs' =>
      let own := if (str_in path keys && worth_reporting e)%bool then [(path, elem2dict e)] else [] in
      let ats := flat_map (fun kv => let t := path ++ lit "/@" ++ fst kv in
                                     if str_in t keys then [(t, VStr (snd kv))] else []) (eattrib e) in
      let '(r, p) := gen_return keys (rpart_first (ch "/") path) evs' in
      (own ++ ats ++ r, p)
  end.
Definition read (keys : list pystr) (e : elem) : list (pystr * pyval) := fst (gen_return keys [] (events e)).
