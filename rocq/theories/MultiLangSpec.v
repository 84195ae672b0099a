(** Specification vocabulary for the fields with language, index or name. *)
From Coq Require Import Ascii String List Bool Arith NArith ZArith Sorted.
From Verif Require Import PyBase PyValues TextSplitModel ValidatorsModel MultiLangModel.
Import ListNotations.

(** An accepted addition: index, language (or name), text. *)
Definition triple : Type := (Z * pystr * pystr)%type.

Definition texts_at (L : list triple) (i : Z) (k : pystr) : list pystr :=
  map snd (filter (fun a => Z.eqb (fst (fst a)) i && str_eqb (snd (fst a)) k) L).

(** Texts given for the same index and language: joined with the separator of the field,
    or (fields that hold a single value) the last one. *)
Definition merged (sep : option pystr) (l : list pystr) : pystr :=
  match sep with Some s => join s l | None => last l [] end.

Definition newline : pystr := [10%N].
Definition str_lt (a b : pystr) : Prop := str_leb a b = true /\ a <> b.

(** The text of a language: the texts of its indexes in increasing order, one per line. *)
Definition lang_text (sep : option pystr) (L : list triple) (k t : pystr) : Prop :=
  exists idxs : list Z,
    StronglySorted Z.lt idxs /\
    (forall i, In i idxs <-> exists u, In (i, k, u) L) /\
    t = join newline (map (fun i => merged sep (texts_at L i k)) idxs).

(** One row per language, ordered by language code. *)
Definition language_rows (sep : option pystr) (L : list triple) (rows : list (pystr * pystr)) : Prop :=
  StronglySorted str_lt (map fst rows) /\
  (forall k, In k (map fst rows) <-> exists i u, In (i, k, u) L) /\
  (forall k t, In (k, t) rows -> lang_text sep L k t).

(** A text is visible when it has a character that is not white space. *)
Definition visible_text (s : pystr) : Prop := exists c, In c s /\ is_space c = false.

(** What a Python value offers as one addition. *)
Definition field (k : pystr) (d : list (pystr * pyval)) : option pyval :=
  match find (fun kv => str_eqb (fst kv) k) d with Some kv => Some (snd kv) | None => None end.

(** A dictionary {'@index': i, '@lang': k, '#text': t}. *)
Definition lang_addition (langs : option (list pystr)) (v : pyval) (a : triple) : Prop :=
  exists d iv, v = VDict d /\
    (forall k x, In (k, x) d -> In k [lit "@index"; lit "@lang"; lit "#text"]) /\
    field (lit "@index") d = Some iv /\ py_int iv = Some (fst (fst a)) /\
    field (lit "@lang") d = Some (VStr (snd (fst a))) /\ length (snd (fst a)) = 2 /\
    match langs with Some ls => In (snd (fst a)) ls | None => True end /\
    field (lit "#text") d = Some (VStr (snd a)).

(** A dictionary {'@index': i, '#text': t}; the language is left empty. *)
Definition index_addition (v : pyval) (a : triple) : Prop :=
  exists d iv, v = VDict d /\
    (forall k x, In (k, x) d -> In k [lit "@index"; lit "#text"]) /\
    field (lit "@index") d = Some iv /\ py_int iv = Some (fst (fst a)) /\
    snd (fst a) = [] /\
    field (lit "#text") d = Some (VStr (snd a)).

(** One call [add(v)]: a dictionary or a list of dictionaries, all valid or nothing is added;
    entries without visible text are skipped. *)
Definition offered (v : pyval) : list pyval := match v with VList l => l | _ => [v] end.
Inductive visible_of : list triple -> list triple -> Prop :=
| vis_nil : visible_of [] []
| vis_keep a l r : visible_text (snd a) -> visible_of l r -> visible_of (a :: l) (a :: r)
| vis_skip a l r : ~ visible_text (snd a) -> visible_of l r -> visible_of (a :: l) r.
Definition call_adds (P : pyval -> triple -> Prop) (v : pyval) (l : list triple) : Prop :=
  (exists all, Forall2 P (offered v) all /\ visible_of all l) \/
  ((forall all, ~ Forall2 P (offered v) all) /\ l = []).
Definition calls_add (P : pyval -> triple -> Prop) (vs : list pyval) (L : list triple) : Prop :=
  exists ls, Forall2 (call_adds P) vs ls /\ L = concat ls.

(** A stable sort by index. *)
Definition stable_by_index (L S : list triple) : Prop :=
  StronglySorted (fun a b => (fst (fst a) <= fst (fst b))%Z) S /\
  forall i, filter (fun a => Z.eqb (fst (fst a)) i) S = filter (fun a => Z.eqb (fst (fst a)) i) L.

(** Use of a field: additions and reads in any order. *)
Inductive use := Add (v : pyval) | Read.
Fixpoint added (us : list use) : list pyval :=
  match us with [] => [] | Add v :: r => v :: added r | Read :: r => added r end.
(** The additions performed before each read. *)
Fixpoint before_reads (past : list pyval) (us : list use) : list (list pyval) :=
  match us with
  | [] => []
  | Add v :: r => before_reads (past ++ [v]) r
  | Read :: r => past :: before_reads past r
  end.

(** A text fits its field: limits are switched off or the length is inside the bounds. *)
Definition fits (ignore : bool) (tc : textclass) (t : pystr) : Prop :=
  ignore = true \/
  match tc_limit tc with
  | None => tc_split tc = false
  | Some (LMax n) => length t <= n
  | Some (LRange lo hi) => lo <= length t <= hi
  | Some (LBig n) => (N.of_nat (length t) <= n)%N
  end.

(** What one stored text becomes: itself when it fits, the pieces of the splitter when it is over the limit. *)
Definition emits (ignore : bool) (tc : textclass) (t : pystr) (ps : list pystr) : Prop :=
  ps = [t] \/
  (ignore = false /\ tc_split tc = true /\ upper (tc_limit tc) < length t /\
   text_to_list t (upper (tc_limit tc)) = Ok ps).

(** A named text {'@name': n, '#text': t}. *)
Definition named_addition (v : pyval) (a : pystr * pystr) : Prop :=
  exists d, v = VDict d /\
    (forall k x, In (k, x) d -> In k [lit "@name"; lit "#text"]) /\
    field (lit "@name") d = Some (VStr (fst a)) /\ field (lit "#text") d = Some (VStr (snd a)).
Definition disjoint (a b : list pystr) : Prop := forall x, In x a -> ~ In x b.
Inductive visible_named : list (pystr * pystr) -> list (pystr * pystr) -> Prop :=
| visn_nil : visible_named [] []
| visn_keep a l r : visible_text (snd a) -> visible_named l r -> visible_named (a :: l) (a :: r)
| visn_skip a l r : ~ visible_text (snd a) -> visible_named l r -> visible_named (a :: l) r.
(** A call is accepted when all entries are valid, their names differ from each other and from the stored ones. *)
Definition named_ok (S : list (pystr * pystr)) (v : pyval) (all : list (pystr * pystr)) : Prop :=
  Forall2 named_addition (offered v) all /\ NoDup (map fst all) /\ disjoint (map fst all) (map fst S).
Inductive named_history : list pyval -> list (pystr * pystr) -> Prop :=
| nh_nil : named_history [] []
| nh_yes vs S v all l : named_history vs S -> named_ok S v all -> visible_named all l ->
    named_history (vs ++ [v]) (S ++ l)
| nh_no vs S v : named_history vs S -> (forall all, ~ named_ok S v all) -> named_history (vs ++ [v]) S.
