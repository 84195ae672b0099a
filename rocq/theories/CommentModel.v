(** Facts kept inside comments.
    EcoSpold2 to ILCD writes some attributes as lines of comment fields
    (ECS2_to_ILCD1_conversion.py 2180-2284); ILCD to EcoSpold2 looks for them again
    (formats/helpers.py 92-117, ILCD1_to_ECS2_conversion.py 1544-1628).
    The regular expressions used there have the form "mark, a space, the rest of the line"; they are
    modelled directly by [search_line] and [remove_lines] (a dot matches everything but a line feed). *)
From Coq Require Import Ascii String List Bool Arith NArith ZArith.
From Verif Require Import PyBase PyValues ValidatorsModel MultiLangModel DotDictModel TablesModel.
Import ListNotations.

Definition nl : N := 10%N.

(** ** helpers.py 92-117 *)
(** the rest of the line, and what follows the line feed ([None]: the text ends here) *)
Fixpoint cut_line (s : pystr) : pystr * option pystr :=
  match s with
  | [] => ([], None)
  | c :: s' => if N.eqb c nl then ([], Some s')
               else let '(v, r) := cut_line s' in (c :: v, r)
  end.
Definition after_line (r : option pystr) : pystr := match r with Some s => s | None => [] end.

(** [re.search(mark + (any characters up to a line feed or the end), s)]: the text before the match, the group, the text after it.
    [need]: the line must be ended by a line feed ([\n] instead of [(?:\n|$)]). *)
Definition match_line (need : bool) (mark s : pystr) : option (pystr * pystr) :=
  if prefixb mark s then
    match cut_line (skipn (length mark) s) with
    | (v, None) => if need then None else Some (v, [])
    | (v, Some r) => Some (v, r)
    end
  else None.
Fixpoint search_with {A} (m : pystr -> option (A * pystr)) (s : pystr) : option A :=
  match m s with
  | Some (v, _) => Some v
  | None => match s with [] => None | _ :: s' => search_with m s' end
  end.
(** [re.sub(..., '', s)]: every match is removed, from left to right *)
Fixpoint remove_with {A} (m : pystr -> option (A * pystr)) (fuel : nat) (s : pystr) : pystr :=
  match fuel with
  | O => s
  | S f => match m s with
           | Some (_, r) => remove_with m f r
           | None => match s with [] => [] | c :: s' => c :: remove_with m f s' end
           end
  end.
Definition remove_all {A} (m : pystr -> option (A * pystr)) (s : pystr) : pystr :=
  remove_with m (S (length s)) s.

(** lines 92-99 [_get_str]: the value assigned (None when the text is not a key), and the remaining text *)
Definition get_str (keys : table) (mark text : pystr) : option (option pystr) * pystr :=
  match search_with (match_line false mark) text with
  | Some g => (Some (getf g keys), remove_all (match_line false mark) text)
  | None => (None, text)
  end.
(** lines 101-108 [_get_list_str]: the lines are removed once for each item *)
Definition get_list_str (mark text : pystr) : list pystr * pystr :=
  match search_with (match_line true mark) text with
  | Some g => (split (lit "; ") g, Nat.iter (length (split (lit "; ") g)) (remove_all (match_line true mark)) text)
  | None => ([], text)
  end.
(** lines 110-117 [_get_uuid] *)
Definition is_hexdigit (c : N) : bool := ((97 <=? c) && (c <=? 102) || (48 <=? c) && (c <=? 57))%N.
Fixpoint uuid_shape (groups : list nat) (s : pystr) : bool :=
  match groups with
  | [] => match s with [] => true | _ => false end
  | [n] => ((length s =? n)%nat && forallb is_hexdigit s)%bool
  | n :: gs => ((n <=? length s)%nat && forallb is_hexdigit (firstn n s) &&
                match skipn n s with
                | 45%N :: s' => uuid_shape gs s'
                | _ => false
                end)%bool
  end.
Definition looks_uuid (s : pystr) : bool := uuid_shape [8; 4; 4; 4; 12] s.
Definition match_uuid (mark s : pystr) : option (pystr * pystr) :=
  if prefixb mark s then
    let t := skipn (length mark) s in
    if looks_uuid (firstn 36 t)
    then match skipn 36 t with
         | c :: r => if N.eqb c nl then Some (firstn 36 t, r) else None
         | [] => None
         end
    else None
  else None.
Definition get_uuid (mark text : pystr) : option pystr * pystr :=
  match search_with (match_uuid mark) text with
  | Some g => (Some g, remove_all (match_uuid mark) text)
  | None => (None, text)
  end.

(** ** ILCD1_to_ECS2_conversion.py 1544-1628 *)
(** Assignments made by these methods, in order; [None] is Python's None. *)
Inductive slot :=
| ActivityNameId | IndexNameId | MasterNameId | SpecialType | IndexSpecialType | Inheritance
| ParentId | ChildDataset | Tag | Validity | TechLevel | Energy | IncludedStart | IncludedEnd.
Definition notes := list (slot * option pystr).

Definition mark_linkable : pystr := lit "Activity Linkable Id: ".
Definition mark_subtype : pystr := lit "Activity Subtype: ".
Definition mark_inheritance : pystr := lit "Inheritance: ".
Definition mark_parent : pystr := lit "Parent Id: ".
Definition mark_tag : pystr := lit "Tag: ".
Definition mark_validity : pystr := lit "Validity: ".
Definition mark_level : pystr := lit "Technology Level: ".
Definition mark_energy : pystr := lit "Energy: ".
Definition mark_start : pystr := lit "Activity Start: ".
Definition mark_end : pystr := lit "Activity End: ".
Definition mark_model : pystr := lit "Original ecoinvent System Model: ".

Definition str_notes (slots : list slot) (r : option (option pystr)) : notes :=
  match r with Some v => map (fun s => (s, v)) slots | None => [] end.

(** lines 1544-1585 *)
Definition general_comment (t : pystr) : notes * pystr :=
  let '(u, t1) := get_uuid mark_linkable t in
  let n1 := match u with Some i => map (fun s => (s, Some i)) [ActivityNameId; IndexNameId; MasterNameId] | None => [] end in
  let '(v, t2) := get_str special_activity_ mark_subtype t1 in
  let n2 := str_notes [SpecialType; IndexSpecialType; SpecialType] v in
  let '(h, t3) := get_str child_type_ mark_inheritance t2 in
  let n3 := str_notes [Inheritance] h in
  let '(p, t4) := get_uuid mark_parent t3 in
  let n4 := match p with
            | Some i => [(ParentId, Some i); (ChildDataset, Some (lit "childActivityDataset")); (Inheritance, Some (lit "-1"))]
            | None => []
            end in
  let '(g, t5) := get_list_str mark_tag t4 in
  (n1 ++ n2 ++ n3 ++ n4 ++ map (fun x => (Tag, Some x)) g, t5).

(** lines 1587-1593 *)
Definition time_comment (t : pystr) : notes * pystr :=
  let '(v, t1) := get_str time_period_ mark_validity t in (str_notes [Validity] v, t1).

(** lines 1595-1612.  The first search wants the line after "Activity Start" to begin with "Activity End". *)
Definition match_start (s : pystr) : option (pystr * pystr) :=
  match match_line true mark_start s with
  | Some (v, r) => if prefixb mark_end r then Some (v, skipn (length mark_end) r) else None
  | None => None
  end.
Definition tech_comment (t : pystr) : notes * pystr :=
  let '(n1, t1) := match search_with match_start t with
                   | Some g => ([(IncludedStart, Some g)], remove_all (match_line true mark_start) t)
                   | None => ([], t)
                   end in
  (* the group takes the whole line, so the alternative [;] of the pattern is never used *)
  let '(n2, t2) := match search_with (match_line false mark_end) t1 with
                   | Some g => ([(IncludedEnd, Some g)], remove_all (match_line false mark_end) t1)
                   | None => ([], t1)
                   end in
  let '(v, t3) := get_str tech_ mark_level t2 in
  (n1 ++ n2 ++ str_notes [TechLevel] v, t3).

(** lines 1614-1620, 1771-1774 *)
Definition modelling_constants (t : pystr) : notes * pystr :=
  let '(v, t1) := get_str energy_ mark_energy (lit "Modelling Constants: " ++ t) in (str_notes [Energy] v, t1).

(** lines 1622-1628, 1760-1764: the line must be the last one ([$] also matches before a final line feed) *)
Definition match_last (mark s : pystr) : option (pystr * pystr) :=
  if prefixb mark s then
    match cut_line (skipn (length mark) s) with
    | (v, None) => Some (v, [])
    | (v, Some []) => Some (v, [nl])
    | (v, Some _) => None
    end
  else None.
Definition deviation_comment (t : pystr) : option pystr * pystr :=
  let t := lit "Deviations from LCI Method Principles: " ++ t in
  match search_with (match_last mark_model) t with
  | Some g => (Some g, remove_all (match_last mark_model) t)
  | None => (None, t)
  end.

(** ** ECS2_to_ILCD1_conversion.py 2180-2284: the lines written *)
(** [f'{table.get(x)}'] *)
Definition shown (t : table) (x : pystr) : pystr := match getf x t with Some v => v | None => lit "None" end.
Definition line_linkable (x : pystr) : pystr := mark_linkable ++ x.              (* 2181, index -10 *)
Definition line_subtype (x : pystr) : pystr := mark_subtype ++ shown special_activity x. (* 2202, index -9 *)
Definition line_inheritance (x : pystr) : option pystr :=                        (* 2195, index -8 *)
  match getf x child_type with
  | Some [] | None => None
  | Some v => Some (mark_inheritance ++ v)
  end.
Definition line_parent (x : pystr) : pystr := mark_parent ++ x.                  (* 2188, index -7 *)
(** 2249-2250, index -6.  Inside the class [__prefix_repeating_tag] is the mangled attribute, which
    [setattr(type(self), '__prefix_repeating_tag', False)] does not change: it stays True. *)
Definition text_tag (x : pystr) : option pystr :=
  match x with [] => None | _ => Some (nl :: mark_tag ++ x) end.
Definition line_energy (x : pystr) : pystr := mark_energy ++ shown energy x.     (* 2205 *)
Definition line_level (x : pystr) : pystr := mark_level ++ shown tech x.         (* 2271, index -1 *)
Definition line_validity (x : pystr) : pystr := mark_validity ++ shown time_period x.  (* 2284, index -1 *)
Definition line_start (x : pystr) : pystr := mark_start ++ x.                    (* 2236 *)
Definition line_end (x : pystr) : pystr := mark_end ++ x.                        (* 2239 *)
Definition line_model (x : pystr) : pystr := mark_model ++ x.                    (* 2358 *)
(** texts given for one index are joined by the separator of the field *)
Definition tags_text (xs : list pystr) : pystr := join sep_default (flat_map (fun x => match text_tag x with Some t => [t] | None => [] end) xs).

(** 2460-2461: the data set version; [x.get("@majorRelease", '0')], [x.get("@minorRevision", '0')] *)
Record release := { major_release : option pystr; minor_release : option pystr;
                    major_revision : option pystr; minor_revision : option pystr }.
Definition written_version (x : release) : pystr :=
  let get := fun o => match o with Some s => s | None => lit "0" end in
  lit "0" ++ get (major_release x) ++ lit ".0" ++ get (minor_revision x) ++ lit ".000".
(** ILCD1_to_ECS2_conversion.py 1882-1889: major release, minor release, major revision, minor revision *)
Definition read_version (x : pystr) : result (Z * Z * Z * Z) :=
  let part := fun i => match nth_error (split (lit ".") x) i with
                       | None => Err IndexError
                       | Some p => match int_of_str p with Some z => Ok z | None => Err ValueError end
                       end in
  bind (part 0%nat) (fun a => bind (part 1%nat) (fun b => Ok (a, 0, 0, b)%Z)).

(** 2456-2458: access restriction, written as license type and as text *)
Definition written_license (x : pystr) : option pystr := getf x restrictions.
(** the default (lines 2013-2014) has the same index and language, so the texts are joined *)
Definition written_access (x : pystr) : option pystr :=
  option_map (fun a => join sep_default [lit "Licensees"; a]) (getf x access).
(** ILCD1_to_ECS2_conversion.py 1490-1493 and 1919-1931: the values assigned, in order.  The three source fields come in the order of the
    ILCD schema.  [exclusive]: a reference to entities with exclusive access exists. *)
Definition read_access (exclusive : bool) (license access_text : option pystr) : list pyval :=
  let now := match access_text with
             | Some t => match split (lit ";") t with
                         | p :: _ => match getf p access_ with Some c => [VStr c] | None => [] end
                         | [] => []
                         end
             | None => []
             end in
  let kept := match license with
              | Some l => match getf l restrictions_ with Some c => Some (VStr c) | None => None end
              | None => if exclusive then Some (VInt 3) else None
              end in
  now ++ match kept with Some v => [v] | None => [] end.

(** ILCD1_to_ECS2_conversion.py 1455-1477: the system model.  The result: id and name. *)
Definition opt_eqb (a b : option pystr) : bool :=
  match a, b with Some x, Some y => str_eqb x y | None, None => true | _, _ => false end.
Definition count_pair (c : option pystr * option pystr) (l : list (option pystr * option pystr)) : nat :=
  length (filter (fun d => opt_eqb (fst c) (fst d) && opt_eqb (snd c) (snd d))%bool l).
(** [Counter(l).most_common(1)[0][0]]: the first of the most frequent ones *)
Fixpoint most_common (all l : list (option pystr * option pystr)) (best : option pystr * option pystr) : option pystr * option pystr :=
  match l with
  | [] => best
  | c :: l' => most_common all l' (if (count_pair best all <? count_pair c all)%nat then c else best)
  end.
Definition approach (x : pystr) : option pystr * option pystr :=                 (* 1766-1767 *)
  let n := getf x system_model_2_ in (n, match n with Some m => getf m system_model_1_ | None => None end).
Definition undefined_model : option pystr * option pystr :=
  (Some (lit "Undefined"), Some (lit "8b738ea0-f89e-4627-8679-433616064e82")).
(** name and id *)
Definition system_model_of (original : option pystr) (approaches : list pystr) : option pystr * option pystr :=
  match original with
  | Some m => (Some m, getf m system_model_1_)
  | None => match map approach approaches with
            | [] => undefined_model
            | c :: l => most_common (c :: l) l c
            end
  end.

(** 1479-1488: the energy basis.  [given]: the field already has a value that is true (0 is not). *)
Definition energy_vote (net gross : nat) : pystr :=
  if (3 * gross <=? net)%nat then lit "1" else if (3 * net <=? gross)%nat then lit "2" else lit "0".
Definition energy_basis (given : option Z) (net gross : nat) : Z + pystr :=
  match given with
  | Some 0%Z | None => inr (energy_vote net gross)
  | Some z => inl z
  end.

(** 1676-1678 and ECS2_to_ILCD1_conversion.py 2231-2233: synonyms, joined by the separator of the field *)
Definition written_synonyms (xs : list pystr) : pystr := join sep_default xs.
Definition read_synonyms (t : pystr) : list pystr := split (lit "; ") t.

(** ** helpers.py 25-49: the running index *)
(** [add_index] uses [add]: increments first; [text_add_index] increments afterwards. *)
Inductive index_call := Add | TextAdd.
Definition next_index (c : index_call) (n : Z) : Z * Z :=
  match c with Add => (n + 1, n + 1) | TextAdd => (n, n + 1) end%Z.
Fixpoint indexes (cs : list index_call) (n : Z) : list Z :=
  match cs with
  | [] => []
  | c :: cs' => fst (next_index c n) :: indexes cs' (snd (next_index c n))
  end.
