(** Dictionary-string validators: general_validators.py 180-335, ECS2_validators.py 85-186,
    ILCD1_validators.py 42-56.
    A stored entry is a Python dict with keys '@index', '@lang' (or '@name') and '#text';
    '#text' holds a text validator, represented by its current text. [tx = None] = key '#text' was popped. *)
From Coq Require Import Ascii String List Bool Arith NArith ZArith.
From Verif Require Import PyBase PyValues TextSplitModel ValidatorsModel.
Import ListNotations.

(** The class held in '_text': [tc_sep] = its separator ([None]: add overwrites),
    [tc_limit] = its length limit ([None]: Str), [tc_split] = over-long text is split at the end
    (all classes but Str and UnlimitedString). *)
Record textclass := { tc_sep : option pystr; tc_limit : option limit; tc_split : bool }.
Definition Str_ := {| tc_sep := None; tc_limit := None; tc_split := false |}.
Definition Unlimited_ := {| tc_sep := Some sep_default; tc_limit := Some (LBig 100000000); tc_split := false |}.
Definition Lim_ (n : nat) := {| tc_sep := Some sep_default; tc_limit := Some (LMax n); tc_split := true |}.
Definition Unique_ (n : nat) := {| tc_sep := None; tc_limit := Some (LMax n); tc_split := true |}.
Definition Range_ (a b : nat) := {| tc_sep := Some sep_default; tc_limit := Some (LRange a b); tc_split := true |}.

Record entry := { ix : Z; lg : pystr; tx : option pystr }.

Definition lookup (k : pystr) (d : list (pystr * pyval)) : option pyval :=
  match find (fun kv => str_eqb (fst kv) k) d with Some kv => Some (snd kv) | None => None end.
Definition kindex : pystr := lit "@index".
Definition klang : pystr := lit "@lang".
Definition ktext : pystr := lit "#text".
Definition kname : pystr := lit "@name".

(** general_validators.py 203-211 [BasicDictString._validate]: returns the text *)
Definition basic_validate (keys : list pystr) (v : pyval) : result pystr :=
  match v with
  | VDict d =>
      if forallb (fun kv => str_in (fst kv) keys) d
      then match lookup ktext d with
           | None => Err KeyError
           | Some t => str_validate t
           end
      else Err KeyError
  | _ => Err TypeError
  end.
Definition dict_of (v : pyval) : list (pystr * pyval) := match v with VDict d => d | _ => [] end.

(** general_validators.py 262-269 [IndexedString._validate] *)
Definition indexed_validate (keys : list pystr) (v : pyval) : result entry :=
  bind (basic_validate keys v) (fun t =>
    match lookup kindex (dict_of v) with
    | None => Err KeyError
    | Some i => match py_int i with
                | None => Err ValueError
                | Some z => Ok {| ix := z; lg := []; tx := Some t |}
                end
    end).

(** general_validators.py 285-290, 310-315 and ILCD1_validators.py 44-48; [langs] = the accepted language codes
    ([None]: any two-letter string) *)
Definition lang_validate (langs : option (list pystr)) (v : pyval) : result entry :=
  bind (indexed_validate [kindex; klang; ktext] v) (fun e =>
    match lookup klang (dict_of v) with
    | None => Err KeyError
    | Some (VStr l) =>
        if negb (length l =? 2) then Err ValueError
        else match langs with
             | Some ls => if str_in l ls then Ok {| ix := ix e; lg := l; tx := tx e |} else Err ValueError
             | None => Ok {| ix := ix e; lg := l; tx := tx e |}
             end
    | Some _ => Err ValueError
    end).

Definition nonblank (e : entry) : bool :=
  match tx e with Some t => negb (str_eqb t []) && negb (isspace t) | None => false end.

Definition as_list (v : pyval) : list pyval := match v with VList l => l | _ => [v] end.

(** general_validators.py 213-221 [_retrieve] *)
Definition retrieve (validate : pyval -> result entry) (v : pyval) : result (list entry) :=
  bind (mapM validate (as_list v)) (fun es => Ok (filter nonblank es)).

(** [validator.add(text)] on a text validator that already holds [t] *)
Definition text_add (tc : textclass) (t n : pystr) : pystr :=
  match tc_sep tc with Some sep => t ++ (sep ++ n) | None => n end.

(** general_validators.py 223-234 [_add]: merge into the first entry satisfying the condition, else append *)
Fixpoint merge1 (tc : textclass) (cond : entry -> entry -> bool) (n : entry) (x : list entry)
  : result (list entry) :=
  match x with
  | [] => Ok [n]
  | m :: x' =>
      if cond n m
      then match tx m, tx n with
           | Some t, Some u => Ok ({| ix := ix m; lg := lg m; tx := Some (text_add tc t u) |} :: x')
           | _, _ => Err KeyError
           end
      else bind (merge1 tc cond n x') (fun r => Ok (m :: r))
  end.
Fixpoint merge_all (tc : textclass) (cond : entry -> entry -> bool) (ns x : list entry)
  : result (list entry) :=
  match ns with
  | [] => Ok x
  | n :: ns' => bind (merge1 tc cond n x) (merge_all tc cond ns')
  end.
Definition same_index (a b : entry) : bool := Z.eqb (ix a) (ix b).
Definition same_index_lang (a b : entry) : bool := Z.eqb (ix a) (ix b) && str_eqb (lg a) (lg b).

Definition stored (st : option (list entry)) : list entry := match st with None => [] | Some l => l end.

(** general_validators.py 271-274 / 292-295 [add] *)
Definition add_merge (tc : textclass) (cond : entry -> entry -> bool) (validate : pyval -> result entry)
  (st : option (list entry)) (v : pyval) : upd (list entry) :=
  match bind (retrieve validate v) (fun ns => merge_all tc cond ns (stored st)) with
  | Ok l => (Some l, None)
  | Err e => (Some (stored st), Some e)
  end.
(** general_validators.py 317-321 [NoLangRestriction.add] *)
Definition add_append (validate : pyval -> result entry) (st : option (list entry)) (v : pyval)
  : upd (list entry) :=
  match retrieve validate v with
  | Ok ns => (Some (stored st ++ ns), None)
  | Err e => (Some (stored st), Some e)
  end.

(** An emitted entry: index (when kept), language/name (when kept) and text. *)
Record out := { o_index : option Z; o_lang : option pystr; o_text : pystr }.

(** [get_text().add(s).end()] *)
Definition text_end (ignore : bool) (tc : textclass) (s : pystr) : result pystr :=
  match tc_limit tc with None => Ok s | Some l => limited_end ignore l (Some s) end.
Definition upper (l : option limit) : nat :=
  match l with Some (LMax n) => n | Some (LRange _ n) => n | Some (LBig n) => N.to_nat n | None => 0 end.

(** general_validators.py 239-253 [_end_validate]: pops '#text' from every dict it is given;
    returns the dicts after the call and the produced list. *)
Fixpoint end_validate (ignore : bool) (tc : textclass) (x : list (option Z * option pystr * option pystr))
  : list (option Z * option pystr * option pystr) * result (list out) :=
  match x with
  | [] => ([], Ok [])
  | (i, l, None) :: x' => (x, Err KeyError)
  | (i, l, Some t) :: x' =>
      let here :=
        if tc_split tc && negb ignore && (upper (tc_limit tc) <? length t)
        then bind (text_to_list t (upper (tc_limit tc)))
                  (mapM (fun n => bind (text_end ignore tc n)
                           (fun n' => Ok {| o_index := i; o_lang := l; o_text := n' |})))
        else bind (text_end ignore tc t) (fun t' => Ok [{| o_index := i; o_lang := l; o_text := t' |}]) in
      match here with
      | Err e => ((i, l, None) :: x', Err e)
      | Ok os => let '(y, r) := end_validate ignore tc x' in
                 ((i, l, None) :: y, bind r (fun r' => Ok (os ++ r')))
      end
  end.

Definition ix_leb (a b : entry) : bool := Z.leb (ix a) (ix b).

(** general_validators.py 276-279 [IndexedString.end]; works on a deep copy *)
Definition indexed_end (ignore : bool) (tc : textclass) (st : list entry) : list entry * result (list out) :=
  let x := isort ix_leb st in
  (st, snd (end_validate ignore tc (map (fun e => (Some (ix e), None, tx e)) x))).

(** general_validators.py 297-304 [MultiLangString.end] *)
Fixpoint dict_add (d : list (pystr * pystr)) (k t : pystr) : list (pystr * pystr) :=
  match d with
  | [] => [(k, t)]
  | (k', t') :: d' => if str_eqb k' k
                      then (k', if str_eqb t' [] then t' ++ t else t' ++ ([10%N] ++ t)) :: d'
                      else (k', t') :: dict_add d' k t
  end.
Fixpoint group_langs (d : list (pystr * pystr)) (x : list entry) : result (list (pystr * pystr)) :=
  match x with
  | [] => Ok d
  | e :: x' => match tx e with
               | None => Err KeyError
               | Some t => group_langs (dict_add d (lg e) t) x'
               end
  end.
Definition kv_leb (a b : pystr * pystr) : bool := str_leb (fst a) (fst b).
Definition multilang_end (ignore : bool) (tc : textclass) (st : list entry) : list entry * result (list out) :=
  (st, bind (group_langs [] (isort ix_leb st)) (fun d =>
         snd (end_validate ignore tc (map (fun kv => (None, Some (fst kv), Some (snd kv))) (isort kv_leb d))))).

(** general_validators.py 323-327 [NoLangRestriction.end] *)
Definition nolang_rows (st : list entry) : list (option Z * option pystr * option pystr) :=
  map (fun e => (None, Some (lg e), tx e)) (isort ix_leb st).
Definition nolang_end (ignore : bool) (tc : textclass) (st : list entry) : list entry * result (list out) :=
  (st, snd (end_validate ignore tc (nolang_rows st))).

(** general_validators.py 331-335 [IndexedMultiLangString.end]: the sort key is str(index)+str(lang) *)
Definition imkey (e : entry) : pystr := str_of_Z (ix e) ++ lg e.
Definition im_leb (a b : entry) : bool := str_leb (imkey a) (imkey b).
Definition indexed_multilang_end (ignore : bool) (tc : textclass) (st : list entry) : list entry * result (list out) :=
  (st, snd (end_validate ignore tc (map (fun e => (Some (ix e), Some (lg e), tx e)) (isort im_leb st)))).

(** ECS2_validators.py 153-158 [String80_NLR.end]: over-long entries are dropped
    ([self._text.limit] is 80 whatever the option) *)
Definition nlr_end (ignore : bool) (tc : textclass) (st : list entry) : list entry * result (list out) :=
  (st, snd (end_validate ignore tc
        (filter (fun r => match snd r with Some t => length t <=? upper (tc_limit tc) | None => false end)
                (nolang_rows st)))).

(** ECS2_validators.py 162-167, 171-176, 180-185: one entry only. The result is a single dict or [] *)
Definition first_end (ignore : bool) (tc : textclass) (st : list entry) : list entry * result (option out) :=
  (st, match nolang_rows st with
       | [] => Ok None
       | r :: _ => bind (snd (end_validate ignore tc [r])) (fun os =>
                     match os with [] => Err IndexError | o :: _ => Ok (Some o) end)
       end).
Definition last_end (ignore : bool) (tc : textclass) (st : list entry) : list entry * result (option out) :=
  (st, match rev (nolang_rows st) with
       | [] => Ok None
       | r :: _ => bind (snd (end_validate ignore tc [r])) (fun os =>
                     match rev os with [] => Err IndexError | o :: _ => Ok (Some o) end)
       end).

(** ECS2_validators.py 85-127 [NamedString]. [lg] holds the name. The name check against the stored
    entries happens in [_validate], against the same call in [_retrieve]. *)
Definition named_validate (x : list entry) (v : pyval) : result entry :=
  bind (basic_validate [kname; ktext] v) (fun t =>
    match lookup kname (dict_of v) with
    | None => Err KeyError
    | Some n =>
        if existsb (fun e => match n with VStr s => str_eqb (lg e) s | _ => false end) x
        then Err ValueError
        else bind (str_validate n) (fun s => Ok {| ix := 0; lg := s; tx := Some t |})
    end).
Fixpoint named_retrieve (x : list entry) (dupl : list pystr) (vs : list pyval) : result (list entry) :=
  match vs with
  | [] => Ok []
  | v :: vs' =>
      bind (named_validate x v) (fun e =>
        if str_in (lg e) dupl then Err ValueError
        else bind (named_retrieve x (dupl ++ [lg e]) vs') (fun r =>
               Ok (if nonblank e then e :: r else r)))
  end.
Definition named_add (st : option (list entry)) (v : pyval) : upd (list entry) :=
  match named_retrieve (stored st) [] (as_list v) with
  | Ok ns => (Some (stored st ++ ns), None)
  | Err e => (Some (stored st), Some e)
  end.
Definition named_end (ignore : bool) (tc : textclass) (st : list entry) : list entry * result (list out) :=
  (st, snd (end_validate ignore tc (map (fun e => (None, Some (lg e), tx e)) st))).
