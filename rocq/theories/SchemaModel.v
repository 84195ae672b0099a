(** The validator classes used by the schemas, as one type, and their [add] / [end] methods:
    general_validators.py, ECS2_validators.py, ILCD1_validators.py (models in [ValidatorsModel] and
    [MultiLangModel]); ECS2_structure.py 894-905 and ILCD1_structure.py 564-575 [LIST]. *)
From Coq Require Import Ascii String List Bool Arith NArith ZArith.
From Verif Require Import PyBase PyValues Regex ValidatorsModel MultiLangModel DotDictModel.
Import ListNotations.

(** What the model leaves open: the [\w] class of [re], [datetime.fromisoformat] and the global
    option "ignore limits" (general_validators.py 147-148). *)
Record env := { is_word : N -> bool; fromiso : pystr -> option datetime; ignore : bool }.

Inductive lang_kind := KMulti | KIndexedMulti | KNoLang | KNlr | KFirst | KLast.
Inductive date_kind := DayOnly | Seconds | Iso.

Inductive vc :=
| CReal                                       (* Real *)
| CPercent                                    (* Percent *)
| CBool (words : bool)                        (* Bool; [true]: the ECS2 class, which ends in a word *)
| CInt                                        (* Int *)
| CColl (limits : list Z) (neg : bool)        (* return_collection *)
| CLimInt (exact : bool) (n : nat)            (* return_limited_int, "!=" or ">" *)
| CLimIntList (n : nat)                       (* return_limited_int with list_add *)
| CPat (r : re)                               (* return_pattern *)
| CVariableName
| CStr                                        (* Str *)
| CLim (l : limit) (sep : option pystr)       (* return_limited_string; [None]: add overwrites *)
| CEnum (vals : list pystr)
| CEnumList (vals : list pystr)
| CDate (k : date_kind)
| CReviewDate
| CLang (k : lang_kind) (langs : option (list pystr)) (tc : textclass)
| CIndexed (tc : textclass)
| CNamed (tc : textclass)
| CAnyList.                                   (* LIST *)

(** The attribute [_x] *)
Inductive vs :=
| SF (x : pyfloat) | SB (b : bool) | SZ (z : Z) | SZs (l : listish Z) | ST (s : pystr)
| STs (l : list pystr) | SD (d : datetime) | SE (l : list entry) | SL (l : list pyval).

(** What [end] returns.  Text formatting of percentages ("{:.1f}") and dates (strftime, isoformat)
    is not modelled: the value is kept with the format. *)
Inductive vo :=
| OReal (x : pyfloat) | OPercent (x : pyfloat) | OBool (b : bool) | OWord (s : pystr)
| OInt (z : Z) | OInts (l : listish Z) | OText (s : pystr) | OTexts (l : list pystr)
| ODate (k : date_kind) (d : datetime) | OEntries (l : list out) | OEntry (o : option out)
| OValues (l : list pyval).

(** Run an [add] on its own state type. *)
Definition lift {A} (inj : A -> vs) (proj : vs -> option A) (add : option A -> pyval -> upd A)
  (st : option vs) (v : pyval) : upd vs :=
  let '(st', e) := add (match st with Some x => proj x | None => None end) v in
  (match st' with Some x => Some (inj x) | None => None end, e).

Definition pF (x : vs) := match x with SF a => Some a | _ => None end.
Definition pB (x : vs) := match x with SB a => Some a | _ => None end.
Definition pZ (x : vs) := match x with SZ a => Some a | _ => None end.
Definition pZs (x : vs) := match x with SZs a => Some a | _ => None end.
Definition pT (x : vs) := match x with ST a => Some a | _ => None end.
Definition pTs (x : vs) := match x with STs a => Some a | _ => None end.
Definition pD (x : vs) := match x with SD a => Some a | _ => None end.
Definition pE (x : vs) := match x with SE a => Some a | _ => None end.
Definition pL (x : vs) := match x with SL a => Some a | _ => None end.

(** [LIST.add] *)
Definition any_add (st : option (list pyval)) (v : pyval) : upd (list pyval) :=
  (Some (match st with None => as_list v | Some l => l ++ as_list v end), None).

Definition lim_add (sep : option pystr) (validate : pyval -> result pystr) :=
  match sep with Some s => add_separator s validate | None => add_replace validate end.

Section Methods.
  Context (E : env).

  Definition add_ (c : vc) : option vs -> pyval -> upd vs :=
    match c with
    | CReal => lift SF pF (add_replace real_validate)
    | CPercent => lift SF pF (add_replace percent_validate)
    | CBool _ => lift SB pB (add_replace bool_validate)
    | CInt => lift SZ pZ (add_replace (int_validate false))
    | CColl ls neg => lift SZ pZ (add_replace (collection ls neg))
    | CLimInt exact n => lift SZ pZ (add_replace (limited_int (if exact then neb else gtb) n))
    | CLimIntList n => lift SZs pZs (add_list (limited_int gtb n))
    | CPat r => lift ST pT (add_replace (pattern r))
    | CVariableName => lift ST pT (add_replace (VariableName (is_word E)))
    | CStr => lift ST pT (add_replace str_validate)
    | CLim _ sep => lift ST pT (lim_add sep str_validate)
    | CEnum vals => lift ST pT (add_replace (enum_validate vals))
    | CEnumList vals => lift STs pTs (add_unique (enum_list_validate vals))
    | CDate _ => lift SD pD (add_replace (date_validate (fromiso E)))
    | CReviewDate => lift SD pD (review_add (fromiso E))
    | CLang k langs tc =>
        lift SE pE match k with
                   | KMulti | KIndexedMulti => add_merge tc same_index_lang (lang_validate langs)
                   | _ => add_append (lang_validate langs)
                   end
    | CIndexed tc => lift SE pE (add_merge tc same_index (indexed_validate [kindex; ktext]))
    | CNamed _ => lift SE pE named_add
    | CAnyList => lift SL pL any_add
    end.

  (** [end] on an instance whose attribute was never set raises AttributeError. *)
  Definition on {A B} (proj : vs -> option A) (st : option vs) (f : A -> result B) : result B :=
    match st with
    | Some x => match proj x with Some a => f a | None => Err AttributeError end
    | None => Err AttributeError
    end.

  Definition end_ (c : vc) (st : option vs) : result vo :=
    match c with
    | CReal => on pF st (fun x => Ok (OReal x))
    | CPercent => on pF st (fun x => Ok (OPercent x))
    | CBool false => on pB st (fun b => Ok (OBool b))
    | CBool true => on pB st (fun b => Ok (OWord (if b then lit "true" else lit "false")))
    | CInt | CColl _ _ | CLimInt _ _ => on pZ st (fun z => Ok (OInt z))
    | CLimIntList _ => on pZs st (fun l => Ok (OInts l))
    | CPat _ | CStr | CEnum _ => on pT st (fun s => Ok (OText s))
    | CVariableName => on pT st (fun s => bind (limited_end (ignore E) (LMax 40) (Some s)) (fun t => Ok (OText t)))
    | CLim l _ => on pT st (fun s => bind (limited_end (ignore E) l (Some s)) (fun t => Ok (OText t)))
    | CEnumList _ => on pTs st (fun l => Ok (OTexts l))
    | CDate k => on pD st (fun d => Ok (ODate k d))
    | CReviewDate => on pD st (fun d => Ok (ODate Iso d))
    | CLang k _ tc =>
        on pE st (fun l =>
          match k with
          | KMulti => bind (snd (multilang_end (ignore E) tc l)) (fun o => Ok (OEntries o))
          | KIndexedMulti => bind (snd (indexed_multilang_end (ignore E) tc l)) (fun o => Ok (OEntries o))
          | KNoLang => bind (snd (nolang_end (ignore E) tc l)) (fun o => Ok (OEntries o))
          | KNlr => bind (snd (nlr_end (ignore E) tc l)) (fun o => Ok (OEntries o))
          | KFirst => bind (snd (first_end (ignore E) tc l)) (fun o => Ok (OEntry o))
          | KLast => bind (snd (last_end (ignore E) tc l)) (fun o => Ok (OEntry o))
          end)
    | CIndexed tc => on pE st (fun l => bind (snd (indexed_end (ignore E) tc l)) (fun o => Ok (OEntries o)))
    | CNamed tc => on pE st (fun l => bind (snd (named_end (ignore E) tc l)) (fun o => Ok (OEntries o)))
    | CAnyList => on pL st (fun l => Ok (OValues l))
    end.

  Definition structure_universe (schema : nat -> list (pystr * field vc)) : universe :=
    {| vclass := vc; vstate := vs; vout := vo; vadd := add_; vend := end_; valid := schema |}.
End Methods.
