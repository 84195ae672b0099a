(** Scalar validators: src/Lavoisier/data_structures/validators/general_validators.py (lines 18-178),
    ECS2_validators.py (lines 26-83) and ILCD1_validators.py (lines 21-40).
    A validator instance is its attribute [_x] ([None] = attribute not set yet). *)
From Coq Require Import Ascii String List Bool Arith NArith ZArith QArith.
From Verif Require Import PyBase PyValues Regex.
Import ListNotations.

(** Outcome of a method call: attribute after the call, exception raised (if any). *)
Definition upd (A : Type) : Type := (option A * option exn)%type.

(** general_validators.py 18-20 [_add] *)
Definition add_replace {A} (validate : pyval -> result A) (st : option A) (o : pyval) : upd A :=
  match validate o with
  | Ok a => (Some a, None)
  | Err e => (st, Some e)
  end.

(** general_validators.py 22-27 [list_add]: the attribute is a bare value or a list *)
Inductive listish (A : Type) := One (a : A) | Many (l : list A).
Arguments One {A} a.
Arguments Many {A} l.
Definition add_list {A} (validate : pyval -> result A) (st : option (listish A)) (o : pyval)
  : upd (listish A) :=
  match validate o with
  | Err e => (st, Some e)
  | Ok a =>
      match st with
      | None => (Some (One a), None)
      | Some (One b) => (Some (Many ([b] ++ [a])), None)
      | Some (Many l) => (Some (Many (l ++ [a])), None)
      end
  end.

(** general_validators.py 29-34 [unique_list_add]: the attribute is created before validation *)
Fixpoint add_unique_loop (held ns : list pystr) : list pystr :=
  match ns with
  | [] => held
  | n :: ns' => add_unique_loop (if str_in n held then held else held ++ [n]) ns'
  end.
Definition add_unique (validate : pyval -> result (list pystr)) (st : option (list pystr)) (o : pyval)
  : upd (list pystr) :=
  let held := match st with None => [] | Some l => l end in
  match validate o with
  | Err e => (Some held, Some e)
  | Ok ns => (Some (add_unique_loop held ns), None)
  end.

(** general_validators.py 36-45 [return_comparisson_add] *)
Definition add_compare {A} (func : A -> A -> bool) (validate : pyval -> result A)
  (st : option A) (o : pyval) : upd A :=
  match validate o with
  | Err e => (st, Some e)
  | Ok a =>
      match st with
      | None => (Some a, None)
      | Some x => (Some (if func a x then a else x), None)
      end
  end.

(** general_validators.py 47-52 [separator_add] *)
Definition add_separator (sep : pystr) (validate : pyval -> result pystr)
  (st : option pystr) (o : pyval) : upd pystr :=
  match validate o with
  | Err e => (st, Some e)
  | Ok s =>
      match st with
      | None => (Some s, None)
      | Some x => (Some (x ++ (sep ++ s)), None)
      end
  end.

(** A history of [add] calls on one instance (exceptions caught by the caller). *)
Definition history {A} (add : option A -> pyval -> upd A) (vs : list pyval) : option A :=
  fold_left (fun st v => fst (add st v)) vs None.

(** general_validators.py 69-75 [Real] *)
Definition real_validate (v : pyval) : result pyfloat :=
  match py_float v with Some f => Ok f | None => Err TypeError end.

(** ECS2_validators.py 26-33 [Percent] *)
Definition percent_validate (v : pyval) : result pyfloat :=
  bind (real_validate v) (fun x =>
    if fgt x 100 then Err ValueError else if flt x 0 then Err ValueError else Ok x).

(** general_validators.py 77-82 [Bool] ([x not in VALID] compares with [==], so 1.0 is found) *)
Definition bool_strings : list pystr :=
  [lit "true"; lit "false"; lit "True"; lit "False"; lit "1"; lit "0"].
Definition bool_validate (v : pyval) : result bool :=
  if (existsb (eq_str v) bool_strings || eq_int v 1 || eq_int v 0)%bool
  then Ok match v with
          | VStr s => str_in s [lit "1"; lit "true"; lit "True"]
          | _ => negb (eq_int v 0)
          end
  else Err ValueError.

(** general_validators.py 84-93 [Int] *)
Definition int_validate (can_be_negative : bool) (v : pyval) : result Z :=
  match py_int v with
  | None => Err TypeError
  | Some x => if (negb can_be_negative && (x <? 0)%Z)%bool then Err ValueError else Ok x
  end.

(** general_validators.py 95-104 [return_collection] *)
Definition collection (limits : list Z) (can_be_negative : bool) (v : pyval) : result Z :=
  bind (int_validate can_be_negative v) (fun x =>
    if existsb (Z.eqb x) limits then Ok x else Err ValueError).

(** [set(range(a, b))] *)
Definition zrange (a b : Z) : list Z := map (fun i => (a + Z.of_nat i)%Z) (seq 0 (Z.to_nat (b - a))).

(** ECS2_validators.py 41-53 *)
Definition InheritanceDepthINT := collection (zrange (-1) 4) true.
Definition SourceTypeINT := collection (zrange 0 8) false.
Definition TypeINT := collection (zrange 1 4) false.
Definition SpecialActivityTypeINT := collection (zrange 0 11) false.
Definition EnergyValuesINT := collection (zrange 0 3) false.
Definition TechnologyLevelINT := collection (zrange 0 6) false.
Definition DataPublishedInINT := collection (zrange 0 2) false.
Definition AccessRestrictedToINT := collection (zrange 0 3) false.
Definition PedigreeINT := collection (zrange 1 6) false.
Definition InputGroupIntermediateINT := collection [1; 2; 3; 5]%Z false.
Definition OutputGroupIntermediateINT := collection [0; 2; 3; 5]%Z false.
Definition InputGroupElementaryINT := collection [4]%Z false.
Definition OutputGroupElementaryINT := collection [4]%Z false.

(** general_validators.py 106-114 [return_limited_int] *)
Definition limited_int (func : nat -> nat -> bool) (limit : nat) (v : pyval) : result Z :=
  bind (int_validate false v) (fun x =>
    if (func (length (str_of_Z x)) limit || (x <? 0)%Z)%bool then Err ValueError else Ok x).
Definition neb (a b : nat) : bool := negb (Nat.eqb a b).
Definition gtb (a b : nat) : bool := Nat.ltb b a.
(** ILCD1_validators.py 21-24 *)
Definition Int1 := limited_int neb 1.
Definition Int6 := limited_int gtb 6.
Definition Year := limited_int neb 4.

(** general_validators.py 116-124 [return_pattern] *)
Definition pattern (r : re) (v : pyval) : result pystr :=
  match v with
  | VStr s => if re_matches r s then Ok s else Err ValueError
  | _ => Err TypeError
  end.

(** general_validators.py 126 *)
Definition is_hex (c : N) : bool := (between 97 102 c || between 48 57 c)%bool.
Definition uuid_re : re :=
  RSeq (rpow 8 (RChr is_hex)) (RSeq (rlit (lit "-"))
  (RSeq (rpow 4 (RChr is_hex)) (RSeq (rlit (lit "-"))
  (RSeq (rpow 4 (RChr is_hex)) (RSeq (rlit (lit "-"))
  (RSeq (rpow 4 (RChr is_hex)) (RSeq (rlit (lit "-"))
  (rpow 12 (RChr is_hex))))))))).
Definition UUID := pattern uuid_re.

(** ILCD1_validators.py 26 : \d{2}\.\d{2}(\.\d{3})? *)
Definition d_ : re := RChr is_udigit.
Definition version_re : re :=
  RSeq (rpow 2 d_) (RSeq (rlit (lit ".")) (RSeq (rpow 2 d_)
    (ropt (RGrp 1 (RSeq (rlit (lit ".")) (rpow 3 d_)))))).
Definition Version := pattern version_re.

(** ILCD1_validators.py 27 : white space, latitude (lat_re), white space, semicolon, white space,
    longitude (lon_re), white space; the sign belongs to the first latitude alternative only *)
Definition sp_ : re := RStar true (RChr is_space).
Definition sign_ : re := ropt (RChr (fun c => (c =? 45)%N || (c =? 43)%N)).
Definition frac_ : re := ropt (RSeq (rlit (lit ".")) (RStar true d_)).
Definition lat_re : re :=
  RAlt (RSeq sign_ (RSeq (RSeq (ropt (RChr (between 48 56))) d_) frac_))
       (RSeq (rlit (lit "90")) (ropt (RSeq (rlit (lit ".")) (rupto 2 (rlit (lit "0")))))).
Definition lon_re : re :=
  RSeq sign_ (ralts
    [ RSeq (RSeq (rlit (lit "1")) (RSeq (RChr (between 48 55)) d_)) frac_;
      RSeq (RChr (between 48 57)) (RSeq d_ frac_);
      RSeq d_ frac_;
      RSeq (rlit (lit "180")) (ropt (RSeq (rlit (lit ".")) (RStar true (rlit (lit "0"))))) ]).
Definition gis_re : re :=
  RSeq sp_ (RSeq lat_re (RSeq sp_ (RSeq (rlit (lit ";")) (RSeq sp_ (RSeq lon_re sp_))))).
Definition GIS := pattern gis_re.

(** ECS2_validators.py 55 : \d{1,6}-\d{2,2}-\d *)
Definition cas_re : re :=
  RSeq (rrep 1 6 d_) (RSeq (rlit (lit "-")) (RSeq (rrep 2 2 d_) (RSeq (rlit (lit "-")) d_))).
Definition CASNumber := pattern cas_re.

(** general_validators.py 138-142 [Str] *)
Definition str_validate (v : pyval) : result pystr :=
  match v with VStr s => Ok s | _ => Err TypeError end.

(** general_validators.py 144-161 [return_limited_string]: [_end_validate], [end] *)
Inductive limit := LMax (n : nat) | LRange (lo hi : nat) | LBig (n : N).   (* [LBig]: a maximum, in binary *)
Definition within (l : limit) (n : nat) : bool :=
  match l with
  | LMax m => (m =? 0)%nat || (n <=? m)%nat       (* [if self.limit] : 0 is falsy *)
  | LRange lo hi => (lo <=? n)%nat && (n <=? hi)%nat
  | LBig m => (N.of_nat n <=? m)%N
  end.
Definition limited_end (ignore_limit : bool) (l : limit) (st : option pystr) : result pystr :=
  match st with
  | None => Err AttributeError
  | Some s => if (negb (within l (length s)) && negb ignore_limit)%bool then Err ValueError else Ok s
  end.
(** ECS2_validators.py 65-79, ILCD1_validators.py 36-40 *)
Definition sep_default : pystr := lit "; ".
Definition sep_review : pystr := lit "/".

(** ECS2_validators.py 82: pattern \w\S* and a 40 character limit; the word class of [re] is a parameter *)
Definition variable_name_re (is_word : N -> bool) : re :=
  RSeq (RChr is_word) (RStar true (RChr (fun c => negb (is_space c)))).
Definition VariableName (is_word : N -> bool) := pattern (variable_name_re is_word).

(** general_validators.py 165-178 [return_enum] *)
Definition as_enum_member (enum : list pystr) (y : pyval) : result pystr :=
  match y with
  | VStr s => if str_in s enum then Ok s else Err ValueError
  | _ => Err ValueError
  end.
Definition enum_validate (enum : list pystr) (v : pyval) : result pystr :=
  match v with
  | VStr _ => as_enum_member enum v
  | _ => Err TypeError
  end.
Definition enum_list_validate (enum : list pystr) (v : pyval) : result (list pystr) :=
  match v with
  | VStr _ => mapM (as_enum_member enum) [v]
  | VList l => mapM (as_enum_member enum) l
  | VTuple l => mapM (as_enum_member enum) l
  | _ => Err TypeError
  end.

(** general_validators.py 128-136 [Date]; [datetime.fromisoformat] is a parameter.
    A datetime is its wall-clock reading and an optional UTC offset. *)
Record datetime := { wall : Z; tzinfo : option Z }.
Definition date_validate (fromiso : pystr -> option datetime) (v : pyval) : result datetime :=
  match v with
  | VStr s => match fromiso (replace (lit "Z") (lit "+00:00") s) with
              | Some d => Ok d
              | None => Err ValueError
              end
  | _ => Err TypeError
  end.
(** ILCD1_validators.py 33-34 [ReviewDateTime] *)
Definition later (a b : datetime) : bool := (wall b <? wall a)%Z.
Definition review_add (fromiso : pystr -> option datetime) := add_compare later (date_validate fromiso).
