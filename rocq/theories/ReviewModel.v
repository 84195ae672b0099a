(** Reviews: written by ECS2ToILCD1ReviewConversion (ECS2_to_ILCD1_conversion.py 1722-1803), read by
    ILCD1ToECS2ReviewConversion (ILCD1_to_ECS2_conversion.py 1143-1226); time periods: ECS2_to_ILCD1_conversion.py
    2164-2170, 2275-2280 and ILCD1_to_ECS2_conversion.py 1701-1708.
    The regular expressions of [review_comment] end each run of a class with a character outside the class, so
    matching never backtracks into a run: they are modelled by [span]. *)
From Coq Require Import Ascii String List Bool Arith NArith ZArith.
From Verif Require Import PyBase PyValues Regex ValidatorsModel MultiLangModel MultiLangSpec CommentModel.
Import ListNotations.

(** the longest prefix whose characters satisfy [p] *)
Fixpoint span (p : N -> bool) (s : pystr) : pystr * pystr :=
  match s with
  | [] => ([], [])
  | c :: s' => if p c then let '(a, b) := span p s' in (c :: a, b) else ([], s)
  end.
(** one or more characters of the class, then the character [stop] *)
Definition run_then (p : N -> bool) (stop : N) (s : pystr) : option (pystr * pystr) :=
  match span p s with
  | ([], _) => None
  | (a, c :: r) => if N.eqb c stop then Some (a, r) else None
  | (_, []) => None
  end.

(** ** EcoSpold2 to ILCD *)
(** The attributes and texts of an EcoSpold2 review; [d_texts]: index, language and text of each details text,
    its variables already replaced. *)
Record review := {
  r_date : pystr; r_email : option pystr;
  r_major_release : pystr; r_minor_release : pystr; r_major_revision : pystr; r_minor_revision : pystr;
  r_details : list triple }.

(** [str.find]: position of the first occurrence, or -1 *)
Fixpoint find_from (i : Z) (n s : pystr) : Z :=
  if prefixb n s then i else match s with [] => (-1)%Z | _ :: s' => find_from (i + 1) n s' end.
Definition find (s n : pystr) : Z := find_from 0 n s.

(** 1797-1801 [get_version] *)
Definition version_text (r : review) : pystr :=
  join (lit ".") [r_major_release r; r_major_revision r; r_minor_release r; r_minor_revision r].

Definition internal_ : pystr := lit "Independent internal review".
Definition external_ : pystr := lit "Independent external review".
(** 1752-1756: [any] of a list of positions, true unless all are 0 *)
Definition review_type (email : option pystr) : option pystr :=
  match email with
  | Some e => if str_eqb e [] then None
              else Some (if existsb (fun n => negb (Z.eqb (find e n) 0)) [lit "ecoinvent"; lit "Ecoinvent"]
                         then internal_ else external_)
  | None => None
  end.

Definition en : pystr := lit "en".
Definition mark_date : pystr := lit "Date of Review: ".
Definition mark_version : pystr := lit "Review Version: ".
Record ilcd_review := { i_type : option pystr; i_details : list triple }.
(** 1738-1792 and 1802-1803 [add_field]; [system]: the option convert_system_review.  [None]: no review is written.
    The reviewer becomes a reference to a contact data set (not part of the record), other details are copied. *)
Definition write_review (system : bool) (r : review) : option ilcd_review :=
  if match r_email r with Some e => str_eqb e (lit "support@ecoinvent.org") && negb system | None => false end
  then None
  else Some {| i_type := review_type (r_email r);
               i_details := ((-2)%Z, en, mark_date ++ r_date r) ::
                            ((-1)%Z, en, mark_version ++ version_text r) :: r_details r |}.

(** ** ILCD to EcoSpold2 *)
Definition dot : N := 46%N.
(** 1203-1206: "Review Version: " and four numbers separated by dots, then a line feed; the group: the four numbers and their dots *)
Definition match_version (s : pystr) : option (pystr * pystr) :=
  if prefixb mark_version s then
    match run_then is_digit dot (skipn (length mark_version) s) with
    | None => None
    | Some (a, s1) =>
        match run_then is_digit dot s1 with
        | None => None
        | Some (b, s2) =>
            match run_then is_digit dot s2 with
            | None => None
            | Some (c, s3) =>
                match run_then is_digit nl s3 with
                | None => None
                | Some (d, s4) => Some (join (lit ".") [a; b; c; d], s4)
                end
            end
        end
    end
  else None.
(** 1210-1213: "Date of Review: ", digits, spaces and hyphens, then a line feed *)
Definition is_date_char (c : N) : bool := (is_digit c || N.eqb c 32 || N.eqb c 45)%bool.
Definition match_date (s : pystr) : option (pystr * pystr) :=
  if prefixb mark_date s then run_then is_date_char nl (skipn (length mark_date) s) else None.

(** 1202-1215 [review_comment]: version numbers found, date found, remaining text *)
Definition review_comment (t : pystr) : option (list pystr) * option pystr * pystr :=
  let '(v, t1) := match search_with match_version t with
                  | Some v => (Some (split (lit ".") v), remove_all match_version t)
                  | None => (None, t)
                  end in
  let '(d, t2) := match search_with match_date t1 with
                  | Some d => (Some d, remove_all match_date t1)
                  | None => (None, t1)
                  end in
  (v, d, t2).

(** The four version attributes, as assigned. *)
Record version := { v_major_release : pystr; v_minor_release : pystr; v_major_revision : pystr; v_minor_revision : pystr }.
(** 1207-1209 *)
Definition assign_version (v : list pystr) (old : option version) : option version :=
  match v with
  | [a; b; c; d] => Some {| v_major_release := a; v_minor_release := b; v_major_revision := c; v_minor_revision := d |}
  | _ => old
  end.
Record ecs_review := { e_date : pystr; e_version : option version; e_texts : list pystr }.
(** 1178-1180: every reviewDetails text in turn *)
Definition read_texts (ts : list pystr) (st : ecs_review) : ecs_review :=
  fold_left (fun st t =>
    let '(v, d, rest) := review_comment t in
    {| e_date := match d with Some d => d | None => e_date st end;
       e_version := match v with Some v => assign_version v (e_version st) | None => e_version st end;
       e_texts := e_texts st ++ [rest] |}) ts st.
(** 1197-1202: [not self.field.get('reviewedMajorRelease')]: not assigned, or zero *)
Definition no_major (v : option version) : bool :=
  match v with
  | None => true
  | Some v => match int_of_str (v_major_release v) with Some z => Z.eqb z 0 | None => true end
  end.
Definition automatic (n : Z) : version :=
  {| v_major_release := lit "1"; v_minor_release := lit "0"; v_major_revision := str_of_Z n; v_minor_revision := lit "0" |}.
(** 1154-1226: [n] is the third number of the class attribute _version (line 1152); [has_reviewer]: the ILCD review refers to a
    contact, otherwise the review is not added (1217-1221).  Texts 1-3 on type, scopes and indicators are added to the details
    and not shown. *)
Definition read_review (n : Z) (has_reviewer : bool) (details : list pystr) : Z * option ecs_review :=
  let st := read_texts details {| e_date := lit "1900-01-01"; e_version := None; e_texts := [] |} in
  let '(n', v) := if no_major (e_version st) then ((n + 1)%Z, Some (automatic n)) else (n, e_version st) in
  (n', if has_reviewer then Some {| e_date := e_date st; e_version := v; e_texts := e_texts st |} else None).
(** the reviews of a run, one after the other *)
Fixpoint read_reviews (n : Z) (l : list (bool * list pystr)) : list (option ecs_review) :=
  match l with
  | [] => []
  | (b, ts) :: l' => let '(n', r) := read_review n b ts in r :: read_reviews n' l'
  end.
Definition first_number : Z := 1%Z.

(** ** Time periods *)
(** [time.strptime] (CPython 3, _strptime.py): the directives as regular expressions *)
Definition Y_ : re := RGrp 1 (rpow 4 d_).
Definition m_ : re := RGrp 2 (ralts [RSeq (rlit (lit "1")) (RChr (between 48 50)); RSeq (rlit (lit "0")) (RChr (between 49 57)); RChr (between 49 57)]).
Definition d__ : re := RGrp 3 (ralts [RSeq (rlit (lit "3")) (RChr (between 48 49)); RSeq (RChr (between 49 50)) d_;
                                      RSeq (rlit (lit "0")) (RChr (between 49 57)); RChr (between 49 57);
                                      RSeq (rlit (lit " ")) (RChr (between 49 57))]).
Definition H_ : re := RGrp 4 (ralts [RSeq (rlit (lit "2")) (RChr (between 48 51)); RSeq (RChr (between 48 49)) d_; d_]).
Definition M_ : re := RGrp 5 (ralts [RSeq (RChr (between 48 53)) d_; d_]).
Definition S_ : re := RGrp 6 (ralts [RSeq (rlit (lit "6")) (RChr (between 48 49)); RSeq (RChr (between 48 53)) d_; d_]).
Definition f_ : re := RGrp 7 (rrep 1 6 (RChr (between 48 57))).
Fixpoint rseqs (l : list re) : re := match l with [] => REps | [a] => a | a :: l' => RSeq a (rseqs l') end.
(** the three formats of line 2165; letters are matched without regard to case *)
Definition T_ : re := RChr (fun c => N.eqb c 84 || N.eqb c 116)%bool.
Definition Z_ : re := RChr (fun c => N.eqb c 90 || N.eqb c 122)%bool.
Definition hy : re := rlit (lit "-").
Definition co : re := rlit (lit ":").
Definition format_date : re := rseqs [Y_; hy; m_; hy; d__].
Definition format_time : re := rseqs [Y_; hy; m_; hy; d__; T_; H_; co; M_; co; S_; Z_].
Definition format_fraction : re := rseqs [Y_; hy; m_; hy; d__; T_; H_; co; M_; co; S_; rlit (lit "."); f_; Z_].

Definition leap (y : Z) : bool := ((y mod 4 =? 0) && (negb (y mod 100 =? 0) || (y mod 400 =? 0)))%Z%bool.
Definition month_days (y m : Z) : Z :=
  if (m =? 2)%Z then (if leap y then 29 else 28)%Z
  else if existsb (Z.eqb m) [4; 6; 9; 11]%Z then 30%Z else 31%Z.
Definition number (s : pystr) : Z := match int_of_str s with Some z => z | None => 0%Z end.
(** the year of [time.strptime(s, format)]: the whole text must match and be a day of the calendar *)
Definition strptime_year (fmt : re) (s : pystr) : option Z :=
  match re_match fmt s with
  | Some ([], g) => let y := number (group g 1) in let m := number (group g 2) in let d := number (group g 3) in
                    if ((1 <=? y) && (1 <=? m) && (m <=? 12) && (1 <=? d) && (d <=? month_days y m))%Z%bool then Some y else None
  | _ => None
  end.
(** 2164-2170 [get_time_object(...).tm_year] *)
Definition get_year (s : pystr) : result Z :=
  match strptime_year format_date s with
  | Some y => Ok y
  | None => match strptime_year format_time s with
            | Some y => Ok y
            | None => match strptime_year format_fraction s with
                      | Some y => Ok y
                      | None => Err ValueError
                      end
            end
  end.
(** 2275-2280: the value each field keeps (ILCD1_validators.py 24, a year of four digits) *)
Definition write_start (s : pystr) : result Z := bind (get_year s) (fun y => Year (VStr (str_of_Z y))).
Definition write_end (s : pystr) : result Z := bind (get_year s) (fun y => Year (VInt y)).
(** ILCD1_to_ECS2_conversion.py 1701-1708, from the text of the element *)
Definition read_start (x : pystr) : pystr := x ++ lit "-01-01".
Definition read_end (x : pystr) : pystr := x ++ lit "-12-31".
