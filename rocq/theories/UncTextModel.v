(** Uncertainty information kept in comments.
    Written: ECS2_to_ILCD1_conversion.py 71-99, 165-167, 186-192 (ECS2ToILCD1UncertaintyConversion).
    Read: ILCD1_to_ECS2_conversion.py 63-88, 112-129 (normal_init, init_from_comment), 134-138, 160-172 (calculate).
    Simplification: lines 84-91 of the writer (comparison of the pedigree with the variance) are left out.  They only log,
    but int, float and the table lookup in them can raise, so the model covers data sets where they do not.
    Attributes set by init_from_comment are only those named in the text; names that hide a method are not modelled.
    The regular expressions end each run of a class with a character outside the class, so they are modelled by [span],
    as in ReviewModel. *)
From Coq Require Import Ascii String List Bool Arith NArith ZArith.
From Verif Require Import PyBase PyValues Regex MultiLangSpec DotDictModel CommentModel ReviewModel.
Import ListNotations.

(** ** EcoSpold2 to ILCD *)
(** [u_kind]: the name of the distribution element, [u_params]: its attributes, [u_pedigree]: attributes of pedigreeMatrix in
    document order (empty: no matrix), [u_comments]: language and text of each comment. *)
Record unc := { u_kind : pystr; u_params : list (pystr * pystr); u_pedigree : list (pystr * pystr); u_comments : list (pystr * pystr) }.

Definition header : pystr := lit "Uncertainty Comment:".
Definition mark_ped : pystr := lit "Pedigree: (".
Definition mark_var : pystr := lit "Basic Variance: ".
Definition mark_nc : pystr := lit "Not Converted: ".
Definition mid_nc : pystr := lit " distribution with parameters ".
Definition comma : N := 44%N.
Definition equals : N := 61%N.

(** 186-192 [_get_not_converted_text]: name in the text and names of the parameters; the flag: written as float(...) *)
Definition not_converted_kinds : list (pystr * (pystr * list (pystr * bool))) :=
  [(lit "beta", (lit "Beta", [(lit "minValue", true); (lit "mostLikelyValue", true); (lit "maxValue", true)]));
   (lit "gamma", (lit "Gamma", [(lit "shape", true); (lit "scale", true); (lit "minValue", true)]));
   (lit "binomial", (lit "Binomial", [(lit "n", false); (lit "p", true)]));
   (lit "undefined", (lit "Undefined", [(lit "minValue", true); (lit "standardDeviation95", true); (lit "maxValue", true)]))].
(** [fl]: the text of float(x), None when it raises *)
Definition param_text (fl : pystr -> option pystr) (ps : list (pystr * pystr)) (p : pystr * bool) : result pystr :=
  match getf (fst p) ps with
  | Some x => match (if snd p then fl x else Some x) with
              | Some y => Ok (fst p ++ lit "=" ++ y)
              | None => Err ValueError
              end
  | None => Err KeyError
  end.
Definition not_converted_text (fl : pystr -> option pystr) (u : unc) : result (option pystr) :=
  match getf (u_kind u) not_converted_kinds with
  | None => Ok None
  | Some (name, ps) =>
      bind (mapM (param_text fl (u_params u)) ps) (fun l =>
      Ok (Some (newline ++ mark_nc ++ name ++ mid_nc ++ join (lit ", ") l)))
  end.
Definition nonempty (s : pystr) : bool := match s with [] => false | _ => true end.
(** 78-83 *)
Definition pedigree_texts (u : unc) : list pystr :=
  match u_pedigree u with
  | [] => []
  | ped => (mark_ped ++ join [comma] (map snd ped) ++ lit ")") ::
           match getf (lit "variance") (u_params u) with
           | Some v => if nonempty v then [mark_var ++ v] else []
           | None => []
           end
  end.
Fixpoint number_from {A} (i : Z) (l : list A) : list (Z * A) :=
  match l with [] => [] | x :: l' => (i, x) :: number_from (i + 1) l' end.
(** 76-99, 165-167: the texts given to the comment field, in order *)
Definition unc_texts (fl : pystr -> option pystr) (u : unc) : result (list triple) :=
  bind (not_converted_text fl u) (fun nc =>
  let body := map (fun x => (898%Z, en, x)) (pedigree_texts u)
              ++ map (fun x => (fst x, fst (snd x), snd (snd x))) (number_from 801 (u_comments u))
              ++ match nc with Some x => [(899%Z, en, x)] | None => [] end in
  Ok (match body with [] => [] | _ => (800%Z, en, header) :: body end)).

(** ** ILCD to EcoSpold2 *)
Definition is_score (c : N) : bool := is_digit c.
Definition scores_ok (s : pystr) : bool :=
  match s with
  | [a; c1; b; c2; c; c3; d; c4; e] =>
      (is_score a && N.eqb c1 comma && is_score b && N.eqb c2 comma && is_score c && N.eqb c3 comma && is_score d && N.eqb c4 comma && is_score e)%bool
  | _ => false
  end.
(** 76-77: Pedigree: ( five digits separated by commas ) ; the group: the digits and commas *)
Definition match_ped (s : pystr) : option (pystr * pystr) :=
  if prefixb mark_ped s then
    let t := skipn (length mark_ped) s in
    if (scores_ok (firstn 9 t) && prefixb (lit ")") (skipn 9 t))%bool then Some (firstn 9 t, skipn 10 t) else None
  else None.
Definition is_num (c : N) : bool := (is_digit c || N.eqb c 46%N)%bool.
(** 81: Basic Variance: and digits or dots *)
Definition match_var (s : pystr) : option (pystr * pystr) :=
  if prefixb mark_var s then
    match span is_num (skipn (length mark_var) s) with
    | ([], _) => None
    | (v, r) => Some (v, r)
    end
  else None.
(** float(...) of digits and dots: a digit, at most one dot *)
Definition float_ok (v : pystr) : bool :=
  (existsb is_digit v && (length (filter (N.eqb 46%N) v) <=? 1)%nat)%bool.

Record found := { f_pedigree : option pystr; f_var : option pystr; f_comment : list (pystr * pystr) }.
Definition header_nl : pystr := header ++ newline.
(** 71-86: one row (language and text) of the comment *)
Definition read_row (st : found) (row : pystr * pystr) : result found :=
  let '(lang, t) := row in
  if infixb header_nl t then
    let c := last (split header_nl t) [] in
    bind (if infixb mark_ped c
          then match search_with match_ped c with
               | Some g => Ok (Some g, replace (mark_ped ++ g ++ lit ")") [] c)
               | None => Err AttributeError
               end
          else Ok (f_pedigree st, c)) (fun '(ped, c) =>
    bind (if infixb mark_var c
          then match search_with match_var c with
               | Some g => if float_ok g then Ok (Some g, replace (mark_var ++ g) [] c) else Err ValueError
               | None => Err AttributeError
               end
          else Ok (f_var st, c)) (fun '(var, c) =>
    Ok {| f_pedigree := ped; f_var := var;
          f_comment := f_comment st ++ (if (nonempty c && negb (isspace c))%bool then [(lang, c)] else []) |}))
  else Ok st.
Fixpoint read_rows (st : found) (rows : list (pystr * pystr)) : result found :=
  match rows with [] => Ok st | r :: rows' => bind (read_row st r) (fun st' => read_rows st' rows') end.
Definition nothing_found : found := {| f_pedigree := None; f_var := None; f_comment := [] |}.
Definition normal_read (rows : list (pystr * pystr)) : result found := read_rows nothing_found rows.

(** 134-138 *)
Definition pedigree_names : list pystr :=
  [lit "reliability"; lit "completeness"; lit "temporalCorrelation"; lit "geographicalCorrelation"; lit "furtherTechnologyCorrelation"].
Definition read_pedigree (g : pystr) : list (pystr * pystr) := combine pedigree_names (split [comma] g).

(** 113-129: [A-z]+ is the run of the characters 65 to 122 *)
Definition is_Az (c : N) : bool := between 65 122 c.
Definition match_nc (s : pystr) : option (pystr * pystr) :=
  if prefixb (newline ++ mark_nc) s then
    match span is_Az (skipn (length (newline ++ mark_nc)) s) with
    | ([], _) => None
    | (_, r) => if prefixb mid_nc r
                then let '(v, rest) := cut_line (skipn (length mid_nc) r) in Some (v, after_line rest)
                else None
    end
  else None.
Definition attribute (n : pystr) : result (pystr * pystr) :=
  match split [equals] n with
  | k :: v :: _ => Ok (replace (lit " ") (lit "_") (strip k), strip v)
  | _ => Err IndexError
  end.
(** attributes set on the object; later ones replace earlier ones *)
Definition attributes_of (c : pystr) : result (list (pystr * pystr)) :=
  bind (mapM attribute (split [comma] c)) (fun l => Ok (rev l)).
Fixpoint init_from_comment (rows : list (pystr * pystr)) : result (option (list (pystr * pystr))) :=
  match rows with
  | [] => Ok None
  | (_, t) :: rows' =>
      match search_with match_nc t with
      | None => init_from_comment rows'
      | Some c => if existsb (N.eqb equals) c then bind (attributes_of c) (fun l => Ok (Some l)) else Ok None
      end
  end.
(** 160-172; [fv]: float(...), None when it raises *)
Definition restored_kinds : list (pystr * (pystr * list pystr)) :=
  [(lit "n", (lit "binomial", [lit "n"; lit "p"]));
   (lit "shape", (lit "gamma", [lit "shape"; lit "scale"; lit "minValue"]));
   (lit "mostLikelyValue", (lit "beta", [lit "minValue"; lit "mostLikelyValue"; lit "maxValue"]));
   (lit "standardDeviation95", (lit "undefined", [lit "minValue"; lit "standardDeviation95"; lit "maxValue"]))].
Definition restore_param {V} (fv : pystr -> option V) (attrs : list (pystr * pystr)) (x : pystr) : result (pystr * V) :=
  match getf x attrs with
  | None => Err AttributeError
  | Some t => match fv t with Some v => Ok (x, v) | None => Err ValueError end
  end.
Definition restore {V} (fv : pystr -> option V) (attrs : list (pystr * pystr)) : result (option (pystr * list (pystr * V))) :=
  match List.find (fun k => match getf (fst k) attrs with Some _ => true | None => false end) restored_kinds with
  | None => Ok None
  | Some (_, (kind, names)) => bind (mapM (restore_param fv attrs) names) (fun l => Ok (Some (kind, l)))
  end.
Definition other_read {V} (fv : pystr -> option V) (rows : list (pystr * pystr)) : result (option (pystr * list (pystr * V))) :=
  bind (init_from_comment rows) (fun o => match o with None => Ok None | Some attrs => restore fv attrs end).
