(** EcoSpold2 to ILCD and back: the texts that describe an activity
    (ECS2_to_ILCD1_conversion.py 1088-1135, 1929-1938, 2050-2060, 2156-2158, 2178-2305, 2352-2371; formats/helpers.py 33-58;
    ILCD1_to_ECS2_conversion.py 1393-1407, 1455-1488, 1544-1633, 1652-1680, 1709-1727, 1757-1825).
    Every element with a text has the attribute xml:lang, which both formats demand.  Left out: variables inside texts (C114), images (C160),
    elements that only OpenLCA or other programs write, and the identifiers of the activity index (C117). *)
From Coq Require Import Ascii String List Bool Arith NArith ZArith.
From Verif Require Import PyBase PyValues ValidatorsModel MultiLangSpec MultiLangModel DotDictModel SchemaModel SchemaTables TablesModel CommentModel XmlModel OutflowModel.
Import ListNotations.
Local Open Scope string_scope.
Local Open Scope list_scope.

(** language and text *)
Definition speech : Type := (pystr * pystr)%type.
Definition english (t : pystr) : speech := (lit "en", t).
Definition prefixed (p : pystr) (s : speech) : speech := (fst s, p ++ snd s).

(** ** The activity *)
(** What an EcoSpold2 data set says in words.  Comments are lists of index, language and text ([TTextAndImage]); [f_model]: the name
    of the system model; [f_volumes]: the sentences about production volumes, see [volume_text]. *)
Record activity := Activity {
  f_names : list speech; f_places : list speech; f_synonyms : list speech; f_start : list speech; f_end : list speech;
  f_allocation : list triple; f_general : list triple; f_technology : list triple; f_time : list triple; f_geography : list triple;
  f_tags : list pystr; f_link : option pystr; f_parent : option pystr; f_inherit : option pystr; f_subtype : option pystr;
  f_energy : option pystr; f_level : option pystr; f_validity : option pystr;
  f_scenario : list speech; f_scenario_comment : list speech;
  f_model : speech; f_sampling : list speech; f_extrapolations : list speech; f_volumes : list pystr }.

(** 1110-1115, 1128: the sentence about a production volume; amount, unit and standard deviation as Python prints them *)
Definition volume_text (name amount unit_ : pystr) (std : option pystr) : pystr :=
  lit "Production volume for " ++ name ++ lit " is " ++ amount ++ lit " " ++ unit_ ++
  match std with Some s => lit " with standard deviation of " ++ s | None => [] end.

(** ** Fields of a class *)
(** the ILCD fields, in the order of the data set *)
Inductive ifield :=
| BaseName | MixAndLocation | Synonyms | GeneralComment | TimeDescription | Restrictions | TechDescription
| DevPrinciple | DevApproaches | ModellingConstants | DevCutOff | DevSelection | Treatment | DevTreatment | Volumes | Sampling.
(** ILCD1_structure.py 108-113, 129-138, 154-158, 171-175, 196-202, 242-270 *)
Definition iclass (f : ifield) : vc :=
  match f with
  | BaseName | MixAndLocation | Volumes => CLang KMulti (Some Languages) (Range_ 1 500)
  | _ => CLang KMulti (Some Languages) Unlimited_
  end.
(** ECS2_structure.py 284-288, 570-592, 642-649 *)
Definition name_class : vc := CLang KFirst None (Lim_ 120).
Definition synonym_class : vc := CLang KNlr None (Lim_ 80).
Definition comment_class (n : nat) : vc := CLang KIndexedMulti None (Lim_ n).
Definition long_class (n : nat) : vc := CLang KMulti None (Lim_ n).
Definition tag_class : vc := CLim (LMax 40) (Some sep_default).
Definition place_class : vc := CLang KMulti None (Lim_ 40).
(** ILCD1_structure.py: the attribute location *)
Definition location_class : vc := CLim (LMax 500) (Some sep_default).

Section Fields.
  Context (E : env).
  (** assignments to one field; the first error stops the conversion *)
  Fixpoint assign_all (c : vc) (st : option vs) (l : list pyval) : result (option vs) :=
    match l with
    | [] => Ok st
    | v :: l' => match add_ E c st v with
                 | (st', None) => assign_all c st' l'
                 | (_, Some e) => Err e
                 end
    end.
  (** the entries written for a field; a field without assignments is not written *)
  Definition entries_of (v : vo) : result (list out) :=
    match v with OEntries l => Ok l | OEntry (Some o) => Ok [o] | OEntry None => Ok [] | _ => Err TypeError end.
  Definition field_out (c : vc) (l : list pyval) : result (list out) :=
    match l with
    | [] => Ok []
    | _ => bind (assign_all c None l) (fun st => bind (end_ E c st) entries_of)
    end.
  (** one text for all assignments *)
  Definition text_out (c : vc) (l : list pystr) : result (list pystr) :=
    match l with
    | [] => Ok []
    | _ => bind (assign_all c None (map VStr l)) (fun st => bind (end_ E c st) (fun v =>
           match v with OText t => Ok [t] | _ => Err TypeError end))
    end.
End Fields.

(** helpers.py 44-50 and 52-56: a text with an index *)
Definition entry_at (i : Z) (s : speech) : pyval := VDict [(kindex, VInt i); (klang, VStr (fst s)); (ktext, VStr (snd s))].
(** a text of a comment as the reader reports it *)
Definition raw_text (t : triple) : pyval :=
  VDict [(klang, VStr (snd (fst t))); (kindex, VStr (str_of_Z (fst (fst t)))); (ktext, VStr (snd t))].
(** 2156-2158: the texts of a comment are assigned as one list *)
Definition texts (l : list triple) : list pyval := match l with [] => [] | _ => [VList (map raw_text l)] end.
Fixpoint numbered (n : Z) (l : list speech) : list pyval :=
  match l with [] => [] | s :: l' => entry_at n s :: numbered (n + 1) l' end.
Definition optional {A B} (f : A -> B) (o : option A) : list B := match o with Some x => [f x] | None => [] end.

(** ** To ILCD *)
Section Out.
  Context (E : env).
  (** 2178-2250, 2267-2269, 2270-2305, 2358-2371.  [n]: the running number (helpers.py 25-31) when the activity is reached, [m] when the geography is. *)
  Definition values (n m : Z) (a : activity) (f : ifield) : list pyval :=
    match f with
    | BaseName => numbered n (f_names a)
    | MixAndLocation => numbered m (map (fun s => english (snd s)) (f_places a))
    | Synonyms => map (entry_at 1) (f_synonyms a)
    | GeneralComment =>
        optional (fun x => entry_at (-10) (english (line_linkable x))) (f_link a) ++
        optional (fun x => entry_at (-9) (english (line_subtype x))) (f_subtype a) ++
        flat_map (fun x => optional (fun l => entry_at (-8) (english l)) (line_inheritance x)) (optional (fun x => x) (f_inherit a)) ++
        optional (fun x => entry_at (-7) (english (line_parent x))) (f_parent a) ++
        flat_map (fun x => optional (fun l => entry_at (-6) (english l)) (text_tag x)) (f_tags a) ++
        map (fun s => entry_at (-5) (prefixed (lit "Macroeconomic Scenario: ") s)) (f_scenario a) ++
        map (fun s => entry_at (-4) (prefixed (lit "Macroeconomic Scenario Comment: ") s)) (f_scenario_comment a) ++
        texts (f_general a)
    | TimeDescription => optional (fun x => entry_at (-1) (english (line_validity x))) (f_validity a) ++ texts (f_time a)
    | Restrictions => texts (f_geography a)
    | TechDescription =>
        let k := (n + Z.of_nat (length (f_names a)))%Z in
        numbered k (map (prefixed mark_start) (f_start a)) ++
        numbered (k + Z.of_nat (length (f_start a))) (map (prefixed mark_end) (f_end a)) ++
        optional (fun x => entry_at (-1) (english (line_level x))) (f_level a) ++ texts (f_technology a)
    | DevPrinciple => [entry_at 1 (prefixed mark_model (f_model a))]
    | DevApproaches => texts (f_allocation a)
    | ModellingConstants => optional (fun x => entry_at 1 (english (line_energy x))) (f_energy a)
    | DevCutOff | DevSelection | DevTreatment => []
    | Treatment => map (entry_at 1) (f_extrapolations a)
    | Volumes => numbered (-1000) (map english (f_volumes a))
    | Sampling => map (entry_at 1) (f_sampling a)
    end.
  (** 2053-2060: some fields that have no text get the text none *)
  Definition defaulted (f : ifield) : bool :=
    match f with DevPrinciple | DevApproaches | DevCutOff | DevSelection | DevTreatment => true | _ => false end.
  Definition none_entry : out := {| o_index := None; o_lang := Some (lit "en"); o_text := lit "none" |}.
  Definition sent (n m : Z) (a : activity) (f : ifield) : result (list out) :=
    bind (field_out E (iclass f) (values n m a f)) (fun l =>
    Ok (match l with [] => if defaulted f then [none_entry] else [] | _ => l end)).
  (** 2353-2356: the principle and the approach of the system model *)
  Definition approaches_out (a : activity) : result (list pystr) :=
    match getf (snd (f_model a)) system_model, getf (snd (f_model a)) system_model_2 with
    | Some _, Some x => Ok [x]
    | _, _ => Err ValueError
    end.
End Out.

(** ** The file between *)
Section File.
  Context (show : pyval -> pystr) (ns : pystr).
  Definition out_dict (o : out) : pyval :=
    VDict (optional (fun l => (lit "@xml:lang", VStr l)) (o_lang o) ++ optional (fun i => (lit "@index", VInt i)) (o_index o) ++ [(ktext, VStr (o_text o))]).
  (** the elements of a field, and what the reader reports for them *)
  Definition reported (key : pystr) (l : list out) : list pyval := map elem2dict (flat_map (fun o => emit show ns key (out_dict o)) l).
End File.
(** helpers.py 44-50 *)
Definition said (v : pyval) : result speech :=
  match v with
  | VDict d => match getf klang d, getf ktext d with
               | Some (VStr l), Some (VStr t) => Ok (l, t)
               | _, None => Err KeyError
               | _, _ => Err OtherError
               end
  | _ => Err OtherError
  end.

(** ** From ILCD *)
(** a value that is None is refused by every field these notes are for *)
Definition settle (n : notes) : result notes :=
  if existsb (fun sv => match snd sv with None => true | Some _ => false end) n then Err ValueError else Ok n.
(** the texts of one element after another: [step] gets the running number and gives the notes, the value to assign and the numbers used *)
Fixpoint receive {A} (step : Z -> speech -> result (list A * list pyval * Z)) (n : Z) (l : list pyval) : result (list A * list pyval * Z) :=
  match l with
  | [] => Ok ([], [], n)
  | v :: l' => bind (said v) (fun s => bind (step n s) (fun r => let '(x, vs, n1) := r in
               bind (receive step n1 l') (fun q => let '(y, ws, n2) := q in Ok (x ++ y, vs ++ ws, n2))))
  end.
(** 1680-1682: the index is given, then the marks are taken out, then the index is given again *)
Definition marked (read_ : pystr -> notes * pystr) (n : Z) (s : speech) : result (notes * list pyval * Z) :=
  let '(x, t) := read_ (snd s) in bind (settle x) (fun x => Ok (x, [entry_at (n + 1) (fst s, t)], n + 2)%Z).
(** 1676-1678: one value for all synonyms of an element *)
Definition synonym_step (n : Z) (s : speech) : result (notes * list pyval * Z) :=
  let l := read_synonyms (snd s) in Ok ([], [VList (numbered n (map english l))], n + Z.of_nat (length l))%Z.
Definition plain_step (n : Z) (s : speech) : result (notes * list pyval * Z) := Ok ([], [entry_at n s], n + 1)%Z.
Definition twice_step (n : Z) (s : speech) : result (notes * list pyval * Z) :=
  if str_eqb (snd s) (lit "none") then Ok ([], [], n) else Ok ([], [entry_at (n + 1) s], n + 2)%Z.
(** 1788-1806: fields that say none are skipped *)
Definition unless_none (p : pystr) (n : Z) (s : speech) : result (notes * list pyval * Z) :=
  if str_eqb (snd s) (lit "none") then Ok ([], [], n) else Ok ([], [entry_at n (prefixed p s)], n + 1)%Z.
Definition fixed_step (i : Z) (n : Z) (s : speech) : result (notes * list pyval * Z) := Ok ([], [entry_at i s], n).
Definition prefix_step (p : pystr) (n : Z) (s : speech) : result (notes * list pyval * Z) := Ok ([], [entry_at n (prefixed p s)], n + 1)%Z.
(** 1771-1774 *)
Definition constants_step (n : Z) (s : speech) : result (notes * list pyval * Z) :=
  let '(x, t) := modelling_constants (snd s) in bind (settle x) (fun x => Ok (x, [entry_at n (fst s, t)], n + 1)%Z).
(** 1760-1764 *)
Definition deviation_step (n : Z) (s : speech) : result (list pystr * list pyval * Z) :=
  if str_eqb (snd s) (lit "none") then Ok ([], [], n)
  else let '(m, t) := deviation_comment (snd s) in Ok (optional (fun x => x) m, [entry_at n (fst s, t)], n + 1)%Z.

Fixpoint last_note (x : slot) (n : notes) (d : option pystr) : option pystr :=
  match n with
  | [] => d
  | (y, v) :: n' => last_note x n' (match x, y with
      | ActivityNameId, ActivityNameId | SpecialType, SpecialType | Inheritance, Inheritance | ParentId, ParentId
      | Validity, Validity | TechLevel, TechLevel | Energy, Energy => v
      | _, _ => d
      end)
  end.
Definition notes_for (x : slot) (n : notes) : list pystr :=
  flat_map (fun sv => match x, fst sv, snd sv with
                      | IncludedStart, IncludedStart, Some t | IncludedEnd, IncludedEnd, Some t | Tag, Tag, Some t => [t]
                      | _, _, _ => []
                      end) n.
Definition speech_of (o : out) : list speech := optional (fun l => (l, o_text o)) (o_lang o).
Definition triple_of_out (o : out) : list triple := match o_index o, o_lang o with Some i, Some l => [(i, l, o_text o)] | _, _ => [] end.

Section Back.
  Context (E : env) (show : pyval -> pystr) (ns : pystr).
  (** the limit of comments (32000) *)
  Context (long : nat).
  (** numbers used by other parts of the data set before a field; the identifier made of a name; the energy basis found by counting (C45) *)
  Context (gap : ifield -> N) (name_id : pystr -> pystr) (vote : pystr).
  (** what the ILCD data set says in words, the approaches and the location *)
  Record ilcd := Ilcd { d_texts : ifield -> list out; d_approaches : list pystr; d_location : list pystr }.
  Definition heard (d : ilcd) (f : ifield) : list pyval := reported show ns (lit "field") (d_texts d f).
  Definition spoken_out (c : vc) (l : list pyval) : result (list speech) := bind (field_out E c l) (fun o => Ok (flat_map speech_of o)).
  Definition comment_out (l : list pyval) : result (list triple) := bind (field_out E (comment_class long) l) (fun o => Ok (flat_map triple_of_out o)).
  Definition first_name (l : list pyval) : result pystr := match rev l with v :: _ => bind (said v) (fun s => Ok (snd s)) | [] => Ok [] end.
  Definition back (d : ilcd) : result activity :=
    bind (receive (A := slot * option pystr) (fixed_step 1) 1000 (heard d BaseName ++ heard d MixAndLocation)) (fun r1 =>
    bind (spoken_out name_class (snd (fst r1))) (fun names =>
    bind (receive synonym_step (1000 + Z.of_N (gap Synonyms)) (heard d Synonyms)) (fun r2 =>
    bind (spoken_out synonym_class (snd (fst r2))) (fun synonyms =>
    bind (receive (marked general_comment) (snd r2 + Z.of_N (gap GeneralComment)) (heard d GeneralComment)) (fun r3 =>
    bind (comment_out (snd (fst r3))) (fun general =>
    bind (receive (marked time_comment) (snd r3 + Z.of_N (gap TimeDescription)) (heard d TimeDescription)) (fun r4 =>
    bind (comment_out (snd (fst r4))) (fun time_ =>
    bind (receive plain_step (snd r4 + Z.of_N (gap Restrictions)) (heard d Restrictions)) (fun r5 =>
    bind (comment_out (snd (fst r5))) (fun geography =>
    bind (receive (marked tech_comment) (snd r5 + Z.of_N (gap TechDescription)) (heard d TechDescription)) (fun r6 =>
    bind (comment_out (snd (fst r6))) (fun technology =>
    bind (receive deviation_step (snd r6 + Z.of_N (gap DevPrinciple)) (heard d DevPrinciple)) (fun r7 =>
    bind (receive twice_step (snd r7 + Z.of_N (gap DevApproaches)) (heard d DevApproaches)) (fun r8 =>
    bind (comment_out (snd (fst r8))) (fun allocation =>
    bind (receive constants_step (snd r8 + Z.of_N (gap ModellingConstants)) (heard d ModellingConstants)) (fun r9 =>
    bind (receive (unless_none (lit "Deviations from Cut-Off and Completeness Principles: ")) (snd r9 + Z.of_N (gap DevCutOff)) (heard d DevCutOff)) (fun ra =>
    bind (receive (unless_none (lit "Deviations from Data Selection and Combination Principles: ")) (snd ra + Z.of_N (gap DevSelection)) (heard d DevSelection)) (fun rb =>
    bind (receive (prefix_step (lit "Data Treatment and Extrapolations Principles: ")) (snd rb + Z.of_N (gap Treatment)) (heard d Treatment)) (fun r10 =>
    bind (receive (unless_none (lit "Deviations from Data Treatment and Extrapolations Principles: ")) (snd r10 + Z.of_N (gap DevTreatment)) (heard d DevTreatment)) (fun rc =>
    bind (spoken_out (long_class long) (snd (fst r7) ++ snd (fst ra) ++ snd (fst rb) ++ snd (fst r10) ++ snd (fst rc))) (fun extrapolations =>
    bind (receive (A := slot * option pystr) (fixed_step 0) (snd rc + Z.of_N (gap Sampling)) (heard d Sampling)) (fun r11 =>
    bind (spoken_out (long_class long) (snd (fst r9) ++ snd (fst r11))) (fun sampling =>
    let x := fst (fst r3) ++ fst (fst r4) ++ fst (fst r6) ++ fst (fst r9) in
    bind (spoken_out (long_class long) (map (fun t => entry_at 1 (english t)) (notes_for IncludedStart x))) (fun start =>
    bind (spoken_out (long_class long) (map (fun t => entry_at 2 (english t)) (notes_for IncludedEnd x))) (fun end_ =>
    bind (text_out E tag_class (notes_for Tag x)) (fun tags =>
    bind (spoken_out place_class (map (fun t => entry_at 1 (english t)) (d_location d))) (fun places =>
    bind (first_name (heard d BaseName)) (fun name =>
    let model := system_model_of (last (map Some (fst (fst r7))) None) (d_approaches d) in
    match model with
    | (Some m, Some _) =>
        Ok (Activity names places synonyms start end_ allocation general technology time_ geography tags
              (last_note ActivityNameId x (Some (name_id name))) (last_note ParentId x None) (last_note Inheritance x (Some (lit "0")))
              (last_note SpecialType x (Some (lit "0")))
              (match last_note Energy x None with
               | Some c => if str_eqb c (lit "0") then Some vote else Some c
               | None => Some vote
               end)
              (last_note TechLevel x (Some (lit "3"))) (last_note Validity x (Some (lit "true")))
              [english (lit "Business-as-Usual")] [] (english m) sampling extrapolations [])
    | _ => Err ValueError
    end)))))))))))))))))))))))))))).

  (** there and back again: [n] and [m] as in [values] *)
  Context (n m : Z).
  Definition there (a : activity) : result ilcd :=
    bind (approaches_out a) (fun ap =>
    bind (mapM (sent E n m a) [BaseName; MixAndLocation; Synonyms; GeneralComment; TimeDescription; Restrictions; TechDescription; DevPrinciple;
                               DevApproaches; ModellingConstants; DevCutOff; DevSelection; Treatment; DevTreatment; Volumes; Sampling]) (fun _ =>
    bind (text_out E location_class (map snd (f_places a))) (fun loc =>
    Ok (Ilcd (fun f => match sent E n m a f with Ok l => l | Err _ => [] end) ap loc)))).
  Definition trip (a : activity) : result activity := bind (there a) back.
  Fixpoint trips (k : nat) (a : activity) : result activity :=
    match k with O => Ok a | S k' => bind (trip a) (trips k') end.
End Back.
