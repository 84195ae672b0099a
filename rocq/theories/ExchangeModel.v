(** ILCD to EcoSpold2: identifiers and groups of the exchanges, the files references point to, sources
    and contacts (ILCD1_to_ECS2_conversion.py 705-745, 762-775, 787-990; formats/helpers.py 66-77). *)
From Coq Require Import Ascii String List Bool Arith NArith ZArith.
From Verif Require Import PyBase PyValues ValidatorsModel DotDictModel.
Import ListNotations.

(** ** 705-717: the id of an exchange *)
Section Ids.
  (** [uuid_from_string] (uuid3 under a fixed seed, utils.py 40-47): a parameter *)
  Context (hash : pystr -> pystr).

  (** 709-713 [while id_ in _all_flow_ids: i += 1; ...]; [None]: the loop is still running after
      [fuel] rounds. [i]: the number tried in this round. *)
  Fixpoint next_id (fuel : nat) (used : list pystr) (base : pystr) (i : N) : option pystr :=
    match fuel with
    | O => None
    | S f => let u := hash (base ++ str_of_N i) in
             if str_in u used then next_id f used base (i + 1)%N else Some u
    end.
  (** 706-717; [base]: id of the process followed by the first name of the flow *)
  Definition new_id (fuel : nat) (used : list pystr) (base : pystr) : option pystr :=
    let u := hash base in
    if str_in u used then next_id fuel used base 1%N else Some u.

  (** The exchanges are finished one after another (990-1062); with the merge option the exchange that
      is kept is finished again (1512) and its id overwritten (the field is not unique). An exchange is
      designated by its position [n]. *)
  Record id_state := IdState { all_ids : list pystr; id_of : list (nat * pystr) }.
  Fixpoint put_nat {A} (n : nat) (v : A) (l : list (nat * A)) : list (nat * A) :=
    match l with
    | [] => [(n, v)]
    | (m, w) :: l' => if Nat.eqb n m then (n, v) :: l' else (m, w) :: put_nat n v l'
    end.
  Definition finish_id (fuel : nat) (st : id_state) (n : nat) (base : pystr) : option id_state :=
    match new_id fuel (all_ids st) base with
    | None => None
    | Some u => Some (IdState (u :: all_ids st) (put_nat n u (id_of st)))
    end.
  Fixpoint finish_ids (fuel : nat) (st : id_state) (l : list (nat * pystr)) : option id_state :=
    match l with
    | [] => Some st
    | (n, b) :: l' => match finish_id fuel st n b with None => None | Some st' => finish_ids fuel st' l' end
    end.
  (** 1249-1262: the set of ids is emptied before every file *)
  Definition no_ids : id_state := IdState [] [].
End Ids.

(** ** 722-740: the group of an exchange *)
Definition elementary_kind := lit "Elementary flow".
Definition product_kind := lit "Product flow".
Definition waste_kind := lit "Waste flow".
Definition other_kind := lit "Other flow".
Inductive group_field := InputGroup | OutputGroup.
Definition input_codes : list (pystr * Z) :=
  [(elementary_kind, 4%Z); (product_kind, 5%Z); (waste_kind, 5%Z); (other_kind, 5%Z)].
Definition output_codes : list (pystr * Z) :=
  [(elementary_kind, 4%Z); (product_kind, 2%Z); (waste_kind, 3%Z); (other_kind, 2%Z)].
(** the field that is set, and the value ([None] for a kind that is not in the table) *)
Definition group_of (reference : bool) (direction kind : pystr) : group_field * option Z :=
  if reference then (OutputGroup, Some 0%Z)
  else if str_eqb direction (lit "Input") then (InputGroup, getf kind input_codes)
  else (OutputGroup, getf kind output_codes).
(** the validator of that field in the structure of the exchange (1024-1044: elementary exchanges for
    elementary flows, intermediate exchanges for all others; ECS2_structure.py 767-768, 787-788) *)
Definition group_check (kind : pystr) (f : group_field) : pyval -> result Z :=
  if str_eqb kind elementary_kind
  then match f with InputGroup => InputGroupElementaryINT | OutputGroup => OutputGroupElementaryINT end
  else match f with InputGroup => InputGroupIntermediateINT | OutputGroup => OutputGroupIntermediateINT end.
Definition opt_val (o : option Z) : pyval := match o with Some z => VInt z | None => VNone end.
Definition set_group (reference : bool) (direction kind : pystr) : result (group_field * Z) :=
  let '(f, g) := group_of reference direction kind in
  bind (group_check kind f (opt_val g)) (fun z => Ok (f, z)).

(** ** 803-835 [get_file] *)
Inductive entry_kind := File | Folder.
(** the entries of a folder, in the order of [os.listdir] *)
Definition folder := list (pystr * entry_kind).
(** [p.exists() and p.is_file()] for an entry name; the empty name is the folder itself *)
Definition is_file (d : folder) (name : pystr) : bool :=
  existsb (fun e => match e with (n, File) => str_eqb n name | (_, Folder) => false end) d.
Record reference := Reference { r_uri : option pystr; r_id : option pystr; r_version : option pystr }.
Definition or_empty (o : option pystr) : pystr := match o with Some s => s | None => [] end.
Definition options (x : reference) : list pystr :=
  [ last (split (lit "/") (or_empty (r_uri x))) [];
    or_empty (r_id x) ++ lit "_" ++ or_empty (r_version x) ++ lit ".xml";
    or_empty (r_id x) ++ lit ".xml" ].
(** [None] as a folder: there is no such folder. *)
Definition get_file (dir : option folder) (x : reference) : option pystr :=
  match dir with
  | None => None
  | Some d =>
      match find (is_file d) (options x) with
      | Some n => Some n
      | None =>
          match r_id x with
          | None | Some [] => None
          | Some id_ => option_map fst (find (fun e => infixb id_ (fst e)) d)
          end
      end
  end.
(** 788-794 *)
Definition convertible (dir : option folder) (x : reference) : bool :=
  match get_file dir x, r_id x with Some _, Some (_ :: _) => true | _, _ => false end.

(** ** formats/helpers.py 66-77 [source_short_ref] *)
Definition source_short_ref (author year page : option pystr) : pystr :=
  match author with
  | Some a => match year with
              | Some y => match page with
                          | Some p => a ++ lit ", (" ++ y ++ lit ") p. " ++ p
                          | None => a ++ lit ", (" ++ y ++ lit ")"
                          end
              | None => a
              end
  | None => lit "Source"
  end.

(** ECS2_to_ILCD1_conversion.py 2413-2416: the citation of the source a data set is published in; the
    attributes of the element are given as the reader gives them, with a leading "@" (C25) *)
Definition published_ref (attributes : list (pystr * pystr)) : pystr :=
  source_short_ref (getf (lit "@publishedSourceFirstAuthor") attributes)
                   (getf (lit "@publishedSourceYear") attributes)
                   (getf (lit "pageNumbers") attributes).

(** ** 891-918: author, year and page are searched in a citation *)
Definition opens_year (c : N) : bool := existsb (N.eqb c) [ch " "; ch "("; ch "["; ch ","].
Definition closes_year (c : N) : bool := existsb (N.eqb c) [ch ")"; ch "]"].
(** [[ \(\[,](\d{4})[\)\]]] at the start of a text: the year and what follows *)
Definition year_at (s : pystr) : option (pystr * pystr) :=
  match s with
  | o :: a :: b :: c :: d :: k :: s' =>
      if (opens_year o && is_udigit a && is_udigit b && is_udigit c && is_udigit d && closes_year k)%bool
      then Some ([a; b; c; d], s') else None
  | _ => None
  end.
(** the same followed by [ p\. ] *)
Definition year_page_at (s : pystr) : option (pystr * pystr) :=
  match year_at s with
  | Some (y, s') => if prefixb (lit " p. ") s' then Some (y, skipn 4 s') else None
  | None => None
  end.
(** the last place where [m] matches: the text before it and the groups *)
Fixpoint last_match {A} (m : pystr -> option A) (s : pystr) : option (pystr * A) :=
  match s with
  | [] => option_map (fun g => ([], g)) (m [])
  | c :: s' => match last_match m s' with
               | Some (p, g) => Some (c :: p, g)
               | None => option_map (fun g => ([], g)) (m s)
               end
  end.
(** [$] matches at the end and before a line feed at the end, a dot matches everything but a line feed:
    the match lies in the last line, a line feed at the very end not counted. *)
Definition drop_end_nl (s : pystr) : pystr :=
  match rev s with c :: r => if N.eqb c 10 then rev r else s | [] => s end.
Definition last_line (s : pystr) : pystr := last (split [10%N] (drop_end_nl s)) [].
Definition drop_last (s : pystr) : pystr := removelast s.
Record cited := Cited { c_author : pystr; c_year : option pystr; c_page : option pystr }.
(** [t]: the citation or, if there is none, the name of the source; [name]: the name. The second
    expression is tested on the text but applied to the stripped text (902-904). *)
Definition read_citation (t name : pystr) : result cited :=
  match last_match year_page_at (last_line t) with
  | Some (p, (y, pg)) => Ok (Cited (drop_last (strip p)) (Some (strip y)) (Some (strip pg)))
  | None =>
      match last_match year_at (last_line t) with
      | Some _ =>
          match last_match year_at (last_line (strip t)) with
          | Some (p, (y, _)) => Ok (Cited (drop_last (strip p)) (Some (strip y)) None)
          | None => Err AttributeError
          end
      | None => Ok (Cited (strip name) None None)
      end
  end.

(** ** the attributes of an exchange that describe its source (ECS2_structure.py 162-166, 556) *)
Record source_field := SourceField
  { s_id : option pystr; s_author : option pystr; s_year : option pystr; s_page : option pystr }.
Definition no_source : source_field := SourceField None None None None.
Definition opt_or {A} (a b : option A) : option A := match a with Some _ => a | None => b end.
(** one data source: [id_] converted id, [t], [name] as above. Year and author are overwritten when
    they are set; the page is a unique field (main.py 70-72). *)
Definition set_source (f : source_field) (id_ t name : pystr) : result source_field :=
  bind (read_citation t name) (fun c =>
  match c_page c, s_page f with
  | Some _, Some _ => Err ValueError
  | _, _ => Ok (SourceField (Some id_) (Some (c_author c)) (opt_or (c_year c) (s_year f)) (opt_or (c_page c) (s_page f)))
  end).
(** 762-775 [set_field]: all data sources of an exchange *)
Fixpoint set_sources (f : source_field) (l : list (pystr * (pystr * pystr))) : result source_field :=
  match l with
  | [] => Ok f
  | (i, (t, n)) :: l' => bind (set_source f i t n) (fun f' => set_sources f' l')
  end.

(** ** 861-870, 940-958: the user master data *)
Record master := Master { m_sources : list (pystr * (pystr * pystr * pystr)); all_sources : list pystr;
                          m_persons : list (pystr * pystr); m_companies : list (pystr * pystr);
                          all_contacts : list pystr; m_flows : list pystr }.
Definition empty_master : master := Master [] [] [] [] [] [].
Inductive contact_role := Person | Company.
Inductive mention :=
| MSource (id_ author year title : pystr)
| MContact (role : contact_role) (id_ name : pystr)
| MFlow (id_ : pystr).
Definition mention_step (m : master) (x : mention) : master :=
  match x with
  | MSource i a y t =>
      if str_in i (all_sources m) then m
      else Master (m_sources m ++ [(i, (a, y, t))]) (i :: all_sources m) (m_persons m) (m_companies m) (all_contacts m) (m_flows m)
  | MContact r i n =>
      if str_in i (all_contacts m) then m
      else match r with
           | Person => Master (m_sources m) (all_sources m) (m_persons m ++ [(i, n)]) (m_companies m) (i :: all_contacts m) (m_flows m)
           | Company => Master (m_sources m) (all_sources m) (m_persons m) (m_companies m ++ [(i, n)]) (i :: all_contacts m) (m_flows m)
           end
  (* 759-760: every finished exchange adds an entry for its flow *)
  | MFlow i => Master (m_sources m) (all_sources m) (m_persons m) (m_companies m) (all_contacts m) (m_flows m ++ [i])
  end.
Definition mentions (l : list mention) : master := fold_left mention_step l empty_master.
