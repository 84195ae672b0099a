(** Sessions: several converters used one after another
    (converter.py 28-66, 86-91, 154-280; formats/configurations.py; conversions/factories.py 46-81; ECS2_to_ILCD1_conversion.py 1826-1847, 1864-1871,
    ILCD1_to_ECS2_conversion.py 1263-1291, 1304-1308, 1386-1391, ILCD1_to_ILCD1_conversion.py 345-382, 405-419).
    Settings of a converter are attributes of the converter; while a file is converted they are attributes of the classes of the conversion,
    which all converters share.  Of a file, the record [file] keeps what these settings depend on; everything else a conversion does is C29, C30, C50.
    Left out: the requests that no conversion is available for (C69), folders that do not exist, converters whose parts were replaced. *)
From Coq Require Import Ascii String List Bool Arith NArith ZArith.
From Verif Require Import PyBase PyValues MultiLangModel DotDictModel ConverterModel.
Import ListNotations.
Local Open Scope string_scope.
Local Open Scope list_scope.

Inductive direction := EcoToIlcd | IlcdToEco | OlcaToOlca.
Definition direction_eqb (a b : direction) : bool :=
  match a, b with EcoToIlcd, EcoToIlcd | IlcdToEco, IlcdToEco | OlcaToOlca, OlcaToOlca => true | _, _ => false end.
Definition names_of (d : direction) : pystr * pystr :=
  match d with
  | EcoToIlcd => (lit "EcoSpold2", lit "ILCD1")
  | IlcdToEco => (lit "ILCD1", lit "EcoSpold2")
  | OlcaToOlca => (lit "OLCAILCD1", lit "OLCAILCD1")
  end.
(** converter.py 158-163: the options of the input format, then those of the output format *)
Definition all_options (d : direction) : list (pystr * pyval) := input_options (fst (names_of d)) ++ output_options (snd (names_of d)).
(** configurations.py 66-69, 89-93, 100-105: one option is a general one *)
Definition is_general (n : pystr) : bool := str_eqb n (lit "ignore_string_length_restrictions").
(** factories.py 19-23 *)
Definition ef_mapping : list ((pystr * pystr) * pystr) :=
  [((lit "ecoinvent3.7", lit "EF3.0"), lit "Mappings/ecs2_to_ilcd1_elementary_flows.json");
   ((lit "EF3.0", lit "ecoinvent3.7"), lit "Mappings/ilcd1_to_ecs2_elementary_flows.json");
   ((lit "OpenLCA", lit "EF3.1"), lit "Mappings/data_final.json")].
Definition default_mapping (lists : pystr * pystr) : option pystr :=
  option_map snd (find (fun r => pair_eqb (fst r) lists) ef_mapping).

(** ** Files, converters, classes *)
(** after an exception: the input manager raises as well; the mapping's [delete] raises after it has reset its class attributes; all is done *)
Inductive cleanup := Nothing | Half | All.
Inductive ending := Fine | Unreadable (e : exn) | Fails (e : exn) (late : bool).
(** version and exchanges as read beforehand (C70), variables of the process; [late]: it fails after the variables were read *)
Record file := File { f_version : option version; f_refs : list pyval; f_rel : option (list pyval); f_end : ending; f_clean : cleanup }.
Record request := Request { r_dir : direction; r_lists : pystr * pystr; r_path : pystr; r_save : pystr; r_hash : pystr }.
Record converter := Conv {
  c_dir : direction; c_default : option pystr; c_opts : list (pystr * pyval); c_more : pyval; c_map : option pystr;
  c_input : pystr; c_path : pystr; c_save : pystr; c_hash : pystr;
  c_version : option version; c_made : bool; c_out : option pystr }.
(** class attributes: the limits of texts, the options, the elementary flows in use, [_convert_additional_fields], the hash of an output class,
    [_flow_internal_refs], [math_rel] *)
Record classes := Classes {
  w_limits : pyval; w_opts : direction -> list (pystr * pyval); w_map : direction -> option pystr; w_more : direction -> pyval;
  w_hash : bool -> pystr; w_refs : option (list pyval); w_rel : list pyval }.
Definition upd {A} (f : direction -> A) (d : direction) (x : A) : direction -> A := fun e => if direction_eqb e d then x else f e.
(** configurations.py 87, 98, 109: the two ILCD formats share their output class *)
Definition writes_ilcd (d : direction) : bool := match d with IlcdToEco => false | _ => true end.

(** converter.py 30-66 *)
Definition new (r : request) : converter :=
  Conv (r_dir r) (default_mapping (r_lists r)) (all_options (r_dir r)) (VBool false) None (r_path r) (r_path r) (r_save r) (r_hash r) None false None.

(** ** One file *)
(** what a conversion works with *)
Record used := Used { u_limits : pyval; u_opts : list (pystr * pyval); u_map : option pystr; u_hash : pystr; u_folder : pystr;
                      u_refs : option (list pyval); u_rel : list pyval }.

Section World.
  (** can the file of a mapping be read; the files of an input *)
  Context (readable : pystr -> bool) (disk : pystr -> list file).

  (** 171-177 *)
  Definition apply_options (general : bool) (c : converter) (attrs : list (pystr * pyval)) : list (pystr * pyval) :=
    fold_left (fun a nv => if Bool.eqb (is_general (fst nv)) general then putf (fst nv) (snd nv) a else a) (c_opts c) attrs.
  Definition set_version (v : option version) (c : converter) : converter :=
    Conv (c_dir c) (c_default c) (c_opts c) (c_more c) (c_map c) (c_input c) (c_path c) (c_save c) (c_hash c) v (c_made c) (c_out c).
  Definition set_made (b : bool) (c : converter) : converter :=
    Conv (c_dir c) (c_default c) (c_opts c) (c_more c) (c_map c) (c_input c) (c_path c) (c_save c) (c_hash c) (c_version c) b (c_out c).
  Definition set_out (o : option pystr) (c : converter) : converter :=
    Conv (c_dir c) (c_default c) (c_opts c) (c_more c) (c_map c) (c_input c) (c_path c) (c_save c) (c_hash c) (c_version c) (c_made c) o.
  (** 216-217 *)
  Definition set_limits (c : converter) (w : classes) : classes :=
    Classes (match getf (lit "ignore_string_length_restrictions") (apply_options true c []) with Some v => v | None => w_limits w end)
      (w_opts w) (w_map w) (w_more w) (w_hash w) (w_refs w) (w_rel w).
  (** 218-221, 181-184 *)
  Definition make_data (cw : converter * classes) : converter * classes :=
    let '(c, w) := cw in
    match c_out c with
    | Some _ => (c, w)
    | None => (set_out (Some (c_save c)) c,
               Classes (w_limits w) (w_opts w) (w_map w) (w_more w)
                 (fun b => if Bool.eqb b (writes_ilcd (c_dir c)) then c_hash c else w_hash w b) (w_refs w) (w_rel w))
    end.
  (** 222-225, 186-189; factories.py 68-81; [set_mappings] *)
  Definition make_mapping (o : option version) (cw : converter * classes) : converter * classes * option exn :=
    let '(c, w) := cw in
    if (negb (oversion_eqb o (c_version c)) || match o, c_version c with None, None => true | _, _ => false end)%bool
    then match get_mapping (names_of (c_dir c)) (c_version c) with
         | Err e => (c, w, Some e)
         | Ok _ =>
             let c' := set_made true c in
             let w' := Classes (w_limits w) (w_opts w) (w_map w) (upd (w_more w) (c_dir c) (c_more c)) (w_hash w) (w_refs w) (w_rel w) in
             match (match c_map c with Some p => Some p | None => c_default c end) with
             | None => (c', w', Some AttributeError)
             | Some p => if readable p
                         then (c', Classes (w_limits w') (w_opts w') (upd (w_map w') (c_dir c) (Some p)) (w_more w') (w_hash w') (w_refs w') (w_rel w'), None)
                         else (c', w', Some FileNotFoundError)
             end
         end
    else if c_made c then (c, w, None) else (c, w, Some AttributeError).
  (** 206-212; ILCD1_to_ECS2_conversion.py 1386-1391 *)
  Definition set_refs (d : direction) (f : file) (w : classes) : classes :=
    match d, f_refs f with
    | IlcdToEco, (_ :: _) as l => Classes (w_limits w) (w_opts w) (w_map w) (w_more w) (w_hash w) (Some l) (w_rel w)
    | _, _ => w
    end.
  Definition check_refs (d : direction) (w : classes) : option exn :=
    match d, w_refs w with IlcdToEco, None => Some TypeError | _, _ => None end.
  Definition set_opts (c : converter) (w : classes) : classes :=
    Classes (w_limits w) (upd (w_opts w) (c_dir c) (apply_options false c (w_opts w (c_dir c)))) (w_map w) (w_more w) (w_hash w) (w_refs w) (w_rel w).
  (** ILCD1_to_ILCD1_conversion.py 439-440, 411-416 *)
  Definition set_rel (l : list pyval) (w : classes) : classes :=
    Classes (w_limits w) (w_opts w) (w_map w) (w_more w) (w_hash w) (w_refs w) l.
  Definition read_rel (d : direction) (f : file) (w : classes) : classes :=
    match d, f_rel f with OlcaToOlca, Some l => set_rel l w | _, _ => w end.
  Definition finish_rel (d : direction) (w : classes) : classes := match d with OlcaToOlca => set_rel [] w | _ => w end.
  Definition in_use (c : converter) (w : classes) : used :=
    Used (w_limits w) (w_opts w (c_dir c)) (w_map w (c_dir c)) (w_hash w (writes_ilcd (c_dir c))) (match c_out c with Some p => p | None => [] end)
      (match c_dir c with IlcdToEco => w_refs w | _ => None end) (match c_dir c with OlcaToOlca => w_rel w | _ => [] end).

  (** 269-280: the mapping of ILCD to ILCD has no [delete] *)
  Definition deleted (d : direction) (w : classes) : classes :=
    Classes (w_limits w) (upd (w_opts w) d (map (fun nv => (fst nv, VNone)) (w_opts w d))) (w_map w) (upd (w_more w) d (VBool true)) (w_hash w)
      (match d with IlcdToEco => None | _ => w_refs w end) (w_rel w).
  Definition clean (f : file) (cw : converter * classes) : converter * classes :=
    let '(c, w) := cw in
    if c_made c then
      match c_dir c, f_clean f with
      | OlcaToOlca, _ | _, Nothing => (c, w)
      | d, Half => (c, deleted d w)
      | d, All => (set_made false c, deleted d w)
      end
    else (c, w).

  (** 214-268 for one file; an exception is followed by the clean-up *)
  Definition convert_file (f : file) (cw : converter * classes) : converter * classes * (used + exn) :=
    let '(c, w) := cw in
    let fail := fun (cw' : converter * classes) (e : exn) => (clean f cw', inr e : used + exn) in
    let w := set_limits c w in
    match f_end f with
    | Unreadable e => fail (c, w) e
    | _ =>
        let o := c_version c in
        let cw1 := make_data (set_version (f_version f) c, w) in
        match make_mapping o cw1 with
        | (c2, w2, Some e) => fail (c2, w2) e
        | (c2, w2, None) =>
            let w3 := set_refs (c_dir c2) f w2 in
            match check_refs (c_dir c2) w3 with
            | Some e => fail (c2, w3) e
            | None =>
                let w4 := set_opts c2 w3 in
                match f_end f with
                | Fails e late => fail (c2, if late then read_rel (c_dir c2) f w4 else w4) e
                | _ => let w5 := read_rel (c_dir c2) f w4 in (c2, finish_rel (c_dir c2) w5, inl (in_use c2 w5))
                end
            end
        end
    end.
  (** 252-268: the first exception ends the run *)
  Fixpoint convert_files (l : list file) (cw : converter * classes) : converter * classes * list (file * (used + exn)) :=
    match l with
    | [] => (cw, [])
    | f :: l' =>
        let '(cw', r) := convert_file f cw in
        match r with
        | inr _ => (cw', [(f, r)])
        | inl _ => let '(cw'', es) := convert_files l' cw' in (cw'', (f, r) :: es)
        end
    end.

  (** ** Sessions *)
  (** converters are numbered in the order of their requests *)
  Inductive op := New (r : request) | SetOption (k : nat) (n : pystr) (v : pyval) | SetMapping (k : nat) (p : pystr)
                | SetSave (k : nat) (p : pystr) | SetPath (k : nat) (p : pystr) | Convert (k : nat).
  Record state := State { s_convs : list converter; s_classes : classes; s_events : list (nat * file * (used + exn)) }.
  Fixpoint put_at {A} (k : nat) (x : A) (l : list A) : list A :=
    match l, k with
    | [], _ => []
    | _ :: l', O => x :: l'
    | y :: l', S k' => y :: put_at k' x l'
    end.
  (** 165-169 *)
  Definition set_option (n : pystr) (v : pyval) (c : converter) : converter :=
    if in_true_false v then
      if str_eqb n (lit "convert_additional_fields")
      then Conv (c_dir c) (c_default c) (c_opts c) v (c_map c) (c_input c) (c_path c) (c_save c) (c_hash c) (c_version c) (c_made c) (c_out c)
      else if match getf n (c_opts c) with Some _ => true | None => false end
           then Conv (c_dir c) (c_default c) (putf n v (c_opts c)) (c_more c) (c_map c) (c_input c) (c_path c) (c_save c) (c_hash c) (c_version c) (c_made c) (c_out c)
           else c
    else c.
  (** 80-91: the path has one of two endings; [Path.suffix] also says no to a name that is nothing but the ending, left out here *)
  Definition mapping_path (p : pystr) : bool := (suffixb (lit ".csv") p || suffixb (lit ".json") p)%bool.
  Definition set_mapping (p : pystr) (c : converter) : converter :=
    if mapping_path p
    then Conv (c_dir c) (c_default c) (c_opts c) (c_more c) (Some p) (c_input c) (c_path c) (c_save c) (c_hash c) (c_version c) (c_made c) (c_out c)
    else c.
  Definition set_save (p : pystr) (c : converter) : converter :=
    Conv (c_dir c) (c_default c) (c_opts c) (c_more c) (c_map c) (c_input c) (c_path c) p (c_hash c) (c_version c) (c_made c) (c_out c).
  Definition set_path (p : pystr) (c : converter) : converter :=
    Conv (c_dir c) (c_default c) (c_opts c) (c_more c) (c_map c) (c_input c) p (c_save c) (c_hash c) (c_version c) (c_made c) (c_out c).
  Definition on (k : nat) (g : converter -> converter) (s : state) : state :=
    match nth_error (s_convs s) k with
    | Some c => State (put_at k (g c) (s_convs s)) (s_classes s) (s_events s)
    | None => s
    end.
  Definition do_op (s : state) (o : op) : state :=
    match o with
    | New r => State (s_convs s ++ [new r]) (s_classes s) (s_events s)
    | SetOption k n v => on k (set_option n v) s
    | SetMapping k p => on k (set_mapping p) s
    | SetSave k p => on k (set_save p) s
    | SetPath k p => on k (set_path p) s
    | Convert k =>
        match nth_error (s_convs s) k with
        | Some c => let '(c', w', es) := convert_files (disk (c_input c)) (c, s_classes s) in
                    State (put_at k c' (s_convs s)) w' (s_events s ++ map (fun fr => (k, fst fr, snd fr)) es)
        | None => s
        end
    end.
  (** the classes as they are when the program starts *)
  Definition initial : state :=
    State [] (Classes (VBool false) (fun _ => []) (fun _ => None) (fun _ => VBool true) (fun _ => []) None []) [].
  Definition session (ops : list op) : state := fold_left do_op ops initial.
  Definition events (ops : list op) : list (nat * file * (used + exn)) := s_events (session ops).
End World.

(** ** Parts of a converter *)
(** What can be assigned: a class, or an object of some classes.  [acts]: objects of the class, or the object, can be called. *)
Inductive role := IsIterator | IsInput | IsOutput | IsStructure.
Inductive part := AClass (roles : list role) | AnObject (roles : list role) (acts : bool).
Inductive place := PIterator | PInput | POutput.
Definition role_of (p : place) : role := match p with PIterator => IsIterator | PInput => IsInput | POutput => IsOutput end.
Definition role_eqb (a b : role) : bool :=
  match a, b with IsIterator, IsIterator | IsInput, IsInput | IsOutput, IsOutput | IsStructure, IsStructure => true | _, _ => false end.
(** [isinstance]: a class is not an object of itself *)
Definition is_instance (x : part) (r : role) : bool := match x with AnObject rs _ => existsb (role_eqb r) rs | AClass _ => false end.
(** converter.py 99-145 *)
Definition assign_part (p : place) (x old : part) : part * option exn := if is_instance x (role_of p) then (x, None) else (old, Some TypeError).
(** 46-53: the parts of a new converter; the input manager is an object, the others are classes *)
Definition default_part (p : place) : part := match p with PIterator => AClass [IsIterator] | PInput => AnObject [IsInput] false | POutput => AClass [IsOutput] end.
(** 197, 219, 247: iterator and output manager are called; 263: the files are asked of the input manager *)
Definition use_part (p : place) (x : part) : option exn :=
  match p, x with
  | PInput, AnObject rs _ => if existsb (role_eqb IsInput) rs then None else Some AttributeError
  | PInput, AClass _ => Some TypeError
  | _, AClass _ => None
  | _, AnObject _ acts => if acts then None else Some TypeError
  end.
(** 130-134: the mapping is given as a dictionary of arguments; [DefaultMappingConfig] takes none (configurations.py 24-30, abstractions.py 11-16) *)
Definition assign_config (d : list (pystr * pyval)) : option exn := match d with [] => None | _ => Some TypeError end.
