(** converter.py 179-280 and the output managers: running a conversion over a list of files.

    The parts of a conversion that depend on the formats are the fields of a [plant]; this file
    models what the converter does with them: when a mapping is created, when the output structure
    starts afresh, when files are written and reported, and what happens after an exception. *)
From Coq Require Import Ascii String List Bool Arith NArith ZArith.
From Verif Require Import PyBase PyValues MultiLangModel DotDictModel OutputModel ConverterModel.
Import ListNotations.

Section Driver.
  (** input files; output structures; written documents; class attributes of the mapping classes;
      attributes read from the file for the mapping *)
  Context {File Struct Doc Cls Attrs : Type}.

  Record plant := {
    p_ilcd : bool;                                        (** ILCD1Output or ECS2Output *)
    p_hash : pystr;                                       (** [hash_] of the request *)
    p_fresh : Struct;                                     (** [structure()] *)
    p_info : File -> result (option version * option pystr * Attrs);   (** lines 193-204 *)
    p_load : option version -> File -> Cls -> Cls * option exn;        (** lines 223-224: get_mapping, set_mappings *)
    p_setup : Attrs -> Cls -> Struct -> Cls * Struct * option exn;     (** lines 231-234 *)
    p_body : File -> Cls -> Struct -> Cls * Struct * option exn;       (** lines 244-250 iterate *)
    p_end : Cls -> Struct -> Cls * Struct * option exn;   (** mapping.end_conversion *)
    p_reset : Cls -> Struct -> Cls * Struct * option exn; (** mapping.reset_conversion *)
    p_delete : Cls -> Struct -> Cls * Struct * option exn; (** mapping.delete, which ends with a reset *)
    p_doc : Struct -> result Doc;                         (** get_dict and unparse *)
    p_uuid : Struct -> result pystr;                      (** dataSetInformation UUID *)
    p_title : pystr -> Struct -> result pystr;            (** get_filename(hash) *)
    p_input_cleanup : option exn                          (** input manager's handle_error *)
  }.

  (** files of the output folder *)
  Inductive out := Zip (members : list (pystr * Doc)) | Spold (d : Doc).
  (** the output manager instance; [d_work] holds the process files of the temporary folder, None when
      the folder has been removed *)
  Record data := { d_struct : Struct; d_multi : bool; d_work : option (list (pystr * Doc)) }.
  (** the converter instance: [_version], does [_field_mapping] exist, [_data] *)
  Record conv := { c_version : option version; c_map : bool; c_data : option data }.
  (** what lives outside of the instance: class attributes, the class attribute [_hash] of the output
      manager, the output folder *)
  Record world := { w_cls : Cls; w_hash : pystr; w_folder : list (pystr * out) }.
  Definition state := (conv * world)%type.
  (** a newly built converter *)
  Definition new_conv : conv := {| c_version := None; c_map := false; c_data := None |}.

  Definition set_data (d : data) (s : state) : state :=
    ({| c_version := c_version (fst s); c_map := c_map (fst s); c_data := Some d |}, snd s).
  Definition set_cls (c : Cls) (s : state) : state :=
    (fst s, {| w_cls := c; w_hash := w_hash (snd s); w_folder := w_folder (snd s) |}).
  Definition set_hash (h : pystr) (s : state) : state :=
    (fst s, {| w_cls := w_cls (snd s); w_hash := h; w_folder := w_folder (snd s) |}).
  Definition set_folder (f : list (pystr * out)) (s : state) : state :=
    (fst s, {| w_cls := w_cls (snd s); w_hash := w_hash (snd s); w_folder := f |}).
  Definition set_map (b : bool) (s : state) : state :=
    ({| c_version := c_version (fst s); c_map := b; c_data := c_data (fst s) |}, snd s).
  Definition set_version (v : option version) (s : state) : state :=
    ({| c_version := v; c_map := c_map (fst s); c_data := c_data (fst s) |}, snd s).

  Context (p : plant).

  (** a step changes the state, and either goes on with a value or raises *)
  Definition step A := state -> state * result A.
  Definition ret {A} (a : A) : step A := fun s => (s, Ok a).
  Definition raise {A} (e : exn) : step A := fun s => (s, Err e).
  Definition andthen {A B} (m : step A) (f : A -> step B) : step B := fun s =>
    match m s with
    | (s', Ok a) => f a s'
    | (s', Err e) => (s', Err e)
    end.
  Definition modify (g : state -> state) : step unit := fun s => (g s, Ok tt).
  Definition lift {A} (r : result A) : step A := fun s => (s, r).
  (** [self._data] *)
  Definition the_data : step data := fun s =>
    match c_data (fst s) with Some d => (s, Ok d) | None => (s, Err AttributeError) end.
  (** run a part of the mapping on the class attributes and the current structure *)
  Definition on_mapping (f : Cls -> Struct -> Cls * Struct * option exn) : step unit :=
    andthen the_data (fun d s =>
      let '(c, x, e) := f (w_cls (snd s)) (d_struct d) in
      let s' := set_data {| d_struct := x; d_multi := d_multi d; d_work := d_work d |} (set_cls c s) in
      match e with None => (s', Ok tt) | Some e => (s', Err e) end).

  (** lines 218-221: [_data] is created once and never removed; its creation sets the class attribute
      [_hash] (lines 181-184) *)
  Definition ensure_data : step unit := fun s =>
    match c_data (fst s) with
    | Some _ => (s, Ok tt)
    | None => (set_hash (p_hash p) (set_data {| d_struct := p_fresh p; d_multi := false; d_work := None |} s), Ok tt)
    end.
  (** lines 222-225: a mapping is created when the version changes, or when there is none *)
  Definition ensure_mapping (o v : option version) (file : File) : step unit := fun s =>
    if (negb (oversion_eqb o v) || match o, v with None, None => true | _, _ => false end)%bool
    then match p_load p v file (w_cls (snd s)) with
         | (c, None) => (set_map true (set_cls c s), Ok tt)
         | (c, Some e) => (set_cls c s, Err e)
         end
    else (s, Ok tt).
  (** line 226 reads [self._field_mapping] *)
  Definition need_mapping : step unit := fun s =>
    if c_map (fst s) then (s, Ok tt) else (s, Err AttributeError).
  (** lines 227-229; ILCD1_format.py 76-93, ECS2_format.py 27-29 ([None.replace] raises) *)
  Definition start_output (filename : option pystr) : step unit :=
    andthen the_data (fun d =>
      if d_multi d then ret tt
      else if p_ilcd p then modify (set_data {| d_struct := d_struct d; d_multi := d_multi d; d_work := Some [] |})
      else match filename with Some _ => ret tt | None => raise AttributeError end).
  (** lines 216-234 *)
  Definition start_conversion (file : File) : step unit := fun s =>
    match p_info p file with
    | Err e => (s, Err e)
    | Ok (v, filename, attrs) =>
        let o := c_version (fst s) in
        andthen (modify (set_version v)) (fun _ =>
        andthen ensure_data (fun _ =>
        andthen (ensure_mapping o v file) (fun _ =>
        andthen need_mapping (fun _ =>
        andthen (start_output filename) (fun _ =>
        on_mapping (p_setup p attrs)))))) s
    end.

  (** [check_name_for_existence] on the current folder, with enough fuel *)
  Definition free_name (folder : list (pystr * out)) (name ext : pystr) : pystr :=
    match check_name_for_existence (S (length folder)) (map fst folder) name ext with
    | Some n => n ++ ext
    | None => name ++ ext
    end.
  (** [write_process]: ILCD1_format.py 95-102, ECS2_format.py 31-38; returns the name written *)
  Definition write_process : step pystr :=
    andthen the_data (fun d =>
    andthen (lift (p_doc p (d_struct d))) (fun doc =>
    if p_ilcd p then
      andthen (lift (p_uuid p (d_struct d))) (fun u =>
      match d_work d with
      | None => raise FileNotFoundError
      | Some w => andthen (modify (set_data {| d_struct := d_struct d; d_multi := d_multi d;
                                               d_work := Some (putf (u ++ lit ".xml") doc w) |})) (fun _ => ret u)
      end)
    else fun s =>
      match p_title p (w_hash (snd s)) (d_struct d) with
      | Err e => (s, Err e)
      | Ok t => let n := free_name (w_folder (snd s)) t (lit ".spold") in
                (set_folder (putf n (Spold doc) (w_folder (snd s))) s, Ok n)
      end)).
  (** abstractions.py 126-129 [end_single_output_file]: written, then a fresh structure *)
  Definition end_single : step pystr :=
    andthen write_process (fun n =>
    andthen the_data (fun d =>
    andthen (modify (set_data {| d_struct := p_fresh p; d_multi := false; d_work := d_work d |})) (fun _ => ret n))).
  (** abstractions.py 148-150 [reset_conversion] *)
  Definition reset_output : step unit :=
    andthen end_single (fun _ =>
    andthen the_data (fun d =>
    modify (set_data {| d_struct := d_struct d; d_multi := true; d_work := d_work d |}))).
  (** ILCD1_format.py 104-117, ECS2_format.py 40-43 [end_conversion]; returns the reported name *)
  Definition end_output : step pystr :=
    if p_ilcd p then
      andthen the_data (fun d s =>
        andthen (lift (if d_multi d then Ok (lit "ILCD" ++ w_hash (snd s)) else p_title p (w_hash (snd s)) (d_struct d))) (fun t =>
        andthen end_single (fun _ =>
        andthen the_data (fun d' s' =>
          match d_work d' with
          | None => (s', Err FileNotFoundError)
          | Some w =>
              let n := free_name (w_folder (snd s')) t (lit ".zip") in
              (set_data {| d_struct := d_struct d'; d_multi := d_multi d'; d_work := None |}
                 (set_folder (putf n (Zip w) (w_folder (snd s'))) s'), Ok n)
          end))) s)
    else end_single.

  (** lines 236-242 *)
  Definition converter_reset : step unit := andthen (on_mapping (p_reset p)) (fun _ => reset_output).
  Definition converter_end : step pystr := andthen (on_mapping (p_end p)) (fun _ => end_output).

  (** lines 260-268; the result are the reported names.  [rest] tells how the delivery of the input
      files ends (an exception of the input manager, or the end). *)
  Fixpoint run (to_file : bool) (l : list (File * bool)) (rest : option exn) : step (list pystr) :=
    match l with
    | [] => match rest with None => ret [] | Some e => raise e end
    | (f, last) :: l' =>
        andthen (start_conversion f) (fun _ =>
        andthen (on_mapping (p_body p f)) (fun _ =>
        if (last || to_file)%bool
        then andthen converter_end (fun n => andthen (run to_file l' rest) (fun ns => ret (n :: ns)))
        else andthen converter_reset (fun _ => run to_file l' rest)))
    end.

  (** lines 269-280: cleaning up after the exception [e]; an exception raised while cleaning up
      replaces it and stops the clean-up *)
  Definition clean (e : exn) : step (list pystr) := fun s =>
    match p_input_cleanup p with
    | Some e' => (s, Err e')
    | None =>
        (* ILCD1_format.py 119-122 *)
        let s := match c_data (fst s) with
                 | Some d => set_data {| d_struct := d_struct d; d_multi := d_multi d; d_work := None |} s
                 | None => s
                 end in
        if c_map (fst s)
        then match on_mapping (p_delete p) s with
             | (s', Err e') => (s', Err e')
             | (s', Ok _) => (set_map false s', Err e)
             end
        else (s, Err e)
    end.
  Definition convert (to_file : bool) (l : list (File * bool)) (rest : option exn) : step (list pystr) := fun s =>
    match run to_file l rest s with
    | (s', Ok ns) => (s', Ok ns)
    | (s', Err e) => clean e s'
    end.
End Driver.
Arguments plant : clear implicits.
Arguments data : clear implicits.
Arguments conv : clear implicits.
Arguments world : clear implicits.
Arguments state : clear implicits.
Arguments out : clear implicits.
