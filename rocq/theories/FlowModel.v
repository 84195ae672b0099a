(** Exchanges of the ECS2 to ILCD conversion: numbers, flow versions, allocation, energy basis, additional files.
    ECS2_to_ILCD1_conversion.py 645-660, 871-913, 936-942, 992-1048, 1185-1228, 1577-1651, 1890-1938, 2205-2209. *)
From Coq Require Import Ascii String List Bool Arith NArith ZArith.
From Verif Require Import PyBase PyValues DotDictModel.
Import ListNotations.

(** ** lines 992-1022: numbers, reference flow and functional unit *)
Inductive direction := Input | Output.
Record flow_in := { fi_dir : direction; fi_group : pystr; fi_text : pystr }.
(** [fi_text]: the name, the amount and the unit (line 1018) *)
Definition is_reference (x : flow_in) : bool :=
  match fi_dir x with Output => str_eqb (fi_group x) (lit "0") | Input => false end.
(** [n_refs]: Int6List, each assignment appends; the counter starts at 1 (656, 1932) *)
Record numbering := { n_counter : nat; n_refs : list nat; n_unit : option pystr }.
Definition numbering0 : numbering := {| n_counter := 1; n_refs := []; n_unit := None |}.
(** 1012-1022: the number given and the new state *)
Definition number_flow (st : numbering) (x : flow_in) : nat * numbering :=
  (n_counter st,
   if is_reference x
   then {| n_counter := S (n_counter st);
           n_refs := n_refs st ++ [n_counter st];
           n_unit := match n_unit st with None => Some (fi_text x) | Some _ => None end |}
   else {| n_counter := S (n_counter st); n_refs := n_refs st; n_unit := n_unit st |}).
Fixpoint number_flows (st : numbering) (l : list flow_in) : list nat * numbering :=
  match l with
  | [] => ([], st)
  | x :: l' => let (n, st1) := number_flow st x in
               let (ns, st2) := number_flows st1 l' in (n :: ns, st2)
  end.

(** 996-1009: the kind of flow; [by]: the by-product classification, when there is one *)
Definition kind_of_flow (x : flow_in) (by_ : option pystr) : option pystr :=
  match by_ with
  | Some b => Some (if str_eqb b (lit "Waste") then lit "Waste flow" else lit "Product flow")
  | None =>
      match fi_dir x with
      | Output => getf (fi_group x) [(lit "0", lit "Product flow"); (lit "2", lit "Product flow"); (lit "3", lit "Waste flow");
                                     (lit "4", lit "Elementary flow"); (lit "5", lit "Product flow")]
      | Input => Some (if str_eqb (fi_group x) (lit "4") then lit "Elementary flow" else lit "Product flow")
      end
  end.

(** ** lines 1185-1228, 1604-1638: versions of an intermediate flow *)
(** [P]: the list of flow property dictionaries; [eqb]: their comparison *)
Definition versions (P : Type) := list (pystr * list (nat * P)).
Definition max_version {P} (l : list (nat * P)) : nat := fold_right Nat.max 0 (map fst l).
Fixpoint find_version {P} (eqb : P -> P -> bool) (fp : P) (l : list (nat * P)) : option nat :=
  match l with
  | [] => None
  | (v, q) :: l' => if eqb fp q then Some v else find_version eqb fp l'
  end.
(** the version, the new table and whether a file is written *)
Definition use_flow {P} (eqb : P -> P -> bool) (st : versions P) (fid : pystr) (fp : P) : nat * versions P * bool :=
  match getf fid st with
  | Some l =>
      match find_version eqb fp l with
      | Some v => (v, st, false)
      | None => let v := S (max_version l) in (v, putf fid (l ++ [(v, fp)]) st, true)
      end
  | None => (1, putf fid [(1, fp)] st, true)
  end.
(** the written files: identifier and version give the name (1460), a later file replaces an earlier one *)
Definition folder (P : Type) := list ((pystr * nat) * P).
Definition file_name_eqb (a b : pystr * nat) : bool := str_eqb (fst a) (fst b) && Nat.eqb (snd a) (snd b).
Fixpoint file_content {P} (n : pystr * nat) (d : folder P) : option P :=
  match d with
  | [] => None
  | (m, fp) :: d' => match file_content n d' with Some x => Some x | None => if file_name_eqb n m then Some fp else None end
  end.
Fixpoint use_flows {P} (eqb : P -> P -> bool) (st : versions P) (d : folder P) (l : list (pystr * P))
  : list nat * versions P * folder P :=
  match l with
  | [] => ([], st, d)
  | (fid, fp) :: l' =>
      match use_flow eqb st fid fp with
      | (v, st1, new) =>
          match use_flows eqb st1 (if new then d ++ [((fid, v), fp)] else d) l' with
          | (vs, st2, d2) => (v :: vs, st2, d2)
          end
      end
  end.
(** a run over several files: the table is emptied after each file (1933), the folder is kept *)
Fixpoint use_files {P} (eqb : P -> P -> bool) (d : folder P) (fs : list (list (pystr * P))) : list (list nat) * folder P :=
  match fs with
  | [] => ([], d)
  | f :: fs' => match use_flows eqb [] d f with
                | (vs, _, d1) => let (r, d2) := use_files eqb d1 fs' in (vs :: r, d2)
                end
  end.
(** ['01.00.' + f'{v:0>3}'] *)
Definition version_text (v : nat) : pystr :=
  let t := str_of_N (N.of_nat v) in
  lit "01.00." ++ repeat (ch "0") (3 - List.length t) ++ t.

(** ** lines 936-942, 1024-1048, 2207-2209: allocation *)
(** attributes of the class as name/value pairs; line 659 and 1934 set [_main_property], line 2208 sets [main_property] *)
Definition attrs := list (pystr * option pystr).
Definition class_attrs0 : attrs := [(lit "_main_property", None)].
Definition set_master_property (x : pystr) (c : attrs) : attrs := putf (lit "main_property") (Some x) c.
(** an exchange: its attributes, its amount and the amounts of its properties *)
Record alloc_flow := { af_attrs : list (pystr * pystr); af_id : pystr; af_amount : Z; af_props : list (pystr * Z) }.
Definition allocation_property (c : attrs) (x : alloc_flow) : option pystr :=
  match getf (lit "@specificAllocationProperty") (af_attrs x) with
  | Some p => Some p
  | None => match getf (lit "_main_property") c with Some p => p | None => None end
  end.
(** 1041-1045: the allocation amounts; [putf] for [dict.update] *)
Definition add_allocation (c : attrs) (x : alloc_flow) (m : list (pystr * Z)) : list (pystr * Z) :=
  fold_left (fun m (p : pystr * Z) =>
     match allocation_property c x with
     | Some a => if str_eqb (fst p) a then putf (af_id x) (snd p * af_amount x)%Z m else m
     | None => m
     end) (af_props x) m.
Definition allocation_table (c : attrs) (l : list alloc_flow) : list (pystr * Z) :=
  fold_left (fun m x => add_allocation c x m) l [].
(** 1024-1032: [allocations] is a unique field that the reading in line 1028 has already filled, so that the assignment in
    line 1032 raises ValueError (data_structures/main.py, see C16) *)
Definition get_allocation (m : list (pystr * Z)) (x : alloc_flow) : result unit :=
  match getf (af_id x) m with Some _ => Err ValueError | None => Ok tt end.
Fixpoint get_allocations (m : list (pystr * Z)) (l : list alloc_flow) : result unit :=
  match l with [] => Ok tt | x :: l' => bind (get_allocation m x) (fun _ => get_allocations m l') end.

(** ** lines 871-913, 2202-2206: flow property of the unit *)
(** line 668 and 1937 set [_energy], line 2206 sets [energy] *)
Definition energy_attrs0 : attrs := [(lit "_energy", None)].
Definition set_energy (x : option pystr) (c : attrs) : attrs := putf (lit "energy") x c.
Definition energy_uuid := lit "f09fb2f1-8af1-3630-8463-c7ebc26474be".
Definition gross_uuid := lit "f09fb2f1-8af1-3630-8463-c7ebc26474bf".
(** 875-885: the key in the table of flow properties; [u]: the uuid made from the dimension *)
Definition get_energy_prop (c : attrs) (u : pystr) : option pystr :=
  if str_eqb u energy_uuid then
    match getf (lit "_energy") c with
    | None | Some None => Some u
    | Some (Some e) => getf e [(lit "undefined", u); (lit "net calorific value", u); (lit "gross calorific value", gross_uuid)]
    end
  else Some u.
(** units.py 164-165: the name of the flow property (last entry of the row); the other rows are left out *)
Definition energy_rows : list (pystr * pystr) := [(energy_uuid, lit "Net calorific value"); (gross_uuid, lit "Gross calorific value")].
(** 886-906; a missing row gives ValueError *)
Definition unit_property (c : attrs) (u : pystr) : result pystr :=
  match get_energy_prop c u with
  | Some k => match getf k energy_rows with Some p => Ok p | None => Err ValueError end
  | None => Err ValueError
  end.

(** ** lines 1396-1402, 1456-1461, 1592, 1604-1651, 1890-1898 and utils.py 85-89: additional files *)
(** 1396-1402 *)
Definition folder_of : list (pystr * pystr) :=
  [(lit "contact", lit "contacts"); (lit "source", lit "sources"); (lit "flow", lit "flows");
   (lit "flow property", lit "flowproperties"); (lit "unit group", lit "unitgroups")].
(** 1592 with 1609-1615, 1632, 1638: only flows have the version in their address *)
Definition uri_of (fld uuid : pystr) (version : option pystr) : pystr :=
  lit "../" ++ fld ++ lit "/" ++ uuid ++ match version with Some v => lit "_" ++ v | None => [] end.
(** 1456-1461 and utils.py 85-89: the file inside the output folder *)
Definition file_of (fld uuid : pystr) (version : option pystr) : pystr :=
  fld ++ lit "/" ++ uuid ++ match version with Some v => lit "_" ++ v | None => [] end ++ lit ".xml".
(** the address is relative to the folder of the process *)
Definition resolve (uri : pystr) : pystr := skipn 3 uri.
(** sources, contacts and flow properties: written once per run, remembered in [all_data] of the class *)
Definition make_once (known : list pystr) (written : list pystr) (id : pystr) : list pystr * list pystr :=
  if str_in id known then (known, written) else (known ++ [id], written ++ [id]).
Fixpoint make_all (known written : list pystr) (l : list pystr) : list pystr * list pystr :=
  match l with
  | [] => (known, written)
  | x :: l' => let (k, w) := make_once known written x in make_all k w l'
  end.
(** a session: each run has its own output folder; [all_data] is emptied at the end of a run that does not fail (1893) *)
Record run := { r_refs : list pystr; r_fails : bool }.
Fixpoint session (known : list pystr) (l : list run) : list (list pystr) :=
  match l with
  | [] => []
  | r :: l' => let (k, w) := make_all known [] (r_refs r) in
               w :: session (if r_fails r then k else []) l'
  end.
