(** ILCD to ILCD (ILCD1_to_ILCD1_conversion.py 62-201): the folder of the unpacked archive, which the conversion
    of an exchange reads (66, 71, 265-321) and changes (186-195).
    A flow file is the list of its properties, a property file the unit group it names. The part of 186-195 that
    works on the tree of the file is [patch_tree] below. Property and group files are named by their identifier. *)
From Coq Require Import Ascii String List Bool Arith NArith ZArith Reals.
From Verif Require Import PyBase PyValues MultiLangModel DotDictModel XmlModel RemapModel.
Import ListNotations.

(** a property of a flow: internal number, mean value, the property file *)
Record prop_ref := PropRef { pr_id : pystr; pr_mean : R; pr_ref : pystr }.
Record flow_doc := FlowDoc { fd_ns : ns; fd_main : pystr; fd_props : list prop_ref }.
(** the flow files by address, the property files by identifier (namespace and unit group), the unit groups *)
Record folder := Folder { flows : list (pystr * flow_doc); properties : list (pystr * (ns * pystr)); groups : list (pystr * unit_group) }.

(** what [get_unit] sees of a flow (272-300); a property whose files are missing has no unit group *)
Definition see_prop (fo : folder) (p : prop_ref) : fprop :=
  match getf (pr_ref p) (properties fo) with
  | Some (n, g) => FProp (pr_id p) (pr_mean p) n (getf g (groups fo))
  | None => FProp (pr_id p) (pr_mean p) NsPrefix None
  end.
Definition see (fo : folder) (d : flow_doc) : flow_file := FlowFile (fd_ns d) (fd_main d) (map (see_prop fo) (fd_props d)).
Definition there (fo : folder) (u : pystr) : bool := match getf u (flows fo) with Some _ => true | None => false end.

Section Folder.
  Context (fp olca_fp : fp_table) (mapping : list (pystr * row)).
  (** the files of Lavoisier_Default_Files *)
  Context (default_prop : pystr -> option (ns * pystr)) (default_group : pystr -> option unit_group).
  Context (default_file : pystr -> pystr -> bool).

  (** 63-71: the flow file of an exchange and its units *)
  Definition units_of (fo : folder) (x : exch) : result (pystr * flow_doc * units) :=
    bind (get_uri (there fo) x) (fun k =>
    match getf k (flows fo) with
    | Some d => bind (get_unit (x_unit x) (see fo d)) (fun us => Ok (k, d, us))
    | None => Err OtherError
    end).
  (** 76-80, 169-173: property and unit group of the main unit *)
  Definition unit_info (us : units) (x : exch) : result (pystr * pystr) :=
    bind (base_amount us x) (fun '(_, _, mu) =>
    lookup_fp olca_fp (if (str_eqb mu (lit "EUR") || infixb (lit "Item") mu)%bool then mu else map lower_ascii mu)).
  (** 188-194: the first property of the flow is replaced, the default files are copied into the folder *)
  Definition patch (fo : folder) (k : pystr) (d : flow_doc) (info : pystr * pystr) : result folder :=
    match fd_props d with
    | [] => Err IndexError
    | p :: l =>
        if str_eqb (pr_ref p) (fst info) then Ok fo
        else match default_prop (fst info), default_group (snd info) with
             | Some dp, Some dg => Ok (Folder (putf k (FlowDoc (fd_ns d) (fd_main d) (PropRef (pr_id p) (pr_mean p) (fst info) :: l)) (flows fo))
                                              (putf (fst info) dp (properties fo)) (putf (snd info) dg (groups fo)))
             | _, _ => Err FileNotFoundError
             end
    end.
  (** one exchange: only flows that are not in the mapping come to 186 *)
  Definition step (fo : folder) (vars : list mvar) (x : exch) : result (folder * output) :=
    bind (units_of fo x) (fun '(k, d, us) =>
    bind (remap fp olca_fp mapping (there fo) default_file us vars x) (fun o =>
    match getf (x_flow x) mapping with
    | Some _ => Ok (fo, o)
    | None => bind (unit_info us x) (fun info => bind (patch fo k d info) (fun fo' => Ok (fo', o)))
    end)).
  (** 410-414: the exchanges of a process *)
  Fixpoint run (fo : folder) (vars : list mvar) (l : list exch) : result (folder * list exch * list mvar) :=
    match l with
    | [] => Ok (fo, [], vars)
    | x :: l' => bind (step fo vars x) (fun '(fo', o) =>
                 bind (run fo' (o_vars o) l') (fun '(fo'', xs, vs) => Ok (fo'', o_exch o :: xs, vs)))
    end.
End Folder.

(** ** 186-195 on the tree of the flow file *)
Definition with_kids (e : elem) (l : list elem) : elem := match e with Elem t a x y _ => Elem t a x y l end.
Definition with_attrib (e : elem) (l : list (pystr * pystr)) : elem := match e with Elem t _ x y k => Elem t l x y k end.
(** a child is changed by position *)
Fixpoint on_kid (i : nat) (f : elem -> result elem) (l : list elem) : result (list elem) :=
  match l, i with
  | [], _ => Err IndexError
  | e :: l', O => bind (f e) (fun e' => Ok (e' :: l'))
  | e :: l', S i' => bind (on_kid i' f l') (fun r => Ok (e :: r))
  end.
Definition down (i : nat) (f : elem -> result elem) (e : elem) : result elem :=
  bind (on_kid i f (ekids e)) (fun l => Ok (with_kids e l)).
(** 189, 194 *)
Definition point_to (id_ : pystr) (e : elem) : result elem :=
  bind (need (getf (lit "refObjectId") (eattrib e))) (fun old =>
  if str_eqb old id_ then Ok e
  else Ok (with_attrib e (putf (lit "uri") (lit "../flowproperties/" ++ xml id_) (putf (lit "refObjectId") id_ (eattrib e))))).
(** 188: [root[3][0][0]] *)
Definition patch_tree (id_ : pystr) (root : elem) : result elem := down 3 (down 0 (down 0 (point_to id_))) root.
