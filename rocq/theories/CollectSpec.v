(** Vocabulary for EcoSpold2 fields that take several ILCD fields, independent of the conversion. *)
From Coq Require Import Ascii String List Bool Arith NArith ZArith Sorted.
From Verif Require Import PyBase PyValues ValidatorsModel MultiLangModel MultiLangSpec DotDictModel TablesModel CommentModel CommentSpec CommentProps ProseModel ProseSpec RegainSpec CollectModel.
Import ListNotations.
Local Open Scope string_scope.
Local Open Scope list_scope.

(** the language of an element; without the attribute it is English *)
Definition tongue (p : piece) : pystr := match p_lang p with Some l => l | None => lit "en" end.
(** the paragraphs of language [k] that the elements of a process contribute; [w]: what an element contributes, if anything *)
Definition paragraphs (w : tfield -> pystr -> option pystr) (k : pystr) (doc : list piece) : list pystr :=
  flat_map (fun p => if str_eqb (tongue p) k then optional (fun t => t) (w (p_field p) (p_text p)) else []) doc.
(** a text, unless it says none *)
Definition not_none (h t : pystr) : option pystr := if str_eqb t (lit "none") then None else Some (h ++ t).

Definition to_general (f : tfield) (t : pystr) : option pystr :=
  match f with
  | FIdentifier => Some (lit "Identifier name: " ++ t)
  | FGeneral | FModel => Some t
  | FProject => Some (lit "Project: " ++ t)
  | FApplications => Some (lit "Intended applications: " ++ t)
  | _ => None
  end.
Definition to_geography (f : tfield) (t : pystr) : option pystr := match f with FRestrictions | FSubRestrictions => Some t | _ => None end.
Definition to_extrapolations (f : tfield) (t : pystr) : option pystr :=
  match f with
  | FDevPrinciple => not_none (lit "Deviations from LCI Method Principles: ") t
  | FDevConstants => Some (lit "Deviations from Modelling Constants: " ++ t)
  | FDevCutOff => not_none (lit "Deviations from Cut-Off and Completeness Principles: ") t
  | FDevSelection => not_none (lit "Deviations from Data Selection and Combination Principles: ") t
  | FTreatment => Some (lit "Data Treatment and Extrapolations Principles: " ++ t)
  | FDevTreatment => not_none (lit "Deviations from Data Treatment and Extrapolations Principles: ") t
  | _ => None
  end.
Definition the_sampling (f : tfield) (t : pystr) : option pystr := match f with FSampling => Some t | _ => None end.
Definition to_sampling (f : tfield) (t : pystr) : option pystr :=
  match f with
  | FConstants => Some (lit "Modelling Constants: " ++ t)
  | FCutOff => Some (lit "Data Cut-Off And Completeness Principles: " ++ t)
  | FSelection => Some (lit "Data Selection and Combination Principles: " ++ t)
  | FPeriod => Some (lit "Data Collection Period: " ++ t)
  | FAdjustments => Some (lit "Uncertainty Adjustments: " ++ t)
  | FAdvice => Some (lit "Use Advice for Dataset: " ++ t)
  | _ => None
  end.
Definition a_name (f : tfield) (t : pystr) : option pystr := match f with FBase | FRoutes | FMix | FUnit => Some t | _ => None end.

(** One text for every language that says something: its paragraphs, one below the other.  Languages are in the order of their codes. *)
Definition gathers (said_in : pystr -> list pystr) (rows : list speech) : Prop :=
  alphabetical rows /\ forall k t, In (k, t) rows <-> said_in k <> [] /\ t = join newline (said_in k).
(** no language has more than the limit *)
Definition short (ignore : bool) (long : nat) (said_in : pystr -> list pystr) : Prop := forall k, ignore = true \/ length (join newline (said_in k)) <= long.
(** every text has a character that is not white space, and no text has a mark of the converter *)
Definition ordinary (p : piece) : Prop :=
  visible_text (p_text p) /\
  match p_field p with
  | FGeneral => plain general_marks (p_text p)
  | FConstants => ~ occurs (lit "Energy: ") (p_text p)
  | FDevPrinciple => ~ occurs (lit "Original ecoinvent System Model: ") (p_text p)
  | _ => True
  end.
(** the names of a process, in the order of the file *)
Definition names_in (doc : list piece) : list speech := flat_map (fun p => optional (fun t => (tongue p, t)) (a_name (p_field p) (p_text p))) doc.
(** where the texts of a field are to be found *)
Definition found_in (o : texts_of) (f : tfield) (rows : list speech) : Prop :=
  match f with
  | FIdentifier | FGeneral | FModel | FProject | FApplications => reads (t_general o) rows
  | FRestrictions | FSubRestrictions => reads (t_geography o) rows
  | FDevPrinciple | FDevConstants | FDevCutOff | FDevSelection | FTreatment | FDevTreatment => rows = t_extrapolations o
  | FConstants | FCutOff | FSelection | FSampling | FPeriod | FAdjustments | FAdvice => rows = t_sampling o
  | FBase | FRoutes | FMix | FUnit | FUnitOrOther | FVolume => False
  end.
