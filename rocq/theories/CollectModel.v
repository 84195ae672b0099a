(** ILCD to EcoSpold2: fields of EcoSpold2 that take the texts of several ILCD fields
    (ILCD1_to_ECS2_conversion.py 1544-1585, 1614-1628, 1652-1682, 1711-1727, 1744, 1757-1836, 1848-1852; formats/helpers.py 25-56).
    A process is the list of its text elements in the order of the file.  Left out: fields that take one ILCD field only (C171, C173, C185-C187). *)
From Coq Require Import Ascii String List Bool Arith NArith ZArith.
From Verif Require Import PyBase PyValues ValidatorsModel MultiLangSpec MultiLangModel DotDictModel SchemaModel TablesModel CommentModel ProseModel.
Import ListNotations.
Local Open Scope string_scope.
Local Open Scope list_scope.

Inductive tfield :=
| FBase | FRoutes | FMix | FUnit
| FIdentifier | FGeneral | FModel | FProject | FApplications
| FRestrictions | FSubRestrictions
| FDevPrinciple | FDevConstants | FDevCutOff | FDevSelection | FTreatment | FDevTreatment
| FConstants | FCutOff | FSelection | FSampling | FPeriod | FAdjustments | FAdvice
| FUnitOrOther | FVolume.
(** the fields of EcoSpold2 *)
Inductive place := PName | PGeneral | PGeography | PExtrapolations | PSampling.
Definition place_eqb (a b : place) : bool :=
  match a, b with
  | PName, PName | PGeneral, PGeneral | PGeography, PGeography | PExtrapolations, PExtrapolations | PSampling, PSampling => true
  | _, _ => false
  end.
(** an element: numbers used up by other parts of the data set before it, the field, the attribute xml:lang, the text *)
Record piece := Piece { p_gap : N; p_field : tfield; p_lang : option pystr; p_text : pystr }.

(** the first argument of setattr; [FUnitOrOther] and [FVolume] (1691-1693, 1815-1817) are only noted *)
Definition target (f : tfield) : option place :=
  match f with
  | FBase | FRoutes | FMix | FUnit => Some PName
  | FIdentifier | FGeneral | FModel | FProject | FApplications => Some PGeneral
  | FRestrictions | FSubRestrictions => Some PGeography
  | FDevPrinciple | FDevConstants | FDevCutOff | FDevSelection | FTreatment | FDevTreatment => Some PExtrapolations
  | FConstants | FCutOff | FSelection | FSampling | FPeriod | FAdjustments | FAdvice => Some PSampling
  | FUnitOrOther | FVolume => None
  end.
(** two numbers, the second is used: [text_add_index(text_add_index(x, prefix=p))] *)
Definition double_step (p : pystr) (n : Z) (s : speech) : result (notes * list pyval * Z) := Ok ([], [entry_at (n + 1) (prefixed p s)], n + 2)%Z.
Definition handle (f : tfield) (n : Z) (s : speech) : result (list pyval * Z) :=
  let out (r : result (notes * list pyval * Z)) := bind r (fun r => Ok (snd (fst r), snd r)) in
  match f with
  | FBase | FRoutes | FMix | FUnit => out (fixed_step 1 n s)
  | FIdentifier => out (prefix_step (lit "Identifier name: ") n s)
  | FGeneral => out (marked general_comment n s)
  | FModel => out (double_step [] n s)
  | FProject => out (double_step (lit "Project: ") n s)
  | FApplications => out (double_step (lit "Intended applications: ") n s)
  | FRestrictions | FSubRestrictions => out (plain_step n s)
  | FDevPrinciple => bind (deviation_step n s) (fun r => Ok (snd (fst r), snd r))
  | FDevConstants => out (prefix_step (lit "Deviations from Modelling Constants: ") n s)
  | FDevCutOff => out (unless_none (lit "Deviations from Cut-Off and Completeness Principles: ") n s)
  | FDevSelection => out (unless_none (lit "Deviations from Data Selection and Combination Principles: ") n s)
  | FTreatment => out (prefix_step (lit "Data Treatment and Extrapolations Principles: ") n s)
  | FDevTreatment => out (unless_none (lit "Deviations from Data Treatment and Extrapolations Principles: ") n s)
  | FConstants => out (constants_step n s)
  | FCutOff => out (prefix_step (lit "Data Cut-Off And Completeness Principles: ") n s)
  | FSelection => out (prefix_step (lit "Data Selection and Combination Principles: ") n s)
  | FSampling => out (fixed_step 0 n s)
  | FPeriod => out (prefix_step (lit "Data Collection Period: ") n s)
  | FAdjustments => out (prefix_step (lit "Uncertainty Adjustments: ") n s)
  | FAdvice => out (prefix_step (lit "Use Advice for Dataset: ") n s)
  | FUnitOrOther | FVolume => Ok ([], n)
  end.
(** helpers.py 49-50: an element without attributes is a string, which counts as English; [x['#text']] of a string and ['...' + x] of a dictionary raise *)
Definition heard_as (p : piece) : result speech :=
  match p_lang p, p_field p with
  | None, (FBase | FDevPrinciple | FDevCutOff | FDevSelection | FDevTreatment) => Err TypeError
  | Some _, FIdentifier => Err TypeError
  | None, _ => Ok (english (p_text p))
  | Some l, _ => Ok (l, p_text p)
  end.
(** the assignments, in the order of the file *)
Fixpoint collect (n : Z) (doc : list piece) : result (list (option place * pyval)) :=
  match doc with
  | [] => Ok []
  | p :: doc' => bind (heard_as p) (fun s => bind (handle (p_field p) (n + Z.of_N (p_gap p)) s) (fun r =>
                 bind (collect (snd r) doc') (fun l => Ok (map (pair (target (p_field p))) (fst r) ++ l))))
  end.
Definition values_at (q : place) (l : list (option place * pyval)) : list pyval :=
  flat_map (fun x => match fst x with Some q' => if place_eqb q' q then [snd x] else [] | None => [] end) l.

Record texts_of := Texts { t_names : list speech; t_general : list triple; t_geography : list triple; t_extrapolations : list speech; t_sampling : list speech }.
Section Describe.
  Context (E : env) (long : nat).
  (** [n]: the running number at the start (helpers.py 25: 1000) *)
  Definition describe (n : Z) (doc : list piece) : result texts_of :=
    bind (collect n doc) (fun l =>
    bind (spoken_out E name_class (values_at PName l)) (fun names =>
    bind (comment_out E long (values_at PGeneral l)) (fun general =>
    bind (comment_out E long (values_at PGeography l)) (fun geography =>
    bind (spoken_out E (long_class long) (values_at PExtrapolations l)) (fun extrapolations =>
    bind (spoken_out E (long_class long) (values_at PSampling l)) (fun sampling =>
    Ok (Texts names general geography extrapolations sampling))))))).
End Describe.
