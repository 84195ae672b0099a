(** Properties of a flow: corrections before they are written as ILCD flow properties.
    ECS2_to_ILCD1_conversion.py 771-868, 1034-1052. *)
From Coq Require Import Ascii String List Bool Arith NArith ZArith Reals.
From Verif Require Import PyBase PyValues DotDictModel AmountModel.
Import ListNotations.
Local Open Scope R_scope.

(** a property with an ILCD equivalent; unit names are reduced to what lines 837-858 ask of them:
    the unit of the amount, whether the source unit is megajoule, and the dimension of what follows the last '/' *)
Inductive unit_kind := UKilogram | UMegajoule | UDimensionless | UOther.
Record prop := { p_amount : amount; p_unit : unit_kind; p_source_mj : bool; p_denominator : option dim; p_considered : bool }.
Definition with_amount (p : prop) (a : amount) : prop :=
  {| p_amount := a; p_unit := p_unit p; p_source_mj := p_source_mj p; p_denominator := p_denominator p; p_considered := p_considered p |}.
Definition dropped (p : prop) : prop :=
  {| p_amount := p_amount p; p_unit := p_unit p; p_source_mj := p_source_mj p; p_denominator := p_denominator p; p_considered := false |}.

(** 778-785 *)
Definition correct_flow_unit (flow : amount) (p : prop) : result prop :=
  if Req_EM_T (am_f flow) 1 then Ok p
  else bind (divide (p_amount p) (QuantityOp (qty (am_f flow) dimensionless))) (fun a => Ok (with_amount p a)).
(** 787-800; [dry]: the property 'dry mass' *)
Definition correct_dry_mass (dry : option prop) (p : prop) : result prop :=
  match dry with
  | Some d => bind (multiply (p_amount p) (AmountOp (p_amount d))) (fun a => Ok (with_amount p a))
  | None => Ok (dropped p)
  end.
(** 802-812 *)
Definition correct_flow_amount (flow : amount) (p : prop) : result prop :=
  let q := am_a flow in
  bind (multiply (p_amount p) (QuantityOp (qty (magnitude q * (if Rle_dec 0 (magnitude q) then 1 else -1)) (q_unit q))))
       (fun a => Ok (with_amount p a)).

(** 815, 820 *)
Definition flow_unit_names : list pystr :=
  [lit "dry mass"; lit "wet mass"; lit "water in wet mass"; lit "price"; lit "true value relation"; lit "lifetime"].
Definition dry_mass_names : list pystr := [lit "water content"; lit "carbon content, fossil"; lit "carbon content, non-fossil"].

Inductive correction := FlowUnit | DryMass | FlowAmount | Drop.
(** 814-863: which correction a property gets *)
Definition correction_of (flow : amount) (name : pystr) (p : prop) : correction :=
  if str_in name flow_unit_names then FlowUnit
  else if str_in name dry_mass_names then DryMass
  else if infixb (lit "content") name then
    match p_unit p with UKilogram | UMegajoule => FlowUnit | UDimensionless => DryMass | UOther => Drop end
  else if infixb (lit "concentration, ") name && match p_denominator p with Some _ => true | None => false end then
    match p_denominator p with
    | Some d => if deqb d (u_dim (q_unit (am_a flow))) then FlowAmount else Drop
    | None => Drop
    end
  else if infixb (lit "heating value, ") name && p_source_mj p then FlowUnit
  else if infixb (lit "lifetime capacity") name then FlowUnit
  else Drop.
(** the corrected 'dry mass' (line 815 comes before its use) *)
Definition dry_mass (flow : amount) (props : list (pystr * prop)) : result (option prop) :=
  match getf (lit "dry mass") props with
  | Some d => bind (correct_flow_unit flow d) (fun d' => Ok (Some d'))
  | None => Ok None
  end.
Definition correct (flow : amount) (dry : option prop) (np : pystr * prop) : result (pystr * prop) :=
  bind (match correction_of flow (fst np) (snd np) with
        | FlowUnit => correct_flow_unit flow (snd np)
        | DryMass => correct_dry_mass dry (snd np)
        | FlowAmount => correct_flow_amount flow (snd np)
        | Drop => Ok (dropped (snd np))
        end) (fun p => Ok (fst np, p)).
(** 823-831: water content from the corrected wet and dry mass, in kg *)
Definition kilogram : unit_ := {| u_dim := [0;0;1]%Z; u_scale := 1 |}.
Definition estimated (wet dry : prop) : prop :=
  {| p_amount := new_amount (am_m (p_amount wet) - am_m (p_amount dry)) kilogram None; p_unit := UKilogram;
     p_source_mj := false; p_denominator := None; p_considered := true |}.
Definition add_water (props : list (pystr * prop)) : list (pystr * prop) :=
  match getf (lit "water content") props, getf (lit "dry mass") props, getf (lit "wet mass") props with
  | None, Some d, Some w => props ++ [(lit "water content", estimated w d)]
  | _, _, _ => props
  end.
(** 865-866 *)
Definition drop_double (props : list (pystr * prop)) : list (pystr * prop) :=
  match getf (lit "water content") props with
  | Some _ => filter (fun np => negb (str_eqb (fst np) (lit "water in wet mass"))) props
  | None => props
  end.
Definition get_ilcd_equivalent (flow : amount) (props : list (pystr * prop)) : result (list (pystr * prop)) :=
  bind (dry_mass flow props) (fun dry =>
  bind (mapM (correct flow dry) props) (fun ps => Ok (drop_double (add_water ps)))).
(** 1049-1052 *)
Definition remaining (props : list (pystr * prop)) : list (pystr * prop) := filter (fun np => p_considered (snd np)) props.
