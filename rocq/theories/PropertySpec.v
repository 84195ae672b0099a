(** Properties of a flow: what is promised. *)
From Coq Require Import Ascii String List Bool Arith NArith ZArith Reals.
From Verif Require Import PyBase PyValues AmountModel CommentSpec PropertyModel.
Import ListNotations.
Local Open Scope R_scope.

(** Properties given per unit of the flow: the total of a flow is the property times the amount. *)
Definition per_flow_unit (name : pystr) (p : prop) : Prop :=
  In name [lit "dry mass"; lit "wet mass"; lit "price"; lit "true value relation"; lit "lifetime"] \/
  (occurs (lit "content") name /\ ~ In name [lit "water content"; lit "carbon content, fossil"; lit "carbon content, non-fossil"] /\
   (p_unit p = UKilogram \/ p_unit p = UMegajoule)).
(** Shares of the dry mass. *)
Definition per_dry_mass (name : pystr) (p : prop) : Prop :=
  In name [lit "water content"; lit "carbon content, fossil"; lit "carbon content, non-fossil"] \/
  (occurs (lit "content") name /\ p_unit p = UDimensionless).
(** A property that none of the rules is for. *)
Definition unknown_property (name : pystr) : Prop :=
  ~ In name [lit "dry mass"; lit "wet mass"; lit "water in wet mass"; lit "price"; lit "true value relation"; lit "lifetime"] /\
  ~ occurs (lit "content") name /\ ~ occurs (lit "concentration, ") name /\
  ~ occurs (lit "heating value, ") name /\ ~ occurs (lit "lifetime capacity") name.
Definition value (p : prop) : R := am_m (p_amount p).
