(** Elements of EcoSpold2 data sets with data that have no place in ILCD. *)
From Coq Require Import Ascii String List Bool Arith NArith ZArith.
From Verif Require Import PyBase PyValues XmlModel XmlSpec HandleSpec XmlProps ValidatorsModel.
Import ListNotations.
Local Open Scope string_scope.
Local Open Scope list_scope.

Definition attribute (e : elem) (n : string) (s : pystr) : Prop := exists k, In (k, s) (eattrib e) /\ name_of k (lit n).
(** an element with attributes, and maybe other elements *)
Definition record_element (e : elem) : Prop :=
  Forall proper (ekids e) /\ distinct_attributes (eattrib e) /\ eattrib e <> [].
(** xs:boolean *)
Definition yes_or_no (s : pystr) : Prop := In s (map lit ["true"; "false"; "1"; "0"]).
Definition booleans (e : elem) (l : list string) : Prop := forall n s, In n l -> attribute e n s -> yes_or_no s.

(** An exchange; the identifiers are no booleans and not restricted, a tag is a text. *)
Definition exchange (e : elem) : Prop :=
  record_element e /\
  booleans e ["isCalculatedAmount"; "sourceIdOverwrittenByChild"; "activityLinkIdOverwrittenByChild"] /\
  (exists ts, named_kids (lit "tag") (ekids e) ts /\ Forall (fun t => exists s, plain_text t s) ts).
(** The property for an allocation comes from another context (a master data file). *)
Definition allocation_context (e : elem) : Prop := exists s, attribute e "specificAllocationPropertyContextId" s /\ s <> [].
Definition parameter (e : elem) : Prop := record_element e /\ booleans e ["isCalculatedAmount"].
(** A property has an amount, a number. *)
Definition property (e : elem) : Prop :=
  record_element e /\ booleans e ["isDefiningValue"; "isCalculatedAmount"] /\
  exists s f, attribute e "amount" s /\ py_float (VStr s) = Some f.

(** <dataEntryBy personId="..." .../>, <dataGeneratorAndPublication personId="..." .../> *)
Definition by_person (e : elem) : Prop := record_element e /\ exists s, attribute e "personId" s.
(** The company is given by its context only. *)
Definition company_context_only (e : elem) : Prop :=
  (exists s, attribute e "companyContextId" s /\ s <> []) /\ forall s, ~ attribute e "companyId" s.
Definition required_context (e : elem) : Prop :=
  record_element e /\ (exists ns, named_kids (lit "requiredContextName") (ekids e) ns /\ ns <> []) /\
  (exists s, attribute e "majorRelease" s) /\ (exists s, attribute e "minorRelease" s) /\
  exists s, attribute e "requiredContextId" s.
Definition review_element (e : elem) : Prop :=
  record_element e /\ forall n, In n ["reviewedMajorRelease"; "reviewedMajorRevision"; "reviewedMinorRelease"; "reviewedMinorRevision";
                                      "reviewerId"; "reviewDate"] -> exists s, attribute e n s.
