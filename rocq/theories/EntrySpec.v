(** Specification vocabulary: what a process data set contains, what an EcoSpold2 data set says twice. *)
From Coq Require Import Ascii String List Bool Arith NArith ZArith.
From Verif Require Import PyBase EntryModel.
Import ListNotations.

(** the data set contains the element *)
Definition present (f : pystr -> element) (els : list element) : Prop := exists x, In (f x) els.
Definition present2 (f : pystr -> pystr -> element) (els : list element) : Prop := exists x y, In (f x y) els.
(** the data set does not contain the element twice *)
Definition once (f : pystr -> element) (els : list element) : Prop :=
  forall a b c x y, els <> a ++ f x :: b ++ f y :: c.
(** what the EcoSpold2 data set needs *)
Definition needed (els : list element) : Prop :=
  present EUuid els /\ (present EBaseName els \/ present ENamePart els /\ present ELink els) /\
  present EYear els /\ present EUntil els /\ present ELocation els /\ present EType els /\ present ECopyright els /\
  present2 EEntryBy els /\ present2 EGenerator els /\ present EProduct els.
(** what the ILCD format needs of a process data set *)
Definition ilcd_needed (els : list element) : Prop := present EUuid els /\ present EBaseName els /\ present2 EVersion els.
(** elements of which there is one in an ILCD process data set *)
Definition single (els : list element) : Prop :=
  once EUuid els /\ once EYear els /\ once EUntil els /\ once ELocation els /\ once EType els /\ once ECopyright els.

(** what an EcoSpold2 data set says of the activity and again in the index of activities *)
Definition said_twice : list (key * key) :=
  [(activity (lit "id"), index (lit "id")); (activity (lit "activityNameId"), index (lit "activityNameId"));
   (geography (lit "geographyId"), index (lit "geographyId"));
   (period (lit "startDate"), index (lit "startDate")); (period (lit "endDate"), index (lit "endDate"));
   (activity (lit "specialActivityType"), index (lit "specialActivityType")); (repr (lit "systemModelId"), index (lit "systemModelId"))].
Definition no_empty_ids (w : world) : Prop := forall x, table w x <> Some [].
