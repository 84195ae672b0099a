(** Products of EcoSpold2 and their flow data sets. *)
From Coq Require Import Ascii String List Bool Arith NArith ZArith.
From Verif Require Import PyBase PyValues DotDictModel XmlModel XmlSpec HandleSpec XmlProps AsideSpec ReferSpec InflowModel InflowSpec OutflowModel.
Import ListNotations.
Local Open Scope string_scope.
Local Open Scope list_scope.

(** the texts of [x] called [n], with their languages, in the order of the document *)
Definition texts_of (x : elem) (n : string) (ls : list (pystr * pystr)) : Prop :=
  exists ks, named_kids (lit n) (ekids x) ks /\ Forall2 spoken ks ls.
(** <intermediateExchange intermediateExchangeId="..."><name xml:lang="...">...</name>...<synonym>...: the CAS number and the linked
    activity are attributes *)
Definition product_exchange (x : elem) (fid : pystr) (names synonyms : list (pystr * pystr)) : Prop :=
  record_element x /\ attribute x "intermediateExchangeId" fid /\ texts_of x "name" names /\ texts_of x "synonym" synonyms /\
  named_kids (lit "casNumber") (ekids x) [] /\ named_kids (lit "activityLinkId") (ekids x) [].

(** The fields for the uncertainty of a property, in the ILCD format. *)
Definition uncertainty_fields : list pystr :=
  map lit ["minimumValue"; "maximumValue"; "uncertaintyDistributionType"; "relativeStandardDeviation95In"].
(** A property: a row of the table of properties, a number, and comments that are no blank texts. *)
Definition legal_draft (p : draft) : Prop :=
  (exists k, getf k to_fp = Some (d_row p)) /\ (exists f, d_mean p = VFloat f) /\
  Forall (fun kv => In (fst kv) uncertainty_fields /\ ((exists s, snd kv = VStr s) \/ exists f, snd kv = VFloat f)) (d_uncertainty p) /\
  Forall (fun ls => ~ blank (Some (snd ls))) (d_comment p).
Section Numbers.
  Context {num : Type} (to_num : pyval -> result num) (show : pyval -> pystr).
  (** the number can be written and read *)
  Definition readable_number (v : pyval) : Prop := ~ blank (Some (show v)) /\ exists q, to_num (VStr (show v)) = Ok q.
End Numbers.
Definition at_synonyms : pystr := lit "/flowDataSet/flowInformation/dataSetInformation/synonyms".
(** Versions of ILCD: two digits, two digits, and maybe three digits. *)
Definition decimal (c : N) : Prop := (48 <= c <= 57)%N.
Definition digits (k : nat) (s : pystr) : Prop := length s = k /\ Forall decimal s.
Definition long_version (v : pystr) : Prop := exists a b c, v = a ++ lit "." ++ b ++ lit "." ++ c /\ digits 2 a /\ digits 2 b /\ digits 3 c.
Definition short_version (v : pystr) : Prop := exists a b, v = a ++ lit "." ++ b /\ digits 2 a /\ digits 2 b.
