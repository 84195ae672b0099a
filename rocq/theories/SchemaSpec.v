(** What a leaf of a produced document may be, given the class of its field. *)
From Coq Require Import Ascii String List Bool Arith NArith ZArith QArith.
From Verif Require Import PyBase PyValues Regex RegexFacts ValidatorsModel MultiLangModel DotDictModel
  DotDictSpec SchemaModel SchemaTables.
Import ListNotations.
Local Close Scope Q_scope.

Definition length_ok (l : limit) (s : pystr) : Prop :=
  match l with
  | LMax n => n = 0 \/ length s <= n
  | LRange lo hi => lo <= length s <= hi
  | LBig n => (N.of_nat (length s) <= n)%N
  end.
Definition text_ok (ign : bool) (tc : textclass) (s : pystr) : Prop :=
  ign = true \/ match tc_limit tc with Some l => length_ok l s | None => True end.
Definition lang_ok (langs : option (list pystr)) (o : out) : Prop :=
  exists l, o_lang o = Some l /\ length l = 2 /\ match langs with Some ls => In l ls | None => True end.
Definition digits_ok (exact : bool) (n : nat) (z : Z) : Prop :=
  (0 <= z)%Z /\ if exact then length (str_of_Z z) = n else length (str_of_Z z) <= n.
Definition matches (r : re) (s : pystr) : Prop := exists u rest g, s = u ++ rest /\ M r u [] g.

Definition acceptable (E : env) (c : vc) (o : vo) : Prop :=
  match c, o with
  | CReal, OReal _ => True
  | CPercent, OPercent (Fin q) => (0 <= q <= 100)%Q
  | CPercent, OPercent NaN => True
  | CBool true, OWord w => w = lit "true" \/ w = lit "false"
  | CBool false, OBool _ => True
  | CInt, OInt z => (0 <= z)%Z
  | CColl ls _, OInt z => In z ls
  | CLimInt exact n, OInt z => digits_ok exact n z
  | CLimIntList n, OInts (One z) => digits_ok false n z
  | CLimIntList n, OInts (Many l) => Forall (digits_ok false n) l
  | CPat r, OText s => no_look r = true -> matches r s
  | CVariableName, OText s =>
      matches (variable_name_re (is_word E)) s /\ (ignore E = true \/ length s <= 40)
  | CStr, OText _ => True
  | CLim l _, OText s => ignore E = true \/ length_ok l s
  | CEnum vals, OText s => In s vals
  | CEnumList vals, OTexts l => Forall (fun s => In s vals) l /\ NoDup l
  | CDate k, ODate k' _ => k' = k
  | CReviewDate, ODate k' _ => k' = Iso
  | CLang KMulti langs tc, OEntries os | CLang KNoLang langs tc, OEntries os
  | CLang KNlr langs tc, OEntries os =>
      Forall (fun o => o_index o = None /\ lang_ok langs o /\ text_ok (ignore E) tc (o_text o)) os
  | CLang KIndexedMulti langs tc, OEntries os =>
      Forall (fun o => o_index o <> None /\ lang_ok langs o /\ text_ok (ignore E) tc (o_text o)) os
  | CLang KFirst langs tc, OEntry (Some o) | CLang KLast langs tc, OEntry (Some o) =>
      o_index o = None /\ lang_ok langs o /\ text_ok (ignore E) tc (o_text o)
  | CLang KFirst _ _, OEntry None | CLang KLast _ _, OEntry None => True
  | CIndexed tc, OEntries os =>
      Forall (fun o => o_index o <> None /\ o_lang o = None /\ text_ok (ignore E) tc (o_text o)) os
  | CNamed tc, OEntries os =>
      Forall (fun o => o_index o = None /\ o_lang o <> None /\ text_ok (ignore E) tc (o_text o)) os
  | CAnyList, OValues _ => True
  | _, _ => False
  end.

Section Leaves.
  Context (U : universe).
  (** [leaf_in d name o]: the document contains, at some depth, the entry [name] with the plain
      content [o] (possibly turned into text). *)
  Inductive leaf_in : doc U -> pystr -> vout U -> Prop :=
  | leaf_here l n o : In (n, DLeaf U o) l \/ In (n, DStr U (DLeaf U o)) l -> leaf_in (DNode U l) n o
  | leaf_deep l n ds d m o : In (n, DList U ds) l \/ In (n, DStr U (DList U ds)) l -> In d ds ->
      leaf_in d m o -> leaf_in (DNode U l) m o.
End Leaves.
