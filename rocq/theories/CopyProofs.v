(** Lemmas for C221-C223. *)
From Coq Require Import Ascii String List Bool Arith NArith ZArith Lia.
From Verif Require Import PyBase PyBaseFacts PyValues MultiLangModel DotDictModel DotDictProofs XmlProofs RemapProofs CopyModel.
Import ListNotations.

Lemma copy_files_kept l : forall o o' n, copy_files l o = Ok o' -> ~ In n (map fst l) -> getf n o' = getf n o.
Proof.
  induction l as [|[m e] l IH]; intros o o' n H N; cbn [copy_files] in H; [now injection H as <-|]. destruct e as [c|]; [|discriminate].
  rewrite (IH _ _ n H) by (intros I; apply N; now right). apply getf_putf_other. intros ->. apply N. now left.
Qed.
Lemma copy_files_there l : forall o o' n c, copy_files l o = Ok o' -> NoDup (map fst l) -> In (n, AFile c) l -> getf n o' = Some c.
Proof.
  induction l as [|[m e] l IH]; intros o o' n c H D I; [contradiction|]. cbn [map fst] in D. apply NoDup_cons_iff in D as (D1 & D2). cbn [copy_files] in H.
  destruct e as [d|]; [|discriminate]. destruct I as [I|I]; [|exact (IH _ _ _ _ H D2 I)]. injection I as -> ->. rewrite (copy_files_kept _ _ _ _ H D1). apply getf_putf.
Qed.
Lemma copy_files_ok l : (forall n e, In (n, e) l -> exists c, e = AFile c) -> forall o, exists o', copy_files l o = Ok o'.
Proof.
  induction l as [|[m e] l IH]; intros P o; [now exists o|]. cbn [copy_files]. destruct (P m e (or_introl eq_refl)) as (c & ->). apply IH. intros n e I. apply (P n e). now right.
Qed.
Lemma copy_files_folder l : forall o o' n, In (n, AFolder) l -> copy_files l o <> Ok o'.
Proof.
  induction l as [|[m e] l IH]; intros o o' n I H; [contradiction|]. cbn [copy_files] in H. destruct e as [c|]; [|discriminate]. destruct I as [I|I]; [discriminate|]. exact (IH _ _ _ I H).
Qed.
Lemma info_parts a o o' : set_file_info a o = Ok o' -> exists s c, a_sources a = Some s /\ a_contacts a = Some c /\ copy_files s (o_sources o) = Ok (o_sources o') /\
  copy_files c (o_contacts o) = Ok (o_contacts o') /\ o_documents o' = o_documents o.
Proof.
  unfold set_file_info, copy_folder. intros H. apply bind_Ok in H as (s' & S & H). apply bind_Ok in H as (c' & C & H). injection H as <-.
  destruct (a_sources a) as [s|]; [|discriminate]. destruct (a_contacts a) as [c|]; [|discriminate]. exists s, c. auto.
Qed.
