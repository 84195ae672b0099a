(** C233-C234: the archive that ILCD output is packed into (ZipModel.v). *)
From Coq Require Import Ascii String List Bool Arith NArith ZArith Lia.
From Verif Require Import PyBase PyBaseFacts PyValues DotDictModel OutputModel OutputSpec OutputProofs OutputProps ZipModel.
Import ListNotations.

(** a name of a file or folder *)
Definition plain (n : pystr) : Prop := n <> [] /\ ~ In (ch "/") n.
(** the files in folders *)
Definition entry (t : tree) (d f : pystr) : Prop := exists fs, In (d, fs) (t_folders t) /\ In f fs.
Definition tree_ok (t : tree) : Prop := (forall f, In f (t_files t) -> plain f) /\ (forall d f, entry t d f -> plain d /\ plain f).

Lemma skip_root (root x : pystr) : skipn (List.length root) (root ++ x) = x.
Proof. induction root; [reflexivity|assumption]. Qed.
Lemma drop_one n x : plain n -> drop_slashes (slash ++ n ++ x) = n ++ x.
Proof.
  intros (N & S). cbn. destruct n as [|c n]; [congruence|]. cbn. destruct (N.eqb c 47) eqn:E; [|reflexivity]. apply N.eqb_eq in E. subst c. exfalso. apply S. now left.
Qed.
Lemma members_spec root t m : tree_ok t -> In m (zip_members root t) <-> In m (t_files t) \/ exists d f, entry t d f /\ m = d ++ slash ++ f.
Proof.
  intros (F & D). unfold zip_members, walk. rewrite map_app, in_app_iff, map_map, flat_map_concat_map, concat_map, map_map, <- flat_map_concat_map. split.
  - intros [I|I].
    + apply in_map_iff in I as (f & <- & I). left. rewrite skip_root. rewrite <- (app_nil_r f) at 1. rewrite drop_one by now apply F. now rewrite app_nil_r.
    + apply in_flat_map in I as ((d & fs) & I & J). rewrite map_map in J. apply in_map_iff in J as (f & <- & J). cbn [fst snd] in *. right. exists d, f. assert (E : entry t d f) by (exists fs; auto). split; [exact E|].
      rewrite skip_root. apply drop_one. now apply (D d f).
  - intros [I|(d & f & (fs & I & J) & ->)].
    + left. apply in_map_iff. exists m. split; [|exact I]. rewrite skip_root. rewrite <- (app_nil_r m) at 1. rewrite drop_one by now apply F. now rewrite app_nil_r.
    + right. apply in_flat_map. exists (d, fs). split; [exact I|]. rewrite map_map. apply in_map_iff. exists f. split; [|exact J]. cbn [fst]. rewrite skip_root. apply drop_one. apply (D d f). exists fs. auto.
Qed.

Lemma add_file_In x f l : In x (add_file f l) <-> x = f \/ In x l.
Proof.
  induction l as [|y l IH]; [cbn; intuition|]. cbn [add_file]. destruct (str_eqb y f) eqn:E.
  - apply str_eqb_eq in E. subst y. cbn. intuition.
  - cbn [In]. rewrite IH. intuition.
Qed.
Lemma save_entry a b t d f : entry (save (a, b) t) d f <-> entry t d f \/ (d = a /\ f = b).
Proof.
  unfold entry, save. cbn [fst snd t_folders]. induction (t_folders t) as [|(k & fs) l IH]; cbn [putf getf].
  - split; [intros (gs & [[= <- <-]|[]] & [<-|[]]); auto|]. intros [(gs & [] & _)|(-> & ->)]. exists [b]. split; now left.
  - destruct (str_eqb k a) eqn:E.
    + apply str_eqb_eq in E. subst k. split.
      * intros (gs & [[= <- <-]|I] & J); [apply add_file_In in J as [->|J]; [auto|left; exists fs; split; [now left|exact J]]|]. left. exists gs. split; [now right|exact J].
      * intros [(gs & [[= <- <-]|I] & J)|(-> & ->)].
        -- exists (add_file b fs). split; [now left|]. apply add_file_In. auto.
        -- exists gs. split; [now right|exact J].
        -- exists (add_file b fs). split; [now left|]. apply add_file_In. auto.
    + split.
      * intros (gs & [[= <- <-]|I] & J); [left; exists fs; split; [now left|exact J]|]. destruct IH as (IH & _). destruct IH as [(hs & H & K)|H]; [exists gs; auto| |auto]. left. exists hs. split; [now right|exact K].
      * intros [(gs & [[= <- <-]|I] & J)|H]; [exists fs; split; [now left|exact J]| |].
        -- destruct IH as (_ & IH). destruct IH as (hs & H & K); [left; exists gs; auto|]. exists hs. split; [now right|exact K].
        -- destruct IH as (_ & IH). destruct IH as (hs & H' & K); [now right|]. exists hs. split; [now right|exact K].
Qed.
Lemma output_entry others uuids d f : entry (output_tree others uuids) d f <-> entry default_tree d f \/ In (d, f) others \/ (d = lit "processes" /\ exists u, In u uuids /\ f = u ++ lit ".xml").
Proof.
  unfold output_tree. induction uuids as [|u us IH]; cbn [fold_right].
  - assert (O : entry (fold_right save default_tree others) d f <-> entry default_tree d f \/ In (d, f) others).
    { induction others as [|[a b] o IH]; cbn [fold_right In]; [tauto|]. rewrite save_entry, IH. assert (Q : (a, b) = (d, f) <-> d = a /\ f = b) by (split; [now intros [= -> ->]|now intros (-> & ->)]). tauto. }
    rewrite O. split; [tauto|]. intros [H|[H|(_ & u & [] & _)]]; tauto.
  - unfold save_process at 1. rewrite save_entry, IH. split.
    + intros [[H|[H|(P & v & I & E)]]|(P & E)]; [tauto|tauto| |]; right; right; (split; [exact P|]); [exists v|exists u]; split; auto; [now right|now left].
    + intros [H|[H|(P & v & [<-|I] & E)]]; [tauto|tauto|tauto|]. left. right. right. eauto.
Qed.
Lemma output_files others uuids : t_files (output_tree others uuids) = t_files default_tree.
Proof. unfold output_tree. induction uuids as [|u us IH]; [|exact IH]. cbn. induction others as [|o os IH]; [reflexivity|exact IH]. Qed.
Definition plainb (n : pystr) : bool := negb (match n with [] => true | _ => false end) && forallb (fun c => negb (N.eqb c (ch "/"))) n.
Lemma plainb_spec n : plainb n = true -> plain n.
Proof.
  unfold plainb. intros H. apply andb_true_iff in H as (A & B). split; [now destruct n|]. intros I. rewrite forallb_forall in B. specialize (B _ I). now rewrite N.eqb_refl in B.
Qed.
Lemma default_ok : tree_ok default_tree.
Proof.
  split.
  - intros f I. apply plainb_spec. revert f I. apply forallb_forall. vm_compute. reflexivity.
  - intros d f (fs & I & J). assert (B : forallb (fun x => plainb (fst x) && forallb plainb (snd x)) (t_folders default_tree) = true) by (vm_compute; reflexivity).
    rewrite forallb_forall in B. specialize (B _ I). cbn [fst snd] in B. apply andb_true_iff in B as (B & C). rewrite forallb_forall in C. split; apply plainb_spec; auto.
Qed.
(** what is written has names, and only processes are written to the folder of processes *)
Definition names_ok (others : list (pystr * pystr)) (uuids : list pystr) : Prop :=
  (forall d f, In (d, f) others -> plain d /\ plain f /\ d <> lit "processes") /\ (forall u, In u uuids -> ~ In (ch "/") u).
Lemma output_ok others uuids : names_ok others uuids -> tree_ok (output_tree others uuids).
Proof.
  intros (O & U). split; [rewrite output_files; apply default_ok|]. intros d f E. apply output_entry in E as [E|[E|(-> & u & I & ->)]].
  - now apply default_ok.
  - destruct (O _ _ E) as (A & B & _). auto.
  - split; [now apply plainb_spec|]. split; [destruct u; discriminate|]. intros J. apply in_app_iff in J as [J|J]; [exact (U u I J)|]. cbn in J. intuition discriminate.
Qed.

Lemma split_slash (a b c d : pystr) : ~ In (ch "/") a -> ~ In (ch "/") c -> a ++ slash ++ b = c ++ slash ++ d -> a = c /\ b = d.
Proof.
  revert c. induction a as [|x a IH]; intros [|y c] A C E; cbn in *.
  - injection E as ->. auto.
  - injection E as <- E. exfalso. apply C. now left.
  - injection E as -> E. exfalso. apply A. now left.
  - injection E as -> E. destruct (IH c) as (-> & ->); auto.
Qed.
Definition slashes (s : pystr) : nat := count_occ N.eq_dec s (ch "/").
Lemma slashes_app a b : slashes (a ++ b) = slashes a + slashes b.
Proof. apply count_occ_app. Qed.
Lemma slashes_none a : slashes a = 0 <-> ~ In (ch "/") a.
Proof. unfold slashes. symmetry. apply count_occ_not_In. Qed.
Lemma one_level m : slashes m <= 1 -> looks_like_process m -> process_of [] m.
Proof.
  intros S ((c & E) & a & b & -> & A). assert (A0 : a = []).
  { destruct A as [A|(a' & ->)]; [exact A|]. rewrite !slashes_app in S. change (slashes (lit "/")) with 1 in S. change (slashes (lit "processes/")) with 1 in S. lia. }
  subst a. cbn [app] in *. exists b. split; [reflexivity|]. rewrite slashes_app in S. change (slashes (lit "processes/")) with 1 in S. split; [apply slashes_none; lia|].
  symmetry in E. apply app_eq_app in E as (l & [(E1 & E2)|(E1 & E2)]); [now exists l|]. destruct (list_eq_dec N.eq_dec l []) as [->|N]; [exists []; cbn in *; congruence|].
  exfalso. destruct (exists_last N) as (l' & x & ->). change (lit "processes/") with (lit "processes" ++ lit "/") in E1. rewrite app_assoc in E1. apply app_inj_tail in E1 as (_ & <-).
  assert (I : In (ch "/") (lit ".xml")) by (rewrite E2; apply in_or_app; left; apply in_or_app; right; now left). cbn in I. intuition discriminate.
Qed.

(** ** C233: a written archive can be read again *)
(** Read as input it gives exactly the processes that were written. *)
Theorem C233_read_again :
  forall root others uuids, names_ok others uuids -> uuids <> [] ->
    exists fs, archive_files (zip_members root (output_tree others uuids)) = Ok (yield_files fs) /\
      forall m, In m fs <-> exists u, In u uuids /\ m = lit "processes/" ++ u ++ lit ".xml".
Proof.
  intros root others uuids N E. pose proof (output_ok _ _ N) as T. set (t := output_tree others uuids) in *.
  assert (P : forall m, In m (zip_members root t) /\ process_of [] m <-> exists u, In u uuids /\ m = lit "processes/" ++ u ++ lit ".xml").
  { intros m. rewrite (members_spec root t m T). split.
    - intros ([I|(d & f & I & ->)] & b & M & S & _).
      + exfalso. destruct T as (F & _). destruct (F _ I) as (_ & X). apply X. rewrite M. cbn. tauto.
      + cbn [app] in M. change (lit "processes/" ++ b) with (lit "processes" ++ slash ++ b) in M. assert (D : ~ In (ch "/") d) by (now destruct T as (_ & T); destruct (T d f I) as ((_ & X) & _)).
        apply split_slash in M as (-> & ->); [|exact D|cbn; intuition discriminate]. apply output_entry in I as [I|[I|(_ & u & I & ->)]].
        * exfalso. destruct I as (fs & I & J). cbn in I. repeat (destruct I as [I|I]; [try discriminate; injection I as <-; destruct J|]). destruct I.
        * exfalso. destruct N as (N & _). now destruct (N _ _ I) as (_ & _ & X).
        * now exists u.
    - intros (u & I & ->). split; [right; exists (lit "processes"), (u ++ lit ".xml"); split; [|reflexivity]; apply output_entry; right; right; eauto|].
      exists (u ++ lit ".xml"). split; [reflexivity|]. split; [|now exists u]. intros J. apply in_app_iff in J as [J|J]; [destruct N as (_ & N); exact (N u I J)|]. cbn in J. intuition discriminate. }
  destruct (C68_archive_processes_delivered_partial [] (zip_members root t)) as (fs & A & F & _).
  - now left.
  - destruct uuids as [|u us]; [congruence|]. exists (lit "processes/" ++ u ++ lit ".xml"). apply P. exists u. split; [now left|reflexivity].
  - intros m I L. apply one_level; [|exact L]. apply (members_spec root t m T) in I as [I|(d & f & I & ->)].
    + destruct T as (T & _). destruct (T _ I) as (_ & X). apply slashes_none in X. lia.
    + destruct T as (_ & T). destruct (T _ _ I) as ((_ & X) & (_ & Y)). apply slashes_none in X, Y. rewrite !slashes_app. change (slashes slash) with 1. lia.
  - exists fs. split; [exact A|]. intros m. now rewrite F, P.
Qed.
Print Assumptions C233_read_again.

(** ** C234: the archive holds the output *)
(** Every file is in it at its place, and nothing else, wherever the temporary folder is. *)
Theorem C234_files_partial :
  forall root t m, tree_ok t -> In m (zip_members root t) <-> In m (t_files t) \/ exists d f, entry t d f /\ m = d ++ lit "/" ++ f.
Proof. exact members_spec. Qed.
Print Assumptions C234_files_partial.
Lemma unpacked_spec root t d : tree_ok t -> plain d -> unpacked_folder (zip_members root t) d = true <-> exists f, entry t d f.
Proof.
  intros T D. unfold unpacked_folder. rewrite existsb_exists. split.
  - intros (m & I & P). apply prefixb_spec in P as (r & ->). rewrite <- app_assoc in I. apply (members_spec root t _ T) in I as [I|(d' & f & I & E)].
    + exfalso. destruct T as (F & _). destruct (F _ I) as (_ & X). apply X. apply in_or_app. right. now left.
    + assert (X : d = d' /\ r = f) by (apply split_slash; [apply D|destruct T as (_ & T); now destruct (T _ _ I) as ((_ & X) & _)|exact E]). destruct X as (-> & ->). eauto.
  - intros (f & I). exists (d ++ slash ++ f). split; [apply members_spec; eauto|]. apply prefixb_spec. exists f. now rewrite app_assoc.
Qed.
(** A folder without files is not there when the archive is unpacked. *)
Theorem C234_empty_refuted :
  forall root t d, tree_ok t -> plain d -> (forall fs, In (d, fs) (t_folders t) -> fs = []) -> unpacked_folder (zip_members root t) d = false.
Proof.
  intros root t d T D E. apply not_true_is_false. intros H. apply (unpacked_spec root t d T D) in H as (f & fs & I & J). rewrite (E _ I) in J. destruct J.
Qed.
Print Assumptions C234_empty_refuted.
(** The folders of sources, contacts and documents are in every output: they hold the default files.  An output can thus be converted to ILCD again (C221). *)
Theorem C234_defaults_partial :
  forall root others uuids, names_ok others uuids -> forall d, In d [lit "sources"; lit "contacts"; lit "external_docs"] -> unpacked_folder (zip_members root (output_tree others uuids)) d = true.
Proof.
  intros root others uuids N d I. apply unpacked_spec; [now apply output_ok| |].
  - apply plainb_spec. revert d I. apply forallb_forall. vm_compute. reflexivity.
  - assert (E : exists f, entry default_tree d f). { unfold entry. destruct I as [<-|[<-|[<-|[]]]]; eexists; eexists; (split; [cbn; eauto 10|left; reflexivity]). }
    destruct E as (f & E). exists f. apply output_entry. now left.
Qed.
Print Assumptions C234_defaults_partial.

Definition small : tree := output_tree [(lit "flows", lit "f.xml")] [lit "a"; lit "b"].
Example C233_nonvacuous : archive_files (zip_members (lit "/tmp/x") small) = Ok [(lit "processes/b.xml", false); (lit "processes/a.xml", true)].
Proof. vm_compute. reflexivity. Qed.
Example C234_nonvacuous :
  map (unpacked_folder (zip_members (lit "/tmp/x") small)) [lit "processes"; lit "sources"; lit "contacts"; lit "flows"; lit "unitgroups"; lit "flowproperties"] = [true; true; true; true; false; false] /\
  In (lit "flows/f.xml") (zip_members (lit "/tmp/x") small).
Proof. split; vm_compute; [reflexivity|intuition]. Qed.
