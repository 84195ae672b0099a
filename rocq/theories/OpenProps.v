(** C225-C228: which inputs of ILCD are opened (OpenModel.v). *)
From Coq Require Import Ascii String List Bool Arith NArith ZArith Lia.
From Verif Require Import PyBase PyBaseFacts PyValues OutputModel OutputSpec OutputProofs OutputProps OpenModel.
Import ListNotations.

(** ** C225: an accepted input is opened *)
Theorem C225_archive_partial :
  forall n root members, ends_with (lit ".zip") n \/ ends_with (lit ".ZIP") n -> plain_root root -> (exists m, In m members /\ process_of root m) ->
    (forall m, In m members -> looks_like_process m -> process_of root m) ->
    exists fs, ilcd_input (One n (Zipped members)) = Ok (yield_files fs, None) /\ (forall m, In m fs <-> In m members /\ process_of root m).
Proof.
  intros n root members N R E L. destruct (C68_archive_processes_delivered_partial root members R E L) as (fs & A & F & _). exists fs. split; [|exact F].
  unfold ilcd_input, verify_file. replace (existsb (fun ve => suffixb ve n) ilcd_extensions) with true.
  - cbn [bind open_all open_archive]. rewrite A. now rewrite app_nil_r.
  - symmetry. apply existsb_exists. destruct N as [N|N]; [exists (lit ".zip")|exists (lit ".ZIP")]; (split; [cbn; auto|]); now apply suffixb_spec.
Qed.
Print Assumptions C225_archive_partial.
(** A process file is accepted, and cannot be opened. *)
Theorem C225_process_refuted : forall n, ends_with (lit ".xml") n -> ilcd_input (One n Unzipped) = Ok ([], Some OtherError).
Proof.
  intros n N. unfold ilcd_input, verify_file. replace (existsb (fun ve => suffixb ve n) ilcd_extensions) with true; [reflexivity|].
  symmetry. apply existsb_exists. exists (lit ".xml"). split; [cbn; auto|]. now apply suffixb_spec.
Qed.
Print Assumptions C225_process_refuted.
(** A folder without archives, for example an unpacked archive, is accepted; nothing is converted and nothing is said. *)
Theorem C225_unpacked_refuted :
  forall es, (forall n k, In (n, k) es -> ~ ends_with (lit ".zip") n /\ ~ ends_with (lit ".ZIP") n) -> ilcd_input (Many es) = Ok ([], None).
Proof.
  intros es N. unfold ilcd_input. replace (archives_of es) with (@nil (pystr * kind)); [reflexivity|].
  assert (F : forall ve, (forall n k, In (n, k) es -> ~ ends_with ve n) -> filter (fun e => suffixb ve (fst e)) es = []).
  { clear N. intros ve. induction es as [|[n k] es IH]; intros N; [reflexivity|]. cbn [filter fst]. destruct (suffixb ve n) eqn:E.
    - exfalso. apply (N n k (or_introl eq_refl)). now apply suffixb_spec.
    - apply IH. intros m j I. apply (N m j). now right. }
  unfold archives_of. cbn [firstn ilcd_extensions flat_map]. rewrite !F by (intros n k I; destruct (N n k I); assumption). reflexivity.
Qed.
Print Assumptions C225_unpacked_refuted.

(** ** C226: a folder of archives becomes one database *)
(** the number of files after which an output is closed in database mode *)
Definition closings (l : list (pystr * bool)) : nat := List.length (filter snd l).
Lemma closings_app a b : closings (a ++ b) = closings a + closings b.
Proof. unfold closings. rewrite filter_app. apply app_length. Qed.
Lemma closings_yield (fs : list pystr) : fs <> [] -> closings (yield_files fs) = 1.
Proof.
  intros N. destruct (exists_last N) as (a & b & ->). destruct (C28_each_file_once_last_marked pystr a b) as (_ & ->). rewrite closings_app.
  replace (closings (map (fun f => (f, false)) a)) with 0; [reflexivity|]. unfold closings. induction a as [|x a IH]; [reflexivity|]. cbn. apply IH. destruct a; discriminate.
Qed.
Lemma archive_closings k l : open_archive k = Ok l -> l <> [] -> closings l = 1.
Proof.
  destruct k as [m| |]; try discriminate. cbn [open_archive]. unfold archive_files. destruct (extract m) as [p|e]; [|discriminate]. cbn [bind]. intros [= <-] N.
  assert (E : forall (g : pystr -> pystr) (q : list (pystr * bool)), closings (map (fun fb => (g (fst fb), snd fb)) q) = closings q).
  { intros g q. unfold closings. induction q as [|[f b] q IH]; [reflexivity|]. cbn. destruct b; cbn; now rewrite IH. }
  rewrite E. apply closings_yield. intros Z. rewrite Z in N. now apply N.
Qed.
(** One archive gives one database. *)
Theorem C226_one_partial : forall n k l, ilcd_input (One n k) = Ok (l, None) -> l <> [] -> closings l = 1.
Proof.
  intros n k l H N. unfold ilcd_input in H. destruct (verify_file ilcd_extensions n); [|discriminate]. cbn [bind open_all] in H.
  destruct (open_archive k) as [fs|e] eqn:E; [|discriminate]. injection H as <-. rewrite app_nil_r in *. exact (archive_closings _ _ E N).
Qed.
Print Assumptions C226_one_partial.
(** Several give as many as there are archives. *)
Theorem C226_each_refuted :
  forall es l, ilcd_input (Many es) = Ok (l, None) -> (forall e fs, In e (archives_of es) -> open_archive (snd e) = Ok fs -> fs <> []) -> closings l = List.length (archives_of es).
Proof.
  intros es l H N. unfold ilcd_input in H. injection H as H. revert l H N. induction (archives_of es) as [|[n k] a IH]; intros l H N; cbn [open_all] in H; [now injection H as <-|].
  destruct (open_archive k) as [fs|e] eqn:E; [|discriminate]. destruct (open_all a) as [r e]. injection H as <- ->. rewrite closings_app.
  rewrite (IH r eq_refl) by (intros e0 f0 I; apply (N e0 f0); now right). rewrite (archive_closings _ _ E); [reflexivity|]. exact (N (n, k) fs (or_introl eq_refl) E).
Qed.
Print Assumptions C226_each_refuted.

(** ** C227: a broken archive does not stop the others *)
(** The processes of the archives before it are delivered, *)
Lemma open_all_app a b r : (forall e, In e a -> exists fs, open_archive (snd e) = Ok fs) -> open_all b = r ->
  exists fss, Forall2 (fun e fs => open_archive (snd e) = Ok fs) a fss /\ open_all (a ++ b) = (concat fss ++ fst r, snd r).
Proof.
  intros A <-. induction a as [|[n k] a IH]; [exists []; split; [constructor|]; cbn; now destruct (open_all b)|].
  destruct IH as (fss & F & E); [intros e I; apply A; now right|]. destruct (A (n, k) (or_introl eq_refl)) as (fs & O). cbn [snd] in O. exists (fs :: fss). split; [constructor; assumption|].
  cbn [app open_all]. rewrite O, E. cbn [concat]. now rewrite app_assoc.
Qed.
Theorem C227_before_partial :
  forall es a n k e b, archives_of es = a ++ (n, k) :: b -> open_archive k = Err e -> (forall x, In x a -> exists fs, open_archive (snd x) = Ok fs) ->
    exists fss, Forall2 (fun x fs => open_archive (snd x) = Ok fs) a fss /\ ilcd_input (Many es) = Ok (concat fss, Some e).
Proof.
  intros es a n k e b E O A. destruct (open_all_app a ((n, k) :: b) ([], Some e) A) as (fss & F & H); [cbn; now rewrite O|]. exists fss. split; [exact F|].
  unfold ilcd_input. rewrite E, H. cbn [fst snd]. now rewrite app_nil_r.
Qed.
Print Assumptions C227_before_partial.
(** those after it are not: what is delivered does not depend on them. *)
Theorem C227_after_refuted :
  forall es es' a n k e b b', archives_of es = a ++ (n, k) :: b -> archives_of es' = a ++ (n, k) :: b' -> open_archive k = Err e -> ilcd_input (Many es) = ilcd_input (Many es').
Proof.
  intros es es' a n k e b b' E E' O. unfold ilcd_input. rewrite E, E'. f_equal. clear E E'. induction a as [|[m j] a IH]; cbn [app open_all]; [now rewrite O|].
  destruct (open_archive j); [now rewrite IH|reflexivity].
Qed.
Print Assumptions C227_after_refuted.

(** ** C228: endings in capital letters *)
(** Archives may end with .zip or .ZIP: all such entries are opened, *)
Theorem C228_archives_partial :
  forall es e, In e (archives_of es) <-> In e es /\ (ends_with (lit ".zip") (fst e) \/ ends_with (lit ".ZIP") (fst e)).
Proof.
  intros es e. unfold archives_of. cbn [firstn ilcd_extensions flat_map]. rewrite app_nil_r, in_app_iff, !filter_In. split.
  - intros [(I & S)|(I & S)]; apply suffixb_spec in S; auto.
  - intros (I & [S|S]); [left|right]; (split; [exact I|]); now apply suffixb_spec.
Qed.
Print Assumptions C228_archives_partial.
(** with small and capital letters mixed they are refused, like all other endings; *)
Theorem C228_mixed_refuted :
  forall n k, ~ ends_with (lit ".zip") n -> ~ ends_with (lit ".ZIP") n -> ~ ends_with (lit ".xml") n -> exists e, ilcd_input (One n k) = Err e.
Proof.
  intros n k A B C. unfold ilcd_input, verify_file. replace (existsb (fun ve => suffixb ve n) ilcd_extensions) with false; [eexists; reflexivity|].
  symmetry. apply not_true_is_false. intros E. apply existsb_exists in E as (x & [<-|[<-|[<-|[]]]] & S); apply suffixb_spec in S; auto.
Qed.
Print Assumptions C228_mixed_refuted.
(** and processes have to end with .xml: no other one is ever delivered. *)
Theorem C228_processes_refuted :
  forall k l f b, open_archive k = Ok l -> In (f, b) l -> ends_with (lit ".xml") f.
Proof.
  intros k l f b H I. destruct k as [m| |]; try discriminate. cbn [open_archive] in H. unfold archive_files in H. destruct (extract m) as [p|e]; [|discriminate]. cbn [bind] in H. injection H as <-.
  apply in_map_iff in I as ([g c] & E & I). cbn [fst snd] in E. injection E as <- <-. apply (in_map fst) in I. rewrite yield_fst in I. cbn [fst] in I.
  apply (files_of_extension_In (members_in (process_dir p) m) [lit ".xml"] g) in I as (_ & e & [<-|[]] & (h & ->)).
  exists (process_dir p ++ h). now rewrite app_assoc.
Qed.
Print Assumptions C228_processes_refuted.

Definition two : list (pystr * kind) := [(lit "a.zip", Zipped [lit "processes/x.xml"; lit "processes/y.xml"]); (lit "b.ZIP", Zipped [lit "processes/z.xml"; lit "processes/w.XML"])].
Example C225_nonvacuous :
  ilcd_input (One (lit "a.zip") (Zipped [lit "processes/x.xml"])) = Ok ([(lit "processes/x.xml", true)], None) /\
  ilcd_input (One (lit "p.xml") Unzipped) = Ok ([], Some OtherError) /\ ilcd_input (Many [(lit "processes", Directory); (lit "flows", Directory)]) = Ok ([], None).
Proof. repeat split; vm_compute; reflexivity. Qed.
Example C226_nonvacuous : exists l, ilcd_input (Many two) = Ok (l, None) /\ closings l = 2.
Proof. eexists. split; vm_compute; reflexivity. Qed.
Example C227_nonvacuous :
  ilcd_input (Many ([(lit "0.zip", Zipped [lit "processes/v.xml"]); (lit "1.zip", Unzipped)] ++ two)) = Ok ([(lit "processes/v.xml", true)], Some OtherError).
Proof. vm_compute. reflexivity. Qed.
Example C228_nonvacuous : exists l, ilcd_input (Many two) = Ok (l, None) /\ map fst l = [lit "processes/x.xml"; lit "processes/y.xml"; lit "processes/z.xml"].
Proof. eexists. split; vm_compute; reflexivity. Qed.
