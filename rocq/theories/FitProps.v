(** C235-C236: lengths of file names, and missing data in them (OutputModel.v, LogModel.v). *)
From Coq Require Import Ascii String List Bool Arith NArith ZArith Lia.
From Verif Require Import PyBase PyBaseFacts PyValues MultiLangModel DotDictModel OutputModel OutputSpec OutputProofs OutputProps LogModel.
Import ListNotations.

(** The file systems in use limit names to 255 bytes; a character needs at least one, those of ASCII one. *)
Definition fits (bytes : N -> nat) (name : pystr) : Prop := list_sum (map bytes name) <= 255.
Definition encoding (bytes : N -> nat) : Prop := forall c, 1 <= bytes c /\ ((c < 128)%N -> bytes c = 1).
Definition ascii (s : pystr) : Prop := forall c, In c s -> (c < 128)%N.
Fixpoint slash_count (s : pystr) : nat := match s with [] => 0 | c :: s' => (if N.eqb c (ch "/") then 1 else 0) + slash_count s' end.

Lemma sum_app (bytes : N -> nat) a b : list_sum (map bytes (a ++ b)) = list_sum (map bytes a) + list_sum (map bytes b).
Proof. rewrite map_app. apply list_sum_app. Qed.
Lemma sum_low bytes s : encoding bytes -> List.length s <= list_sum (map bytes s).
Proof. intros E. induction s as [|c s IH]; [reflexivity|]. cbn [map list_sum fold_right List.length]. change (fold_right Nat.add 0 (map bytes s)) with (list_sum (map bytes s)). destruct (E c). lia. Qed.
Lemma sum_ascii bytes s : encoding bytes -> ascii s -> list_sum (map bytes s) = List.length s.
Proof.
  intros E. induction s as [|c s IH]; intros A; [reflexivity|]. cbn [map list_sum fold_right List.length]. change (fold_right Nat.add 0 (map bytes s)) with (list_sum (map bytes s)).
  rewrite IH by (intros x I; apply A; now right). destruct (E c) as (_ & F). rewrite F by (apply A; now left). lia.
Qed.
Lemma joined_by w s : forall acc, join w (split_aux (lit "/") 0 acc s) = rev acc ++ flat_map (fun c => if N.eqb c (ch "/") then w else [c]) s.
Proof.
  induction s as [|c s IH]; intros acc.
  - cbn [split_aux join flat_map]. now rewrite app_nil_r.
  - change (lit "/") with [ch "/"] in *. cbn [split_aux prefixb]. rewrite andb_true_r, (N.eqb_sym (ch "/") c). cbn [flat_map]. destruct (N.eqb c (ch "/")) eqn:E.
    + cbn [List.length Nat.sub]. rewrite join_cons by apply split_aux_nonnil. rewrite IH. reflexivity.
    + rewrite IH. cbn [rev]. rewrite <- app_assoc. reflexivity.
Qed.
Lemma replaced_length w s : List.length w = 5 -> List.length (replace (lit "/") w s) = List.length s + 4 * slash_count s.
Proof.
  intros W. unfold replace, split. rewrite joined_by. cbn [rev app]. induction s as [|c s IH]; [reflexivity|]. cbn [flat_map slash_count List.length]. rewrite app_length, IH. destruct (N.eqb c (ch "/")); [rewrite W|cbn]; lia.
Qed.
Lemma replaced_ascii w s : ascii w -> ascii s -> ascii (replace (lit "/") w s).
Proof.
  intros W S x I. unfold replace, split in I. rewrite joined_by in I. cbn [rev app] in I. apply in_flat_map in I as (c & C & I). destruct (N.eqb c (ch "/")); [now apply W|]. destruct I as [<-|[]]. now apply S.
Qed.
Lemma lit_ascii s : forallb (fun c => (c <? 128)%N) (lit s) = true -> ascii (lit s).
Proof. intros F c I. rewrite forallb_forall in F. now apply N.ltb_lt, F. Qed.

(** ** C235: every process name gives a file name that the file system takes *)
(** For names in ASCII exactly those up to a length, where a slash counts five times; *)
Theorem C235_log_partial :
  forall bytes n, encoding bytes -> ascii n -> fits bytes (log_file n) <-> List.length n + 4 * slash_count n <= 251.
Proof.
  intros bytes n E A. unfold fits, log_file. rewrite sum_ascii; [|exact E|].
  - rewrite app_length, replaced_length by reflexivity. change (List.length (lit ".log")) with 4. lia.
  - intros c I. apply in_app_iff in I as [I|I]; [revert c I; apply replaced_ascii; [now apply lit_ascii|exact A]|]. revert c I. now apply lit_ascii.
Qed.
Print Assumptions C235_log_partial.
(** the same for the data sets and archives written: [x] is the name of the data set with place, years and hash. *)
Theorem C235_output_partial :
  forall bytes x ext, encoding bytes -> ascii x -> In ext [lit ".spold"; lit ".zip"] ->
    fits bytes (spelled x ++ ext) <-> List.length x + 4 * slash_count x + List.length ext <= 255.
Proof.
  intros bytes x ext E A X. rewrite <- spelled_replace. unfold fits. rewrite sum_ascii; [|exact E|].
  - rewrite app_length, replaced_length by reflexivity. lia.
  - intros c I. apply in_app_iff in I as [I|I]; [revert c I; apply replaced_ascii; [now apply lit_ascii|exact A]|]. destruct X as [<-|[<-|[]]]; revert c I; now apply lit_ascii.
Qed.
Print Assumptions C235_output_partial.
(** A base name of ILCD may have 500 characters: with more than 251 the log of the conversion to EcoSpold2 cannot be opened, whatever the encoding, *)
Theorem C235_log_refuted : forall bytes n, encoding bytes -> 251 < List.length n -> ~ fits bytes (log_file n).
Proof.
  intros bytes n E L F. unfold fits in F. pose proof (sum_low bytes (log_file n) E) as S. unfold log_file in S. rewrite app_length, replaced_length in S by reflexivity.
  change (List.length (lit ".log")) with 4 in S. fold (log_file n) in S. lia.
Qed.
Print Assumptions C235_log_refuted.
(** and the archive of a conversion to ILCD cannot be written. *)
Theorem C235_archive_refuted :
  forall bytes fmt b l y v hash r n, encoding bytes -> (forall s, fmt (VStr s) = s) -> getf ktext b = Some (VStr n) -> 251 < List.length n ->
    ilcd_filename fmt (VDict b) l y v hash = Ok r -> ~ fits bytes (r ++ lit ".zip").
Proof.
  intros bytes fmt b l y v hash r n E F K L H X. unfold ilcd_filename in H. cbn [text_of] in H. rewrite K in H. cbn [bind] in H. injection H as <-. rewrite F in X. unfold fits in X.
  pose proof (Nat.le_trans _ _ _ (sum_low bytes _ E) X) as S. rewrite app_length, replaced_length, app_length in S by reflexivity. change (List.length (lit ".zip")) with 4 in S. lia.
Qed.
Print Assumptions C235_archive_refuted.

(** ** C236: file names hold data of the data set only *)
(** With all data given the name is made of them (C27); a year or a place that is missing is written as None. *)
Theorem C236_given_partial :
  forall fmt b n loc y v hash, (forall s, fmt (VStr s) = s) -> getf ktext b = Some (VStr n) ->
    ilcd_filename fmt (VDict b) (VStr loc) (VStr y) (VStr v) hash = Ok (spelled (n ++ lit ", " ++ loc ++ lit ", " ++ y ++ lit " - " ++ v ++ hash)).
Proof. intros fmt b n loc y v hash F K. unfold ilcd_filename. cbn [text_of]. rewrite K. cbn [bind]. now rewrite !F, spelled_replace. Qed.
Print Assumptions C236_given_partial.
Theorem C236_missing_refuted :
  forall fmt b n hash, (forall s, fmt (VStr s) = s) -> fmt VNone = lit "None" -> getf ktext b = Some (VStr n) ->
    ilcd_filename fmt (VDict b) VNone VNone VNone hash = Ok (spelled (n ++ lit ", None, None - None" ++ hash)).
Proof.
  intros fmt b n hash F No K. unfold ilcd_filename. cbn [text_of]. rewrite K. cbn [bind]. rewrite !F, !No, spelled_replace. reflexivity.
Qed.
Print Assumptions C236_missing_refuted.
(** To EcoSpold2 a missing place or year stops the conversion instead. *)
Theorem C236_stopped_refuted :
  forall fmt a g s e hash, (g = VNone \/ s = VNone \/ e = VNone) -> forall r, ecs2_filename fmt a g s e hash <> Ok r.
Proof.
  intros fmt a g s e hash N r H. unfold ecs2_filename in H. destruct (text_of a); [|discriminate]. cbn [bind] in H. destruct N as [-> | [-> | -> ] ]; cbn [first_of bind year_of] in H; try discriminate.
  - destruct (bind (first_of g) text_of); [|discriminate]. discriminate.
  - destruct (bind (first_of g) text_of); [|discriminate]. cbn [bind] in H. destruct (year_of s); discriminate.
Qed.
Print Assumptions C236_stopped_refuted.

Definition utf8 (c : N) : nat := if (c <? 128)%N then 1 else if (c <? 2048)%N then 2 else if (c <? 65536)%N then 3 else 4.
Example C235_nonvacuous : encoding utf8 /\ fits utf8 (log_file (lit "heat/steam")) /\ ~ fits utf8 (log_file (repeat 97%N 252)).
Proof.
  split; [|split].
  - intros c. unfold utf8. destruct (c <? 128)%N eqn:A; [split; [lia|reflexivity]|]. apply N.ltb_ge in A. split; [|intros B; lia]. destruct (c <? 2048)%N, (c <? 65536)%N; lia.
  - unfold fits. apply Nat.leb_le. vm_compute. reflexivity.
  - apply C235_log_refuted; [|rewrite repeat_length; lia]. intros c. unfold utf8. destruct (c <? 128)%N eqn:A; [split; [lia|reflexivity]|]. apply N.ltb_ge in A. split; [|intros B; lia]. destruct (c <? 2048)%N, (c <? 65536)%N; lia.
Qed.
Example C236_nonvacuous :
  ilcd_filename (fun v => match v with VStr s => s | _ => lit "None" end) (VDict [(ktext, VStr (lit "heat"))]) VNone (VStr (lit "2010")) VNone [] = Ok (lit "heat, None, 2010 - None").
Proof. vm_compute. reflexivity. Qed.
