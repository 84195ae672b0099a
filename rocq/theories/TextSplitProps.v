(** Properties C01, C02, C51, C52: splitting of over-long texts
    (src/Lavoisier/data_structures/utils.py). *)
From Coq Require Import Ascii String List Bool Arith NArith.
From Verif Require Import PyBase PyBaseFacts TextSplitModel TextSplitSpec TextSplitProofs SplitterProofs.
Import ListNotations.

(** C01: no piece is longer than the limit. *)
Theorem C01_pieces_within_limit :
  forall text limit pieces,
    text_to_list text limit = Ok pieces ->
    Forall (fun p => length p <= limit) pieces.
Proof. exact text_to_list_within. Qed.
Print Assumptions C01_pieces_within_limit.

Definition sample_long : pystr :=
  lit "aaaa bbbb cccc dddd eeee ffff gggg hhhh iiii jjjj kkkk llll mmmm nnnn oooo pppp".
Definition sample_short : pystr :=
  lit "First sentence here. Dr. Smith wrote a second one; and a third! Was it the last? Yes it was indeed".
Example C01_nonvacuous :
  exists pieces, text_to_list sample_long 60 = Ok pieces /\ 2 <= length pieces.
Proof. eexists; split; [vm_compute; reflexivity | vm_compute; repeat constructor]. Qed.

(** C02, full claim: for every text and limit, every letter of the text is in the pieces, in order.
    It fails as soon as one sentence is longer than the limit. *)
Theorem C02_split_keeps_letters_partial :
  forall text limit pieces,
    ~ In 60%N text ->                                    (* no '<': the splitter's own marks *)
    Forall (fun s => length s <= limit) (split_into_sentences text) ->
    text_to_list text limit = Ok pieces ->
    letters (concat pieces) = letters text.
Proof. exact text_to_list_letters. Qed.
Print Assumptions C02_split_keeps_letters_partial.
Example C02_nonvacuous :
  ~ In 60%N sample_short /\
  Forall (fun s => length s <= 60) (split_into_sentences sample_short) /\
  exists pieces, text_to_list sample_short 60 = Ok pieces /\ length pieces = 2.
Proof.
  split; [apply notin_b; vm_compute; reflexivity|].
  split; [apply (Forall_b (fun s => length s <=? 60)); [intros; now apply Nat.leb_le | vm_compute; reflexivity]|].
  eexists; split; vm_compute; reflexivity.
Qed.

Theorem C02_split_keeps_letters_refuted :
  exists text limit pieces,
    50 < limit /\ ~ In 60%N text /\ text_to_list text limit = Ok pieces /\
    letters (concat pieces) <> letters text.
Proof.
  exists sample_long, 60. eexists. split; [apply Nat.ltb_lt; reflexivity|].
  split; [apply notin_b; vm_compute; reflexivity|].
  split; [vm_compute; reflexivity|]. vm_compute. discriminate.
Qed.
Print Assumptions C02_split_keeps_letters_refuted.

(** Below 50 characters (fields of 20, 30 and 40 characters exist) an over-long sentence is dropped entirely. *)
Theorem C02_short_fields_refuted :
  exists text, letters text <> [] /\ text_to_list text 40 = Ok [[]].
Proof. exists sample_long. split; [vm_compute; discriminate | vm_compute; reflexivity]. Qed.
Print Assumptions C02_short_fields_refuted.

(** The loss is systematic: the last word of every sentence longer than the limit is lost whenever the
    last slice of the sentence contains a space. *)
Theorem C02_last_word_always_lost :
  forall x limit pieces,
    50 < limit -> limit < length x ->
    In 32%N (skipn ((length x - 1) / (limit - 50) * (limit - 50)) x) ->
    visible (last x 32%N) = true ->
    sentences_to_list [x] limit = Ok pieces ->
    length (ink (concat pieces)) < length (ink x).
Proof. exact long_sentence_loses. Qed.
Print Assumptions C02_last_word_always_lost.
Example C02_last_word_nonvacuous :
  60 < length sample_long /\
  In 32%N (skipn ((length sample_long - 1) / (60 - 50) * (60 - 50)) sample_long) /\
  visible (last sample_long 32%N) = true.
Proof. split; [apply Nat.ltb_lt; reflexivity|]. split; vm_compute; auto 20. Qed.

(** C51: splitting never invents, duplicates or reorders letters. *)
Theorem C51_split_invents_nothing :
  forall text limit pieces,
    ~ In 60%N text ->
    text_to_list text limit = Ok pieces ->
    subseq (letters (concat pieces)) (letters text).
Proof. exact text_to_list_subseq. Qed.
Print Assumptions C51_split_invents_nothing.
Example C51_nonvacuous : exists pieces, text_to_list sample_long 60 = Ok pieces /\ letters (concat pieces) <> [].
Proof. eexists; split; [vm_compute; reflexivity | vm_compute; discriminate]. Qed.

(** C52: splitting a text that contains a letter succeeds for every limit but 50, where it can fail. *)
Theorem C52_split_succeeds_partial :
  forall text limit,
    ~ In 60%N text -> letters text <> [] -> limit <> 50 ->
    exists pieces, text_to_list text limit = Ok pieces.
Proof. exact text_to_list_total. Qed.
Print Assumptions C52_split_succeeds_partial.
Example C52_nonvacuous : ~ In 60%N sample_long /\ letters sample_long <> [].
Proof. split; [apply notin_b; vm_compute; reflexivity | vm_compute; discriminate]. Qed.
Theorem C52_split_succeeds_refuted :
  exists text, letters text <> [] /\ text_to_list text 50 = Err ValueError.
Proof. exists sample_long. split; [vm_compute; discriminate | vm_compute; reflexivity]. Qed.
Print Assumptions C52_split_succeeds_refuted.
