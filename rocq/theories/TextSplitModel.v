(** Model of src/Lavoisier/data_structures/utils.py (whole file, lines 11-87):
    splitting of over-long texts. *)
From Coq Require Import Ascii String List Bool Arith NArith Lia.
From Verif Require Import PyBase Regex.
Import ListNotations.

(** utils.py:13-18, the pattern fragments. [alphabets] etc. are written as functions of the group
    number, because in the source the number results from textual concatenation. *)
Definition r_alpha := RChr is_alpha.
Definition r_upper := RChr is_upper.
Definition r_dot := RChr (N.eqb 46).
Definition r_blank := RChr is_space.          (* \s : str patterns use Unicode white space *)
Definition r_sp := rlit (lit " ").
Fixpoint rseqs (l : list re) : re :=
  match l with [] => REps | [a] => a | a :: l' => RSeq a (rseqs l') end.
Definition r_words (l : list string) : re := ralts (map (fun s => rlit (lit s)) l).

Definition alphabets n := RGrp n r_alpha.                                      (* :13 *)
Definition prefixes := RSeq (RGrp 1 (r_words (["Mr"; "St"; "Mrs"; "Ms"; "Dr"]%string))) r_dot. (* :14 *)
Definition suffixes n := RGrp n (r_words (["Inc"; "Ltd"; "Jr"; "Sr"; "Co"]%string)).    (* :15 *)
Definition starters n :=                                                        (* :16 *)
  RGrp n (ralts (map (fun s => rlit (lit s)) (["Mr"; "Mrs"; "Ms"; "Dr"]%string) ++
                 map (fun s => RSeq (rlit (lit s)) r_blank)
                     (["He"; "She"; "It"; "They"; "Their"; "Our"; "We"; "But"; "However"; "That"; "This"]%string)
                 ++ [rlit (lit "Wherever")])).
Definition acronyms n :=                                                        (* :17 *)
  RGrp n (rseqs [r_upper; r_dot; r_upper; r_dot; ropt (RSeq r_upper r_dot)]).
Definition websites := RSeq r_dot (RGrp 1 (r_words (["com"; "net"; "org"; "io"; "gov"]%string))). (* :18 *)

Definition prd := lit "<prd>".
Definition stop := lit "<stop>".
Definition rdquo : N := 8221.   (* U+201D, the typographic closing quote of utils.py:37 *)
Definition dquo : N := 34.

Definition when (b : bool) (f : pystr -> pystr) (s : pystr) : pystr := if b then f s else s.

(** utils.py:25-46, from the raw text to the pieces between "<stop>" marks *)
Definition mark_sentences (text : pystr) : pystr :=
  let t := lit " " ++ text ++ lit "  " in                                       (* :25 *)
  let t := replace [10%N] (lit " ") t in                                        (* :26 *)
  let t := re_sub prefixes [TGrp 1; TLit prd] t in                              (* :27 *)
  let t := re_sub websites [TLit prd; TGrp 1] t in                              (* :28 *)
  let t := when (infixb (lit "Ph.D") t)
             (replace (lit "Ph.D.") (lit "Ph<prd>D<prd>")) t in                 (* :29 *)
  let t := re_sub (rseqs [r_blank; alphabets 1; r_dot; r_sp])
             [TLit (lit " "); TGrp 1; TLit (lit "<prd> ")] t in                 (* :30 *)
  let t := re_sub (rseqs [acronyms 1; r_sp; starters 2])
             [TGrp 1; TLit (lit "<stop> "); TGrp 2] t in                        (* :31 *)
  let t := re_sub (rseqs [alphabets 1; r_dot; alphabets 2; r_dot; alphabets 3; r_dot])
             [TGrp 1; TLit prd; TGrp 2; TLit prd; TGrp 3; TLit prd] t in        (* :32 *)
  let t := re_sub (rseqs [alphabets 1; r_dot; alphabets 2; r_dot])
             [TGrp 1; TLit prd; TGrp 2; TLit prd] t in                          (* :33 *)
  let t := re_sub (rseqs [r_sp; suffixes 1; r_dot; r_sp; starters 2])
             [TLit (lit " "); TGrp 1; TLit (lit "<stop> "); TGrp 2] t in        (* :34 *)
  let t := re_sub (rseqs [r_sp; suffixes 1; r_dot])
             [TLit (lit " "); TGrp 1; TLit prd] t in                            (* :35 *)
  let t := re_sub (rseqs [r_sp; alphabets 1; r_dot])
             [TLit (lit " "); TGrp 1; TLit prd] t in                            (* :36 *)
  let t := when (infixb [rdquo] t) (replace [46; rdquo]%N [rdquo; 46]%N) t in   (* :37 *)
  let t := when (infixb [dquo] t) (replace [46; dquo]%N [dquo; 46]%N) t in      (* :38 *)
  let t := when (infixb [33%N] t) (replace [33; dquo]%N [dquo; 33]%N) t in      (* :39 *)
  let t := when (infixb [63%N] t) (replace [63; dquo]%N [dquo; 63]%N) t in      (* :40 *)
  let t := replace (lit ";") (lit ";<stop>") t in                               (* :41 *)
  let t := replace (lit ".") (lit ".<stop>") t in                               (* :42 *)
  let t := replace (lit "?") (lit "?<stop>") t in                               (* :43 *)
  let t := replace (lit "!") (lit "!<stop>") t in                               (* :44 *)
  replace prd (lit ".") t.                                                      (* :45 *)

(** utils.py:20-50 *)
Definition split_into_sentences (text : pystr) : list pystr :=
  let sentences := split stop (mark_sentences text) in                          (* :46 *)
  let sentences := if str_eqb (last sentences []) (lit "  ")
                   then removelast sentences else sentences in                  (* :47 *)
  map strip sentences.                                                          (* :48 *)

(** utils.py:53-65, [optimize]; [f] is the pending text. *)
Fixpoint optimize (limit : nat) (s f : pystr) (n : list pystr) : list pystr :=
  match n with
  | [] => [strip f]                                                             (* :65 *)
  | x :: n' =>
      if str_eqb f [] then optimize limit s x n'                                (* :56-57 *)
      else if limit <? length (f ++ lit "; " ++ x)
           then strip f :: optimize limit s x n'                                (* :58-60 *)
           else if isspace x then optimize limit s f n'                         (* :62 *)
           else if suffixb (lit ".") (strip f) || suffixb (lit ";") (strip f)
                then optimize limit s (f ++ lit " " ++ x) n'                    (* :63 *)
                else optimize limit s (f ++ s ++ x) n'                          (* :64 *)
  end.

(** range(0, len, step) for step > 0 *)
Definition py_range (len step : nat) : list nat :=
  map (fun j => j * step) (seq 0 ((len + step - 1) / step)).

(** utils.py:75-84, one turn of the loop over slices of an over-long sentence.
    State: produced pieces (reversed), carried word [b], separator [s]. *)
Definition slice_step (limit : nat) (x : pystr) (st : list pystr * pystr * pystr) (i : nat)
  : list pystr * pystr * pystr :=
  let '(m, b, s) := st in
  let sl := slice i (i + (limit - 50)) x in
  let '(m, c) := if limit <? length (sl ++ b)
                 then (b :: m, split (lit " ") sl)                              (* :75-77 *)
                 else (m, split (lit " ") (b ++ sl)) in                         (* :79 *)
  match removelast c with
  | [] => (sl :: m, [], [])                                                     (* :83 : a,b,s = slice,'','' *)
  | a => (join (lit " ") a :: m, last c [], s)                                  (* :81,84 *)
  end.

(** utils.py:70-86, the sentence loop. *)
Definition sentence_step (limit : nat) (st : result (list pystr * pystr)) (x : pystr)
  : result (list pystr * pystr) :=
  bind st (fun '(m, s) =>
    if limit <? length x then
      if limit =? 50 then Err ValueError          (* range() step 0 *)
      else if limit <? 50 then Ok (m, lit " ")    (* negative step: empty range *)
      else let '(m', _, s') := fold_left (slice_step limit x)
                                 (py_range (length x) (limit - 50)) (m, [], lit " ") in
           Ok (m', s')
    else Ok (x :: m, s)).

(** utils.py:66-87 as a function of the sentences *)
Definition sentences_to_list (n : list pystr) (limit : nat) : result (list pystr) :=
  match n with
  | [] => Err ValueError                                                        (* max([]) *)
  | _ =>
    if fold_right Nat.max 0 (map (@length N) n) <? limit
    then Ok (optimize limit (lit "; ") [] n)                                    (* :67-68 *)
    else bind (fold_left (sentence_step limit) n (Ok ([], lit "; ")))
              (fun '(m, s) => Ok (optimize limit s [] (rev m)))                 (* :70-87 *)
  end.

(** utils.py:52-87 *)
Definition text_to_list (text : pystr) (limit : nat) : result (list pystr) :=
  sentences_to_list (split_into_sentences text) limit.
