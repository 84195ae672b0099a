(** A small model of Python's [re]: backtracking matcher returning all matches in priority order,
    [re.match] = first result at position 0, [re.search], [re.sub], groups.
    Library model (not part of /repo); the patterns themselves are transcribed where they are used. *)
From Coq Require Import Ascii String List Bool Arith NArith Lia.
From Verif Require Import PyBase.
Import ListNotations.

Inductive re :=
| REps
| RChr (p : N -> bool)          (* character class *)
| RSeq (a b : re)
| RAlt (a b : re)               (* ordered choice *)
| RStar (greedy : bool) (a : re)
| RGrp (n : nat) (a : re)       (* capturing group *)
| RNla (a : re).                (* negative look-ahead (?!a) *)

Definition groups := list (nat * pystr).

Section Star.
  Variables (f : pystr -> groups -> list (pystr * groups)) (gr : bool).
  Fixpoint star_loop (n : nat) (s : pystr) (g : groups) : list (pystr * groups) :=
    match n with
    | O => [(s, g)]
    | S n' =>
        let more := flat_map (fun x : pystr * groups => if length (fst x) <? length s
                                       then star_loop n' (fst x) (snd x) else []) (f s g) in
        if gr then more ++ [(s, g)] else (s, g) :: more
    end.
End Star.

Fixpoint mt (r : re) (s : pystr) (g : groups) : list (pystr * groups) :=
  match r with
  | REps => [(s, g)]
  | RChr p => match s with c :: s' => if p c then [(s', g)] else [] | [] => [] end
  | RSeq a b => flat_map (fun x => mt b (fst x) (snd x)) (mt a s g)
  | RAlt a b => mt a s g ++ mt b s g
  | RStar gr a => star_loop (mt a) gr (length s) s g
  | RGrp n a => map (fun x => (fst x, (n, firstn (length s - length (fst x)) s) :: snd x)) (mt a s g)
  | RNla a => match mt a s g with [] => [(s, g)] | _ => [] end
  end.

(** [re.match(r, s)] *)
Definition re_match (r : re) (s : pystr) : option (pystr * groups) :=
  match mt r s [] with x :: _ => Some x | [] => None end.
Definition re_matches (r : re) (s : pystr) : bool :=
  match re_match r s with Some _ => true | None => false end.

(** [re.search(r, s)] is not None *)
Fixpoint re_search (r : re) (s : pystr) : option (pystr * groups) :=
  match re_match r s with
  | Some x => Some x
  | None => match s with [] => None | _ :: s' => re_search r s' end
  end.
Definition re_found (r : re) (s : pystr) : bool :=
  match re_search r s with Some _ => true | None => false end.

Fixpoint group (g : groups) (n : nat) : pystr :=
  match g with
  | [] => []
  | (k, v) :: g' => if k =? n then v else group g' n
  end.

(** Replacement templates *)
Inductive titem := TLit (s : pystr) | TGrp (n : nat).
Definition expand (t : list titem) (g : groups) : pystr :=
  flat_map (fun i => match i with TLit s => s | TGrp n => group g n end) t.

(** [re.sub(r, t, s)] for patterns that never match the empty string. *)
Fixpoint sub_aux (r : re) (t : list titem) (skip : nat) (s : pystr) : pystr :=
  match s with
  | [] => []
  | c :: s' =>
      match skip with
      | S k => sub_aux r t k s'
      | O => match re_match r s with
             | Some (rest, g) =>
                 let n := length s - length rest in
                 if n =? 0 then c :: sub_aux r t O s'
                 else expand t g ++ sub_aux r t (n - 1) s'
             | None => c :: sub_aux r t O s'
             end
      end
  end.
Definition re_sub (r : re) (t : list titem) (s : pystr) : pystr := sub_aux r t O s.

(** [re.findall] / iteration over non-overlapping matches, groups of each match *)
Fixpoint findall_aux (r : re) (skip : nat) (s : pystr) : list groups :=
  match s with
  | [] => []
  | c :: s' =>
      match skip with
      | S k => findall_aux r k s'
      | O => match re_match r s with
             | Some (rest, g) =>
                 let n := length s - length rest in
                 if n =? 0 then findall_aux r O s' else g :: findall_aux r (n - 1) s'
             | None => findall_aux r O s'
             end
      end
  end.
Definition re_findall (r : re) (s : pystr) : list groups := findall_aux r O s.

(** Derived forms *)
Definition rlit_c (c : N) : re := RChr (N.eqb c).
Fixpoint rlit (s : pystr) : re :=
  match s with [] => REps | [c] => rlit_c c | c :: s' => RSeq (rlit_c c) (rlit s') end.
Fixpoint rpow (n : nat) (a : re) : re :=
  match n with O => REps | S n' => RSeq a (rpow n' a) end.
Definition ropt (a : re) : re := RAlt a REps.
Fixpoint rupto (n : nat) (a : re) : re :=
  match n with O => REps | S n' => RAlt (RSeq a (rupto n' a)) REps end.
(** a{m,n} *)
Definition rrep (m n : nat) (a : re) : re := RSeq (rpow m a) (rupto (n - m) a).
Definition rplus (a : re) : re := RSeq a (RStar true a).
Fixpoint ralts (l : list re) : re :=
  match l with [] => RChr (fun _ => false) | [a] => a | a :: l' => RAlt a (ralts l') end.

Definition between (a b c : N) : bool := ((a <=? c) && (c <=? b))%N.
Definition is_upper c := between 65 90 c.
Definition is_lower c := between 97 122 c.
Definition is_alpha c := is_upper c || is_lower c.
Definition is_digit c := between 48 57 c.
