(** Python values that can reach the validators, and the built-ins [int], [float], [==] on them.
    Library model (Python built-ins), not part of /repo. *)
From Coq Require Import Ascii String List Bool Arith NArith ZArith QArith Lia.
From Verif Require Import PyBase.
Import ListNotations.

(** IEEE floats: a finite float is represented by its exact rational value (rounding of
    decimal literals to the nearest double is not modelled). *)
Inductive pyfloat := Fin (q : Q) | PInf | NInf | NaN.

Inductive pyval :=
| VNone
| VBool (b : bool)
| VInt (z : Z)
| VFloat (f : pyfloat)
| VStr (s : pystr)
| VList (l : list pyval)
| VTuple (l : list pyval)
| VDict (d : list (pystr * pyval))
| VObj.                               (* any other object *)

(** First code points of the runs of ten decimal digits of Unicode (category Nd, Unicode 14). *)
Definition dec_starts : list N :=
  [48; 1632; 1776; 1984; 2406; 2534; 2662; 2790; 2918; 3046; 3174; 3302; 3430; 3558; 3664; 3792; 3872;
   4160; 4240; 6112; 6160; 6470; 6608; 6784; 6800; 6992; 7088; 7232; 7248; 42528; 43216; 43264; 43472;
   43504; 43600; 44016; 65296; 66720; 68912; 69734; 69872; 69942; 70096; 70384; 70736; 70864; 71248;
   71360; 71472; 71904; 72016; 72784; 73040; 73120; 92768; 92864; 93008; 120782; 120792; 120802; 120812;
   120822; 123200; 123632; 125264; 130032]%N.
Definition digit_val (c : N) : option N :=
  match find (fun s => (s <=? c)%N && (c <? s + 10)%N) dec_starts with
  | Some s => Some (c - s)%N
  | None => None
  end.
(** [\d] of [re] on [str] patterns. *)
Definition is_udigit (c : N) : bool := match digit_val c with Some _ => true | None => false end.

(** Digits with single underscores between digits, as accepted by [int]. *)
Fixpoint pdig (acc : N) (prev : bool) (s : pystr) : option N :=
  match s with
  | [] => if prev then Some acc else None
  | c :: s' =>
      match digit_val c with
      | Some d => pdig (10 * acc + d)%N true s'
      | None => if ((c =? 95)%N && prev)%bool then pdig acc false s' else None
      end
  end.

(** [int(s)] for a string. *)
Definition int_of_str (s : pystr) : option Z :=
  match strip s with
  | 45%N :: t => option_map (fun n => (- Z.of_N n)%Z) (pdig 0 false t)
  | 43%N :: t => option_map Z.of_N (pdig 0 false t)
  | t => option_map Z.of_N (pdig 0 false t)
  end.

(** Truncation toward zero. *)
Definition qtrunc (q : Q) : Z := (Z.quot (Qnum q) (Zpos (Qden q)))%Z.

(** [int(v)]; [None] = some exception. *)
Definition py_int (v : pyval) : option Z :=
  match v with
  | VBool b => Some (if b then 1 else 0)%Z
  | VInt z => Some z
  | VFloat (Fin q) => Some (qtrunc q)
  | VStr s => int_of_str s
  | _ => None
  end.

(** Run of digits (with single underscores between digits): value, number of digits, rest. *)
Fixpoint digrun (acc : N) (cnt : nat) (s : pystr) : N * nat * pystr :=
  match s with
  | [] => (acc, cnt, [])
  | c :: s' =>
      match digit_val c with
      | Some d => digrun (10 * acc + d)%N (S cnt) s'
      | None =>
          if ((c =? 95)%N && negb (cnt =? 0)%nat)%bool
          then match s' with
               | c' :: s'' => match digit_val c' with
                              | Some d => digrun (10 * acc + d)%N (S cnt) s''
                              | None => (acc, cnt, s)
                              end
               | [] => (acc, cnt, s)
               end
          else (acc, cnt, s)
      end
  end.

Definition lower_ascii (c : N) : N := if ((65 <=? c) && (c <=? 90))%N then (c + 32)%N else c.

Definition q10 (e : Z) : Q := Qpower (10 # 1) e.

Definition take_sign (s : pystr) : bool * pystr :=
  match s with
  | 45%N :: t => (true, t)
  | 43%N :: t => (false, t)
  | _ => (false, s)
  end.

(** unsigned decimal: digits [. digits] [e [sign] digits] *)
Definition ufloat (s : pystr) : option Q :=
  let '(ip, ni, r) := digrun 0 0 s in
  let '(fp, nf, r) := match r with 46%N :: r' => digrun 0 0 r' | _ => (0%N, 0%nat, r) end in
  if ((ni + nf)%nat =? 0)%nat then None else
  let mant := (inject_Z (Z.of_N ip) + inject_Z (Z.of_N fp) * q10 (- Z.of_nat nf))%Q in
  match r with
  | [] => Some mant
  | c :: r' =>
      if ((c =? 101) || (c =? 69))%N then
        let '(neg, r'') := take_sign r' in
        let '(e, ne, rest) := digrun 0 0 r'' in
        match ne, rest with
        | S _, [] => Some (mant * q10 (if neg then - Z.of_N e else Z.of_N e))%Q
        | _, _ => None
        end
      else None
  end.

(** [float(s)] for a string. *)
Definition float_of_str (s : pystr) : option pyfloat :=
  let '(neg, t) := take_sign (strip s) in
  let low := map lower_ascii t in
  if str_in low [lit "inf"; lit "infinity"] then Some (if neg then NInf else PInf)
  else if str_eqb low (lit "nan") then Some NaN
  else match ufloat t with
       | Some q => Some (Fin (if neg then - q else q))
       | None => None
       end.

(** [float(v)]; [None] = some exception. *)
Definition py_float (v : pyval) : option pyfloat :=
  match v with
  | VBool b => Some (Fin (if b then 1 else 0))
  | VInt z => Some (Fin (inject_Z z))
  | VFloat f => Some f
  | VStr s => float_of_str s
  | _ => None
  end.

(** Float comparisons [f > q], [f < q] with a finite constant: false on NaN. *)
Definition fgt (f : pyfloat) (q : Q) : bool :=
  match f with Fin p => negb (Qle_bool p q) | PInf => true | NInf => false | NaN => false end.
Definition flt (f : pyfloat) (q : Q) : bool :=
  match f with Fin p => negb (Qle_bool q p) | PInf => false | NInf => true | NaN => false end.

(** [v == n] for an integer constant [n]. *)
Definition eq_int (v : pyval) (n : Z) : bool :=
  match v with
  | VBool b => Z.eqb (if b then 1 else 0) n
  | VInt z => Z.eqb z n
  | VFloat (Fin q) => Qeq_bool q (inject_Z n)
  | _ => false
  end.
Definition eq_str (v : pyval) (s : pystr) : bool :=
  match v with VStr t => str_eqb t s | _ => false end.
