(** conversions/utils.py: identifier conversion and list normalisation. *)
From Coq Require Import Ascii String List Bool Arith NArith ZArith QArith.
From Verif Require Import PyBase PyValues MultiLangModel.
Import ListNotations.
Local Close Scope Q_scope.

(** * utils.py 19-35 [uuid_from_uuid] *)

(** [binascii.unhexlify] / [hexlify] on text *)
Definition hex_value (c : N) : option N :=
  if (N.leb 48 c && N.leb c 57)%bool then Some (c - 48)%N
  else if (N.leb 97 c && N.leb c 102)%bool then Some (c - 87)%N
  else if (N.leb 65 c && N.leb c 70)%bool then Some (c - 55)%N
  else None.
Fixpoint unhexlify (s : pystr) : result (list N) :=
  match s with
  | [] => Ok []
  | [_] => Err ValueError
  | a :: b :: s' =>
      match hex_value a, hex_value b with
      | Some x, Some y => bind (unhexlify s') (fun r => Ok ((16 * x + y)%N :: r))
      | _, _ => Err ValueError
      end
  end.
Definition hex_digit (n : N) : N := if N.ltb n 10 then (48 + n)%N else (87 + n)%N.
Fixpoint hexlify (l : list N) : pystr :=
  match l with [] => [] | b :: l' => hex_digit (b / 16) :: hex_digit (b mod 16) :: hexlify l' end.

Section Cipher.
  (** The first byte of the AES encryption of a 16-byte register under a key: external code
      (pycryptodome), a parameter of the model. *)
  Context (aes : list N -> list N -> N).
  (** AES.MODE_CFB of pycryptodome with its default segment size of 8 bits *)
  Fixpoint cfb_encrypt (key reg : list N) (d : list N) : list N :=
    match d with
    | [] => []
    | p :: d' => let c := N.lxor p (aes key reg) in c :: cfb_encrypt key (tl reg ++ [c]) d'
    end.
  Fixpoint cfb_decrypt (key reg : list N) (d : list N) : list N :=
    match d with
    | [] => []
    | c :: d' => N.lxor c (aes key reg) :: cfb_decrypt key (tl reg ++ [c]) d'
    end.

  Definition flow_conversion_1 : pystr := lit "flow_conversion_1".
  Definition flow_conversion_2 : pystr := lit "flow_conversion_2".
  Definition nth_char (i : nat) (s : pystr) : result N :=
    match nth_error s i with Some c => Ok c | None => Err IndexError end.

  (** An unknown [type_] leaves [new_u] unbound. *)
  Definition uuid_from_uuid (u : pystr) (key : list N) (type_ : pystr) : result pystr :=
    let iv := rev key in
    let u1 := replace (lit "-") [] u in
    bind (nth_char 12 u1) (fun u12 =>
    bind (nth_char 16 u1) (fun u16 =>
    let u2 := firstn 12 u1 ++ skipn 13 u1 in
    let u3 := firstn 15 u2 ++ skipn 16 u2 in
    bind (unhexlify u3) (fun d =>
    bind (if str_eqb type_ flow_conversion_1 then Ok (hexlify (cfb_encrypt key iv d))
          else if str_eqb type_ flow_conversion_2 then Ok (hexlify (cfb_decrypt key iv d))
          else Err UnboundLocalError) (fun n =>
    Ok (slice 0 8 n ++ lit "-" ++ slice 8 12 n ++ lit "-" ++ [u12] ++ slice 12 15 n ++ lit "-" ++
        [u16] ++ slice 15 18 n ++ lit "-" ++ slice 18 30 n))))).
End Cipher.

(** The key of both directions, b'\__Lav_IL1EC2__/' (ECS2_to_ILCD1_conversion.py 1810,
    ILCD1_to_ECS2_conversion.py 1241) *)
Definition lavoisier_key : list N := lit "\__Lav_IL1EC2__/".

(** * utils.py 49-65 [ensure_list] *)
Definition truth (v : pyval) : bool :=
  match v with
  | VNone => false
  | VBool b => b
  | VInt z => negb (Z.eqb z 0)
  | VFloat (Fin q) => negb (Qeq_bool q 0)
  | VFloat _ => true
  | VStr s => negb (str_eqb s [])
  | VList [] | VTuple [] | VDict [] => false
  | VList _ | VTuple _ | VDict _ | VObj => true
  end.
Definition english (n : pyval) : pyval := VDict [(klang, VStr (lit "en")); (ktext, n)].
(** line 61 *)
Definition dict_or_text (n : pyval) : pyval :=
  match n with VDict (_ :: _) => n | _ => english n end.
(** line 63: [n['#text']] raises KeyError when the key is missing *)
Fixpoint keep_texts (l : list pyval) : result (list pyval) :=
  match l with
  | [] => Ok []
  | n :: l' =>
      match lookup ktext (dict_of n) with
      | None => Err KeyError
      | Some t => bind (keep_texts l') (fun r => Ok (if truth t then n :: r else r))
      end
  end.
Definition ensure_list (x : pyval) (ensure_text : bool) : result (list pyval) :=
  match x with
  | VDict [] => Ok []
  | VDict d => if ensure_text
               then Ok (match lookup ktext d with Some t => if truth t then [x] else [] | None => [] end)
               else Ok [x]
  | VStr s => if str_eqb s [] then Ok [] else Ok [english x]
  | VList l | VTuple l =>
      let l' := map dict_or_text l in
      if ensure_text then keep_texts l' else Ok l'
  | _ => Err TypeError
  end.
