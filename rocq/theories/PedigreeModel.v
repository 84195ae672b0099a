(** The comparison of pedigree matrix and variance (ECS2_to_ILCD1_conversion.py 78-91, data.py 202-208), which the
    areas on uncertainties leave out.  Sums of floats are exact. *)
From Coq Require Import Ascii String List Bool Arith NArith ZArith QArith Qabs.
From Verif Require Import PyBase PyValues DotDictModel.
Import ListNotations.
Local Open Scope Q_scope.

(** data.py 202-208 *)
Definition pedigree_table : list (pystr * list Q) :=
  [(lit "Reliability", [0; 6 # 10000; 2 # 1000; 8 # 1000; 4 # 100]);
   (lit "Completeness", [0; 1 # 10000; 6 # 10000; 2 # 1000; 8 # 1000]);
   (lit "Temporal correlation", [0; 2 # 10000; 2 # 1000; 8 # 1000; 4 # 100]);
   (lit "Geographical correlation", [0; 25 # 1000000; 1 # 10000; 6 # 10000; 2 # 1000]);
   (lit "Further technological correlation", [0; 6 # 10000; 8 # 1000; 4 # 100; 12 # 100])].

(** [str.capitalize] on letters of ASCII *)
Definition upper_ascii (c : N) : N := if ((97 <=? c) && (c <=? 122))%N then (c - 32)%N else c.
Definition capitalize (s : pystr) : pystr := match s with [] => [] | c :: r => upper_ascii c :: map lower_ascii r end.
(** 86-87: the key of an attribute *)
Definition row_name (k : pystr) : pystr :=
  replace (lit "technology") (lit " technological") (replace (lit "corr") (lit " corr") (capitalize (tl k))).
(** [l[i]]: negative indices count from the end *)
Definition item {A} (l : list A) (i : Z) : option A :=
  if (i <? 0)%Z then (if (i + Z.of_nat (List.length l) <? 0)%Z then None else nth_error l (Z.to_nat (i + Z.of_nat (List.length l))))
  else nth_error l (Z.to_nat i).
(** 85-87, one attribute *)
Definition one_score (kv : pystr * pystr) : result Q :=
  match getf (row_name (fst kv)) pedigree_table with
  | None => Err KeyError
  | Some row =>
      match int_of_str (snd kv) with
      | None => Err ValueError
      | Some z => match item row (z - 1) with Some q => Ok q | None => Err IndexError end
      end
  end.
Fixpoint all_scores (p : Q) (kvs : list (pystr * pystr)) : result Q :=
  match kvs with [] => Ok p | kv :: r => bind (one_score kv) (fun q => all_scores (p + q) r) end.
Definition to_float (s : pystr) : result pyfloat := match float_of_str s with Some f => Ok f | None => Err ValueError end.
(** 88: [abs((a + p) - t) > 0.0001] *)
Definition differs (a : pyfloat) (p : Q) (t : pyfloat) : bool :=
  match a, t with
  | Fin a, Fin t => negb (Qle_bool (Qabs ((a + p) - t)) (1 # 10000))
  | NaN, _ | _, NaN | PInf, PInf | NInf, NInf => false
  | _, _ => true
  end.
(** 78-91: whether the warning is given; [d]: attributes of the distribution, [ped]: those of pedigreeMatrix *)
Definition check (d ped : list (pystr * pystr)) : result bool :=
  match ped with
  | [] => Ok false
  | _ =>
      match getf (lit "@variance") d with
      | None | Some [] => Ok false
      | Some v =>
          bind (all_scores 0 ped) (fun p =>
          bind (to_float v) (fun a =>
          match getf (lit "@varianceWithPedigreeUncertainty") d with
          | None => Err KeyError
          | Some t => bind (to_float t) (fun t => Ok (differs a p t))
          end))
      end
  end.
