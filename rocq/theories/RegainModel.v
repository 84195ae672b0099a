(** ILCD to EcoSpold2 and back to ILCD: the texts that describe a process.
    The two conversions are those of ProseModel ([back]: ILCD1_to_ECS2_conversion.py 1393-1407, 1455-1488, 1544-1633, 1652-1680, 1709-1727, 1757-1825;
    [there]: ECS2_to_ILCD1_conversion.py 1929-1938, 2050-2060, 2156-2158, 2178-2305, 2352-2371), run in the other order (core.py 213-232, one converter after the other).
    The same running numbers are taken on every trip. *)
From Coq Require Import Ascii String List Bool Arith NArith ZArith.
From Verif Require Import PyBase PyValues ValidatorsModel MultiLangSpec MultiLangModel DotDictModel SchemaModel ProseModel.
Import ListNotations.

Section Regain.
  Context (E : env) (show : pyval -> pystr) (ns : pystr) (long : nat) (gap : ifield -> N) (name_id : pystr -> pystr) (vote : pystr) (n m : Z).
  Definition regain (d : ilcd) : result ilcd := bind (back E show ns long gap name_id vote d) (there E n m).
  Fixpoint regains (k : nat) (d : ilcd) : result ilcd :=
    match k with O => Ok d | S k' => bind (regain d) (regains k') end.
End Regain.
