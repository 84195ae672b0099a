(** What the user of several converters has asked for, independent of how conversions work. *)
From Coq Require Import Ascii String List Bool Arith NArith ZArith.
From Verif Require Import PyBase PyValues MultiLangModel DotDictModel ConverterModel SessionModel.
Import ListNotations.
Local Open Scope string_scope.
Local Open Scope list_scope.

(** the request of a converter, and what happened since *)
Fixpoint since_new (k : nat) (ops : list op) : option (request * list op) :=
  match ops with
  | [] => None
  | New r :: ops' => match k with O => Some (r, ops') | S k' => since_new k' ops' end
  | _ :: ops' => since_new k ops'
  end.
(** the last assignment of a kind that concerns a converter, or what the request says *)
Fixpoint latest {A} (get : op -> option A) (d : A) (l : list op) : A :=
  match l with [] => d | o :: l' => latest get (match get o with Some x => x | None => d end) l' end.
Definition option_for (k : nat) (n : pystr) (o : op) : option pyval :=
  match o with SetOption j m v => if (Nat.eqb j k && str_eqb m n && in_true_false v)%bool then Some v else None | _ => None end.
Definition mapping_for (k : nat) (o : op) : option (option pystr) :=
  match o with SetMapping j p => if (Nat.eqb j k && mapping_path p)%bool then Some (Some p) else None | _ => None end.
Definition save_for (k : nat) (o : op) : option pystr := match o with SetSave j p => if Nat.eqb j k then Some p else None | _ => None end.
Definition path_for (k : nat) (o : op) : option pystr := match o with SetPath j p => if Nat.eqb j k then Some p else None | _ => None end.

(** what is in force for a converter after the operations [ops] *)
Definition wanted_option (k : nat) (n : pystr) (ops : list op) (v : pyval) : Prop :=
  exists r l d, since_new k ops = Some (r, l) /\ getf n (all_options (r_dir r)) = Some d /\ v = latest (option_for k n) d l.
Definition wanted_mapping (k : nat) (ops : list op) (p : option pystr) : Prop :=
  exists r l, since_new k ops = Some (r, l) /\ p = latest (mapping_for k) (default_mapping (r_lists r)) l.
Definition wanted_folder (k : nat) (ops : list op) (p : pystr) : Prop :=
  exists r l, since_new k ops = Some (r, l) /\ p = latest (save_for k) (r_save r) l.
Definition wanted_input (k : nat) (ops : list op) (p : pystr) : Prop :=
  exists r l, since_new k ops = Some (r, l) /\ p = latest (path_for k) (r_path r) l.
Definition works_on (k : nat) (ops : list op) (d : direction) : Prop := exists r l, since_new k ops = Some (r, l) /\ r_dir r = d.

(** what one more run adds *)
Section World.
  Context (readable : pystr -> bool) (disk : pystr -> list file).
  Definition adds (ops : list op) (o : op) (es : list (nat * file * (used + exn))) : Prop :=
    events readable disk (ops ++ [o]) = events readable disk ops ++ es.
End World.
(** no conversion is started *)
Definition settings (o : op) : Prop := match o with Convert _ => False | _ => True end.
(** an assignment to a converter, and it is not made after the converter was used *)
Definition settled (is : op -> bool) (k : nat) (ops : list op) : Prop := forall a o b, ops = a ++ o :: b -> is o = true -> ~ In (Convert k) a.
Definition sets_mapping (k : nat) (o : op) : bool := match mapping_for k o with Some _ => true | None => false end.
Definition sets_folder (k : nat) (o : op) : bool := match save_for k o with Some _ => true | None => false end.
(** all mappings that were ever in force for a converter can be read *)
Definition fine_mappings (readable : pystr -> bool) (k : nat) (ops : list op) : Prop :=
  forall a b p, ops = a ++ b -> wanted_mapping k a p -> match p with Some q => readable q = true | None => False end.
(** the only converter of its direction *)
Definition alone (k : nat) (ops : list op) (d : direction) : Prop := forall j, works_on j ops d -> j = k.
(** assignments to [path] and to [convert_additional_fields] *)
Definition inert (o : op) : bool :=
  match o with SetPath _ _ => true | SetOption _ n _ => str_eqb n (lit "convert_additional_fields") | _ => false end.
(** no file failed after its variables were read *)
Definition no_late (es : list (nat * file * (used + exn))) : Prop := forall k f r x, In (k, f, r) es -> f_end f <> Fails x true.
