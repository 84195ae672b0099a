(** Vocabulary for runs of a converter. *)
From Coq Require Import Ascii String List Bool Arith NArith ZArith.
From Verif Require Import PyBase PyValues DotDictModel OutputModel OutputSpec ConverterModel DriverModel.
Import ListNotations.

Section DriverSpec.
  Context {File Struct Doc Cls Attrs : Type}.
  Notation plant := (plant File Struct Doc Cls Attrs).
  Notation state := (state Struct Doc Cls).

  (** [x] is the structure obtained for the file [f], starting from an empty one; [final] closes it. *)
  Definition converted (p : plant) (final : Cls -> Struct -> Cls * Struct * option exn) (f : File) (x : Struct) : Prop :=
    exists v n a c1 c2 c3 c4 x1 x2,
      p_info p f = Ok (v, n, a) /\ p_setup p a c1 (p_fresh p) = (c2, x1, None) /\
      p_body p f c2 x1 = (c3, x2, None) /\ final c3 x2 = (c4, x, None).
  Definition converted_any (p : plant) (f : File) (x : Struct) : Prop :=
    converted p (p_end p) f x \/ converted p (p_reset p) f x.

  (** the file holding the document of [x] alone *)
  Definition holds_one (p : plant) (x : Struct) (o : out Doc) : Prop :=
    exists d, p_doc p x = Ok d /\
      if p_ilcd p then exists u, p_uuid p x = Ok u /\ o = Zip [(u ++ lit ".xml", d)] else o = Spold d.
  (** members written one after the other, a later one replacing an earlier one of the same name *)
  Inductive archived (p : plant) : list Struct -> list (pystr * Doc) -> Prop :=
  | ar_nil : archived p [] []
  | ar_snoc xs x z u d : archived p xs z -> p_doc p x = Ok d -> p_uuid p x = Ok u ->
      archived p (xs ++ [x]) (putf (u ++ lit ".xml") d z).

  (** The name [n] of an output titled [t]: the title, possibly numbered, and the ending of the format. *)
  Definition named (p : plant) (t n : pystr) : Prop :=
    exists k r, candidate t k r /\ n = r ++ (if p_ilcd p then lit ".zip" else lit ".spold").
  (** the outputs of one batch whose files gave the structures [xs], reported as [n] *)
  Definition batch_outputs (p : plant) (xs : list Struct) (n : pystr) (outs : list (pystr * out Doc)) : Prop :=
    if p_ilcd p then exists z, outs = [(n, Zip z)] /\ archived p xs z
    else exists docs, outs <> [] /\ fst (last outs (n, Zip [])) = n /\
           Forall2 (fun x o => p_doc p x = Ok (snd o) /\ exists m, fst o = (m, Spold (snd o))) xs docs /\ map fst docs = outs.

  (** Nothing is lost from the output folder; [extra] is what was added. *)
  Definition adds (s s' : state) (extra : list (pystr * out Doc)) : Prop :=
    w_folder (snd s') = w_folder (snd s) ++ extra.
  Definition names_of (s : state) : list pystr := map fst (w_folder (snd s)).

  (** A converter between conversions: no half-filled structure, and a mapping for the last version. *)
  Definition at_rest (p : plant) (s : state) : Prop :=
    match c_data (fst s) with
    | None => True
    | Some d => d_struct d = p_fresh p /\ d_multi d = false
    end.

  (** A mapping exists only together with an output manager (true of a new converter and kept by runs). *)
  Definition have (s : state) : Prop := c_data (fst s) <> None.
  Definition sane (s : state) : Prop := c_map (fst s) = true -> have s.

  (** The conversion of a file uses only what is prepared for that file: [view] is the part of the
      class attributes that matters. *)
  Definition same_for {V} (view : Cls -> V) (r r' : Cls * Struct * option exn) : Prop :=
    view (fst (fst r)) = view (fst (fst r')) /\ snd (fst r) = snd (fst r') /\ snd r = snd r'.
  Definition self_contained {V} (view : Cls -> V) (p : plant) : Prop :=
    (forall a c c' x, same_for view (p_setup p a c x) (p_setup p a c' x)) /\
    (forall f c c' x, view c = view c' -> same_for view (p_body p f c x) (p_body p f c' x)) /\
    (forall c c' x, view c = view c' -> same_for view (p_end p c x) (p_end p c' x)).
End DriverSpec.
