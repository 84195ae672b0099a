From Coq Require Import Ascii String List Bool Arith NArith ZArith Lia.
From Verif Require Import PyBase PyBaseFacts PyValues ValidatorsModel EntryModel EntrySpec EntryProofs GeoTable.
Import ListNotations.

(** ** C116: geography *)
(** The activity and its index entry name the same geography, the one of the table or the one made of the location; the
    geography is added to the master data exactly when the table does not know the location. *)
Theorem C116_geography :
  forall w now m n en els st x, no_empty_ids w -> convert w now m n en els = Ok st -> In (ELocation x) els ->
    let g := match table w x with Some g => g | None => nid w x end in
    get (geography (lit "geographyId")) st = Some g /\ get (index (lit "geographyId")) st = Some g /\
    get (geography (lit "shortname")) st = Some x /\
    get (geo_master (lit "id")) st = (match table w x with Some _ => None | None => Some g end).
Proof.
  intros w now m n en els st x NE H HI g.
  assert (O : once ELocation els).
  { assert (E : exists st, convert w now m n en els = Ok st) by eauto. apply converts_iff in E as (_ & _ & _ & L & _).
    apply (many_once ELocation KLoc) in L; auto. intros []; cbn; intros; try discriminate. eauto. }
  apply in_split in HI as (a & b & ->).
  assert (Hn : forall l k, (forall y, ~ In (ELocation y) l) -> In k [geography (lit "geographyId"); geography (lit "shortname"); geo_master (lit "id"); index (lit "geographyId")] ->
    get k (rev (flat_map (assignments w) l)) = None).
  { clear. intros l k Hl Hk. assert (E : has k (rev (flat_map (assignments w) l)) = false); [|unfold has in E; destruct (get k _); congruence].
    rewrite has_rev, has_flat. induction l as [|e l IH]; [reflexivity|]. cbn [existsb]. rewrite IH by (intros y Hy; apply (Hl y); now right).
    rewrite orb_false_r. cbn [In] in Hk.
    assert (Hne : forall y, e <> ELocation y) by (intros y ->; apply (Hl y); now left).
    destruct e; try (exfalso; eapply Hne; reflexivity);
      repeat (destruct Hk as [<-|Hk]; [vm_compute; reflexivity|]); contradiction. }
  assert (Ha : forall y, ~ In (ELocation y) a).
  { intros y Hy. apply in_split in Hy as (a1 & a2 & ->). apply (O a1 a2 b y x). rewrite <- app_assoc. reflexivity. }
  assert (Hb : forall y, ~ In (ELocation y) b).
  { intros y Hy. apply in_split in Hy as (b1 & b2 & ->). exact (O a b1 b2 x y eq_refl). }
  pose proof (stored _ _ _ _ _ _ _ H) as S.
  rewrite flat_map_app in S. cbn [flat_map] in S. rewrite !rev_app_distr in S.
  assert (G : forall k, In k [geography (lit "geographyId"); geography (lit "shortname"); geo_master (lit "id"); index (lit "geographyId")] ->
    get k st = get k (rev (assignments w (ELocation x)))).
  { intros k Hk. rewrite S, !get_app, (Hn b k Hb Hk), (Hn a k Ha Hk).
    replace (get k (rev (end_assignments m n en))) with (@None pystr).
    - replace (get k (rev (default_assignments now))) with (@None pystr); [destruct (get k _); reflexivity|].
      cbn [In] in Hk. repeat (destruct Hk as [<-|Hk]; [vm_compute; reflexivity|]). contradiction.
    - cbn [In] in Hk. repeat (destruct Hk as [<-|Hk]; [vm_compute; reflexivity|]). contradiction. }
  rewrite !G by (cbn [In]; tauto).
  cbn [assignments]. unfold location_assignments, g. specialize (NE x). clear - NE.
  destruct (table w x) as [[|c t]|]; [contradiction| |]; repeat split.
Qed.
Print Assumptions C116_geography.
(** The hypothesis is needed: with an empty identifier in the table the two differ. *)
Theorem C116_empty_identifier :
  exists w now m n en els st, convert w now m n en els = Ok st /\ get (geography (lit "geographyId")) st <> get (index (lit "geographyId")) st.
Proof.
  exists {| cid := fun x => x; nid := fun x => x; table := fun _ => Some [] |}, [], [], [], [], [ELocation (lit "BR")].
  eexists. split; [vm_compute; reflexivity|]. vm_compute. discriminate.
Qed.
Print Assumptions C116_empty_identifier.

(** The table of the package: every identifier is well formed, none is empty, and two locations never share one. *)
Lemma lookup_In x l g : lookup x l = Some g -> In (x, g) l.
Proof.
  induction l as [|[k v] l IH]; cbn [lookup]; [discriminate|]. destruct (str_eqb x k) eqn:E.
  - apply str_eqb_eq in E as ->. intros [= ->]. now left.
  - intros H. right. auto.
Qed.
Fixpoint distinct (l : list pystr) : bool :=
  match l with [] => true | x :: l' => (negb (existsb (str_eqb x) l') && distinct l')%bool end.
Lemma distinct_pairs (l : list (pystr * pystr)) x y g : distinct (map snd l) = true -> In (x, g) l -> In (y, g) l -> x = y.
Proof.
  induction l as [|[k v] l IH]; intros D Hx Hy; [contradiction|]. cbn [map snd distinct] in D. apply andb_true_iff in D as [D1 D2].
  assert (N : forall z, ~ In (z, v) l).
  { intros z Hz. apply negb_true_iff in D1. assert (existsb (str_eqb v) (map snd l) = true); [|congruence].
    apply existsb_exists. exists v. split; [|apply str_eqb_refl]. apply (in_map snd) in Hz. exact Hz. }
  destruct Hx as [Ex|Hx], Hy as [Ey|Hy].
  - congruence.
  - exfalso. apply (N y). congruence.
  - exfalso. apply (N x). congruence.
  - auto.
Qed.
Theorem C116_table :
  (forall x g, geography_id x = Some g -> UUID (VStr g) = Ok g /\ g <> []) /\
  (forall x y g, geography_id x = Some g -> geography_id y = Some g -> x = y).
Proof.
  split.
  - intros x g H. apply lookup_In in H.
    assert (F : forallb (fun p => (match UUID (VStr (snd p)) with Ok g' => str_eqb g' (snd p) | Err _ => false end && negb (str_eqb (snd p) []))%bool) geographies = true) by (vm_compute; reflexivity).
    rewrite forallb_forall in F. specialize (F _ H). cbn [snd] in F. apply andb_true_iff in F as [F1 F2]. split.
    + destruct (UUID (VStr g)); [|discriminate]. apply str_eqb_eq in F1 as ->. reflexivity.
    + intros ->. discriminate.
  - intros x y g Hx Hy. apply lookup_In in Hx, Hy. apply (distinct_pairs geographies x y g); [vm_compute; reflexivity|exact Hx|exact Hy].
Qed.
Print Assumptions C116_table.
(** With the table of the package, an EcoSpold2 location name that the table knows gets its identifier in both places. *)
Theorem C116_known_location :
  forall cid nid now m n en els st x g, geography_id x = Some g ->
    convert {| cid := cid; nid := nid; table := geography_id |} now m n en els = Ok st -> In (ELocation x) els ->
    get (geography (lit "geographyId")) st = Some g /\ get (index (lit "geographyId")) st = Some g /\ get (geo_master (lit "id")) st = None.
Proof.
  intros cid nid now m n en els st x g Hg H HI.
  assert (NE : no_empty_ids {| cid := cid; nid := nid; table := geography_id |}).
  { intros y Hy. cbn [table] in Hy. destruct C116_table as [T _]. destruct (T y [] Hy) as [_ T']. now apply T'. }
  destruct (C116_geography _ _ _ _ _ _ _ _ NE H HI) as (A & B & _ & C). cbn [table] in *. rewrite Hg in *. auto.
Qed.
Print Assumptions C116_known_location.

(** ** C117: the index of activities *)
Theorem C117_index_entry :
  forall w now m n en els st, no_empty_ids w -> convert w now m n en els = Ok st ->
    (forall p, In p said_twice -> get (fst p) st = get (snd p) st) /\
    get (name_master (lit "id")) st = get (activity (lit "activityNameId")) st /\
    get (name_master (lit "name")) st = get (activity (lit "activityName")) st.
Proof.
  intros w now m n en els st NE H. split; [intros p Hp|split].
  - cbv [said_twice] in Hp.
    repeat (destruct Hp as [<-|Hp]; [cbn [fst snd]; apply (same_stored _ _ _ _ _ _ _ _ _ H);
      [vm_compute; reflexivity| |vm_compute; reflexivity];
      intros e; destruct e as [x|x|x|x|x|x|x|x|x|x y|x y|x|x y|x|]; try (vm_compute; reflexivity); cbn [assignments]; unfold location_assignments; specialize (NE x); clear - NE;
      destruct (table w x) as [[|c t]|]; [contradiction| |]; vm_compute; reflexivity|]).
    contradiction.
  - apply (same_stored _ _ _ _ _ _ _ _ _ H); [vm_compute; reflexivity| |vm_compute; reflexivity].
    intros e; destruct e as [x|x|x|x|x|x|x|x|x|x y|x y|x|x y|x|]; try (vm_compute; reflexivity); cbn [assignments]; unfold location_assignments;
      destruct (table w x); vm_compute; reflexivity.
  - apply (same_stored _ _ _ _ _ _ _ _ _ H); [vm_compute; reflexivity| |vm_compute; reflexivity].
    intros e; destruct e as [x|x|x|x|x|x|x|x|x|x y|x y|x|x y|x|]; try (vm_compute; reflexivity); cbn [assignments]; unfold location_assignments;
      destruct (table w x); vm_compute; reflexivity.
Qed.
Print Assumptions C117_index_entry.
(** The conversion succeeds exactly when none of the six single elements appears twice. *)
Theorem C117_converts :
  forall w now m n en els, (exists st, convert w now m n en els = Ok st) <-> single els.
Proof.
  intros. rewrite converts_iff. unfold single.
  rewrite (many_once EUuid KUuid), (many_once EYear KYear), (many_once EUntil KUntil), (many_once ELocation KLoc), (many_once EType KType), (many_once ECopyright KCopy);
    try (intros; reflexivity); try (intros []; cbn; intros; try discriminate; eauto); tauto.
Qed.
Print Assumptions C117_converts.
Theorem C117_refused :
  forall w now m n en els e, convert w now m n en els = Err e -> e = ValueError /\ ~ single els.
Proof.
  intros w now m n en els e H. split; [exact (runs_err _ _ _ H)|]. intros S. apply (C117_converts w now m n en) in S as [st S]. congruence.
Qed.
Print Assumptions C117_refused.

(** ** C118: what an ILCD data set must contain *)
(** A converted data set is written exactly when the elements EcoSpold2 needs are there. *)
Theorem C118_complete_partial :
  forall w now m n en els user st, convert w now m n en els = Ok st ->
    (needed els -> written_out user st = Ok st) /\ (~ needed els -> written_out user st = Err AttributeError).
Proof.
  intros w now m n en els user st H. pose proof (complete_iff _ _ _ _ _ _ _ user H) as C.
  unfold written_out. change (fun k => match get k st with Some _ => true | None => false end) with (fun k => has k st).
  destruct (forallb (fun k => has k st) (mandatory_keys user)) eqn:E; split; intros N; auto.
  - exfalso. tauto.
  - exfalso. apply C in N. discriminate.
Qed.
Print Assumptions C118_complete_partial.
(** Data sets that are complete for ILCD are not written when one of the others is missing: every single one is necessary. *)
Theorem C118_valid_datasets_refuted :
  forall w now m n en els user st, convert w now m n en els = Ok st -> ilcd_needed els ->
    ~ present EYear els \/ ~ present EUntil els \/ ~ present ELocation els \/ ~ present EType els \/ ~ present ECopyright els \/
    ~ present2 EEntryBy els \/ ~ present2 EGenerator els \/ ~ present EProduct els ->
    written_out user st = Err AttributeError.
Proof.
  intros w now m n en els user st H _ M. apply (proj2 (C118_complete_partial _ _ _ _ _ _ user _ H)). unfold needed. tauto.
Qed.
Print Assumptions C118_valid_datasets_refuted.

Definition full : list element :=
  [EUuid (lit "u"); EBaseName (lit "steel"); EOther; EYear (lit "2015"); EUntil (lit "2020"); ELocation (lit "BR"); EType (lit "1");
   EEntryBy (lit "p") (lit "Ann"); EGenerator (lit "q") (lit "Bob"); EVersion (lit "1") (lit "0"); ECopyright (lit "true"); EProduct (lit "x")].
Definition names : world := {| cid := fun x => lit "c-" ++ x; nid := fun x => lit "n-" ++ x; table := fun x => if str_eqb x (lit "BR") then Some (lit "brazil") else None |}.
Example C116_nonvacuous : geography_id (lit "BR") <> None /\ match convert names [] (lit "m") (lit "Undefined") (lit "1") full with
  | Ok st => get (index (lit "geographyId")) st = Some (lit "brazil") /\ get (geo_master (lit "id")) st = None | Err _ => False end.
Proof. split; [vm_compute; discriminate|]. vm_compute. split; reflexivity. Qed.
Example C117_nonvacuous : match convert names [] (lit "m") (lit "Undefined") (lit "1") (full ++ [ELink (lit "other")]) with
  | Ok st => get (index (lit "activityNameId")) st = Some (lit "other") /\ get (index (lit "startDate")) st = Some (lit "2015-01-01") | Err _ => False end
  /\ convert names [] (lit "m") (lit "Undefined") (lit "1") (full ++ [EYear (lit "2016")]) = Err ValueError.
Proof. vm_compute. repeat split; reflexivity. Qed.
Example C118_nonvacuous : match convert names [] (lit "m") (lit "Undefined") (lit "1") full with
  | Ok st => written_out true st = Ok st | Err _ => False end
  /\ match convert names [] (lit "m") (lit "Undefined") (lit "1") [EUuid (lit "u"); EBaseName (lit "steel"); EVersion (lit "1") (lit "0")] with
  | Ok st => written_out false st = Err AttributeError | Err _ => False end.
Proof. vm_compute. split; reflexivity. Qed.
