From Coq Require Import Ascii String List Bool Arith NArith ZArith Lia.
From Verif Require Import PyBase PyBaseFacts EntryModel EntrySpec.
Import ListNotations.

Lemma key_eqb_eq a b : key_eqb a b = true <-> a = b.
Proof.
  destruct a as [a1 a2], b as [b1 b2]. unfold key_eqb. cbn [fst snd]. rewrite andb_true_iff, !str_eqb_eq. split; [intros []; congruence|intros [= -> ->]; auto].
Qed.
Definition has (k : key) (st : store) : bool := match get k st with Some _ => true | None => false end.
Lemma assign_all_ok l : forall st st', assign_all st l = Ok st' -> st' = rev l ++ st.
Proof.
  induction l as [|[k v] l IH]; intros st st' H; cbn [assign_all rev] in *; [injection H as <-; reflexivity|].
  unfold assign in H. destruct (is_unique _ && _)%bool; [discriminate|]. cbn [bind fst snd put] in H.
  rewrite <- app_assoc. apply IH. exact H.
Qed.
Lemma get_app k a b : get k (a ++ b) = match get k a with Some v => Some v | None => get k b end.
Proof. induction a as [|[k' v] a IH]; [reflexivity|]. cbn [app get]. destruct (key_eqb k k'); [reflexivity|exact IH]. Qed.
Lemma has_app k a b : has k (a ++ b) = (has k a || has k b)%bool.
Proof. unfold has. rewrite get_app. destruct (get k a); reflexivity. Qed.
Lemma has_rev k l : has k (rev l) = has k l.
Proof.
  induction l as [|[k' v] l IH]; [reflexivity|]. cbn [rev]. rewrite has_app, IH. unfold has. cbn [get].
  destruct (key_eqb k k'); [now rewrite orb_true_r|now rewrite orb_false_r].
Qed.
Lemma has_flat {A} k (f : A -> store) els : has k (flat_map f els) = existsb (fun e => has k (f e)) els.
Proof. induction els as [|e els IH]; [reflexivity|]. cbn [flat_map existsb]. now rewrite has_app, IH. Qed.
(** the last assignment counts *)
Lemma same_flat {A} k1 k2 (f : A -> store) els : (forall e, get k1 (rev (f e)) = get k2 (rev (f e))) ->
  get k1 (rev (flat_map f els)) = get k2 (rev (flat_map f els)).
Proof. intros H. induction els as [|e els IH]; [reflexivity|]. cbn [flat_map]. rewrite rev_app_distr, !get_app, IH, H. reflexivity. Qed.

Lemma stored w now m n en els st : convert w now m n en els = Ok st ->
  st = rev (end_assignments m n en) ++ rev (flat_map (assignments w) els) ++ rev (default_assignments now).
Proof.
  intros H. unfold convert in H. apply assign_all_ok in H. rewrite app_nil_r in H. unfold all_assignments in H.
  rewrite !rev_app_distr, <- app_assoc in H. exact H.
Qed.
Lemma same_stored w now m n en els st k1 k2 : convert w now m n en els = Ok st ->
  get k1 (rev (end_assignments m n en)) = get k2 (rev (end_assignments m n en)) ->
  (forall e, get k1 (rev (assignments w e)) = get k2 (rev (assignments w e))) ->
  get k1 (rev (default_assignments now)) = get k2 (rev (default_assignments now)) -> get k1 st = get k2 st.
Proof.
  intros H E1 E2 E3. rewrite (stored _ _ _ _ _ _ _ H), !get_app, E1, E3.
  rewrite (same_flat k1 k2 (assignments w) els E2). reflexivity.
Qed.
Lemma has_stored w now m n en els st k : convert w now m n en els = Ok st ->
  has k st = (has k (end_assignments m n en) || (existsb (fun e => has k (assignments w e)) els || has k (default_assignments now)))%bool.
Proof. intros H. rewrite (stored _ _ _ _ _ _ _ H), !has_app, !has_rev, has_flat. reflexivity. Qed.

Lemma existsb_ext {A} (f g : A -> bool) l : (forall x, f x = g x) -> existsb f l = existsb g l.
Proof. intros H. induction l as [|x l IH]; [reflexivity|]. cbn [existsb]. now rewrite H, IH. Qed.
Lemma existsb_false {A} (l : list A) : existsb (fun _ => false) l = false.
Proof. induction l; auto. Qed.
Lemma existsb_orb {A} (f g : A -> bool) l : existsb (fun x => f x || g x)%bool l = (existsb f l || existsb g l)%bool.
Proof.
  induction l as [|x l IH]; [reflexivity|]. cbn [existsb]. rewrite IH.
  destruct (f x), (g x), (existsb f l), (existsb g l); reflexivity.
Qed.

(** kinds of elements *)
Inductive kind := KUuid | KBase | KPart | KLink | KSub | KYear | KUntil | KLoc | KType | KEntry | KGen | KCopy | KVer | KProd | KOther.
Definition kind_of (e : element) : kind :=
  match e with EUuid _ => KUuid | EBaseName _ => KBase | ENamePart _ => KPart | ELink _ => KLink | ESubtype _ => KSub | EYear _ => KYear
  | EUntil _ => KUntil | ELocation _ => KLoc | EType _ => KType | EEntryBy _ _ => KEntry | EGenerator _ _ => KGen | ECopyright _ => KCopy
  | EVersion _ _ => KVer | EProduct _ => KProd | EOther => KOther end.
Definition kind_eqb (a b : kind) : bool :=
  match a, b with KUuid, KUuid | KBase, KBase | KPart, KPart | KLink, KLink | KSub, KSub | KYear, KYear | KUntil, KUntil | KLoc, KLoc
  | KType, KType | KEntry, KEntry | KGen, KGen | KCopy, KCopy | KVer, KVer | KProd, KProd | KOther, KOther => true | _, _ => false end.
Definition some (k : kind) (els : list element) : bool := existsb (fun e => kind_eqb k (kind_of e)) els.
(** the kinds of elements that set an attribute *)
Definition setters (k : key) : list kind :=
  filter (fun d => match d with
    | KUuid => existsb (key_eqb k) [activity (lit "id"); index (lit "id")]
    | KBase => existsb (key_eqb k) [activity (lit "activityName"); activity (lit "activityNameId"); index (lit "activityNameId"); name_master (lit "id"); name_master (lit "name")]
    | KPart => existsb (key_eqb k) [activity (lit "activityName"); name_master (lit "name")]
    | KLink => existsb (key_eqb k) [activity (lit "activityNameId"); index (lit "activityNameId"); name_master (lit "id")]
    | KSub => existsb (key_eqb k) [activity (lit "specialActivityType"); index (lit "specialActivityType")]
    | KYear => existsb (key_eqb k) [period (lit "startDate"); index (lit "startDate")]
    | KUntil => existsb (key_eqb k) [period (lit "endDate"); index (lit "endDate")]
    | KLoc => existsb (key_eqb k) [geography (lit "shortname"); geography (lit "geographyId"); index (lit "geographyId")]
    | KType => key_eqb k (activity (lit "type"))
    | KEntry => existsb (key_eqb k) [entry_by (lit "personId"); entry_by (lit "personName"); entry_by (lit "personEmail")]
    | KGen => existsb (key_eqb k) [generator (lit "personId"); generator (lit "personName"); generator (lit "personEmail")]
    | KCopy => key_eqb k (generator (lit "isCopyrightProtected"))
    | KVer => existsb (key_eqb k) [file (lit "majorRelease"); file (lit "minorRelease"); file (lit "majorRevision"); file (lit "minorRevision")]
    | KProd => key_eqb k (flow_data (lit "intermediateExchange"))
    | KOther => false end)
  [KUuid; KBase; KPart; KLink; KSub; KYear; KUntil; KLoc; KType; KEntry; KGen; KCopy; KVer; KProd].
Lemma setters_ok w k e : In k (mandatory_keys true ++ unique_keys) ->
  has k (assignments w e) = existsb (fun d => kind_eqb d (kind_of e)) (setters k).
Proof.
  intros H. cbv [mandatory_keys index_keys unique_keys map app] in H.
  repeat (destruct H as [<-|H]; [destruct e; try (vm_compute; reflexivity);
    cbn [assignments]; unfold location_assignments; destruct (table w x); vm_compute; reflexivity|]).
  contradiction.
Qed.
Lemma some_setters els (l : list kind) :
  existsb (fun e => existsb (fun d => kind_eqb d (kind_of e)) l) els = existsb (fun d => some d els) l.
Proof.
  induction l as [|d l IH]; [apply existsb_false|]. cbn [existsb]. rewrite existsb_orb. unfold some at 1. now rewrite IH.
Qed.
Lemma some_iff k els : some k els = true <-> exists e, In e els /\ kind_of e = k.
Proof.
  unfold some. rewrite existsb_exists. split; intros (e & H & K); exists e; split; auto.
  - destruct k, (kind_of e); try discriminate; reflexivity.
  - subst k. destruct (kind_of e); reflexivity.
Qed.
Lemma some_present f k els : (forall x, kind_of (f x) = k) -> (forall e, kind_of e = k -> exists x, e = f x) -> (some k els = true <-> present f els).
Proof.
  intros H1 H2. rewrite some_iff. split.
  - intros (e & He & Hk). destruct (H2 e Hk) as [x ->]. now exists x.
  - intros [x Hx]. exists (f x). auto.
Qed.
Lemma some_present2 f k els : (forall x y, kind_of (f x y) = k) -> (forall e, kind_of e = k -> exists x y, e = f x y) -> (some k els = true <-> present2 f els).
Proof.
  intros H1 H2. rewrite some_iff. split.
  - intros (e & He & Hk). destruct (H2 e Hk) as (x & y & ->). now exists x, y.
  - intros (x & y & Hx). exists (f x y). auto.
Qed.

Lemma complete_iff w now m n en els st user : convert w now m n en els = Ok st ->
  (forallb (fun k => has k st) (mandatory_keys user) = true <-> needed els).
Proof.
  intros H.
  assert (E : forallb (fun k => has k st) (mandatory_keys user) =
              forallb (fun k => has k (end_assignments m n en) || (existsb (fun d => some d els) (setters k) || has k (default_assignments now)))%bool (mandatory_keys user)).
  { assert (S : forall k, In k (mandatory_keys user) -> In k (mandatory_keys true ++ unique_keys)).
    { intros k Hk. apply in_or_app. left. destruct user; [exact Hk|]. unfold mandatory_keys in *. apply in_or_app. right. exact Hk. }
    induction (mandatory_keys user) as [|k l IH]; [reflexivity|]. cbn [forallb]. rewrite IH by (intros; apply S; now right).
    f_equal. rewrite (has_stored _ _ _ _ _ _ _ k H). f_equal. f_equal.
    rewrite <- some_setters. apply existsb_ext. intros e. apply setters_ok. apply S. now left. }
  rewrite E. clear E.
  assert (F : forallb (fun k => has k (end_assignments m n en) || (existsb (fun d => some d els) (setters k) || has k (default_assignments now)))%bool (mandatory_keys user) = true <->
    some KUuid els = true /\ (some KBase els = true \/ some KPart els = true /\ some KLink els = true) /\ some KYear els = true /\ some KUntil els = true /\
    some KLoc els = true /\ some KType els = true /\ some KCopy els = true /\ some KEntry els = true /\ some KGen els = true /\ some KProd els = true).
  { rewrite forallb_forall. split.
    - intros A.
      assert (B : forall k, In k (mandatory_keys false) -> (has k (end_assignments m n en) || (existsb (fun d => some d els) (setters k) || has k (default_assignments now)))%bool = true).
      { intros k Hk. apply A. unfold mandatory_keys in *. apply in_or_app. now right. }
      assert (I : forall k, existsb (key_eqb k) (mandatory_keys false) = true -> In k (mandatory_keys false)).
      { intros k Hk. apply existsb_exists in Hk as (k' & Hk & Hq). apply key_eqb_eq in Hq as ->. exact Hk. }
      pose proof (B (activity (lit "id")) (I (activity (lit "id")) eq_refl)) as B1.
      pose proof (B (activity (lit "activityName")) (I (activity (lit "activityName")) eq_refl)) as B2.
      pose proof (B (activity (lit "activityNameId")) (I (activity (lit "activityNameId")) eq_refl)) as B3.
      pose proof (B (period (lit "startDate")) (I (period (lit "startDate")) eq_refl)) as B4.
      pose proof (B (period (lit "endDate")) (I (period (lit "endDate")) eq_refl)) as B5.
      pose proof (B (geography (lit "geographyId")) (I (geography (lit "geographyId")) eq_refl)) as B6.
      pose proof (B (activity (lit "type")) (I (activity (lit "type")) eq_refl)) as B7.
      pose proof (B (generator (lit "isCopyrightProtected")) (I (generator (lit "isCopyrightProtected")) eq_refl)) as B8.
      pose proof (B (entry_by (lit "personId")) (I (entry_by (lit "personId")) eq_refl)) as B9.
      pose proof (B (generator (lit "personId")) (I (generator (lit "personId")) eq_refl)) as B10.
      pose proof (B (flow_data (lit "intermediateExchange")) (I (flow_data (lit "intermediateExchange")) eq_refl)) as B11.
      clear A B I H.
      repeat match goal with B : (has ?k ?a || (existsb ?f ?l || has ?k ?b))%bool = true |- _ =>
        let l' := eval vm_compute in l in
        change (has k a) with false in B; change (has k b) with false in B; change l with l' in B; cbn [existsb orb] in B; rewrite ?orb_false_r in B end.
      rewrite orb_true_iff in B2, B3. tauto.
    - intros (A1 & A2 & A3 & A4 & A5 & A6 & A7 & A8 & A9 & A10) k Hk.
      assert (Hk' : In k (mandatory_keys true)).
      { destruct user; [exact Hk|]. unfold mandatory_keys in *. apply in_or_app. now right. }
      clear Hk H. cbv [mandatory_keys index_keys map app] in Hk'.
      repeat (destruct Hk' as [<-|Hk'];
        [match goal with |- (has ?k ?a || (existsb ?f (setters ?k) || has ?k ?b))%bool = true =>
           let l' := eval vm_compute in (setters k) in change (setters k) with l'; cbn [existsb] end;
         try (vm_compute; reflexivity);
         rewrite ?A1, ?A3, ?A4, ?A5, ?A6, ?A7, ?A8, ?A9, ?A10; rewrite ?orb_true_r; try reflexivity;
         (destruct A2 as [E2 | [E2 E3]]; [rewrite ?E2|rewrite ?E2, ?E3]; rewrite ?orb_true_r; reflexivity)|]).
      contradiction. }
  rewrite F. unfold needed. clear F.
  rewrite (some_present EUuid KUuid), (some_present EBaseName KBase), (some_present ENamePart KPart), (some_present ELink KLink),
    (some_present EYear KYear), (some_present EUntil KUntil), (some_present ELocation KLoc), (some_present EType KType),
    (some_present ECopyright KCopy), (some_present2 EEntryBy KEntry), (some_present2 EGenerator KGen), (some_present EProduct KProd);
    try (intros; reflexivity); try (intros []; cbn; intros; try discriminate; eauto); tauto.
Qed.

(** ** when the conversion runs *)
Definition cnt (k : key) (l : list (key * pystr)) : nat := length (filter (fun kv => key_eqb k (fst kv)) l).
Lemma cnt_app k a b : cnt k (a ++ b) = cnt k a + cnt k b.
Proof. unfold cnt. now rewrite filter_app, app_length. Qed.
Lemma has_put k k' v st : has k (put k' v st) = (key_eqb k k' || has k st)%bool.
Proof. unfold has, put. cbn [get]. destruct (key_eqb k k'); reflexivity. Qed.
Lemma unique_In k : is_unique k = true <-> In k unique_keys.
Proof.
  unfold is_unique. rewrite existsb_exists. split.
  - intros (k' & H & E). apply key_eqb_eq in E as ->. exact H.
  - intros H. exists k. split; [exact H|]. now apply key_eqb_eq.
Qed.
Lemma runs_iff l : forall st,
  (exists st', assign_all st l = Ok st') <-> (forall k, In k unique_keys -> cnt k l + (if has k st then 1 else 0) <= 1).
Proof.
  induction l as [|[k v] l IH]; intros st; cbn [assign_all].
  - split; [|eauto]. intros _ k _. cbn. destruct (has k st); lia.
  - unfold assign. cbn [fst snd]. fold (has k st). destruct (is_unique k) eqn:U; cbn [andb].
    + destruct (has k st) eqn:Hs.
      * split; [intros [st' H]; discriminate|]. intros H. specialize (H k (proj1 (unique_In k) U)). unfold cnt in H. cbn [filter fst] in H.
        rewrite (proj2 (key_eqb_eq k k) eq_refl), Hs in H. cbn [length] in H. lia.
      * cbn [bind]. rewrite IH. split; intros H k' Hk'; specialize (H k' Hk'); rewrite ?has_put in *; unfold cnt in *; cbn [filter fst] in *;
          destruct (key_eqb k' k) eqn:E; cbn [orb length] in *; try lia; apply key_eqb_eq in E as ->; rewrite Hs in *; lia.
    + cbn [bind]. rewrite IH. split; intros H k' Hk'; specialize (H k' Hk'); rewrite ?has_put in *; unfold cnt in *; cbn [filter fst] in *;
        destruct (key_eqb k' k) eqn:E; cbn [orb length] in *; try lia; apply key_eqb_eq in E as ->; apply unique_In in Hk'; congruence.
Qed.
Lemma runs_err l : forall st e, assign_all st l = Err e -> e = ValueError.
Proof.
  induction l as [|kv l IH]; intros st e H; cbn [assign_all] in H; [discriminate|]. unfold assign in H.
  destruct (is_unique _ && _)%bool; cbn [bind] in H; [congruence|eauto].
Qed.
Definition many (k : kind) (els : list element) : nat := length (filter (fun e => kind_eqb k (kind_of e)) els).
Lemma many_once f k els : (forall x, kind_of (f x) = k) -> (forall e, kind_of e = k -> exists x, e = f x) -> (many k els <= 1 <-> once f els).
Proof.
  intros H1 H2.
  assert (Hk : forall e, kind_eqb k (kind_of e) = true <-> kind_of e = k).
  { intros e. split; [destruct k, (kind_of e); try discriminate; reflexivity|intros <-; destruct (kind_of e); reflexivity]. }
  assert (Kf : forall x, kind_eqb k (kind_of (f x)) = true) by (intros; apply Hk, H1).
  split.
  - intros L a b c x y ->. unfold many in L. rewrite filter_app, app_length in L. cbn [filter] in L. rewrite Kf in L. cbn [length] in L.
    rewrite filter_app, app_length in L. cbn [filter] in L. rewrite Kf in L. cbn [length] in L. lia.
  - intros O. unfold many. destruct (filter _ els) as [|e1 [|e2 l]] eqn:F; cbn [length]; try lia. exfalso.
    assert (G : forall els e l, filter (fun e => kind_eqb k (kind_of e)) els = e :: l -> exists a b x, e = f x /\ els = a ++ f x :: b /\ filter (fun e => kind_eqb k (kind_of e)) b = l).
    { clear - H2 Hk. induction els as [|d els IH]; intros e l F; [discriminate|]. cbn [filter] in F.
      destruct (kind_eqb k (kind_of d)) eqn:E.
      - injection F as -> <-. apply Hk in E. destruct (H2 _ E) as [x ->]. exists [], els, x. auto.
      - destruct (IH _ _ F) as (a & b & x & -> & -> & Hb). exists (d :: a), b, x. auto. }
    destruct (G _ _ _ F) as (a & b & x & _ & -> & Fb). destruct (G _ _ _ Fb) as (b' & c & y & _ & -> & _). exact (O a b' c x y eq_refl).
Qed.
Lemma cnt_flat w k d els : (forall e, cnt k (assignments w e) = if kind_eqb d (kind_of e) then 1 else 0) ->
  cnt k (flat_map (assignments w) els) = many d els.
Proof.
  intros H. unfold many. induction els as [|e els IH]; [reflexivity|]. cbn [flat_map filter]. rewrite cnt_app, IH, H.
  destruct (kind_eqb d (kind_of e)); reflexivity.
Qed.
Lemma cnt_flat0 w k els : (forall e, cnt k (assignments w e) = 0) -> cnt k (flat_map (assignments w) els) = 0.
Proof. intros H. induction els as [|e els IH]; [reflexivity|]. cbn [flat_map]. now rewrite cnt_app, IH, H. Qed.
Ltac per_element w := let e := fresh "e" in intros e; destruct e; try (vm_compute; reflexivity);
  cbn [assignments]; unfold location_assignments; match goal with |- context [table w ?x] => destruct (table w x) end; vm_compute; reflexivity.
Lemma converts_iff w now m n en els : (exists st, convert w now m n en els = Ok st) <->
  many KUuid els <= 1 /\ many KYear els <= 1 /\ many KUntil els <= 1 /\ many KLoc els <= 1 /\ many KType els <= 1 /\ many KCopy els <= 1.
Proof.
  unfold convert. rewrite runs_iff. split.
  - intros H.
    assert (C : forall k d, In k unique_keys -> (forall e, cnt k (assignments w e) = if kind_eqb d (kind_of e) then 1 else 0) -> many d els <= 1).
    { intros k d Hk Hd. specialize (H k Hk). unfold all_assignments in H. rewrite !cnt_app, (cnt_flat w k d els Hd) in H. lia. }
    assert (I : forall k, is_unique k = true -> In k unique_keys) by (intros; now apply unique_In).
    repeat split.
    + apply (C (activity (lit "id"))); [now apply I|per_element w].
    + apply (C (period (lit "startDate"))); [now apply I|per_element w].
    + apply (C (period (lit "endDate"))); [now apply I|per_element w].
    + apply (C (geography (lit "geographyId"))); [now apply I|per_element w].
    + apply (C (activity (lit "type"))); [now apply I|per_element w].
    + apply (C (generator (lit "isCopyrightProtected"))); [now apply I|per_element w].
  - intros (A1 & A2 & A3 & A4 & A5 & A6) k Hk. unfold all_assignments. rewrite !cnt_app. change (if has k [] then 1 else 0) with 0.
    cbv [unique_keys] in Hk.
    assert (D : cnt k (flat_map (assignments w) els) + (cnt k (default_assignments now) + cnt k (end_assignments m n en)) <= 1); [|lia].
    repeat (destruct Hk as [<-|Hk];
     [match goal with |- _ + (cnt ?k ?a + cnt ?k ?b) <= 1 =>
        let x := eval vm_compute in (cnt k a) in let y := eval vm_compute in (cnt k b) in
        change (cnt k a) with x; change (cnt k b) with y end;
      first [rewrite (cnt_flat0 w) by (per_element w); lia
            |rewrite (cnt_flat w _ KUuid) by (per_element w); lia
            |rewrite (cnt_flat w _ KYear) by (per_element w); lia
            |rewrite (cnt_flat w _ KUntil) by (per_element w); lia
            |rewrite (cnt_flat w _ KLoc) by (per_element w); lia
            |rewrite (cnt_flat w _ KType) by (per_element w); lia
            |rewrite (cnt_flat w _ KCopy) by (per_element w); lia]|]).
    contradiction.
Qed.
