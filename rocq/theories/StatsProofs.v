From Coq Require Import Ascii String List Bool Arith NArith ZArith Lia.
From Verif Require Import PyBase PyBaseFacts VariableModel StatsModel StatsSpec.
Import ListNotations.
Local Open Scope string_scope.
Local Open Scope list_scope.
Local Open Scope Z_scope.

Ltac flat := cbn [d_product t_product d_nature t_nature d_unc t_unc d_var t_var d_volume t_volume d_par t_par adds zero] in *.

Lemma adds_zero_l c : adds zero c = c.
Proof. destruct c; reflexivity. Qed.
Lemma adds_zero_r c : adds c zero = c.
Proof. destruct c; unfold adds; flat; f_equal; lia. Qed.
Lemma adds_assoc a b c : adds (adds a b) c = adds a (adds b c).
Proof. unfold adds; flat; f_equal; lia. Qed.

Lemma read_adds p c : read_piece p c = adds c (read_piece p zero).
Proof. destruct p; unfold read_piece, adds; flat; f_equal; try lia. Qed.
Lemma fold_adds f : forall c, fold_left (fun c p => read_piece p c) f c = adds c (fold_left (fun c p => read_piece p c) f zero).
Proof.
  induction f as [|p f IH]; intros c; cbn [fold_left]; [now rewrite adds_zero_r|].
  rewrite IH, (IH (read_piece p zero)), (read_adds p c), adds_assoc. reflexivity.
Qed.
Lemma construct_adds l : forall taken c, snd (construct_all taken l c) = adds c (snd (construct_all taken l zero)) /\ fst (construct_all taken l c) = fst (construct_all taken l zero).
Proof.
  induction l as [|x l IH]; intros taken c; cbn [construct_all fst snd]; [now rewrite adds_zero_r|].
  set (new := negb (str_in (fst x) taken)). set (tk := if new then fst x :: taken else taken).
  match goal with |- snd (construct_all tk l ?a) = adds c (snd (construct_all tk l ?b)) /\ _ => destruct (IH tk a) as (-> & ->), (IH tk b) as (-> & ->) end.
  split; [|reflexivity]. rewrite <- adds_assoc. f_equal. unfold adds; flat. destruct new, (has_unc (snd x)), (known_unc (snd x)); cbn [one_if]; f_equal; lia.
Qed.
Lemma one_file_adds on f c : snd (one_file on f c) = adds c (snd (one_file on f zero)).
Proof.
  unfold one_file. rewrite (proj1 (construct_adds _ _ (fold_left _ f c))), (proj1 (construct_adds _ _ (fold_left _ f zero))), fold_adds, adds_assoc. reflexivity.
Qed.
Lemma run_each on fs : run on true fs zero = map (fun f => snd (one_file on f zero)) fs.
Proof. induction fs as [|f fs IH]; [reflexivity|]. cbn [run map]. destruct fs; [reflexivity|]. now rewrite IH. Qed.
Lemma run_once on fs : forall c, fs <> [] -> run on false fs c = [adds c (total (map (fun f => snd (one_file on f zero)) fs))].
Proof.
  induction fs as [|f fs IH]; intros c H; [contradiction|]. cbn [run map total fold_right]. destruct fs as [|g fs].
  - cbn [map fold_right]. change (Counts 0 0 0 0 0 0 0 0 0 0 0 0) with zero. now rewrite adds_zero_r, one_file_adds.
  - rewrite IH by discriminate. unfold total. now rewrite (one_file_adds on f c), adds_assoc.
Qed.

(** the totals of elements *)
Definition plus {A} (g : A -> Z) (l : list A) : Z := fold_right (fun x n => g x + n) 0 l.
Lemma plus_app {A} (g : A -> Z) l l' : plus g (l ++ l') = plus g l + plus g l'.
Proof. induction l as [|x l IH]; cbn [plus fold_right app]; [reflexivity|]. unfold plus in *. rewrite IH. lia. Qed.
Lemma tally_plus {A} (p : A -> bool) l : tally p l = plus (fun x => one_if (p x)) l.
Proof.
  unfold tally. induction l as [|x l IH]; [reflexivity|]. cbn [filter plus fold_right]. fold (plus (fun x => one_if (p x)) l). rewrite <- IH.
  destruct (p x); cbn [length one_if]; lia.
Qed.
Lemma fold_read (g : counts -> Z) (h : piece -> Z) :
  (forall p c, g (read_piece p c) = g c + h p) -> forall f c, g (fold_left (fun c p => read_piece p c) f c) = g c + plus h f.
Proof.
  intros H f. induction f as [|p f IH]; intros c; cbn [fold_left plus fold_right]; [lia|]. rewrite IH, H. fold (plus h f). lia.
Qed.
Lemma plus_ext {A} (g h : A -> Z) l : (forall x, In x l -> g x = h x) -> plus g l = plus h l.
Proof. induction l as [|x l IH]; intros H; [reflexivity|]. cbn [plus fold_right]. rewrite (H x) by (left; reflexivity). f_equal. apply IH. intros y I. apply H. now right. Qed.
Lemma plus_flat {A B} (g : B -> Z) (k : A -> list B) l : plus g (flat_map k l) = plus (fun x => plus g (k x)) l.
Proof. induction l as [|x l IH]; [reflexivity|]. cbn [flat_map]. rewrite plus_app, IH. reflexivity. Qed.

Lemma construct_rest l : forall taken c, let r := snd (construct_all taken l c) in
  d_product r = d_product c /\ t_product r = t_product c /\ d_nature r = d_nature c /\ t_nature r = t_nature c /\ t_unc r = t_unc c /\ t_var r = t_var c /\
  d_volume r = d_volume c /\ t_volume r = t_volume c /\ d_par r = d_par c /\ t_par r = t_par c /\ d_var r = d_var c + Z.of_nat (length l).
Proof.
  induction l as [|x l IH]; intros taken c; cbn [construct_all snd length]; [repeat split; lia|].
  match goal with |- context [construct_all ?tk l ?a] => specialize (IH tk a) end. cbv zeta in *. flat.
  destruct IH as (-> & -> & -> & -> & -> & -> & -> & -> & -> & -> & ->). repeat split; lia.
Qed.
(** what the written variables do to the count of uncertainties *)
Definition loss (a : amount) : Z := if has_unc a then 1 - one_if (known_unc a) else 0.
Lemma construct_unc l : forall taken c, d_unc (snd (construct_all taken l c)) = d_unc c - plus (fun x => loss (snd x)) (fst (construct_all taken l c)).
Proof.
  induction l as [|x l IH]; intros taken c; cbn [construct_all snd fst]; [cbn; lia|]. rewrite IH, plus_app. flat. unfold loss at 2.
  destruct (str_in (fst x) taken); cbn [negb plus fold_right]; [lia|]. unfold loss. destruct (has_unc (snd x)), (known_unc (snd x)); cbn [one_if]; lia.
Qed.
Lemma construct_distinct l : forall taken c, NoDup (map fst l) -> (forall x, In x l -> ~ In (fst x) taken) -> fst (construct_all taken l c) = l.
Proof.
  induction l as [|x l IH]; intros taken c N D; cbn [construct_all fst]; [reflexivity|]. inversion N as [|a b Na Nb]; subst.
  assert (E : str_in (fst x) taken = false).
  { destruct (str_in (fst x) taken) eqn:E; [|reflexivity]. apply str_in_In in E. destruct (D x); [now left|exact E]. }
  rewrite E. cbn [negb app]. f_equal. apply IH; [exact Nb|]. intros y I [F|F].
  - apply Na. rewrite F. now apply in_map.
  - apply (D y); [now right|exact F].
Qed.
Lemma construct_nodup l : forall taken c, NoDup (map fst (fst (construct_all taken l c))) /\ (forall x, In x (fst (construct_all taken l c)) -> In x l /\ ~ In (fst x) taken)
  /\ (forall x, In x l -> In (fst x) taken \/ In (fst x) (map fst (fst (construct_all taken l c)))).
Proof.
  induction l as [|x l IH]; intros taken c; cbn [construct_all fst]; [split; [constructor|split; intros ? []]|].
  destruct (str_in (fst x) taken) eqn:E; cbn [negb app].
  - match goal with |- context [construct_all ?tk l ?a] => destruct (IH tk a) as (N & I & K) end. split; [exact N|]. split.
    + intros y Iy. apply I in Iy as (A & B). split; [now right|exact B].
    + intros y [<-|Iy]; [left; now apply str_in_In|now apply K].
  - assert (Nx : ~ In (fst x) taken) by (intros J; apply str_in_In in J; congruence).
    match goal with |- context [construct_all ?tk l ?a] => destruct (IH tk a) as (N & I & K) end. cbn [map]. split; [|split].
    + constructor; [|exact N]. intros J. apply in_map_iff in J as (y & Ey & J). apply I in J as (_ & J). apply J. now left.
    + intros y [<-|Iy]; [split; [now left|exact Nx]|]. apply I in Iy as (A & B). split; [now right|]. intros J. apply B. now right.
    + intros y [<-|Iy]; [right; now left|]. destruct (K y Iy) as [[F|F]|F]; [right; left; congruence|now left|right; now right].
Qed.

Lemma amounts_snd f : map snd (flat_map amounts_of f) = amounts f.
Proof.
  unfold amounts. induction f as [|p f IH]; [reflexivity|]. cbn [flat_map]. rewrite map_app, IH. f_equal. destruct p as [a [v|]| |]; reflexivity.
Qed.
Lemma labelled_length on l : forall k, Z.of_nat (length (labelled on k l)) = if on then plus (fun x => one_if (has_variable (snd x))) l else 0.
Proof.
  induction l as [|x l IH]; intros k; [now destruct on|]. cbn [labelled plus fold_right]. destruct on; cbn [andb]; [|now rewrite IH].
  destruct (has_variable (snd x)); cbn [length one_if]; specialize (IH (S k)) as I1; specialize (IH k) as I2; unfold plus in *; lia.
Qed.
Lemma labelled_off l k : labelled false k l = [].
Proof. induction l as [|x l IH]; [reflexivity|exact IH]. Qed.
Lemma labelled_named l names : forall k, map s_name (map snd l) = map Some names -> ~ In [] names -> labelled true k l = combine names (map snd l).
Proof.
  revert names. induction l as [|x l IH]; intros [|t names] k H N; cbn [map] in H; try discriminate; [reflexivity|].
  injection H as H1 H2. cbn [labelled map combine andb]. unfold has_variable, label. rewrite H1.
  destruct t as [|a t]; [exfalso; apply N; now left|]. cbn [truthy orb]. f_equal. apply IH; [exact H2|]. intros I. apply N. now right.
Qed.
Lemma combine_fst {A B} (l : list A) (l' : list B) : length l = length l' -> map fst (combine l l') = l /\ map snd (combine l l') = l'.
Proof. revert l'. induction l as [|x l IH]; intros [|y l'] H; try discriminate; [auto|]. injection H as H. destruct (IH l' H) as (E1 & E2). cbn [combine map fst snd]. now rewrite E1, E2. Qed.

Lemma truthy_iff o : truthy o = true <-> has_text o.
Proof.
  unfold has_text. destruct o as [[|a t]|]; cbn [truthy]; split; intros H; try discriminate.
  - destruct H as (t & E & N). injection E as <-. now contradiction N.
  - exists (a :: t). split; [reflexivity|discriminate].
  - reflexivity.
  - destruct H as (t & E & _). discriminate.
Qed.
Lemma varies_iff a : has_variable a = true <-> varies a.
Proof. unfold has_variable, varies. rewrite orb_true_iff, !truthy_iff. reflexivity. Qed.
Lemma count_plus {A} (P : A -> Prop) (p : A -> bool) l : (forall x, p x = true <-> P x) -> count P l (plus (fun x => one_if (p x)) l).
Proof.
  intros H. induction l as [|x l IH]; cbn [plus fold_right]; [constructor|]. fold (plus (fun x => one_if (p x)) l).
  destruct (p x) eqn:E; cbn [one_if]; [apply CountYes; [now apply H|exact IH]|]. replace (0 + _) with (plus (fun x => one_if (p x)) l) by lia.
  apply CountNo; [rewrite <- H; congruence|exact IH].
Qed.
Lemma known_iff a : known_unc a = true <-> known a.
Proof. unfold known_unc, known. destruct (s_unc a) as [[|]|]; split; intros H; congruence. Qed.
Lemma uncertain_iff a : has_unc a = true <-> uncertain a.
Proof. unfold has_unc, uncertain. destruct (s_unc a); split; intros H; congruence. Qed.
Lemma plus_nonneg {A} (g : A -> Z) l : (forall x, In x l -> 0 <= g x) -> 0 <= plus g l.
Proof. induction l as [|x l IH]; intros H; [cbn; lia|]. cbn [plus fold_right]. pose proof (H x (or_introl eq_refl)). fold (plus g l). specialize (IH (fun y I => H y (or_intror I))). lia. Qed.
Lemma plus_le {A} (g h : A -> Z) l : (forall x, In x l -> g x <= h x) -> plus g l <= plus h l.
Proof. induction l as [|x l IH]; intros H; [cbn; lia|]. cbn [plus fold_right]. pose proof (H x (or_introl eq_refl)). fold (plus g l) (plus h l). specialize (IH (fun y I => H y (or_intror I))). lia. Qed.
Lemma loss_nonneg a : 0 <= loss a.
Proof. unfold loss. destruct (has_unc a), (known_unc a); cbn; lia. Qed.

(** the counts of one file *)
Lemma file_counts on f : let r := one_file on f zero in let c := snd r in
  d_product c = tally product f /\ t_product c = tally product f /\ d_nature c = tally found f /\ t_nature c = tally nature f /\
  d_volume c = tally with_volume f /\ t_volume c = tally with_volume f /\ d_par c = tally parameter f /\ t_par c = tally parameter f /\
  t_unc c = plus (fun a => one_if (has_unc a)) (amounts f) /\ t_var c = plus (fun a => one_if (has_variable a)) (amounts f) /\
  d_var c = (if on then plus (fun a => one_if (has_variable a)) (amounts f) else 0) /\
  d_unc c = plus (fun a => one_if (known_unc a)) (exchanged f) - plus (fun x => loss (snd x)) (fst r).
Proof.
  cbv zeta. unfold one_file. set (l := labelled on 1 (flat_map amounts_of f)). set (c := fold_left _ f zero).
  pose proof (construct_rest l [] c) as H. cbv zeta in H. destruct H as (-> & -> & -> & -> & -> & -> & -> & -> & -> & -> & ->).
  rewrite construct_unc. rewrite !tally_plus.
  assert (L : Z.of_nat (length l) = if on then plus (fun a => one_if (has_variable a)) (amounts f) else 0).
  { unfold l. rewrite labelled_length. destruct on; [|reflexivity]. rewrite <- (amounts_snd f).
    clear. induction (flat_map amounts_of f) as [|x m IH]; [reflexivity|]. cbn [map plus fold_right]. unfold plus in IH. now rewrite IH. }
  assert (V : forall g, plus g (amounts f) = plus (fun p => plus g (match p with Product a v => a :: match v with Some x => [x] | None => [] end | Nature _ a => [a] | Setting a => [a] end)) f)
    by (intros g; unfold amounts; apply plus_flat).
  assert (X : forall g, plus g (exchanged f) = plus (fun p => plus g (match p with Product a _ => [a] | Nature true a => [a] | _ => [] end)) f)
    by (intros g; unfold exchanged; apply plus_flat).
  rewrite !V, X, L, V. unfold c.
  Ltac one g h := rewrite (fold_read g h); [cbn; try reflexivity; apply plus_ext; intros [a [v|]|m a|a] _; cbn [one_if product nature found parameter with_volume of_volume plus fold_right]; try destruct m; cbn [one_if plus fold_right]; lia | intros [a [v|]|m a|a] c'; cbn [read_piece d_product t_product d_nature t_nature d_unc t_unc d_var t_var d_volume t_volume d_par t_par of_volume one_if product nature found parameter with_volume plus fold_right]; try destruct m; cbn [one_if plus fold_right]; lia].
  repeat match goal with |- _ /\ _ => split end.
  - one d_product (fun p => one_if (product p)).
  - one t_product (fun p => one_if (product p)).
  - one d_nature (fun p => one_if (found p)).
  - one t_nature (fun p => one_if (nature p)).
  - one d_volume (fun p => one_if (with_volume p)).
  - one t_volume (fun p => one_if (with_volume p)).
  - one d_par (fun p => one_if (parameter p)).
  - one t_par (fun p => one_if (parameter p)).
  - one t_unc (fun p => plus (fun a => one_if (has_unc a)) (match p with Product a v => a :: match v with Some x => [x] | None => [] end | Nature _ a => [a] | Setting a => [a] end)).
  - one t_var (fun p => plus (fun a => one_if (has_variable a)) (match p with Product a v => a :: match v with Some x => [x] | None => [] end | Nature _ a => [a] | Setting a => [a] end)).
  - rewrite (fold_read d_var (fun _ => 0)); [|intros [a [v|]|m a|a] c'; cbn [read_piece d_var]; lia].
    replace (plus (fun _ => 0) f) with 0; [cbn; lia|]. clear. induction f; [reflexivity|exact IHf].
  - f_equal. one d_unc (fun p => plus (fun a => one_if (known_unc a)) (match p with Product a _ => [a] | Nature true a => [a] | _ => [] end)).
Qed.
