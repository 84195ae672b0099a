(** Lemmas about [PyBase]. *)
From Coq Require Import Ascii String List Bool Arith NArith ZArith Lia Permutation Sorted.
From Verif Require Import PyBase.
Import ListNotations.

Lemma str_eqb_eq a b : str_eqb a b = true <-> a = b.
Proof.
  revert b; induction a as [|x a IH]; intros [|y b]; simpl; try (split; congruence).
  rewrite andb_true_iff, N.eqb_eq, IH. split; [intros [-> ->]; auto | injection 1; auto].
Qed.
Lemma str_eqb_refl a : str_eqb a a = true.
Proof. now apply str_eqb_eq. Qed.
Lemma str_eqb_neq a b : str_eqb a b = false <-> a <> b.
Proof. rewrite <- str_eqb_eq. destruct (str_eqb a b); split; congruence. Qed.

Lemma str_in_In x l : str_in x l = true <-> In x l.
Proof.
  unfold str_in. rewrite existsb_exists. split.
  - intros [y [H E]]. apply str_eqb_eq in E. now subst.
  - intros H; exists x; split; auto using str_eqb_refl.
Qed.

Lemma str_dec (a b : pystr) : {a = b} + {a <> b}.
Proof. apply list_eq_dec, N.eq_dec. Qed.

Lemma prefixb_spec p s : prefixb p s = true <-> exists t, s = p ++ t.
Proof.
  revert s; induction p as [|x p IH]; intros s; simpl.
  - split; eauto.
  - destruct s as [|y s]; simpl.
    + split; [discriminate | intros [t E]; discriminate].
    + rewrite andb_true_iff, N.eqb_eq, IH. split.
      * intros [-> [t ->]]; eauto.
      * intros [t E]; injection E; intros; subst; eauto.
Qed.

Lemma lstrip_len s : length (lstrip s) <= length s.
Proof. induction s as [|c s IH]; simpl; [lia|]. destruct (is_space c); simpl; lia. Qed.
Lemma rstrip_len s : length (rstrip s) <= length s.
Proof. unfold rstrip. rewrite rev_length. rewrite <- (rev_length s). apply lstrip_len. Qed.
Lemma strip_len s : length (strip s) <= length s.
Proof. unfold strip. etransitivity; [apply rstrip_len | apply lstrip_len]. Qed.

(** filtering out a class of characters containing all white space is invariant under strip *)
Section Ink.
  Variable keep : N -> bool.
  Hypothesis keep_space : forall c, is_space c = true -> keep c = false.
  Lemma filter_lstrip s : filter keep (lstrip s) = filter keep s.
  Proof.
    induction s as [|c s IH]; simpl; auto.
    destruct (is_space c) eqn:E; auto. rewrite (keep_space c E). exact IH.
  Qed.
  Lemma filter_rev (s : pystr) : filter keep (rev s) = rev (filter keep s).
  Proof.
    induction s as [|c s IH]; simpl; auto.
    rewrite filter_app, IH; simpl. destruct (keep c); simpl; auto. now rewrite app_nil_r.
  Qed.
  Lemma filter_rstrip s : filter keep (rstrip s) = filter keep s.
  Proof. unfold rstrip. now rewrite filter_rev, filter_lstrip, filter_rev, rev_involutive. Qed.
  Lemma filter_strip s : filter keep (strip s) = filter keep s.
  Proof. unfold strip. now rewrite filter_rstrip, filter_lstrip. Qed.
  Lemma filter_isspace s : isspace s = true -> filter keep s = [].
  Proof.
    destruct s as [|c s]; simpl; [discriminate|].
    rewrite andb_true_iff. intros [Hc Hs]. rewrite (keep_space c Hc).
    induction s as [|d s IH]; simpl in *; auto.
    apply andb_true_iff in Hs as [Hd Hs]. rewrite (keep_space d Hd). auto.
  Qed.
End Ink.

(** Sorting *)
Section SortFacts.
  Context {A : Type} (leb : A -> A -> bool).
  Lemma insert_perm x l : Permutation (insert leb x l) (x :: l).
  Proof.
    induction l as [|y l IH]; simpl; auto.
    destruct (leb x y); auto.
    eapply perm_trans; [apply perm_skip, IH | apply perm_swap].
  Qed.
  Lemma isort_perm l : Permutation (isort leb l) l.
  Proof.
    induction l as [|x l IH]; simpl; auto.
    eapply perm_trans; [apply insert_perm | now apply perm_skip].
  Qed.
  Lemma isort_length l : length (isort leb l) = length l.
  Proof. apply Permutation_length, isort_perm. Qed.
  Hypothesis total : forall x y, leb x y = true \/ leb y x = true.
  Hypothesis trans : forall x y z, leb x y = true -> leb y z = true -> leb x z = true.
  Lemma insert_sorted x l :
    StronglySorted (fun a b => leb a b = true) l ->
    StronglySorted (fun a b => leb a b = true) (insert leb x l).
  Proof.
    induction l as [|y l IH]; intros H; simpl.
    - repeat constructor.
    - destruct (leb x y) eqn:E.
      + constructor; auto. constructor; auto.
        inversion H; subst. eapply Forall_impl; [|eassumption].
        simpl; intros. eauto.
      + inversion H; subst. constructor; auto.
        eapply Permutation_Forall; [apply Permutation_sym, insert_perm|].
        constructor; auto. destruct (total x y); congruence.
  Qed.
  Lemma isort_sorted l : StronglySorted (fun a b => leb a b = true) (isort leb l).
  Proof. induction l; simpl; [constructor | now apply insert_sorted]. Qed.
  (** stability: elements of one key class (mutually [leb], closed) keep their order *)
  Lemma insert_filter_in (p : A -> bool) x l :
    (forall a b, p a = true -> p b = true -> leb a b = true) ->
    p x = true -> filter p (insert leb x l) = x :: filter p l.
  Proof.
    intros Hp Hx. induction l as [|y l IH]; simpl.
    - now rewrite Hx.
    - destruct (leb x y) eqn:E; simpl; [now rewrite Hx|].
      destruct (p y) eqn:Py; auto.
      rewrite (Hp x y Hx Py) in E. discriminate.
  Qed.
  Lemma insert_filter_out (p : A -> bool) x l :
    p x = false -> filter p (insert leb x l) = filter p l.
  Proof.
    intros Hx. induction l as [|y l IH]; simpl; [now rewrite Hx|].
    destruct (leb x y); simpl; [now rewrite Hx|]. destruct (p y); now rewrite IH.
  Qed.
  Lemma isort_stable (p : A -> bool) l :
    (forall a b, p a = true -> p b = true -> leb a b = true) ->
    filter p (isort leb l) = filter p l.
  Proof.
    intros Hp. induction l as [|x l IH]; simpl; auto.
    destruct (p x) eqn:E.
    - rewrite insert_filter_in; auto. now rewrite IH.
    - rewrite insert_filter_out; auto.
  Qed.
End SortFacts.

Lemma str_leb_total a b : str_leb a b = true \/ str_leb b a = true.
Proof.
  revert b; induction a as [|x a IH]; intros [|y b]; simpl; auto.
  destruct (N.eqb_spec x y).
  - subst. rewrite N.eqb_refl. apply IH.
  - destruct (N.eqb_spec y x); [congruence|].
    rewrite !N.ltb_lt. lia.
Qed.
Lemma str_leb_trans a b c : str_leb a b = true -> str_leb b c = true -> str_leb a c = true.
Proof.
  revert b c; induction a as [|x a IH]; intros [|y b] [|z c]; simpl; auto; try discriminate.
  destruct (N.eqb_spec x y), (N.eqb_spec y z), (N.eqb_spec x z); subst; try congruence;
    rewrite ?N.ltb_lt; try lia; eauto.
Qed.
Lemma str_leb_refl a : str_leb a a = true.
Proof. destruct (str_leb_total a a); auto. Qed.
Lemma str_leb_antisym a b : str_leb a b = true -> str_leb b a = true -> a = b.
Proof.
  revert b; induction a as [|x a IH]; intros [|y b]; simpl; auto; try discriminate.
  destruct (N.eqb_spec x y).
  - subst. rewrite N.eqb_refl. intros; f_equal; auto.
  - destruct (N.eqb_spec y x); [congruence|]. rewrite !N.ltb_lt; lia.
Qed.

(** split / join *)
Lemma split_aux_nonnil sep k acc s : split_aux sep k acc s <> [].
Proof.
  revert k acc; induction s as [|c s IH]; intros k acc; simpl; [discriminate|].
  destruct k; [destruct (prefixb sep (c::s)); [discriminate|]|]; apply IH.
Qed.
Lemma split_nonnil sep s : split sep s <> [].
Proof. apply split_aux_nonnil. Qed.

Lemma join_cons sep x l : l <> [] -> join sep (x :: l) = x ++ sep ++ join sep l.
Proof. destruct l; [congruence | reflexivity]. Qed.

(** single character separators *)
Lemma split1_join_aux c acc s :
  join [c] (split_aux [c] 0 acc s) = rev acc ++ s.
Proof.
  revert acc; induction s as [|d s IH]; intros acc; simpl.
  - now rewrite app_nil_r.
  - destruct (N.eqb_spec c d) as [->|]; simpl.
    + change (join [d] (rev acc :: split_aux [d] 0 [] s) = rev acc ++ d :: s).
      rewrite join_cons by apply split_aux_nonnil. rewrite IH. reflexivity.
    + rewrite IH. simpl. now rewrite <- app_assoc.
Qed.
Lemma split1_join c s : join [c] (split [c] s) = s.
Proof. apply split1_join_aux. Qed.

(** general separators: join of split with the same separator is the identity *)
Lemma split_join_aux sep : sep <> [] -> forall s k acc, k <= length s ->
  join sep (split_aux sep k acc s) = rev acc ++ skipn k s.
Proof.
  intros Hs s. induction s as [|c s IH]; intros k acc Hk.
  - simpl in *. destruct k; simpl; now rewrite app_nil_r.
  - destruct k.
    + cbn [split_aux]. destruct (prefixb sep (c :: s)) eqn:E.
      * rewrite join_cons by apply split_aux_nonnil.
        apply prefixb_spec in E as [t E].
        destruct sep as [|x sep]; [congruence|]. simpl in E. injection E; intros -> ->.
        simpl length. rewrite Nat.sub_succ, Nat.sub_0_r.
        rewrite IH by (rewrite app_length; lia).
        rewrite skipn_app, skipn_all, Nat.sub_diag. simpl. reflexivity.
      * rewrite IH by lia. simpl. now rewrite <- app_assoc.
    + cbn [split_aux]. rewrite IH by (simpl in *; lia). reflexivity.
Qed.
Lemma split_join sep s : sep <> [] -> join sep (split sep s) = s.
Proof. intros H. unfold split. rewrite split_join_aux; auto; lia. Qed.

Lemma In_split1_nosep c acc s x :
  ~ In c acc -> In x (split_aux [c] 0 acc s) -> ~ In c x.
Proof.
  revert acc; induction s as [|d s IH]; intros acc Ha; simpl.
  - intros [<-|[]]. now rewrite <- in_rev.
  - destruct (N.eqb_spec c d); simpl.
    + intros [<-|H]; [now rewrite <- in_rev|]. eapply IH; [|exact H]; auto.
    + apply IH. simpl; intuition.
Qed.
Lemma split1_nosep c s x : In x (split [c] s) -> ~ In c x.
Proof. apply In_split1_nosep; auto. Qed.

Lemma join_In c sep l : In c (join sep l) -> In c sep \/ exists x, In x l /\ In c x.
Proof.
  induction l as [|x l IH]; simpl; [tauto|].
  destruct l as [|y l]; [intros; right; eauto|].
  rewrite !in_app_iff. intros [H|[H|H]]; eauto.
  destruct (IH H) as [|[z [? ?]]]; eauto.
Qed.

Lemma mapM_ok_length {A B} (f : A -> result B) l ys :
  mapM f l = Ok ys -> length ys = length l.
Proof.
  revert ys; induction l as [|x l IH]; simpl; intros ys H; [now injection H; intros <-|].
  destruct (f x); simpl in H; [|discriminate].
  destruct (mapM f l); simpl in H; [|discriminate]. injection H; intros <-; simpl. f_equal; auto.
Qed.
Lemma mapM_forall2 {A B} (f : A -> result B) l ys :
  mapM f l = Ok ys <-> Forall2 (fun x y => f x = Ok y) l ys.
Proof.
  revert ys; induction l as [|x l IH]; intros ys; simpl.
  - split; [injection 1; intros <-; constructor | inversion 1; auto].
  - split.
    + destruct (f x) eqn:E; simpl; [|discriminate].
      destruct (mapM f l) eqn:E2; simpl; [|discriminate].
      injection 1; intros <-. constructor; auto. now apply IH.
    + inversion 1; subst. rewrite H2; simpl.
      apply IH in H4. now rewrite H4.
Qed.

Lemma notin_b (c : N) s : existsb (N.eqb c) s = false -> ~ In c s.
Proof.
  intros H Hin. assert (existsb (N.eqb c) s = true); [|congruence].
  apply existsb_exists. exists c; split; auto. apply N.eqb_refl.
Qed.
Lemma Forall_b {A} (p : A -> bool) (P : A -> Prop) l :
  (forall x, p x = true -> P x) -> forallb p l = true -> Forall P l.
Proof. intros H Hl. apply Forall_forall. intros x Hx. apply H. rewrite forallb_forall in Hl; auto. Qed.
