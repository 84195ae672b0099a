(** General facts on replacing and splitting texts. *)
From Coq Require Import Ascii String List Bool Arith NArith ZArith Lia.
From Verif Require Import PyBase PyBaseFacts CommentSpec CommentProofs.
Import ListNotations.

Lemma join_acc new old : forall s k acc, join new (split_aux old k acc s) = rev acc ++ join new (split_aux old k [] s).
Proof.
  induction s as [|c s IH]; intros k acc; cbn [split_aux].
  - cbn [join rev app]. now rewrite app_nil_r.
  - destruct k.
    + destruct (prefixb old (c :: s)).
      * rewrite !join_cons by apply split_aux_nonnil. reflexivity.
      * rewrite (IH 0 (c :: acc)), (IH 0 [c]). cbn [rev app]. now rewrite <- app_assoc.
    + apply IH.
Qed.
Lemma split_aux_skip old k : forall s acc, k <= length s -> split_aux old k acc s = split_aux old 0 acc (skipn k s).
Proof.
  induction k as [|k IH]; intros s acc H; [reflexivity|]. destruct s as [|c s]; [cbn in H; lia|].
  cbn [split_aux skipn]. apply IH. cbn in H. lia.
Qed.
Lemma replace_nil old new : replace old new [] = [].
Proof. reflexivity. Qed.
Lemma replace_miss old new c s : prefixb old (c :: s) = false -> replace old new (c :: s) = c :: replace old new s.
Proof. intro H. unfold replace, split. cbn [split_aux]. rewrite H. now rewrite join_acc. Qed.
Lemma replace_hit old new s : old <> [] -> replace old new (old ++ s) = new ++ replace old new s.
Proof.
  intro N. destruct old as [|d old]; [contradiction|]. unfold replace, split. cbn [app split_aux].
  change (d :: old ++ s) with ((d :: old) ++ s). rewrite prefixb_app. rewrite join_cons by apply split_aux_nonnil.
  cbn [rev app length]. rewrite Nat.sub_succ, Nat.sub_0_r. f_equal. f_equal. apply split_skip.
Qed.
(** nothing to replace in front *)
Lemma replace_front old new p s : (forall a c b, p = a ++ c :: b -> prefixb old (c :: b ++ s) = false) ->
  replace old new (p ++ s) = p ++ replace old new s.
Proof.
  induction p as [|c p IH]; intro H; [reflexivity|]. cbn [app]. rewrite replace_miss by exact (H [] c p eq_refl).
  f_equal. apply IH. intros a d b E. apply (H (c :: a)). now rewrite E.
Qed.
Lemma replace_absent old new s : old <> [] -> ~ occurs old s -> replace old new s = s.
Proof.
  intros N H. rewrite <- (app_nil_r s) at 1. rewrite replace_front; [now rewrite replace_nil, app_nil_r|].
  intros a c b E. rewrite app_nil_r. apply (not_occurs_suffix old a). now rewrite <- E.
Qed.
(** a text whose first character does not come again inside cannot start in front of one of its occurrences *)
Lemma prefixb_cross c w p s : ~ In c w -> ~ occurs (c :: w) p ->
  forall a d b, p = a ++ d :: b -> prefixb (c :: w) (d :: b ++ c :: s) = false.
Proof.
  intros Hw Hp a d b E. destruct (prefixb (c :: w) (d :: b ++ c :: s)) eqn:P; [|reflexivity]. exfalso.
  apply prefixb_spec in P as [t P]. injection P as -> P.
  destruct (app_eq_split _ _ _ _ P) as [(x & Ex & Et)|(x & -> & Ex)].
  - destruct x as [|y x].
    + apply Hp. exists a, []. rewrite app_nil_r in Ex. now rewrite app_nil_r, E, Ex.
    + cbn in Et. injection Et as <- _. apply Hw. rewrite Ex. apply in_or_app. right. now left.
  - apply Hp. exists a, x. now rewrite E.
Qed.
(** the same for a text whose last character is not inside *)
Lemma prefixb_cross_last c m p s : ~ In c m -> ~ occurs (m ++ [c]) p ->
  forall a d b, p = a ++ d :: b -> prefixb (m ++ [c]) (d :: b ++ (m ++ [c]) ++ s) = false.
Proof.
  intros Hm Hp a d b E. destruct (prefixb (m ++ [c]) (d :: b ++ (m ++ [c]) ++ s)) eqn:P; [|reflexivity]. exfalso.
  apply prefixb_spec in P as [t P]. change (d :: b ++ (m ++ [c]) ++ s) with ((d :: b) ++ (m ++ [c]) ++ s) in P.
  destruct (app_eq_split _ _ _ _ P) as [(x & Ex & Et)|(x & Ex & _)].
  - destruct x as [|x0 x].
    + apply Hp. exists a, []. rewrite app_nil_r in Ex. rewrite app_nil_r, E. now rewrite Ex.
    + destruct (exists_last (l := x0 :: x)) as (y & z & Hy); [discriminate|]. rewrite Hy in Ex, Et.
      assert (L : List.length (d :: b) + List.length (y ++ [z]) = List.length m + 1)
        by (apply (f_equal (@List.length N)) in Ex; rewrite !app_length in Ex; cbn [List.length] in *; rewrite app_length; cbn [List.length]; lia).
      rewrite app_assoc in Ex. apply app_inj_tail in Ex as [_ <-].
      rewrite <- app_assoc in Et. destruct (app_eq_split _ _ _ _ Et) as [(w & Ew & _)|(w & -> & _)].
      * rewrite app_length in L. cbn [List.length] in L. apply (f_equal (@List.length N)) in Ew as El. rewrite !app_length in El. cbn in El.
        assert (w = []) by (destruct w; [reflexivity|cbn in El; lia]). subst w. rewrite app_nil_r in Ew. apply Hm. rewrite <- Ew || rewrite Ew. apply in_or_app. right. now left.
      * apply Hm. apply in_or_app. left. apply in_or_app. right. now left.
  - apply Hp. exists a, x. now rewrite E, Ex.
Qed.
Lemma replace1_char c new s : replace [c] new s = flat_map (fun d => if N.eqb c d then new else [d]) s.
Proof.
  induction s as [|d s IH]; [reflexivity|]. cbn [flat_map]. destruct (N.eqb_spec c d) as [->|N].
  - change (d :: s) with ([d] ++ s). rewrite replace_hit by discriminate. now rewrite IH.
  - rewrite replace_miss; [|cbn; apply N.eqb_neq in N; now rewrite N]. now rewrite IH.
Qed.

(** stripping *)
Lemma strip_id c s d : is_space c = false -> is_space d = false -> strip (c :: s ++ [d]) = c :: s ++ [d].
Proof.
  intros Hc Hd. unfold strip, rstrip. cbn [lstrip]. rewrite Hc. cbn [rev]. rewrite rev_app_distr. cbn [rev app lstrip]. rewrite Hd.
  cbn [rev]. rewrite rev_app_distr, rev_involutive. reflexivity.
Qed.
