(** Texts in which marked places are replaced one after the other. *)
From Coq Require Import Ascii String List Bool Arith NArith ZArith Lia.
From Verif Require Import PyBase PyBaseFacts PyValues DotDictModel CommentSpec CommentProofs TextFacts.
Import ListNotations.

(** no occurrence of [w] starts inside [t] when [t] is followed by [s] *)
Definition quiet (w t s : pystr) : Prop := forall a c b, t = a ++ c :: b -> prefixb w (c :: b ++ s) = false.

Lemma quiet_nil w s : quiet w [] s.
Proof. intros a c b E. destruct a; discriminate. Qed.
Lemma quiet_cons w c t s : prefixb w (c :: t ++ s) = false -> quiet w t s -> quiet w (c :: t) s.
Proof.
  intros H Q a d b E. destruct a as [|x a]; cbn in E.
  - now injection E as <- <-.
  - injection E as <- ->. now apply (Q a).
Qed.
Lemma quiet_app w t1 t2 s : quiet w t1 (t2 ++ s) -> quiet w t2 s -> quiet w (t1 ++ t2) s.
Proof.
  intros H1 H2. induction t1 as [|c t1 IH]; [exact H2|]. cbn [app]. apply quiet_cons.
  - rewrite <- app_assoc. exact (H1 [] c t1 eq_refl).
  - apply IH. intros a d b E. apply (H1 (c :: a)). now rewrite E.
Qed.
Lemma prefixb_app_false w v s : prefixb w s = false -> prefixb (w ++ v) s = false.
Proof.
  intro H. apply not_true_iff_false. intro P. apply prefixb_spec in P as [t ->]. rewrite <- app_assoc in H. now rewrite prefixb_app in H.
Qed.
Lemma quiet_longer w v t s : quiet w t s -> quiet (w ++ v) t s.
Proof. intros H a c b E. apply prefixb_app_false, (H a c b E). Qed.
(** what follows begins with a character that is not in the word, or with nothing *)
Lemma quiet_break w t c s : ~ In c w -> ~ occurs w t -> quiet w t (c :: s).
Proof.
  intros Hc Ho a d b E. apply not_true_iff_false. intro P. apply prefixb_spec in P as [r P].
  change (d :: b ++ c :: s) with ((d :: b) ++ c :: s) in P.
  destruct (app_eq_split _ _ _ _ P) as [(x & Ex & Et)|(x & Ex & _)].
  - destruct x as [|y x].
    + apply Ho. exists a, []. rewrite app_nil_r in *. now rewrite E, Ex.
    + injection Et as <- _. apply Hc. rewrite Ex. apply in_or_app. right. now left.
  - apply Ho. exists a, x. now rewrite E, Ex.
Qed.
Lemma quiet_end w t : ~ occurs w t -> quiet w t [].
Proof. intros Ho a c b E. rewrite app_nil_r. apply (not_occurs_suffix w a). now rewrite <- E. Qed.
Lemma quiet_first c w t s : ~ In c w -> ~ occurs (c :: w) t -> quiet (c :: w) t (c :: s).
Proof. intros H1 H2 a d b E. now apply (prefixb_cross c w t s H1 H2 a). Qed.
(** the text ends with a character that is not in the word *)
Lemma quiet_closed w t c s : ~ In c w -> w <> [] -> ~ occurs w t -> quiet w (t ++ [c]) s.
Proof.
  intros Hc N Ho. apply quiet_app; [now apply quiet_break|]. apply quiet_cons; [|apply quiet_nil].
  destruct w as [|d w]; [contradiction|]. cbn. destruct (N.eqb_spec d c) as [-> | _]; [|reflexivity]. exfalso. apply Hc. now left.
Qed.
Lemma replace_quiet old new t s : quiet old t s -> replace old new (t ++ s) = t ++ replace old new s.
Proof. intro Q. apply replace_front. exact Q. Qed.

(** ** pieces *)
Inductive piece := Open (a : pystr) | Done (t : pystr).
Section S.
(** the opening mark is [word ++ extra] *)
Variables (extra closing : pystr) (first : N) (rest : pystr).
Let word : pystr := first :: rest.
Let opening : pystr := word ++ extra.
Hypothesis Hfirst : ~ In first rest.
Definition ptext (p : piece) : pystr := match p with Open a => opening ++ a ++ closing | Done t => t end.
Fixpoint stext (l : list (pystr * piece)) (tail : pystr) : pystr :=
  match l with [] => tail | (p, x) :: l' => p ++ ptext x ++ stext l' tail end.
(** an argument is closed by the first closing mark *)
Definition arg_ok (a : pystr) : Prop := forall s, quiet closing a (closing ++ s).
Definition piece_ok (x : piece) : Prop :=
  match x with
  | Open a => arg_ok a /\ forall s, quiet word (rest ++ extra ++ a ++ closing) s
  | Done t => (forall s, quiet word t s) /\ exists c u, t = c :: u /\ ~ In c word
  end.
Definition segs_ok (l : list (pystr * piece)) (tail : pystr) : Prop :=
  Forall (fun px => ~ occurs word (fst px) /\ piece_ok (snd px)) l /\ ~ occurs word tail.
Definition upd (a new : pystr) (px : pystr * piece) : pystr * piece :=
  match snd px with
  | Open a' => if str_eqb a' a then (fst px, Done new) else px
  | Done _ => px
  end.
Lemma closing_unique a a' s s' : closing <> [] -> arg_ok a -> arg_ok a' -> a ++ closing ++ s = a' ++ closing ++ s' -> a = a'.
Proof.
  intros N H H' E. destruct (app_eq_split _ _ _ _ E) as [(x & Ex & Et)|(x & Ex & Et)].
  - destruct x as [|c x]; [now rewrite app_nil_r in Ex|]. exfalso.
    pose proof (H' s' a c x Ex) as Q. change (c :: x ++ closing ++ s') with ((c :: x) ++ closing ++ s') in Q. rewrite <- Et in Q. now rewrite prefixb_app in Q.
  - destruct x as [|c x]; [now rewrite app_nil_r in Ex|]. exfalso.
    pose proof (H s a' c x Ex) as Q. change (c :: x ++ closing ++ s) with ((c :: x) ++ closing ++ s) in Q. rewrite <- Et in Q. now rewrite prefixb_app in Q.
Qed.
Lemma opening_longer t s a : quiet word t s -> quiet (opening ++ a) t s.
Proof. intro Q. unfold opening. rewrite <- app_assoc. now apply quiet_longer. Qed.
Lemma replace_segs a new : closing <> [] -> arg_ok a -> forall l tail, segs_ok l tail ->
  replace (opening ++ a ++ closing) new (stext l tail) = stext (map (upd a new) l) tail.
Proof.
  intros Nc Ha. induction l as [|[p x] l IH]; intros tail [Hl Ht].
  - cbn [stext map]. apply replace_absent; [discriminate|].
    intros (u & v & E). apply Ht. exists u, (extra ++ (a ++ closing) ++ v). rewrite E. unfold opening. now rewrite <- !app_assoc.
  - inversion Hl as [|? ? [Hp Hx] Hl']; subst x0 l0. cbn [fst snd] in Hp, Hx. specialize (IH tail (conj Hl' Ht)). cbn [stext map].
    destruct x as [a'|t].
    + assert (Qp : forall s, quiet word p (opening ++ s)) by (intro s; apply quiet_first; assumption).
      destruct Hx as [Ha' Hr]. cbn [ptext]. unfold upd at 1. cbn [snd fst]. destruct (str_eqb a' a) eqn:Ea.
      * apply str_eqb_eq in Ea. subst a'. cbn [stext ptext]. rewrite replace_quiet.
        -- f_equal. rewrite replace_hit by discriminate. now rewrite IH.
        -- apply opening_longer. rewrite <- !app_assoc. apply Qp.
      * cbn [stext ptext]. rewrite replace_quiet.
        -- f_equal.
           rewrite (replace_quiet (opening ++ a ++ closing) new (opening ++ a' ++ closing)); [now rewrite IH|].
           replace (opening ++ a' ++ closing) with (first :: rest ++ extra ++ a' ++ closing) by (unfold opening, word; now rewrite <- app_assoc).
           apply quiet_cons; [|apply opening_longer; apply Hr].
           apply not_true_iff_false. intro P. apply prefixb_spec in P as [r P].
           assert (P' : opening ++ a' ++ closing ++ stext l tail = opening ++ a ++ closing ++ r).
           { rewrite <- !app_assoc in P. cbn [app] in P. rewrite <- P. unfold opening, word. cbn [app]. now rewrite <- !app_assoc. }
           apply app_inv_head in P'. apply closing_unique in P'; auto. subst a'. now rewrite str_eqb_refl in Ea.
        -- apply opening_longer. rewrite <- !app_assoc. apply Qp.
    + destruct Hx as [Hq (c & u & Et & Hc)]. unfold upd at 1. cbn [snd fst stext ptext]. rewrite replace_quiet.
      * f_equal. rewrite replace_quiet; [now rewrite IH|]. apply opening_longer. apply Hq.
      * apply opening_longer. rewrite Et. cbn [app]. apply quiet_break; auto.
Qed.
Lemma upd_ok a new l tail : segs_ok l tail -> piece_ok (Done new) -> segs_ok (map (upd a new) l) tail.
Proof.
  intros [Hl Ht] Hn. split; [|exact Ht]. rewrite Forall_forall in *. intros px I. apply in_map_iff in I as (qx & <- & I).
  specialize (Hl qx I) as [Hp Hx]. unfold upd. destruct (snd qx) as [a'|t] eqn:E.
  - destruct (str_eqb a' a); cbn [fst snd]; [auto|]. rewrite E. auto.
  - rewrite E. auto.
Qed.
(** replacing the arguments one after the other *)
Variable image : pystr -> pystr.
Definition upds (es : list pystr) (px : pystr * piece) : pystr * piece :=
  match snd px with
  | Open a => if str_in a es then (fst px, Done (image a)) else px
  | Done _ => px
  end.
Lemma upds_nil l : map (upds []) l = l.
Proof. rewrite <- (map_id l) at 2. apply map_ext. intros [p [a|t]]; reflexivity. Qed.
Lemma upds_snoc es e px : upd e (image e) (upds es px) = upds (es ++ [e]) px.
Proof using image. clear - image.
  destruct px as [p [a|t]]; [|reflexivity]. unfold upds, upd. cbn [snd fst].
  replace (str_in a (es ++ [e])) with (str_in a es || str_eqb a e).
  - destruct (str_in a es); cbn; [reflexivity|]. destruct (str_eqb a e) eqn:E; [|reflexivity]. apply str_eqb_eq in E. now subst e.
  - apply eq_true_iff_eq. rewrite orb_true_iff, !str_in_In, in_app_iff, str_eqb_eq. cbn [In]. split; intros H; destruct H as [H|H]; auto. destruct H as [H|[]]; auto.
Qed.
Definition opens (l : list (pystr * piece)) : list pystr := flat_map (fun px => match snd px with Open a => [a] | Done _ => [] end) l.
Fixpoint final (l : list (pystr * piece)) (tail : pystr) : pystr :=
  match l with [] => tail | (p, x) :: l' => p ++ match x with Open a => image a | Done t => t end ++ final l' tail end.
Lemma upds_all l tail : stext (map (upds (opens l)) l) tail = final l tail.
Proof.
  assert (G : forall es, incl (opens l) es -> stext (map (upds es) l) tail = final l tail); [|apply G, incl_refl].
  induction l as [|[p x] l IH]; intros es H; [reflexivity|]. cbn [map stext final].
  assert (Hl : incl (opens l) es) by (intros y Hy; apply H; unfold opens; cbn [flat_map]; apply in_or_app; now right).
  rewrite <- (IH es Hl). unfold upds at 1. cbn [snd fst]. destruct x as [a|t]; [|reflexivity].
  assert (I : In a es) by (apply H; now left). apply str_in_In in I. rewrite I. reflexivity.
Qed.
End S.
