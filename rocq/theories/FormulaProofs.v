(** Corrections of formulas: lemmas. *)
From Coq Require Import Ascii String List Bool Arith NArith ZArith Lia.
From Verif Require Import PyBase PyBaseFacts PyValues DotDictModel DotDictProofs CommentSpec CommentProofs TextFacts SegmentFacts
  VariableModel VariableSpec VariableProofs.
Import ListNotations.

(** ** finding the calls *)
Definition U : N := 85%N.
Definition nit : pystr := lit "nitConversion".
Lemma uc_eq : uc_word = U :: nit. Proof. reflexivity. Qed.
Lemma U_nit : ~ In U nit.
Proof. intro I. cbn in I. repeat destruct I as [I|I]; try discriminate I. exact I. Qed.

(** a text that does not end a word, whatever stands before *)
Definition calm (n p : pystr) : Prop := forall a c b, p = a ++ c :: b -> prefixb (rev uc_word) (c :: rev a ++ n) = false.
Lemma calm_intro n p : (n = [] \/ exists c n', n = c :: n' /\ ~ In c uc_word) -> ~ occurs uc_word p -> calm n p.
Proof.
  intros Hn Ho a c b E. apply not_true_iff_false. intro P. apply prefixb_spec in P as [t P].
  change (c :: rev a ++ n) with ((c :: rev a) ++ n) in P.
  replace (c :: rev a) with (rev (a ++ [c])) in P by now rewrite rev_app_distr.
  destruct (app_eq_split _ _ _ _ P) as [(x & Ex & Et)|(x & Ex & _)].
  - destruct x as [|y x].
    + rewrite app_nil_r in Ex. apply (f_equal (@rev N)) in Ex. rewrite (rev_involutive (a ++ [c])) in Ex. change (rev (rev uc_word)) with uc_word in Ex.
      apply Ho. exists [], b. cbn [app]. rewrite Ex, <- app_assoc. exact E.
    + destruct Hn as [-> | (d & n' & -> & Hd)]; [discriminate|]. injection Et as <- _.
      apply Hd. apply in_rev. rewrite Ex. apply in_or_app. right. now left.
  - apply (f_equal (@rev N)) in Ex. rewrite (rev_involutive (a ++ [c])), (rev_app_distr (rev uc_word) x) in Ex.
    change (rev (rev uc_word)) with uc_word in Ex. apply Ho. exists (rev x), b. rewrite E. change (c :: b) with ([c] ++ b). rewrite app_assoc, Ex, <- app_assoc. reflexivity.
Qed.
Lemma calm_cons n c p : calm n (c :: p) -> prefixb (rev uc_word) (c :: n) = false /\ calm (c :: n) p.
Proof.
  intro H. split; [exact (H [] c p eq_refl)|]. intros a d b E. specialize (H (c :: a) d b). cbn [rev app] in H.
  rewrite <- app_assoc in H. apply H. now rewrite E.
Qed.
Lemma scan_quiet : forall p s, s_i s = false -> calm (s_n s) p ->
  fold_left scan_step p s = {| s_b := s_b s; s_i := false; s_n := rev p ++ s_n s; s_m := s_m s; s_f := s_f s |}.
Proof.
  induction p as [|c p IH]; intros s Hi Hc.
  - destruct s; cbn in *. now rewrite Hi.
  - apply calm_cons in Hc as [H1 H2]. cbn [fold_left].
    assert (E : scan_step s c = {| s_b := s_b s; s_i := false; s_n := c :: s_n s; s_m := s_m s; s_f := s_f s |}).
    { unfold scan_step. rewrite H1, Hi, !andb_false_r. reflexivity. }
    rewrite E, IH; cbn; [|reflexivity|exact H2]. now rewrite <- app_assoc.
Qed.
Lemma scan_args : forall p s, s_i s = true -> ~ In (ch "(") p -> ~ In (ch ")") p -> calm (s_n s) p ->
  fold_left scan_step p s = {| s_b := s_b s; s_i := true; s_n := rev p ++ s_n s; s_m := rev p ++ s_m s; s_f := s_f s |}.
Proof.
  induction p as [|c p IH]; intros s Hi H1 H2 Hc.
  - destruct s; cbn in *. now rewrite Hi.
  - apply calm_cons in Hc as [H3 H4]. cbn [fold_left].
    assert (E : scan_step s c = {| s_b := s_b s; s_i := true; s_n := c :: s_n s; s_m := c :: s_m s; s_f := s_f s |}).
    { unfold scan_step. rewrite H3, Hi.
      destruct (N.eqb_spec c (ch "(")) as [-> | _]; [exfalso; apply H1; now left|].
      destruct (N.eqb_spec c (ch ")")) as [-> | _]; [exfalso; apply H2; now left|]. reflexivity. }
    rewrite E, IH; cbn; [now rewrite <- !app_assoc|reflexivity| | |exact H4]; intro I; [apply H1|apply H2]; now right.
Qed.
Lemma no_uc_cut p : ~ occurs uc_word p -> ~ occurs uc_word (p ++ lit "UnitConversio").
Proof.
  intros Hp (x & y & E). destruct (app_eq_split _ _ _ _ E) as [(u & Ex & Eu)|(u & Ep & Eu)].
  - symmetry in Eu.
    destruct u as [|c u].
    + cbn [app] in Eu. apply (f_equal (@List.length N)) in Eu. rewrite app_length in Eu. cbn in Eu. lia.
    + apply (f_equal (@List.length N)) in Eu. cbn [List.length] in Eu. rewrite !app_length in Eu. cbn in Eu. lia.
  - destruct u as [|c u].
    + cbn [app] in Eu. apply (f_equal (@List.length N)) in Eu. rewrite !app_length in Eu. cbn in Eu. lia.
    + assert (Q : prefixb uc_word (c :: u ++ U :: lit "nitConversio") = false).
      { rewrite uc_eq. apply (prefixb_cross U nit p (lit "nitConversio") U_nit Hp x c u Ep). }
      assert (P : prefixb uc_word (c :: u ++ U :: lit "nitConversio") = true).
      { apply prefixb_spec. exists y. exact (eq_sym Eu). }
      congruence.
Qed.
Lemma scan_close n a f :
  scan_step {| s_b := 1; s_i := true; s_n := n; s_m := rev a ++ [ch "("]; s_f := f |} (ch ")") =
  {| s_b := 0; s_i := false; s_n := ch ")" :: n; s_m := []; s_f := f ++ [a] |}.
Proof.
  assert (E : removelast (tl (rev (ch ")" :: rev a ++ [ch "("]))) = a).
  { replace (rev (ch ")" :: rev a ++ [ch "("])) with (ch "(" :: a ++ [ch ")"]).
    - cbn [tl]. now rewrite removelast_last.
    - cbn [rev]. rewrite rev_app_distr, rev_involutive. reflexivity. }
  assert (G : scan_step {| s_b := 1; s_i := true; s_n := n; s_m := rev a ++ [ch "("]; s_f := f |} (ch ")") =
  {| s_b := 0; s_i := false; s_n := ch ")" :: n; s_m := []; s_f := f ++ [removelast (tl (rev (ch ")" :: rev a ++ [ch "("])))] |}) by reflexivity.
  now rewrite G, E.
Qed.
(** one text followed by a call *)
Lemma scan_call p a s : s_i s = false -> s_b s = 0%Z -> s_m s = [] -> (s_n s = [] \/ exists c n', s_n s = c :: n' /\ ~ In c uc_word) ->
  ~ occurs uc_word p -> ~ In (ch "(") a -> ~ In (ch ")") a -> ~ occurs uc_word a ->
  exists n', fold_left scan_step (p ++ uc_word ++ lit "(" ++ a ++ lit ")") s =
             {| s_b := 0; s_i := false; s_n := ch ")" :: n'; s_m := []; s_f := s_f s ++ [a] |}.
Proof.
  intros Hi Hb Hm Hn Hp H1 H2 Ha.
  replace (p ++ uc_word ++ lit "(" ++ a ++ lit ")") with ((p ++ lit "UnitConversio") ++ [110%N] ++ lit "(" ++ a ++ lit ")")
    by (rewrite <- app_assoc; reflexivity).
  rewrite fold_left_app.
  rewrite (scan_quiet (p ++ lit "UnitConversio") s Hi) by (apply calm_intro; [exact Hn|now apply no_uc_cut]).
  rewrite Hb, Hm. set (n0 := rev (p ++ lit "UnitConversio") ++ s_n s).
  assert (Pn : prefixb (rev uc_word) (110%N :: n0) = true).
  { apply prefixb_spec. exists (rev p ++ s_n s). unfold n0. rewrite rev_app_distr, <- app_assoc. reflexivity. }
  cbn [app fold_left]. change (lit "(") with [ch "("]. cbn [app fold_left].
  assert (E1 : scan_step {| s_b := 0; s_i := false; s_n := n0; s_m := []; s_f := s_f s |} 110%N =
               {| s_b := 0; s_i := true; s_n := 110%N :: n0; s_m := []; s_f := s_f s |}).
  { unfold scan_step. cbn [s_n s_i s_b s_m s_f]. rewrite Pn. reflexivity. }
  rewrite E1. clear E1.
  assert (Hsq : forall n, prefixb (rev uc_word) (ch "(" :: n) = false) by reflexivity.
  assert (Hcl : forall n, prefixb (rev uc_word) (ch ")" :: n) = false) by reflexivity.
  assert (E2 : scan_step {| s_b := 0; s_i := true; s_n := 110%N :: n0; s_m := []; s_f := s_f s |} (ch "(") =
               {| s_b := 1; s_i := true; s_n := ch "(" :: 110%N :: n0; s_m := [ch "("]; s_f := s_f s |}) by reflexivity.
  rewrite E2. clear E2. rewrite fold_left_app, (scan_args a); cbn [s_n s_i s_b s_m s_f]; auto.
  - exists (rev a ++ ch "(" :: 110%N :: n0). change (lit ")") with [ch ")"]. cbn [fold_left].
    apply scan_close.
  - apply calm_intro; [|exact Ha]. right. exists (ch "("), (110%N :: n0). split; [reflexivity|].
    intro I. cbn in I. repeat destruct I as [I|I]; try discriminate I. exact I.
Qed.

Section F.
Context {V : Type} (W : world V).
Definition clean_formula (l : list (pystr * conv_call)) (tail : pystr) : Prop :=
  Forall (fun pc => ~ occurs uc_word (fst pc) /\ simple_call (snd pc)) l /\ ~ occurs uc_word tail.

Lemma args_chars c x : simple_call c -> In x (call_args c) -> x <> ch "(" /\ x <> ch ")".
Proof.
  intros (A & B & C) I. unfold call_args in I.
  assert (G : forall s, simple s -> In x s -> x <> ch "(" /\ x <> ch ")").
  { intros s (H1 & H2 & _) Hx. split; intros ->; auto. }
  assert (L : forall s, In x s -> In s [lit ", '"; lit "', '"; lit "'"] -> x <> ch "(" /\ x <> ch ")").
  { intros s Hx Hs. cbn [In] in Hs. repeat destruct Hs as [<-|Hs]; try contradiction; cbn in Hx; repeat destruct Hx as [<-|Hx]; try contradiction; split; discriminate. }
  apply in_app_iff in I as [I|I]; [eauto|]. apply in_app_iff in I as [I|I]; [eapply L; [exact I|cbn; tauto]|].
  apply in_app_iff in I as [I|I]; [eauto|]. apply in_app_iff in I as [I|I]; [eapply L; [exact I|cbn; tauto]|].
  apply in_app_iff in I as [I|I]; [eauto|]. eapply L; [exact I|cbn; tauto].
Qed.
Lemma uc_no_char c : In c (lit "(), '") -> ~ In c uc_word.
Proof. intros H I. cbn in H. repeat destruct H as [<-|H]; try contradiction; cbn in I; repeat destruct I as [I|I]; try discriminate I; exact I. Qed.
Lemma no_uc_app a x b : In x (lit "(), '") -> ~ occurs uc_word a -> ~ occurs uc_word b -> ~ occurs uc_word (a ++ x :: b).
Proof.
  intros Hx Ha Hb (u & v & E). pose proof (uc_no_char x Hx) as Nx.
  assert (Q : quiet uc_word (a ++ x :: b) []).
  { apply quiet_app; [rewrite app_nil_r; now apply quiet_break|]. apply quiet_cons.
    - destruct (prefixb uc_word (x :: b ++ [])) eqn:P; [|reflexivity]. apply prefixb_spec in P as [t P].
      rewrite uc_eq in P. injection P as -> _. exfalso. apply Nx. now left.
    - now apply quiet_end. }
  destruct u as [|d u].
  - specialize (Q [] U (nit ++ v)). cbn [app] in Q. rewrite app_nil_r in Q.
    assert (P : prefixb uc_word (U :: nit ++ v) = true) by (apply prefixb_spec; now exists v).
    rewrite Q in P; [discriminate|]. rewrite E. reflexivity.
  - specialize (Q (d :: u) U (nit ++ v)). cbn [app] in Q. rewrite app_nil_r in Q.
    assert (P : prefixb uc_word (U :: nit ++ v) = true) by (apply prefixb_spec; now exists v).
    rewrite Q in P; [discriminate|]. rewrite E. reflexivity.
Qed.
Lemma args_no_uc c : simple_call c -> ~ occurs uc_word (call_args c).
Proof.
  intros ((_ & _ & _ & _ & A) & (_ & _ & _ & _ & B) & (_ & _ & _ & _ & C)). unfold call_args.
  assert (Z : ~ occurs uc_word []) by (intros ([|? ?] & v & E); discriminate E).
  change (lit ", '" ++ c_from c ++ lit "', '" ++ c_to c ++ lit "'")
    with (ch "," :: ([] ++ ch " " :: ([] ++ ch "'" :: (c_from c ++ ch "'" :: ([] ++ ch "," :: ([] ++ ch " " :: ([] ++ ch "'" :: (c_to c ++ ch "'" :: [])))))))).
  repeat (apply no_uc_app; [cbn; tauto|assumption|]). exact Z.
Qed.
Lemma calls_formula l tail : clean_formula l tail -> calls (conv_formula call_text l tail) = map (fun pc => call_args (snd pc)) l.
Proof.
  intros [Hl Ht]. unfold calls.
  assert (G : forall l s, Forall (fun pc => ~ occurs uc_word (fst pc) /\ simple_call (snd pc)) l ->
            s_i s = false -> s_b s = 0%Z -> s_m s = [] -> (s_n s = [] \/ exists c n', s_n s = c :: n' /\ ~ In c uc_word) ->
            s_f (fold_left scan_step (conv_formula call_text l tail) s) = s_f s ++ map (fun pc => call_args (snd pc)) l).
  { clear Hl l. induction l as [|[p c] l IH]; intros s Hl Hi Hb Hm Hn.
    - cbn [conv_formula map]. rewrite app_nil_r. rewrite scan_quiet; [reflexivity|exact Hi|]. now apply calm_intro.
    - inversion Hl as [|? ? [Hp Hc] Hl']; subst x l0. cbn [fst snd] in Hp, Hc. cbn [conv_formula map snd]. unfold call_text at 1.
      rewrite app_assoc, fold_left_app.
      assert (N1 : ~ In (ch "(") (call_args c)) by (intro I; now apply (args_chars c _ Hc) in I).
      assert (N2 : ~ In (ch ")") (call_args c)) by (intro I; now apply (args_chars c _ Hc) in I).
      destruct (scan_call p (call_args c) s Hi Hb Hm Hn Hp N1 N2 (args_no_uc c Hc)) as [n' E].
      change (lit "UnitConversion(" ++ call_args c ++ lit ")") with (uc_word ++ lit "(" ++ call_args c ++ lit ")"). rewrite E.
      rewrite IH; cbn [s_f s_i s_b s_m s_n]; auto; [now rewrite <- app_assoc|]. right. exists (ch ")"), n'. split; [reflexivity|].
      apply uc_no_char. cbn. tauto. }
  rewrite G; auto.
Qed.

(** ** replacing the calls *)
Lemma split_args c : simple_call c -> split (lit ", ") (replace (lit "'") [] (call_args c)) = [c_arg c; c_from c; c_to c].
Proof.
  intros ((_ & _ & A & A' & _) & (_ & _ & B & B' & _) & (_ & _ & C & C' & _)).
  assert (K : forall s, ~ In (ch "'") s -> flat_map (fun d => if N.eqb (ch "'") d then [] else [d]) s = s).
  { induction s as [|d s IH]; intro H; [reflexivity|]. cbn [flat_map]. destruct (N.eqb_spec (ch "'") d) as [<- | _]; [exfalso; apply H; now left|].
    rewrite IH; [reflexivity|]. intro I. apply H. now right. }
  change (lit "'") with [ch "'"]. rewrite replace1_char. unfold call_args. rewrite !flat_map_app, (K (c_arg c) A), (K (c_from c) B), (K (c_to c) C).
  change (flat_map (fun d => if N.eqb (ch "'") d then [] else [d]) (lit ", '")) with (lit ", ").
  change (flat_map (fun d => if N.eqb (ch "'") d then [] else [d]) (lit "', '")) with (lit ", ").
  change (flat_map (fun d => if N.eqb (ch "'") d then [] else [d]) (lit "'")) with (@nil N). rewrite app_nil_r.
  assert (Q : forall x s, ~ occurs (lit ", ") x -> forall a d b, x = a ++ d :: b -> prefixb (lit ", ") (d :: b ++ lit ", " ++ s) = false).
  { intros x s H. refine (prefixb_cross_last (ch " ") [ch ","] x s _ H). intros [I|[]]. discriminate I. }
  unfold split. rewrite (split_quiet (lit ", ") (c_arg c) (c_from c ++ lit ", " ++ c_to c)); [|discriminate|now apply Q].
  rewrite (split_quiet (lit ", ") (c_from c) (c_to c)); [|discriminate|now apply Q].
  assert (G : forall s acc, ~ occurs (lit ", ") s -> split_aux (lit ", ") 0 acc s = [rev acc ++ s]).
  { induction s as [|d s IH]; intros acc H; cbn [split_aux]; [now rewrite app_nil_r|].
    rewrite (not_occurs_suffix (lit ", ") [] (d :: s) H). rewrite IH.
    - cbn [rev]. now rewrite <- app_assoc.
    - intros (u & v & Es). apply H. exists (d :: u), v. now rewrite Es. }
  now rewrite G by exact C'.
Qed.
(** the name of the factor of a call, from its arguments *)
Variable fac : pystr -> pystr.
Definition call_image (c : conv_call) : pystr := lit "(" ++ call_value W c ++ lit "*" ++ fac (call_args c) ++ lit ")".
Lemma correct_call_eq c st m v : simple_call c -> call_factor W c (fac (call_args c)) v ->
  correct_call W (call_args c) (st, m) = Ok (create_plain st (fac (call_args c)) v, replace (call_text c) (call_image c) m).
Proof.
  intros Hc (a & b & Ha & Hb & Hv). unfold correct_call. rewrite split_args by exact Hc. cbn [mapM bind]. rewrite Ha. cbn [bind]. rewrite Hb. cbn [bind].
  rewrite Hv. cbn [bind fst snd]. reflexivity.
Qed.
Lemma args_ok c : simple_call c -> arg_ok (lit ")") (call_args c).
Proof.
  intros Hc s a d b E. change (prefixb (lit ")") (d :: b ++ lit ")" ++ s)) with ((ch ")" =? d)%N && true).
  destruct (N.eqb_spec (ch ")") d) as [<- | _]; [|reflexivity]. exfalso.
  assert (I : In (ch ")") (call_args c)) by (rewrite E; apply in_or_app; right; now left). now apply (args_chars c _ Hc) in I.
Qed.
Lemma args_inj c c' : simple_call c -> simple_call c' -> call_args c = call_args c' -> c = c'.
Proof.
  intros H H' E. pose proof (split_args c H) as S1. rewrite E, (split_args c' H') in S1. injection S1 as E1 E2 E3.
  destruct c, c'; cbn in *; congruence.
Qed.
Definition open_uc : pystr := lit "UnitConversion(".
Notation ptxt := (ptext (lit "(") (lit ")") U nit).
Notation stxt := (stext (lit "(") (lit ")") U nit).
Notation pok := (piece_ok (lit "(") (lit ")") U nit).
Notation sok := (segs_ok (lit "(") (lit ")") U nit).
Definition as_pieces (l : list (pystr * conv_call)) : list (pystr * piece) := map (fun pc => (fst pc, Open (call_args (snd pc)))) l.
Lemma formula_pieces l tail : conv_formula call_text l tail = stxt (as_pieces l) tail.
Proof.
  induction l as [|[p c] l IH]; [reflexivity|]. cbn [conv_formula as_pieces map stext ptext fst snd]. rewrite IH. reflexivity.
Qed.
Lemma no_uc_nil : ~ occurs uc_word [].
Proof. intros ([|? ?] & v & E); discriminate E. Qed.
Lemma done_ok t : ~ occurs uc_word t -> pok (Done (lit "(" ++ t ++ lit ")")).
Proof.
  intro H. split.
  - intro s. apply (quiet_closed uc_word (ch "(" :: t) (ch ")") s); [apply uc_no_char; cbn; tauto|discriminate|].
    refine (no_uc_app [] (ch "(") t _ no_uc_nil H). cbn; tauto.
  - exists (ch "("), (t ++ lit ")"). split; [reflexivity|]. apply uc_no_char. cbn. tauto.
Qed.
Lemma open_ok c : simple_call c -> pok (Open (call_args c)).
Proof.
  intro H. split; [now apply args_ok|]. intro s.
  change (nit ++ lit "(" ++ call_args c ++ lit ")") with ((nit ++ ch "(" :: call_args c) ++ [ch ")"]).
  apply quiet_closed; [apply uc_no_char; cbn; tauto|discriminate|]. apply no_uc_app; [cbn; tauto| |now apply args_no_uc].
  intros (u & v & E). apply (f_equal (@List.length N)) in E. rewrite !app_length in E. cbn in E. lia.
Qed.
Definition images_ok (l : list (pystr * conv_call)) : Prop :=
  Forall (fun pc => (exists v, call_factor W (snd pc) (fac (call_args (snd pc))) v) /\
                    ~ occurs uc_word (call_value W (snd pc)) /\ ~ occurs uc_word (lit "*" ++ fac (call_args (snd pc)))) l.
Lemma image_quiet c : ~ occurs uc_word (call_value W c) -> ~ occurs uc_word (lit "*" ++ fac (call_args c)) ->
  ~ occurs uc_word (call_value W c ++ lit "*" ++ fac (call_args c)).
Proof.
  intros A B (u & v & E). destruct (app_eq_split _ _ _ _ E) as [(x & Eu & Ex)|(x & Ec & Ex)].
  - apply B. exists x, v. exact Ex.
  - destruct (app_eq_split _ _ _ _ Ex) as [(y & Ey & Ez)|(y & Ey & Ez)].
    + apply A. exists u, y. now rewrite Ec, Ey.
    + destruct y as [|d y]; [apply A; exists u, []; rewrite app_nil_r in *; now rewrite Ec, Ey|].
      injection Ez as <- _. assert (I : In 42%N uc_word) by (rewrite Ey; apply in_or_app; right; now left).
      cbn in I. repeat destruct I as [I|I]; try discriminate I. exact I.
Qed.
Definition image (a : pystr) : pystr :=
  match split (lit ", ") (replace (lit "'") [] a) with
  | p0 :: _ => lit "(" ++ match w_float W (replace (lit "_") [] (replace (lit ",") (lit ".") p0)) with
                          | Some t => t
                          | None => lit "(" ++ p0 ++ lit ")"
                          end ++ lit "*" ++ fac a ++ lit ")"
  | [] => []
  end.
Lemma image_call c : simple_call c -> image (call_args c) = call_image c.
Proof. intro H. unfold image. rewrite split_args by exact H. reflexivity. Qed.
Lemma image_done c : simple_call c -> ~ occurs uc_word (call_value W c) -> ~ occurs uc_word (lit "*" ++ fac (call_args c)) ->
  pok (Done (image (call_args c))).
Proof.
  intros H A B. rewrite image_call by exact H. unfold call_image.
  replace (lit "(" ++ call_value W c ++ lit "*" ++ fac (call_args c) ++ lit ")")
    with (lit "(" ++ (call_value W c ++ lit "*" ++ fac (call_args c)) ++ lit ")") by now rewrite <- !app_assoc.
  apply done_ok. now apply image_quiet.
Qed.
Lemma text_call_eq c : call_text c = (U :: nit) ++ lit "(" ++ call_args c ++ lit ")".
Proof. reflexivity. Qed.
Lemma correct_loop ps tail : forall l es0 st, clean_formula l [] -> images_ok l -> sok (map (upds image es0) ps) tail ->
  exists st', correct_calls W (map (fun pc => call_args (snd pc)) l) (st, stxt (map (upds image es0) ps) tail) =
              Ok (st', stxt (map (upds image (es0 ++ map (fun pc => call_args (snd pc)) l)) ps) tail) /\
              incl (vs_names st) (vs_names st') /\ forall pc, In pc l -> In (fac (call_args (snd pc))) (vs_names st').
Proof.
  induction l as [|[p c] l IH]; intros es0 st [Hl Ht] Hi Hs.
  - exists st. rewrite app_nil_r. split; [reflexivity|]. split; [apply incl_refl|contradiction].
  - inversion Hl as [|? ? [Hp Hc] Hl']; subst x l0. inversion Hi as [|? ? ((v & Hv) & Hva & Hfa) Hi']; subst x l0. cbn [fst snd] in *.
    cbn [map correct_calls snd]. rewrite (correct_call_eq c _ _ v Hc Hv). cbn [bind].
    pose proof (replace_segs (lit "(") (lit ")") U nit U_nit (call_args c) (call_image c) ltac:(discriminate) (args_ok c Hc) _ _ Hs) as R.
    rewrite text_call_eq. rewrite <- app_assoc in R. rewrite R.
    rewrite map_map. rewrite <- (image_call c Hc).
    rewrite (map_ext (fun x => upd (call_args c) (image (call_args c)) (upds image es0 x)) (upds image (es0 ++ [call_args c])))
      by (intro a; apply upds_snoc).
    assert (Hs' : sok (map (upds image (es0 ++ [call_args c])) ps) tail).
    { rewrite <- (map_ext (fun x => upd (call_args c) (image (call_args c)) (upds image es0 x)) (upds image (es0 ++ [call_args c])))
        by (intro a; apply upds_snoc).
      rewrite <- (map_map (upds image es0) (upd (call_args c) (image (call_args c)))). apply upd_ok; [exact Hs|]. now apply image_done. }
    destruct (IH _ (create_plain st (fac (call_args c)) v) (conj Hl' Ht) Hi' Hs') as (st' & E & I & F). exists st'.
    rewrite E, <- app_assoc. cbn [app]. split; [reflexivity|]. destruct (plain_grows st (fac (call_args c)) v) as [[Ig _] In0].
    split; [eapply incl_tran; eauto|]. intros pc [<-|Hpc]; [apply I, In0|now apply F].
Qed.
Lemma opens_pieces l : opens (as_pieces l) = map (fun pc => call_args (snd pc)) l.
Proof. induction l as [|[p c] l IH]; [reflexivity|]. cbn. now rewrite <- IH. Qed.
Lemma final_pieces l tail : Forall (fun pc => simple_call (snd pc)) l -> final image (as_pieces l) tail = conv_formula call_image l tail.
Proof.
  induction l as [|[p c] l IH]; intro H; [reflexivity|]. inversion H; subst. cbn [as_pieces map final conv_formula fst snd]. 
  fold (as_pieces l). rewrite IH by assumption. now rewrite image_call.
Qed.
Lemma correct_formula st l tail : clean_formula l tail -> images_ok l ->
  exists st', correct_unit_conversion W st (conv_formula call_text l tail) = Ok (st', conv_formula call_image l tail) /\
              incl (vs_names st) (vs_names st') /\ forall pc, In pc l -> In (fac (call_args (snd pc))) (vs_names st').
Proof.
  intros [Hl Ht] Hi. unfold correct_unit_conversion. destruct (infixb uc_word (conv_formula call_text l tail)) eqn:In0.
  - rewrite calls_formula by now split. rewrite formula_pieces.
    assert (Hs : sok (map (upds image []) (as_pieces l)) tail).
    { rewrite upds_nil. split; [|exact Ht]. unfold as_pieces. rewrite Forall_forall in *. intros px I. apply in_map_iff in I as (pc & <- & I).
      destruct (Hl pc I) as [Hp Hc]. split; [exact Hp|]. now apply open_ok. }
    assert (C0 : clean_formula l []) by (split; [exact Hl|exact no_uc_nil]).
    destruct (correct_loop (as_pieces l) tail l [] st C0 Hi Hs) as (st' & E & I & F). rewrite upds_nil in E. exists st'. rewrite E. cbn [app].
    rewrite <- opens_pieces. rewrite upds_all. rewrite final_pieces; [auto|]. eapply Forall_impl; [|exact Hl]. now intros pc [_ H].
  - destruct l as [|[p c] l].
    + exists st. split; [reflexivity|]. split; [apply incl_refl|contradiction].
    + exfalso. apply (not_infixb _ _ In0). exists p, (lit "(" ++ call_args c ++ lit ")" ++ conv_formula call_text l tail).
      cbn [conv_formula]. rewrite text_call_eq, uc_eq, <- !app_assoc. reflexivity.
Qed.
End F.

(** ** references *)
Section G.
Context {V : Type} (show : V -> pystr) (excs : list (pystr * (V * option V))).
Definition R0 : N := 82%N.
Definition ef : pystr := lit "ef('".
Definition quo : pystr := lit "')".
Definition ref_w : pystr := lit "Ref('".
Lemma ref_w_eq : ref_w = R0 :: ef. Proof. reflexivity. Qed.
Lemma R_ef : ~ In R0 ef.
Proof. intro I. cbn in I. repeat destruct I as [I|I]; try discriminate I. exact I. Qed.
Notation stxt := (stext [] quo R0 ef).
Notation pok := (piece_ok [] quo R0 ef).
Notation sok := (segs_ok [] quo R0 ef).
Lemma quiet_nochar c w t s : ~ In c t -> quiet (c :: w) t s.
Proof.
  intros H a d b ->. cbn. destruct (N.eqb_spec c d) as [-> | _]; [|reflexivity]. exfalso. apply H. apply in_or_app. right. now left.
Qed.
Lemma find_skip : forall p k s, quiet ref_w p s -> find_refs (List.length p + k) (p ++ s) = find_refs k s.
Proof.
  induction p as [|c p IH]; intros k s Q; [reflexivity|]. cbn [List.length Nat.add app find_refs].
  change (lit "Ref('") with ref_w. rewrite (Q [] c p eq_refl). apply IH. intros a d b E. apply (Q (c :: a)). now rewrite E.
Qed.
Lemma cut_arg : forall a s, quiet quo a (quo ++ s) -> ~ In 10%N a -> cut_ref (a ++ quo ++ s) = Some (a, s).
Proof.
  induction a as [|c a IH]; intros s Q Hn.
  - cbn [app]. change (quo ++ s) with (39%N :: 41%N :: s). reflexivity.
  - cbn [app cut_ref]. change (lit "')") with quo. rewrite (Q [] c a eq_refl).
    destruct (N.eqb_spec c 10%N) as [-> | _]; [exfalso; apply Hn; now left|].
    rewrite IH; [reflexivity| |intro I; apply Hn; now right]. intros x d b E. apply (Q (c :: x)). now rewrite E.
Qed.
Definition ref_pieces (l : list (pystr * ref_call)) : list (pystr * piece) := map (fun pc => (fst pc, Open (ref_arg (snd pc)))) l.
Lemma ref_formula_pieces l tail : ref_formula ref_text l tail = stxt (ref_pieces l) tail.
Proof.
  induction l as [|[p c] l IH]; [reflexivity|]. cbn [ref_formula ref_pieces map stext ptext fst snd]. rewrite IH. reflexivity.
Qed.
Definition clean_refs (l : list (pystr * ref_call)) (tail : pystr) : Prop :=
  Forall (fun pc => ~ occurs ref_w (fst pc) /\ plain_id (f_id (snd pc))) l /\ ~ occurs ref_w tail.
Lemma arg_in c x : In x (ref_arg c) -> In x (f_id c) \/ In x (lit "', 'ProductionVolume").
Proof. unfold ref_arg. intro I. apply in_app_iff in I as [I|I]; [auto|]. destruct (f_volume c); [auto|contradiction]. Qed.
Lemma ref_arg_chars c : plain_id (f_id c) -> ~ In (ch ")") (ref_arg c) /\ ~ In 10%N (ref_arg c) /\ ~ In (ch "(") (ref_arg c).
Proof.
  intros (A & B & C & D). split; [|split]; intro I; apply arg_in in I as [I|I]; auto;
    cbn in I; repeat destruct I as [I|I]; try discriminate I; exact I.
Qed.
Lemma ref_arg_ok c : plain_id (f_id c) -> arg_ok quo (ref_arg c).
Proof.
  intros H s. change quo with (39%N :: [41%N]) at 1. change (quo ++ s) with (39%N :: 41%N :: s). apply quiet_first.
  - intros [I|[]]. discriminate I.
  - destruct (ref_arg_chars c H) as [N _]. apply (occurs_char _ _ 41%N); [cbn; tauto|exact N].
Qed.
Lemma find_formula l tail : clean_refs l tail -> forall n, List.length (ref_formula ref_text l tail) <= n ->
  find_refs n (ref_formula ref_text l tail) = map (fun pc => ref_arg (snd pc)) l.
Proof.
  intros [Hl Ht]. induction l as [|[p c] l IH]; intros n L.
  - cbn [ref_formula map] in *. pose proof (find_skip tail (n - List.length tail) [] (quiet_end _ _ Ht)) as F.
    rewrite app_nil_r in F. replace (List.length tail + (n - List.length tail)) with n in F by lia. rewrite F. now destruct (n - List.length tail).
  - inversion Hl as [|? ? [Hp Hc] Hl']; subst x l0. cbn [fst snd] in Hp, Hc. cbn [ref_formula map snd] in *.
    set (s := ref_formula ref_text l tail) in *.
    rewrite !app_length in L. replace n with (List.length p + (n - List.length p)) by lia.
    rewrite find_skip.
    + destruct (n - List.length p) as [|k] eqn:Ek; [unfold ref_text in L; rewrite !app_length in L; cbn in L; lia|].
      unfold ref_text. rewrite <- !app_assoc. change (lit "Ref('" ++ ref_arg c ++ lit "')" ++ s) with (R0 :: ef ++ ref_arg c ++ quo ++ s).
      cbn [find_refs]. assert (P : prefixb (lit "Ref('") (R0 :: ef ++ ref_arg c ++ quo ++ s) = true) by (apply prefixb_spec; now exists (ref_arg c ++ quo ++ s)).
      rewrite P. change (skipn 5 (R0 :: ef ++ ref_arg c ++ quo ++ s)) with (ref_arg c ++ quo ++ s).
      destruct (ref_arg_chars c Hc) as (_ & Hn & _). rewrite cut_arg; [|apply (ref_arg_ok c Hc)|exact Hn]. f_equal. apply IH; [exact Hl'|].
      unfold ref_text in L. rewrite !app_length in L. cbn in L. lia.
    + change (ref_text c ++ s) with (R0 :: (ef ++ ref_arg c ++ lit "')") ++ s). rewrite ref_w_eq. apply quiet_first; [exact R_ef|exact Hp].
Qed.
Lemma split_none s acc : ~ In 39%N s -> split_aux (lit "'") 0 acc s = [rev acc ++ s].
Proof.
  revert acc. induction s as [|d s IH]; intros acc H; cbn [split_aux]; [now rewrite app_nil_r|].
  change (prefixb (lit "'") (d :: s)) with ((39 =? d)%N && true). destruct (N.eqb_spec 39%N d) as [<- | _]; [exfalso; apply H; now left|].
  cbn [andb]. rewrite IH; [cbn [rev]; now rewrite <- app_assoc|]. intro I. apply H. now right.
Qed.
Lemma ref_value_eq c last t : plain_id (f_id c) -> ref_number show excs c t -> ref_value show excs last (ref_arg c) = Ok t.
Proof.
  intros (Hq & _) (v & pv & G & ->). unfold ref_value, ref_arg. destruct (f_volume c).
  - unfold split. change (lit "', 'ProductionVolume") with (lit "'" ++ lit ", 'ProductionVolume").
    rewrite split_quiet; [|discriminate|].
    + cbn [rev app]. rewrite G. cbn. destruct pv; reflexivity.
    + intros a d b E. change (prefixb (lit "'") (d :: b ++ lit "'" ++ lit ", 'ProductionVolume")) with ((39 =? d)%N && true). destruct (N.eqb_spec 39%N d) as [<- | _]; [|reflexivity].
      exfalso. apply Hq. rewrite E. apply in_or_app. right. now left.
  - rewrite app_nil_r. unfold split. rewrite split_none by exact Hq. cbn [rev app]. now rewrite G.
Qed.
(** the text of a reference, from its argument *)
Definition rimage (a : pystr) : pystr := match ref_value show excs None a with Ok t => t | Err _ => [] end.
Lemma rimage_eq c t : plain_id (f_id c) -> ref_number show excs c t -> rimage (ref_arg c) = t.
Proof. intros H N. unfold rimage. now rewrite (ref_value_eq c None t H N). Qed.
Lemma number_ok c t : shows_numbers show -> ref_number show excs c t -> pok (Done t).
Proof.
  intros Hs (v & pv & _ & ->).
  assert (G : forall t, (exists c u, t = c :: u /\ ~ In c ref_w) -> ~ In R0 t -> pok (Done t)).
  { intros t H1 H2. split; [intro s; now apply quiet_nochar|exact H1]. }
  destruct (f_volume c); [destruct pv as [x|]|].
  - destruct (Hs x). now apply G.
  - apply G.
    + exists 78%N, (lit "one"). split; [reflexivity|]. intro I. cbn in I. repeat destruct I as [I|I]; try discriminate I. exact I.
    + intro I. cbn in I. repeat destruct I as [I|I]; try discriminate I. exact I.
  - destruct (Hs v). now apply G.
Qed.
Lemma ref_open_ok c : plain_id (f_id c) -> pok (Open (ref_arg c)).
Proof.
  intro H. split; [now apply ref_arg_ok|]. intro s. cbn [app].
  apply quiet_app; [apply quiet_nochar, R_ef|].
  replace (ref_arg c ++ quo) with ((ref_arg c ++ [39%N]) ++ [41%N]) by (rewrite <- app_assoc; reflexivity).
  apply quiet_closed; [|discriminate|].
  - intro I. cbn in I. repeat destruct I as [I|I]; try discriminate I. exact I.
  - apply (occurs_char _ _ (ch "(")); [cbn; tauto|]. intro I. apply in_app_iff in I as [I|[I|[]]]; [|discriminate I].
    now apply (ref_arg_chars c H) in I.
Qed.
Lemma ref_loop ps tail : shows_numbers show -> forall l es0 last, clean_refs l [] ->
  Forall (fun pc => exists t, ref_number show excs (snd pc) t) l -> sok (map (upds rimage es0) ps) tail ->
  correct_refs show excs last (map (fun pc => ref_arg (snd pc)) l) (stxt (map (upds rimage es0) ps) tail) =
  Ok (stxt (map (upds rimage (es0 ++ map (fun pc => ref_arg (snd pc)) l)) ps) tail).
Proof.
  intros Hsh. induction l as [|[p c] l IH]; intros es0 last [Hl Ht] Hi Hs.
  - now rewrite app_nil_r.
  - inversion Hl as [|? ? [Hp Hc] Hl']; subst x l0. inversion Hi as [|? ? (t & Hv) Hi']; subst x l0. cbn [fst snd] in *.
    cbn [map correct_refs snd]. rewrite (ref_value_eq c _ t Hc Hv). cbn [bind].
    pose proof (rimage_eq c t Hc Hv) as Et.
    pose proof (replace_segs [] quo R0 ef R_ef (ref_arg c) t ltac:(discriminate) (ref_arg_ok c Hc) _ _ Hs) as R.
    rewrite app_nil_r in R. change (lit "Ref('" ++ ref_arg c ++ lit "')") with ((R0 :: ef) ++ ref_arg c ++ quo). rewrite R.
    rewrite map_map.
    assert (Em : map (fun x => upd (ref_arg c) t (upds rimage es0 x)) ps = map (upds rimage (es0 ++ [ref_arg c])) ps)
      by (apply map_ext; intro a; rewrite <- Et; apply upds_snoc).
    assert (Hs' : sok (map (upds rimage (es0 ++ [ref_arg c])) ps) tail).
    { rewrite <- Em, <- (map_map (upds rimage es0) (upd (ref_arg c) t)). apply upd_ok; [exact Hs|]. now apply (number_ok c). }
    rewrite Em. rewrite (IH _ _ (conj Hl' Ht) Hi' Hs'), <- app_assoc. reflexivity.
Qed.
Lemma correct_ref_formula l tail (img : ref_call -> pystr) : shows_numbers show -> clean_refs l tail ->
  Forall (fun pc => ref_number show excs (snd pc) (img (snd pc))) l ->
  correct_ref show excs (ref_formula ref_text l tail) = Ok (ref_formula img l tail).
Proof.
  intros Hsh [Hl Ht] Hi. unfold correct_ref. rewrite (find_formula l tail (conj Hl Ht)) by apply le_n. rewrite ref_formula_pieces.
  assert (Z : ~ occurs ref_w []) by (intros ([|? ?] & v & E); discriminate E).
  assert (Hs : sok (map (upds rimage []) (ref_pieces l)) tail).
  { rewrite upds_nil. split; [|exact Ht]. unfold ref_pieces. rewrite Forall_forall in *. intros px I. apply in_map_iff in I as (pc & <- & I).
    destruct (Hl pc I) as [Hp Hc]. split; [exact Hp|]. now apply ref_open_ok. }
  rewrite <- (upds_nil rimage (ref_pieces l)) at 1.
  rewrite (ref_loop (ref_pieces l) tail Hsh l [] None (conj Hl Z)); [|eapply Forall_impl; [|exact Hi]; intros pc H; exists (img (snd pc)); exact H|exact Hs].
  cbn [app]. f_equal.
  assert (Eo : opens (ref_pieces l) = map (fun pc => ref_arg (snd pc)) l) by (clear; induction l as [|[p c] l IH]; [reflexivity|cbn; now rewrite <- IH]).
  rewrite <- Eo, upds_all. clear - Hl Hi. induction l as [|[p c] l IH]; [reflexivity|].
  inversion Hl as [|? ? [_ Hc] Hl']; subst. inversion Hi as [|? ? Hv Hi']; subst. cbn [snd] in *. cbn [ref_pieces map final ref_formula fst snd].
  fold (ref_pieces l). rewrite IH by assumption. now rewrite (rimage_eq c (img c) Hc Hv).
Qed.
End G.
