(** Facts about sessions. *)
From Coq Require Import Ascii String List Bool Arith NArith ZArith Lia.
From Verif Require Import PyBase PyBaseFacts PyValues MultiLangModel DotDictModel DotDictProofs ConverterModel ConverterProofs SessionModel SessionSpec.
Import ListNotations.
Local Open Scope string_scope.
Local Open Scope list_scope.

Lemma direction_eqb_eq a b : direction_eqb a b = true <-> a = b.
Proof. destruct a, b; cbn; split; congruence. Qed.
Lemma direction_eqb_refl a : direction_eqb a a = true.
Proof. now destruct a. Qed.
Lemma upd_same {A} (f : direction -> A) d x : upd f d x d = x.
Proof. unfold upd. now rewrite direction_eqb_refl. Qed.
Lemma upd_other {A} (f : direction -> A) d e x : e <> d -> upd f d x e = f e.
Proof. intros H. unfold upd. destruct (direction_eqb e d) eqn:E; [apply direction_eqb_eq in E; contradiction|reflexivity]. Qed.

(** ** Spec lists *)
Lemma latest_app {A} (get : op -> option A) l o : forall d, latest get d (l ++ [o]) = match get o with Some x => x | None => latest get d l end.
Proof. induction l as [|a l IH]; intros d; [reflexivity|]. cbn [app latest]. apply IH. Qed.
Definition news (ops : list op) : nat := length (filter (fun o => match o with New _ => true | _ => false end) ops).
Lemma news_app a b : news (a ++ b) = news a + news b.
Proof. unfold news. now rewrite filter_app, app_length. Qed.
Lemma since_none k ops : since_new k ops = None <-> news ops <= k.
Proof.
  revert k. induction ops as [|o ops IH]; intros k; [cbn; split; [lia|reflexivity]|]. destruct o; cbn [since_new]; try exact (IH k).
  change (news (New r :: ops)) with (S (news ops)). destruct k as [|k]; [split; [discriminate|lia]|]. rewrite IH. lia.
Qed.
Lemma since_app k ops o : since_new k (ops ++ [o]) =
  match since_new k ops with
  | Some (r, l) => Some (r, l ++ [o])
  | None => match o with New r => if Nat.eqb k (news ops) then Some (r, []) else None | _ => None end
  end.
Proof.
  revert k. induction ops as [|a ops IH]; intros k.
  - cbn [app since_new news]. destruct o; try reflexivity. destruct k; reflexivity.
  - cbn [app]. destruct a; cbn [since_new]; try exact (IH k). change (news (New r :: ops)) with (S (news ops)). destruct k as [|k]; [reflexivity|]. rewrite IH. reflexivity.
Qed.

(** ** Lists of converters *)
Lemma put_at_length {A} k (x : A) l : length (put_at k x l) = length l.
Proof. revert k. induction l as [|y l IH]; intros [|k]; cbn; auto. Qed.
Lemma put_at_same {A} k (x : A) l : k < length l -> nth_error (put_at k x l) k = Some x.
Proof. revert k. induction l as [|y l IH]; intros [|k] H; cbn in *; try lia; auto. apply IH. lia. Qed.
Lemma put_at_other {A} k j (x : A) l : j <> k -> nth_error (put_at k x l) j = nth_error l j.
Proof. revert k j. induction l as [|y l IH]; intros [|k] [|j] H; cbn; auto; try contradiction. Qed.
Lemma nth_some_lt {A} (l : list A) k x : nth_error l k = Some x -> k < length l.
Proof. intros H. apply nth_error_Some. congruence. Qed.

Section World.
Context (readable : pystr -> bool) (disk : pystr -> list file).
Notation session' := (session readable disk).
Notation do_op' := (do_op readable disk).
Notation convert_file' := (convert_file readable).
Notation convert_files' := (convert_files readable).

(** ** What a conversion leaves of a converter *)
Definition same_settings (c c' : converter) : Prop :=
  c_dir c' = c_dir c /\ c_default c' = c_default c /\ c_opts c' = c_opts c /\ c_map c' = c_map c /\ c_input c' = c_input c /\ c_save c' = c_save c /\ c_hash c' = c_hash c.
Lemma same_refl c : same_settings c c.
Proof. repeat split. Qed.
Lemma same_trans a b c : same_settings a b -> same_settings b c -> same_settings a c.
Proof. unfold same_settings. intuition congruence. Qed.
Definition asked (c : converter) : option pystr := match c_map c with Some p => Some p | None => c_default c end.
Definition reload (o v : option version) : bool := (negb (oversion_eqb o v) || match o, v with None, None => true | _, _ => false end)%bool.

Lemma clean_facts f c w c' w' : clean f (c, w) = (c', w') ->
  same_settings c c' /\ c_version c' = c_version c /\ c_out c' = c_out c /\ (c_made c' = true -> c_made c = true) /\
  w_map w' = w_map w /\ w_rel w' = w_rel w /\ w_hash w' = w_hash w /\ w_limits w' = w_limits w.
Proof.
  unfold clean. destruct (c_made c) eqn:E.
  - destruct (c_dir c), (f_clean f); intros H; inversion H; subst; repeat split; cbn; auto; try discriminate.
  - intros H; inversion H; subst. repeat split; auto; congruence.
Qed.
Lemma make_data_facts c w c' w' : make_data (c, w) = (c', w') ->
  same_settings c c' /\ c_version c' = c_version c /\ c_made c' = c_made c /\ c_out c' = Some (match c_out c with Some p => p | None => c_save c end) /\
  w_map w' = w_map w /\ w_rel w' = w_rel w /\ w_refs w' = w_refs w /\ w_opts w' = w_opts w /\ w_limits w' = w_limits w.
Proof. unfold make_data. destruct (c_out c) eqn:E; intros H; inversion H; subst; repeat split; auto. Qed.
Lemma make_mapping_facts o c w c' w' e : make_mapping readable o (c, w) = (c', w', e) ->
  same_settings c c' /\ c_version c' = c_version c /\ c_out c' = c_out c /\ w_rel w' = w_rel w /\ w_refs w' = w_refs w /\ w_opts w' = w_opts w /\ w_limits w' = w_limits w /\
  w_hash w' = w_hash w /\ (forall d, d <> c_dir c -> w_map w' d = w_map w d) /\
  (e = None -> c_made c' = true /\
     if reload o (c_version c) then exists p, asked c = Some p /\ readable p = true /\ w_map w' (c_dir c) = Some p else c_made c = true /\ w_map w' = w_map w) /\
  (e <> None -> w_map w' = w_map w /\ (c_made c' = c_made c \/ (match asked c with Some p => readable p | None => false end) = false)).
Proof.
  unfold make_mapping, asked. fold (reload o (c_version c)). destruct (reload o (c_version c)) eqn:E.
  - destruct (get_mapping (names_of (c_dir c)) (c_version c)) as [nm|e0].
    + destruct (match c_map c with Some p => Some p | None => c_default c end) as [p|] eqn:A.
      * destruct (readable p) eqn:R; intros H; injection H as <- <- <-.
        -- do 8 (split; [repeat split|]). split; [intros d Hd; cbn; now apply upd_other|]. split; [|intros C; now contradiction C].
           intros _. split; [reflexivity|]. exists p. repeat split; auto. cbn. apply upd_same.
        -- do 8 (split; [repeat split|]). split; [reflexivity|]. split; [discriminate|]. intros _. split; [reflexivity|now right].
      * intros H; injection H as <- <- <-. do 8 (split; [repeat split|]). split; [reflexivity|]. split; [discriminate|]. intros _. split; [reflexivity|now right].
    + intros H; injection H as <- <- <-. do 8 (split; [repeat split|]). split; [reflexivity|]. split; [discriminate|]. intros _. split; [reflexivity|now left].
  - destruct (c_made c) eqn:M; intros H; injection H as <- <- <-.
    + do 8 (split; [repeat split|]). split; [reflexivity|]. split; [|intros C; now contradiction C]. auto.
    + do 8 (split; [repeat split|]). split; [reflexivity|]. split; [discriminate|]. intros _. split; [reflexivity|left; exact M].
Qed.
Lemma set_refs_facts d f w : w_map (set_refs d f w) = w_map w /\ w_rel (set_refs d f w) = w_rel w /\ w_opts (set_refs d f w) = w_opts w /\ w_limits (set_refs d f w) = w_limits w /\ w_hash (set_refs d f w) = w_hash w.
Proof. unfold set_refs. destruct d; auto 10; destruct (f_refs f); auto 10. Qed.

(** a converted file *)
Record done (f : file) (c : converter) (w : classes) (c' : converter) (w' : classes) (u : used) : Prop := {
  d_settings : same_settings c c';
  d_version : c_version c' = f_version f;
  d_made : c_made c' = true;
  d_out : c_out c' = Some (match c_out c with Some p => p | None => c_save c end);
  d_folder : u_folder u = match c_out c with Some p => p | None => c_save c end;
  d_limits : u_limits u = w_limits (set_limits c w);
  d_opts : u_opts u = apply_options false c (w_opts w (c_dir c));
  d_map : u_map u = w_map w' (c_dir c);
  d_others : forall d, d <> c_dir c -> w_map w' d = w_map w d;
  d_load : if reload (c_version c) (f_version f) then exists p, asked c = Some p /\ readable p = true /\ w_map w' (c_dir c) = Some p
           else c_made c = true /\ w_map w' = w_map w;
  d_fine : f_end f = Fine;
  d_refs : c_dir c = IlcdToEco -> u_refs u = match f_refs f with [] => w_refs w | l => Some l end /\ w_refs w' = u_refs u /\ u_refs u <> None;
  d_rel : c_dir c = OlcaToOlca -> u_rel u = match f_rel f with Some l => l | None => w_rel w end /\ w_rel w' = [];
  d_rel_other : c_dir c <> OlcaToOlca -> w_rel w' = w_rel w;
  d_refs_other : c_dir c <> IlcdToEco -> w_refs w' = w_refs w }.
Record failed (f : file) (c : converter) (w : classes) (c' : converter) (w' : classes) : Prop := {
  x_settings : same_settings c c';
  x_out : forall q, c_out c = Some q -> c_out c' = Some q;
  x_out_new : forall q, c_out c = None -> c_out c' = Some q -> q = c_save c;
  x_others : forall d, d <> c_dir c -> w_map w' d = w_map w d;
  x_map : (match asked c with Some p => readable p | None => false end) = true -> c_made c' = true -> w_map w' (c_dir c) = asked c \/ (c_made c = true /\ w_map w' = w_map w);
  x_rel : w_rel w' = w_rel w \/ (c_dir c = OlcaToOlca /\ exists e, f_end f = Fails e true /\ f_rel f = Some (w_rel w')) }.
Lemma convert_file_ok f c w c' w' r : convert_file' f (c, w) = (c', w', r) ->
  match r with inl u => done f c w c' w' u | inr _ => failed f c w c' w' end.
Proof.
  unfold convert_file. intros H.
  assert (L : w_map (set_limits c w) = w_map w /\ w_rel (set_limits c w) = w_rel w /\ w_refs (set_limits c w) = w_refs w /\ w_opts (set_limits c w) = w_opts w) by auto.
  destruct L as (L1 & L2 & L3 & L4). set (w0 := set_limits c w) in *.
  assert (Fail0 : forall e, (clean f (c, w0), inr e) = (c', w', r) -> failed f c w c' w' /\ r = inr e).
  { intros e0 H0. injection H0 as Hc <-. split; [|reflexivity]. destruct (clean_facts _ _ _ _ _ Hc) as (S1 & _ & S3 & S4 & S5 & S6 & _).
    constructor.
    - exact S1.
    - intros q Hq. congruence.
    - intros q Hq Hq'. congruence.
    - intros d _. congruence.
    - intros _ M. right. split; [auto|congruence].
    - left. congruence. }
  assert (Start : forall c2 w2 e, make_mapping readable (c_version c) (make_data (set_version (f_version f) c, w0)) = (c2, w2, e) ->
     same_settings c c2 /\ c_version c2 = f_version f /\ c_out c2 = Some (match c_out c with Some p => p | None => c_save c end) /\ w_rel w2 = w_rel w /\ w_refs w2 = w_refs w /\
     w_opts w2 = w_opts w /\ w_limits w2 = w_limits w0 /\ (forall d, d <> c_dir c -> w_map w2 d = w_map w d) /\
     (e = None -> c_made c2 = true /\ if reload (c_version c) (f_version f) then exists p, asked c = Some p /\ readable p = true /\ w_map w2 (c_dir c) = Some p else c_made c = true /\ w_map w2 = w_map w) /\
     (e <> None -> w_map w2 = w_map w /\ (c_made c2 = c_made c \/ (match asked c with Some p => readable p | None => false end) = false))).
  { intros c2 w2 e He. destruct (make_data (set_version (f_version f) c, w0)) as [c1 w1] eqn:Ed. destruct (make_data_facts _ _ _ _ Ed) as (D1 & D2 & D3 & D4 & D5 & D6 & D7 & D8 & D9).
    destruct (make_mapping_facts _ _ _ _ _ _ He) as (M1 & M2 & M3 & M4 & M5 & M6 & M7 & _ & M8 & M9 & M10).
    assert (S : same_settings c c1) by exact D1.
    assert (A : asked c1 = asked c) by (unfold asked; destruct S as (_ & -> & _ & -> & _); reflexivity).
    assert (Dir : c_dir c1 = c_dir c) by apply S.
    assert (V1 : c_version c1 = f_version f) by exact D2.
    assert (Md : c_made c1 = c_made c) by exact D3.
    rewrite Dir in M8, M9. rewrite V1, A, Md, D5, L1 in M9. rewrite A, Md, D5, L1 in M10.
    split; [exact (same_trans _ _ _ S M1)|]. split; [congruence|]. split; [rewrite M3; exact D4|]. split; [congruence|]. split; [congruence|]. split; [congruence|]. split; [congruence|].
    split; [intros d Hd; rewrite (M8 d Hd), D5; reflexivity|]. split; assumption. }
  assert (Fail1 : forall c2 w2 w3 e0, same_settings c c2 -> c_out c2 = Some (match c_out c with Some p => p | None => c_save c end) ->
     w_map w3 = w_map w2 -> (forall d, d <> c_dir c -> w_map w2 d = w_map w d) ->
     ((match asked c with Some p => readable p | None => false end) = true -> c_made c2 = true -> w_map w2 (c_dir c) = asked c \/ (c_made c = true /\ w_map w2 = w_map w)) ->
     (w_rel w3 = w_rel w \/ (c_dir c = OlcaToOlca /\ exists e, f_end f = Fails e true /\ f_rel f = Some (w_rel w3))) ->
     (clean f (c2, w3), inr e0) = (c', w', r) -> failed f c w c' w' /\ r = inr e0).
  { intros c2 w2 w3 e0 S O W3 W2 Mp R H0. injection H0 as Hc <-. split; [|reflexivity]. destruct (clean_facts _ _ _ _ _ Hc) as (S1 & _ & S3 & S4 & S5 & S6 & _).
    constructor.
    - exact (same_trans _ _ _ S S1).
    - intros q Hq. rewrite S3, O, Hq. reflexivity.
    - intros q Hq Hq'. rewrite S3, O, Hq in Hq'. congruence.
    - intros d Hd. rewrite S5, W3. auto.
    - intros Hr Hm. rewrite S5, W3. auto.
    - rewrite S6. exact R. }
  destruct (f_end f) as [|e|e late] eqn:Ee.
  2: { apply Fail0 in H as [H ->]. exact H. }
  all: destruct (make_mapping readable (c_version c) (make_data (set_version (f_version f) c, w0))) as [[c2 w2] [e2|]] eqn:Em;
    destruct (Start _ _ _ eq_refl) as (S1 & S2 & S3 & S4 & S5 & S6 & S7 & S8 & S9 & S10).
  1,3: eapply Fail1 in H as [H ->]; [exact H| exact S1|exact S3|reflexivity|exact S8| |left; exact S4];
    intros Hr Hm; destruct (S10 ltac:(discriminate)) as [T1 [T2|T2]]; [right; split; [congruence|exact T1]|congruence].
  all: destruct (S9 eq_refl) as [N1 N2]; clear S9 S10.
  all: pose proof (set_refs_facts (c_dir c2) f w2) as (R1 & R2 & R3 & R4 & R5).
  all: destruct (check_refs (c_dir c2) (set_refs (c_dir c2) f w2)) as [e3|] eqn:Ec.
  1,3: eapply Fail1 in H as [H ->]; [exact H|exact S1|exact S3|exact R1|exact S8| |left; congruence];
    intros Hr _; destruct (reload (c_version c) (f_version f)); [left; destruct N2 as (p & P1 & _ & P3); congruence|right; exact N2].
  2: { eapply (Fail1 c2 w2) in H as [H ->]; [exact H|exact S1|exact S3| |exact S8| |].
       - destruct late; [|exact R1]. unfold read_rel. destruct (c_dir c2), (f_rel f); exact R1.
       - intros Hr _; destruct (reload (c_version c) (f_version f)); [left; destruct N2 as (p & P1 & _ & P3); congruence|right; exact N2].
       - destruct late; [|left; exact (eq_trans R2 S4)]. unfold read_rel. destruct (c_dir c2) eqn:Ed2; try (left; exact (eq_trans R2 S4)).
         destruct (f_rel f) as [l|] eqn:Er; [|left; exact (eq_trans R2 S4)]. right. split; [exact (eq_trans (eq_sym (proj1 S1)) Ed2)|]. exists e. split; [reflexivity|]. reflexivity. }
  injection H as <- <- <-.
  assert (Dir : c_dir c2 = c_dir c) by apply S1.
  assert (X : forall g, w_map (finish_rel (c_dir c2) (read_rel (c_dir c2) f (set_opts c2 g))) = w_map g) by (intros g; unfold finish_rel, read_rel; destruct (c_dir c2), (f_rel f); reflexivity).
  assert (X2 : forall g, w_map (read_rel (c_dir c2) f (set_opts c2 g)) = w_map g) by (intros g; unfold read_rel; destruct (c_dir c2), (f_rel f); reflexivity).
  assert (X3 : forall g, w_opts (read_rel (c_dir c2) f (set_opts c2 g)) = w_opts (set_opts c2 g)) by (intros g; unfold read_rel; destruct (c_dir c2), (f_rel f); reflexivity).
  assert (X4 : forall g, w_limits (read_rel (c_dir c2) f (set_opts c2 g)) = w_limits g) by (intros g; unfold read_rel; destruct (c_dir c2), (f_rel f); reflexivity).
  constructor; auto.
  - cbn [in_use u_folder]. now rewrite S3.
  - cbn [in_use u_limits]. rewrite X4, R4. exact S7.
  - cbn [in_use u_opts]. rewrite X3. cbn [set_opts w_opts]. rewrite upd_same, R3, S6, Dir. unfold apply_options. destruct S1 as (_ & _ & -> & _). reflexivity.
  - cbn [in_use u_map]. rewrite X, X2, Dir. reflexivity.
  - intros d Hd. rewrite X, R1. auto.
  - rewrite X, R1. exact N2.
  - intros Hd. rewrite Hd in Dir. rewrite Dir in *. cbn [in_use u_refs]. rewrite Dir. cbn [finish_rel read_rel set_opts w_refs]. unfold check_refs in Ec.
    unfold set_refs in *. destruct (f_refs f); cbn [w_refs] in *.
    + rewrite S5 in *. repeat split. intros C. rewrite C in Ec. discriminate.
    + repeat split. discriminate.
  - intros Hd. rewrite Hd in Dir. cbn [in_use u_rel]. rewrite Dir. cbn [finish_rel set_rel w_rel]. split; [|reflexivity]. unfold read_rel. destruct (f_rel f); [reflexivity|]. cbn [set_opts w_rel]. rewrite Dir in R2. congruence.
  - intros Hd. rewrite <- Dir in Hd. unfold finish_rel, read_rel. destruct (c_dir c2); try contradiction; cbn [set_opts w_rel]; congruence.
  - intros Hd. rewrite <- Dir in Hd. assert (Y : forall g, w_refs (finish_rel (c_dir c2) (read_rel (c_dir c2) f (set_opts c2 g))) = w_refs g) by (intros g; unfold finish_rel, read_rel; destruct (c_dir c2), (f_rel f); reflexivity).
    rewrite Y. unfold set_refs. destruct (c_dir c2); try contradiction; exact S5.
Qed.

(** ** Runs *)
Lemma files_ind (P : converter -> classes -> Prop) (Q : file -> used + exn -> Prop) l :
  (forall f c w c' w' r, In f l -> P c w -> convert_file' f (c, w) = (c', w', r) -> P c' w' /\ Q f r) ->
  forall c w c' w' es, P c w -> convert_files' l (c, w) = (c', w', es) -> P c' w' /\ Forall (fun fr => Q (fst fr) (snd fr)) es.
Proof.
  induction l as [|f l IH]; intros H c w c' w' es HP He.
  - injection He as <- <- <-. auto.
  - cbn [convert_files] in He. destruct (convert_file' f (c, w)) as [[c1 w1] r] eqn:Ef.
    destruct (H f c w c1 w1 r (or_introl eq_refl) HP Ef) as [H1 H2]. destruct r as [u|e].
    + destruct (convert_files' l (c1, w1)) as [[c2 w2] es'] eqn:El. injection He as <- <- <-.
      destruct (IH (fun g a b a' b' r Hg => H g a b a' b' r (or_intror Hg)) _ _ _ _ _ H1 El) as [H3 H4]. split; [exact H3|]. constructor; auto.
    + injection He as <- <- <-. auto.
Qed.
Lemma files_settings l c w c' w' es : convert_files' l (c, w) = (c', w', es) -> same_settings c c'.
Proof.
  intros H. apply (files_ind (fun a _ => same_settings c a) (fun _ _ => True) l) in H; [apply H| |apply same_refl].
  intros f a b a' b' r _ Ha Hf. split; [|exact I]. apply convert_file_ok in Hf. destruct r; eapply same_trans; [exact Ha|apply Hf|exact Ha|apply Hf].
Qed.
Lemma files_events l c w c' w' es : convert_files' l (c, w) = (c', w', es) -> map fst es = firstn (length es) l.
Proof.
  revert c w c' w' es. induction l as [|f l IH]; intros c w c' w' es H; [now injection H as <- <- <-|].
  cbn [convert_files] in H. destruct (convert_file' f (c, w)) as [[c1 w1] [u|e]]; [|now injection H as <- <- <-].
  destruct (convert_files' l (c1, w1)) as [[c2 w2] es'] eqn:El. injection H as <- <- <-. cbn [map fst length firstn]. now rewrite (IH _ _ _ _ _ El).
Qed.
Lemma files_all l : forall c w c' w' es, convert_files' l (c, w) = (c', w', es) -> (forall fr, In fr es -> exists u, snd fr = inl u) -> map fst es = l.
Proof.
  induction l as [|f l IH]; intros c w c' w' es E H; [now injection E as <- <- <-|]. cbn [convert_files] in E. destruct (convert_file' f (c, w)) as [[c1 w1] [u|e]].
  - destruct (convert_files' l (c1, w1)) as [[c2 w2] fs2] eqn:E2. injection E as <- <- <-. cbn [map fst]. f_equal. apply (IH _ _ _ _ _ E2). intros fr Hf. apply H. now right.
  - injection E as <- <- <-. destruct (H (f, inr e) (or_introl eq_refl)) as [u Hu]. discriminate.
Qed.

(** ** Sessions *)
Lemma session_app ops o : session' (ops ++ [o]) = do_op' (session' ops) o.
Proof. unfold session. now rewrite fold_left_app. Qed.
Lemma on_length k g s : length (s_convs (on k g s)) = length (s_convs s).
Proof. unfold on. destruct (nth_error (s_convs s) k); [apply put_at_length|reflexivity]. Qed.
Lemma on_none j k g s : nth_error (s_convs s) k = None -> nth_error (s_convs (on j g s)) k = None.
Proof. rewrite !nth_error_None, on_length. auto. Qed.
Lemma on_events k g s : s_events (on k g s) = s_events s.
Proof. unfold on. destruct (nth_error (s_convs s) k); reflexivity. Qed.
Lemma on_classes k g s : s_classes (on k g s) = s_classes s.
Proof. unfold on. destruct (nth_error (s_convs s) k); reflexivity. Qed.
Lemma session_length ops : length (s_convs (session' ops)) = news ops.
Proof.
  induction ops as [|o ops IH] using rev_ind; [reflexivity|]. rewrite session_app, news_app. destruct o; cbn [do_op]; rewrite ?on_length, ?IH; cbn; try lia.
  - rewrite app_length, IH. cbn. lia.
  - destruct (nth_error (s_convs (session' ops)) k) as [c|]; [|lia]. destruct (convert_files' (disk (c_input c)) (c, s_classes (session' ops))) as [[c' w'] es]. cbn. rewrite put_at_length. lia.
Qed.
(** what a converter is after some operations *)
Definition tracks (k : nat) (r : request) (l : list op) (c : converter) : Prop :=
  c_dir c = r_dir r /\ map fst (c_opts c) = map fst (all_options (r_dir r)) /\
  (forall n, getf n (c_opts c) = option_map (fun d => latest (option_for k n) d l) (getf n (all_options (r_dir r)))) /\
  asked c = latest (mapping_for k) (default_mapping (r_lists r)) l /\ c_save c = latest (save_for k) (r_save r) l /\ c_input c = r_path r /\ c_hash c = r_hash r.
Lemma tracks_same k r l c c' : tracks k r l c -> same_settings c c' -> tracks k r l c'.
Proof. unfold tracks, asked. intros H (-> & -> & -> & -> & -> & -> & ->). exact H. Qed.
Lemma latest_skip {A} (get : op -> option A) d l o : get o = None -> latest get d (l ++ [o]) = latest get d l.
Proof. intros H. now rewrite latest_app, H. Qed.
Lemma tracks_skip k r l c o : tracks k r l c -> (forall n, option_for k n o = None) -> mapping_for k o = None -> save_for k o = None -> tracks k r (l ++ [o]) c.
Proof.
  intros (T1 & T2 & T3 & T4 & T5 & T6 & T7) H1 H2 H3. repeat split; auto.
  - intros n. rewrite T3. destruct (getf n (all_options (r_dir r))); [|reflexivity]. cbn [option_map]. now rewrite latest_skip.
  - now rewrite latest_skip.
  - now rewrite latest_skip.
Qed.
Lemma special_option d : getf (lit "convert_additional_fields") (all_options d) = None.
Proof. destruct d; reflexivity. Qed.
Lemma tracks_option k r l c n v : tracks k r l c -> tracks k r (l ++ [SetOption k n v]) (set_option n v c).
Proof.
  intros T. pose proof T as (T1 & T2 & T3 & T4 & T5 & T6 & T7). unfold set_option. destruct (in_true_false v) eqn:V.
  2: { apply tracks_skip; auto. intros m. cbn [option_for]. now rewrite V, !andb_false_r. }
  destruct (str_eqb n (lit "convert_additional_fields")) eqn:E.
  { apply str_eqb_eq in E. subst n. repeat split; auto; cbn [asked c_map c_default c_opts c_save].
    - intros m. rewrite T3. destruct (getf m (all_options (r_dir r))) eqn:G; [|reflexivity]. cbn [option_map]. rewrite latest_skip; [reflexivity|].
      cbn [option_for]. rewrite Nat.eqb_refl. destruct (str_eqb (lit "convert_additional_fields") m) eqn:Em; [|reflexivity]. apply str_eqb_eq in Em. subst m. rewrite special_option in G. discriminate.
    - rewrite latest_skip by reflexivity. exact T4.
    - rewrite latest_skip by reflexivity. exact T5. }
  destruct (getf n (c_opts c)) as [old|] eqn:G.
  - repeat split; auto; cbn [asked c_map c_default c_opts c_save].
    + rewrite DotDictProofs.putf_present; [exact T2|]. destruct (in_dec (list_eq_dec N.eq_dec) n (map fst (c_opts c))) as [Hi|Hi]; [exact Hi|].
      exfalso. rewrite T3 in G. destruct (getf n (all_options (r_dir r))) eqn:G2; [|discriminate]. apply Hi. rewrite T2. clear -G2.
      revert G2. generalize (all_options (r_dir r)). intros L. induction L as [|[k' x] L IH]; intros G2; [discriminate|]. cbn [getf] in G2. cbn [map fst In].
      destruct (str_eqb k' n) eqn:En; [apply str_eqb_eq in En; auto|]. right. auto.
    + intros m. destruct (list_eq_dec N.eq_dec m n) as [->|Hm].
      * rewrite DotDictProofs.getf_putf. rewrite T3 in G. destruct (getf n (all_options (r_dir r))); [|discriminate]. cbn [option_map]. rewrite latest_app. cbn [option_for].
        rewrite Nat.eqb_refl, str_eqb_refl, V. reflexivity.
      * rewrite getf_putf_ne by exact Hm. rewrite T3. destruct (getf m (all_options (r_dir r))); [|reflexivity]. cbn [option_map]. rewrite latest_skip; [reflexivity|].
        cbn [option_for]. destruct (str_eqb n m) eqn:En; [apply str_eqb_eq in En; congruence|]. now rewrite andb_false_r.
    + rewrite latest_skip by reflexivity. exact T4.
    + rewrite latest_skip by reflexivity. exact T5.
  - repeat split; auto.
    + intros m. destruct (list_eq_dec N.eq_dec m n) as [->|Hm].
      * rewrite G. rewrite T3 in G. destruct (getf n (all_options (r_dir r))); [discriminate|reflexivity].
      * rewrite T3. destruct (getf m (all_options (r_dir r))); [|reflexivity]. cbn [option_map]. rewrite latest_skip; [reflexivity|].
        cbn [option_for]. destruct (str_eqb n m) eqn:En; [apply str_eqb_eq in En; congruence|]. now rewrite andb_false_r.
    + rewrite latest_skip by reflexivity. exact T4.
    + rewrite latest_skip by reflexivity. exact T5.
Qed.
Lemma tracks_mapping k r l c p : tracks k r l c -> tracks k r (l ++ [SetMapping k p]) (set_mapping p c).
Proof.
  intros T. pose proof T as (T1 & T2 & T3 & T4 & T5 & T6 & T7). unfold set_mapping. destruct (mapping_path p) eqn:E.
  - repeat split; auto; cbn [asked c_map c_default c_opts c_save].
    + intros n. rewrite T3. destruct (getf n (all_options (r_dir r))); [|reflexivity]. cbn [option_map]. now rewrite latest_skip.
    + rewrite latest_app. cbn [mapping_for]. now rewrite Nat.eqb_refl, E.
    + now rewrite latest_skip.
  - apply tracks_skip; auto. cbn [mapping_for]. now rewrite E, andb_false_r.
Qed.
Lemma tracks_save k r l c p : tracks k r l c -> tracks k r (l ++ [SetSave k p]) (set_save p c).
Proof.
  intros (T1 & T2 & T3 & T4 & T5 & T6 & T7). repeat split; auto; cbn [asked set_save c_map c_default c_opts c_save].
  - intros n. rewrite T3. destruct (getf n (all_options (r_dir r))); [|reflexivity]. cbn [option_map]. now rewrite latest_skip.
  - rewrite latest_skip by reflexivity. exact T4.
  - rewrite latest_app. cbn [save_for]. now rewrite Nat.eqb_refl.
Qed.
Lemma tracks_path k r l c p : tracks k r l c -> tracks k r (l ++ [SetPath k p]) (set_path p c).
Proof.
  intros T. assert (T' : tracks k r l (set_path p c)) by exact T. now apply tracks_skip.
Qed.
Lemma tracks_new k r : tracks k r [] (new r).
Proof. repeat split. intros n. cbn [new c_opts]. destruct (getf n (all_options (r_dir r))); reflexivity. Qed.

(** the converter that an operation is about *)
Definition about (o : op) : option nat := match o with New _ => None | SetOption k _ _ | SetMapping k _ | SetSave k _ | SetPath k _ | Convert k => Some k end.
Lemma on_same k g s c : nth_error (s_convs s) k = Some c -> nth_error (s_convs (on k g s)) k = Some (g c).
Proof. intros H. unfold on. rewrite H. cbn. apply put_at_same. exact (nth_some_lt _ _ _ H). Qed.
Lemma on_other k j g s : j <> k -> nth_error (s_convs (on k g s)) j = nth_error (s_convs s) j.
Proof. intros H. unfold on. destruct (nth_error (s_convs s) k); [cbn; now apply put_at_other|reflexivity]. Qed.
Lemma do_other o k s c : nth_error (s_convs s) k = Some c -> about o <> Some k -> nth_error (s_convs (do_op' s o)) k = Some c.
Proof.
  intros H A. destruct o; cbn [do_op about] in *; try (rewrite on_other by congruence; exact H).
  - cbn. rewrite nth_error_app1; [exact H|exact (nth_some_lt _ _ _ H)].
  - destruct (nth_error (s_convs s) k0); [|exact H]. destruct (convert_files' _ _) as [[? ?] ?]. cbn. rewrite put_at_other by congruence. exact H.
Qed.
Lemma tracks_other k r l c o : tracks k r l c -> about o <> Some k -> tracks k r (l ++ [o]) c.
Proof.
  intros T A. apply tracks_skip; [exact T| | |]; try intros n; destruct o; cbn [about option_for mapping_for save_for] in *; try reflexivity;
    (replace (Nat.eqb k0 k) with false by (symmetry; apply Nat.eqb_neq; congruence)); reflexivity.
Qed.
Lemma tracked ops k r l : since_new k ops = Some (r, l) -> exists c, nth_error (s_convs (session' ops)) k = Some c /\ tracks k r l c.
Proof.
  revert r l. induction ops as [|o ops IH] using rev_ind; intros r l H; [discriminate|]. rewrite since_app in H. rewrite session_app.
  destruct (since_new k ops) as [[r0 l0]|] eqn:E.
  - injection H as <- <-. destruct (IH _ _ eq_refl) as (c & C & T).
    destruct (about o) as [j|] eqn:A; [destruct (Nat.eq_dec j k) as [->|Hj]|].
    + destruct o; cbn [about] in A; try discriminate; injection A as ->; cbn [do_op].
      * exists (set_option n v c). split; [now apply on_same|now apply tracks_option].
      * exists (set_mapping p c). split; [now apply on_same|now apply tracks_mapping].
      * exists (set_save p c). split; [now apply on_same|now apply tracks_save].
      * exists (set_path p c). split; [now apply on_same|now apply tracks_path].
      * rewrite C. destruct (convert_files' (disk (c_input c)) (c, s_classes (session' ops))) as [[c' w'] es] eqn:Ec. exists c'. cbn. split; [apply put_at_same; exact (nth_some_lt _ _ _ C)|].
        apply files_settings in Ec. apply tracks_skip; auto. exact (tracks_same _ _ _ _ _ T Ec).
    + exists c. split; [apply do_other; congruence|apply tracks_other; congruence].
    + exists c. split; [apply do_other; congruence|apply tracks_other; congruence].
  - destruct o; try discriminate. destruct (Nat.eqb k (news ops)) eqn:Ek; [|discriminate]. injection H as <- <-. apply Nat.eqb_eq in Ek. subst k.
    exists (new r0). split; [|apply tracks_new]. cbn. rewrite nth_error_app2; rewrite session_length; [|lia]. now rewrite Nat.sub_diag.
Qed.
Lemma tracked_inv ops k c : nth_error (s_convs (session' ops)) k = Some c -> exists r l, since_new k ops = Some (r, l) /\ tracks k r l c.
Proof.
  intros H. destruct (since_new k ops) as [[r l]|] eqn:E.
  - exists r, l. split; [reflexivity|]. destruct (tracked _ _ _ _ E) as (c' & C & T). congruence.
  - apply since_none in E. apply nth_some_lt in H. rewrite session_length in H. lia.
Qed.

(** ** Options *)
Lemma fold_options g : forall (opts a : list (pystr * pyval)) (n : pystr), NoDup (map fst opts) ->
  getf n (fold_left (fun a nv => if Bool.eqb (is_general (fst nv)) g then putf (fst nv) (snd nv) a else a) opts a) =
  if Bool.eqb (is_general n) g then match getf n opts with Some v => Some v | None => getf n a end else getf n a.
Proof.
  induction opts as [|[m v] opts IH]; intros a n ND.
  - cbn. now destruct (Bool.eqb (is_general n) g).
  - cbn [fold_left map fst snd] in *. apply NoDup_cons_iff in ND as [Hm ND]. rewrite IH by exact ND. cbn [getf].
    destruct (str_eqb m n) eqn:E.
    + apply str_eqb_eq in E. subst m.
      assert (G : getf n opts = None).
      { clear -Hm. induction opts as [|[k x] opts IH]; [reflexivity|]. cbn [getf map fst In] in *. destruct (str_eqb k n) eqn:E; [apply str_eqb_eq in E; tauto|]. apply IH. tauto. }
      rewrite G. destruct (Bool.eqb (is_general n) g); [apply DotDictProofs.getf_putf|reflexivity].
    + assert (Hn : n <> m) by (intros ->; rewrite str_eqb_refl in E; discriminate).
      destruct (Bool.eqb (is_general n) g), (getf n opts), (Bool.eqb (is_general m) g); try reflexivity; now apply getf_putf_ne.
Qed.
Lemma options_nodup d : NoDup (map fst (all_options d)).
Proof. destruct d; cbn [all_options]; vm_compute; repeat constructor; cbn; intuition discriminate. Qed.
Lemma applied g c a n v : NoDup (map fst (c_opts c)) -> is_general n = g -> getf n (c_opts c) = Some v -> getf n (apply_options g c a) = Some v.
Proof. intros ND G H. unfold apply_options. rewrite fold_options by exact ND. rewrite G, eqb_reflx, H. reflexivity. Qed.

(** ** One more run *)
Lemma adds_convert ops k es c c' w' l : nth_error (s_convs (session' ops)) k = Some c ->
  convert_files' (disk (c_input c)) (c, s_classes (session' ops)) = (c', w', l) ->
  adds readable disk ops (Convert k) es <-> es = map (fun fr => (k, fst fr, snd fr)) l.
Proof.
  intros C H. unfold adds, events. rewrite session_app. cbn [do_op]. rewrite C, H. cbn [s_events]. split; [intros E; now apply app_inv_head in E|now intros ->].
Qed.
Lemma adds_none ops k es : nth_error (s_convs (session' ops)) k = None -> adds readable disk ops (Convert k) es -> es = [].
Proof.
  intros C. unfold adds, events. rewrite session_app. cbn [do_op]. rewrite C. intros E. rewrite <- (app_nil_r (s_events _)) in E at 1. apply app_inv_head in E. now symmetry.
Qed.
(** all events of a run *)
Lemma run_ind ops k es c (P : converter -> classes -> Prop) (Q : file -> used + exn -> Prop) :
  nth_error (s_convs (session' ops)) k = Some c -> adds readable disk ops (Convert k) es -> P c (s_classes (session' ops)) ->
  (forall f c0 w0 c1 w1 r, In f (disk (c_input c)) -> P c0 w0 -> convert_file' f (c0, w0) = (c1, w1, r) -> P c1 w1 /\ Q f r) ->
  Forall (fun e => fst (fst e) = k /\ Q (snd (fst e)) (snd e)) es.
Proof.
  intros C A HP H. destruct (convert_files' (disk (c_input c)) (c, s_classes (session' ops))) as [[c' w'] l] eqn:E.
  apply (adds_convert _ _ _ _ _ _ _ C E) in A. subst es. destruct (files_ind P Q _ H _ _ _ _ _ HP E) as [_ F].
  apply Forall_forall. intros e He. apply in_map_iff in He as (fr & <- & Hin). rewrite Forall_forall in F. cbn. split; [reflexivity|]. exact (F _ Hin).
Qed.

(** ** The folder *)
Lemma settled_app is k a b : settled is k (a ++ b) -> settled is k a.
Proof. intros H x o y E. apply (H x o (y ++ b)). rewrite E, <- app_assoc. reflexivity. Qed.
Lemma no_convert_made ops k c : nth_error (s_convs (session' ops)) k = Some c -> ~ In (Convert k) ops -> c_made c = false /\ c_version c = None /\ c_out c = None.
Proof.
  revert c. induction ops as [|o ops IH] using rev_ind; intros c C NI; [destruct k; discriminate C|].
  assert (NI' : ~ In (Convert k) ops) by (intros Hi; apply NI, in_or_app; now left).
  rewrite session_app in C. destruct (nth_error (s_convs (session' ops)) k) as [c0|] eqn:C0.
  - specialize (IH c0 eq_refl NI'). destruct (about o) as [j|] eqn:A; [destruct (Nat.eq_dec j k) as [->|Hj]|].
    + destruct o; cbn [about] in A; try discriminate; injection A as ->; cbn [do_op] in C.
      * rewrite (on_same _ _ _ _ C0) in C. injection C as <-. unfold set_option. destruct (in_true_false v); [|exact IH]. destruct (str_eqb n _); [exact IH|]. destruct (getf n (c_opts c0)); exact IH.
      * rewrite (on_same _ _ _ _ C0) in C. injection C as <-. unfold set_mapping. destruct (mapping_path p); exact IH.
      * rewrite (on_same _ _ _ _ C0) in C. injection C as <-. exact IH.
      * rewrite (on_same _ _ _ _ C0) in C. injection C as <-. exact IH.
      * exfalso. apply NI, in_or_app. right. now left.
    + rewrite (do_other o k _ c0 C0) in C by congruence. injection C as <-. exact IH.
    + rewrite (do_other o k _ c0 C0) in C by congruence. injection C as <-. exact IH.
  - assert (L : length (s_convs (session' ops)) <= k) by now apply nth_error_None.
    destruct o; cbn [do_op] in C; try (rewrite on_none in C by exact C0; discriminate).
    + cbn in C. rewrite nth_error_app2 in C by exact L. destruct (k - length (s_convs (session' ops))) as [|m]; [|destruct m; discriminate]. injection C as <-. repeat split.
    + destruct (nth_error (s_convs (session' ops)) k0) as [c1|] eqn:C1; [|congruence].
      destruct (convert_files' _ _) as [[c' w'] es]. cbn in C. apply nth_some_lt in C. rewrite put_at_length in C. lia.
Qed.
(** the operations before the last one *)
Lemma before ops o k c : nth_error (s_convs (session' (ops ++ [o]))) k = Some c ->
  (exists c0, nth_error (s_convs (session' ops)) k = Some c0) \/ (exists r, o = New r /\ c = new r /\ k = news ops).
Proof.
  intros C. destruct (nth_error (s_convs (session' ops)) k) as [c0|] eqn:C0; [left; eauto|]. right.
  rewrite session_app in C.
  assert (L : length (s_convs (session' ops)) <= k) by now apply nth_error_None.
  destruct o; cbn [do_op] in C; try (rewrite on_none in C by exact C0; discriminate).
  - cbn in C. rewrite nth_error_app2 in C by exact L. destruct (k - length (s_convs (session' ops))) as [|m] eqn:Ek; [|destruct m; discriminate]. injection C as <-.
    exists r. repeat split. rewrite <- session_length. lia.
  - destruct (nth_error (s_convs (session' ops)) k0) as [c1|] eqn:C1; [|congruence].
    destruct (convert_files' _ _) as [[c' w'] es]. cbn in C. apply nth_some_lt in C. rewrite put_at_length in C. lia.
Qed.
Lemma folder_inv ops k c : nth_error (s_convs (session' ops)) k = Some c ->
  settled (sets_folder k) k ops -> forall q, c_out c = Some q -> q = c_save c.
Proof.
  revert c. induction ops as [|o ops IH] using rev_ind; intros c C S q Hq; [destruct k; discriminate C|].
  destruct (before _ _ _ _ C) as [[c0 C0]|(r & -> & -> & _)]; [|discriminate Hq].
  specialize (IH c0 C0 (settled_app _ _ _ _ S)). rewrite session_app in C.
  destruct (about o) as [j|] eqn:A; [destruct (Nat.eq_dec j k) as [->|Hj]|].
  - destruct o; cbn [about] in A; try discriminate; injection A as ->; cbn [do_op] in C.
    + rewrite (on_same _ _ _ _ C0) in C. injection C as <-. unfold set_option in *. destruct (in_true_false v); [|auto]. destruct (str_eqb n _); [auto|]. destruct (getf n (c_opts c0)); auto.
    + rewrite (on_same _ _ _ _ C0) in C. injection C as <-. unfold set_mapping in *. destruct (mapping_path p); auto.
    + exfalso. assert (N : ~ In (Convert k) ops). { apply (S ops (SetSave k p) []); [reflexivity|]. unfold sets_folder. cbn. now rewrite Nat.eqb_refl. }
      rewrite (on_same _ _ _ _ C0) in C. injection C as <-. destruct (no_convert_made _ _ _ C0 N) as (_ & _ & Hn). cbn in Hq. congruence.
    + rewrite (on_same _ _ _ _ C0) in C. injection C as <-. auto.
    + rewrite C0 in C. destruct (convert_files' (disk (c_input c0)) (c0, s_classes (session' ops))) as [[c' w'] es] eqn:Ec. cbn in C. rewrite put_at_same in C by exact (nth_some_lt _ _ _ C0). injection C as <-.
      assert (F : forall q, c_out c' = Some q -> q = c_save c'); [|auto].
      apply (files_ind (fun a _ => forall q, c_out a = Some q -> q = c_save a) (fun _ _ => True)) in Ec; [apply Ec| |exact IH].
      intros f a b a' b' r0 _ Ha Hf. split; [|exact I]. apply convert_file_ok in Hf. intros q' Hq'. destruct r0.
      * rewrite (d_out _ _ _ _ _ _ Hf) in Hq'. destruct (d_settings _ _ _ _ _ _ Hf) as (_ & _ & _ & _ & _ & -> & _). destruct (c_out a); [apply Ha; congruence|congruence].
      * destruct (x_settings _ _ _ _ _ Hf) as (_ & _ & _ & _ & _ & -> & _). destruct (c_out a) eqn:Eo.
        -- apply Ha. rewrite (x_out _ _ _ _ _ Hf _ Eo) in Hq'. congruence.
        -- exact (x_out_new _ _ _ _ _ Hf _ Eo Hq').
  - rewrite (do_other o k _ c0 C0) in C by congruence. injection C as <-. auto.
  - rewrite (do_other o k _ c0 C0) in C by congruence. injection C as <-. auto.
Qed.
Lemma same_folder_inv ops k : match nth_error (s_convs (session' ops)) k with
  | Some c => forall f u, In (k, f, inl u) (s_events (session' ops)) -> c_out c = Some (u_folder u)
  | None => forall f u, ~ In (k, f, inl u) (s_events (session' ops)) end.
Proof.
  induction ops as [|o ops IH] using rev_ind; [destruct k; intros f u []|].
  assert (Ev : (forall j, o <> Convert j) -> s_events (session' (ops ++ [o])) = s_events (session' ops)).
  { intros Hn. rewrite session_app. destruct o; cbn [do_op]; rewrite ?on_events; try reflexivity. destruct (Hn k0 eq_refl). }
  destruct (nth_error (s_convs (session' (ops ++ [o]))) k) as [c|] eqn:C.
  - destruct (before _ _ _ _ C) as [[c0 C0]|(r & -> & -> & Ek)].
    + rewrite C0 in IH. rewrite session_app in C. destruct (about o) as [j|] eqn:A; [destruct (Nat.eq_dec j k) as [->|Hj]|].
      * destruct o; cbn [about] in A; try discriminate; injection A as ->.
        1-4: rewrite Ev by discriminate; cbn [do_op] in C; rewrite (on_same _ _ _ _ C0) in C; injection C as <-; intros f u Hin; specialize (IH f u Hin).
        -- unfold set_option. destruct (in_true_false v); [|exact IH]. destruct (str_eqb n _); [exact IH|]. destruct (getf n (c_opts c0)); exact IH.
        -- unfold set_mapping. destruct (mapping_path p); exact IH.
        -- exact IH.
        -- exact IH.
        -- clear Ev. rewrite session_app. cbn [do_op] in *. rewrite C0 in *. destruct (convert_files' (disk (c_input c0)) (c0, s_classes (session' ops))) as [[c' w'] es] eqn:Ec.
           cbn [s_convs s_events] in *. rewrite put_at_same in C by exact (nth_some_lt _ _ _ C0). injection C as <-.
           assert (G : forall l c1 w1 c2 w2 es2, convert_files' l (c1, w1) = (c2, w2, es2) -> (forall q, c_out c1 = Some q -> c_out c2 = Some q) /\ (forall f u, In (f, inl u) es2 -> c_out c2 = Some (u_folder u))).
           { clear. induction l as [|f l IHl]; intros c1 w1 c2 w2 es2 H.
             - injection H as <- <- <-. split; [auto|intros ? ? []].
             - cbn [convert_files] in H. destruct (convert_file' f (c1, w1)) as [[c3 w3] r] eqn:Ef. apply convert_file_ok in Ef. destruct r as [u|e].
               + destruct (convert_files' l (c3, w3)) as [[c4 w4] es4] eqn:El. injection H as <- <- <-. destruct (IHl _ _ _ _ _ El) as [I1 I2].
                 pose proof (d_out _ _ _ _ _ _ Ef) as O. pose proof (d_folder _ _ _ _ _ _ Ef) as Fo. split.
                 * intros q Hq. rewrite Hq in O. exact (I1 _ O).
                 * intros g u0 [Eq|Hin]; [injection Eq as <- <-; rewrite Fo; exact (I1 _ O)|exact (I2 _ _ Hin)].
               + injection H as <- <- <-. split; [exact (x_out _ _ _ _ _ Ef)|]. intros g u0 [Eq|[]]. discriminate Eq. }
           destruct (G _ _ _ _ _ _ Ec) as [G1 G2]. intros f u Hin. apply in_app_or in Hin as [Hin|Hin]; [exact (G1 _ (IH _ _ Hin))|].
           apply in_map_iff in Hin as ((f0 & r0) & Eq & Hin). cbn in Eq. injection Eq as <- ->. exact (G2 _ _ Hin).
      * assert (Hc : nth_error (s_convs (do_op' (session' ops) o)) k = Some c0) by (apply do_other; congruence). rewrite Hc in C. injection C as <-.
        intros f u Hin. apply (IH f u). destruct o; try (rewrite Ev in Hin by discriminate; exact Hin). cbn [about] in A. injection A as ->.
        rewrite session_app in Hin. cbn [do_op] in Hin. destruct (nth_error (s_convs (session' ops)) j); [|exact Hin]. destruct (convert_files' _ _) as [[? ?] ?]. cbn in Hin.
        apply in_app_or in Hin as [Hin|Hin]; [exact Hin|]. apply in_map_iff in Hin as (? & Eq & _). injection Eq as Eq _ _. contradiction.
      * assert (Hc : nth_error (s_convs (do_op' (session' ops) o)) k = Some c0) by (apply do_other; congruence). rewrite Hc in C. injection C as <-.
        intros f u Hin. apply (IH f u). destruct o; try discriminate. rewrite Ev in Hin by discriminate. exact Hin.
    + rewrite Ev by discriminate. replace (nth_error (s_convs (session' ops)) k) with (@None converter) in IH.
      * intros f u Hin. now contradiction (IH f u).
      * symmetry. apply nth_error_None. rewrite session_length. lia.
  - assert (C0 : nth_error (s_convs (session' ops)) k = None).
    { apply nth_error_None. apply nth_error_None in C. rewrite session_length in *. rewrite news_app in C. lia. }
    rewrite C0 in IH. intros f u Hin. destruct o; try (rewrite Ev in Hin by discriminate; now apply (IH f u)).
    rewrite session_app in Hin. cbn [do_op] in Hin. destruct (nth_error (s_convs (session' ops)) k0) eqn:C1; [|now apply (IH f u)]. destruct (convert_files' _ _) as [[? ?] ?]. cbn in Hin.
    apply in_app_or in Hin as [Hin|Hin]; [now apply (IH f u)|]. apply in_map_iff in Hin as (? & Eq & _). injection Eq as Eq _ _. congruence.
Qed.

(** ** The mapping *)
Lemma fine_app k a b : fine_mappings readable k (a ++ b) -> fine_mappings readable k a.
Proof. intros H x y p E. apply (H x (y ++ b) p). rewrite E, <- app_assoc. reflexivity. Qed.
Lemma works_app j a o d : works_on j a d -> works_on j (a ++ [o]) d.
Proof. intros (r & l & E & D). exists r, (l ++ [o]). rewrite since_app, E. auto. Qed.
Lemma alone_app k a o d : alone k (a ++ [o]) d -> alone k a d.
Proof. intros H j W. apply H. now apply works_app. Qed.
Lemma asked_fine ops k c : nth_error (s_convs (session' ops)) k = Some c -> fine_mappings readable k ops -> (match asked c with Some p => readable p | None => false end) = true.
Proof.
  intros C F. destruct (tracked_inv _ _ _ C) as (r & l & E & T). assert (W : wanted_mapping k ops (asked c)). { exists r, l. split; [exact E|]. apply T. }
  specialize (F ops [] (asked c) (eq_sym (app_nil_r _)) W). destruct (asked c); [exact F|contradiction].
Qed.
Lemma same_asked c c' : same_settings c c' -> asked c' = asked c.
Proof. intros (_ & E1 & _ & E2 & _). unfold asked. now rewrite E1, E2. Qed.
(** one file, when the mapping in use is the one asked for *)
Lemma map_step f c w c' w' r : convert_file' f (c, w) = (c', w', r) -> (match asked c with Some p => readable p | None => false end) = true ->
  (c_made c = true -> w_map w (c_dir c) = asked c) ->
  (c_made c' = true -> w_map w' (c_dir c') = asked c') /\ match r with inl u => u_map u = asked c | inr _ => True end.
Proof.
  intros H R Inv. apply convert_file_ok in H. destruct r as [u|e].
  - pose proof (d_settings _ _ _ _ _ _ H) as S. pose proof (d_load _ _ _ _ _ _ H) as L. rewrite (same_asked _ _ S). destruct S as (-> & _).
    assert (M : w_map w' (c_dir c) = asked c). { destruct (reload (c_version c) (f_version f)); [destruct L as (p & -> & _ & ->); reflexivity|]. destruct L as [L1 ->]. auto. }
    split; [auto|]. rewrite (d_map _ _ _ _ _ _ H). exact M.
  - pose proof (x_settings _ _ _ _ _ H) as S. split; [|exact I]. rewrite (same_asked _ _ S). destruct S as (-> & _). intros M. destruct (x_map _ _ _ _ _ H R M) as [E|[M0 E]]; [exact E|]. rewrite E. auto.
Qed.
Lemma map_inv ops k c : nth_error (s_convs (session' ops)) k = Some c ->
  settled (sets_mapping k) k ops -> fine_mappings readable k ops -> alone k ops (c_dir c) ->
  c_made c = true -> w_map (s_classes (session' ops)) (c_dir c) = asked c.
Proof.
  revert c. induction ops as [|o ops IH] using rev_ind; intros c C S F Al M; [destruct k; discriminate C|].
  destruct (before _ _ _ _ C) as [[c0 C0]|(r & -> & -> & _)]; [|discriminate M].
  specialize (IH c0 C0 (settled_app _ _ _ _ S) (fine_app _ _ _ F)). pose proof C as C'. rewrite session_app in C |- *.
  assert (D : c_dir c = c_dir c0).
  { destruct (tracked_inv _ _ _ C0) as (r & l & E & T). destruct (tracked_inv _ _ _ C') as (r' & l' & E' & T'). rewrite since_app, E in E'. injection E' as <- <-. rewrite (proj1 T), (proj1 T'). reflexivity. }
  rewrite D in *. specialize (IH (alone_app _ _ _ _ Al)).
  destruct (about o) as [j|] eqn:A; [destruct (Nat.eq_dec j k) as [->|Hj]|].
  - destruct o; cbn [about] in A; try discriminate; injection A as ->; cbn [do_op] in C |- *.
    1-4: rewrite on_classes.
    + rewrite (on_same _ _ _ _ C0) in C. injection C as <-. unfold set_option in *. destruct (in_true_false v); [|auto]. destruct (str_eqb n _); [auto|]. destruct (getf n (c_opts c0)); auto.
    + rewrite (on_same _ _ _ _ C0) in C. injection C as <-. unfold set_mapping in *. destruct (mapping_path p) eqn:Ep; [|auto].
      exfalso. assert (N : ~ In (Convert k) ops). { apply (S ops (SetMapping k p) []); [reflexivity|]. unfold sets_mapping. cbn. now rewrite Nat.eqb_refl, Ep. }
      destruct (no_convert_made _ _ _ C0 N) as (Hn & _). cbn in M. congruence.
    + rewrite (on_same _ _ _ _ C0) in C. injection C as <-. auto.
    + rewrite (on_same _ _ _ _ C0) in C. injection C as <-. auto.
    + rewrite C0 in C |- *. pose proof (asked_fine _ _ _ C0 (fine_app _ _ _ F)) as R.
      destruct (convert_files' (disk (c_input c0)) (c0, s_classes (session' ops))) as [[c' w'] es] eqn:Ec. cbn in C |- *. rewrite put_at_same in C by exact (nth_some_lt _ _ _ C0). injection C as <-.
      apply (files_ind (fun a b => same_settings c0 a /\ (c_made a = true -> w_map b (c_dir a) = asked a)) (fun _ _ => True)) in Ec.
      * destruct Ec as [[S' Inv] _]. rewrite <- D. auto.
      * intros f a b a' b' r0 _ [Ha Inv] Hf. split; [|exact I]. rewrite <- (same_asked _ _ Ha) in R. split; [|exact (proj1 (map_step _ _ _ _ _ _ Hf R Inv))].
        apply convert_file_ok in Hf. destruct r0; eapply same_trans; [exact Ha|apply Hf|exact Ha|apply Hf].
      * split; [apply same_refl|exact IH].
  - assert (Hc : nth_error (s_convs (do_op' (session' ops) o)) k = Some c0) by (apply do_other; congruence). rewrite Hc in C. injection C as <-.
    destruct o; cbn [about] in A; try discriminate; injection A as ->; cbn [do_op]; rewrite ?on_classes; auto. destruct (nth_error (s_convs (session' ops)) j) as [cj|] eqn:Cj; [|auto].
    destruct (convert_files' (disk (c_input cj)) (cj, s_classes (session' ops))) as [[c' w'] es] eqn:Ec. cbn [s_classes].
    assert (Dj : c_dir c0 <> c_dir cj). { intros Eq. apply Hj, (alone_app _ _ _ _ Al). destruct (tracked_inv _ _ _ Cj) as (r & l & E & T). exists r, l. split; [exact E|]. rewrite Eq. symmetry. apply T. }
    rewrite <- (IH M). apply (files_ind (fun a b => c_dir a = c_dir cj /\ w_map b (c_dir c0) = w_map (s_classes (session' ops)) (c_dir c0)) (fun _ _ => True)) in Ec; [apply Ec| |auto].
    intros f a b a' b' r0 _ [Ha Inv] Hf. split; [|exact I]. apply convert_file_ok in Hf. destruct r0.
    + split; [destruct (d_settings _ _ _ _ _ _ Hf) as [-> _]; exact Ha|]. rewrite (d_others _ _ _ _ _ _ Hf) by congruence. exact Inv.
    + split; [destruct (x_settings _ _ _ _ _ Hf) as [-> _]; exact Ha|]. rewrite (x_others _ _ _ _ _ Hf) by congruence. exact Inv.
  - assert (Hc : nth_error (s_convs (do_op' (session' ops) o)) k = Some c0) by (apply do_other; congruence). rewrite Hc in C. injection C as <-.
    destruct o; try discriminate. cbn. auto.
Qed.
(** ** First and last file of a run *)
Lemma files_first l c w c' w' f r es : convert_files' l (c, w) = (c', w', (f, r) :: es) -> exists c1 w1, convert_file' f (c, w) = (c1, w1, r).
Proof.
  destruct l as [|g l]; intros H; [discriminate|]. cbn [convert_files] in H. destruct (convert_file' g (c, w)) as [[c1 w1] [u|e]] eqn:E.
  - destruct (convert_files' l (c1, w1)) as [[c2 w2] es2]. injection H as _ _ <- <- _. eauto.
  - injection H as _ _ <- <- _. eauto.
Qed.
Lemma files_last l : forall c w c' w' es f u, convert_files' l (c, w) = (c', w', es ++ [(f, inl u)]) -> exists c1 w1, convert_file' f (c1, w1) = (c', w', inl u) /\ same_settings c c1.
Proof.
  induction l as [|g l IH]; intros c w c' w' es f u H.
  - injection H as _ _ H. destruct es; discriminate.
  - cbn [convert_files] in H. destruct (convert_file' g (c, w)) as [[c1 w1] [u1|e]] eqn:E.
    + assert (S : same_settings c c1) by (apply convert_file_ok in E; apply E).
      destruct (convert_files' l (c1, w1)) as [[c2 w2] es2] eqn:El. injection H as <- <- H. destruct es as [|x es].
      * injection H as <- <- ->. destruct l as [|g2 l]; [injection El as <- <-; exists c, w; split; [exact E|apply same_refl]|].
        cbn [convert_files] in El. destruct (convert_file' g2 (c1, w1)) as [[c4 w4] [u4|e4]]; [destruct (convert_files' l (c4, w4)) as [[? ?] ?]|]; discriminate.
      * injection H as _ ->. destruct (IH _ _ _ _ _ _ _ El) as (c3 & w3 & H1 & H2). exists c3, w3. split; [exact H1|exact (same_trans _ _ _ S H2)].
    + injection H as _ _ H. destruct es as [|x [|]]; discriminate.
Qed.
Lemma files_next l : forall c w c' w' a f1 u1 f2 u2 b, convert_files' l (c, w) = (c', w', a ++ (f1, inl u1) :: (f2, inl u2) :: b) ->
  exists c0 w0 c1 w1 c2 w2, convert_file' f1 (c0, w0) = (c1, w1, inl u1) /\ convert_file' f2 (c1, w1) = (c2, w2, inl u2) /\ same_settings c c0.
Proof.
  induction l as [|g l IH]; intros c w c' w' a f1 u1 f2 u2 b H.
  - injection H as _ _ H. destruct a; discriminate.
  - cbn [convert_files] in H. destruct (convert_file' g (c, w)) as [[c1 w1] [u|e]] eqn:E.
    + assert (S : same_settings c c1) by (apply convert_file_ok in E; apply E).
      destruct (convert_files' l (c1, w1)) as [[c2 w2] es2] eqn:El. injection H as <- <- H. destruct a as [|x a].
      * injection H as <- <- ->. destruct (files_first _ _ _ _ _ _ _ _ El) as (c3 & w3 & E3). exists c, w, c1, w1, c3, w3. split; [exact E|]. split; [exact E3|apply same_refl].
      * injection H as _ ->. destruct (IH _ _ _ _ _ _ _ _ _ _ El) as (x0 & x1 & x2 & x3 & x4 & x5 & H1 & H2 & H3). exists x0, x1, x2, x3, x4, x5. split; [exact H1|]. split; [exact H2|exact (same_trans _ _ _ S H3)].
    + injection H as _ _ H. destruct a as [|x [|]]; discriminate.
Qed.
Lemma events_split (k : nat) (l : list (file * (used + exn))) a e b : a ++ e :: b = map (fun fr => (k, fst fr, snd fr)) l ->
  exists a' b', l = a' ++ (snd (fst e), snd e) :: b' /\ fst (fst e) = k /\ a = map (fun fr => (k, fst fr, snd fr)) a' /\ b = map (fun fr => (k, fst fr, snd fr)) b'.
Proof.
  revert a. induction l as [|[f r] l IH]; intros a H; [destruct a; discriminate|]. destruct a as [|x a].
  - injection H as -> ->. exists [], l. auto.
  - injection H as -> H. destruct (IH _ H) as (a' & b' & -> & H1 & -> & ->). exists ((f, r) :: a'), b'. auto.
Qed.
(** the run [Convert k] after [ops] *)
Lemma run_of ops k es e : adds readable disk ops (Convert k) es -> In e es -> exists c c' w' l, nth_error (s_convs (session' ops)) k = Some c /\
  convert_files' (disk (c_input c)) (c, s_classes (session' ops)) = (c', w', l) /\ es = map (fun fr => (k, fst fr, snd fr)) l /\
  nth_error (s_convs (session' (ops ++ [Convert k]))) k = Some c' /\ s_classes (session' (ops ++ [Convert k])) = w'.
Proof.
  intros A Hin. destruct (nth_error (s_convs (session' ops)) k) as [c|] eqn:C; [|rewrite (adds_none _ _ _ C A) in Hin; destruct Hin].
  destruct (convert_files' (disk (c_input c)) (c, s_classes (session' ops))) as [[c' w'] l] eqn:E. exists c, c', w', l. split; [reflexivity|]. split; [exact E|].
  split; [exact (proj1 (adds_convert _ _ _ _ _ _ _ C E) A)|]. rewrite session_app. cbn [do_op]. rewrite C, E. cbn. split; [|reflexivity]. apply put_at_same. exact (nth_some_lt _ _ _ C).
Qed.
Lemma quiet l : forall ops k c, Forall settings l -> nth_error (s_convs (session' ops)) k = Some c ->
  exists c', nth_error (s_convs (session' (ops ++ l))) k = Some c' /\ c_dir c' = c_dir c /\ c_made c' = c_made c /\ c_version c' = c_version c /\ c_out c' = c_out c /\
    s_classes (session' (ops ++ l)) = s_classes (session' ops).
Proof.
  induction l as [|o l IH]; intros ops k c F C; [rewrite app_nil_r; exists c; auto 10|]. inversion F as [|? ? So Fl]; subst.
  assert (G : exists c1, nth_error (s_convs (session' (ops ++ [o]))) k = Some c1 /\ c_dir c1 = c_dir c /\ c_made c1 = c_made c /\ c_version c1 = c_version c /\ c_out c1 = c_out c /\
    s_classes (session' (ops ++ [o])) = s_classes (session' ops)).
  { rewrite session_app. assert (W : s_classes (do_op' (session' ops) o) = s_classes (session' ops)) by (destruct o; cbn [do_op]; rewrite ?on_classes; try reflexivity; destruct So).
    rewrite W. destruct (about o) as [j|] eqn:A; [destruct (Nat.eq_dec j k) as [->|Hj]|].
    - destruct o; cbn [about] in A; try discriminate; injection A as ->; try destruct So; cbn [do_op]; eexists; (split; [exact (on_same _ _ _ _ C)|]).
      + unfold set_option. destruct (in_true_false v); [|auto]. destruct (str_eqb n _); [auto 10|]. destruct (getf n (c_opts c)); auto 10.
      + unfold set_mapping. destruct (mapping_path p); auto 10.
      + auto 10.
      + auto 10.
    - exists c. split; [apply do_other; congruence|auto 10].
    - exists c. split; [apply do_other; congruence|auto 10]. }
  destruct G as (c1 & C1 & D1 & M1 & V1 & O1 & W1). destruct (IH (ops ++ [o]) k c1 Fl C1) as (c2 & C2 & D2 & M2 & V2 & O2 & W2).
  rewrite <- app_assoc in C2, W2. cbn [app] in C2, W2. exists c2. split; [exact C2|]. repeat split; congruence.
Qed.
Lemma same_reload v : reload (Some v) (Some v) = false.
Proof. unfold reload. cbn. rewrite orb_false_r. apply negb_false_iff. induction v as [|x v IH]; [reflexivity|]. cbn. now rewrite str_eqb_refl. Qed.

(** ** What does not matter *)
Definition erase_c (c : converter) : converter :=
  Conv (c_dir c) (c_default c) (c_opts c) (VBool false) (c_map c) (c_input c) [] (c_save c) (c_hash c) (c_version c) (c_made c) (c_out c).
Definition erase_w (w : classes) : classes := Classes (w_limits w) (w_opts w) (w_map w) (fun _ => VBool false) (w_hash w) (w_refs w) (w_rel w).
Definition like (a b : converter * classes) : Prop := erase_c (fst a) = erase_c (fst b) /\ erase_w (snd a) = erase_w (snd b).
Lemma like_mapping o c1 w1 c2 w2 : like (c1, w1) (c2, w2) ->
  let '(a, b, e) := make_mapping readable o (c1, w1) in let '(a', b', e') := make_mapping readable o (c2, w2) in like (a, b) (a', b') /\ e = e'.
Proof.
  intros [E1 E2]. destruct c1, c2, w1, w2. cbn in E1, E2. injection E1 as -> -> -> -> -> -> -> -> -> ->. injection E2 as -> -> -> -> -> ->.
  unfold make_mapping. cbn [c_version c_dir c_map c_default c_made].
  destruct (_ || _)%bool.
  - destruct (get_mapping _ _); [|split; [split; reflexivity|reflexivity]]. destruct (match c_map0 with Some p => Some p | None => c_default0 end) as [p|]; [destruct (readable p)|]; (split; [split; reflexivity|reflexivity]).
  - destruct c_made0; (split; [split; reflexivity|reflexivity]).
Qed.
Lemma like_data v c1 w1 c2 w2 : like (c1, w1) (c2, w2) -> like (make_data (set_version v c1, set_limits c1 w1)) (make_data (set_version v c2, set_limits c2 w2)).
Proof.
  intros [E1 E2]. destruct c1, c2, w1, w2. cbn in E1, E2. injection E1 as -> -> -> -> -> -> -> -> -> ->. injection E2 as -> -> -> -> -> ->.
  unfold make_data. cbn [set_version c_out]. destruct c_out0; split; reflexivity.
Qed.
Lemma like_limits c1 w1 c2 w2 : like (c1, w1) (c2, w2) -> like (c1, set_limits c1 w1) (c2, set_limits c2 w2).
Proof. intros [E1 E2]. destruct c1, c2, w1, w2. cbn in E1, E2. injection E1 as -> -> -> -> -> -> -> -> -> ->. injection E2 as -> -> -> -> -> ->. split; reflexivity. Qed.
Lemma like_clean f c1 w1 c2 w2 : like (c1, w1) (c2, w2) -> like (clean f (c1, w1)) (clean f (c2, w2)).
Proof.
  intros [E1 E2]. destruct c1, c2, w1, w2. cbn in E1, E2. injection E1 as -> -> -> -> -> -> -> -> -> ->. injection E2 as -> -> -> -> -> ->.
  unfold clean. cbn [c_made c_dir]. destruct c_made0; [destruct c_dir0, (f_clean f)|]; split; reflexivity.
Qed.
Lemma like_after f c1 w1 c2 w2 : like (c1, w1) (c2, w2) ->
  c_dir c1 = c_dir c2 /\ check_refs (c_dir c1) (set_refs (c_dir c1) f w1) = check_refs (c_dir c2) (set_refs (c_dir c2) f w2) /\
  like (c1, set_refs (c_dir c1) f w1) (c2, set_refs (c_dir c2) f w2) /\
  like (c1, set_opts c1 (set_refs (c_dir c1) f w1)) (c2, set_opts c2 (set_refs (c_dir c2) f w2)) /\
  like (c1, read_rel (c_dir c1) f (set_opts c1 (set_refs (c_dir c1) f w1))) (c2, read_rel (c_dir c2) f (set_opts c2 (set_refs (c_dir c2) f w2))).
Proof.
  intros [E1 E2]. destruct c1, c2, w1, w2. cbn in E1, E2. injection E1 as -> -> -> -> -> -> -> -> -> ->. injection E2 as -> -> -> -> -> ->.
  cbn [c_dir]. split; [reflexivity|]. unfold set_refs, read_rel, check_refs. destruct c_dir0; [| |destruct (f_rel f)]; [|destruct (f_refs f)| |]; cbn; repeat split.
Qed.
Lemma like_use c1 w1 c2 w2 : like (c1, w1) (c2, w2) -> in_use c1 w1 = in_use c2 w2 /\ like (c1, finish_rel (c_dir c1) w1) (c2, finish_rel (c_dir c2) w2).
Proof.
  intros [E1 E2]. destruct c1, c2, w1, w2. cbn in E1, E2. injection E1 as -> -> -> -> -> -> -> -> -> ->. injection E2 as -> -> -> -> -> ->.
  split; [reflexivity|]. destruct c_dir0; split; reflexivity.
Qed.
Lemma like_file f c1 w1 c2 w2 : like (c1, w1) (c2, w2) ->
  let '(cw1, r1) := convert_file' f (c1, w1) in let '(cw2, r2) := convert_file' f (c2, w2) in like cw1 cw2 /\ r1 = r2.
Proof.
  intros L. unfold convert_file. pose proof (like_limits _ _ _ _ L) as LL. pose proof (like_data (f_version f) _ _ _ _ L) as LD.
  assert (V : c_version c1 = c_version c2) by (destruct L as [E _]; injection E; auto).
  assert (R : match f_end f with Unreadable e => True | _ => True end) by (destruct (f_end f); exact I).
  destruct (make_data (set_version (f_version f) c1, set_limits c1 w1)) as [a1 b1]. destruct (make_data (set_version (f_version f) c2, set_limits c2 w2)) as [a2 b2].
  pose proof (like_mapping (c_version c1) _ _ _ _ LD) as LM. rewrite <- V.
  destruct (make_mapping readable (c_version c1) (a1, b1)) as [[d1 x1] e1]. destruct (make_mapping readable (c_version c1) (a2, b2)) as [[d2 x2] e2].
  destruct LM as [LM <-]. destruct (like_after f _ _ _ _ LM) as (D & K & L1 & L2 & L3). destruct (like_use _ _ _ _ L3) as [U1 U2]. rewrite <- K.
  destruct (f_end f) as [|e|e late].
  - destruct e1; [split; [now apply like_clean|reflexivity]|]. destruct (check_refs _ _); [split; [now apply like_clean|reflexivity]|]. split; [exact U2|now rewrite U1].
  - split; [now apply like_clean|reflexivity].
  - destruct e1; [split; [now apply like_clean|reflexivity]|]. destruct (check_refs _ _); [split; [now apply like_clean|reflexivity]|]. split; [|reflexivity]. apply like_clean. destruct late; assumption.
Qed.
Lemma like_files l : forall c1 w1 c2 w2, like (c1, w1) (c2, w2) ->
  let '(cw1, r1) := convert_files' l (c1, w1) in let '(cw2, r2) := convert_files' l (c2, w2) in like cw1 cw2 /\ r1 = r2.
Proof.
  induction l as [|f l IH]; intros c1 w1 c2 w2 L; [split; [exact L|reflexivity]|]. cbn [convert_files]. pose proof (like_file f _ _ _ _ L) as Lf.
  destruct (convert_file' f (c1, w1)) as [[a1 b1] r1]. destruct (convert_file' f (c2, w2)) as [[a2 b2] r2]. destruct Lf as [Lf <-]. destruct r1; [|split; [exact Lf|reflexivity]].
  specialize (IH _ _ _ _ Lf). destruct (convert_files' l (a1, b1)) as [? ?]. destruct (convert_files' l (a2, b2)) as [? ?]. destruct IH as [IH <-]. auto.
Qed.
Definition like_state (a b : state) : Prop := map erase_c (s_convs a) = map erase_c (s_convs b) /\ erase_w (s_classes a) = erase_w (s_classes b) /\ s_events a = s_events b.
Lemma nth_like (a b : list converter) k : map erase_c a = map erase_c b ->
  match nth_error a k, nth_error b k with Some x, Some y => erase_c x = erase_c y | None, None => True | _, _ => False end.
Proof.
  intros H. assert (E : option_map erase_c (nth_error a k) = option_map erase_c (nth_error b k)) by now rewrite <- !nth_error_map, H.
  destruct (nth_error a k) as [x|], (nth_error b k) as [y|]; try discriminate; [|exact I]. exact (f_equal (fun o => match o with Some z => z | None => erase_c x end) E).
Qed.
Lemma put_like (a b : list converter) k x y : map erase_c a = map erase_c b -> erase_c x = erase_c y -> map erase_c (put_at k x a) = map erase_c (put_at k y b).
Proof.
  revert b k. induction a as [|u a IH]; intros [|v b] k H E; try discriminate; [destruct k; reflexivity|]. pose proof (f_equal (@tl _) H) as H2. pose proof (f_equal (@hd _ (erase_c u)) H) as H1. cbn [map tl hd] in H1, H2. destruct k; cbn [put_at map].
  - now rewrite E, H2.
  - now rewrite H1, (IH b k H2 E).
Qed.
Lemma like_on k g s s' : (forall x y, erase_c x = erase_c y -> erase_c (g x) = erase_c (g y)) -> like_state s s' -> like_state (on k g s) (on k g s').
Proof.
  intros G (H1 & H2 & H3). unfold on. pose proof (nth_like _ _ k H1) as N. destruct (nth_error (s_convs s) k), (nth_error (s_convs s') k); try contradiction.
  - split; [|split]; cbn; auto. apply put_like; auto.
  - repeat split; auto.
Qed.
Lemma like_op o s s' : like_state s s' -> like_state (do_op' s o) (do_op' s' o).
Proof.
  intros L. destruct o; cbn [do_op]; try (apply like_on; [|exact L]; intros x y E; destruct x, y; cbn in E; injection E as -> -> -> -> -> -> -> -> -> ->).
  - destruct L as (H1 & H2 & H3). split; [cbn; now rewrite !map_app, H1|auto].
  - unfold set_option. destruct (in_true_false v); [|reflexivity]. destruct (str_eqb n _); [reflexivity|]. cbn [c_opts]. destruct (getf n _); reflexivity.
  - unfold set_mapping. destruct (mapping_path p); reflexivity.
  - reflexivity.
  - reflexivity.
  - destruct L as (H1 & H2 & H3). pose proof (nth_like _ _ k H1) as N. destruct (nth_error (s_convs s) k) as [x|], (nth_error (s_convs s') k) as [y|]; try contradiction; [|repeat split; auto].
    assert (I : c_input x = c_input y) by (injection N; auto). rewrite I.
    pose proof (like_files (disk (c_input y)) x (s_classes s) y (s_classes s') (conj N H2)) as LF.
    destruct (convert_files' (disk (c_input y)) (x, s_classes s)) as [[a1 b1] e1]. destruct (convert_files' (disk (c_input y)) (y, s_classes s')) as [[a2 b2] e2]. destruct LF as [[LF1 LF2] <-].
    split; [|split]; cbn; [now apply put_like|exact LF2|now rewrite H3].
Qed.
Lemma like_inert o s : inert o = true -> like_state (do_op' s o) s.
Proof.
  intros H. assert (G : forall k g, (forall c, erase_c (g c) = erase_c c) -> like_state (on k g s) s).
  { intros k g Hg. unfold on. destruct (nth_error (s_convs s) k) as [c|] eqn:C; [|repeat split]. split; [|split]; try reflexivity. cbn.
    revert k C. generalize (s_convs s). intros l. induction l as [|x l IH]; intros [|k] C; cbn in *; try discriminate; [injection C as ->; now rewrite Hg|f_equal; auto]. }
  destruct o; try discriminate; cbn [do_op]; apply G; intros c; [|reflexivity]. cbn [inert] in H. unfold set_option. rewrite H. destruct (in_true_false v); reflexivity.
Qed.
Lemma like_trans a b c : like_state a b -> like_state b c -> like_state a c.
Proof. unfold like_state. intuition congruence. Qed.
Lemma like_session ops : like_state (session' ops) (session' (filter (fun o => negb (inert o)) ops)).
Proof.
  induction ops as [|o ops IH] using rev_ind; [repeat split|]. rewrite filter_app, session_app. cbn [filter]. destruct (inert o) eqn:E; cbn [negb].
  - rewrite app_nil_r. exact (like_trans _ _ _ (like_inert _ _ E) IH).
  - rewrite session_app. now apply like_op.
Qed.

(** ** Variables of a process *)
Lemma rel_step f c w c' w' r : convert_file' f (c, w) = (c', w', r) -> w_rel w = [] -> (forall x, f_end f <> Fails x true) -> w_rel w' = [].
Proof.
  intros H W N. apply convert_file_ok in H. destruct r.
  - destruct (direction_eqb (c_dir c) OlcaToOlca) eqn:D; [apply direction_eqb_eq in D; apply (d_rel _ _ _ _ _ _ H D)|].
    rewrite (d_rel_other _ _ _ _ _ _ H); [exact W|]. intros E. rewrite E in D. discriminate.
  - destruct (x_rel _ _ _ _ _ H) as [E|(_ & x & E & _)]; [congruence|now contradiction (N x)].
Qed.
Lemma rel_files l : forall c w c' w' es, convert_files' l (c, w) = (c', w', es) -> w_rel w = [] -> (forall f r x, In (f, r) es -> f_end f <> Fails x true) -> w_rel w' = [].
Proof.
  induction l as [|f l IH]; intros c w c' w' es H W N; [now injection H as <- <- <-|]. cbn [convert_files] in H.
  destruct (convert_file' f (c, w)) as [[c1 w1] [u|e]] eqn:E.
  - destruct (convert_files' l (c1, w1)) as [[c2 w2] es2] eqn:El. injection H as <- <- <-.
    apply (IH _ _ _ _ _ El); [|intros g r x Hg; apply (N g r); now right]. apply (rel_step _ _ _ _ _ _ E W). intros x. apply (N f (inl u)). now left.
  - injection H as <- <- <-. apply (rel_step _ _ _ _ _ _ E W). intros x. apply (N f (inr e)). now left.
Qed.
Lemma rel_inv ops : no_late (s_events (session' ops)) -> w_rel (s_classes (session' ops)) = [].
Proof.
  induction ops as [|o ops IH] using rev_ind; intros N; [reflexivity|]. rewrite session_app in *. destruct o; cbn [do_op] in *; rewrite ?on_events, ?on_classes in *; auto.
  destruct (nth_error (s_convs (session' ops)) k) as [c|]; [|auto]. destruct (convert_files' (disk (c_input c)) (c, s_classes (session' ops))) as [[c' w'] es] eqn:E. cbn in *.
  apply (rel_files _ _ _ _ _ _ E).
  - apply IH. intros j f r x Hin. apply (N j f r). apply in_or_app. now left.
  - intros f r x Hin. apply (N k f r). apply in_or_app. right. apply in_map_iff. exists (f, r). auto.
Qed.
Lemma rel_used l : forall c w c' w' es f u, convert_files' l (c, w) = (c', w', es) -> w_rel w = [] -> c_dir c = OlcaToOlca -> In (f, inl u) es ->
  u_rel u = match f_rel f with Some x => x | None => [] end.
Proof.
  induction l as [|g l IH]; intros c w c' w' es f u H W D Hin; [injection H as <- <- <-; destruct Hin|]. cbn [convert_files] in H.
  destruct (convert_file' g (c, w)) as [[c1 w1] [u1|e]] eqn:E.
  - destruct (convert_files' l (c1, w1)) as [[c2 w2] es2] eqn:El. injection H as <- <- <-. apply convert_file_ok in E. destruct (d_rel _ _ _ _ _ _ E D) as [R1 R2].
    destruct Hin as [Eq|Hin]; [injection Eq as <- <-; rewrite R1, W; reflexivity|]. apply (IH _ _ _ _ _ _ _ El R2); [|exact Hin].
    destruct (d_settings _ _ _ _ _ _ E) as [-> _]. exact D.
  - injection H as <- <- <-. destruct Hin as [Eq|[]]. discriminate.
Qed.
End World.
