(** Facts about runs of a converter. *)
From Coq Require Import Ascii String List Bool Arith NArith ZArith Lia.
From Verif Require Import PyBase PyBaseFacts PyValues MultiLangModel DotDictModel DotDictProofs OutputModel OutputSpec OutputProofs
  ConverterModel ConverterProofs DriverModel DriverSpec.
Import ListNotations.

Section DriverProofs.
  Context {File Struct Doc Cls Attrs : Type}.
  Notation plant := (plant File Struct Doc Cls Attrs).
  Notation state := (state Struct Doc Cls).
  Notation data := (data Struct Doc).
  Implicit Types (s : state).

  Lemma andthen_ok {A B} (m : step A) (f : A -> step B) s s' b :
    andthen m f s = (s', Ok b) -> exists s1 a, m s = (s1, Ok a) /\ f a s1 = (s', Ok b).
  Proof. unfold andthen. destruct (m s) as [s1 [a|e]]; intros H; [eauto|discriminate]. Qed.
  Lemma the_data_ok s s' d : the_data s = (s', Ok d) -> s' = s /\ c_data (fst s) = Some d.
  Proof. unfold the_data. destruct (c_data (fst s)) eqn:E; intros H; inversion H; subst; auto. Qed.
  Lemma the_data_some s d : c_data (fst s) = Some d -> the_data s = (s, Ok d).
  Proof. unfold the_data. intros ->. reflexivity. Qed.

  Lemma free_name_fresh (folder : list (pystr * out Doc)) name ext : ~ In (free_name folder name ext) (map fst folder).
  Proof.
    unfold free_name. destruct (check_name_spec (map fst folder) name ext) as (r & F & H).
    rewrite (H (S (length folder))) by (rewrite map_length; lia).
    destruct F as (k & _ & N & _). exact N.
  Qed.
  (** what a free name is *)
  Lemma free_name_first (folder : list (pystr * out Doc)) name ext :
    exists r, free_name folder name ext = r ++ ext /\ first_free (map fst folder) name ext r.
  Proof.
    unfold free_name. destruct (check_name_spec (map fst folder) name ext) as (r & F & H).
    rewrite (H (S (length folder))) by (rewrite map_length; lia). eauto.
  Qed.

  Lemma rev_case {A} (l : list A) : l = [] \/ exists l' x, l = l' ++ [x].
  Proof. destruct l as [|x l _] using rev_ind; eauto. Qed.

  (** ** Nothing is ever lost from the output folder *)
  Definition grows (s s' : state) : Prop := exists extra, adds s s' extra.
  Definition growing {A} (m : step A) : Prop :=
    forall s, grows s (fst (m s)) /\ (NoDup (names_of s) -> NoDup (names_of (fst (m s)))).
  Lemma grows_refl s : grows s s.
  Proof. exists []. unfold adds. now rewrite app_nil_r. Qed.
  Lemma grows_trans s1 s2 s3 : grows s1 s2 -> grows s2 s3 -> grows s1 s3.
  Proof. intros [a A] [b B]. exists (a ++ b). unfold adds in *. now rewrite B, A, app_assoc. Qed.
  Lemma same_grows s s' : w_folder (snd s') = w_folder (snd s) -> grows s s' /\ (NoDup (names_of s) -> NoDup (names_of s')).
  Proof. intros E. unfold names_of. rewrite E. split; auto. exists []. unfold adds. now rewrite app_nil_r. Qed.
  Lemma growing_andthen {A B} (m : step A) (f : A -> step B) : growing m -> (forall a, growing (f a)) -> growing (andthen m f).
  Proof.
    intros M F s. unfold andthen. destruct (M s) as [G N]. destruct (m s) as [s1 [a|e]]; cbn [fst] in *; [|auto].
    destruct (F a s1) as [G' N']. split; [eapply grows_trans; eauto|auto].
  Qed.
  Lemma growing_same {A} (m : step A) : (forall s, w_folder (snd (fst (m s))) = w_folder (snd s)) -> growing m.
  Proof. intros H s. apply same_grows, H. Qed.
  Lemma put_free_grows s (d : list (pystr * out Doc)) t ext (o : out Doc) :
    d = w_folder (snd s) ->
    grows s (set_folder (putf (free_name d t ext) o d) s) /\
    (NoDup (names_of s) -> NoDup (names_of (set_folder (putf (free_name d t ext) o d) s))).
  Proof.
    intros ->. split.
    - exists [(free_name (w_folder (snd s)) t ext, o)]. unfold adds. cbn [set_folder snd w_folder].
      apply putf_absent, free_name_fresh.
    - unfold names_of. cbn [set_folder snd w_folder]. apply putf_NoDup.
  Qed.
  Lemma grow_set_data d s s1 : grows s s1 /\ (NoDup (names_of s) -> NoDup (names_of s1)) ->
    grows s (set_data d s1) /\ (NoDup (names_of s) -> NoDup (names_of (set_data d s1))).
  Proof. intros H. exact H. Qed.

  Lemma on_mapping_same f s : w_folder (snd (fst (on_mapping (Doc:=Doc) f s))) = w_folder (snd s).
  Proof.
    unfold on_mapping, andthen, the_data. destruct (c_data (fst s)) as [d|]; [|reflexivity].
    destruct (f (w_cls (snd s)) (d_struct d)) as [[c x] [e|]]; reflexivity.
  Qed.
  Ltac cases := repeat match goal with
    | |- context [match ?x with _ => _ end] => destruct x
    end.

  Section Plant.
    Context (p : plant).
    Definition still {A} (m : step (Struct:=Struct) (Doc:=Doc) (Cls:=Cls) A) : Prop := forall s, w_folder (snd (fst (m s))) = w_folder (snd s).
    Lemma still_andthen {A B} (m : step A) (f : A -> step B) : still m -> (forall a, still (f a)) -> still (andthen m f).
    Proof.
      intros M F s. unfold andthen. specialize (M s). destruct (m s) as [s1 [a|e]]; cbn [fst] in *; [|exact M].
      now rewrite F.
    Qed.
    Lemma start_same f : still (start_conversion p f).
    Proof.
      intros s. unfold start_conversion. destruct (p_info p f) as [[[v n] a]|e]; [|reflexivity].
      generalize (c_version (fst s)). intros o. revert s.
      apply still_andthen; [now intros s|]. intros _.
      apply still_andthen; [intros s; unfold ensure_data; destruct (c_data (fst s)); reflexivity|]. intros _.
      apply still_andthen.
      { intros s. unfold ensure_mapping. destruct (_ || _)%bool; [|reflexivity].
        destruct (p_load p v f (w_cls (snd s))) as [c [e|]]; reflexivity. }
      intros _. apply still_andthen; [intros s; unfold need_mapping; destruct (c_map (fst s)); reflexivity|]. intros _.
      apply still_andthen; [|intros _ s; apply on_mapping_same].
      apply still_andthen; [intros s; unfold the_data; destruct (c_data (fst s)); reflexivity|]. intros d s.
      destruct (d_multi d); [reflexivity|]. destruct (p_ilcd p); [reflexivity|]. destruct n; reflexivity.
    Qed.
    Lemma write_grows : growing (write_process p).
    Proof.
      intros s. unfold write_process, andthen, the_data. destruct (c_data (fst s)) as [d|]; [|now apply same_grows].
      unfold lift. destruct (p_doc p (d_struct d)) as [doc|e]; [|now apply same_grows].
      destruct (p_ilcd p).
      - destruct (p_uuid p (d_struct d)) as [u|e]; [|now apply same_grows].
        destruct (d_work d) as [w|]; now apply same_grows.
      - destruct (p_title p (w_hash (snd s)) (d_struct d)) as [t|e]; [|now apply same_grows].
        cbn [fst]. now apply put_free_grows.
    Qed.
    Lemma single_grows : growing (end_single p).
    Proof.
      apply growing_andthen; [apply write_grows|]. intros n. apply growing_same. intros s.
      unfold andthen, the_data. destruct (c_data (fst s)); reflexivity.
    Qed.
    Lemma reset_grows : growing (reset_output p).
    Proof.
      apply growing_andthen; [apply single_grows|]. intros n. apply growing_same. intros s.
      unfold andthen, the_data. destruct (c_data (fst s)); reflexivity.
    Qed.
    Lemma end_grows : growing (end_output p).
    Proof.
      unfold end_output. destruct (p_ilcd p); [|apply single_grows].
      apply growing_andthen; [apply growing_same; intros s; unfold the_data; destruct (c_data (fst s)); reflexivity|].
      intros d s. revert s.
      assert (G : forall r, growing (andthen (lift (Struct:=Struct) (Cls:=Cls) r) (fun t => andthen (end_single p) (fun _ => andthen the_data (fun d' s' =>
          match d_work d' with
          | None => (s', Err FileNotFoundError)
          | Some w =>
              let n := free_name (w_folder (snd s')) t (lit ".zip") in
              (set_data {| d_struct := d_struct d'; d_multi := d_multi d'; d_work := None |}
                 (set_folder (putf n (Zip w) (w_folder (snd s'))) s'), Ok n)
          end))))).
      { intros r. apply growing_andthen; [now apply growing_same|]. intros t.
        apply growing_andthen; [apply single_grows|]. intros n.
        apply growing_andthen; [apply growing_same; intros s; unfold the_data; destruct (c_data (fst s)); reflexivity|].
        intros d' s'. destruct (d_work d') as [w|]; [|now apply same_grows]. cbn [fst]. apply grow_set_data.
        now apply put_free_grows. }
      intros s. apply (G _ s).
    Qed.
    Lemma on_mapping_grows f : growing (on_mapping (Doc:=Doc) f).
    Proof. apply growing_same, on_mapping_same. Qed.
    Lemma run_grows tf rest : forall l, growing (run p tf l rest).
    Proof.
      induction l as [|[f last] l IH]; cbn [run].
      - destruct rest; now apply growing_same.
      - apply growing_andthen; [apply growing_same, start_same|]. intros _.
        apply growing_andthen; [apply on_mapping_grows|]. intros _.
        destruct (last || tf)%bool.
        + apply growing_andthen; [apply growing_andthen; [apply on_mapping_grows|intros _; apply end_grows]|]. intros n.
          apply growing_andthen; [exact IH|]. intros ns. now apply growing_same.
        + apply growing_andthen; [apply growing_andthen; [apply on_mapping_grows|intros _; apply reset_grows]|]. intros _. exact IH.
    Qed.
    Lemma clean_grows e : growing (clean p e).
    Proof.
      apply growing_same. intros s. unfold clean. destruct (p_input_cleanup p); [reflexivity|].
      set (s1 := match c_data (fst s) with Some _ => _ | None => _ end).
      assert (E : w_folder (snd s1) = w_folder (snd s)) by (unfold s1; destruct (c_data (fst s)); reflexivity).
      clearbody s1. rewrite <- E. destruct (c_map (fst s1)); [|reflexivity].
      pose proof (on_mapping_same (p_delete p) s1) as M. destruct (on_mapping (p_delete p) s1) as [s2 [[]|e']]; exact M.
    Qed.
    Lemma convert_grows tf l rest : growing (convert p tf l rest).
    Proof.
      intros s. unfold convert. destruct (run_grows tf rest l s) as [G N].
      destruct (run p tf l rest s) as [s1 [ns|e]]; cbn [fst] in *; [auto|].
      destruct (clean_grows e s1) as [G' N']. split; [eapply grows_trans; eauto|auto].
    Qed.

    (** ** Successful runs *)
    Definition data0 (s : state) : data :=
      match c_data (fst s) with Some d => d | None => {| d_struct := p_fresh p; d_multi := false; d_work := None |} end.
    Definition hash0 (s : state) : pystr := match c_data (fst s) with Some _ => w_hash (snd s) | None => p_hash p end.
    Lemma on_mapping_ok f s s' : on_mapping f s = (s', Ok tt) ->
      exists d c x, c_data (fst s) = Some d /\ f (w_cls (snd s)) (d_struct d) = (c, x, None) /\
        s' = set_data {| d_struct := x; d_multi := d_multi d; d_work := d_work d |} (set_cls c s).
    Proof.
      intros H. apply andthen_ok in H. destruct H as (s1 & d & H1 & H2). apply the_data_ok in H1. destruct H1 as [-> D].
      destruct (f (w_cls (snd s)) (d_struct d)) as [[c x] [e|]] eqn:F; inversion H2; subst. eauto 10.
    Qed.
    Lemma start_ok f s s' : start_conversion p f s = (s', Ok tt) ->
      exists v n a c1 c2 x1, p_info p f = Ok (v, n, a) /\ p_setup p a c1 (d_struct (data0 s)) = (c2, x1, None) /\
        c_data (fst s') = Some {| d_struct := x1; d_multi := d_multi (data0 s);
                                  d_work := if d_multi (data0 s) then d_work (data0 s)
                                            else if p_ilcd p then Some [] else d_work (data0 s) |} /\
        w_folder (snd s') = w_folder (snd s) /\ w_cls (snd s') = c2 /\ w_hash (snd s') = hash0 s /\
        c_map (fst s') = true /\ c_version (fst s') = v /\ (p_ilcd p = false -> d_multi (data0 s) = false -> n <> None) /\
        (if (negb (oversion_eqb (c_version (fst s)) v) || match c_version (fst s), v with None, None => true | _, _ => false end)%bool
         then p_load p v f (w_cls (snd s)) = (c1, None) else c1 = w_cls (snd s) /\ c_map (fst s) = true).
    Proof.
      intros H. unfold start_conversion in H. destruct (p_info p f) as [[[v n] a]|e]; [|discriminate].
      exists v, n, a.
      apply andthen_ok in H. destruct H as (s1 & [] & H1 & H). inversion H1; subst s1. clear H1.
      apply andthen_ok in H. destruct H as (s2 & [] & H2 & H).
      assert (E2 : c_data (fst s2) = Some (data0 s) /\ w_hash (snd s2) = hash0 s /\ w_folder (snd s2) = w_folder (snd s) /\
                   w_cls (snd s2) = w_cls (snd s) /\ c_map (fst s2) = c_map (fst s) /\ c_version (fst s2) = v).
      { unfold ensure_data in H2. unfold data0, hash0. cbn [set_version fst snd c_data] in H2.
        destruct (c_data (fst s)) as [d|] eqn:D; inversion H2; subst; cbn; auto 10. }
      clear H2. destruct E2 as (D2 & X2 & F2 & C2 & M2 & V2).
      apply andthen_ok in H. destruct H as (s3 & [] & H3 & H). unfold ensure_mapping in H3.
      assert (E3 : exists c1, w_cls (snd s3) = c1 /\ c_data (fst s3) = c_data (fst s2) /\ w_hash (snd s3) = w_hash (snd s2) /\
          w_folder (snd s3) = w_folder (snd s2) /\ c_version (fst s3) = c_version (fst s2) /\
          (if (negb (oversion_eqb (c_version (fst s)) v) || match c_version (fst s), v with None, None => true | _, _ => false end)%bool
           then p_load p v f (w_cls (snd s)) = (c1, None) else c1 = w_cls (snd s) /\ c_map (fst s3) = c_map (fst s))).
      { exists (w_cls (snd s3)). destruct (_ || _)%bool.
        - rewrite C2 in H3. destruct (p_load p v f (w_cls (snd s))) as [c [e|]]; inversion H3; subst; cbn; auto 10.
        - inversion H3; subst. rewrite C2, M2. auto 10. }
      clear H3. destruct E3 as (c1 & C3 & D3 & X3 & F3 & V3 & L3).
      apply andthen_ok in H. destruct H as (s4 & [] & H4 & H). unfold need_mapping in H4.
      destruct (c_map (fst s3)) eqn:M3; inversion H4; subst s4. clear H4.
      apply andthen_ok in H. destruct H as (s5 & [] & H5 & H). unfold start_output in H5.
      apply andthen_ok in H5. destruct H5 as (s5' & d & H5 & H6). apply the_data_ok in H5. destruct H5 as [-> D5].
      assert (d = data0 s) by congruence. subst d.
      assert (E5 : c_data (fst s5) = Some {| d_struct := d_struct (data0 s); d_multi := d_multi (data0 s);
                       d_work := if d_multi (data0 s) then d_work (data0 s) else if p_ilcd p then Some [] else d_work (data0 s) |} /\
                   w_hash (snd s5) = w_hash (snd s3) /\ w_folder (snd s5) = w_folder (snd s3) /\ w_cls (snd s5) = w_cls (snd s3) /\
                   c_map (fst s5) = true /\ c_version (fst s5) = c_version (fst s3) /\
                   (p_ilcd p = false -> d_multi (data0 s) = false -> n <> None)).
      { destruct (d_multi (data0 s)) eqn:DM.
        - inversion H6; subst. rewrite D5. split; [|repeat split; auto; discriminate]. f_equal. rewrite <- DM. destruct (data0 s); reflexivity.
        - destruct (p_ilcd p) eqn:PI.
          + inversion H6; subst. cbn. repeat split; auto. discriminate.
          + destruct n as [n|]; inversion H6; subst. split; [|repeat split; auto; discriminate].
            rewrite D5. f_equal. rewrite <- DM. destruct (data0 s); reflexivity. }
      clear H6 D5. destruct E5 as (D5 & X5 & F5 & C5 & M5 & V5 & N5).
      apply on_mapping_ok in H. destruct H as (d & c2 & x & D6 & S6 & ->). rewrite D5 in D6. inversion D6; subst d. clear D6.
      cbn [d_struct d_multi d_work] in *. exists c1, c2, x.
      assert (S7 : p_setup p a c1 (d_struct (data0 s)) = (c2, x, None)) by (rewrite <- S6; f_equal; congruence).
      split; [reflexivity|]. split; [exact S7|]. split; [reflexivity|].
      split; [cbn; congruence|]. split; [reflexivity|]. split; [cbn; congruence|]. split; [exact M5|].
      split; [cbn; congruence|]. split; [exact N5|].
      destruct (_ || _)%bool; [exact L3|]. destruct L3. split; auto.
    Qed.

    (** one file, up to the closing of its mapping *)
    Lemma file_ok f fin s s1 s2 s3 :
      d_struct (data0 s) = p_fresh p ->
      start_conversion p f s = (s1, Ok tt) -> on_mapping (p_body p f) s1 = (s2, Ok tt) -> on_mapping fin s2 = (s3, Ok tt) ->
      exists x, converted p fin f x /\
        c_data (fst s3) = Some {| d_struct := x; d_multi := d_multi (data0 s);
                                  d_work := if d_multi (data0 s) then d_work (data0 s)
                                            else if p_ilcd p then Some [] else d_work (data0 s) |} /\
        w_folder (snd s3) = w_folder (snd s) /\ w_hash (snd s3) = hash0 s.
    Proof.
      intros R H1 H2 H3. apply start_ok in H1. destruct H1 as (v & n & a & c1 & c2 & x1 & I & St & D1 & F1 & C1 & X1 & _).
      apply on_mapping_ok in H2. destruct H2 as (d2 & c3 & x2 & D2 & B & ->). rewrite D1 in D2. inversion D2; subst d2. clear D2.
      apply on_mapping_ok in H3. destruct H3 as (d3 & c4 & x3 & D3 & E & ->). cbn [set_data fst c_data] in D3. inversion D3; subst d3. clear D3.
      cbn [d_struct d_multi d_work set_data set_cls fst snd c_data w_folder w_hash w_cls] in *. exists x3.
      split; [|auto]. rewrite R in St. rewrite C1 in B. exists v, n, a, c1, c2, c3, c4, x1, x2. auto.
    Qed.

    Lemma write_ok s s' n d : c_data (fst s) = Some d -> write_process p s = (s', Ok n) ->
      exists doc, p_doc p (d_struct d) = Ok doc /\
      if p_ilcd p then exists u w, p_uuid p (d_struct d) = Ok u /\ d_work d = Some w /\
             s' = set_data {| d_struct := d_struct d; d_multi := d_multi d; d_work := Some (putf (u ++ lit ".xml") doc w) |} s
      else exists t, p_title p (w_hash (snd s)) (d_struct d) = Ok t /\ n = free_name (w_folder (snd s)) t (lit ".spold") /\
             s' = set_folder (w_folder (snd s) ++ [(n, Spold doc)]) s.
    Proof.
      intros D H. unfold write_process in H. apply andthen_ok in H. destruct H as (s1 & d1 & H1 & H).
      apply the_data_ok in H1. destruct H1 as [-> D1]. assert (d1 = d) by congruence. subst d1.
      apply andthen_ok in H. destruct H as (s1 & doc & H1 & H). unfold lift in H1. inversion H1; subst s1. exists doc.
      split; [auto|]. clear H1. destruct (p_ilcd p).
      - apply andthen_ok in H. destruct H as (s1 & u & H1 & H). unfold lift in H1. inversion H1; subst s1.
        destruct (d_work d) as [w|]; [|discriminate]. apply andthen_ok in H. destruct H as (s1 & [] & H2 & H).
        inversion H2; subst s1. inversion H; subst. eauto 10.
      - destruct (p_title p (w_hash (snd s)) (d_struct d)) as [t|]; [|discriminate]. inversion H; subst. exists t.
        split; [auto|]. split; [auto|]. f_equal. apply putf_absent, free_name_fresh.
    Qed.
    Lemma single_ok s s' n d : c_data (fst s) = Some d -> end_single p s = (s', Ok n) ->
      exists doc, p_doc p (d_struct d) = Ok doc /\ w_hash (snd s') = w_hash (snd s) /\
      if p_ilcd p then exists u w, p_uuid p (d_struct d) = Ok u /\ d_work d = Some w /\ w_folder (snd s') = w_folder (snd s) /\
             c_data (fst s') = Some {| d_struct := p_fresh p; d_multi := false; d_work := Some (putf (u ++ lit ".xml") doc w) |}
      else exists t, p_title p (w_hash (snd s)) (d_struct d) = Ok t /\ n = free_name (w_folder (snd s)) t (lit ".spold") /\
             w_folder (snd s') = w_folder (snd s) ++ [(n, Spold doc)] /\
             c_data (fst s') = Some {| d_struct := p_fresh p; d_multi := false; d_work := d_work d |}.
    Proof.
      intros D H. unfold end_single in H. apply andthen_ok in H. destruct H as (s1 & n1 & H1 & H).
      apply (write_ok s s1 n1 d D) in H1. destruct H1 as (doc & HD & W). exists doc. split; [exact HD|].
      apply andthen_ok in H. destruct H as (s2 & d2 & H2 & H). apply the_data_ok in H2. destruct H2 as [-> D2].
      apply andthen_ok in H. destruct H as (s3 & [] & H3 & H). inversion H3; subst s3. inversion H; subst n1 s'.
      destruct (p_ilcd p).
      - destruct W as (u & w & U & W & ->). cbn [set_data fst c_data] in D2. inversion D2; subst d2. split; [reflexivity|]. exists u, w. auto.
      - destruct W as (t & T & N & ->). cbn [set_folder fst] in D2. rewrite D in D2. inversion D2; subst d2. split; [reflexivity|].
        exists t. auto.
    Qed.
    Lemma reset_ok s s' d : c_data (fst s) = Some d -> reset_output p s = (s', Ok tt) ->
      exists doc, p_doc p (d_struct d) = Ok doc /\ w_hash (snd s') = w_hash (snd s) /\
      if p_ilcd p then exists u w, p_uuid p (d_struct d) = Ok u /\ d_work d = Some w /\ w_folder (snd s') = w_folder (snd s) /\
             c_data (fst s') = Some {| d_struct := p_fresh p; d_multi := true; d_work := Some (putf (u ++ lit ".xml") doc w) |}
      else exists t n, p_title p (w_hash (snd s)) (d_struct d) = Ok t /\ n = free_name (w_folder (snd s)) t (lit ".spold") /\
             w_folder (snd s') = w_folder (snd s) ++ [(n, Spold doc)] /\
             c_data (fst s') = Some {| d_struct := p_fresh p; d_multi := true; d_work := d_work d |}.
    Proof.
      intros D H. unfold reset_output in H. apply andthen_ok in H. destruct H as (s1 & n1 & H1 & H).
      apply (single_ok s s1 n1 d D) in H1. destruct H1 as (doc & HD & HH & W). exists doc. split; [exact HD|].
      apply andthen_ok in H. destruct H as (s2 & d2 & H2 & H). apply the_data_ok in H2. destruct H2 as [-> D2].
      inversion H; subst s'. split; [exact HH|]. destruct (p_ilcd p).
      - destruct W as (u & w & U & W & F & E). rewrite E in D2. inversion D2; subst d2. exists u, w. auto.
      - destruct W as (t & T & N & F & E). rewrite E in D2. inversion D2; subst d2. exists t, n1. auto.
    Qed.
    Lemma end_ok s s' n d : c_data (fst s) = Some d -> end_output p s = (s', Ok n) ->
      exists doc, p_doc p (d_struct d) = Ok doc /\ w_hash (snd s') = w_hash (snd s) /\
      c_data (fst s') = Some {| d_struct := p_fresh p; d_multi := false; d_work := if p_ilcd p then None else d_work d |} /\
      if p_ilcd p then exists u w t, p_uuid p (d_struct d) = Ok u /\ d_work d = Some w /\
             (if d_multi d then Ok (lit "ILCD" ++ w_hash (snd s)) else p_title p (w_hash (snd s)) (d_struct d)) = Ok t /\
             n = free_name (w_folder (snd s)) t (lit ".zip") /\
             w_folder (snd s') = w_folder (snd s) ++ [(n, Zip (putf (u ++ lit ".xml") doc w))]
      else exists t, p_title p (w_hash (snd s)) (d_struct d) = Ok t /\ n = free_name (w_folder (snd s)) t (lit ".spold") /\
             w_folder (snd s') = w_folder (snd s) ++ [(n, Spold doc)].
    Proof.
      intros D H. unfold end_output in H. destruct (p_ilcd p) eqn:PI.
      - apply andthen_ok in H. destruct H as (s1 & d1 & H1 & H). apply the_data_ok in H1. destruct H1 as [-> D1].
        assert (d1 = d) by congruence. subst d1. apply andthen_ok in H. destruct H as (s1 & t & H1 & H). unfold lift in H1.
        inversion H1 as [[E1 E2]]. subst s1. clear H1.
        apply andthen_ok in H. destruct H as (s1 & n1 & H1 & H). apply (single_ok s s1 n1 d D) in H1. rewrite PI in H1.
        destruct H1 as (doc & HD & HH & u & w & U & W & F & E). exists doc. split; [exact HD|].
        apply andthen_ok in H. destruct H as (s2 & d2 & H2 & H). apply the_data_ok in H2. destruct H2 as [-> D2].
        rewrite E in D2. inversion D2; subst d2. cbn [d_work d_struct d_multi] in H. inversion H; subst s' n. cbn.
        split; [exact HH|]. split; [reflexivity|]. exists u, w, t. rewrite F in *. do 4 (split; auto).
        apply putf_absent, free_name_fresh.
      - apply (single_ok s s' n d D) in H. rewrite PI in H. destruct H as (doc & HD & HH & t & T & N & F & E).
        exists doc. split; [exact HD|]. split; [exact HH|]. split; [exact E|]. exists t. auto.
    Qed.

    Lemma rest_data0 s : at_rest p s -> d_struct (data0 s) = p_fresh p /\ d_multi (data0 s) = false.
    Proof. unfold at_rest, data0. destruct (c_data (fst s)); auto. Qed.
    (** ** Every file on its own *)
    Lemma to_file_run : forall l s s' ns, at_rest p s -> run p true l None s = (s', Ok ns) ->
      at_rest p s' /\ exists outs, adds s s' outs /\ map fst outs = ns /\
        Forall2 (fun fb o => exists x, converted p (p_end p) (fst fb) x /\ holds_one p x (snd o) /\
                                       exists t, p_title p (hash0 s) x = Ok t /\ named p t (fst o)) l outs.
    Proof.
      induction l as [|[f last] l IH]; intros s s' ns R H; cbn [run] in H.
      - inversion H; subst. split; auto. exists []. unfold adds. rewrite app_nil_r. auto.
      - apply andthen_ok in H. destruct H as (s1 & [] & H1 & H).
        apply andthen_ok in H. destruct H as (s2 & [] & H2 & H). rewrite orb_true_r in H.
        apply andthen_ok in H. destruct H as (s4 & n & H3 & H). unfold converter_end in H3.
        apply andthen_ok in H3. destruct H3 as (s3 & [] & H3 & H4).
        apply andthen_ok in H. destruct H as (s5 & ns' & H5 & H). inversion H; subst s5 ns. clear H.
        destruct (rest_data0 s R) as [R1 R2].
        destruct (file_ok f (p_end p) s s1 s2 s3 R1 H1 H2 H3) as (x & C & D & F & X3). rewrite R2 in D.
        destruct (end_ok _ _ _ _ D H4) as (doc & HD & X4 & D4 & E).
        assert (R4 : at_rest p s4) by (unfold at_rest; rewrite D4; auto).
        destruct (IH s4 s' ns' R4 H5) as (R' & outs & A & N & Q). split; [exact R'|].
        cbn [d_struct d_work] in E.
        assert (HX : hash0 s4 = hash0 s) by (unfold hash0 at 1; rewrite D4; congruence).
        assert (X : exists o t, w_folder (snd s4) = w_folder (snd s) ++ [(n, o)] /\ holds_one p x o /\
                                p_title p (hash0 s) x = Ok t /\ named p t n).
        { unfold holds_one, named. destruct (p_ilcd p).
          - destruct E as (u & w & t & U & W & T & NM & F4). inversion W; subst w. exists (Zip [(u ++ lit ".xml", doc)]), t.
            rewrite <- F. split; [exact F4|]. split; [eauto|]. split; [rewrite <- X3; exact T|].
            destruct (free_name_first (w_folder (snd s3)) t (lit ".zip")) as (r & NR & k & K & _). exists k, r. split; [exact K|congruence].
          - destruct E as (t & T & NM & F4). exists (Spold doc), t. rewrite <- F. split; [exact F4|]. split; [eauto|].
            split; [rewrite <- X3; exact T|].
            destruct (free_name_first (w_folder (snd s3)) t (lit ".spold")) as (r & NR & k & K & _). exists k, r. split; [exact K|congruence]. }
        destruct X as (o & t & F4 & HO & HT & HN). exists ((n, o) :: outs). unfold adds in *.
        split; [rewrite A, F4, <- app_assoc; reflexivity|]. split; [cbn [map fst]; congruence|].
        constructor; [exists x; eauto|]. rewrite HX in Q. exact Q.
    Qed.

    (** ** Batches *)
    (** the files before the last one of a batch *)
    Lemma archived_nodup xs z : archived p xs z -> NoDup (map fst z).
    Proof. induction 1; [constructor|]. now apply putf_NoDup. Qed.
    Definition multi0 (s : state) (done : list Struct) : Prop :=
      match done with
      | [] => at_rest p s
      | _ => exists w, c_data (fst s) = Some {| d_struct := p_fresh p; d_multi := true; d_work := w |} /\
                       (p_ilcd p = true -> exists z, w = Some z /\ archived p done z)
      end.
    Lemma batch_step f s s1 s2 s3 s4 done :
      multi0 s done -> start_conversion p f s = (s1, Ok tt) -> on_mapping (p_body p f) s1 = (s2, Ok tt) ->
      on_mapping (p_reset p) s2 = (s3, Ok tt) -> reset_output p s3 = (s4, Ok tt) ->
      exists x, converted p (p_reset p) f x /\ multi0 s4 (done ++ [x]) /\
        exists outs, adds s s4 outs /\
          if p_ilcd p then outs = [] else exists n doc, p_doc p x = Ok doc /\ outs = [(n, Spold doc)].
    Proof.
      intros M H1 H2 H3 H4.
      assert (R1 : d_struct (data0 s) = p_fresh p).
      { destruct done; [now apply rest_data0|]. destruct M as (w & M & _). unfold data0. now rewrite M. }
      destruct (file_ok f (p_reset p) s s1 s2 s3 R1 H1 H2 H3) as (x & C & D & F & _). exists x. split; [exact C|].
      destruct (reset_ok _ _ _ D H4) as (doc & HD & _ & E). cbn [d_struct d_work] in *.
      assert (W : p_ilcd p = true -> exists z, (if d_multi (data0 s) then d_work (data0 s) else if p_ilcd p then Some [] else d_work (data0 s)) = Some z
                   /\ archived p done z).
      { intros PI. destruct done.
        - apply rest_data0 in M. destruct M as [_ M]. rewrite M, PI. exists []. split; auto. constructor.
        - destruct M as (w & M & A). unfold data0. rewrite M. cbn [d_multi d_work]. now apply A. }
      destruct (p_ilcd p) eqn:PI.
      - destruct E as (u & w & U & W' & F4 & D4). destruct (W eq_refl) as (z & Z & A).
        assert (w = z) by (rewrite Z in W'; congruence). subst z. split.
        + unfold multi0. destruct (done ++ [x]) eqn:E; [destruct done; discriminate|]. rewrite <- E. clear E.
          eexists. split; [exact D4|]. intros _. eexists. split; [reflexivity|]. now constructor.
        + exists []. split; auto. unfold adds. rewrite app_nil_r. congruence.
      - destruct E as (t & n & _ & _ & F4 & D4). split.
        + unfold multi0. destruct (done ++ [x]) eqn:E; [destruct done; discriminate|]. eexists. split; [exact D4|]. congruence.
        + exists [(n, Spold doc)]. split; [unfold adds; congruence|]. eauto.
    Qed.
    Lemma batch_end f s s1 s2 s3 s4 n done :
      multi0 s done -> start_conversion p f s = (s1, Ok tt) -> on_mapping (p_body p f) s1 = (s2, Ok tt) ->
      on_mapping (p_end p) s2 = (s3, Ok tt) -> end_output p s3 = (s4, Ok n) ->
      exists x, converted p (p_end p) f x /\ at_rest p s4 /\
        exists o, adds s s4 [(n, o)] /\
          if p_ilcd p then exists z, o = Zip z /\ archived p (done ++ [x]) z else exists doc, p_doc p x = Ok doc /\ o = Spold doc.
    Proof.
      intros M H1 H2 H3 H4.
      assert (R1 : d_struct (data0 s) = p_fresh p).
      { destruct done; [now apply rest_data0|]. destruct M as (w & M & _). unfold data0. now rewrite M. }
      destruct (file_ok f (p_end p) s s1 s2 s3 R1 H1 H2 H3) as (x & C & D & F & _). exists x. split; [exact C|].
      destruct (end_ok _ _ _ _ D H4) as (doc & HD & _ & D4 & E). cbn [d_struct d_work] in *.
      split; [unfold at_rest; rewrite D4; auto|].
      destruct (p_ilcd p) eqn:PI.
      - destruct E as (u & w & t & U & W' & _ & _ & F4).
        assert (A : archived p done w).
        { destruct done.
          - apply rest_data0 in M. destruct M as [_ M]. rewrite M in W'. inversion W'. constructor.
          - destruct M as (w' & M & A). unfold data0 in W'. rewrite M in W'. cbn [d_multi d_work] in W'. destruct (A PI) as (z & Z & A').
            assert (w = z) by congruence. subst z. exact A'. }
        exists (Zip (putf (u ++ lit ".xml") doc w)). split; [unfold adds; congruence|]. eexists. split; [reflexivity|]. now constructor.
      - destruct E as (t & _ & _ & F4). exists (Spold doc). split; [unfold adds; congruence|]. eauto.
    Qed.

    Lemma batch_run : forall fs l tl rest s s' ns done, multi0 s done ->
      run p false (map (fun f => (f, false)) fs ++ (l, true) :: tl) rest s = (s', Ok ns) ->
      exists xs x n ns' s4 outs, ns = n :: ns' /\ Forall2 (converted p (p_reset p)) fs xs /\ converted p (p_end p) l x /\
        at_rest p s4 /\ adds s s4 outs /\ run p false tl rest s4 = (s', Ok ns') /\
        if p_ilcd p then exists z, outs = [(n, Zip z)] /\ archived p (done ++ xs ++ [x]) z
        else exists names, outs <> [] /\ fst (last outs (n, Zip [])) = n /\
             Forall2 (fun x o => p_doc p x = Ok (snd o) /\ exists m, fst o = (m, Spold (snd o))) (xs ++ [x]) names /\ map fst names = outs.
    Proof.
      induction fs as [|f fs IH]; intros l tl rest s s' ns done M H; cbn [map app run] in H.
      - apply andthen_ok in H. destruct H as (s1 & [] & H1 & H).
        apply andthen_ok in H. destruct H as (s2 & [] & H2 & H). cbn [orb] in H.
        apply andthen_ok in H. destruct H as (s4 & n & H3 & H). unfold converter_end in H3.
        apply andthen_ok in H3. destruct H3 as (s3 & [] & H3 & H4).
        apply andthen_ok in H. destruct H as (s5 & ns' & H5 & H). inversion H; subst s5 ns. clear H.
        destruct (batch_end l s s1 s2 s3 s4 n done M H1 H2 H3 H4) as (x & C & R & o & A & E).
        exists [], x, n, ns', s4, [(n, o)]. do 6 (split; [auto|]). destruct (p_ilcd p).
        + destruct E as (z & -> & E). eauto.
        + destruct E as (doc & E & ->). exists [((n, Spold doc), doc)]. split; [discriminate|]. split; [reflexivity|].
          split; [|reflexivity]. constructor; [|constructor]. cbn [fst snd]. eauto.
      - apply andthen_ok in H. destruct H as (s1 & [] & H1 & H).
        apply andthen_ok in H. destruct H as (s2 & [] & H2 & H). cbn [orb] in H.
        apply andthen_ok in H. destruct H as (s4 & [] & H3 & H). unfold converter_reset in H3.
        apply andthen_ok in H3. destruct H3 as (s3 & [] & H3 & H4).
        destruct (batch_step f s s1 s2 s3 s4 done M H1 H2 H3 H4) as (x & C & M4 & outs & A & E).
        destruct (IH l tl rest s4 s' ns (done ++ [x]) M4 H) as (xs & xl & n & ns' & s5 & outs' & -> & FX & CL & R & A' & H' & E').
        exists (x :: xs), xl, n, ns', s5, (outs ++ outs'). split; [reflexivity|]. split; [constructor; auto|].
        split; [exact CL|]. split; [exact R|]. split; [unfold adds in *; rewrite A', A, app_assoc; reflexivity|]. split; [exact H'|].
        destruct (p_ilcd p).
        + subst outs. destruct E' as (z & -> & E'). exists z. split; [reflexivity|].
          rewrite <- app_assoc in E'. exact E'.
        + destruct E as (m & doc & HD & ->). destruct E' as (names & NE & L & Q & MN).
          exists ((m, Spold doc, doc) :: names). split; [discriminate|]. split.
          * cbn [app]. destruct outs' as [|o outs']; [congruence|]. exact L.
          * split; [|cbn [map fst]; now rewrite MN]. cbn [app]. constructor; [|exact Q]. cbn [fst snd]. eauto.
    Qed.
    Lemma database_run : forall bs s s' ns, at_rest p s ->
      run p false (concat (map yield_files bs)) None s = (s', Ok ns) ->
      at_rest p s' /\
      exists reports : list (list File * pystr * list (pystr * out Doc)),
        map (fun r => fst (fst r)) reports = filter (fun b => match b with [] => false | _ => true end) bs /\
        map (fun r => snd (fst r)) reports = ns /\ adds s s' (concat (map snd reports)) /\
        Forall (fun r => exists xs, Forall2 (converted_any p) (fst (fst r)) xs /\ batch_outputs p xs (snd (fst r)) (snd r)) reports.
    Proof.
      induction bs as [|b bs IH]; intros s s' ns R H.
      - cbn in H. inversion H; subst. split; auto. exists []. unfold adds. cbn. rewrite app_nil_r. auto.
      - destruct (rev_case b) as [->|(fs & l & ->)].
        + cbn [map concat] in H. destruct (IH s s' ns R H) as (R' & reps & X). split; auto. exists reps. exact X.
        + cbn [map concat] in H. rewrite yield_snoc, <- app_assoc in H. cbn [app] in H.
          destruct (batch_run fs l _ None s s' ns [] R H) as (xs & x & n & ns' & s4 & outs & -> & FX & CL & R4 & A & H' & E).
          destruct (IH s4 s' ns' R4 H') as (R' & reps & B & N & A' & Q). split; [exact R'|].
          exists ((fs ++ [l], n, outs) :: reps). cbn [map fst snd concat].
          split.
          { cbn [filter]. destruct (fs ++ [l]) eqn:E0; [destruct fs; discriminate|]. now rewrite B. }
          split; [now rewrite N|]. split; [unfold adds in *; rewrite A', A, app_assoc; reflexivity|].
          constructor; [|exact Q]. cbn [fst snd]. exists (xs ++ [x]). split.
          * apply Forall2_app; [|constructor; [now left|constructor]]. revert FX. clear. induction 1; constructor; auto. now right.
          * exact E.
    Qed.

    (** distinct identifiers: nothing is replaced in the archive *)
    Lemma archived_distinct xs z : archived p xs z -> forall us, map (p_uuid p) xs = map (@Ok pystr) us -> NoDup us ->
      Forall2 (fun x m => exists u, p_uuid p x = Ok u /\ fst m = u ++ lit ".xml" /\ p_doc p x = Ok (snd m)) xs z.
    Proof.
      induction 1 as [|xs x z u d A IH HD HU]; intros us E N; [constructor|].
      destruct (rev_case us) as [->|(us' & u' & ->)]; [destruct xs; discriminate|].
      rewrite !map_app in E. cbn [map] in E. apply app_inj_tail in E. destruct E as [E1 E2].
      assert (u' = u) by congruence. subst u'.
      assert (N' : NoDup us') by (apply NoDup_remove_1 in N; now rewrite app_nil_r in N).
      specialize (IH us' E1 N'). rewrite putf_absent.
      - apply Forall2_app; [exact IH|]. constructor; [|constructor]. exists u. auto.
      - intros I. apply (NoDup_remove_2 us' [] u N). rewrite app_nil_r.
        revert I IH E1. clear. revert z us'. induction xs as [|y ys IH]; intros z us' I F E; inversion F as [|? m ? z' [v (V & M & _)] F']; subst.
        + destruct I.
        + destruct us' as [|w us']; [discriminate|]. cbn [map] in E. injection E as Ew E'. cbn [map In] in I. destruct I as [I|I].
          * left. pose proof (eq_trans (eq_sym I) M) as X. apply app_inv_tail in X. subst v. rewrite Ew in V. now inversion V.
          * right. eapply IH; eauto.
    Qed.
    (** a document is in the archive unless a later one has the same identifier *)
    Lemma archived_present xs z : archived p xs z -> forall n, In n (map fst z) ->
      exists x u, In x xs /\ p_uuid p x = Ok u /\ n = u ++ lit ".xml".
    Proof.
      induction 1 as [|xs x z u d A IH HD HU]; intros n I; [destruct I|].
      rewrite putf_keys in I. destruct (existsb _ _).
      - destruct (IH n I) as (y & v & Y & V). exists y, v. rewrite in_app_iff. auto.
      - rewrite in_app_iff in I. destruct I as [I|[<-|[]]].
        + destruct (IH n I) as (y & v & Y & V). exists y, v. rewrite in_app_iff. auto.
        + exists x, u. rewrite in_app_iff. cbn. auto.
    Qed.

    (** ** After an exception *)
    Definition keeps_version {A} (m : step (Struct:=Struct) (Doc:=Doc) (Cls:=Cls) A) : Prop := forall s, c_version (fst (fst (m s))) = c_version (fst s).
    Lemma kv_andthen {A B} (m : step A) (f : A -> step B) : keeps_version m -> (forall a, keeps_version (f a)) -> keeps_version (andthen m f).
    Proof.
      intros M F s. unfold andthen. specialize (M s). destruct (m s) as [s1 [a|e]]; cbn [fst] in *; [|exact M].
      now rewrite F.
    Qed.
    Lemma kv_the_data : keeps_version the_data.
    Proof. intros s. unfold the_data. destruct (c_data (fst s)); reflexivity. Qed.
    Lemma kv_on_mapping f : keeps_version (on_mapping f).
    Proof.
      apply kv_andthen; [apply kv_the_data|]. intros d s. destruct (f (w_cls (snd s)) (d_struct d)) as [[c x] [e|]]; reflexivity.
    Qed.
    Lemma kv_write : keeps_version (write_process p).
    Proof.
      apply kv_andthen; [apply kv_the_data|]. intros d. apply kv_andthen; [now intros s|]. intros doc.
      destruct (p_ilcd p).
      - apply kv_andthen; [now intros s|]. intros u. destruct (d_work d) as [w|]; [|now intros s].
        apply kv_andthen; [now intros s|]. now intros _ s.
      - intros s. destruct (p_title p (w_hash (snd s)) (d_struct d)); reflexivity.
    Qed.
    Lemma kv_single : keeps_version (end_single p).
    Proof.
      apply kv_andthen; [apply kv_write|]. intros n. apply kv_andthen; [apply kv_the_data|]. intros d.
      apply kv_andthen; [now intros s|]. now intros _ s.
    Qed.
    Lemma kv_reset : keeps_version (reset_output p).
    Proof. apply kv_andthen; [apply kv_single|]. intros n. apply kv_andthen; [apply kv_the_data|]. now intros d s. Qed.
    Lemma kv_end : keeps_version (end_output p).
    Proof.
      unfold end_output. destruct (p_ilcd p); [|apply kv_single].
      apply kv_andthen; [apply kv_the_data|]. intros d s.
      match goal with |- context [lift ?r] => generalize r end. intros r. revert s.
      apply kv_andthen; [now intros s|]. intros t. apply kv_andthen; [apply kv_single|]. intros n.
      apply kv_andthen; [apply kv_the_data|]. intros d' s. destruct (d_work d'); reflexivity.
    Qed.
    Lemma start_version f v n a s : p_info p f = Ok (v, n, a) -> c_version (fst (fst (start_conversion p f s))) = v.
    Proof.
      intros I. unfold start_conversion. rewrite I. generalize (c_version (fst s)). intros o.
      unfold andthen at 1. cbn [modify].
      match goal with |- c_version (fst (fst (?m _))) = _ => assert (K : keeps_version m) end.
      { apply kv_andthen; [intros s0; unfold ensure_data; destruct (c_data (fst s0)); reflexivity|]. intros _.
        apply kv_andthen.
        { intros s0. unfold ensure_mapping. destruct (_ || _)%bool; [|reflexivity].
          destruct (p_load p v f (w_cls (snd s0))) as [c [e|]]; reflexivity. }
        intros _. apply kv_andthen; [intros s0; unfold need_mapping; destruct (c_map (fst s0)); reflexivity|]. intros _.
        apply kv_andthen; [|intros _; apply kv_on_mapping].
        apply kv_andthen; [apply kv_the_data|]. intros d s0.
        destruct (d_multi d); [reflexivity|]. destruct (p_ilcd p); [reflexivity|]. destruct n; reflexivity. }
      rewrite K. reflexivity.
    Qed.
    Lemma run_one_version tf f b rest v n a s : p_info p f = Ok (v, n, a) -> c_version (fst (fst (run p tf [(f, b)] rest s))) = v.
    Proof.
      intros I. cbn [run]. unfold andthen at 1. pose proof (start_version f v n a s I) as V.
      destruct (start_conversion p f s) as [s1 [[]|e]]; cbn [fst] in *; [|exact V]. rewrite <- V. clear V. revert s1.
      apply kv_andthen; [apply kv_on_mapping|]. intros _. destruct (b || tf)%bool.
      - apply kv_andthen; [apply kv_andthen; [apply kv_on_mapping|intros _; apply kv_end]|]. intros n0.
        apply kv_andthen; [destruct rest; now intros s0|]. now intros ns s0.
      - apply kv_andthen; [apply kv_andthen; [apply kv_on_mapping|intros _; apply kv_reset]|]. intros _. destruct rest; now intros s0.
    Qed.
    Lemma clean_ok e s s' r : p_input_cleanup p = None -> (forall c x, snd (p_delete p c x) = None) ->
      (c_map (fst s) = true -> c_data (fst s) <> None) ->
      clean p e s = (s', r) -> r = Err e /\ c_map (fst s') = false /\ c_version (fst s') = c_version (fst s).
    Proof.
      intros I De MD H. unfold clean in H. rewrite I in H.
      set (s1 := match c_data (fst s) with Some _ => _ | None => _ end) in H.
      assert (E1 : c_map (fst s1) = c_map (fst s) /\ c_version (fst s1) = c_version (fst s) /\ (c_data (fst s) <> None -> c_data (fst s1) <> None)).
      { unfold s1. destruct (c_data (fst s)) eqn:D; cbn; repeat split; congruence. }
      clearbody s1. destruct E1 as (M1 & V1 & D1). destruct (c_map (fst s1)) eqn:M.
      - assert (X : exists d, c_data (fst s1) = Some d).
        { destruct (c_data (fst s1)) as [d|] eqn:D; [eauto|]. exfalso. apply D1; auto. }
        destruct X as [d X]. unfold on_mapping, andthen in H. rewrite (the_data_some s1 d X) in H.
        pose proof (De (w_cls (snd s1)) (d_struct d)) as DE.
        destruct (p_delete p (w_cls (snd s1)) (d_struct d)) as [[c x] o]. cbn [snd] in DE. subst o. inversion H; subst. cbn. auto.
      - inversion H; subst. auto.
    Qed.

    Definition keeps_data {A} (m : step (Struct:=Struct) (Doc:=Doc) (Cls:=Cls) A) : Prop := forall s, have s -> have (fst (m s)).
    Lemma kd_andthen {A B} (m : step A) (f : A -> step B) : keeps_data m -> (forall a, keeps_data (f a)) -> keeps_data (andthen m f).
    Proof.
      intros M F s H. unfold andthen. specialize (M s H). destruct (m s) as [s1 [a|e]]; cbn [fst] in *; [|exact M]. now apply F.
    Qed.
    Lemma kd_the_data : keeps_data the_data.
    Proof. intros s H. unfold the_data. destruct (c_data (fst s)); exact H. Qed.
    Lemma kd_set d s : have (set_data d s).
    Proof. unfold have. cbn. discriminate. Qed.
    Lemma kd_on_mapping f : keeps_data (on_mapping f).
    Proof.
      apply kd_andthen; [apply kd_the_data|]. intros d s H. destruct (f (w_cls (snd s)) (d_struct d)) as [[c x] [e|]]; apply kd_set.
    Qed.
    Lemma kd_write : keeps_data (write_process p).
    Proof.
      apply kd_andthen; [apply kd_the_data|]. intros d. apply kd_andthen; [now intros s|]. intros doc.
      destruct (p_ilcd p).
      - apply kd_andthen; [now intros s|]. intros u. destruct (d_work d) as [w|]; [|now intros s].
        apply kd_andthen; [intros s _; apply kd_set|]. now intros _ s.
      - intros s H. destruct (p_title p (w_hash (snd s)) (d_struct d)); exact H.
    Qed.
    Lemma kd_single : keeps_data (end_single p).
    Proof.
      apply kd_andthen; [apply kd_write|]. intros n. apply kd_andthen; [apply kd_the_data|]. intros d.
      apply kd_andthen; [intros s _; apply kd_set|]. now intros _ s.
    Qed.
    Lemma kd_reset : keeps_data (reset_output p).
    Proof. apply kd_andthen; [apply kd_single|]. intros n. apply kd_andthen; [apply kd_the_data|]. intros d s _. apply kd_set. Qed.
    Lemma kd_end : keeps_data (end_output p).
    Proof.
      unfold end_output. destruct (p_ilcd p); [|apply kd_single].
      apply kd_andthen; [apply kd_the_data|]. intros d s.
      match goal with |- context [lift ?r] => generalize r end. intros r. revert s.
      apply kd_andthen; [now intros s|]. intros t. apply kd_andthen; [apply kd_single|]. intros n.
      apply kd_andthen; [apply kd_the_data|]. intros d' s H. destruct (d_work d'); [apply kd_set|exact H].
    Qed.
    Lemma start_have f s : sane s -> sane (fst (start_conversion p f s)) /\ (forall x, snd (start_conversion p f s) = Ok x -> have (fst (start_conversion p f s))).
    Proof.
      intros S0. unfold start_conversion. destruct (p_info p f) as [[[v n] a]|e]; [|split; [exact S0|discriminate]].
      generalize (c_version (fst s)). intros o. unfold andthen at 1. cbn [modify].
      match goal with |- sane (fst ?r) /\ _ => assert (K : have (fst r)) end; [|split; [intros _; exact K|intros _ _; exact K]].
      unfold andthen at 1. assert (E : have (fst (ensure_data p (set_version v s)))).
      { unfold ensure_data. destruct (c_data (fst (set_version v s))) eqn:D; [unfold have; cbn [fst]; congruence|]. unfold have. cbn. discriminate. }
      unfold ensure_data in *. set (r := match c_data (fst (set_version v s)) with Some _ => _ | None => _ end) in *.
      assert (R : exists s1, r = (s1, Ok tt)) by (unfold r; destruct (c_data (fst (set_version v s))); eauto).
      destruct R as [s1 R]. rewrite R in *. cbn [fst] in E. revert s1 E R. intros s1 E _. revert s1 E.
      apply kd_andthen.
      { intros s0 H. unfold ensure_mapping. destruct (_ || _)%bool; [|exact H].
        destruct (p_load p v f (w_cls (snd s0))) as [c [e|]]; exact H. }
      intros _. apply kd_andthen; [intros s0 H; unfold need_mapping; destruct (c_map (fst s0)); exact H|]. intros _.
      apply kd_andthen; [|intros _; apply kd_on_mapping].
      apply kd_andthen; [apply kd_the_data|]. intros d s0 H.
      destruct (d_multi d); [exact H|]. destruct (p_ilcd p); [apply kd_set|]. destruct n; exact H.
    Qed.
    Lemma run_sane tf rest : forall l s, sane s -> sane (fst (run p tf l rest s)).
    Proof.
      induction l as [|[f b] l IH]; intros s S0; cbn [run].
      - destruct rest; exact S0.
      - unfold andthen at 1. destruct (start_have f s S0) as [S1 H1].
        destruct (start_conversion p f s) as [s1 [[]|e]]; cbn [fst snd] in *; [|exact S1]. specialize (H1 tt eq_refl).
        unfold andthen at 1. pose proof (kd_on_mapping (p_body p f) s1 H1) as H2.
        destruct (on_mapping (p_body p f) s1) as [s2 [[]|e]]; cbn [fst] in *; [|intros _; exact H2].
        destruct (b || tf)%bool.
        + unfold andthen at 1.
          assert (H3 : have (fst (converter_end p s2))) by (apply kd_andthen; [apply kd_on_mapping|intros _; apply kd_end|exact H2]).
          destruct (converter_end p s2) as [s3 [n|e]]; cbn [fst] in *; [|intros _; exact H3].
          unfold andthen. specialize (IH s3 (fun _ => H3)). destruct (run p tf l rest s3) as [s4 [ns|e]]; exact IH.
        + unfold andthen at 1.
          assert (H3 : have (fst (converter_reset p s2))) by (apply kd_andthen; [apply kd_on_mapping|intros _; apply kd_reset|exact H2]).
          destruct (converter_reset p s2) as [s3 [n|e]]; cbn [fst] in *; [|intros _; exact H3]. exact (IH s3 (fun _ => H3)).
    Qed.
    (** a converter without mapping cannot convert a file of the version it has seen last *)
    Lemma no_mapping tf f b rest v n a s : p_input_cleanup p = None -> p_info p f = Ok (Some v, n, a) ->
      c_map (fst s) = false -> c_version (fst s) = Some v ->
      exists s', convert p tf [(f, b)] rest s = (s', Err AttributeError) /\ c_map (fst s') = false /\
                 c_version (fst s') = Some v /\ w_folder (snd s') = w_folder (snd s).
    Proof.
      intros Cl I M V. unfold convert. cbn [run].
      assert (St : exists s1, start_conversion p f s = (s1, Err AttributeError) /\ c_map (fst s1) = false /\
                     c_version (fst s1) = Some v /\ w_folder (snd s1) = w_folder (snd s)).
      { unfold start_conversion. rewrite I, V. unfold andthen, modify, ensure_data.
        assert (VV : oversion_eqb (Some v) (Some v) = true).
        { cbn [oversion_eqb]. clear. induction v as [|x v IH]; [reflexivity|]. cbn [version_eqb]. now rewrite str_eqb_refl. }
        unfold ensure_mapping. rewrite VV. cbn [negb orb]. unfold need_mapping.
        destruct (c_data (fst (set_version (Some v) s))); cbn [set_data set_hash set_version fst snd c_map c_version c_data] in *;
          rewrite M; eexists; split; reflexivity || auto. }
      destruct St as (s1 & E & M1 & V1 & F1). unfold andthen. rewrite E. unfold clean. rewrite Cl.
      destruct (c_data (fst s1)) as [d|]; cbn [set_data fst snd c_map]; rewrite M1; eexists; split; [reflexivity| |reflexivity|]; cbn; auto.
    Qed.
  End Plant.
End DriverProofs.
