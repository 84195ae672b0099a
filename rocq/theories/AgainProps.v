(** C30, C182 and C204: converters after a file that could not be converted. *)
From Coq Require Import Ascii String List Bool Arith NArith ZArith Lia.
From Verif Require Import PyBase PyBaseFacts PyValues MultiLangModel DotDictModel DotDictProofs ConverterModel ConverterProofs SessionModel SessionSpec SessionProofs SessionProps.
Import ListNotations.
Local Open Scope string_scope.
Local Open Scope list_scope.

(** ** Lists of files that end with a failure *)
Lemma run_failed readable : forall l c w c' w' es f (e : exn), convert_files readable l (c, w) = (c', w', es ++ [(f, inr e)]) ->
  exists c1 w1, convert_file readable f (c1, w1) = (c', w', inr e) /\ same_settings c c1.
Proof.
  intros l. induction l as [|g l IH]; intros c w c' w' es f e H.
  - injection H as _ _ H. destruct es; discriminate.
  - cbn [convert_files] in H. destruct (convert_file readable g (c, w)) as [[c1 w1] [u1|e1]] eqn:E.
    + assert (S : same_settings c c1) by (apply convert_file_ok in E; apply E).
      destruct (convert_files readable l (c1, w1)) as [[c2 w2] es2] eqn:El. injection H as <- <- H. destruct es as [|x es]; [discriminate|].
      injection H as _ ->. destruct (IH _ _ _ _ _ _ _ El) as (c3 & w3 & E3 & S3). exists c3, w3. split; [exact E3|exact (same_trans _ _ _ S S3)].
    + destruct es as [|x es]; [|destruct es; discriminate]. cbn in H. injection H as <- <- <- <-. exists c, w. split; [exact E|apply same_refl].
Qed.
Lemma run_failed_next readable : forall l c w c' w' es g u f (e : exn), convert_files readable l (c, w) = (c', w', es ++ [(g, inl u); (f, inr e)]) ->
  exists c0 w0 c1 w1, convert_file readable g (c0, w0) = (c1, w1, inl u) /\ convert_file readable f (c1, w1) = (c', w', inr e) /\ same_settings c c0.
Proof.
  intros l. induction l as [|h l IH]; intros c w c' w' es g u f e H.
  - injection H as _ _ H. destruct es; discriminate.
  - cbn [convert_files] in H. destruct (convert_file readable h (c, w)) as [[c1 w1] [u1|e1]] eqn:E.
    + assert (S : same_settings c c1) by (apply convert_file_ok in E; apply E).
      destruct (convert_files readable l (c1, w1)) as [[c2 w2] es2] eqn:El. injection H as <- <- H. destruct es as [|x es].
      * cbn in H. injection H as <- <- ->. exists c, w, c1, w1. split; [exact E|]. split; [|apply same_refl].
        destruct l as [|h2 l]; [discriminate|]. cbn [convert_files] in El. destruct (convert_file readable h2 (c1, w1)) as [[c3 w3] [u3|e3]] eqn:E3.
        -- destruct (convert_files readable l (c3, w3)) as [[c4 w4] es4]. discriminate.
        -- injection El as <- <- <- <-. exact E3.
      * injection H as _ ->. destruct (IH _ _ _ _ _ _ _ _ _ El) as (c0 & w0 & c3 & w3 & E1 & E2 & S3). exists c0, w0, c3, w3. split; [exact E1|]. split; [exact E2|exact (same_trans _ _ _ S S3)].
    + destruct es as [|x es]; [discriminate|destruct es; discriminate].
Qed.

(** ** What the clean-up leaves *)
Lemma clean_all f c w c' w' : clean f (c, w) = (c', w') -> f_clean f = All -> c_dir c <> OlcaToOlca -> c_made c' = false.
Proof.
  unfold clean. intros H F D. rewrite F in H. destruct (c_made c) eqn:E; [|now injection H as <- <-].
  destruct (c_dir c); [injection H as <- <-; reflexivity|injection H as <- <-; reflexivity|now elim D].
Qed.
Lemma clean_refs f c w c' w' : clean f (c, w) = (c', w') -> f_clean f <> Nothing -> c_dir c = IlcdToEco -> c_made c = true -> w_refs w' = None.
Proof.
  unfold clean. intros H F D M. rewrite M, D in H. destruct (f_clean f); [now elim F|injection H as <- <-; reflexivity|injection H as <- <-; reflexivity].
Qed.
Lemma fail_left readable f c w c' w' (e : exn) : convert_file readable f (c, w) = (c', w', inr e) -> (forall x, f_end f <> Unreadable x) ->
  exists c1 w1, clean f (c1, w1) = (c', w') /\ c_dir c1 = c_dir c /\ c_version c1 = f_version f /\ (reload (c_version c) (f_version f) = false -> c_made c1 = c_made c).
Proof.
  intros H NU. unfold convert_file in H. destruct (f_end f) as [|x|x b] eqn:Fe; [|now elim (NU x)|].
  all: destruct (make_data _) as [cd wd] eqn:Ed; destruct (make_data_facts _ _ _ _ Ed) as (Sd & Vd & Md & _);
    destruct (make_mapping _ _ _) as [[c2 w2] em] eqn:Em; destruct (make_mapping_facts _ _ _ _ _ _ _ Em) as (Sm & Vm & _);
    assert (Hd : c_dir c2 = c_dir c) by (destruct Sm as [-> _]; destruct Sd as [-> _]; reflexivity);
    assert (Hv : c_version c2 = f_version f) by (rewrite Vm, Vd; reflexivity);
    assert (Hm : reload (c_version c) (f_version f) = false -> c_made c2 = c_made c)
      by (intros R; unfold make_mapping in Em; fold (reload (c_version c) (c_version cd)) in Em; rewrite Vd in Em; cbn [c_version set_version] in Em; rewrite R in Em;
          destruct (c_made cd) eqn:Mc; injection Em as <- _ _; rewrite Mc; exact Md);
    destruct em as [e1|]; [exists c2, w2; injection H as Hc _; auto|];
    destruct (check_refs _ _) as [e1|]; [eexists c2, _; injection H as Hc _; split; [exact Hc|auto]|]; try discriminate.
  eexists c2, _. injection H as Hc _. split; [exact Hc|auto].
Qed.

(** * C30, C204: converters after a failure *)
(** if everything is removed, each file of the same version of the format ends with the same error *)
Theorem C30_session_refuted : forall readable disk ops k es f e l es' f' r v d,
  adds readable disk ops (Convert k) (es ++ [(k, f, inr e)]) -> works_on k ops d -> d <> OlcaToOlca -> f_clean f = All -> (forall x, f_end f <> Unreadable x) -> Forall settings l ->
  adds readable disk (ops ++ Convert k :: l) (Convert k) ((k, f', r) :: es') -> (forall x, f_end f' <> Unreadable x) ->
  f_version f = Some v -> f_version f' = Some v -> r = inr AttributeError /\ es' = [].
Proof.
  intros readable disk ops k es f e l es' f' r v d A (rq & lq & Si & Dr) Dn Fc NU Q A' NU' Vf Vf'.
  destruct (run_of readable disk _ _ _ (k, f, inr e) A) as (c & c' & w' & fs & C & E & M & C1 & W1); [apply in_or_app; right; now left|].
  destruct (tracked readable disk _ _ _ _ Si) as (cc & Cc & T). rewrite C in Cc. injection Cc as <-.
  destruct (events_split _ _ _ _ _ M) as (a' & b' & -> & _ & _ & Eb). destruct b'; [|discriminate]. cbn in E. destruct (run_failed _ _ _ _ _ _ _ _ _ E) as (c0 & w0 & Ef & S).
  destruct (fail_left _ _ _ _ _ _ _ Ef NU) as (c1 & w1 & Cl & D1 & V1 & _).
  assert (Dc : c_dir c1 = d) by (rewrite D1; destruct S as [-> _]; rewrite (proj1 T); exact Dr).
  assert (M' : c_made c' = false) by (apply (clean_all _ _ _ _ _ Cl Fc); congruence).
  destruct (clean_facts _ _ _ _ _ Cl) as (_ & V' & _). rewrite V1, Vf in V'.
  destruct (quiet readable disk l _ _ _ Q C1) as (c2 & C2 & D2 & M2 & V2 & _ & W2). rewrite <- app_assoc in C2, W2. cbn [app] in C2, W2.
  destruct (run_of readable disk _ _ _ (k, f', r) A' (or_introl eq_refl)) as (c3 & c3' & w3' & fs' & C3 & E3 & M3 & _). rewrite C2 in C3. injection C3 as <-.
  destruct fs' as [|[g r'] fs']; [discriminate|]. cbn in M3. injection M3 as <- <- M3.
  assert (G : exists cw, convert_file readable f' (c2, s_classes (session readable disk (ops ++ Convert k :: l))) = (cw, inr AttributeError)).
  { unfold convert_file. destruct (f_end f') as [|x|x b] eqn:Fe; [|now elim (NU' x)|].
    all: destruct (make_data _) as [cd wd] eqn:Ed; destruct (make_data_facts _ _ _ _ Ed) as (_ & Vd & Md & _);
      unfold make_mapping; fold (reload (c_version c2) (c_version cd)); rewrite Vd; cbn [c_version set_version]; rewrite Vf', V2, V', same_reload, Md; cbn [c_made set_version]; rewrite M2, M';
      eexists; reflexivity. }
  destruct G as [[cg wg] G]. destruct (disk (c_input c2)) as [|h fs0] eqn:Ei; [discriminate|]. cbn [convert_files] in E3.
  destruct (convert_file readable h _) as [[ch wh] [uh|eh]] eqn:Eh.
  - destruct (convert_files readable fs0 _) as [[ci wi] ei]. injection E3 as _ _ -> _ _. congruence.
  - injection E3 as _ _ -> <- <-. rewrite Eh in G. injection G as _ _ ->. split; [reflexivity|exact M3].
Qed.
Print Assumptions C30_session_refuted.
(** a new converter works, whatever happened before *)
Theorem C204_new_converter : forall readable disk ops k r f rest p x,
  since_new k (ops ++ [New r]) = Some (r, []) -> default_mapping (r_lists r) = Some p -> readable p = true -> get_mapping (names_of (r_dir r)) (f_version f) = Ok x ->
  disk (r_path r) = f :: rest -> f_end f = Fine -> (r_dir r = IlcdToEco -> f_refs f <> []) ->
  exists u es, adds readable disk (ops ++ [New r]) (Convert k) ((k, f, inl u) :: es) /\ u_map u = Some p /\ u_folder u = r_save r.
Proof.
  intros readable disk ops k r f rest p x Si Dm Rp Gm Di Fe Rf.
  assert (C : nth_error (s_convs (session readable disk (ops ++ [New r]))) k = Some (new r)).
  { rewrite session_app. cbn [do_op s_convs]. destruct (tracked readable disk _ _ _ _ Si) as (c & C & T). rewrite session_app in C. cbn [do_op s_convs] in C.
    rewrite since_app in Si. destruct (since_new k ops) as [[r0 l0]|] eqn:E0; [injection Si as _ Si; destruct l0; discriminate|].
    destruct (nth_error (s_convs (session readable disk ops)) k) as [c0|] eqn:C0.
    - destruct (tracked_inv readable disk _ _ _ C0) as (r1 & l1 & S1 & _). congruence.
    - rewrite nth_error_app2 in C |- * by now apply nth_error_None. destruct (k - length (s_convs (session readable disk ops))) as [|m]; [reflexivity|destruct m; discriminate]. }
  set (w := s_classes (session readable disk (ops ++ [New r]))).
  assert (G : exists cw u, convert_file readable f (new r, w) = (cw, inl u)).
  { unfold convert_file. rewrite Fe. cbn [make_data new set_version c_out c_version c_dir c_hash c_save]. unfold make_mapping. cbn [c_version set_out c_dir c_map c_default c_made].
    change (c_version (set_version (f_version f) (new r))) with (f_version f). change (c_dir (set_version (f_version f) (new r))) with (r_dir r). change (c_map (set_version (f_version f) (new r))) with (@None pystr). change (c_default (set_version (f_version f) (new r))) with (default_mapping (r_lists r)).
    replace (negb (oversion_eqb None (f_version f)) || match f_version f with None => true | Some _ => false end)%bool with true by (destruct (f_version f); reflexivity).
    rewrite Gm, Dm, Rp. unfold set_refs, check_refs, set_out, set_made, set_version, new. cbn [c_dir]. destruct (r_dir r) eqn:D.
    - cbn. do 2 eexists. reflexivity.
    - destruct (f_refs f) as [|y ys]; [now elim Rf|]. cbn. do 2 eexists. reflexivity.
    - cbn. do 2 eexists. reflexivity. }
  destruct G as ([c1 w1] & u & G). pose proof (convert_file_ok _ _ _ _ _ _ _ G) as K. cbn in K.
  destruct (convert_files readable rest (c1, w1)) as [[c2 w2] fs] eqn:E2.
  exists u, (map (fun fr => (k, fst fr, snd fr)) fs). split; [|split].
  - refine (proj2 (adds_convert readable disk _ _ _ (new r) c2 w2 ((f, inl u) :: fs) C _) eq_refl). cbn [c_input new]. rewrite Di. cbn [convert_files]. fold w. rewrite G, E2. reflexivity.
  - rewrite (d_map _ _ _ _ _ _ _ K). pose proof (d_load _ _ _ _ _ _ _ K) as L. cbn [c_version new] in L.
    assert (R : reload None (f_version f) = true) by (destruct (f_version f); reflexivity). rewrite R in L. destruct L as (q & Aq & _ & L). rewrite L.
    unfold asked in Aq. cbn in Aq. rewrite Dm in Aq. now injection Aq as <-.
  - rewrite (d_folder _ _ _ _ _ _ _ K). reflexivity.
Qed.
Print Assumptions C204_new_converter.
(** the file [bad] fails, and the converter is of no more use; another one is *)
Definition fails_once (p : pystr) : list file :=
  if str_eqb p (lit "mixed") then [plain; File v11 [] None (Fails KeyError false) All] else [plain].
Example C204_nonvacuous : exists u e u1 f,
  adds all_readable fails_once [New (eco "mixed")] (Convert 0) [(0, plain, inl u); (0, f, inr e)] /\
  adds all_readable fails_once [New (eco "mixed"); Convert 0] (Convert 0) [(0, plain, inr AttributeError)] /\
  adds all_readable fails_once [New (eco "mixed"); Convert 0; Convert 0; New (eco "other")] (Convert 1) [(1, plain, inl u1)].
Proof. do 4 eexists. split; [vm_compute; reflexivity|]. split; vm_compute; reflexivity. Qed.

(** * C182: processes without exchanges after a failure *)
(** a failure takes the references away: then only a process with exchanges can be converted *)
Theorem C182_failed_partial : forall readable disk ops j es g u0 f e l k es' f' u v,
  adds readable disk ops (Convert j) (es ++ [(j, g, inl u0); (j, f, inr e)]) -> works_on j ops IlcdToEco -> f_clean f <> Nothing ->
  f_version g = Some v -> f_version f = Some v -> Forall settings l ->
  adds readable disk (ops ++ Convert j :: l) (Convert k) ((k, f', inl u) :: es') -> works_on k (ops ++ Convert j :: l) IlcdToEco -> f_refs f' <> [].
Proof.
  intros readable disk ops j es g u0 f e l k es' f' u v A (rq & lq & Si & Dr) Fc Vg Vf Q A' (rk & lk & Sk & Dk) Rf.
  destruct (run_of readable disk _ _ _ (j, f, inr e) A) as (c & c' & w' & fs & C & E & M & C1 & W1); [apply in_or_app; right; right; now left|].
  destruct (tracked readable disk _ _ _ _ Si) as (cc & Cc & T). rewrite C in Cc. injection Cc as <-.
  destruct (events_split _ _ _ _ _ M) as (a' & b' & -> & _ & _ & Eb). destruct b' as [|[h r'] b']; [discriminate|]. cbn in Eb. injection Eb as <- <- Eb. destruct b'; [|discriminate]. cbn in E.
  destruct (run_failed_next _ _ _ _ _ _ _ _ _ _ _ E) as (c0 & w0 & c2 & w2 & Eg & Ef & S).
  pose proof (convert_file_ok _ _ _ _ _ _ _ Eg) as K. cbn in K.
  assert (D2 : c_dir c2 = IlcdToEco) by (destruct (d_settings _ _ _ _ _ _ _ K) as [-> _]; destruct S as [-> _]; rewrite (proj1 T); exact Dr).
  assert (R' : w_refs w' = None).
  { destruct (f_end f) as [|x|x b] eqn:Fe.
    2: { unfold convert_file in Ef. rewrite Fe in Ef. injection Ef as Hc _. exact (clean_refs _ _ _ _ _ Hc Fc D2 (d_made _ _ _ _ _ _ _ K)). }
    all: destruct (fail_left _ _ _ _ _ _ _ Ef) as (c3 & w3 & Cl & D3 & _ & M3); [intros y; congruence|];
      refine (clean_refs _ _ _ _ _ Cl Fc _ _); [congruence|]; rewrite M3; [exact (d_made _ _ _ _ _ _ _ K)|]; rewrite (d_version _ _ _ _ _ _ _ K), Vg, Vf; apply same_reload. }
  destruct (quiet readable disk l _ _ _ Q C1) as (c4 & C4 & _ & _ & _ & _ & W4). rewrite <- app_assoc in C4, W4. cbn [app] in C4, W4.
  destruct (run_of readable disk _ _ _ (k, f', inl u) A' (or_introl eq_refl)) as (c5 & c5' & w5' & fs' & C5 & E5 & M5 & _).
  destruct (tracked readable disk _ _ _ _ Sk) as (ck & Ck & Tk). rewrite C5 in Ck. injection Ck as <-.
  destruct fs' as [|[h r'] fs']; [discriminate|]. cbn in M5. injection M5 as <- <- _. destruct (files_first _ _ _ _ _ _ _ _ _ E5) as (c6 & w6 & E6).
  apply convert_file_ok in E6. destruct (d_refs _ _ _ _ _ _ _ E6) as (R1 & R2 & R3); [rewrite (proj1 Tk); exact Dk|].
  rewrite Rf, W4, W1, R' in R1. congruence.
Qed.
Print Assumptions C182_failed_partial.
