(** Properties C20-C23 and C66: list normalisation and identifier conversion. *)
From Coq Require Import Ascii String List Bool Arith NArith ZArith Lia.
From Verif Require Import PyBase PyBaseFacts PyValues ValidatorsSpec MultiLangModel UtilsModel UtilsSpec UtilsProofs.
Import ListNotations.

(** ** C20 *)
Theorem C20_normalised_list :
  forall x t r, ensure_list x t = Ok r ->
    Forall is_dict r /\ (t = true -> Forall has_text_value r) /\ ensure_list (VList r) t = Ok r.
Proof.
  intros x t r H.
  assert (A : Forall is_dict r /\ (t = true -> Forall has_text_value r)).
  { destruct x as [| | | |s|l|l|[|kv d]|]; cbn [ensure_list] in H; try discriminate.
    - destruct (str_eqb s []) eqn:E; inversion H; subst; [split; constructor|].
      split; [constructor; [|constructor]; do 2 eexists; reflexivity|].
      intros _. constructor; [|constructor]. do 2 eexists. split; [reflexivity|]. split; [reflexivity|].
      cbn. now rewrite E.
    - destruct t.
      + apply keep_spec in H. destruct H as [H1 H2].
        assert (D : Forall is_dict r).
        { apply Forall_forall. intros y Hy. apply H1 in Hy. apply in_map_iff in Hy. destruct Hy as (n & <- & _).
          apply dict_or_text_dict. }
        split; [exact D|]. intros _. rewrite Forall_forall in *. intros y Hy.
        destruct (H2 y Hy) as (tx & E & T). destruct (D y Hy) as (kv & d & ->). do 2 eexists. eauto.
      + inversion H; subst. split; [|discriminate]. apply Forall_forall. intros y Hy.
        apply in_map_iff in Hy. destruct Hy as (n & <- & _). apply dict_or_text_dict.
    - destruct t.
      + apply keep_spec in H. destruct H as [H1 H2].
        assert (D : Forall is_dict r).
        { apply Forall_forall. intros y Hy. apply H1 in Hy. apply in_map_iff in Hy. destruct Hy as (n & <- & _).
          apply dict_or_text_dict. }
        split; [exact D|]. intros _. rewrite Forall_forall in *. intros y Hy.
        destruct (H2 y Hy) as (tx & E & T). destruct (D y Hy) as (kv & d & ->). do 2 eexists. eauto.
      + inversion H; subst. split; [|discriminate]. apply Forall_forall. intros y Hy.
        apply in_map_iff in Hy. destruct Hy as (n & <- & _). apply dict_or_text_dict.
    - inversion H; subst. split; constructor.
    - destruct t.
      + destruct (lookup ktext (kv :: d)) as [tx|] eqn:E; [destruct (truth tx) eqn:T|]; inversion H; subst.
        * split; [constructor; [|constructor]; do 2 eexists; reflexivity|].
          intros _. constructor; [|constructor]. exists (kv :: d), tx. auto.
        * split; constructor.
        * split; constructor.
      + inversion H; subst. split; [constructor; [|constructor]; do 2 eexists; reflexivity|discriminate]. }
  destruct A as [A1 A2]. split; [exact A1|]. split; [exact A2|].
  assert (M : map dict_or_text r = r).
  { clear -A1. induction A1; cbn [map]; auto. rewrite dict_or_text_id by assumption. now rewrite IHA1. }
  cbn [ensure_list]. rewrite M. destruct t; [|reflexivity]. apply keep_idem.
  eapply Forall_impl; [|exact (A2 eq_refl)]. intros y (d & tx & -> & E & T). exists tx. auto.
Qed.
Print Assumptions C20_normalised_list.

(** Nothing is lost or reordered: a list keeps its members, plain values becoming English texts. *)
Theorem C20_members_kept :
  forall l, exists r, ensure_list (VList l) false = Ok r /\
    Forall2 (fun n m => (is_dict n -> m = n) /\
                        (~ is_dict n -> m = VDict [(lit "@lang", VStr (lit "en")); (lit "#text", n)])) l r.
Proof.
  intros l. exists (map dict_or_text l). split; [reflexivity|].
  induction l as [|n l IH]; constructor; auto. split.
  - apply dict_or_text_id.
  - destruct n as [| | | | | | |[|kv d]|]; try reflexivity. intros H. exfalso. apply H. do 2 eexists. reflexivity.
Qed.
Print Assumptions C20_members_kept.

Example C20_nonvacuous :
  ensure_list (VList [VStr (lit "a"); VDict [(ktext, VStr [])]; VDict [(ktext, VStr (lit "b"))]]) true
  = Ok [VDict [(klang, VStr (lit "en")); (ktext, VStr (lit "a"))]; VDict [(ktext, VStr (lit "b"))]].
Proof. reflexivity. Qed.

(** ** C66 *)
(** In a list every member must have a text entry; then exactly the non-empty ones are kept. *)
Fixpoint with_text (l : list pyval) : list pyval :=
  match l with
  | [] => []
  | n :: l' => match lookup ktext (dict_of n) with
               | Some t => if truth t then n :: with_text l' else with_text l'
               | None => with_text l'
               end
  end.
Theorem C66_required_text_partial :
  forall l, Forall is_dict l ->
    (Forall (fun n => lookup ktext (dict_of n) <> None) l ->
       ensure_list (VList l) true = Ok (with_text l)) /\
    (~ Forall (fun n => lookup ktext (dict_of n) <> None) l -> ensure_list (VList l) true = Err KeyError).
Proof.
  intros l D. assert (M : map dict_or_text l = l).
  { clear -D. induction D; cbn [map]; auto. rewrite dict_or_text_id by assumption. now rewrite IHD. }
  cbn [ensure_list]. rewrite M. clear. split.
  - induction 1 as [|n l H _ IH]; cbn [keep_texts with_text]; auto.
    destruct (lookup ktext (dict_of n)); [|congruence]. rewrite IH. reflexivity.
  - induction l as [|n l IH]; intros H; [exfalso; apply H; constructor|]. cbn [keep_texts].
    destruct (lookup ktext (dict_of n)) as [t|] eqn:E; [|reflexivity].
    rewrite IH; [reflexivity|]. intros F. apply H. constructor; [congruence|exact F].
Qed.
Print Assumptions C66_required_text_partial.

Theorem C66_required_text_refuted :
  let n := VDict [(klang, VStr (lit "en"))] in
  ensure_list n true = Ok [] /\ ensure_list (VList [n]) true = Err KeyError.
Proof. split; reflexivity. Qed.
Print Assumptions C66_required_text_refuted.
Example C66_nonvacuous :
  Forall (fun n => lookup ktext (dict_of n) <> None) [VDict [(ktext, VStr (lit "b"))]].
Proof. constructor; [discriminate|constructor]. Qed.

(** ** C21 *)
Theorem C21_conversion_reversible :
  forall aes key u, byte_valued aes -> is_uuid u ->
    (exists w, uuid_from_uuid aes u key (lit "flow_conversion_1") = Ok w /\
               uuid_from_uuid aes w key (lit "flow_conversion_2") = Ok u) /\
    (exists w, uuid_from_uuid aes u key (lit "flow_conversion_2") = Ok w /\
               uuid_from_uuid aes w key (lit "flow_conversion_1") = Ok u).
Proof.
  intros aes key u B H. pose proof (lowered_uuid u H) as L. split.
  - destruct (round_trip_any aes B u key (lit "flow_conversion_1") (lit "flow_conversion_2")) as (w & W1 & W2).
    + left; split; reflexivity.
    + now apply uuid_any.
    + exists w. rewrite L in W2. auto.
  - destruct (round_trip_any aes B u key (lit "flow_conversion_2") (lit "flow_conversion_1")) as (w & W1 & W2).
    + right; split; reflexivity.
    + now apply uuid_any.
    + exists w. rewrite L in W2. auto.
Qed.
Print Assumptions C21_conversion_reversible.

(** Identifiers in either case come back in lower case, but for the version and variant digits. *)
Theorem C21_either_case :
  forall aes key u, byte_valued aes -> anyuuid u ->
    exists w, uuid_from_uuid aes u key (lit "flow_conversion_1") = Ok w /\
              uuid_from_uuid aes w key (lit "flow_conversion_2") = Ok (lowered u).
Proof. intros aes key u B H. apply round_trip_any; auto. left. split; reflexivity. Qed.
Print Assumptions C21_either_case.

Definition toy_aes (k r : list N) : N := ((nth 0 r 0 * 7 + nth 15 r 0 * 3 + nth 0 k 0) mod 256)%N.
Lemma toy_bytes : byte_valued toy_aes.
Proof. intros k r. apply N.mod_lt. discriminate. Qed.
Example C21_nonvacuous :
  uuid_from_uuid toy_aes (lit "e6cc5b9b-5efb-44e7-bb31-b239fc135928") lavoisier_key (lit "flow_conversion_1")
  <> Ok (lit "e6cc5b9b-5efb-44e7-bb31-b239fc135928") /\
  is_uuid (lit "e6cc5b9b-5efb-44e7-bb31-b239fc135928") /\ byte_valued toy_aes.
Proof.
  split; [vm_compute; discriminate|]. split; [|exact toy_bytes].
  exists (lit "e6cc5b9b"), (lit "5efb"), (lit "44e7"), (lit "bb31"), (lit "b239fc135928").
  split; [reflexivity|].
  assert (G : forall s n, length s = n -> forallb (fun c => (N.leb 48 c && N.leb c 57) || (N.leb 97 c && N.leb c 102))%bool s = true ->
                hexblock n s).
  { intros s n L F. split; auto. rewrite forallb_forall in F. apply Forall_forall. intros c Hc. apply F in Hc.
    unfold hexchar. apply orb_true_iff in Hc. rewrite !andb_true_iff, !N.leb_le in Hc. tauto. }
  do 4 (split; [apply G; reflexivity|]). apply G; reflexivity.
Qed.

(** ** C22 *)
Theorem C22_identifiers_never_merged :
  forall aes key ty u u', byte_valued aes -> direction ty -> is_uuid u -> is_uuid u' ->
    uuid_from_uuid aes u key ty = uuid_from_uuid aes u' key ty -> u = u'.
Proof.
  intros aes key ty u u' B D H H' E.
  assert (X : exists ty', opposite ty ty').
  { destruct D as [->| ->]; eexists; [left|right]; split; reflexivity. }
  destruct X as [ty' O].
  destruct (round_trip_any aes B u key ty ty' O (uuid_any u H)) as (w & W1 & W2).
  destruct (round_trip_any aes B u' key ty ty' O (uuid_any u' H')) as (w' & W1' & W2').
  rewrite (lowered_uuid u H) in W2. rewrite (lowered_uuid u' H') in W2'. congruence.
Qed.
Print Assumptions C22_identifiers_never_merged.
(** Only different spellings of an identifier are merged. *)
Theorem C22_only_spellings_merged :
  forall aes key ty u u', byte_valued aes -> direction ty -> anyuuid u -> anyuuid u' ->
    (uuid_from_uuid aes u key ty = uuid_from_uuid aes u' key ty <-> lowered u = lowered u').
Proof.
  intros aes key ty u u' B D H H'.
  assert (X : exists ty', opposite ty ty').
  { destruct D as [->| ->]; eexists; [left|right]; split; reflexivity. }
  destruct X as [ty' O].
  destruct (round_trip_any aes B u key ty ty' O H) as (w & W1 & W2).
  destruct (round_trip_any aes B u' key ty ty' O H') as (w' & W1' & W2').
  split; intros E; [congruence|]. clear W2 W2' w w' W1 W1'.
  apply anyuuid_fmt in H. destruct H as (v & w & n & -> & Hv & Hw & Hn & Ln).
  apply anyuuid_fmt in H'. destruct H' as (v' & w' & n' & -> & Hv' & Hw' & Hn' & Ln').
  destruct (conv_any aes v w n key ty D Hv Hw Hn Ln) as (d & E1 & E2 & E3 & E4 & ->).
  destruct (conv_any aes v' w' n' key ty D Hv' Hw' Hn' Ln') as (d' & F1 & F2 & F3 & F4 & ->).
  rewrite !lowered_fmt in E by assumption.
  assert (I : v = v' /\ w = w' /\ map lower n = map lower n').
  { apply fmt_inj; rewrite ?map_length; auto. }
  destruct I as (-> & -> & I). rewrite <- E4, <- F4 in I.
  assert (d = d').
  { pose proof (unhex_hex d E2) as X1. pose proof (unhex_hex d' F2) as X2. rewrite I in X1. congruence. }
  now subst.
Qed.
Print Assumptions C22_only_spellings_merged.
Example C22_nonvacuous : direction (lit "flow_conversion_1") /\ direction (lit "flow_conversion_2").
Proof. split; [left|right]; reflexivity. Qed.

(** ** C23 *)
Theorem C23_converted_identifier_shape :
  forall aes key ty u, byte_valued aes -> direction ty -> is_uuid u ->
    exists w, uuid_from_uuid aes u key ty = Ok w /\ is_uuid w /\
      version_digit w = version_digit u /\ variant_digit w = variant_digit u.
Proof. intros aes key ty u B D H. now apply shape. Qed.
Print Assumptions C23_converted_identifier_shape.
Example C23_nonvacuous :
  version_digit (lit "e6cc5b9b-5efb-44e7-bb31-b239fc135928") = Some (ch "4") /\
  variant_digit (lit "e6cc5b9b-5efb-44e7-bb31-b239fc135928") = Some (ch "b").
Proof. split; reflexivity. Qed.
