(** Lemmas on the broker handshake and on dialling. *)
From stdpp Require Import gmap list sorting.
From Coq Require Import NArith Lia.
From Verif Require Import IdModel IdProofs MsgModel DiscModel DiscSpec DiscProofs3 AuthModel AuthSpec AuthProofs ShakeModel DialModel.

Lemma age_ok_recent debug now ts : (ts <= now <= ts + 5)%N -> age_ok debug now ts = true.
Proof.
  destruct debug; [by rewrite age_ok_debug|]. intros H. unfold age_ok. apply N.leb_le.
  replace (now + 2 ^ 64 - ts)%N with ((now - ts) + 1 * 2 ^ 64)%N by lia.
  rewrite N.mod_add by lia. rewrite N.mod_small by lia. lia.
Qed.

Section shake.
Context {pk : Type} `{EqDecision pk}.
Variable pk_deser : bytes -> option pk.
Variable verify : pk -> bytes -> bytes -> bool.
Variable debug : bool.
Variable our_pk : pk.
Variable our_key : bytes.
Variable sign : bytes -> bytes.
Notation h_step := (h_step pk_deser verify debug our_pk our_key sign).
Notation h_run := (h_run pk_deser verify debug our_pk our_key sign).
Notation h_sent := (h_sent pk_deser verify debug our_pk our_key sign).
Notation good_request := (good_request pk_deser verify debug).
Notation pair_step := (pair_step pk_deser verify debug our_pk our_key sign).
Notation pair_run := (pair_run pk_deser verify debug our_pk our_key sign).
Notation effective_from := (effective_from pk_deser verify debug our_pk our_key sign).
Notation effective := (effective pk_deser verify debug our_pk our_key sign).
Notation move := (move pk_deser verify debug our_pk our_key sign).
Notation verify_broker := (verify_broker pk_deser verify debug our_pk).

Lemma h_run_snoc id s es e : h_run id s (es ++ [e]) = (h_step id (h_run id s es) e).1.
Proof. unfold ShakeModel.h_run. by rewrite fold_left_app. Qed.

Lemma verify_broker_spec id now m : (verify_broker id now m).2 = true <-> exists key, good_request ns_broker now our_pk key m.
Proof.
  unfold AuthModel.verify_broker. split.
  - destruct (check_request _ _ _ _ _ _) as [[p key]|] eqn:E; [|done]. case_decide as Hp; [|done]. subst p. intros _. exists key. by apply check_request_spec.
  - intros [key Hg]. apply check_request_spec in Hg. rewrite Hg. by rewrite decide_True.
Qed.

(** Having verified the peer, as far as the state tells. *)
Definition verified_in (es : list hev) : Prop := exists now m key, In (HRecvE now m) es /\ good_request ns_broker now our_pk key m.
(** Having been told the peer's identifier. *)
Definition told_in (es : list hev) (peer : bid) : Prop := exists now m, In (HRecvE now m) es /\ read_response m = Some peer.
Definition h_past (es : list hev) (s : hstate) : Prop :=
  match s with
  | HRequest v | HResponse v => v = true -> verified_in es
  | HVerify (Some peer) => told_in es peer
  | HVerify None => True
  | HDone peer => verified_in es /\ told_in es peer
  | HFailed => True
  end.
Lemma verified_app es e : verified_in es -> verified_in (es ++ [e]).
Proof. intros (now & m & key & Hin & ?). exists now, m, key. rewrite in_app_iff. auto. Qed.
Lemma told_app es e p : told_in es p -> told_in (es ++ [e]) p.
Proof. intros (now & m & Hin & ?). exists now, m. rewrite in_app_iff. auto. Qed.
Lemma h_past_app es e s : h_past es s -> h_past (es ++ [e]) s.
Proof.
  destruct s as [v|v|[p|]|p|]; cbn; try tauto.
  - intros H Hv. by apply verified_app, H.
  - intros H Hv. by apply verified_app, H.
  - apply told_app.
  - intros [? ?]. split; [by apply verified_app|by apply told_app].
Qed.
Lemma h_past_run id s0 es : s0 = h_outbound \/ s0 = h_inbound -> h_past es (h_run id s0 es).
Proof.
  intros H0. induction es as [|e es IH] using rev_ind; [by destruct H0 as [-> | ->]|].
  rewrite h_run_snoc. destruct e as [now|now m]; cbn [ShakeModel.h_step].
  - destruct (h_run id s0 es) as [v|v|p|p|]; cbn [h_send fst]; try by apply h_past_app.
  - destruct (h_run id s0 es) as [v|v|peer|p|]; cbn [h_recv fst]; try by apply h_past_app.
    + destruct (read_response m) as [p|] eqn:Er; [|done]. cbn [fst].
      assert (Ht : told_in (es ++ [HRecvE now m]) p) by (exists now, m; rewrite in_app_iff; split; [right; by left|done]).
      destruct v; cbn in *; [split; [by apply verified_app, IH|done]|done].
    + destruct (verify_broker id now m) as [answer ok] eqn:Ev. cbn [fst]. destruct ok; [|done].
      assert (Hv : verified_in (es ++ [HRecvE now m])).
      { destruct (verify_broker_spec id now m) as [Hs _]. rewrite Ev in Hs. destruct (Hs eq_refl) as [key Hg].
        exists now, m, key. rewrite in_app_iff. split; [right; by left|done]. }
      destruct peer as [p|]; cbn in *; [split; [done|by apply told_app]|done].
Qed.

(** ** Reflection *)
Hypothesis Hkey : pk_deser our_key = Some our_pk.
Hypothesis Hsign : forall ts, verify our_pk (signed_bytes ns_broker ts) (sign (signed_bytes ns_broker ts)) = true.

Lemma own_request_good now ts : (ts <= now <= ts + 5)%N ->
  check_request pk_deser verify debug ns_broker now (MAuthWithKey ts our_key (sign (signed_bytes ns_broker ts))) = Some (our_pk, our_key).
Proof. intros Ht. unfold check_request. rewrite Hkey, Hsign, (age_ok_recent debug now ts Ht). done. Qed.
Lemma own_request_verified id now ts : (ts <= now <= ts + 5)%N ->
  verify_broker id now (MAuthWithKey ts our_key (sign (signed_bytes ns_broker ts))) = (MAuthResponse 1 (bid_print id), true).
Proof. intros Ht. unfold AuthModel.verify_broker. rewrite own_request_good by done. by rewrite decide_True. Qed.
Lemma read_own_response id : id_ok id -> read_response (MAuthResponse 1 (bid_print id)) = Some id.
Proof. intros [? ?]. cbn. by apply bid_roundtrip. Qed.

Lemma reflection id peer now : id_ok peer ->
  exists request, h_sent id h_outbound [HSendE now] = [request]
    /\ h_run id h_outbound [HSendE now; HRecvE now (MAuthResponse 1 (bid_print peer)); HRecvE now request] = HDone peer.
Proof.
  intros Hp. eexists. split; [reflexivity|]. unfold ShakeModel.h_run. cbn [fold_left ShakeModel.h_step h_send h_outbound fst].
  cbn [h_recv fst]. rewrite read_own_response by done. cbn [fst]. cbn [h_recv]. rewrite own_request_verified by lia. done.
Qed.

(** ** Two honest brokers *)
Section honest.
Variable id_out id_in : bid.
Hypothesis Hout : id_ok id_out.
Hypothesis Hin : id_ok id_in.
Notation request ts := (MAuthWithKey ts our_key (sign (signed_bytes ns_broker ts))).
Notation response id := (MAuthResponse 1 (bid_print id)).

(** The seven kinds of reachable states; [t] is a bound on clock readings so far. The
    number counts the moves left. *)
Inductive shape (t0 t : N) : nat -> pair -> Prop :=
  | S6 : shape t0 t 6 (Pair (HRequest false) (HVerify None) [] [])
  | S5 ts : (t0 <= ts <= t)%N -> shape t0 t 5 (Pair (HResponse false) (HVerify None) [] [request ts])
  | S4 : shape t0 t 4 (Pair (HResponse false) (HRequest true) [response id_in] [])
  | S3a ts : (t0 <= ts <= t)%N -> shape t0 t 3 (Pair (HResponse false) (HResponse true) [response id_in; request ts] [])
  | S3b : shape t0 t 3 (Pair (HVerify (Some id_in)) (HRequest true) [] [])
  | S2 ts : (t0 <= ts <= t)%N -> shape t0 t 2 (Pair (HVerify (Some id_in)) (HResponse true) [request ts] [])
  | S1 : shape t0 t 1 (Pair (HDone id_in) (HResponse true) [] [response id_out])
  | S0 : shape t0 t 0 (Pair (HDone id_in) (HDone id_out) [] []).

Lemma shape_mono t0 t t' k st : (t <= t')%N -> shape t0 t k st -> shape t0 t' k st.
Proof. intros Ht Hs. inversion Hs; constructor; lia. Qed.

Lemma shape_step t0 t k st side now :
  shape t0 t k st -> (t0 <= t)%N -> (t <= now)%N -> (now <= t0 + 5)%N ->
  if pair_can st side then exists k', k = S k' /\ shape t0 now k' (pair_step id_out id_in st (side, now))
  else pair_step id_out id_in st (side, now) = st.
Proof.
  intros Hs H0 Ht Hn. inversion Hs; subst; destruct side; cbn [pair_can p_out p_in to_out to_in can_move]; try reflexivity;
    unfold ShakeModel.pair_step; cbn [fst snd p_out p_in to_out to_in]; unfold ShakeModel.move; cbn [ShakeModel.h_step h_send h_recv fst snd option_list app];
    rewrite ?read_own_response by done; rewrite ?own_request_verified by lia; cbn [fst snd option_list app]; eexists; (split; [reflexivity|]).
  - constructor; lia.
  - constructor.
  - constructor.
  - constructor; lia.
  - constructor; lia.
  - constructor; lia.
  - constructor.
  - constructor.
Qed.

Lemma effective_shape t0 t k st evs :
  shape t0 t k st -> (t0 <= t)%N ->
  StronglySorted N.le (t :: map snd evs) -> Forall (fun ev => (ev.2 <= t0 + 5)%N) evs ->
  exists t' k', k = effective_from id_out id_in st evs + k' /\ shape t0 t' k' (fold_left (pair_step id_out id_in) evs st).
Proof.
  revert t k st. induction evs as [|[side now] evs IH]; intros t k st Hs H0 Hsort Hle.
  - exists t, k. by split.
  - cbn [map snd] in Hsort. inversion Hsort as [|? ? Hsort' Hall]; subst. inversion Hall; subst. inversion Hle as [|? ? Hn Hle']; subst. cbn [snd] in Hn.
    pose proof (shape_step t0 t k st side now Hs H0 H2 Hn) as Hstep. cbn [ShakeModel.effective_from fold_left fst].
    destruct (pair_can st side).
    + destruct Hstep as (k1 & -> & Hs1). destruct (IH now k1 _ Hs1) as (t' & k' & -> & Hs'); [lia|done|done|]. exists t', k'. split; [lia|done].
    + rewrite Hstep. apply (shape_mono t0 t now) in Hs; [|done]. destruct (IH now k st Hs) as (t' & k' & -> & Hs'); [lia|done|done|].
      exists t', k'. split; [lia|done].
Qed.

Lemma handshake evs t0 :
  StronglySorted N.le (t0 :: map snd evs) -> Forall (fun ev => (ev.2 <= t0 + 5)%N) evs ->
  let st := pair_run id_out id_in evs in
  effective id_out id_in evs <= 6
  /\ (effective id_out id_in evs = 6 -> st = Pair (HDone id_in) (HDone id_out) [] [])
  /\ (effective id_out id_in evs < 6 -> exists side, pair_can st side = true)
  /\ p_out st <> HFailed /\ p_in st <> HFailed.
Proof.
  intros Hs Hle. cbn zeta. destruct (effective_shape t0 t0 6 pair0 evs) as (t' & k' & Hk & Hsh); [constructor|lia|done|done|].
  fold (pair_run id_out id_in evs) in Hsh. fold (effective id_out id_in evs) in Hk.
  split; [lia|]. split; [|split].
  - intros He. assert (k' = 0) as -> by lia. by inversion Hsh.
  - intros He. inversion Hsh; subst; try (exists true; reflexivity); try (exists false; reflexivity). lia.
  - inversion Hsh; done.
Qed.
End honest.
End shake.

(** ** Dialling *)
Lemma dials_spec self others connected b :
  b ∈ dials self others connected <-> b ∈ others /\ b ∉ connected /\ bid_gtb self b = false.
Proof.
  unfold dials. rewrite elem_of_filter, elem_of_difference, bid_geb_gtb, negb_true_iff. tauto.
Qed.
Lemma dials_one a b othersA connA othersB connB :
  a <> b -> b ∈ othersA -> b ∉ connA -> a ∈ othersB -> a ∉ connB ->
  (b ∈ dials a othersA connA /\ a ∉ dials b othersB connB) \/ (a ∈ dials b othersB connB /\ b ∉ dials a othersA connA).
Proof.
  intros Hne H1 H2 H3 H4. rewrite !dials_spec.
  destruct (bid_gtb a b) eqn:E1, (bid_gtb b a) eqn:E2.
  - apply bid_gtb_asym in E1. congruence.
  - right. split; [done|]. intros (_ & _ & ?). done.
  - left. split; [done|]. intros (_ & _ & ?). done.
  - destruct (bid_gtb_total a b Hne); congruence.
Qed.
