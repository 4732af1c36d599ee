(** Properties of authentication: C29, C30 (at the marshal), C31–C35, C56. Statements only; the
    proofs are in AuthProofs.v and ShakeProofs.v. *)
From stdpp Require Import gmap list sorting.
From Coq Require Import NArith Lia.
From Verif Require Import IdModel MsgModel DiscModel DiscSpec DiscProofs3 AuthModel AuthSpec AuthProofs ShakeModel ShakeProofs DialModel.

(** A toy signature scheme for the examples: the public key is the first byte (like
    arkworks' deserialisation it ignores what follows), a signature is the key and the message. *)
Definition ex_pk_deser (k : bytes) : option N := match k with x :: _ => Some x | [] => None end.
Definition ex_pk_ser (p : N) : option bytes := Some [p].
Definition ex_verify (p : N) (m s : bytes) : bool := bool_decide (s = p :: m).
Definition ex_sign (p : N) (m : bytes) : bytes := p :: m.
Definition ex_broker : bid := Bid [49]%N [50]%N.
Definition ex_broker2 : bid := Bid [51]%N [52]%N.
Definition ex_request (key : bytes) (p ts : N) : message := MAuthWithKey ts key (ex_sign p (signed_bytes ns_user ts)).
(** A user authenticates to the marshal at time 1000 and then to the broker. *)
Definition ex_login (h : N) (key : bytes) (p permit : N) : list aev :=
  [AMarshalRecv h 1000 (ex_request key p 998); AMarshalWhitelist h; AMarshalPlace h 1001; AMarshalIssue h 1001 permit;
   ABrokerRecv h ex_broker (MAuthWithPermit permit); AClean 1002; ABrokerValidate h 1002; ABrokerTopics h (MSubscribe [1; 2])]%N.
Definition ex_pre : list aev := [AHeartbeat 990 990 ex_broker 0 60; ASetWhitelist [[7]]]%N.
Notation ex_admits := (a_admits ex_pk_deser ex_pk_ser ex_verify false false).

(** * C29 *)
(** Whenever broker [b] registers key [k] ([e] is then the arrival of the list of topics): earlier a permit [p] was presented to [b] and
    validated; earlier still the marshal issued [p] on a connection [h] on which it had received a valid fresh
    request for [k] and which had passed the whitelist; and it issued it for broker [b] unless permits are global.
    The permit was at most thirty seconds old: with Redis when it was validated, with SQLite at
    every clean-up in between (each validation begins with one). *)
Theorem C29_admission_requires_authentication :
  forall pk (D : EqDecision pk) (pk_deser : bytes -> option pk) pk_ser verify debug global redis es e b k topics,
  a_admits pk_deser pk_ser verify debug global redis es e = Some (b, k, topics) ->
  exists es1 hb now p es2, es = es1 ++ ABrokerValidate hb now :: es2
    /\ In (ABrokerRecv hb b (MAuthWithPermit p)) es1
    /\ e = ABrokerTopics hb (MSubscribe topics)
    /\ d_answer global redis (w_disc (a_run pk_deser pk_ser verify debug global redis es1)) (DTake now b p) = Some k
    /\ exists h now0 es3 es4 b0, es1 = es3 ++ AMarshalIssue h now0 p :: es4
      /\ allowed pk_deser pk_ser verify debug global redis es3 h k
      /\ w_marshal (a_run pk_deser pk_ser verify debug global redis es3) !! h = Some (MPlaced k b0)
      /\ (global = true \/ bid_print b0 = bid_print b)
      /\ (if redis then (now < now0 + 30)%N else forall t, In (AClean t) es4 -> (t <= now0 + 30)%N).
Proof. intros pk D. exact (admitted_past (pk := pk)). Qed.
Print Assumptions C29_admission_requires_authentication.
Example C29_admission_nonvacuous :
  ex_admits false (ex_pre ++ take 7 (ex_login 1 [7] 7 55)%N) (ABrokerTopics 1 (MSubscribe [1; 2]))%N = Some (ex_broker, [7], [1; 2])%N
  /\ ex_admits true (ex_pre ++ take 7 (ex_login 1 [7] 7 55)%N) (ABrokerTopics 1 (MSubscribe [1; 2]))%N = Some (ex_broker, [7], [1; 2])%N
  (* not whitelisted; wrong signature *)
  /\ ex_admits false (ex_pre ++ take 7 (ex_login 1 [8] 8 55)%N) (ABrokerTopics 1 (MSubscribe [1; 2]))%N = None
  /\ ex_admits false (ex_pre ++ take 7 (ex_login 1 [7] 8 55)%N) (ABrokerTopics 1 (MSubscribe [1; 2]))%N = None.
Proof. by vm_compute. Qed.

(** No more registrations of a key than marshal connections that were granted a permit for it. *)
Theorem C29_admissions_bounded :
  forall pk (D : EqDecision pk) (pk_deser : bytes -> option pk) pk_ser verify debug global redis es key,
  exists hs, NoDup hs /\ length hs = admissions pk_deser pk_ser verify debug global redis key es
    /\ forall h, h ∈ hs -> granted pk_deser pk_ser verify debug global redis es h key.
Proof. intros pk D. exact (admissions_granted (pk := pk)). Qed.
Print Assumptions C29_admissions_bounded.
Example C29_admissions_bounded_nonvacuous :
  admissions ex_pk_deser ex_pk_ser ex_verify false false false [7]%N
    (ex_pre ++ ex_login 1 [7] 7 55 ++ ex_login 2 [7] 7 56)%N = 2
  (* presenting the permit again on other connections does not help *)
  /\ admissions ex_pk_deser ex_pk_ser ex_verify false false false [7]%N
    (ex_pre ++ ex_login 1 [7] 7 55 ++ [ABrokerRecv 3 ex_broker (MAuthWithPermit 55); ABrokerValidate 3 1002; ABrokerTopics 3 (MSubscribe [])])%N = 1.
Proof. by vm_compute. Qed.

(** Brokers register the bytes the user sent, not the canonical form of the key. With a codec that accepts several encodings of a
    key, its owner is registered under several names at once, so that "one connection per key" does not bound them.
    (arkworks' [deserialize_uncompressed] of a slice reads a prefix of it.) *)
Theorem C29_one_key_one_name_refuted : exists es1 e1 es2 e2 k1 k2,
  ex_admits false es1 e1 = Some (ex_broker, k1, [1; 2])%N
  /\ ex_admits false (es1 ++ e1 :: es2) e2 = Some (ex_broker, k2, [1; 2])%N
  /\ k1 <> k2 /\ ex_pk_deser k1 = ex_pk_deser k2.
Proof.
  exists (ex_pre ++ take 7 (ex_login 1 [7] 7 55))%N, (ABrokerTopics 1 (MSubscribe [1; 2]))%N,
    (take 7 (ex_login 2 [7; 0] 7 56))%N, (ABrokerTopics 2 (MSubscribe [1; 2]))%N, [7]%N, [7; 0]%N.
  by vm_compute.
Qed.
Print Assumptions C29_one_key_one_name_refuted.

(** * C30, at the marshal *)
(** Every permit in the store was issued on a connection whose key, in canonical form, passed the whitelist. *)
Theorem C30_permits_only_for_whitelisted :
  forall pk (D : EqDecision pk) (pk_deser : bytes -> option pk) pk_ser verify debug global redis es now b p ttl k,
  In (DIssue now b p ttl k) (w_disc (a_run pk_deser pk_ser verify debug global redis es)) ->
  exists h es1 es2 key canon es3 q, es = es1 ++ AMarshalWhitelist h :: es2 ++ AMarshalIssue h now p :: es3
    /\ k = key /\ pk_deser key = Some q /\ pk_ser q = Some canon
    /\ d_whitelisted global redis (w_disc (a_run pk_deser pk_ser verify debug global redis es1)) canon = true.
Proof.
  intros pk D pk_deser pk_ser verify debug global redis es now b p ttl k Hin.
  apply issue_origin in Hin as (h & es1 & es2 & -> & (es3 & canon & es4 & -> & (es5 & n & m & q & es6 & -> & _ & (ts & sig & _ & Hd & _) & Hs) & Hw) & _).
  exists h, (es5 ++ AMarshalRecv h n m :: es6), es4, k, canon, es2, q. split; [by rewrite <- !app_assoc|]. done.
Qed.
Print Assumptions C30_permits_only_for_whitelisted.
Example C30_permits_nonvacuous :
  In (DIssue 1001 ex_broker 55 30 [7])%N (w_disc (a_run ex_pk_deser ex_pk_ser ex_verify false false false (ex_pre ++ ex_login 1 [7] 7 55)%N)).
Proof. vm_compute. auto 10. Qed.

(** * C31 *)
(** Both build modes, every clock from five seconds after the epoch on. *)
Theorem C31_window : forall debug now ts,
  (5 <= now < 2 ^ 64)%N -> (ts < 2 ^ 64)%N ->
  age_ok debug now ts = true <-> (ts <= now <= ts + 5)%N.
Proof. intros [] now ts Hn Ht; [apply age_ok_debug|by apply age_ok_release]. Qed.
Print Assumptions C31_window.
Example C31_window_nonvacuous :
  age_ok false 1000 1000 = true /\ age_ok false 1000 995 = true /\ age_ok false 1000 994 = false /\ age_ok false 1000 1001 = false
  /\ age_ok true 1000 1001 = false.
Proof. by vm_compute. Qed.
(** With overflow checks, every clock. *)
Theorem C31_window_checked : forall now ts, age_ok true now ts = true <-> (ts <= now <= ts + 5)%N.
Proof. exact age_ok_debug. Qed.
Print Assumptions C31_window_checked.
(** Without them, the subtraction wraps: with a clock before the fifth second of 1970, the
    largest timestamps are accepted. *)
Theorem C31_wraparound_refuted : exists now ts,
  (now < 2 ^ 64)%N /\ (ts < 2 ^ 64)%N /\ (now < ts)%N /\ age_ok false now ts = true.
Proof. exists 0%N, (2 ^ 64 - 1)%N. by vm_compute. Qed.
Print Assumptions C31_wraparound_refuted.

(** * C32 *)
Theorem C32_namespaces_disjoint : forall t1 t2, signed_bytes ns_user t1 <> signed_bytes ns_broker t2.
Proof.
  intros t1 t2 Heq. apply (f_equal length) in Heq. unfold signed_bytes, le8 in Heq. rewrite !app_length, !le_bytes_length in Heq. done.
Qed.
Print Assumptions C32_namespaces_disjoint.
Theorem C32_timestamp_determined : forall ns t1 t2,
  (t1 < 2 ^ 64)%N -> (t2 < 2 ^ 64)%N -> signed_bytes ns t1 = signed_bytes ns t2 -> t1 = t2.
Proof. intros ns t1 t2 H1 H2 Heq. apply app_inv_head in Heq. by apply le8_inj. Qed.
Print Assumptions C32_timestamp_determined.
Example C32_nonvacuous : signed_bytes ns_user 258 = ns_user ++ [2; 1; 0; 0; 0; 0; 0; 0]%N /\ length ns_user = 30 /\ length ns_broker = 31.
Proof. by vm_compute. Qed.

(** * C33 *)
(** Whatever it receives, a broker whose handshake completes, on either side, has received a request with its own public key, a valid
    signature under it in the broker namespace and a fresh timestamp, and was told the peer's identifier. *)
Theorem C33_handshake_requires_broker_key :
  forall pk (D : EqDecision pk) (pk_deser : bytes -> option pk) verify debug our_pk our_key sign id s0 es peer,
  s0 = h_outbound \/ s0 = h_inbound ->
  h_run pk_deser verify debug our_pk our_key sign id s0 es = HDone peer ->
  (exists now key ts sig, In (HRecvE now (MAuthWithKey ts key sig)) es
     /\ pk_deser key = Some our_pk /\ verify our_pk (signed_bytes ns_broker ts) sig = true /\ age_ok debug now ts = true)
  /\ (exists now context, In (HRecvE now (MAuthResponse 1 context)) es /\ bid_parse context = Some peer).
Proof.
  intros pk D pk_deser verify debug our_pk our_key sign id s0 es peer H0 Hrun.
  pose proof (h_past_run pk_deser verify debug our_pk our_key sign id s0 es H0) as Hp. rewrite Hrun in Hp.
  destruct Hp as [(now & m & key & Hin & ts & sig & -> & Hd & Hv & Ha) (now' & m' & Hin' & Hr)]. split.
  - exists now, key, ts, sig. done.
  - destruct m'; try done. cbn in Hr. destruct (N.eqb_spec permit 1) as [->|]; [|done]. by exists now', context.
Qed.
Print Assumptions C33_handshake_requires_broker_key.
Definition ex_bkey : bytes := [9]%N.
Notation ex_hrun := (h_run ex_pk_deser ex_verify false 9%N ex_bkey (ex_sign 9)).
Example C33_nonvacuous :
  ex_hrun ex_broker h_inbound
    [HRecvE 1000 (MAuthWithKey 999 ex_bkey (ex_sign 9 (signed_bytes ns_broker 999))); HSendE 1000; HRecvE 1001 (MAuthResponse 1 (bid_print ex_broker2))]%N
  = HDone ex_broker2
  /\ ex_hrun ex_broker h_inbound
    [HRecvE 1000 (MAuthWithKey 999 ex_bkey (ex_sign 9 (signed_bytes ns_user 999))); HSendE 1000; HRecvE 1001 (MAuthResponse 1 (bid_print ex_broker2))]%N
  = HFailed.
Proof. by vm_compute. Qed.

(** * C56 *)
(** The peer need not hold the key: nothing in the request is tied to the connection or
    the direction, so a peer that was dialled completes the handshake, under any identifier, by answering "accepted" and sending the
    dialling broker's own request back to it. *)
Theorem C56_reflection_refuted :
  forall pk (D : EqDecision pk) (pk_deser : bytes -> option pk) verify debug our_pk our_key sign id peer now,
  pk_deser our_key = Some our_pk ->
  (forall ts, verify our_pk (signed_bytes ns_broker ts) (sign (signed_bytes ns_broker ts)) = true) ->
  id_ok peer ->
  exists request, h_sent pk_deser verify debug our_pk our_key sign id h_outbound [HSendE now] = [request]
    /\ h_run pk_deser verify debug our_pk our_key sign id h_outbound
         [HSendE now; HRecvE now (MAuthResponse 1 (bid_print peer)); HRecvE now request] = HDone peer.
Proof. intros pk D pk_deser verify debug our_pk our_key sign id peer now Hk Hs Hp. exact (reflection pk_deser verify debug our_pk our_key sign Hk Hs id peer now Hp). Qed.
Print Assumptions C56_reflection_refuted.
Example C56_reflection_nonvacuous :
  ex_pk_deser ex_bkey = Some 9%N /\ (forall ts, ex_verify 9 (signed_bytes ns_broker ts) (ex_sign 9 (signed_bytes ns_broker ts)) = true)
  /\ id_ok ex_broker2.
Proof.
  split; [done|]. split; [intros ts; by apply bool_decide_eq_true|]. split; cbn; intros [?|[]]; discriminate.
Qed.

(** * C34 *)
(** A schedule is a list of sides (outbound: [true]) with clock readings, nondecreasing and within five seconds. At most six steps do something; until six did, one
    side can move; after six both sides are done and know each other; nobody ever fails. *)
Theorem C34_handshake_completes :
  forall pk (D : EqDecision pk) (pk_deser : bytes -> option pk) verify debug our_pk our_key sign id_out id_in evs t0,
  pk_deser our_key = Some our_pk ->
  (forall ts, verify our_pk (signed_bytes ns_broker ts) (sign (signed_bytes ns_broker ts)) = true) ->
  id_ok id_out -> id_ok id_in ->
  StronglySorted N.le (t0 :: map snd evs) -> Forall (fun ev => (ev.2 <= t0 + 5)%N) evs ->
  let st := pair_run pk_deser verify debug our_pk our_key sign id_out id_in evs in
  let n := effective pk_deser verify debug our_pk our_key sign id_out id_in evs in
  n <= 6
  /\ (n = 6 -> st = Pair (HDone id_in) (HDone id_out) [] [])
  /\ (n < 6 -> exists side, pair_can st side = true)
  /\ p_out st <> HFailed /\ p_in st <> HFailed.
Proof.
  intros pk D pk_deser verify debug our_pk our_key sign id_out id_in evs t0 Hk Hs Ho Hi.
  exact (handshake pk_deser verify debug our_pk our_key sign Hk Hs id_out id_in Ho Hi evs t0).
Qed.
Print Assumptions C34_handshake_completes.
Notation ex_pair_run := (pair_run ex_pk_deser ex_verify false 9%N ex_bkey (ex_sign 9) ex_broker ex_broker2).
Example C34_nonvacuous :
  let evs := [(true, 1000); (true, 1000); (false, 1001); (true, 1001); (false, 1002); (true, 1003); (false, 1003); (true, 1003); (false, 1004)]%N in
  StronglySorted N.le (1000%N :: map snd evs) /\ Forall (fun ev => (ev.2 <= 1000 + 5)%N) evs
  /\ ex_pair_run evs = Pair (HDone ex_broker2) (HDone ex_broker) [] [].
Proof.
  cbn zeta. split; [|split; [apply (bool_decide_unpack _); by vm_compute|by vm_compute]].
  repeat (constructor; [|apply (bool_decide_unpack _); by vm_compute]). constructor.
Qed.
(** A clock difference of one second between the brokers is enough to fail: the request
    comes from the future. *)
Theorem C34_clock_skew_refuted : exists evs,
  p_in (ex_pair_run evs) = HFailed /\ Forall (fun ev => (1000 <= ev.2 <= 1001)%N) evs.
Proof. exists [(true, 1001); (false, 1000)]%N. split; [by vm_compute|]. repeat constructor; vm_compute; discriminate. Qed.
Print Assumptions C34_clock_skew_refuted.

(** * C35 *)
Theorem C35_exactly_one_dials : forall a b othersA connA othersB connB,
  a <> b -> b ∈ othersA -> b ∉ connA -> a ∈ othersB -> a ∉ connB ->
  (b ∈ dials a othersA connA /\ a ∉ dials b othersB connB) \/ (a ∈ dials b othersB connB /\ b ∉ dials a othersA connA).
Proof. exact dials_one. Qed.
Print Assumptions C35_exactly_one_dials.
Theorem C35_only_unconnected_listed : forall self others connected b,
  b ∈ dials self others connected -> b ∈ others /\ b ∉ connected /\ bid_gtb self b = false.
Proof. intros self others connected b H. by apply dials_spec. Qed.
Print Assumptions C35_only_unconnected_listed.
(** With the listings the discovery service gives them. *)
Theorem C35_exactly_one_dials_embedded : forall global os now a b S T connA connB,
  Forall (fun t => (t <= now)%N) (times os) -> ids_ok os -> id_ok a -> id_ok b -> a <> b ->
  (exists n, e_alive os now a n) -> (exists n, e_alive os now b n) ->
  (e_other_brokers (e_run global os) now a).2 = Some S -> (e_other_brokers (e_run global os) now b).2 = Some T ->
  b ∉ connA -> a ∉ connB ->
  (b ∈ dials a S connA /\ a ∉ dials b T connB) \/ (a ∈ dials b T connB /\ b ∉ dials a S connA).
Proof.
  intros global os now a b S T connA connB Hm Hok Ha Hb Hne La Lb HS HT H1 H2.
  destruct (e_others global os now a Hm Hok) as (S' & HS' & Hs). destruct (e_others global os now b Hm Hok) as (T' & HT' & Ht).
  assert (S' = S) as -> by congruence. assert (T' = T) as -> by congruence.
  apply dials_one; [done| |done| |done].
  - apply Hs. split; [done|]. split; [done|]. exact Lb.
  - apply Ht. split; [done|]. split; [done|]. exact La.
Qed.
Print Assumptions C35_exactly_one_dials_embedded.
Theorem C35_exactly_one_dials_redis : forall global os now a b S T connA connB,
  ids_ok os -> id_ok a -> id_ok b -> a <> b ->
  (exists n, r_alive os now a n) -> (exists n, r_alive os now b n) ->
  r_other_brokers (r_run global os) now a = Some S -> r_other_brokers (r_run global os) now b = Some T ->
  b ∉ connA -> a ∉ connB ->
  (b ∈ dials a S connA /\ a ∉ dials b T connB) \/ (a ∈ dials b T connB /\ b ∉ dials a S connA).
Proof.
  intros global os now a b S T connA connB Hok Ha Hb Hne La Lb HS HT H1 H2.
  destruct (r_others global os now a Hok Ha) as (S' & HS' & Hs). destruct (r_others global os now b Hok Hb) as (T' & HT' & Ht).
  assert (S' = S) as -> by congruence. assert (T' = T) as -> by congruence.
  apply dials_one; [done| |done| |done].
  - apply Hs. split; [done|]. split; [done|]. exact Lb.
  - apply Ht. split; [done|]. split; [done|]. exact La.
Qed.
Print Assumptions C35_exactly_one_dials_redis.
Example C35_nonvacuous :
  let os := [DHeartbeat 1 1 ex_broker 5 60; DHeartbeat 2 2 ex_broker2 4 60]%N in
  (e_other_brokers (e_run false os) 10 ex_broker).2 = Some {[ ex_broker2 ]} /\ (e_other_brokers (e_run false os) 10 ex_broker2).2 = Some {[ ex_broker ]}
  /\ dials ex_broker {[ ex_broker2 ]} ∅ = {[ ex_broker2 ]} /\ dials ex_broker2 {[ ex_broker ]} ∅ = ∅
  /\ e_alive os 10 ex_broker 5 /\ e_alive os 10 ex_broker2 4.
Proof.
  cbn zeta. split; [apply (bool_decide_unpack _); vm_compute; exact I|]. split; [apply (bool_decide_unpack _); vm_compute; exact I|].
  split; [apply (bool_decide_unpack _); vm_compute; exact I|]. split; [apply (bool_decide_unpack _); vm_compute; exact I|].
  split; eexists; split; vm_compute; (reflexivity || discriminate).
Qed.
