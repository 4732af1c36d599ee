(** Properties of whole logins: C66, C67. Statements only; the proofs are in LoginComplete.v and
    LoginClaims.v. *)
From stdpp Require Import gmap list.
From Coq Require Import NArith Lia.
From Verif Require Import IdModel MsgModel DiscModel DiscSpec AuthModel AuthSpec AuthProofs LoginModel LoginSpec LoginComplete LoginClaims PropertiesAuth.

(** * C66 *)
(** The steps of user [u] and of the handlers of its two connections are those of a login (in
    that order, between any events of anybody else); its clock agrees with the marshal's to five
    seconds, its key is whitelisted, a broker is named, and the number drawn for it is neither 0
    nor 1, is drawn for nobody else and guessed by nobody; it is presented within thirty seconds,
    by every clock that cleans up in between. Then the named broker registers the user under its
    key with its topics, and the user ends up connected. *)
Theorem C66_honest_user_admitted :
  forall pk (D : EqDecision pk) (pk_deser : bytes -> option pk) pk_ser verify debug global redis u_key u_sign u_topics
    u h hb b t0 t1 t2 t3 permit t4 p canon es,
  let run := l_run pk_deser pk_ser verify debug global redis u_key u_sign u_topics in
  List.filter (concerns u h hb) es = login u h hb b t0 t1 t2 t3 permit t4 ->
  pk_deser (u_key u) = Some p -> pk_ser p = Some canon -> (forall m, verify p m (u_sign u m) = true) ->
  (5 <= t1 < 2 ^ 64)%N -> (t0 <= t1 <= t0 + 5)%N ->
  (forall es1 es2, es = es1 ++ LMarshalWhitelist h :: es2 -> d_whitelisted global redis (w_disc (l_w (run es1))) canon = true) ->
  (forall es1 es2, es = es1 ++ LMarshalPlace h t2 :: es2 -> d_least global redis (w_disc (l_w (run es1))) t2 = Some b) ->
  (1 < permit < 2 ^ 32)%N ->
  (forall h' t, In (LMarshalIssue h' t permit) es -> h' = h) ->
  (forall h', ~ In (LSendB h' (MAuthWithPermit permit)) es) ->
  (forall es1 es2 es3, es = es1 ++ LMarshalIssue h t3 permit :: es2 ++ LBrokerValidate hb t4 :: es3 ->
     forall t, In (LClean t) es2 \/ (exists h', In (LMarshalPlace h' t) es2) -> (t <= t3 + 30)%N) ->
  (t4 < t3 + 30)%N ->
  (exists es1 es2, es = es1 ++ LBrokerTopics hb :: es2
     /\ l_admits pk_deser pk_ser verify debug global redis u_key u_sign u_topics es1 (LBrokerTopics hb) = Some (b, u_key u, u_topics u))
  /\ l_users (run es) !! u = Some (UConnected hb).
Proof.
  intros pk D pk_deser pk_ser verify debug global redis u_key u_sign u_topics u h hb b t0 t1 t2 t3 permit t4 p canon es run
    Hes Hd Hs Hv [H5 H64] Ht Hw Hl [H1 H32] Hone Hg Hc H4.
  assert (Hage : age_ok debug t1 t0 = true) by (apply C31_window; lia).
  exact (login_succeeds pk_deser pk_ser verify debug global redis u_key u_sign u_topics u h hb permit H1 b t3 p canon t0 t1 t2 t4 es
    Hes Hd Hs Hv Hage Hw Hl H32 Hone Hg Hc H4).
Qed.
Print Assumptions C66_honest_user_admitted.

(** Two users log in at once while somebody else sends rubbish to the marshal and guesses at a
    broker. *)
Definition ex_ukey (u : N) : bytes := [u + 6]%N.
Definition ex_usign (u : N) : bytes -> bytes := ex_sign (u + 6).
Definition ex_utopics (u : N) : list N := [u; 9]%N.
Notation ex_lrun := (l_run ex_pk_deser ex_pk_ser ex_verify false false).
Notation ex_ladmits := (l_admits ex_pk_deser ex_pk_ser ex_verify false false).
Definition ex_setup : list lev := [LHeartbeat 990 990 ex_broker 0 60; LSetWhitelist [[7]; [8]]]%N.
Definition ex_logins : list lev :=
  ex_setup ++
  [LStart 1 10 998; LStart 2 20 997; LForeignM 30; LSendM 30 (MAuthWithKey 998 [7] [0]); LMarshalRecv 30 999;
   LMarshalRecv 20 999; LMarshalRecv 10 1000; LMarshalWhitelist 20; LMarshalWhitelist 10; LMarshalPlace 20 1000; LMarshalPlace 10 1001;
   LMarshalIssue 20 1001 56; LMarshalIssue 10 1001 55; LUserPermit 1; LForeignB 31 ex_broker; LSendB 31 (MAuthWithPermit 99);
   LDial 1 11 ex_broker; LBrokerRecv 31; LClean 1002; LBrokerValidate 31 1002; LBrokerRecv 11; LUserPermit 2; LClean 1003; LBrokerValidate 11 1003;
   LDial 2 21 ex_broker; LUserAccepted 1; LDropB 31; LBrokerTopics 11; LBrokerRecv 21; LBrokerValidate 21 1005; LUserAccepted 2; LBrokerTopics 21]%N.

Lemma split_check (f : list lev -> bool) (x : lev -> bool) es :
  forallb (fun n => match es !! n with Some e => if x e then f (take n es) else true | None => true end) (seq 0 (length es)) = true ->
  forall es1 e es2, es = es1 ++ e :: es2 -> x e = true -> f es1 = true.
Proof.
  intros Hf es1 e es2 -> Hx. rewrite forallb_forall in Hf. specialize (Hf (length es1)).
  rewrite list_lookup_middle, Hx, take_app in Hf by done. apply Hf, in_seq. rewrite app_length. cbn. lia.
Qed.
Lemma ex_whitelisted : forall es1 es2, ex_logins = es1 ++ LMarshalWhitelist 10 :: es2 ->
  d_whitelisted false false (w_disc (l_w (ex_lrun false ex_ukey ex_usign ex_utopics es1))) [7]%N = true.
Proof.
  intros es1 es2 Heq.
  refine (split_check (fun es1 => d_whitelisted false false (w_disc (l_w (ex_lrun false ex_ukey ex_usign ex_utopics es1))) [7]%N)
    (fun e => match e with LMarshalWhitelist 10 => true | _ => false end) ex_logins _ es1 _ es2 Heq _); by vm_compute.
Qed.
Lemma ex_named : forall es1 es2, ex_logins = es1 ++ LMarshalPlace 10 1001 :: es2 ->
  d_least false false (w_disc (l_w (ex_lrun false ex_ukey ex_usign ex_utopics es1))) 1001 = Some ex_broker.
Proof.
  intros es1 es2 Heq. apply (bool_decide_eq_true_1 _).
  refine (split_check (fun es1 => bool_decide (d_least false false (w_disc (l_w (ex_lrun false ex_ukey ex_usign ex_utopics es1))) 1001 = Some ex_broker))
    (fun e => match e with LMarshalPlace 10 _ => true | _ => false end) ex_logins _ es1 _ es2 Heq _); by vm_compute.
Qed.
Lemma all_check (x : lev -> bool) es : forallb x es = true -> forall e, In e es -> x e = true.
Proof. intros H. by apply forallb_forall. Qed.
Lemma ex_one : forall h' t, In (LMarshalIssue h' t 55) ex_logins -> h' = 10%N.
Proof.
  intros h' t Hin. pose proof (all_check (fun e => match e with LMarshalIssue h 1001 55 => (h =? 10)%N | LMarshalIssue _ _ 55 => false | _ => true end) ex_logins eq_refl _ Hin) as H.
  cbv beta iota in H. repeat case_match; try discriminate; by apply N.eqb_eq in H.
Qed.
Lemma ex_unguessed : forall h', ~ In (LSendB h' (MAuthWithPermit 55)) ex_logins.
Proof.
  intros h' Hin. pose proof (all_check (fun e => match e with LSendB _ (MAuthWithPermit p) => negb (p =? 55)%N | _ => true end) ex_logins eq_refl _ Hin) as H. discriminate H.
Qed.
Lemma ex_cleaned : forall es1 es2 es3, ex_logins = es1 ++ LMarshalIssue 10 1001 55 :: es2 ++ LBrokerValidate 11 1003 :: es3 ->
  forall t, In (LClean t) es2 \/ (exists h', In (LMarshalPlace h' t) es2) -> (t <= 1001 + 30)%N.
Proof.
  intros es1 es2 es3 Heq t Ht. apply N.leb_le.
  pose proof (all_check (fun e => match e with LClean t | LMarshalPlace _ t => (t <=? 1001 + 30)%N | _ => true end) ex_logins eq_refl) as H.
  rewrite Heq in H. destruct Ht as [Hin|[h' Hin]]; [specialize (H (LClean t))|specialize (H (LMarshalPlace h' t))];
    apply H; apply in_app_iff; right; right; apply in_app_iff; by left.
Qed.
Example C66_nonvacuous :
  List.filter (concerns 1 10 11) ex_logins = login 1 10 11 ex_broker 998 1000 1001 1001 55 1003
  /\ ex_pk_deser (ex_ukey 1) = Some 7%N /\ ex_pk_ser 7 = Some [7]%N /\ (forall m, ex_verify 7 m (ex_usign 1 m) = true).
Proof. split; [reflexivity|]. split; [reflexivity|]. split; [reflexivity|]. intros m. by apply bool_decide_eq_true. Qed.
Example C66_conclusion :
  l_users (ex_lrun false ex_ukey ex_usign ex_utopics ex_logins) !! 1%N = Some (UConnected 11)
  /\ l_users (ex_lrun false ex_ukey ex_usign ex_utopics ex_logins) !! 2%N = Some (UConnected 21)
  /\ l_users (ex_lrun true ex_ukey ex_usign ex_utopics ex_logins) !! 1%N = Some (UConnected 11).
Proof. by vm_compute. Qed.

(** The marshal may draw 0 or 1, which the user takes for a refusal: nobody did anything wrong,
    the login fails, and the permit stays in the store (a broker would accept it). *)
Definition ex_unlucky (permit : N) : list lev :=
  (ex_setup ++ [LStart 1 10 998; LMarshalRecv 10 1000; LMarshalWhitelist 10; LMarshalPlace 10 1001; LMarshalIssue 10 1001 permit; LUserPermit 1])%N.
Theorem C66_unlucky_number_refuted : forall redis permit, (permit <= 1)%N ->
  let l := ex_lrun redis ex_ukey ex_usign ex_utopics (ex_unlucky permit) in
  l_users l !! 1%N = Some UFailed /\ d_answer false redis (w_disc (l_w l)) (DTake 1002 ex_broker permit) = Some [7]%N.
Proof.
  intros redis permit Hp. assert (permit = 0 \/ permit = 1)%N as [-> | ->] by lia; destruct redis; by vm_compute.
Qed.
Print Assumptions C66_unlucky_number_refuted.
Example C66_lucky_number : l_users (ex_lrun false ex_ukey ex_usign ex_utopics (ex_unlucky 2)) !! 1%N = Some (UGranted [49]%N 2).
Proof. by vm_compute. Qed.

(** * C67 *)
(** A user that reports success asked the marshal on a connection of its own, got there a number issued for its key and the endpoint of a
    broker, presented the number to a broker with that endpoint, and that broker accepted it. *)
Theorem C67_connected_means_validated :
  forall pk (D : EqDecision pk) (pk_deser : bytes -> option pk) pk_ser verify debug global redis u_key u_sign u_topics es u hb,
  l_users (l_run pk_deser pk_ser verify debug global redis u_key u_sign u_topics es) !! u = Some (UConnected hb) ->
  exists h now p b b0 k,
    opened pk_deser pk_ser verify debug global redis u_key u_sign u_topics es u h now
    /\ issued_on pk_deser pk_ser verify debug global redis u_key u_sign u_topics es h p (u_key u) b0 /\ bpub b0 = bpub b
    /\ dialled pk_deser pk_ser verify debug global redis u_key u_sign u_topics es u hb b p
    /\ validated_on pk_deser pk_ser verify debug global redis u_key u_sign u_topics es hb b p k
    (* the broker was told the user's key, if the number was issued once *)
    /\ ((forall h1 h2 k1 k2 b1 b2, issued_on pk_deser pk_ser verify debug global redis u_key u_sign u_topics es h1 p k1 b1 ->
           issued_on pk_deser pk_ser verify debug global redis u_key u_sign u_topics es h2 p k2 b2 -> h1 = h2) -> k = u_key u).
Proof.
  intros pk D pk_deser pk_ser verify debug global redis u_key u_sign u_topics es u hb Hu.
  destruct (connected_means pk_deser pk_ser verify debug global redis u_key u_sign u_topics es u hb Hu) as (h & now & p & b & b0 & k & Ho & Hi & Hb & Hd & Hv & _).
  exists h, now, p, b, b0, k. do 5 (split; [done|]). by eapply own_permit.
Qed.
Print Assumptions C67_connected_means_validated.

(** Every registration, of anybody: the number was issued, for the key registered, on a connection on which the marshal had received a valid
    fresh request for it, and for that broker unless permits are global; and it was presented
    either by an honest user, which is connected and whose topics these are, or by somebody who
    sent exactly this number and these topics. *)
Theorem C67_registrations :
  forall pk (D : EqDecision pk) (pk_deser : bytes -> option pk) pk_ser verify debug global redis u_key u_sign u_topics es e b k topics,
  l_admits pk_deser pk_ser verify debug global redis u_key u_sign u_topics es e = Some (b, k, topics) ->
  exists hb p h b0, e = LBrokerTopics hb
    /\ validated_on pk_deser pk_ser verify debug global redis u_key u_sign u_topics es hb b p k
    /\ issued_on pk_deser pk_ser verify debug global redis u_key u_sign u_topics es h p k b0 /\ (global = true \/ bid_print b0 = bid_print b)
    /\ asked pk_deser pk_ser verify debug global redis u_key u_sign u_topics es h k
    /\ ((exists u, dialled pk_deser pk_ser verify debug global redis u_key u_sign u_topics es u hb b p /\ topics = u_topics u
           /\ l_users (l_run pk_deser pk_ser verify debug global redis u_key u_sign u_topics es) !! u = Some (UConnected hb))
        \/ (hb ∈ l_foreign_b (l_run pk_deser pk_ser verify debug global redis u_key u_sign u_topics es)
           /\ In (LSendB hb (MAuthWithPermit p)) es /\ In (LSendB hb (MSubscribe topics)) es)).
Proof. intros pk D. exact (registered_means (pk := pk)). Qed.
Print Assumptions C67_registrations.

(** If nobody else presents a valid signature under key [k] or a number that was issued for it
    to an honest user, and no number is issued twice, then only the user with key [k] is registered under it, with its own topics, and only once it reports success. *)
Theorem C67_only_the_user_registered :
  forall pk (D : EqDecision pk) (pk_deser : bytes -> option pk) pk_ser verify debug global redis u_key u_sign u_topics es e b k topics,
  l_admits pk_deser pk_ser verify debug global redis u_key u_sign u_topics es e = Some (b, k, topics) ->
  (forall h ts sig q, In (LSendM h (MAuthWithKey ts k sig)) es -> pk_deser k = Some q -> verify q (signed_bytes ns_user ts) sig = false) ->
  (forall u h now p b0 hb, opened pk_deser pk_ser verify debug global redis u_key u_sign u_topics es u h now ->
     issued_on pk_deser pk_ser verify debug global redis u_key u_sign u_topics es h p k b0 -> ~ In (LSendB hb (MAuthWithPermit p)) es) ->
  (forall p h1 h2 k1 k2 b1 b2, issued_on pk_deser pk_ser verify debug global redis u_key u_sign u_topics es h1 p k1 b1 ->
     issued_on pk_deser pk_ser verify debug global redis u_key u_sign u_topics es h2 p k2 b2 -> h1 = h2) ->
  exists u hb p, e = LBrokerTopics hb /\ k = u_key u /\ topics = u_topics u
    /\ dialled pk_deser pk_ser verify debug global redis u_key u_sign u_topics es u hb b p
    /\ l_users (l_run pk_deser pk_ser verify debug global redis u_key u_sign u_topics es) !! u = Some (UConnected hb).
Proof. intros pk D. exact (only_own (pk := pk)). Qed.
Print Assumptions C67_only_the_user_registered.

Example C67_nonvacuous :
  ex_ladmits false ex_ukey ex_usign ex_utopics (take 29 ex_logins) (LBrokerTopics 11) = Some (ex_broker, [7], [1; 9])%N
  /\ ex_logins !! 29 = Some (LBrokerTopics 11)
  /\ ex_ladmits false ex_ukey ex_usign ex_utopics (take 33 ex_logins) (LBrokerTopics 21) = Some (ex_broker, [8], [2; 9])%N.
Proof. by vm_compute. Qed.
(** The other hypotheses hold of the example: every number is issued on one connection, the
    only foreign signature is not valid, and the number guessed was not issued. *)
Example C67_nonvacuous_hypotheses :
  (forall p h1 h2 k1 k2 b1 b2,
     issued_on ex_pk_deser ex_pk_ser ex_verify false false false ex_ukey ex_usign ex_utopics ex_logins h1 p k1 b1 ->
     issued_on ex_pk_deser ex_pk_ser ex_verify false false false ex_ukey ex_usign ex_utopics ex_logins h2 p k2 b2 -> h1 = h2)
  /\ (forall h ts sig q, In (LSendM h (MAuthWithKey ts [7]%N sig)) ex_logins -> ex_pk_deser [7]%N = Some q -> ex_verify q (signed_bytes ns_user ts) sig = false)
  /\ (forall h p k b0 hb, issued_on ex_pk_deser ex_pk_ser ex_verify false false false ex_ukey ex_usign ex_utopics ex_logins h p k b0 ->
        ~ In (LSendB hb (MAuthWithPermit p)) ex_logins).
Proof.
  assert (Hi : forall h p k b, issued_on ex_pk_deser ex_pk_ser ex_verify false false false ex_ukey ex_usign ex_utopics ex_logins h p k b -> (h = 20 /\ p = 56)%N \/ (h = 10 /\ p = 55)%N).
  { intros h p k b (es1 & t & es2 & Heq & _).
    assert (Hin : In (LMarshalIssue h t p) ex_logins) by (rewrite Heq; apply in_app_iff; right; by left).
    pose proof (all_check (fun e => match e with LMarshalIssue h _ p => ((h =? 20) && (p =? 56) || (h =? 10) && (p =? 55))%N | _ => true end) ex_logins eq_refl _ Hin) as H.
    cbv beta iota in H. apply orb_true_iff in H as [H|H]; apply andb_true_iff in H as [H1%N.eqb_eq H2%N.eqb_eq]; auto. }
  split; [|split].
  - intros p h1 h2 k1 k2 b1 b2 H1%Hi H2%Hi. lia.
  - intros h ts sig q Hin [= <-].
    pose proof (all_check (fun e => match e with LSendM _ (MAuthWithKey ts _ sig) => negb (ex_verify 7 (signed_bytes ns_user ts) sig) | _ => true end) ex_logins eq_refl _ Hin) as H.
    cbv beta iota in H. by apply negb_true_iff in H.
  - intros h p k b0 hb H1%Hi Hin.
    pose proof (all_check (fun e => match e with LSendB _ (MAuthWithPermit p) => (p =? 99)%N | _ => true end) ex_logins eq_refl _ Hin) as H.
    cbv beta iota in H. apply N.eqb_eq in H. lia.
Qed.

(** Success is not registration: the broker answers before it reads the topics, so a user whose
    connection breaks off then reports success and is registered nowhere. *)
Definition ex_lost : list lev :=
  (ex_unlucky 55 ++ [LDial 1 11 ex_broker; LBrokerRecv 11; LBrokerValidate 11 1003; LUserAccepted 1; LDropB 11])%N.
Theorem C67_connected_not_registered_refuted : forall redis,
  l_users (ex_lrun redis ex_ukey ex_usign ex_utopics ex_lost) !! 1%N = Some (UConnected 11)
  /\ forall more, ex_ladmits redis ex_ukey ex_usign ex_utopics (ex_lost ++ more) (LBrokerTopics 11) = None.
Proof.
  intros redis. split; [by destruct redis; vm_compute|]. intros more.
  assert (Hg : 11%N ∈ l_gone_b (ex_lrun redis ex_ukey ex_usign ex_utopics (ex_lost ++ more))).
  { unfold l_run. rewrite fold_left_app.
    assert (H0 : 11%N ∈ l_gone_b (fold_left (fun l e => (l_step ex_pk_deser ex_pk_ser ex_verify false false redis ex_ukey ex_usign ex_utopics l e).1) ex_lost lworld0))
      by (destruct redis; apply (bool_decide_unpack _); vm_compute; exact I).
    revert H0. generalize (fold_left (fun l e => (l_step ex_pk_deser ex_pk_ser ex_verify false false redis ex_ukey ex_usign ex_utopics l e).1) ex_lost lworld0).
    induction more as [|e more IH]; intros l Hl; [done|]. cbn. apply IH. by apply gone_b_grow. }
  unfold l_admits, l_step. cbn [broken_off m_handler b_handler]. by rewrite bool_decide_eq_true_2.
Qed.
Print Assumptions C67_connected_not_registered_refuted.

(** The premises are needed. A number drawn a second time while a user still holds it from the
    first: that user is registered under the other's key. *)
Definition ex_reused : list lev :=
  (ex_setup ++
   [LStart 2 20 998; LMarshalRecv 20 1000; LMarshalWhitelist 20; LMarshalPlace 20 1001; LMarshalIssue 20 1001 55; LUserPermit 2; LHeartbeat 1030 1030 ex_broker 0 60;
    LStart 1 10 1040; LMarshalRecv 10 1040; LMarshalWhitelist 10; LMarshalPlace 10 1040; LMarshalIssue 10 1040 55;
    LDial 2 21 ex_broker; LBrokerRecv 21; LBrokerValidate 21 1041; LUserAccepted 2])%N.
Theorem C67_reused_number_refuted : forall redis,
  ex_ladmits redis ex_ukey ex_usign ex_utopics ex_reused (LBrokerTopics 21) = Some (ex_broker, ex_ukey 1, ex_utopics 2).
Proof. intros []; by vm_compute. Qed.
Print Assumptions C67_reused_number_refuted.
(** A number guessed: somebody without any key is registered under the user's. *)
Definition ex_guessed : list lev :=
  (ex_unlucky 55 ++ [LForeignB 31 ex_broker; LSendB 31 (MAuthWithPermit 55); LSendB 31 (MSubscribe [5]); LBrokerRecv 31; LBrokerValidate 31 1002])%N.
Theorem C67_guessed_number_refuted : forall redis,
  ex_ladmits redis ex_ukey ex_usign ex_utopics ex_guessed (LBrokerTopics 31) = Some (ex_broker, ex_ukey 1, [5]%N).
Proof. intros []; by vm_compute. Qed.
Print Assumptions C67_guessed_number_refuted.
