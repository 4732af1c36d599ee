(** Who asked for a permit, whose key it carries, who is registered with it. *)
From stdpp Require Import gmap list.
From Coq Require Import NArith Lia.
From Verif Require Import IdModel MsgModel DiscModel DiscSpec DiscProofs DiscProofs2 DiscProofs3 AuthModel AuthSpec AuthProofs LoginModel LoginSpec LoginProofs LoginSteps LoginOrigin LoginComplete LoginSound.

Section login.
Context {pk : Type} `{EqDecision pk}.
Variable pk_deser : bytes -> option pk.
Variable pk_ser : pk -> option bytes.
Variable verify : pk -> bytes -> bytes -> bool.
Variable debug global redis : bool.
Variable u_key : N -> bytes.
Variable u_sign : N -> bytes -> bytes.
Variable u_topics : N -> list N.
Notation a_step := (a_step pk_deser pk_ser verify debug global redis).
Notation a_run := (a_run pk_deser pk_ser verify debug global redis).
Notation act := (act pk_deser pk_ser verify debug global redis).
Notation l_act := (l_act pk_deser pk_ser verify debug global redis u_key u_sign u_topics).
Notation l_step := (l_step pk_deser pk_ser verify debug global redis u_key u_sign u_topics).
Notation l_run := (l_run pk_deser pk_ser verify debug global redis u_key u_sign u_topics).
Notation l_admits := (l_admits pk_deser pk_ser verify debug global redis u_key u_sign u_topics).
Notation d_answer := (d_answer global redis).
Notation d_whitelisted := (d_whitelisted global redis).
Notation d_least := (d_least global redis).
Notation d_issue_ok := (d_issue_ok global redis).
Notation request := (request u_key u_sign).
Notation l_w_step := (l_w_step pk_deser pk_ser verify debug global redis u_key u_sign u_topics).

Notation l_run_snoc := (l_run_snoc pk_deser pk_ser verify debug global redis u_key u_sign u_topics).
Notation opened := (opened pk_deser pk_ser verify debug global redis u_key u_sign u_topics).
Notation dialled := (dialled pk_deser pk_ser verify debug global redis u_key u_sign u_topics).
Notation issued_on := (issued_on pk_deser pk_ser verify debug global redis u_key u_sign u_topics).
Notation asked := (asked pk_deser pk_ser verify debug global redis u_key u_sign u_topics).
Notation validated_on := (validated_on pk_deser pk_ser verify debug global redis u_key u_sign u_topics).
Notation trace := (trace pk_deser pk_ser verify debug global redis u_key u_sign u_topics).
Notation good_request := (good_request pk_deser verify debug).

Notation past_run := (past_run pk_deser pk_ser verify debug global redis u_key u_sign u_topics).

Lemma foreign_m_not es u h now : h ∈ l_foreign_m (l_run es) -> opened es u h now -> False.
Proof. intros Hf. destruct (q_foreign_m _ _ _ _ _ _ _ _ _ _ (past_run es) _ Hf) as [_ Hn]. apply Hn. Qed.
Lemma foreign_b_not es u hb b p : hb ∈ l_foreign_b (l_run es) -> dialled es u hb b p -> False.
Proof. intros Hf. destruct (q_foreign_b _ _ _ _ _ _ _ _ _ _ (past_run es) _ Hf) as [_ Hn]. apply Hn. Qed.

(** * Whose key the marshal's handler works for *)
Definition m_key (s : mstate) : option bytes :=
  match s with MChecked k _ | MAllowed k | MPlaced k _ => Some k | MEnded => None end.
Lemma m_key_step l e h s k : w_marshal (l_w (l_step l e).1) !! h = Some s -> m_key s = Some k ->
  (exists s0, w_marshal (l_w l) !! h = Some s0 /\ m_key s0 = Some k)
  \/ (exists now m c q, e = LMarshalRecv h now /\ l_mconns l !! h = Some c /\ In m (mc_in c) /\ good_request ns_user now q k m).
Proof.
  destruct (decide (m_handler e = Some h)) as [He|He]; [|rewrite w_marshal_other by done; by eauto].
  rewrite l_w_step. unfold under. destruct (broken_off l e); [by eauto|].
  destruct e; try done; injection He as ->.
  - destruct (w_marshal (l_w l) !! h) as [s0|] eqn:Es; [rewrite Es; by eauto|].
    destruct (l_mconns l !! h) as [[[|m0 i0] o0]|] eqn:Ec; try (rewrite Es; by eauto).
    cbn [AuthModel.a_step]. rewrite Es. destruct (check_request _ _ _ ns_user now m0) as [[q key]|] eqn:Eq; [|cbn; rewrite lookup_insert; by intros [= <-]].
    destruct (pk_ser q); cbn; rewrite lookup_insert; intros [= <-]; [|done]. intros [= ->]. right.
    apply check_request_spec in Eq. exists now, m0. eexists. exists q. split; [done|]. split; [done|]. split; [by left|done].
  - destruct (w_marshal (l_w l) !! h) as [s0|] eqn:Es; [|by rewrite Es]. destruct s0; try (rewrite Es; by eauto).
    cbn [AuthModel.a_step]. rewrite Es. cbn. rewrite lookup_insert. intros [= <-]. case_match; [|done]. cbn. by eauto.
  - destruct (w_marshal (l_w l) !! h) as [s0|] eqn:Es; [|by rewrite Es]. destruct s0; try (rewrite Es; by eauto).
    cbn [AuthModel.a_step]. rewrite Es. cbn. rewrite lookup_insert. intros [= <-]. case_match; [|done]. cbn. by eauto.
  - destruct (w_marshal (l_w l) !! h) as [s0|] eqn:Es; [|by rewrite Es]. destruct s0; try (rewrite Es; by eauto).
    cbn [AuthModel.a_step]. rewrite Es. destruct (d_issue_ok _ _); cbn; rewrite lookup_insert; by intros [= <-].
Qed.
Lemma asked_app es l h k : asked es h k -> asked (es ++ l) h k.
Proof.
  intros (now & ts & sig & q & Hr & Hd & Hv & Ha & Hw). exists now, ts, sig, q. rewrite !in_app_iff. split; [by left|]. do 3 (split; [done|]).
  destruct Hw as [(u & Ho & ?)|[Hf Hs]]; [left; exists u; split; [by apply opened_app|done]|right]. split; [|by left].
  clear -Hf. induction l as [|e l IH] using rev_ind; [by rewrite app_nil_r|]. rewrite app_assoc, l_run_snoc. by apply foreign_m_grow.
Qed.
Lemma m_asked es h s k : w_marshal (l_w (l_run es)) !! h = Some s -> m_key s = Some k -> asked es h k.
Proof.
  revert s. induction es as [|e es IH] using rev_ind; intros s; [by intros ?|]. rewrite l_run_snoc. intros Hs Hk.
  destruct (m_key_step _ _ _ _ _ Hs Hk) as [(s0 & Hs0 & Hk0)|(now & m & c & q & -> & Hc & Hin & (ts & sig & -> & Hd & Hv & Ha))]; [by eapply asked_app, IH|].
  exists now, ts, sig, q. split; [apply in_app_iff; right; by left|]. do 3 (split; [done|]).
  destruct (q_in _ _ _ _ _ _ _ _ _ _ (past_run es) _ _ _ Hc Hin) as [(u & now' & Ho & [= -> -> ->])|[Hs' Hf]].
  - left. exists u. split; [by apply opened_app|]. done.
  - right. rewrite l_run_snoc. split; [by apply foreign_m_grow|]. apply in_app_iff. by left.
Qed.
Lemma issued_asked es h p k b : issued_on es h p k b -> asked es h k.
Proof.
  intros (es1 & t & es2 & -> & Hw & _). apply asked_app. by eapply m_asked.
Qed.
(** On a connection of an honest user, permits are issued for its key only. *)
Lemma opened_asked es u h now k : opened es u h now -> asked es h k -> k = u_key u.
Proof.
  intros Ho (n & ts & sig & q & _ & _ & _ & _ & [(u' & Ho' & -> & _)|[Hf _]]).
  - by destruct (opened_unique _ _ _ _ _ _ _ _ _ _ _ _ _ _ _ Ho Ho') as [-> _].
  - by destruct (foreign_m_not _ _ _ _ Hf Ho).
Qed.

(** * Where validated permits come from *)
Lemma log_issued es now b p ttl k : In (DIssue now b p ttl k) (w_disc (l_w (l_run es))) -> exists h, issued_on es h p k b.
Proof.
  induction es as [|e es IH] using rev_ind; [by intros []|]. rewrite l_run_snoc.
  destruct (l_disc_step pk_deser pk_ser verify debug global redis u_key u_sign u_topics (l_run es) e) as (ops & -> & Hops).
  rewrite in_app_iff. intros [Hin|Hin].
  - destruct (IH Hin) as [h Hi]. exists h. by apply issued_on_app.
  - destruct (Hops _ Hin) as (h & -> & Hw & Hg & Hi). exists h. by exists es, now, [].
Qed.
Lemma validated_issued es hb b p k : validated_on es hb b p k ->
  exists h b0, issued_on es h p k b0 /\ (global = true \/ bid_print b0 = bid_print b).
Proof.
  intros (es1 & t & es2 & -> & _ & _ & Ha). apply d_answer_reason in Ha as (os1 & now0 & b0 & os2 & ttl & Heq & Hg & _).
  destruct (log_issued es1 now0 b0 p ttl k) as [h Hi]; [rewrite Heq, in_app_iff; right; by left|].
  exists h, b0. split; [by apply issued_on_app|done].
Qed.
Lemma dialled_opened es u hb b p : dialled es u hb b p ->
  exists h now b0, opened es u h now /\ issued_on es h p (u_key u) b0 /\ bpub b0 = bpub b.
Proof.
  intros (es1 & es2 & -> & _ & Hu).
  destruct (q_user _ _ _ _ _ _ _ _ _ _ (past_run es1) _ _ Hu) as (h & now & k & b0 & Ho & Hi & Hb).
  assert (k = u_key u) as ->. { eapply opened_asked; [done|]. by eapply issued_asked. }
  exists h, now, b0. split; [by apply opened_app|]. split; [by apply issued_on_app|done].
Qed.
Lemma validated_by es hb b p k : validated_on es hb b p k ->
  (exists u, dialled es u hb b p) \/ (In (LSendB hb (MAuthWithPermit p)) es /\ hb ∈ l_foreign_b (l_run es)).
Proof.
  intros (es1 & t & es2 & -> & Hw & _). destruct (q_val _ _ _ _ _ _ _ _ _ _ (past_run es1) _ _ _ Hw) as [[u Hd]|[Hs Hf]].
  - left. exists u. by apply dialled_app.
  - right. split; [apply in_app_iff; by left|]. clear -Hf. induction (LBrokerValidate hb t :: es2) as [|e l IH] using rev_ind; [by rewrite app_nil_r|].
    rewrite app_assoc, l_run_snoc. by apply foreign_b_grow.
Qed.

(** * The client's verdict *)
Lemma connected_means es u hb : l_users (l_run es) !! u = Some (UConnected hb) ->
  exists h now p b b0 k, opened es u h now /\ issued_on es h p (u_key u) b0 /\ bpub b0 = bpub b
    /\ dialled es u hb b p /\ validated_on es hb b p k
    /\ exists h' b1, issued_on es h' p k b1 /\ (global = true \/ bid_print b1 = bid_print b).
Proof.
  intros Hu. destruct (q_user _ _ _ _ _ _ _ _ _ _ (past_run es) _ _ Hu) as (b & p & Hd & b' & p' & k & Hv).
  destruct (dialled_opened _ _ _ _ _ Hd) as (h & now & b0 & Ho & Hi & Hb).
  assert (b' = b /\ p' = p) as [-> ->].
  { destruct (validated_by _ _ _ _ _ Hv) as [[u' Hd']|[_ Hf]].
    - destruct (dialled_unique _ _ _ _ _ _ _ _ _ _ _ _ _ _ _ _ _ Hd Hd') as (_ & -> & ->). done.
    - by destruct (foreign_b_not _ _ _ _ _ Hf Hd). }
  exists h, now, p, b, b0, k. do 5 (split; [done|]). by apply (validated_issued es hb).
Qed.

(** * Registrations *)
Definition b_topics_past es hb (b : bid) (k : bytes) : Prop := exists p, validated_on es hb b p k.
Lemma topics_step l e hb b k : w_broker (l_w (l_step l e).1) !! hb = Some (BTopics b k) ->
  w_broker (l_w l) !! hb = Some (BTopics b k)
  \/ (exists t p, e = LBrokerValidate hb t /\ w_broker (l_w l) !! hb = Some (BValidate b p) /\ hb ∉ l_gone_b l
       /\ d_answer (w_disc (l_w l)) (DTake t b p) = Some k).
Proof.
  destruct (decide (b_handler e = Some hb)) as [He|He]; [|rewrite w_broker_other by done; by left].
  rewrite l_w_step. unfold under. destruct (broken_off l e) eqn:Eb; [by left|].
  destruct e; try done; injection He as ->.
  - destruct (w_broker (l_w l) !! hb) as [s|] eqn:Es; [rewrite Es; by left|].
    destruct (l_bconns l !! hb) as [[b0 [|m0 i0] o0]|] eqn:Ec; try (rewrite Es; by left).
    cbn [AuthModel.a_step]. rewrite Es. destruct m0; cbn; by rewrite lookup_insert.
  - destruct (w_broker (l_w l) !! hb) as [[b1 p1| |]|] eqn:Es; try (rewrite Es; by left).
    cbn [AuthModel.a_step]. rewrite Es. destruct (d_answer _ _) as [k1|] eqn:Ea; [destruct (pk_deser k1)|]; cbn; rewrite lookup_insert; try done.
    intros [= -> ->]. right. exists now, p1. apply bool_decide_eq_false in Eb. done.
  - destruct (w_broker (l_w l) !! hb) as [[]|] eqn:Es; try (rewrite Es; by left).
    destruct (l_bconns l !! hb) as [[b9 [|m0 i0] o0]|] eqn:Ec; try (rewrite Es; by left).
    cbn [AuthModel.a_step]. rewrite Es. destruct m0; cbn; by rewrite lookup_insert.
Qed.
Lemma topics_validated es hb b k : w_broker (l_w (l_run es)) !! hb = Some (BTopics b k) -> exists p, validated_on es hb b p k.
Proof.
  induction es as [|e es IH] using rev_ind; [done|]. rewrite l_run_snoc. intros [Hw|(t & p & -> & Hw & Hg & Ha)]%topics_step.
  - destruct (IH Hw) as [p Hv]. exists p. by apply validated_on_app.
  - exists p. by exists es, t, [].
Qed.
Lemma admits_inv es e b k topics : l_admits es e = Some (b, k, topics) ->
  exists hb c, e = LBrokerTopics hb /\ w_broker (l_w (l_run es)) !! hb = Some (BTopics b k)
    /\ l_bconns (l_run es) !! hb = Some c /\ In (MSubscribe topics) (bc_in c).
Proof.
  unfold LoginModel.l_admits. rewrite l_out_step. destruct e; try done. unfold under. destruct (broken_off _ _); [done|].
  destruct (w_broker _ !! hb) as [[]|] eqn:Es; try done. destruct (l_bconns _ !! hb) as [[b9 [|m0 i0] o0]|] eqn:Ec; try done.
  cbn [AuthModel.a_step]. rewrite Es. destruct m0; try done. cbn. intros [= -> -> ->]. exists hb. eexists. split; [done|]. split; [done|]. split; [done|]. by left.
Qed.
Lemma registered_means es e b k topics : l_admits es e = Some (b, k, topics) ->
  exists hb p h b0, e = LBrokerTopics hb /\ validated_on es hb b p k
    /\ issued_on es h p k b0 /\ (global = true \/ bid_print b0 = bid_print b) /\ asked es h k
    /\ ((exists u, dialled es u hb b p /\ topics = u_topics u /\ l_users (l_run es) !! u = Some (UConnected hb))
        \/ (hb ∈ l_foreign_b (l_run es) /\ In (LSendB hb (MAuthWithPermit p)) es /\ In (LSendB hb (MSubscribe topics)) es)).
Proof.
  intros (hb & c & -> & Hw & Hc & Hin)%admits_inv. destruct (topics_validated _ _ _ _ Hw) as [p Hv].
  destruct (validated_issued _ _ _ _ _ Hv) as (h & b0 & Hi & Hg).
  exists hb, p, h, b0. split; [done|]. split; [done|]. split; [done|]. split; [done|]. split; [by eapply issued_asked|].
  destruct (q_bin _ _ _ _ _ _ _ _ _ _ (past_run es) _ _ _ Hc Hin) as [(u & p' & Hd & [?|[Ht Hu]])|[Hs Hf]]; [done| |].
  - left. injection Ht as ->. exists u. split; [|done]. destruct (validated_by _ _ _ _ _ Hv) as [[u' Hd']|[_ Hf]].
    + destruct (dialled_unique _ _ _ _ _ _ _ _ _ _ _ _ _ _ _ _ _ Hd Hd') as (-> & _ & ->). done.
    + by destruct (foreign_b_not _ _ _ _ _ Hf Hd).
  - right. split; [done|]. split; [|done]. destruct (validated_by _ _ _ _ _ Hv) as [[u' Hd']|[Hs' _]]; [|done].
    by destruct (foreign_b_not _ _ _ _ _ Hf Hd').
Qed.
(** If every number is issued once, a permit carries the key of the user that presents it. *)
Lemma own_permit es u hb b p k : dialled es u hb b p -> validated_on es hb b p k ->
  (forall h1 h2 k1 k2 b1 b2, issued_on es h1 p k1 b1 -> issued_on es h2 p k2 b2 -> h1 = h2) -> k = u_key u.
Proof.
  intros Hd Hv Hone. destruct (dialled_opened _ _ _ _ _ Hd) as (h & now & b0 & Ho & Hi & _).
  destruct (validated_issued _ _ _ _ _ Hv) as (h' & b1 & Hi' & _). assert (h' = h) as -> by (by eapply Hone).
  eapply opened_asked; [exact Ho|]. by eapply issued_asked.
Qed.
Lemma only_own es e b k topics : l_admits es e = Some (b, k, topics) ->
  (forall h ts sig q, In (LSendM h (MAuthWithKey ts k sig)) es -> pk_deser k = Some q -> verify q (signed_bytes ns_user ts) sig = false) ->
  (forall u h now p b0 hb, opened es u h now -> issued_on es h p k b0 -> ~ In (LSendB hb (MAuthWithPermit p)) es) ->
  (forall p h1 h2 k1 k2 b1 b2, issued_on es h1 p k1 b1 -> issued_on es h2 p k2 b2 -> h1 = h2) ->
  exists u hb p, e = LBrokerTopics hb /\ k = u_key u /\ topics = u_topics u /\ dialled es u hb b p
    /\ l_users (l_run es) !! u = Some (UConnected hb).
Proof.
  intros Ha Hforge Hguess Hone. destruct (registered_means _ _ _ _ _ Ha) as (hb & p & h & b0 & -> & Hv & Hi & _ & Hk & [(u & Hd & -> & Hu)|(_ & Hs & _)]).
  - exists u, hb, p. split; [done|]. split; [|done]. eapply own_permit; [done|done|apply Hone].
  - exfalso. destruct Hk as (now & ts & sig & q & _ & Hq & Hver & _ & [(u & Ho & _)|[_ Hsm]]).
    + by eapply Hguess.
    + by rewrite (Hforge _ _ _ _ Hsm Hq) in Hver.
Qed.
Lemma gone_b_grow l e h : h ∈ l_gone_b l -> h ∈ l_gone_b (l_step l e).1.
Proof. intros Hf. lcases l e; say; try done. cbn. set_solver. Qed.
End login.
