(** Proofs: messages get through brokers that are kept busy. *)
From stdpp Require Import gmap fin_maps fin_sets list.
From Coq Require Import NArith ZArith Lia.
From Verif Require Import IdModel RelMapModel RelMapProofs VMapModel VMapSpec VMapProofs ConnModel ConnSpec ConnProofs ConnProofs2 ConnProofs3 ConnProofs4
  SyncSpec SyncModel DirSyncProofs TopicSyncProofs TopicModel TopicProofs MsgModel RouteModel RouteProofs TaskModel TaskProofs TaskOrder TaskHandles TaskIsolation TaskSync
  NetModel NetProofs NetOrigin NetDelivery NetComplete NetSynced NetConcurrent NetSettle NetSettleDir FifoSpec FifoProofs FifoComplete BusySpec BusyProofs BusyProofs2.

Section busy.
Variable deser : bytes -> option message.
Variable dec_users : bytes -> option direct_map.
Variable dec_topics : bytes -> option topic_map.
Variable valid : N -> bool.
Variable enc_users : direct_map -> bytes.
Variable enc_topics : topic_map -> bytes.
Hypothesis Hcodec : faithful_sync deser dec_users dec_topics enc_users enc_topics.
Notation m_step := (m_step deser dec_users dec_topics valid).
Notation m_run := (m_run deser dec_users dec_topics valid).
Notation m_run_snoc := (m_run_snoc deser dec_users dec_topics valid).
Notation loop_frame := (loop_frame deser dec_users dec_topics valid).
Notation broker_at := (broker_at deser dec_users dec_topics valid).
Notation loop_of := (loop_of deser dec_users dec_topics valid).
Notation n_run := (n_run deser dec_users dec_topics valid enc_users enc_topics).
Notation n_run_snoc := (n_run_snoc deser dec_users dec_topics valid enc_users enc_topics).
Notation wire := (wire enc_users enc_topics).
Notation fine := (fine deser dec_users dec_topics valid).
Notation inv_run := (inv_run deser dec_users dec_topics valid enc_users enc_topics).
Notation comes_from := (comes_from deser dec_users dec_topics valid).
Notation sent_once := (sent_once deser dec_users dec_topics valid).
Notation subscribed_at := (subscribed_at deser dec_users dec_topics valid).
Notation user_told := (user_told deser dec_users dec_topics valid).
Notation topic_told := (topic_told deser dec_users dec_topics valid).
Notation done_with := (done_with deser dec_users dec_topics valid).
Notation caught_up := (caught_up deser dec_users dec_topics valid).
Notation tied := (tied deser dec_users dec_topics valid).
Notation conns_at n b := (m_conns (broker_at n b)).
Notation tasks_at n b := (m_tasks (broker_at n b)).
Notation sent_at n b := (m_sent (broker_at n b)).



Notation hooks_before := (BusyProofs.hooks_before).
Notation fine_before := (BusyProofs.fine_before deser dec_users dec_topics valid enc_users enc_topics).
Notation task_later := (BusyProofs.task_later deser dec_users dec_topics valid enc_users enc_topics).
Notation frame_leads := (BusyProofs.frame_leads deser dec_users dec_topics valid enc_users enc_topics).

Lemma done_le n x h k k' : k' <= k -> done_with n x h k -> done_with n x h k'.
Proof. intros Hle (t & Ht & Hd). exists t. split; [done|]. destruct Hd as [?|[-> ?]]; [left; lia|]. destruct (decide (k' = t_frames t)); [right; done|left; lia]. Qed.
Lemma passes_keep es : hooks_pass es -> hooks_keep es.
Proof. intros [H1 H2]. split; [intros a c hk Hin; apply (H1 _ _ _ Hin)|exact H2]. Qed.
Lemma codec_sync : sync_codec deser enc_users enc_topics.
Proof.
  destruct Hcodec as [H1 H2]. split; intros d; [destruct (H1 d) as (p & d' & Hp & _)|destruct (H2 d) as (p & d' & Hp & _)]; by exists p.
Qed.
Lemma live_user es x u c h : c_get_user_connection (conns_at (n_run es) x) u = Some c -> loop_of (n_run es) x h (OUser u c) -> live (broker_at (n_run es) x) h.
Proof.
  intros Hc Hl. left. destruct (user_registered deser dec_users dec_topics valid _ _ _ _ Hc) as [h' Hr]. exists (OUser u c).
  by rewrite <- (user_handle deser dec_users dec_topics valid enc_users enc_topics es x u c h' h Hr Hl).
Qed.

Lemma once_before p q v : p `prefix_of` q -> admitted_once (n_run q) v -> admitted_once (n_run p) v.
Proof.
  intros Hp Hone x i h1 hh1 c1 ts1 x' i' h2 hh2 c2 ts2 E1 E2. eapply Hone.
  - destruct (trace_later deser dec_users dec_topics valid enc_users enc_topics p q x Hp) as [l ->]. apply lookup_app_l_Some. exact E1.
  - destruct (trace_later deser dec_users dec_topics valid enc_users enc_topics p q x' Hp) as [l ->]. apply lookup_app_l_Some. exact E2.
Qed.
(** A frame that was received after [es2] has not been sent on before. *)
Lemma not_before es2 es3 a h k x ca j : es2 `prefix_of` es3 -> (forall t, tasks_at (n_run es2) a !! h = Some t -> t_frames t < k) ->
  s_task x = h -> s_frame x = k -> (exists raw, e_frame (s_what x) = FRelay raw) -> sent_on (broker_at (n_run es3) a) ca !! j = Some x ->
  length (sent_on (broker_at (n_run es2) a) ca) <= j.
Proof.
  intros H23 H0 <- <- [raw Hw] Hx. destruct (decide (length (sent_on (broker_at (n_run es2) a) ca) <= j)) as [?|Hlt]; [done|exfalso].
  assert (Hlt' : j < length (sent_on (broker_at (n_run es2) a) ca)) by lia. apply lookup_lt_is_Some in Hlt' as [y Hy].
  destruct (sent_on_later deser dec_users dec_topics valid enc_users enc_topics es2 es3 a ca H23) as [l Hl]. rewrite Hl, (lookup_app_l_Some _ _ _ _ Hy) in Hx. injection Hx as ->.
  apply elem_of_list_lookup_2, elem_of_list_filter in Hy as [_ Hy]. apply elem_of_list_In in Hy.
  destruct (relay_received deser dec_users dec_topics valid a (trace (n_run es2) a) x raw Hy Hw) as (hk & _ & _ & Hr & _).
  assert (Ht : exists t, tasks_at (n_run es2) a !! s_task x = Some t).
  { destruct (rcv_run deser dec_users dec_topics valid enc_users enc_topics es2 a _ Hr) as [(u & c' & (t & Ht & _) & _)|(a1 & cb1 & a2 & c2 & (t & Ht & _) & _)]; by exists t. }
  destruct Ht as [t Ht]. pose proof (rcvd_le deser dec_users dec_topics valid a (trace (n_run es2) a) _ t Hr Ht) as Hle. cbn in Hle. specialize (H0 t Ht). lia.
Qed.

Section relay.
Variables (es2 es3 es4 : list nevent) (a : bid) (ca ha : N) (b : bid) (cb hb : N) (v : ukey) (c : N) (u : ukey) (cu h : N) (k : nat) (raw : bytes) (hk : hook) (m : message).
Hypothesis H23 : es2 `prefix_of` es3.
Hypothesis H34 : es3 `prefix_of` es4.
Hypothesis Hh : hooks_pass es4.
Hypothesis Hf : fine (n_run es4).
Hypothesis Ht2 : tied (n_run es2) a ca ha b cb hb.
Hypothesis Ht4 : tied (n_run es4) a ca ha b cb hb.
Hypothesis Hpub : loop_of (n_run es3) a h (OUser u cu).
Hypothesis Hcon : c_get_user_connection (conns_at (n_run es3) a) u = Some cu.
Hypothesis Hnew : forall t, tasks_at (n_run es2) a !! h = Some t -> t_frames t < k.
Hypothesis Hrcv : In (Rcvd h k raw hk) (m_rcvd (broker_at (n_run es3) a)).
Hypothesis Hdone : done_with (n_run es3) a h k.
Hypothesis Hraw : deser raw = Some m.
Hypothesis Hpass : forall x c' hk', In (NDeliver x c' hk') es4 -> hk' m = HProcess m.
Hypothesis Hcu : caught_up (n_run es3) (n_run es4) a ca b hb.

Lemma relayed (Qa Qb : conns -> Prop) (Ta Tb : act -> Prop) :
  (forall p, es2 `prefix_of` p -> p `prefix_of` es3 -> Qa (conns_at (n_run p) a)) ->
  (forall p, es2 `prefix_of` p -> p `prefix_of` es4 -> Qb (conns_at (n_run p) b)) ->
  (forall good s x s' nxt sends, act_step (fun _ => good) s x = (s', nxt, sends) -> Ta x -> Qa s -> Qa s' ->
     (exists y, In y nxt /\ Ta y) \/ (exists e, In e sends /\ e = Emit (inr b) ca (FRelay raw))) ->
  (forall good s x s' nxt sends, act_step (fun _ => good) s x = (s', nxt, sends) -> Tb x -> Qb s -> Qb s' ->
     (exists y, In y nxt /\ Tb y) \/ (exists e, In e sends /\ e = Emit (inl v) c (FRelay raw))) ->
  (exists y, In y (loop_frame (OUser u cu) raw hk).1 /\ Ta y) ->
  (forall hk', hk' m = HProcess m -> exists y, In y (loop_frame (OBroker a cb) raw hk').1 /\ Tb y) ->
  sent_once (n_run es4) b v a h k c raw.
Proof.
  intros HQa HQb HTa HTb Hfa Hfb.
  assert (H24 : es2 `prefix_of` es4) by (etrans; [exact H23|exact H34]).
  destruct (frame_leads Qa Ta _ es2 es3 a h k raw hk (OUser u cu) H23 HQa HTa Hfa Hpub (live_user _ _ _ _ _ Hcon Hpub) Hnew Hrcv Hdone) as (e & Hs & ->).
  set (x := Sent h k (Emit (inr b) ca (FRelay raw))) in *.
  assert (Hx : x ∈ sent_on (broker_at (n_run es3) a) ca) by (apply elem_of_list_filter; split; [done|by apply elem_of_list_In]).
  apply elem_of_list_lookup in Hx as [j Hj].
  pose proof (not_before es2 es3 a h k x ca j H23 Hnew eq_refl eq_refl ltac:(by exists raw) Hj) as Hlow.
  pose proof (lookup_lt_Some _ _ _ Hj) as Hhigh.
  destruct (sent_on_later deser dec_users dec_topics valid enc_users enc_topics es3 es4 a ca H34) as [l Hl].
  assert (Hj4 : sent_on (broker_at (n_run es4) a) ca !! j = Some x) by (rewrite Hl; by apply lookup_app_l_Some).
  assert (Hd4 : done_with (n_run es4) b hb (S j)) by (eapply done_le; [|exact Hcu]; lia).
  destruct (tied_reg deser dec_users dec_topics valid enc_users enc_topics _ _ _ _ _ _ _ Ht4) as [_ Hrb].
  destruct Ht4 as (_ & _ & _ & Hlb & Hlab & _). destruct (inv_run es4) as (_ & I2 & I3 & _).
  assert (Hr4 : exists hk', In (Rcvd hb (S j) raw hk') (m_rcvd (broker_at (n_run es4) b)) /\ hk' m = HProcess m).
  { destruct Hd4 as (t & Ht & Hd).
    pose proof (got_length deser dec_users dec_topics valid (n_run es4) b hb t Ht) as Hlen.
    assert (Hlt : j < length (map r_raw (got (broker_at (n_run es4) b) hb))) by (rewrite map_length, Hlen; lia).
    apply lookup_lt_is_Some in Hlt as [raw' Hg]. destruct (got_received deser dec_users dec_topics valid (n_run es4) b hb j raw' Hg) as [hk' Hr].
    destruct (I3 b _ a cb Hr) as (a' & c' & y & Hl' & Hy & Hw); [exact Hlb|]. cbn [r_task r_frame r_raw] in Hl', Hy, Hw.
    destruct (I2 _ _ _ _ _ _ Hlab Hl') as [<- <-]. rewrite Nat.sub_succ, Nat.sub_0_r, Hj4 in Hy. injection Hy as <-. cbn in Hw. subst raw'.
    exists hk'. split; [done|].
    destruct (rcv_run deser dec_users dec_topics valid enc_users enc_topics es4 b _ Hr) as [(u' & c' & (t4 & Ht4' & Ho4) & _)|(a1 & cb1 & a2 & c2 & _ & H2)].
    - exfalso. cbn in Ht4'. destruct Hlb as (t5 & Ht5 & Ho5). congruence.
    - cbn in H2. by eapply Hpass. }
  destruct Hr4 as (hk' & Hr4 & Hk').
  assert (H0b : forall t, tasks_at (n_run es2) b !! hb = Some t -> t_frames t < S j).
  { intros t Ht. assert (t_frames t <= length (sent_on (broker_at (n_run es2) a) ca)); [|lia].
    eapply frames_le_run; [exact Hcodec|by eapply hooks_before|by eapply fine_before| |exact Ht]. by destruct Ht2 as (_ & _ & _ & _ & ? & _). }
  destruct (frame_leads Qb Tb _ es2 es4 b hb (S j) raw hk' (OBroker a cb) H24 HQb HTb (Hfb hk' Hk') Hlb ltac:(left; by exists (OBroker a cb)) H0b Hr4 Hd4) as (e & Hs4 & ->).
  apply (once_unique deser dec_users dec_topics valid enc_users enc_topics es4 b (Sent hb (S j) (Emit (inl v) c (FRelay raw))) v c raw a h k).
  - exact codec_sync.
  - by apply hooks_keep_weaken, passes_keep.
  - exact Hs4.
  - done.
  - apply (from_link deser dec_users dec_topics valid (n_run es4) b (Sent hb (S j) (Emit (inl v) c (FRelay raw))) a ca x Hlab). cbn [s_frame]. by rewrite Nat.sub_succ, Nat.sub_0_r.
Qed.
End relay.


(** ** What tasks do with a message *)
Lemma removed_broker s b : c_get_broker_connection (c_remove_broker s b) b = None.
Proof. unfold c_get_broker_connection. rewrite rb_brokers. by rewrite lookup_delete. Qed.
Lemma removed_user s v : c_get_user_connection (c_remove_user s v) v = None.
Proof. unfold c_get_user_connection. rewrite ru_users. by rewrite lookup_delete. Qed.

(** Handing a frame to the broker [b], and to the user [v]. *)
Definition to_broker (b : bid) (ca : N) (raw : bytes) (x : act) : Prop :=
  x = ALookupBroker b (FRelay raw) \/ x = ASendBroker b ca (FRelay raw) \/ x = ARemoveBroker b.
Definition to_user (v : ukey) (c : N) (raw : bytes) (x : act) : Prop :=
  x = ALookupUser v (FRelay raw) \/ x = ASendUser v c (FRelay raw) \/ x = ARemoveUser v.

Lemma to_broker_step b ca raw good s x s' nxt sends :
  act_step (fun _ => good) s x = (s', nxt, sends) -> to_broker b ca raw x -> c_get_broker_connection s b = Some ca -> c_get_broker_connection s' b = Some ca ->
  (exists y, In y nxt /\ to_broker b ca raw y) \/ (exists e, In e sends /\ e = Emit (inr b) ca (FRelay raw)).
Proof.
  intros Hs [-> |[-> | ->]] Hc Hc'; cbn [act_step] in Hs.
  - rewrite Hc in Hs. injection Hs as <- <- <-. left. eexists. split; [by left|]. right. by left.
  - destruct good; injection Hs as <- <- <-; [right; eexists; split; [by left|done]|left; eexists; split; [by left|]; right; by right].
  - injection Hs as <- <- <-. exfalso. by rewrite removed_broker in Hc'.
Qed.
Lemma to_user_step v c raw good s x s' nxt sends :
  act_step (fun _ => good) s x = (s', nxt, sends) -> to_user v c raw x -> c_get_user_connection s v = Some c -> c_get_user_connection s' v = Some c ->
  (exists y, In y nxt /\ to_user v c raw y) \/ (exists e, In e sends /\ e = Emit (inl v) c (FRelay raw)).
Proof.
  intros Hs [-> |[-> | ->]] Hc Hc'; cbn [act_step] in Hs.
  - rewrite Hc in Hs. injection Hs as <- <- <-. left. eexists. split; [by left|]. right. by left.
  - destruct good; injection Hs as <- <- <-; [right; eexists; split; [by left|done]|left; eexists; split; [by left|]; right; by right].
  - injection Hs as <- <- <-. exfalso. by rewrite removed_user in Hc'.
Qed.

(** *** Direct messages *)
Definition Qbroker v b ca a (s : conns) : Prop := c_get_broker_identifier_of_user s v = Some b /\ c_get_broker_connection s b = Some ca /\ identity s = a.
Definition Quser v c b (s : conns) : Prop := c_get_broker_identifier_of_user s v = Some b /\ c_get_user_connection s v = Some c /\ identity s = b.
Lemma direct_out v b ca a raw good s x s' nxt sends : a <> b ->
  act_step (fun _ => good) s x = (s', nxt, sends) -> x = ADirect v raw false \/ to_broker b ca raw x -> Qbroker v b ca a s -> Qbroker v b ca a s' ->
  (exists y, In y nxt /\ (y = ADirect v raw false \/ to_broker b ca raw y)) \/ (exists e, In e sends /\ e = Emit (inr b) ca (FRelay raw)).
Proof.
  intros Hne Hs [->|Hx] (Q1 & Q2 & Q3) (_ & Q2' & _).
  - cbn [act_step] in Hs. unfold direct_next in Hs. rewrite Q1, decide_False in Hs by congruence. injection Hs as <- <- <-.
    left. eexists. split; [by left|]. right. by left.
  - destruct (to_broker_step _ _ _ _ _ _ _ _ _ Hs Hx Q2 Q2') as [(y & ? & ?)|?]; [left; exists y; by split; [|right]|by right].
Qed.
Lemma direct_in v c b raw only good s x s' nxt sends :
  act_step (fun _ => good) s x = (s', nxt, sends) -> x = ADirect v raw only \/ to_user v c raw x -> Quser v c b s -> Quser v c b s' ->
  (exists y, In y nxt /\ (y = ADirect v raw only \/ to_user v c raw y)) \/ (exists e, In e sends /\ e = Emit (inl v) c (FRelay raw)).
Proof.
  intros Hs [->|Hx] (Q1 & Q2 & Q3) (_ & Q2' & _).
  - cbn [act_step] in Hs. unfold direct_next in Hs. rewrite Q1, decide_True in Hs by congruence. injection Hs as <- <- <-.
    left. eexists. split; [by left|]. right. by left.
  - destruct (to_user_step _ _ _ _ _ _ _ _ _ Hs Hx Q2 Q2') as [(y & ? & ?)|?]; [left; exists y; by split; [|right]|by right].
Qed.

(** *** Broadcasts *)
Definition Bbroker t b ca (s : conns) : Prop := (forall ts, In t ts -> In b (c_get_interested_by_topic s ts false).1) /\ c_get_broker_connection s b = Some ca.
Definition Buser t v c (s : conns) : Prop := (forall ts only, In t ts -> In v (c_get_interested_by_topic s ts only).2) /\ c_get_user_connection s v = Some c.
Lemma broadcast_out t b ca raw good s x s' nxt sends :
  act_step (fun _ => good) s x = (s', nxt, sends) -> (exists ts, x = ABroadcast ts raw false /\ In t ts) \/ to_broker b ca raw x -> Bbroker t b ca s -> Bbroker t b ca s' ->
  (exists y, In y nxt /\ ((exists ts, y = ABroadcast ts raw false /\ In t ts) \/ to_broker b ca raw y)) \/ (exists e, In e sends /\ e = Emit (inr b) ca (FRelay raw)).
Proof.
  intros Hs [(ts & -> & Hin)|Hx] (Q1 & Q2) (_ & Q2').
  - cbn [act_step] in Hs. unfold broadcast_next in Hs. specialize (Q1 ts Hin). destruct (c_get_interested_by_topic s ts false) as [bs us]. injection Hs as <- <- <-.
    left. exists (ALookupBroker b (FRelay raw)). split; [|right; by left]. apply in_app_iff. left. by apply in_map_iff; exists b.
  - destruct (to_broker_step _ _ _ _ _ _ _ _ _ Hs Hx Q2 Q2') as [(y & ? & ?)|?]; [left; exists y; by split; [|right]|by right].
Qed.
Lemma broadcast_in t v c raw only good s x s' nxt sends :
  act_step (fun _ => good) s x = (s', nxt, sends) -> (exists ts, x = ABroadcast ts raw only /\ In t ts) \/ to_user v c raw x -> Buser t v c s -> Buser t v c s' ->
  (exists y, In y nxt /\ ((exists ts, y = ABroadcast ts raw only /\ In t ts) \/ to_user v c raw y)) \/ (exists e, In e sends /\ e = Emit (inl v) c (FRelay raw)).
Proof.
  intros Hs [(ts & -> & Hin)|Hx] (Q1 & Q2) (_ & Q2').
  - cbn [act_step] in Hs. unfold broadcast_next in Hs. specialize (Q1 ts only Hin). destruct (c_get_interested_by_topic s ts only) as [bs us]. injection Hs as <- <- <-.
    left. exists (ALookupUser v (FRelay raw)). split; [|right; by left]. apply in_app_iff. right. by apply in_map_iff; exists v.
  - destruct (to_user_step _ _ _ _ _ _ _ _ _ Hs Hx Q2 Q2') as [(y & ? & ?)|?]; [left; exists y; by split; [|right]|by right].
Qed.

Lemma quser_at es v c b : c_get_user_connection (conns_at (n_run es) b) v = Some c -> Quser v c b (conns_at (n_run es) b).
Proof.
  intros Hc. split; [|split; [done|by apply state_identity]]. apply (state_directory deser dec_users dec_topics valid (n_run es) b v). by exists c.
Qed.
Lemma buser_at es v c b t : subscribed_at (n_run es) b v t -> c_get_user_connection (conns_at (n_run es) b) v = Some c -> Buser t v c (conns_at (n_run es) b).
Proof. intros Hs Hc. split; [|done]. intros ts only Hin. apply interested_split. by exists t. Qed.

(** ** At one broker *)
Lemma served (Q : conns -> Prop) (T : act -> Prop) es1 es b v c u cu h k raw hk :
  es1 `prefix_of` es -> hooks_pass es -> (forall p, es1 `prefix_of` p -> p `prefix_of` es -> Q (conns_at (n_run p) b)) ->
  (forall good s x s' nxt sends, act_step (fun _ => good) s x = (s', nxt, sends) -> T x -> Q s -> Q s' ->
     (exists y, In y nxt /\ T y) \/ (exists e, In e sends /\ e = Emit (inl v) c (FRelay raw))) ->
  (exists y, In y (loop_frame (OUser u cu) raw hk).1 /\ T y) ->
  loop_of (n_run es) b h (OUser u cu) -> c_get_user_connection (conns_at (n_run es) b) u = Some cu ->
  (forall t, tasks_at (n_run es1) b !! h = Some t -> t_frames t < k) -> In (Rcvd h k raw hk) (m_rcvd (broker_at (n_run es) b)) -> done_with (n_run es) b h k ->
  sent_once (n_run es) b v b h k c raw.
Proof.
  intros H1 Hh HQ HT Hfr Hl Hcu H0 Hr Hd.
  destruct (frame_leads Q T _ es1 es b h k raw hk (OUser u cu) H1 HQ HT Hfr Hl (live_user _ _ _ _ _ Hcu Hl) H0 Hr Hd) as (e & Hs & ->).
  apply (once_unique deser dec_users dec_topics valid enc_users enc_topics es b (Sent h k (Emit (inl v) c (FRelay raw))) v c raw b h k); [exact codec_sync|by apply hooks_keep_weaken, passes_keep|exact Hs|done|].
  exact (from_here deser dec_users dec_topics valid (n_run es) b (Sent h k (Emit (inl v) c (FRelay raw))) u cu Hl).
Qed.

Lemma direct_served es1 es b v c u cu h k raw hk body :
  es1 `prefix_of` es -> hooks_pass es ->
  c_get_user_connection (conns_at (n_run es1) b) v = Some c -> c_get_user_connection (conns_at (n_run es) b) v = Some c ->
  loop_of (n_run es) b h (OUser u cu) -> c_get_user_connection (conns_at (n_run es) b) u = Some cu ->
  (forall t, tasks_at (n_run es1) b !! h = Some t -> t_frames t < k) -> In (Rcvd h k raw hk) (m_rcvd (broker_at (n_run es) b)) -> done_with (n_run es) b h k ->
  deser raw = Some (MDirect v body) -> hk (MDirect v body) = HProcess (MDirect v body) ->
  sent_once (n_run es) b v b h k c raw.
Proof.
  intros H1 Hh Hc1 Hc Hl Hcu H0 Hr Hd Hraw Hk.
  apply (served (Quser v c b) (fun x => x = ADirect v raw false \/ to_user v c raw x) es1 es b v c u cu h k raw hk); try done.
  - intros p Hp Hpes. apply quser_at. by eapply (user_between deser dec_users dec_topics valid enc_users enc_topics es1 es).
  - intros good s x s' nxt sends. apply direct_in.
  - cbn [TaskModel.loop_frame]. unfold user_frame. rewrite Hraw, Hk. eexists. split; [by left|]. by left.
Qed.
Lemma broadcast_served es1 es b v c u cu h k raw hk ts t body :
  es1 `prefix_of` es -> hooks_pass es ->
  c_get_user_connection (conns_at (n_run es1) b) v = Some c -> c_get_user_connection (conns_at (n_run es) b) v = Some c ->
  (forall p, es1 `prefix_of` p -> p `prefix_of` es -> subscribed_at (n_run p) b v t) ->
  loop_of (n_run es) b h (OUser u cu) -> c_get_user_connection (conns_at (n_run es) b) u = Some cu ->
  (forall t, tasks_at (n_run es1) b !! h = Some t -> t_frames t < k) -> In (Rcvd h k raw hk) (m_rcvd (broker_at (n_run es) b)) -> done_with (n_run es) b h k ->
  deser raw = Some (MBroadcast ts body) -> hk (MBroadcast ts body) = HProcess (MBroadcast ts body) -> In t ts -> valid t = true ->
  sent_once (n_run es) b v b h k c raw.
Proof.
  intros H1 Hh Hc1 Hc Hsub Hl Hcu H0 Hr Hd Hraw Hk Hts Hv.
  apply (served (Buser t v c) (fun x => (exists ts, x = ABroadcast ts raw false /\ In t ts) \/ to_user v c raw x) es1 es b v c u cu h k raw hk); try done.
  - intros p Hp Hpes. apply buser_at; [by apply Hsub|]. by eapply (user_between deser dec_users dec_topics valid enc_users enc_topics es1 es).
  - intros good s x s' nxt sends. apply broadcast_in.
  - cbn [TaskModel.loop_frame]. unfold user_frame. rewrite Hraw, Hk. pose proof (proj2 (prune_in valid ts t) (conj Hts Hv)) as Hin.
    assert (Hok : (prune valid ts).2 = true) by (apply prune_ok; by exists t). destruct (prune valid ts) as [ts' good]. cbn in Hin, Hok. subst good.
    eexists. split; [by left|]. left. by exists ts'.
Qed.

(** ** Across a link *)
Lemma direct_relayed es1 es2 es3 es4 a ca ha b cb hb v c u cu h k raw hk body :
  es1 `prefix_of` es2 -> es2 `prefix_of` es3 -> es3 `prefix_of` es4 -> hooks_pass es4 -> fine (n_run es4) ->
  tied (n_run es1) a ca ha b cb hb -> tied (n_run es4) a ca ha b cb hb -> admitted_once (n_run es4) v ->
  c_get_user_connection (conns_at (n_run es1) b) v = Some c -> c_get_user_connection (conns_at (n_run es4) b) v = Some c ->
  user_told (n_run es1) b a v -> caught_up (n_run es1) (n_run es2) b cb a ha ->
  loop_of (n_run es3) a h (OUser u cu) -> c_get_user_connection (conns_at (n_run es3) a) u = Some cu ->
  (forall t, tasks_at (n_run es2) a !! h = Some t -> t_frames t < k) -> In (Rcvd h k raw hk) (m_rcvd (broker_at (n_run es3) a)) -> done_with (n_run es3) a h k ->
  deser raw = Some (MDirect v body) -> hk (MDirect v body) = HProcess (MDirect v body) ->
  (forall x c' hk', In (NDeliver x c' hk') es4 -> hk' (MDirect v body) = HProcess (MDirect v body)) ->
  caught_up (n_run es3) (n_run es4) a ca b hb ->
  sent_once (n_run es4) b v a h k c raw.
Proof.
  intros H12 H23 H34 Hh Hf Ht1 Ht4 Hone Hc1 Hc4 Htold Hcu1 Hl Hcu H0 Hr Hd Hraw Hk Hpass Hcu3.
  assert (H24 : es2 `prefix_of` es4) by (etrans; [exact H23|exact H34]). assert (H14 : es1 `prefix_of` es4) by (etrans; [exact H12|exact H24]).
  pose proof (tied_between deser dec_users dec_topics valid enc_users enc_topics _ _ _ _ _ _ _ _ H14 Ht1 Ht4) as Htied.
  pose proof (user_between deser dec_users dec_topics valid enc_users enc_topics _ _ _ _ _ H14 Hc1 Hc4) as Hcon.
  assert (Hne : a <> b). { destruct Ht4 as (_ & _ & _ & _ & Hlab & _). destruct (inv_run es4) as (I0 & _). by destruct (I0 _ _ _ _ Hlab) as [? _]. }
  assert (Hone2 : forall p, p `prefix_of` es4 -> admitted_once (n_run p) v) by (intros p Hp; by eapply once_before).
  assert (Hk2 : d_in v b (direct (conns_at (n_run es2) a))).
  { eapply (known_told deser dec_users dec_topics valid enc_users enc_topics Hcodec v b c es1 es2 a ca ha cb hb H12); try done; [by eapply hooks_before|by eapply fine_before|by apply Hone2|by apply Hcon|by apply Htied]. }
  assert (Hkn : forall p, es2 `prefix_of` p -> p `prefix_of` es4 -> d_in v b (direct (conns_at (n_run p) a))).
  { eapply (known_stays deser dec_users dec_topics valid enc_users enc_topics Hcodec v b c es2 es4 a H24); try done. by apply Hcon. }
  apply (relayed es2 es3 es4 a ca ha b cb hb v c u cu h k raw hk (MDirect v body)) with (Qa := Qbroker v b ca a) (Qb := Quser v c b)
    (Ta := fun x => x = ADirect v raw false \/ to_broker b ca raw x) (Tb := fun x => x = ADirect v raw true \/ to_user v c raw x); try done.
  - by apply Htied.
  - intros p Hp Hp3. assert (Hp4 : p `prefix_of` es4) by (etrans; [exact Hp3|exact H34]). split; [|split; [|by apply state_identity]].
    + pose proof (Hkn p Hp Hp4) as Hd1. unfold d_in in Hd1. unfold c_get_broker_identifier_of_user, vm_get. by rewrite Hd1.
    + destruct (Htied p) as (? & _); [etrans; [exact H12|exact Hp]|done|done].
  - intros p Hp Hp4. apply quser_at. apply Hcon; [etrans; [exact H12|exact Hp]|done].
  - intros good s x s' nxt sends. by apply direct_out.
  - intros good s x s' nxt sends. by apply direct_in.
  - cbn [TaskModel.loop_frame]. unfold user_frame. rewrite Hraw, Hk. eexists. split; [by left|]. by left.
  - intros hk' Hk'. cbn [TaskModel.loop_frame]. unfold broker_frame. rewrite Hraw, Hk'. eexists. split; [by left|]. by left.
Qed.

Lemma broadcast_relayed es1 es2 es3 es4 a ca ha b cb hb v c u cu h k raw hk ts t body :
  es1 `prefix_of` es2 -> es2 `prefix_of` es3 -> es3 `prefix_of` es4 -> hooks_pass es4 -> fine (n_run es4) ->
  tied (n_run es1) a ca ha b cb hb -> tied (n_run es4) a ca ha b cb hb ->
  c_get_user_connection (conns_at (n_run es1) b) v = Some c -> c_get_user_connection (conns_at (n_run es4) b) v = Some c ->
  (forall p, es1 `prefix_of` p -> p `prefix_of` es4 -> subscribed_at (n_run p) b v t) ->
  topic_told (n_run es1) b a t -> caught_up (n_run es1) (n_run es2) b cb a ha ->
  loop_of (n_run es3) a h (OUser u cu) -> c_get_user_connection (conns_at (n_run es3) a) u = Some cu ->
  (forall t, tasks_at (n_run es2) a !! h = Some t -> t_frames t < k) -> In (Rcvd h k raw hk) (m_rcvd (broker_at (n_run es3) a)) -> done_with (n_run es3) a h k ->
  deser raw = Some (MBroadcast ts body) -> hk (MBroadcast ts body) = HProcess (MBroadcast ts body) -> In t ts -> valid t = true ->
  (forall x c' hk', In (NDeliver x c' hk') es4 -> hk' (MBroadcast ts body) = HProcess (MBroadcast ts body)) ->
  caught_up (n_run es3) (n_run es4) a ca b hb ->
  sent_once (n_run es4) b v a h k c raw.
Proof.
  intros H12 H23 H34 Hh Hf Ht1 Ht4 Hc1 Hc4 Hsub Htold Hcu1 Hl Hcu H0 Hr Hd Hraw Hk Hts Hv Hpass Hcu3.
  assert (H24 : es2 `prefix_of` es4) by (etrans; [exact H23|exact H34]). assert (H14 : es1 `prefix_of` es4) by (etrans; [exact H12|exact H24]).
  pose proof (tied_between deser dec_users dec_topics valid enc_users enc_topics _ _ _ _ _ _ _ _ H14 Ht1 Ht4) as Htied.
  pose proof (user_between deser dec_users dec_topics valid enc_users enc_topics _ _ _ _ _ H14 Hc1 Hc4) as Hcon.
  pose proof (topic_heard deser dec_users dec_topics valid enc_users enc_topics Hcodec es1 es2 es4 a ca ha b cb hb v t H12 H24 Hh Hf Hsub Ht1 Ht4 Htold Hcu1) as Hkn.
  apply (relayed es2 es3 es4 a ca ha b cb hb v c u cu h k raw hk (MBroadcast ts body)) with (Qa := Bbroker t b ca) (Qb := Buser t v c)
    (Ta := fun x => (exists ts, x = ABroadcast ts raw false /\ In t ts) \/ to_broker b ca raw x) (Tb := fun x => (exists ts, x = ABroadcast ts raw true /\ In t ts) \/ to_user v c raw x); try done.
  - by apply Htied.
  - intros p Hp Hp3. assert (Hp4 : p `prefix_of` es4) by (etrans; [exact Hp3|exact H34]). split.
    + intros ts0 Hin. apply interested_brokers_split. exists t. split; [done|by apply Hkn].
    + destruct (Htied p) as (? & _); [etrans; [exact H12|exact Hp]|done|done].
  - intros p Hp Hp4. assert (Hp1 : es1 `prefix_of` p) by (etrans; [exact H12|exact Hp]). apply buser_at; [by apply Hsub|by apply Hcon].
  - intros good s x s' nxt sends. by apply broadcast_out.
  - intros good s x s' nxt sends. by apply broadcast_in.
  - cbn [TaskModel.loop_frame]. unfold user_frame. rewrite Hraw, Hk. pose proof (proj2 (prune_in valid ts t) (conj Hts Hv)) as Hin.
    assert (Hok : (prune valid ts).2 = true) by (apply prune_ok; by exists t). destruct (prune valid ts) as [ts' good]. cbn in Hin, Hok. subst good.
    eexists. split; [by left|]. left. by exists ts'.
  - intros hk' Hk'. cbn [TaskModel.loop_frame]. unfold broker_frame. rewrite Hraw, Hk'. eexists. split; [by left|]. left. by exists ts.
Qed.

End busy.
