(** Property C88: news is announced in time. The proofs are in ClockProofs.v and ClockProofs2.v, the
    model of the sync task and of the clock in ClockModel.v.

    [delay] bounds how long a round of the sync task, the handler of a new connection or a removal
    takes once it has begun; receive loops may take any time. *)
From stdpp Require Import gmap fin_maps list countable.
From Coq Require Import NArith Lia.
From Verif Require Import IdModel RelMapModel VMapModel ConnModel ConnSpec ConnProofs3 TopicModel MsgModel RouteModel
  TaskModel TaskProofs TaskOrder TaskHandles TaskGuarded TaskCheck TaskSync NetModel NetProofs NetOrigin NetComplete NetSynced NetConcurrent NetDelivery NetCheck
  NetSettle NetSettleDir PropertiesNet PropertiesSettle FifoSpec BusySpec PropertiesBusy BusyProofs ClockModel ClockProofs ClockProofs2.

(** * C88 *)
(** The sync task keeps going: more than 10 s and two delays after any moment at which it was running,
    a round that began after that moment is over. *)
Theorem C88_rounds_keep_coming :
  forall deser dec_users dec_topics valid enc_users enc_topics delay cs1 cs2 b,
  let run := n_run deser dec_users dec_topics valid enc_users enc_topics in
  let clock := clock_run deser dec_users dec_topics valid enc_users enc_topics delay in
  cs1 `prefix_of` cs2 -> ck_sync (clock cs1) !! b <> None -> (ck_now (clock cs1) + 10 + 2 * delay < ck_now (clock cs2))%N ->
  exists es h, ck_events (clock cs1) `prefix_of` es /\ es ++ [NStep b (ESync h)] `prefix_of` ck_events (clock cs2)
    /\ m_tasks (broker_at deser dec_users dec_topics valid (run es) b) !! h = None
    /\ exists t, m_tasks (broker_at deser dec_users dec_topics valid (run (ck_events (clock cs2))) b) !! h = Some t /\ t_acts t = [].
Proof.
  intros deser dec_users dec_topics valid enc_users enc_topics delay cs1 cs2 b run clock H12 Hrun Hlt.
  destruct (round_in_time deser dec_users dec_topics valid enc_users enc_topics delay b cs1 Hrun cs2 H12 Hlt) as (cs' & _ & H2 & p & h & t & Hp & Hp' & Hn & Ht & Ha & _).
  destruct (clock_later deser dec_users dec_topics valid enc_users enc_topics delay _ _ H2) as (P2 & _).
  exists p, h. split; [exact Hp|]. split; [etrans; [exact Hp'|exact P2]|]. split; [exact Hn|].
  assert (Ho : t_owner t = OOther).
  { pose proof (round_begins deser dec_users dec_topics valid enc_users enc_topics p b h Hn) as Hb.
    destruct (task_later deser dec_users dec_topics valid enc_users enc_topics _ _ _ _ _ Hp' Hb) as (t' & Ht' & Ho & _). rewrite Ht in Ht'. injection Ht' as <-. exact Ho. }
  destruct (task_later deser dec_users dec_topics valid enc_users enc_topics _ _ _ _ _ P2 Ht) as (t' & Ht' & _).
  exists t'. split; [exact Ht'|]. apply (idle_acts deser dec_users dec_topics valid _ _ _ _ Ht').
  eapply (idle_later deser dec_users dec_topics valid enc_users enc_topics _ _ b h t P2 Ht Ho). by apply (idle_acts deser dec_users dec_topics valid _ _ _ _ Ht).
Qed.
Print Assumptions C88_rounds_keep_coming.

(** Subscriptions: the sync task of [b] runs at [cs1]. If the topic has a subscriber at [b] at every
    moment from [cs1] to [cs2], more than 10 s and three delays later, then [b] has told [a], provided
    that no link with [a] was set up meanwhile and none is being ended. *)
Theorem C88_topic_told_in_time :
  forall deser dec_users dec_topics valid enc_users enc_topics delay cs1 cs2 a b t,
  let run := n_run deser dec_users dec_topics valid enc_users enc_topics in
  let clock := clock_run deser dec_users dec_topics valid enc_users enc_topics delay in
  let net cs := run (ck_events (clock cs)) in
  cs1 `prefix_of` cs2 -> fine deser dec_users dec_topics valid (net cs2) ->
  ck_sync (clock cs1) !! b <> None -> (ck_now (clock cs1) + 10 + 3 * delay < ck_now (clock cs2))%N ->
  (forall h hh c, In (EBrokerAuthed h hh a c) (trace (net cs2) b) -> In (EBrokerAuthed h hh a c) (trace (net cs1) b)) ->
  (forall h tk, m_tasks (broker_at deser dec_users dec_topics valid (net cs2) b) !! h = Some tk -> ~ In (ARemoveBroker a) (t_acts tk)) ->
  (forall es, ck_events (clock cs1) `prefix_of` es -> es `prefix_of` ck_events (clock cs2) ->
     exists v, subscribed_at deser dec_users dec_topics valid (run es) b v t) ->
  topic_told deser dec_users dec_topics valid (net cs2) b a t.
Proof.
  intros deser dec_users dec_topics valid enc_users enc_topics delay cs1 cs2 a b t run clock net H12 Hf Hrun Hlt Hlinks Hends Hsub.
  by apply (topic_in_time deser dec_users dec_topics valid enc_users enc_topics delay a b cs1 cs2 H12 Hlinks Hends).
Qed.
Print Assumptions C88_topic_told_in_time.

(** Arrivals do not wait for the sync task: a user authenticated by [cs1] and still connected two delays
    later has been announced. *)
Theorem C88_user_told_in_time :
  forall deser dec_users dec_topics valid enc_users enc_topics delay cs1 cs2 a b v c h hh ts,
  faithful_sync deser dec_users dec_topics enc_users enc_topics ->
  let run := n_run deser dec_users dec_topics valid enc_users enc_topics in
  let clock := clock_run deser dec_users dec_topics valid enc_users enc_topics delay in
  let net cs := run (ck_events (clock cs)) in
  cs1 `prefix_of` cs2 -> hooks_pass (ck_events (clock cs2)) -> fine deser dec_users dec_topics valid (net cs2) -> admitted_once (net cs2) v ->
  (ck_now (clock cs1) + 2 * delay < ck_now (clock cs2))%N ->
  (forall h hh c, In (EBrokerAuthed h hh a c) (trace (net cs2) b) -> In (EBrokerAuthed h hh a c) (trace (net cs1) b)) ->
  (forall h tk, m_tasks (broker_at deser dec_users dec_topics valid (net cs2) b) !! h = Some tk -> ~ In (ARemoveBroker a) (t_acts tk)) ->
  In (EUserAuthed h hh v c ts) (trace (net cs1) b) ->
  c_get_user_connection (m_conns (broker_at deser dec_users dec_topics valid (net cs2) b)) v = Some c ->
  user_told deser dec_users dec_topics valid (net cs2) b a v.
Proof.
  intros deser dec_users dec_topics valid enc_users enc_topics delay cs1 cs2 a b v c h hh ts Hcod run clock net H12 Hh Hf Hone Hlt Hlinks Hends Hadm Hc.
  by apply (user_in_time deser dec_users dec_topics valid enc_users enc_topics Hcod delay a b cs1 cs2 H12 Hlinks Hends v c h hh ts Hadm Hc).
Qed.
Print Assumptions C88_user_told_in_time.

(** So have the topics to which the user is subscribed as long as connected. *)
Theorem C88_first_topics_told_in_time :
  forall deser dec_users dec_topics valid enc_users enc_topics delay cs1 cs2 a b v c h hh ts t,
  let run := n_run deser dec_users dec_topics valid enc_users enc_topics in
  let clock := clock_run deser dec_users dec_topics valid enc_users enc_topics delay in
  let net cs := run (ck_events (clock cs)) in
  cs1 `prefix_of` cs2 -> fine deser dec_users dec_topics valid (net cs2) ->
  (ck_now (clock cs1) + 2 * delay < ck_now (clock cs2))%N ->
  (forall h hh c, In (EBrokerAuthed h hh a c) (trace (net cs2) b) -> In (EBrokerAuthed h hh a c) (trace (net cs1) b)) ->
  (forall h tk, m_tasks (broker_at deser dec_users dec_topics valid (net cs2) b) !! h = Some tk -> ~ In (ARemoveBroker a) (t_acts tk)) ->
  In (EUserAuthed h hh v c ts) (trace (net cs1) b) ->
  c_get_user_connection (m_conns (broker_at deser dec_users dec_topics valid (net cs2) b)) v = Some c ->
  (forall es, es `prefix_of` ck_events (clock cs2) ->
     c_get_user_connection (m_conns (broker_at deser dec_users dec_topics valid (run es) b)) v = Some c ->
     subscribed_at deser dec_users dec_topics valid (run es) b v t) ->
  topic_told deser dec_users dec_topics valid (net cs2) b a t.
Proof.
  intros deser dec_users dec_topics valid enc_users enc_topics delay cs1 cs2 a b v c h hh ts t run clock net H12 Hf Hlt Hlinks Hends Hadm Hc Hsub.
  by apply (first_topic_in_time deser dec_users dec_topics valid enc_users enc_topics delay a b cs1 cs2 H12 Hlinks Hends v c h hh ts Hadm Hc).
Qed.
Print Assumptions C88_first_topics_told_in_time.

(** With C87: a broadcast accepted by [a] once it has read what [b] had sent it by [cs2] reaches a user
    who has been subscribed at [b] for more than 10 s and three delays by [cs2]. *)
Theorem C88_broadcast_after_the_period :
  forall deser dec_users dec_topics valid enc_users enc_topics delay cs1 cs2 cs3 cs4 cs5 a ca ha b cb hb v c u cu h k raw hk ts t body,
  faithful_sync deser dec_users dec_topics enc_users enc_topics ->
  let run := n_run deser dec_users dec_topics valid enc_users enc_topics in
  let clock := clock_run deser dec_users dec_topics valid enc_users enc_topics delay in
  let net cs := run (ck_events (clock cs)) in
  let at_ := broker_at deser dec_users dec_topics valid in
  cs1 `prefix_of` cs2 -> cs2 `prefix_of` cs3 -> cs3 `prefix_of` cs4 -> cs4 `prefix_of` cs5 ->
  hooks_pass (ck_events (clock cs5)) -> fine deser dec_users dec_topics valid (net cs5) ->
  (* time passes, the sync task running *)
  ck_sync (clock cs1) !! b <> None -> (ck_now (clock cs1) + 10 + 3 * delay < ck_now (clock cs2))%N ->
  (* the link and the recipient *)
  tied deser dec_users dec_topics valid (net cs2) a ca ha b cb hb -> tied deser dec_users dec_topics valid (net cs5) a ca ha b cb hb ->
  (forall h hh c, In (EBrokerAuthed h hh a c) (trace (net cs2) b) -> In (EBrokerAuthed h hh a c) (trace (net cs1) b)) ->
  (forall h tk, m_tasks (at_ (net cs2) b) !! h = Some tk -> ~ In (ARemoveBroker a) (t_acts tk)) ->
  c_get_user_connection (m_conns (at_ (net cs2) b)) v = Some c -> c_get_user_connection (m_conns (at_ (net cs5) b)) v = Some c ->
  (forall es, ck_events (clock cs1) `prefix_of` es -> es `prefix_of` ck_events (clock cs5) -> subscribed_at deser dec_users dec_topics valid (run es) b v t) ->
  (* [a] has listened *)
  caught_up deser dec_users dec_topics valid (net cs2) (net cs3) b cb a ha ->
  (* the message *)
  loop_of deser dec_users dec_topics valid (net cs4) a h (OUser u cu) -> c_get_user_connection (m_conns (at_ (net cs4) a)) u = Some cu ->
  (forall tk, m_tasks (at_ (net cs3) a) !! h = Some tk -> t_frames tk < k) -> In (Rcvd h k raw hk) (m_rcvd (at_ (net cs4) a)) ->
  done_with deser dec_users dec_topics valid (net cs4) a h k ->
  deser raw = Some (MBroadcast ts body) -> hk (MBroadcast ts body) = HProcess (MBroadcast ts body) -> In t ts ->
  (forall x c' hk', In (NDeliver x c' hk') (ck_events (clock cs5)) -> hk' (MBroadcast ts body) = HProcess (MBroadcast ts body)) ->
  caught_up deser dec_users dec_topics valid (net cs4) (net cs5) a ca b hb ->
  sent_once deser dec_users dec_topics valid (net cs5) b v a h k c raw.
Proof.
  intros deser dec_users dec_topics valid enc_users enc_topics delay cs1 cs2 cs3 cs4 cs5 a ca ha b cb hb v c u cu h k raw hk ts t body Hcod run clock net at_
    H12 H23 H34 H45 Hh Hf Hrun Hlt Ht2 Ht5 Hlinks Hends Hc2 Hc5 Hsub. intros.
  assert (P : forall x y, x `prefix_of` y -> ck_events (clock x) `prefix_of` ck_events (clock y)).
  { intros x y Hxy. by destruct (clock_later deser dec_users dec_topics valid enc_users enc_topics delay _ _ Hxy). }
  assert (H25 : cs2 `prefix_of` cs5) by (etrans; [exact H23|]; etrans; [exact H34|exact H45]).
  apply (C87_busy_broadcast deser dec_users dec_topics valid enc_users enc_topics (ck_events (clock cs2)) (ck_events (clock cs3)) (ck_events (clock cs4)) (ck_events (clock cs5)) a ca ha b cb hb v c u cu h k raw hk ts t body Hcod); try assumption; try (by apply P).
  - intros es He1 He2. apply Hsub; [|exact He2]. etrans; [by apply (P cs1 cs2)|exact He1].
  - apply (C88_topic_told_in_time deser dec_users dec_topics valid enc_users enc_topics delay cs1 cs2 a b t); try assumption.
    + eapply fine_before; [apply (P cs2 cs5); exact H25|exact Hf].
    + intros es He1 He2. exists v. apply Hsub; [exact He1|]. etrans; [exact He2|]. by apply P.
Qed.
Print Assumptions C88_broadcast_after_the_period.

(** And a direct message, to a user who had been authenticated at [b] two delays before [cs2]. *)
Theorem C88_direct_soon_after_arrival :
  forall deser dec_users dec_topics valid enc_users enc_topics delay cs1 cs2 cs3 cs4 cs5 a ca ha b cb hb v c hv hhv tv u cu h k raw hk body,
  faithful_sync deser dec_users dec_topics enc_users enc_topics ->
  let run := n_run deser dec_users dec_topics valid enc_users enc_topics in
  let clock := clock_run deser dec_users dec_topics valid enc_users enc_topics delay in
  let net cs := run (ck_events (clock cs)) in
  let at_ := broker_at deser dec_users dec_topics valid in
  cs1 `prefix_of` cs2 -> cs2 `prefix_of` cs3 -> cs3 `prefix_of` cs4 -> cs4 `prefix_of` cs5 ->
  hooks_pass (ck_events (clock cs5)) -> fine deser dec_users dec_topics valid (net cs5) -> admitted_once (net cs5) v ->
  (* the recipient arrives and time passes *)
  In (EUserAuthed hv hhv v c tv) (trace (net cs1) b) -> (ck_now (clock cs1) + 2 * delay < ck_now (clock cs2))%N ->
  (* the link and the recipient *)
  tied deser dec_users dec_topics valid (net cs2) a ca ha b cb hb -> tied deser dec_users dec_topics valid (net cs5) a ca ha b cb hb ->
  (forall h hh c, In (EBrokerAuthed h hh a c) (trace (net cs2) b) -> In (EBrokerAuthed h hh a c) (trace (net cs1) b)) ->
  (forall h tk, m_tasks (at_ (net cs2) b) !! h = Some tk -> ~ In (ARemoveBroker a) (t_acts tk)) ->
  c_get_user_connection (m_conns (at_ (net cs2) b)) v = Some c -> c_get_user_connection (m_conns (at_ (net cs5) b)) v = Some c ->
  (* [a] has listened *)
  caught_up deser dec_users dec_topics valid (net cs2) (net cs3) b cb a ha ->
  (* the message *)
  loop_of deser dec_users dec_topics valid (net cs4) a h (OUser u cu) -> c_get_user_connection (m_conns (at_ (net cs4) a)) u = Some cu ->
  (forall tk, m_tasks (at_ (net cs3) a) !! h = Some tk -> t_frames tk < k) -> In (Rcvd h k raw hk) (m_rcvd (at_ (net cs4) a)) ->
  done_with deser dec_users dec_topics valid (net cs4) a h k ->
  deser raw = Some (MDirect v body) -> hk (MDirect v body) = HProcess (MDirect v body) ->
  (forall x c' hk', In (NDeliver x c' hk') (ck_events (clock cs5)) -> hk' (MDirect v body) = HProcess (MDirect v body)) ->
  caught_up deser dec_users dec_topics valid (net cs4) (net cs5) a ca b hb ->
  sent_once deser dec_users dec_topics valid (net cs5) b v a h k c raw.
Proof.
  intros deser dec_users dec_topics valid enc_users enc_topics delay cs1 cs2 cs3 cs4 cs5 a ca ha b cb hb v c hv hhv tv u cu h k raw hk body Hcod run clock net at_
    H12 H23 H34 H45 Hh Hf Hone Hadm Hlt Ht2 Ht5 Hlinks Hends Hc2 Hc5. intros.
  assert (P : forall x y, x `prefix_of` y -> ck_events (clock x) `prefix_of` ck_events (clock y)).
  { intros x y Hxy. by destruct (clock_later deser dec_users dec_topics valid enc_users enc_topics delay _ _ Hxy). }
  assert (H25 : cs2 `prefix_of` cs5) by (etrans; [exact H23|]; etrans; [exact H34|exact H45]).
  apply (C87_busy_direct deser dec_users dec_topics valid enc_users enc_topics (ck_events (clock cs2)) (ck_events (clock cs3)) (ck_events (clock cs4)) (ck_events (clock cs5)) a ca ha b cb hb v c u cu h k raw hk body Hcod); try assumption; try (by apply P).
  apply (C88_user_told_in_time deser dec_users dec_topics valid enc_users enc_topics delay cs1 cs2 a b v c hv hhv tv Hcod); try assumption.
  - eapply hooks_before; [apply (P cs2 cs5); exact H25|exact Hh].
  - eapply fine_before; [apply (P cs2 cs5); exact H25|exact Hf].
  - eapply BusyProofs3.once_before; [apply (P cs2 cs5); exact H25|exact Hone].
Qed.
Print Assumptions C88_direct_soon_after_arrival.

(** ** Cases that meet the hypotheses *)
(** The network of PropertiesNet.v, with a delay of 1 s. The sync task of B runs its first round and goes
    to sleep. 3 s later ([kx1]) user 3 subscribes to topic 8 at B, while B is busy with a message of user 2
    and never finishes it. After 10 s the sync task wakes up; at 17 s ([kx2]) A has been told. *)
Definition nets (es : list nevent) : list cevent := map CNet es.
Definition kx0 : list cevent := nets nx_setup ++ CStart nB 20 :: nets (goes nB 20 4) ++ [CSleep nB].
Definition kx1 : list cevent := kx0 ++ CTick 3 :: nets (NPublish nB 1 [4;7;9;60]%N no_hook :: goes nB 1 2 ++ NPublish nB 3 [5;8]%N no_hook :: goes nB 3 1).
Definition kx2 : list cevent := kx1 ++ CTick 7 :: CWake nB 21 :: nets (goes nB 21 6) ++ [CSleep nB; CTick 7].
Definition kx3 : list cevent := kx2 ++ nets (NDeliver nB 105 no_hook :: goes nA 5 2).
Definition kx4 : list cevent := kx3 ++ nets (NPublish nA 1 [4;8;99;51]%N no_hook :: goes nA 1 6).
Definition kx5 : list cevent := kx4 ++ nets (NDeliver nA 105 no_hook :: goes nB 5 6).
Notation nx_clock := (clock_run nx_deser nx_dec_users nx_dec_topics nx_valid nx_enc_users nx_enc_topics).
Notation nx_net delay cs := (nx_run (ck_events (nx_clock delay cs))).

Definition links_old (n1 n2 : net) (a b : bid) : bool :=
  forallb (fun e => match e with EBrokerAuthed h hh p c => negb (bool_decide (p = a))
      || existsb (fun e' => match e' with EBrokerAuthed h' hh' p' c' => (h =? h')%N && (hh =? hh')%N && bool_decide (p = p') && (c =? c')%N | _ => false end) (trace n1 b)
    | _ => true end) (trace n2 b).
Lemma links_old_check n1 n2 a b : links_old n1 n2 a b = true -> forall h hh c, In (EBrokerAuthed h hh a c) (trace n2 b) -> In (EBrokerAuthed h hh a c) (trace n1 b).
Proof.
  intros Hl h hh c Hin. unfold links_old in Hl. rewrite forallb_forall in Hl. specialize (Hl _ Hin). cbn in Hl. rewrite bool_decide_true in Hl by done. cbn in Hl.
  apply existsb_exists in Hl as ([|h' hh' p' c'| | | | | |] & Hin' & He); try done. rewrite !andb_true_iff, !N.eqb_eq, bool_decide_eq_true in He. destruct He as (((-> & ->) & <-) & ->). done.
Qed.
Definition ends_b (a : bid) (x : act) : bool := match x with ARemoveBroker p => bool_decide (p = a) | _ => false end.
Lemma ends_check a n b : no_act (ends_b a) n b = true -> forall h t, m_tasks (nx_at n b) !! h = Some t -> ~ In (ARemoveBroker a) (t_acts t).
Proof. intros Hn h t Ht Hin. pose proof (no_act_check _ _ _ _ _ _ Hn Ht Hin) as Hf. cbn in Hf. by rewrite bool_decide_true in Hf. Qed.

(** The histories of the network in these runs. *)
Definition ke1 : list nevent := nx_setup ++ NStep nB (ESync 20) :: goes nB 20 4 ++ NPublish nB 1 [4;7;9;60]%N no_hook :: goes nB 1 2 ++ NPublish nB 3 [5;8]%N no_hook :: goes nB 3 1.
Definition ke_b : list nevent := NStep nB (ESync 21) :: goes nB 21 6.
Definition ke_c : list nevent := NDeliver nB 105 no_hook :: goes nA 5 2.
Definition ke_d : list nevent := NPublish nA 1 [4;8;99;51]%N no_hook :: goes nA 1 6.
Definition ke_e : list nevent := NDeliver nA 105 no_hook :: goes nB 5 6.
Lemma kx_events : ck_events (nx_clock 1 kx1) = ke1 /\ ck_events (nx_clock 1 kx2) = ke1 ++ ke_b /\ ck_events (nx_clock 1 kx3) = ke1 ++ ke_b ++ ke_c
  /\ ck_events (nx_clock 1 kx4) = ke1 ++ ke_b ++ ke_c ++ ke_d /\ ck_events (nx_clock 1 kx5) = ke1 ++ ke_b ++ ke_c ++ ke_d ++ ke_e.
Proof. vm_compute. repeat split. Qed.

Lemma topic_example_at k1 k2 k3 k4 k5 :
  ck_events (nx_clock 1 k1) = ke1 -> ck_events (nx_clock 1 k2) = ke1 ++ ke_b -> ck_events (nx_clock 1 k3) = ke1 ++ ke_b ++ ke_c ->
  ck_events (nx_clock 1 k4) = ke1 ++ ke_b ++ ke_c ++ ke_d -> ck_events (nx_clock 1 k5) = ke1 ++ ke_b ++ ke_c ++ ke_d ++ ke_e ->
  ck_sync (nx_clock 1 k1) !! nB = Some (Asleep 10) -> ck_now (nx_clock 1 k1) = 3%N -> ck_now (nx_clock 1 k2) = 17%N ->
  k1 `prefix_of` k2 -> k2 `prefix_of` k3 -> k3 `prefix_of` k4 -> k4 `prefix_of` k5 ->
  hooks_pass (ck_events (nx_clock 1 k5)) /\ fine nx_deser nx_dec_users nx_dec_topics nx_valid (nx_net 1 k5)
  /\ ~ nx_rest (nx_net 1 k1) /\ ~ nx_rest (nx_net 1 k2) /\ ~ nx_rest (nx_net 1 k5)
  /\ ck_sync (nx_clock 1 k1) !! nB = Some (Asleep 10) /\ ck_now (nx_clock 1 k1) = 3%N /\ ck_now (nx_clock 1 k2) = 17%N
  /\ nx_tied (nx_net 1 k2) nA 105 5 nB 105 5 /\ nx_tied (nx_net 1 k5) nA 105 5 nB 105 5
  /\ (forall h hh c, In (EBrokerAuthed h hh nA c) (trace (nx_net 1 k2) nB) -> In (EBrokerAuthed h hh nA c) (trace (nx_net 1 k1) nB))
  /\ (forall h tk, m_tasks (nx_at (nx_net 1 k2) nB) !! h = Some tk -> ~ In (ARemoveBroker nA) (t_acts tk))
  /\ c_get_user_connection (m_conns (nx_at (nx_net 1 k2) nB)) [3]%N = Some 103%N /\ c_get_user_connection (m_conns (nx_at (nx_net 1 k5) nB)) [3]%N = Some 103%N
  /\ (forall es, ck_events (nx_clock 1 k1) `prefix_of` es -> es `prefix_of` ck_events (nx_clock 1 k5) -> subscribed_at nx_deser nx_dec_users nx_dec_topics nx_valid (nx_run es) nB [3]%N 8)
  /\ nx_caught_up (nx_net 1 k2) (nx_net 1 k3) nB 105 nA 5
  /\ nx_loop (nx_net 1 k4) nA 1 (OUser [1]%N 101) /\ c_get_user_connection (m_conns (nx_at (nx_net 1 k4) nA)) [1]%N = Some 101%N
  /\ (forall t, m_tasks (nx_at (nx_net 1 k3) nA) !! 1%N = Some t -> t_frames t < 1)
  /\ In (Rcvd 1 1 [4;8;99;51]%N no_hook) (m_rcvd (nx_at (nx_net 1 k4) nA)) /\ nx_done (nx_net 1 k4) nA 1 1
  /\ nx_caught_up (nx_net 1 k4) (nx_net 1 k5) nA 105 nB 5
  /\ (forall x c' hk' m, In (NDeliver x c' hk') (ck_events (nx_clock 1 k5)) -> hk' m = HProcess m)
  (* and so the theorems apply *)
  /\ nx_told_topic (nx_net 1 k2) nB nA 8 /\ nx_once (nx_net 1 k5) nB [3]%N nA 1 1 103 [4;8;99;51]%N.
Proof.
  intros E1 E2 E3 E4 E5 S1 N1 N2 H12 H23 H34 H45.
  assert (Hplain : plain_b (ck_events (nx_clock 1 k5))) by (rewrite E5; unfold plain_b; vm_compute; repeat constructor).
  assert (Hh : hooks_pass (ck_events (nx_clock 1 k5))) by (exact (plain_pass _ Hplain)).
  assert (Hf : fine nx_deser nx_dec_users nx_dec_topics nx_valid (nx_net 1 k5)) by (rewrite E5; apply fine_check; vm_compute; reflexivity).
  assert (R1 : ~ nx_rest (nx_net 1 k1)) by (rewrite E1; apply busy_check; vm_compute; reflexivity).
  assert (R2 : ~ nx_rest (nx_net 1 k2)) by (rewrite E2; apply busy_check; vm_compute; reflexivity).
  assert (R5 : ~ nx_rest (nx_net 1 k5)) by (rewrite E5; apply busy_check; vm_compute; reflexivity).
  assert (T2 : nx_tied (nx_net 1 k2) nA 105 5 nB 105 5) by (rewrite E2; tie).
  assert (T5 : nx_tied (nx_net 1 k5) nA 105 5 nB 105 5) by (rewrite E5; tie).
  assert (O : forall h hh c, In (EBrokerAuthed h hh nA c) (trace (nx_net 1 k2) nB) -> In (EBrokerAuthed h hh nA c) (trace (nx_net 1 k1) nB)) by (rewrite E1, E2; apply links_old_check; vm_compute; reflexivity).
  assert (Q : forall h tk, m_tasks (nx_at (nx_net 1 k2) nB) !! h = Some tk -> ~ In (ARemoveBroker nA) (t_acts tk)) by (rewrite E2; apply ends_check; vm_compute; reflexivity).
  assert (C2 : c_get_user_connection (m_conns (nx_at (nx_net 1 k2) nB)) [3]%N = Some 103%N) by (rewrite E2; vm_compute; reflexivity).
  assert (C5 : c_get_user_connection (m_conns (nx_at (nx_net 1 k5) nB)) [3]%N = Some 103%N) by (rewrite E5; vm_compute; reflexivity).
  assert (Hsub : forall es, ck_events (nx_clock 1 k1) `prefix_of` es -> es `prefix_of` ck_events (nx_clock 1 k5) -> subscribed_at nx_deser nx_dec_users nx_dec_topics nx_valid (nx_run es) nB [3]%N 8).
  { rewrite E1, E5. apply subscribed_check. vm_compute. reflexivity. }
  assert (K2 : nx_caught_up (nx_net 1 k2) (nx_net 1 k3) nB 105 nA 5) by (rewrite E2, E3; finished).
  assert (L : nx_loop (nx_net 1 k4) nA 1 (OUser [1]%N 101)) by (rewrite E4; eexists; split; [vm_compute; reflexivity|reflexivity]).
  assert (C4 : c_get_user_connection (m_conns (nx_at (nx_net 1 k4) nA)) [1]%N = Some 101%N) by (rewrite E4; vm_compute; reflexivity).
  assert (F : forall t, m_tasks (nx_at (nx_net 1 k3) nA) !! 1%N = Some t -> t_frames t < 1).
  { rewrite E3. intros t Ht. assert (He : t_frames <$> m_tasks (nx_at (nx_run (ke1 ++ ke_b ++ ke_c)) nA) !! 1%N = Some 0) by (vm_compute; reflexivity). rewrite Ht in He. injection He as ->. lia. }
  assert (M : In (Rcvd 1 1 [4;8;99;51]%N no_hook) (m_rcvd (nx_at (nx_net 1 k4) nA))) by (rewrite E4; vm_compute; repeat (first [left; reflexivity|right])).
  assert (D : nx_done (nx_net 1 k4) nA 1 1) by (rewrite E4; finished).
  assert (K4 : nx_caught_up (nx_net 1 k4) (nx_net 1 k5) nA 105 nB 5) by (rewrite E4, E5; finished).
  assert (P : forall x c' hk' m, In (NDeliver x c' hk') (ck_events (nx_clock 1 k5)) -> hk' m = HProcess m).
  { intros x c' hk' m Hin. unfold plain_b in Hplain. rewrite Forall_forall in Hplain. specialize (Hplain _ Hin). cbn in Hplain. by subst hk'. }
  assert (Hlt : (ck_now (nx_clock 1 k1) + 10 + 3 * 1 < ck_now (nx_clock 1 k2))%N) by (rewrite N1, N2; reflexivity).
  assert (Hrun : ck_sync (nx_clock 1 k1) !! nB <> None) by (rewrite S1; discriminate).
  assert (P25 : ck_events (nx_clock 1 k2) `prefix_of` ck_events (nx_clock 1 k5)) by (rewrite E2, E5; eexists; rewrite <- !app_assoc; reflexivity).
  do 23 (split; [assumption|]). split.
  - apply (C88_topic_told_in_time nx_deser nx_dec_users nx_dec_topics nx_valid nx_enc_users nx_enc_topics 1 k1 k2 nA nB 8); try assumption.
    + eapply fine_before; [exact P25|exact Hf].
    + intros es He1 He2. exists [3]%N. apply Hsub; [exact He1|]. etrans; [exact He2|exact P25].
  - apply (C88_broadcast_after_the_period nx_deser nx_dec_users nx_dec_topics nx_valid nx_enc_users nx_enc_topics 1 k1 k2 k3 k4 k5 nA 105 5 nB 105 5 [3]%N 103 [1]%N 101 1 1 [4;8;99;51]%N no_hook [8;99]%N 8 [51]%N nx_faithful);
      try assumption; try reflexivity.
    + by left.
    + intros x c' hk' Hin. by apply (P x c' hk').
Qed.
Example C88_topic_example :
  hooks_pass (ck_events (nx_clock 1 kx5)) /\ fine nx_deser nx_dec_users nx_dec_topics nx_valid (nx_net 1 kx5)
  /\ ~ nx_rest (nx_net 1 kx1) /\ ~ nx_rest (nx_net 1 kx2) /\ ~ nx_rest (nx_net 1 kx5)
  /\ ck_sync (nx_clock 1 kx1) !! nB = Some (Asleep 10) /\ ck_now (nx_clock 1 kx1) = 3%N /\ ck_now (nx_clock 1 kx2) = 17%N
  /\ nx_tied (nx_net 1 kx2) nA 105 5 nB 105 5 /\ nx_tied (nx_net 1 kx5) nA 105 5 nB 105 5
  /\ (forall h hh c, In (EBrokerAuthed h hh nA c) (trace (nx_net 1 kx2) nB) -> In (EBrokerAuthed h hh nA c) (trace (nx_net 1 kx1) nB))
  /\ (forall h tk, m_tasks (nx_at (nx_net 1 kx2) nB) !! h = Some tk -> ~ In (ARemoveBroker nA) (t_acts tk))
  /\ c_get_user_connection (m_conns (nx_at (nx_net 1 kx2) nB)) [3]%N = Some 103%N /\ c_get_user_connection (m_conns (nx_at (nx_net 1 kx5) nB)) [3]%N = Some 103%N
  /\ (forall es, ck_events (nx_clock 1 kx1) `prefix_of` es -> es `prefix_of` ck_events (nx_clock 1 kx5) -> subscribed_at nx_deser nx_dec_users nx_dec_topics nx_valid (nx_run es) nB [3]%N 8)
  /\ nx_caught_up (nx_net 1 kx2) (nx_net 1 kx3) nB 105 nA 5
  /\ nx_loop (nx_net 1 kx4) nA 1 (OUser [1]%N 101) /\ c_get_user_connection (m_conns (nx_at (nx_net 1 kx4) nA)) [1]%N = Some 101%N
  /\ (forall t, m_tasks (nx_at (nx_net 1 kx3) nA) !! 1%N = Some t -> t_frames t < 1)
  /\ In (Rcvd 1 1 [4;8;99;51]%N no_hook) (m_rcvd (nx_at (nx_net 1 kx4) nA)) /\ nx_done (nx_net 1 kx4) nA 1 1
  /\ nx_caught_up (nx_net 1 kx4) (nx_net 1 kx5) nA 105 nB 5
  /\ (forall x c' hk' m, In (NDeliver x c' hk') (ck_events (nx_clock 1 kx5)) -> hk' m = HProcess m)
  (* and so the theorems apply *)
  /\ nx_told_topic (nx_net 1 kx2) nB nA 8 /\ nx_once (nx_net 1 kx5) nB [3]%N nA 1 1 103 [4;8;99;51]%N.
Proof.
  destruct kx_events as (E1 & E2 & E3 & E4 & E5).
  refine (topic_example_at kx1 kx2 kx3 kx4 kx5 E1 E2 E3 E4 E5 _ _ _ _ _ _ _); [vm_compute; reflexivity|vm_compute; reflexivity|vm_compute; reflexivity|..]; by apply prefix_app_r.
Qed.

(** User 4 arrives at B at 3 s, with topic 8 ([ky1]); 3 s later it has been announced ([ky2]), and user 1
    sends it a message. *)
Definition ky1 : list cevent := kx0 ++ CTick 3 :: nets (NPublish nB 1 [4;7;9;60]%N no_hook :: goes nB 1 2 ++ [NUser nB 7 8 [4]%N 107 [8]%N]).
Definition ky2 : list cevent := ky1 ++ nets (goes nB 8 9) ++ [CTick 3].
Definition ky3 : list cevent := ky2 ++ nets (NDeliver nB 105 no_hook :: goes nA 5 2 ++ NDeliver nB 105 no_hook :: goes nA 5 2).
Definition ky4 : list cevent := ky3 ++ nets (NPublish nA 1 [3;4;50]%N no_hook :: goes nA 1 4).
Definition ky5 : list cevent := ky4 ++ nets (NDeliver nA 105 no_hook :: goes nB 5 4).
Definition kf1 : list nevent := nx_setup ++ NStep nB (ESync 20) :: goes nB 20 4 ++ NPublish nB 1 [4;7;9;60]%N no_hook :: goes nB 1 2 ++ [NUser nB 7 8 [4]%N 107 [8]%N].
Definition kf_b : list nevent := goes nB 8 9.
Definition kf_c : list nevent := NDeliver nB 105 no_hook :: goes nA 5 2 ++ NDeliver nB 105 no_hook :: goes nA 5 2.
Definition kf_d : list nevent := NPublish nA 1 [3;4;50]%N no_hook :: goes nA 1 4.
Definition kf_e : list nevent := NDeliver nA 105 no_hook :: goes nB 5 4.
Lemma ky_events : ck_events (nx_clock 1 ky1) = kf1 /\ ck_events (nx_clock 1 ky2) = kf1 ++ kf_b /\ ck_events (nx_clock 1 ky3) = kf1 ++ kf_b ++ kf_c
  /\ ck_events (nx_clock 1 ky4) = kf1 ++ kf_b ++ kf_c ++ kf_d /\ ck_events (nx_clock 1 ky5) = kf1 ++ kf_b ++ kf_c ++ kf_d ++ kf_e.
Proof. vm_compute. repeat split. Qed.
(** At every moment, user [v] is subscribed to [t] at [b] if connected there. *)
Definition always_b (l : list nevent) (b : bid) (v : ukey) (c t : N) : bool :=
  forallb (fun i => let s := m_conns (nx_at (nx_run (take i l)) b) in
    negb (bool_decide (c_get_user_connection s v = Some c)) || bool_decide (v ∈ (c_get_interested_by_topic s [t] true).2)) (seq 0 (S (length l))).
Lemma always_check l b v c t : always_b l b v c t = true ->
  forall es, es `prefix_of` l -> c_get_user_connection (m_conns (nx_at (nx_run es) b)) v = Some c -> subscribed_at nx_deser nx_dec_users nx_dec_topics nx_valid (nx_run es) b v t.
Proof.
  intros Hb es [l1 ->] Hc. unfold always_b in Hb. rewrite forallb_forall in Hb. specialize (Hb (length es)). rewrite take_app in Hb.
  cbv zeta in Hb. rewrite bool_decide_true in Hb by exact Hc. cbn [negb orb] in Hb. unfold subscribed_at. apply elem_of_list_In. eapply bool_decide_eq_true, Hb.
  apply in_seq. rewrite app_length. lia.
Qed.
Lemma arrival_example_at k1 k2 k3 k4 k5 :
  ck_events (nx_clock 1 k1) = kf1 -> ck_events (nx_clock 1 k2) = kf1 ++ kf_b -> ck_events (nx_clock 1 k3) = kf1 ++ kf_b ++ kf_c ->
  ck_events (nx_clock 1 k4) = kf1 ++ kf_b ++ kf_c ++ kf_d -> ck_events (nx_clock 1 k5) = kf1 ++ kf_b ++ kf_c ++ kf_d ++ kf_e ->
  ck_now (nx_clock 1 k1) = 3%N -> ck_now (nx_clock 1 k2) = 6%N ->
  k1 `prefix_of` k2 -> k2 `prefix_of` k3 -> k3 `prefix_of` k4 -> k4 `prefix_of` k5 ->
  hooks_pass (ck_events (nx_clock 1 k5)) /\ fine nx_deser nx_dec_users nx_dec_topics nx_valid (nx_net 1 k5) /\ admitted_once (nx_net 1 k5) [4]%N
  /\ ~ nx_rest (nx_net 1 k1) /\ ~ nx_rest (nx_net 1 k2) /\ ~ nx_rest (nx_net 1 k5)
  /\ ck_now (nx_clock 1 k1) = 3%N /\ ck_now (nx_clock 1 k2) = 6%N
  /\ In (EUserAuthed 7 8 [4]%N 107 [8]%N) (trace (nx_net 1 k1) nB)
  /\ nx_tied (nx_net 1 k2) nA 105 5 nB 105 5 /\ nx_tied (nx_net 1 k5) nA 105 5 nB 105 5
  /\ (forall h hh c, In (EBrokerAuthed h hh nA c) (trace (nx_net 1 k2) nB) -> In (EBrokerAuthed h hh nA c) (trace (nx_net 1 k1) nB))
  /\ (forall h tk, m_tasks (nx_at (nx_net 1 k2) nB) !! h = Some tk -> ~ In (ARemoveBroker nA) (t_acts tk))
  /\ c_get_user_connection (m_conns (nx_at (nx_net 1 k2) nB)) [4]%N = Some 107%N /\ c_get_user_connection (m_conns (nx_at (nx_net 1 k5) nB)) [4]%N = Some 107%N
  /\ (forall es, es `prefix_of` ck_events (nx_clock 1 k2) -> c_get_user_connection (m_conns (nx_at (nx_run es) nB)) [4]%N = Some 107%N ->
        subscribed_at nx_deser nx_dec_users nx_dec_topics nx_valid (nx_run es) nB [4]%N 8)
  /\ nx_caught_up (nx_net 1 k2) (nx_net 1 k3) nB 105 nA 5
  /\ nx_loop (nx_net 1 k4) nA 1 (OUser [1]%N 101) /\ c_get_user_connection (m_conns (nx_at (nx_net 1 k4) nA)) [1]%N = Some 101%N
  /\ (forall t, m_tasks (nx_at (nx_net 1 k3) nA) !! 1%N = Some t -> t_frames t < 1)
  /\ In (Rcvd 1 1 [3;4;50]%N no_hook) (m_rcvd (nx_at (nx_net 1 k4) nA)) /\ nx_done (nx_net 1 k4) nA 1 1
  /\ nx_caught_up (nx_net 1 k4) (nx_net 1 k5) nA 105 nB 5
  /\ (forall x c' hk' m, In (NDeliver x c' hk') (ck_events (nx_clock 1 k5)) -> hk' m = HProcess m)
  (* and so the theorems apply *)
  /\ nx_told_topic (nx_net 1 k2) nB nA 8 /\ nx_once (nx_net 1 k5) nB [4]%N nA 1 1 107 [3;4;50]%N.
Proof.
  intros E1 E2 E3 E4 E5 N1 N2 H12 H23 H34 H45.
  assert (Hplain : plain_b (ck_events (nx_clock 1 k5))) by (rewrite E5; unfold plain_b; vm_compute; repeat constructor).
  assert (Hh : hooks_pass (ck_events (nx_clock 1 k5))) by (exact (plain_pass _ Hplain)).
  assert (Hf : fine nx_deser nx_dec_users nx_dec_topics nx_valid (nx_net 1 k5)) by (rewrite E5; apply fine_check; vm_compute; reflexivity).
  assert (Hone : admitted_once (nx_net 1 k5) [4]%N) by (rewrite E5; apply once_check; vm_compute; lia).
  assert (R1 : ~ nx_rest (nx_net 1 k1)) by (rewrite E1; apply busy_check; vm_compute; reflexivity).
  assert (R2 : ~ nx_rest (nx_net 1 k2)) by (rewrite E2; apply busy_check; vm_compute; reflexivity).
  assert (R5 : ~ nx_rest (nx_net 1 k5)) by (rewrite E5; apply busy_check; vm_compute; reflexivity).
  assert (Hadm : In (EUserAuthed 7 8 [4]%N 107 [8]%N) (trace (nx_net 1 k1) nB)) by (rewrite E1; vm_compute; repeat (first [left; reflexivity|right])).
  assert (T2 : nx_tied (nx_net 1 k2) nA 105 5 nB 105 5) by (rewrite E2; tie).
  assert (T5 : nx_tied (nx_net 1 k5) nA 105 5 nB 105 5) by (rewrite E5; tie).
  assert (O : forall h hh c, In (EBrokerAuthed h hh nA c) (trace (nx_net 1 k2) nB) -> In (EBrokerAuthed h hh nA c) (trace (nx_net 1 k1) nB)) by (rewrite E1, E2; apply links_old_check; vm_compute; reflexivity).
  assert (Q : forall h tk, m_tasks (nx_at (nx_net 1 k2) nB) !! h = Some tk -> ~ In (ARemoveBroker nA) (t_acts tk)) by (rewrite E2; apply ends_check; vm_compute; reflexivity).
  assert (C2 : c_get_user_connection (m_conns (nx_at (nx_net 1 k2) nB)) [4]%N = Some 107%N) by (rewrite E2; vm_compute; reflexivity).
  assert (C5 : c_get_user_connection (m_conns (nx_at (nx_net 1 k5) nB)) [4]%N = Some 107%N) by (rewrite E5; vm_compute; reflexivity).
  assert (Hsub : forall es, es `prefix_of` ck_events (nx_clock 1 k2) -> c_get_user_connection (m_conns (nx_at (nx_run es) nB)) [4]%N = Some 107%N ->
        subscribed_at nx_deser nx_dec_users nx_dec_topics nx_valid (nx_run es) nB [4]%N 8).
  { rewrite E2. apply always_check. vm_compute. reflexivity. }
  assert (K2 : nx_caught_up (nx_net 1 k2) (nx_net 1 k3) nB 105 nA 5) by (rewrite E2, E3; finished).
  assert (L : nx_loop (nx_net 1 k4) nA 1 (OUser [1]%N 101)) by (rewrite E4; eexists; split; [vm_compute; reflexivity|reflexivity]).
  assert (C4 : c_get_user_connection (m_conns (nx_at (nx_net 1 k4) nA)) [1]%N = Some 101%N) by (rewrite E4; vm_compute; reflexivity).
  assert (F : forall t, m_tasks (nx_at (nx_net 1 k3) nA) !! 1%N = Some t -> t_frames t < 1).
  { rewrite E3. intros t Ht. assert (He : t_frames <$> m_tasks (nx_at (nx_run (kf1 ++ kf_b ++ kf_c)) nA) !! 1%N = Some 0) by (vm_compute; reflexivity). rewrite Ht in He. injection He as ->. lia. }
  assert (M : In (Rcvd 1 1 [3;4;50]%N no_hook) (m_rcvd (nx_at (nx_net 1 k4) nA))) by (rewrite E4; vm_compute; repeat (first [left; reflexivity|right])).
  assert (D : nx_done (nx_net 1 k4) nA 1 1) by (rewrite E4; finished).
  assert (K4 : nx_caught_up (nx_net 1 k4) (nx_net 1 k5) nA 105 nB 5) by (rewrite E4, E5; finished).
  assert (P : forall x c' hk' m, In (NDeliver x c' hk') (ck_events (nx_clock 1 k5)) -> hk' m = HProcess m).
  { intros x c' hk' m Hin. unfold plain_b in Hplain. rewrite Forall_forall in Hplain. specialize (Hplain _ Hin). cbn in Hplain. by subst hk'. }
  assert (Hlt : (ck_now (nx_clock 1 k1) + 2 * 1 < ck_now (nx_clock 1 k2))%N) by (rewrite N1, N2; reflexivity).
  assert (P25 : ck_events (nx_clock 1 k2) `prefix_of` ck_events (nx_clock 1 k5)) by (rewrite E2, E5; eexists; rewrite <- !app_assoc; reflexivity).
  do 24 (split; [assumption|]). split.
  - apply (C88_first_topics_told_in_time nx_deser nx_dec_users nx_dec_topics nx_valid nx_enc_users nx_enc_topics 1 k1 k2 nA nB [4]%N 107 7 8 [8]%N 8); try assumption.
    eapply fine_before; [exact P25|exact Hf].
  - apply (C88_direct_soon_after_arrival nx_deser nx_dec_users nx_dec_topics nx_valid nx_enc_users nx_enc_topics 1 k1 k2 k3 k4 k5 nA 105 5 nB 105 5 [4]%N 107 7 8 [8]%N [1]%N 101 1 1 [3;4;50]%N no_hook [50]%N nx_faithful);
      try assumption; try reflexivity.
    intros x c' hk' Hin. by apply (P x c' hk').
Qed.
Example C88_arrival_example :
  hooks_pass (ck_events (nx_clock 1 ky5)) /\ fine nx_deser nx_dec_users nx_dec_topics nx_valid (nx_net 1 ky5) /\ admitted_once (nx_net 1 ky5) [4]%N
  /\ ~ nx_rest (nx_net 1 ky1) /\ ~ nx_rest (nx_net 1 ky2) /\ ~ nx_rest (nx_net 1 ky5)
  /\ ck_now (nx_clock 1 ky1) = 3%N /\ ck_now (nx_clock 1 ky2) = 6%N
  /\ In (EUserAuthed 7 8 [4]%N 107 [8]%N) (trace (nx_net 1 ky1) nB)
  /\ nx_tied (nx_net 1 ky2) nA 105 5 nB 105 5 /\ nx_tied (nx_net 1 ky5) nA 105 5 nB 105 5
  /\ (forall h hh c, In (EBrokerAuthed h hh nA c) (trace (nx_net 1 ky2) nB) -> In (EBrokerAuthed h hh nA c) (trace (nx_net 1 ky1) nB))
  /\ (forall h tk, m_tasks (nx_at (nx_net 1 ky2) nB) !! h = Some tk -> ~ In (ARemoveBroker nA) (t_acts tk))
  /\ c_get_user_connection (m_conns (nx_at (nx_net 1 ky2) nB)) [4]%N = Some 107%N /\ c_get_user_connection (m_conns (nx_at (nx_net 1 ky5) nB)) [4]%N = Some 107%N
  /\ (forall es, es `prefix_of` ck_events (nx_clock 1 ky2) -> c_get_user_connection (m_conns (nx_at (nx_run es) nB)) [4]%N = Some 107%N ->
        subscribed_at nx_deser nx_dec_users nx_dec_topics nx_valid (nx_run es) nB [4]%N 8)
  /\ nx_caught_up (nx_net 1 ky2) (nx_net 1 ky3) nB 105 nA 5
  /\ nx_loop (nx_net 1 ky4) nA 1 (OUser [1]%N 101) /\ c_get_user_connection (m_conns (nx_at (nx_net 1 ky4) nA)) [1]%N = Some 101%N
  /\ (forall t, m_tasks (nx_at (nx_net 1 ky3) nA) !! 1%N = Some t -> t_frames t < 1)
  /\ In (Rcvd 1 1 [3;4;50]%N no_hook) (m_rcvd (nx_at (nx_net 1 ky4) nA)) /\ nx_done (nx_net 1 ky4) nA 1 1
  /\ nx_caught_up (nx_net 1 ky4) (nx_net 1 ky5) nA 105 nB 5
  /\ (forall x c' hk' m, In (NDeliver x c' hk') (ck_events (nx_clock 1 ky5)) -> hk' m = HProcess m)
  (* and so the theorems apply *)
  /\ nx_told_topic (nx_net 1 ky2) nB nA 8 /\ nx_once (nx_net 1 ky5) nB [4]%N nA 1 1 107 [3;4;50]%N.
Proof.
  destruct ky_events as (E1 & E2 & E3 & E4 & E5).
  refine (arrival_example_at ky1 ky2 ky3 ky4 ky5 E1 E2 E3 E4 E5 _ _ _ _ _ _); [vm_compute; reflexivity|vm_compute; reflexivity|..]; by apply prefix_app_r.
Qed.

(** ** Subscriptions do wait for the sync task *)
(** Nothing takes any time (the delay is 0); user 3 subscribes to topic 8 just after a round. At 10 s
    user 1 sends a broadcast about topic 8, A having read all it was sent. Every other hypothesis of
    [C88_broadcast_after_the_period] holds, and user 3 is never sent the message. *)
Definition kz1 : list cevent := kx0 ++ nets (NPublish nB 3 [5;8]%N no_hook :: goes nB 3 1).
Definition kz2 : list cevent := kz1 ++ [CTick 10].
Definition kz4 : list cevent := kz2 ++ nets (NPublish nA 1 [4;8;99;51]%N no_hook :: goes nA 1 6).
Definition kz5 : list cevent := kz4 ++ CWake nB 21 :: nets (goes nB 21 6) ++ CSleep nB :: nets (NDeliver nB 105 no_hook :: goes nA 5 2).
Definition kg1 : list nevent := nx_setup ++ NStep nB (ESync 20) :: goes nB 20 4 ++ NPublish nB 3 [5;8]%N no_hook :: goes nB 3 1.
Definition kg_d : list nevent := NPublish nA 1 [4;8;99;51]%N no_hook :: goes nA 1 6.
Definition kg_e : list nevent := NStep nB (ESync 21) :: goes nB 21 6 ++ NDeliver nB 105 no_hook :: goes nA 5 2.
Lemma kz_events : ck_events (nx_clock 0 kz1) = kg1 /\ ck_events (nx_clock 0 kz2) = kg1 /\ ck_events (nx_clock 0 kz4) = kg1 ++ kg_d /\ ck_events (nx_clock 0 kz5) = kg1 ++ kg_d ++ kg_e.
Proof. vm_compute. repeat split. Qed.
Lemma sooner_at k1 k2 k4 k5 :
  ck_events (nx_clock 0 k1) = kg1 -> ck_events (nx_clock 0 k2) = kg1 -> ck_events (nx_clock 0 k4) = kg1 ++ kg_d -> ck_events (nx_clock 0 k5) = kg1 ++ kg_d ++ kg_e ->
  ck_sync (nx_clock 0 k1) !! nB = Some (Asleep 10) -> ck_now (nx_clock 0 k1) = 0%N -> ck_now (nx_clock 0 k2) = 10%N ->
  k1 `prefix_of` k2 -> k2 `prefix_of` k4 -> k4 `prefix_of` k5 ->
  exists cs1 cs2 cs4 cs5 a ca ha b cb hb v c u cu h k raw ts t body,
  let clock := nx_clock 0 in let n1 := nx_net 0 cs1 in let n2 := nx_net 0 cs2 in let n4 := nx_net 0 cs4 in let n5 := nx_net 0 cs5 in
  cs1 `prefix_of` cs2 /\ cs2 `prefix_of` cs4 /\ cs4 `prefix_of` cs5
  /\ hooks_pass (ck_events (clock cs5)) /\ fine nx_deser nx_dec_users nx_dec_topics nx_valid n5
  /\ ck_sync (clock cs1) !! b <> None /\ ck_now (clock cs2) = (ck_now (clock cs1) + 10)%N
  /\ nx_tied n2 a ca ha b cb hb /\ nx_tied n5 a ca ha b cb hb
  /\ (forall h hh c, In (EBrokerAuthed h hh a c) (trace n2 b) -> In (EBrokerAuthed h hh a c) (trace n1 b))
  /\ (forall h tk, m_tasks (nx_at n2 b) !! h = Some tk -> ~ In (ARemoveBroker a) (t_acts tk))
  /\ c_get_user_connection (m_conns (nx_at n2 b)) v = Some c /\ c_get_user_connection (m_conns (nx_at n5 b)) v = Some c
  /\ (forall es, ck_events (clock cs1) `prefix_of` es -> es `prefix_of` ck_events (clock cs5) -> subscribed_at nx_deser nx_dec_users nx_dec_topics nx_valid (nx_run es) b v t)
  /\ nx_caught_up n2 n2 b cb a ha
  /\ nx_loop n4 a h (OUser u cu) /\ c_get_user_connection (m_conns (nx_at n4 a)) u = Some cu
  /\ (forall tk, m_tasks (nx_at n2 a) !! h = Some tk -> t_frames tk < k) /\ In (Rcvd h k raw no_hook) (m_rcvd (nx_at n4 a)) /\ nx_done n4 a h k
  /\ nx_deser raw = Some (MBroadcast ts body) /\ In t ts /\ nx_caught_up n4 n5 a ca b hb
  (* everybody is done with everything *)
  /\ nx_caught_up n5 n5 a ca b hb /\ nx_caught_up n5 n5 b cb a ha
  /\ ~ nx_told_topic n2 b a t /\ nx_never n5 b v a h k.
Proof.
  intros E1 E2 E4 E5 S N1 N2 H12 H24 H45. exists k1, k2, k4, k5, nA, 105%N, 5%N, nB, 105%N, 5%N, [3]%N, 103%N, [1]%N, 101%N, 1%N, 1, [4;8;99;51]%N, [8;99]%N, 8%N, [51]%N. cbv zeta.
  rewrite N1, N2, S, E1, E2, E4, E5. clear E1 E2 E4 E5.
  do 3 (split; [assumption|]).
  split; [apply plain_pass; unfold plain_b; vm_compute; repeat constructor|]. split; [apply fine_check; vm_compute; reflexivity|].
  split; [discriminate|]. split; [reflexivity|]. split; [tie|]. split; [tie|].
  split; [apply links_old_check; vm_compute; reflexivity|]. split; [apply ends_check; vm_compute; reflexivity|].
  split; [vm_compute; reflexivity|]. split; [vm_compute; reflexivity|].
  split; [apply subscribed_check; vm_compute; reflexivity|]. split; [finished|].
  split; [eexists; split; [vm_compute; reflexivity|reflexivity]|]. split; [vm_compute; reflexivity|].
  split.
  { intros t Ht. assert (He : t_frames <$> m_tasks (nx_at (nx_run kg1) nA) !! 1%N = Some 0) by (vm_compute; reflexivity). rewrite Ht in He. injection He as ->. lia. }
  split; [vm_compute; repeat (first [left; reflexivity|right])|]. split; [finished|]. split; [reflexivity|]. split; [by left|].
  split; [finished|]. split; [finished|]. split; [finished|]. split.
  - intros [Hd _].
    assert (He : match (c_get_partial_topic_sync (m_conns (nx_at (nx_run kg1) nB))).2 with Some d => bool_decide (entries d !! 8%N = None) | None => true end = false) by (vm_compute; reflexivity).
    destruct (c_get_partial_topic_sync (m_conns (nx_at (nx_run kg1) nB))).2 as [d|]; [|discriminate He]. rewrite bool_decide_true in He; [discriminate He|]. by apply Hd.
  - intros x Hx Hto Hc.
    assert (Hnone : forallb (fun x => negb (bool_decide (e_to (s_what x) = inl [3]%N))) (m_sent (nx_at (nx_run (kg1 ++ kg_d ++ kg_e)) nB)) = true) by (vm_compute; reflexivity).
    rewrite forallb_forall in Hnone. specialize (Hnone x Hx). apply negb_true_iff, bool_decide_eq_false in Hnone. by apply Hnone.
Qed.
Theorem C88_sooner_refuted :
  exists cs1 cs2 cs4 cs5 a ca ha b cb hb v c u cu h k raw ts t body,
  let clock := nx_clock 0 in let n1 := nx_net 0 cs1 in let n2 := nx_net 0 cs2 in let n4 := nx_net 0 cs4 in let n5 := nx_net 0 cs5 in
  cs1 `prefix_of` cs2 /\ cs2 `prefix_of` cs4 /\ cs4 `prefix_of` cs5
  /\ hooks_pass (ck_events (clock cs5)) /\ fine nx_deser nx_dec_users nx_dec_topics nx_valid n5
  /\ ck_sync (clock cs1) !! b <> None /\ ck_now (clock cs2) = (ck_now (clock cs1) + 10)%N
  /\ nx_tied n2 a ca ha b cb hb /\ nx_tied n5 a ca ha b cb hb
  /\ (forall h hh c, In (EBrokerAuthed h hh a c) (trace n2 b) -> In (EBrokerAuthed h hh a c) (trace n1 b))
  /\ (forall h tk, m_tasks (nx_at n2 b) !! h = Some tk -> ~ In (ARemoveBroker a) (t_acts tk))
  /\ c_get_user_connection (m_conns (nx_at n2 b)) v = Some c /\ c_get_user_connection (m_conns (nx_at n5 b)) v = Some c
  /\ (forall es, ck_events (clock cs1) `prefix_of` es -> es `prefix_of` ck_events (clock cs5) -> subscribed_at nx_deser nx_dec_users nx_dec_topics nx_valid (nx_run es) b v t)
  /\ nx_caught_up n2 n2 b cb a ha
  /\ nx_loop n4 a h (OUser u cu) /\ c_get_user_connection (m_conns (nx_at n4 a)) u = Some cu
  /\ (forall tk, m_tasks (nx_at n2 a) !! h = Some tk -> t_frames tk < k) /\ In (Rcvd h k raw no_hook) (m_rcvd (nx_at n4 a)) /\ nx_done n4 a h k
  /\ nx_deser raw = Some (MBroadcast ts body) /\ In t ts /\ nx_caught_up n4 n5 a ca b hb
  (* everybody is done with everything *)
  /\ nx_caught_up n5 n5 a ca b hb /\ nx_caught_up n5 n5 b cb a ha
  /\ ~ nx_told_topic n2 b a t /\ nx_never n5 b v a h k.
Proof.
  destruct kz_events as (E1 & E2 & E4 & E5).
  refine (sooner_at kz1 kz2 kz4 kz5 E1 E2 E4 E5 _ _ _ _ _ _); [vm_compute; reflexivity|vm_compute; reflexivity|vm_compute; reflexivity|..]; by apply prefix_app_r.
Qed.
Print Assumptions C88_sooner_refuted.
