(** Property C89: brokers that discovery names to each other are linked within seconds, and by one link.
    The model of the heartbeat task in time is in PaceModel.v, the vocabulary in PaceSpec.v, the proofs
    are in PaceProofs.v and PaceProofs2.v.

    [limit] bounds how long a dial takes, [delay] how long the handler of a connection that has been set
    up takes. *)
From stdpp Require Import gmap fin_maps fin_sets list countable.
From Coq Require Import NArith Lia.
From Verif Require Import IdModel RelMapModel VMapModel ConnModel ConnSpec ConnProofs3 TopicModel MsgModel RouteModel
  TaskModel TaskProofs TaskOrder TaskHandles TaskGuarded TaskCheck TaskSync NetModel NetProofs NetOrigin NetComplete NetSynced NetConcurrent NetDelivery NetCheck
  NetSettle NetSettleDir LinkSpec DialModel IdProofs MeshModel MeshSpec PropertiesNet PropertiesSettle PropertiesLink PropertiesMesh FifoSpec BusySpec PropertiesBusy BusyProofs
  ClockModel ClockProofs ClockProofs2 PropertiesClock PaceModel PaceSpec ShakeProofs MeshProofs PaceProofs PaceProofs2 LinkProofs.

(** * C89 *)
(** When a broker hears from discovery, nothing is left of the dials of the round before: none is under
    way, and no connection made by one is still to be registered. *)
Theorem C89_rounds_do_not_overlap :
  forall deser dec_users dec_topics valid enc_users enc_topics delay limit ps a b t0,
  let s := pace_run deser dec_users dec_topics valid enc_users enc_topics delay limit ps in
  let n := n_run deser dec_users dec_topics valid enc_users enc_topics (ck_events (clock_run deser dec_users dec_topics valid enc_users enc_topics delay (pa_hist s))) in
  (limit + delay < 10)%N -> bid_gtb a b = false -> a <> b -> pa_beat s !! a = Some (Asking t0) ->
  (forall t, (a, b, t) ∉ pa_dials s)
  /\ (forall h t c h', m_tasks (broker_at deser dec_users dec_topics valid n a) !! h = Some t -> ~ In (AAddBroker b c h') (t_acts t)).
Proof.
  intros deser dec_users dec_topics valid enc_users enc_topics delay limit ps a b t0 s n Hl Hg Hne Hb.
  exact (prompt_list deser dec_users dec_topics valid enc_users enc_topics delay limit s a b t0 Hl (pace_ok_run deser dec_users dec_topics valid enc_users enc_topics delay limit ps) Hg Hne Hb).
Qed.
Print Assumptions C89_rounds_do_not_overlap.

(** As long as nothing breaks, two brokers are never linked twice. *)
Theorem C89_one_link :
  forall deser dec_users dec_topics valid enc_users enc_topics delay limit ps a b,
  faithful_sync deser dec_users dec_topics enc_users enc_topics ->
  let s := pace_run deser dec_users dec_topics valid enc_users enc_topics delay limit ps in
  let n := n_run deser dec_users dec_topics valid enc_users enc_topics (ck_events (clock_run deser dec_users dec_topics valid enc_users enc_topics delay (pa_hist s))) in
  (limit + delay < 10)%N -> a <> b ->
  nothing_breaks deser dec_users dec_topics valid enc_users enc_topics delay limit ps a b ->
  LinkSpec.linked_once a b n /\ LinkSpec.linked_once b a n.
Proof.
  intros deser dec_users dec_topics valid enc_users enc_topics delay limit ps a b Hc s n Hl Hne (H1 & H2 & H3 & H4).
  destruct (bid_gtb a b) eqn:Hg.
  - pose proof (bid_gtb_asym _ _ Hg) as Hg'.
    apply and_comm. apply (once_run deser dec_users dec_topics valid enc_users enc_topics delay limit Hc Hl b a (not_eq_sym Hne) Hg' ps). exact (conj H1 (conj H2 (conj H4 H3))).
  - apply (once_run deser dec_users dec_topics valid enc_users enc_topics delay limit Hc Hl a b Hne Hg ps). exact (conj H1 (conj H2 (conj H3 H4))).
Qed.
Print Assumptions C89_one_link.

(** The link of [a] and [b] in time, [a] being the one that dials. *)
Lemma linked_from deser dec_users dec_topics valid enc_users enc_topics delay limit ps1 l a b :
  faithful_sync deser dec_users dec_topics enc_users enc_topics -> (limit + delay < 10)%N -> a <> b ->
  let clock ps := clock_run deser dec_users dec_topics valid enc_users enc_topics delay (pa_hist (pace_run deser dec_users dec_topics valid enc_users enc_topics delay limit ps)) in
  let net ps := n_run deser dec_users dec_topics valid enc_users enc_topics (ck_events (clock ps)) in
  let at_ := broker_at deser dec_users dec_topics valid in
  keeps_dialling deser dec_users dec_topics valid enc_users enc_topics delay limit ps1 l a b ->
  nothing_breaks deser dec_users dec_topics valid enc_users enc_topics delay limit (ps1 ++ l) a b ->
  (ck_now (clock ps1) + 20 + limit + 2 * delay < ck_now (clock (ps1 ++ l)))%N ->
  exists ca ha cb hb, forall ps3, ps1 ++ l `prefix_of` ps3 -> nothing_breaks deser dec_users dec_topics valid enc_users enc_topics delay limit ps3 a b ->
    tied deser dec_users dec_topics valid (net ps3) a ca ha b cb hb
    /\ (forall h hh c, In (EBrokerAuthed h hh b c) (trace (net ps3) a) -> In (EBrokerAuthed h hh b c) (trace (net (ps1 ++ l)) a))
    /\ (forall h hh c, In (EBrokerAuthed h hh a c) (trace (net ps3) b) -> In (EBrokerAuthed h hh a c) (trace (net (ps1 ++ l)) b))
    /\ (forall h tk, m_tasks (at_ (net ps3) a) !! h = Some tk -> ~ In (ARemoveBroker b) (t_acts tk))
    /\ (forall h tk, m_tasks (at_ (net ps3) b) !! h = Some tk -> ~ In (ARemoveBroker a) (t_acts tk)).
Proof.
  intros Hc Hl Hne clock net at_ (Hg & Hrun & Hretry & Hnames & Hfail) Hs2 Hlt.
  destruct (link_in_time deser dec_users dec_topics valid enc_users enc_topics delay limit Hc Hl a b Hne Hg ps1 l Hrun Hretry Hnames Hfail Hs2) as (q & ha & hha & ca & hb & hhb & cb & Q1 & Q2 & Q3 & Q4); [unfold clock in Hlt; lia|].
  exists ca, ha, cb, hb. intros ps3 H23 Hs3. assert (Hq3 : q `prefix_of` ps3) by (etrans; [exact Q2|exact H23]).
  destruct (pace_later deser dec_users dec_topics valid enc_users enc_topics delay limit _ _ H23) as [_ Hn].
  split; [|].
  { apply (together_tied deser dec_users dec_topics valid enc_users enc_topics delay limit Hc Hl a b Hne Hg q ps3 ha hha ca hb hhb cb Hq3 Hs3); [|exact Q4].
    unfold clock in Hlt. lia. }
  pose proof (together_later deser dec_users dec_topics valid enc_users enc_topics delay limit Hc Hl a b Hne Hg q (ps1 ++ l) ha hha ca hb hhb cb Q2 Hs2 Q4) as Ht2.
  pose proof (together_later deser dec_users dec_topics valid enc_users enc_topics delay limit Hc Hl a b Hne Hg q ps3 ha hha ca hb hhb cb Hq3 Hs3 Q4) as (_ & (D1 & _) & (D2 & _) & _).
  destruct (no_new_link deser dec_users dec_topics valid enc_users enc_topics delay limit Hc Hl a b Hne Hg (ps1 ++ l) ps3 H23 Hs3) as [L1 L2].
  { exists ha, hha, ca, hb, hhb, cb. exact Ht2. }
  split; [exact L1|]. split; [exact L2|]. split; [exact D1|exact D2].
Qed.
(** Whichever of the two dials. *)
Lemma linked_from_either deser dec_users dec_topics valid enc_users enc_topics delay limit ps1 l a b :
  faithful_sync deser dec_users dec_topics enc_users enc_topics -> (limit + delay < 10)%N -> a <> b ->
  let clock ps := clock_run deser dec_users dec_topics valid enc_users enc_topics delay (pa_hist (pace_run deser dec_users dec_topics valid enc_users enc_topics delay limit ps)) in
  let net ps := n_run deser dec_users dec_topics valid enc_users enc_topics (ck_events (clock ps)) in
  let at_ := broker_at deser dec_users dec_topics valid in
  keeps_dialling deser dec_users dec_topics valid enc_users enc_topics delay limit ps1 l a b \/ keeps_dialling deser dec_users dec_topics valid enc_users enc_topics delay limit ps1 l b a ->
  nothing_breaks deser dec_users dec_topics valid enc_users enc_topics delay limit (ps1 ++ l) a b ->
  (ck_now (clock ps1) + 20 + limit + 2 * delay < ck_now (clock (ps1 ++ l)))%N ->
  exists ca ha cb hb, forall ps3, ps1 ++ l `prefix_of` ps3 -> nothing_breaks deser dec_users dec_topics valid enc_users enc_topics delay limit ps3 a b ->
    tied deser dec_users dec_topics valid (net ps3) a ca ha b cb hb
    /\ (forall h hh c, In (EBrokerAuthed h hh a c) (trace (net ps3) b) -> In (EBrokerAuthed h hh a c) (trace (net (ps1 ++ l)) b))
    /\ (forall h tk, m_tasks (at_ (net ps3) b) !! h = Some tk -> ~ In (ARemoveBroker a) (t_acts tk)).
Proof.
  intros Hc Hl Hne clock net at_ [Hk|Hk] Hs2 Hlt.
  - destruct (linked_from deser dec_users dec_topics valid enc_users enc_topics delay limit ps1 l a b Hc Hl Hne Hk Hs2 Hlt) as (ca & ha & cb & hb & H).
    exists ca, ha, cb, hb. intros ps3 H23 Hs3. destruct (H ps3 H23 Hs3) as (H1 & _ & H3 & _ & H5). exact (conj H1 (conj H3 H5)).
  - destruct Hs2 as (S1 & S2 & S3 & S4).
    destruct (linked_from deser dec_users dec_topics valid enc_users enc_topics delay limit ps1 l b a Hc Hl (not_eq_sym Hne) Hk (conj S1 (conj S2 (conj S4 S3))) Hlt) as (ca & ha & cb & hb & H).
    exists cb, hb, ca, ha. intros ps3 H23 (T1 & T2 & T3 & T4). destruct (H ps3 H23 (conj T1 (conj T2 (conj T4 T3)))) as ((H1 & H2 & H3 & H4 & H5 & H6) & L & _ & D & _).
    split; [exact (conj H3 (conj H4 (conj H1 (conj H2 (conj H6 H5)))))|]. split; [exact L|exact D].
Qed.

(** The heartbeat task of the one of the two that dials runs at [ps1]; discovery answers it and names
    the other, and no dial of the other fails. Then 20 s, a dial and two delays later the two are linked,
    at both ends, and they stay linked, by the same link, for as long as nothing breaks. *)
Theorem C89_linked_in_time :
  forall deser dec_users dec_topics valid enc_users enc_topics delay limit ps1 l a b,
  faithful_sync deser dec_users dec_topics enc_users enc_topics -> (limit + delay < 10)%N -> a <> b ->
  let clock ps := clock_run deser dec_users dec_topics valid enc_users enc_topics delay (pa_hist (pace_run deser dec_users dec_topics valid enc_users enc_topics delay limit ps)) in
  let net ps := n_run deser dec_users dec_topics valid enc_users enc_topics (ck_events (clock ps)) in
  keeps_dialling deser dec_users dec_topics valid enc_users enc_topics delay limit ps1 l a b \/ keeps_dialling deser dec_users dec_topics valid enc_users enc_topics delay limit ps1 l b a ->
  nothing_breaks deser dec_users dec_topics valid enc_users enc_topics delay limit (ps1 ++ l) a b ->
  (ck_now (clock ps1) + 20 + limit + 2 * delay < ck_now (clock (ps1 ++ l)))%N ->
  exists ca ha cb hb, tied deser dec_users dec_topics valid (net (ps1 ++ l)) a ca ha b cb hb
    /\ forall ps3, ps1 ++ l `prefix_of` ps3 -> nothing_breaks deser dec_users dec_topics valid enc_users enc_topics delay limit ps3 a b ->
         tied deser dec_users dec_topics valid (net ps3) a ca ha b cb hb.
Proof.
  intros deser dec_users dec_topics valid enc_users enc_topics delay limit ps1 l a b Hc Hl Hne clock net Hk Hs Hlt.
  destruct (linked_from_either deser dec_users dec_topics valid enc_users enc_topics delay limit ps1 l a b Hc Hl Hne Hk Hs Hlt) as (ca & ha & cb & hb & H).
  exists ca, ha, cb, hb. split; [by apply H|]. intros ps3 H1 H2. by apply H.
Qed.
Print Assumptions C89_linked_in_time.

(** With C88, from a cold start: once the two have had that time ([ps2]), a broadcast accepted by [a]
    reaches a user who has been subscribed at [b] for more than 10 s and three delays by [ps3], if [a]
    has read what [b] had sent it by [ps3]. *)
Theorem C89_broadcast_from_a_cold_start :
  forall deser dec_users dec_topics valid enc_users enc_topics delay limit ps1 l a b,
  faithful_sync deser dec_users dec_topics enc_users enc_topics -> (limit + delay < 10)%N -> a <> b ->
  let clock ps := clock_run deser dec_users dec_topics valid enc_users enc_topics delay (pa_hist (pace_run deser dec_users dec_topics valid enc_users enc_topics delay limit ps)) in
  let run := n_run deser dec_users dec_topics valid enc_users enc_topics in
  let net ps := run (ck_events (clock ps)) in
  let at_ := broker_at deser dec_users dec_topics valid in
  let ps2 := ps1 ++ l in
  keeps_dialling deser dec_users dec_topics valid enc_users enc_topics delay limit ps1 l a b \/ keeps_dialling deser dec_users dec_topics valid enc_users enc_topics delay limit ps1 l b a ->
  nothing_breaks deser dec_users dec_topics valid enc_users enc_topics delay limit ps2 a b ->
  (ck_now (clock ps1) + 20 + limit + 2 * delay < ck_now (clock ps2))%N ->
  exists ca ha cb hb, tied deser dec_users dec_topics valid (net ps2) a ca ha b cb hb
  /\ forall ps3 ps4 ps5 ps6 v c u cu h k raw hk ts t body,
  ps2 `prefix_of` ps3 -> ps3 `prefix_of` ps4 -> ps4 `prefix_of` ps5 -> ps5 `prefix_of` ps6 ->
  nothing_breaks deser dec_users dec_topics valid enc_users enc_topics delay limit ps6 a b -> fine deser dec_users dec_topics valid (net ps6) ->
  (* time passes, the sync task running *)
  ck_sync (clock ps2) !! b <> None -> (ck_now (clock ps2) + 10 + 3 * delay < ck_now (clock ps3))%N ->
  (* the recipient *)
  c_get_user_connection (m_conns (at_ (net ps3) b)) v = Some c -> c_get_user_connection (m_conns (at_ (net ps6) b)) v = Some c ->
  (forall es, ck_events (clock ps2) `prefix_of` es -> es `prefix_of` ck_events (clock ps6) -> subscribed_at deser dec_users dec_topics valid (run es) b v t) ->
  (* [a] has listened *)
  caught_up deser dec_users dec_topics valid (net ps3) (net ps4) b cb a ha ->
  (* the message *)
  loop_of deser dec_users dec_topics valid (net ps5) a h (OUser u cu) -> c_get_user_connection (m_conns (at_ (net ps5) a)) u = Some cu ->
  (forall tk, m_tasks (at_ (net ps4) a) !! h = Some tk -> t_frames tk < k) -> In (Rcvd h k raw hk) (m_rcvd (at_ (net ps5) a)) ->
  done_with deser dec_users dec_topics valid (net ps5) a h k ->
  deser raw = Some (MBroadcast ts body) -> hk (MBroadcast ts body) = HProcess (MBroadcast ts body) -> In t ts ->
  (forall x c' hk', In (NDeliver x c' hk') (ck_events (clock ps6)) -> hk' (MBroadcast ts body) = HProcess (MBroadcast ts body)) ->
  caught_up deser dec_users dec_topics valid (net ps5) (net ps6) a ca b hb ->
  sent_once deser dec_users dec_topics valid (net ps6) b v a h k c raw.
Proof.
  intros deser dec_users dec_topics valid enc_users enc_topics delay limit ps1 l a b Hc Hl Hne clock run net at_ ps2 Hk Hs Hlt.
  destruct (linked_from_either deser dec_users dec_topics valid enc_users enc_topics delay limit ps1 l a b Hc Hl Hne Hk Hs Hlt) as (ca & ha & cb & hb & H).
  exists ca, ha, cb, hb. split; [by apply H|]. intros ps3 ps4 ps5 ps6 v c u cu h k raw hk ts t body H23 H34 H45 H56 Hs6 Hf6 Hsync Hlt3 Hc3 Hc6 Hsub. intros.
  assert (P : forall x y, x `prefix_of` y -> pa_hist (pace_run deser dec_users dec_topics valid enc_users enc_topics delay limit x) `prefix_of` pa_hist (pace_run deser dec_users dec_topics valid enc_users enc_topics delay limit y))
    by (intros; by apply hist_later).
  assert (H36 : ps3 `prefix_of` ps6) by (etrans; [exact H34|]; etrans; [exact H45|exact H56]).
  assert (Hs3 : nothing_breaks deser dec_users dec_topics valid enc_users enc_topics delay limit ps3 a b).
  { exact (sound_before deser dec_users dec_topics valid enc_users enc_topics delay limit Hc a b ps3 ps6 H36 Hs6). }
  destruct (H ps3 H23 Hs3) as (T3 & L3 & D3). destruct (H ps6 (transitivity H23 H36) Hs6) as (T6 & _).
  eapply (C88_broadcast_after_the_period deser dec_users dec_topics valid enc_users enc_topics delay
    (pa_hist (pace_run deser dec_users dec_topics valid enc_users enc_topics delay limit ps2)) (pa_hist (pace_run deser dec_users dec_topics valid enc_users enc_topics delay limit ps3))
    (pa_hist (pace_run deser dec_users dec_topics valid enc_users enc_topics delay limit ps4)) (pa_hist (pace_run deser dec_users dec_topics valid enc_users enc_topics delay limit ps5))
    (pa_hist (pace_run deser dec_users dec_topics valid enc_users enc_topics delay limit ps6)) a ca ha b cb hb v c u cu h k raw hk ts t body Hc); try eassumption; try (by apply P).
  by destruct Hs6.
Qed.
Print Assumptions C89_broadcast_from_a_cold_start.

(** And a direct message, to a user who had been authenticated at [b] by [ps2]. *)
Theorem C89_direct_from_a_cold_start :
  forall deser dec_users dec_topics valid enc_users enc_topics delay limit ps1 l a b,
  faithful_sync deser dec_users dec_topics enc_users enc_topics -> (limit + delay < 10)%N -> a <> b ->
  let clock ps := clock_run deser dec_users dec_topics valid enc_users enc_topics delay (pa_hist (pace_run deser dec_users dec_topics valid enc_users enc_topics delay limit ps)) in
  let run := n_run deser dec_users dec_topics valid enc_users enc_topics in
  let net ps := run (ck_events (clock ps)) in
  let at_ := broker_at deser dec_users dec_topics valid in
  let ps2 := ps1 ++ l in
  keeps_dialling deser dec_users dec_topics valid enc_users enc_topics delay limit ps1 l a b \/ keeps_dialling deser dec_users dec_topics valid enc_users enc_topics delay limit ps1 l b a ->
  nothing_breaks deser dec_users dec_topics valid enc_users enc_topics delay limit ps2 a b ->
  (ck_now (clock ps1) + 20 + limit + 2 * delay < ck_now (clock ps2))%N ->
  exists ca ha cb hb, tied deser dec_users dec_topics valid (net ps2) a ca ha b cb hb
  /\ forall ps3 ps4 ps5 ps6 v c hv hhv tv u cu h k raw hk body,
  ps2 `prefix_of` ps3 -> ps3 `prefix_of` ps4 -> ps4 `prefix_of` ps5 -> ps5 `prefix_of` ps6 ->
  nothing_breaks deser dec_users dec_topics valid enc_users enc_topics delay limit ps6 a b -> fine deser dec_users dec_topics valid (net ps6) -> admitted_once (net ps6) v ->
  (* the recipient *)
  In (EUserAuthed hv hhv v c tv) (trace (net ps2) b) -> (ck_now (clock ps2) + 2 * delay < ck_now (clock ps3))%N ->
  c_get_user_connection (m_conns (at_ (net ps3) b)) v = Some c -> c_get_user_connection (m_conns (at_ (net ps6) b)) v = Some c ->
  (* [a] has listened *)
  caught_up deser dec_users dec_topics valid (net ps3) (net ps4) b cb a ha ->
  (* the message *)
  loop_of deser dec_users dec_topics valid (net ps5) a h (OUser u cu) -> c_get_user_connection (m_conns (at_ (net ps5) a)) u = Some cu ->
  (forall tk, m_tasks (at_ (net ps4) a) !! h = Some tk -> t_frames tk < k) -> In (Rcvd h k raw hk) (m_rcvd (at_ (net ps5) a)) ->
  done_with deser dec_users dec_topics valid (net ps5) a h k ->
  deser raw = Some (MDirect v body) -> hk (MDirect v body) = HProcess (MDirect v body) ->
  (forall x c' hk', In (NDeliver x c' hk') (ck_events (clock ps6)) -> hk' (MDirect v body) = HProcess (MDirect v body)) ->
  caught_up deser dec_users dec_topics valid (net ps5) (net ps6) a ca b hb ->
  sent_once deser dec_users dec_topics valid (net ps6) b v a h k c raw.
Proof.
  intros deser dec_users dec_topics valid enc_users enc_topics delay limit ps1 l a b Hc Hl Hne clock run net at_ ps2 Hk Hs Hlt.
  destruct (linked_from_either deser dec_users dec_topics valid enc_users enc_topics delay limit ps1 l a b Hc Hl Hne Hk Hs Hlt) as (ca & ha & cb & hb & H).
  exists ca, ha, cb, hb. split; [by apply H|]. intros ps3 ps4 ps5 ps6 v c hv hhv tv u cu h k raw hk body H23 H34 H45 H56 Hs6 Hf6 Hone Hadm Hlt3 Hc3 Hc6. intros.
  assert (P : forall x y, x `prefix_of` y -> pa_hist (pace_run deser dec_users dec_topics valid enc_users enc_topics delay limit x) `prefix_of` pa_hist (pace_run deser dec_users dec_topics valid enc_users enc_topics delay limit y))
    by (intros; by apply hist_later).
  assert (H36 : ps3 `prefix_of` ps6) by (etrans; [exact H34|]; etrans; [exact H45|exact H56]).
  assert (Hs3 : nothing_breaks deser dec_users dec_topics valid enc_users enc_topics delay limit ps3 a b).
  { exact (sound_before deser dec_users dec_topics valid enc_users enc_topics delay limit Hc a b ps3 ps6 H36 Hs6). }
  destruct (H ps3 H23 Hs3) as (T3 & L3 & D3). destruct (H ps6 (transitivity H23 H36) Hs6) as (T6 & _).
  eapply (C88_direct_soon_after_arrival deser dec_users dec_topics valid enc_users enc_topics delay
    (pa_hist (pace_run deser dec_users dec_topics valid enc_users enc_topics delay limit ps2)) (pa_hist (pace_run deser dec_users dec_topics valid enc_users enc_topics delay limit ps3))
    (pa_hist (pace_run deser dec_users dec_topics valid enc_users enc_topics delay limit ps4)) (pa_hist (pace_run deser dec_users dec_topics valid enc_users enc_topics delay limit ps5))
    (pa_hist (pace_run deser dec_users dec_topics valid enc_users enc_topics delay limit ps6)) a ca ha b cb hb v c hv hhv tv u cu h k raw hk body Hc); try eassumption; try (by apply P).
  by destruct Hs6.
Qed.
Print Assumptions C89_direct_from_a_cold_start.

(** ** Cases that meet the hypotheses *)
(** A delay of 1 s, dials of up to 8 s. Users 1 at A and 2 (topic 8) at B; the brokers do not know each
    other. A's heartbeat task runs ([px1], at 4 s) and hears from discovery at 9 s; the dial takes 8 s.
    A's later rounds find the link; at 35 s it is there ([px2]). At 49 s ([px3]) B's sync task has run
    again. *)
Notation px_run := (pace_run nx_deser nx_dec_users nx_dec_topics nx_valid nx_enc_users nx_enc_topics).
Notation px_step := (pace_step nx_deser nx_dec_users nx_dec_topics nx_valid nx_enc_users nx_enc_topics).
Notation px_clock d l ps := (nx_clock d (pa_hist (px_run d l ps))).
Notation px_net ps := (nx_run (ck_events (px_clock 1 8 ps))).
Notation px_whole := (nothing_breaks nx_deser nx_dec_users nx_dec_topics nx_valid nx_enc_users nx_enc_topics).
Notation px_dials := (keeps_dialling nx_deser nx_dec_users nx_dec_topics nx_valid nx_enc_users nx_enc_topics).
Definition pnets (es : list nevent) : list pevent := map (fun e => PClock (CNet e)) es.
Definition ptick (d : N) : pevent := PClock (CTick d).
(** A round of B's sync task, and A's next two seconds of heartbeat. *)
Definition pround (h : N) : list pevent := PClock (CWake nB h) :: pnets (goes nB h 4) ++ [PClock (CSleep nB)].
Definition pe_users : list nevent := NUser nA 1 2 [1]%N 101 [7]%N :: goes nA 2 6 ++ NUser nB 1 2 [2]%N 101 [8]%N :: goes nB 2 6.
Definition px1 : list pevent :=
  pnets pe_users ++ PClock (CStart nB 20) :: pnets (goes nB 20 4) ++ [PClock (CSleep nB); PStart nA; ptick 4].
Definition px_l1 : list pevent :=
  [ptick 5; PList nA {[nB]}; ptick 1] ++ pround 21 ++ [ptick 7; PDial nA 5 6 105 nB 5 6 105 9] ++ pnets (goes nA 6 8 ++ goes nB 6 8) ++ [ptick 2; PWake nA].
Definition px_l2 : list pevent :=
  [ptick 1; PList nA {[nB]}] ++ pround 22 ++ [ptick 10; PWake nA; PList nA {[nB]}] ++ pround 23 ++ [ptick 5].
Definition px_l3 : list pevent := [ptick 5; PWake nA; PList nA {[nB]}] ++ pround 24 ++ [ptick 9].
Definition pe_c : list nevent := NDeliver nB 105 no_hook :: goes nA 5 2 ++ NDeliver nB 105 no_hook :: goes nA 5 2.
Definition pe_d : list nevent := NPublish nA 1 [4;8;99;51]%N no_hook :: goes nA 1 6.
Definition pe_e : list nevent := NDeliver nA 105 no_hook :: goes nB 5 2 ++ NDeliver nA 105 no_hook :: goes nB 5 2 ++ NDeliver nA 105 no_hook :: goes nB 5 6.
Definition pe_d' : list nevent := NPublish nA 1 [3;2;50]%N no_hook :: goes nA 1 4.
Definition pe_e' : list nevent := NDeliver nA 105 no_hook :: goes nB 5 2 ++ NDeliver nA 105 no_hook :: goes nB 5 2 ++ NDeliver nA 105 no_hook :: goes nB 5 4.
(** The history of the network. *)
Definition pe_0 : list nevent := pe_users ++ NStep nB (ESync 20) :: goes nB 20 4 ++ NStep nB (ESync 21) :: goes nB 21 4 ++ NUp nA 5 6 105 nB 5 6 105 :: goes nA 6 8 ++ goes nB 6 8.
Definition pe_2 : list nevent := pe_0 ++ NStep nB (ESync 22) :: goes nB 22 4 ++ NStep nB (ESync 23) :: goes nB 23 4.
Definition pe_b : list nevent := NStep nB (ESync 24) :: goes nB 24 4.
(** All of it at once. *)
Definition px_facts (s : pace) : N * list nevent * option beat_task * option sync_task :=
  let k := nx_clock 1 (pa_hist s) in (ck_now k, ck_events k, pa_beat s !! nA, ck_sync k !! nB).
Lemma px_all :
  (let s1 := px_run 1 8 px1 in let s0 := fold_left (px_step 1 8) px_l1 s1 in let s2 := fold_left (px_step 1 8) px_l2 s0 in let s3 := fold_left (px_step 1 8) px_l3 s2 in
   (px_facts s1, px_facts s0, px_facts s2, px_facts s3))
  = ((4%N, pe_users ++ NStep nB (ESync 20) :: goes nB 20 4, Some (Asking 0), Some (Asleep 10)),
     (19%N, pe_0, Some (Asking 19), Some (Asleep 20)),
     (35%N, pe_2, Some (Resting 40), Some (Asleep 40)),
     (49%N, pe_2 ++ pe_b, Some (Resting 50), Some (Asleep 50))).
Proof. vm_compute. reflexivity. Qed.
Lemma facts_of l1 l0 l2 l3 f1 f0 f2 f3 :
  (let s1 := px_run 1 8 l1 in let s0 := fold_left (px_step 1 8) l0 s1 in let s2 := fold_left (px_step 1 8) l2 s0 in let s3 := fold_left (px_step 1 8) l3 s2 in
   (px_facts s1, px_facts s0, px_facts s2, px_facts s3)) = (f1, f0, f2, f3) ->
  px_facts (px_run 1 8 l1) = f1 /\ px_facts (px_run 1 8 (l1 ++ l0)) = f0 /\ px_facts (px_run 1 8 (l1 ++ (l0 ++ l2))) = f2 /\ px_facts (px_run 1 8 ((l1 ++ (l0 ++ l2)) ++ l3)) = f3.
Proof. cbv zeta. intros H. unfold pace_run in *. rewrite !fold_left_app. apply pair_equal_spec in H as [H ->]. apply pair_equal_spec in H as [H ->]. by apply pair_equal_spec in H as [-> ->]. Qed.
Definition px_split := facts_of px1 px_l1 px_l2 px_l3 _ _ _ _ px_all.
(** Events of the network other than links and rounds take no time. *)
Definition simple (e : nevent) : bool := match e with NUp _ _ _ _ _ _ _ _ | NStep _ (ESync _) => false | _ => true end.
Lemma pnets_run d l ps es : forallb simple es = true ->
  ck_events (px_clock d l (ps ++ pnets es)) = ck_events (px_clock d l ps) ++ es /\ ck_now (px_clock d l (ps ++ pnets es)) = ck_now (px_clock d l ps).
Proof.
  induction es as [|e es IH] using rev_ind; intros H; [by rewrite !app_nil_r|]. rewrite forallb_app in H. apply andb_prop in H as [H1 H2]. destruct (IH H1) as [I1 I2].
  cbn in H2. apply andb_prop in H2 as [H2 _]. unfold pnets. rewrite map_app. cbn [map]. fold (pnets es). rewrite app_assoc.
  rewrite (pace_snoc nx_deser nx_dec_users nx_dec_topics nx_valid nx_enc_users nx_enc_topics d l (ps ++ pnets es)).
  assert (Hp : pa_hist (px_step d l (px_run d l (ps ++ pnets es)) (PClock (CNet e))) = pa_hist (px_run d l (ps ++ pnets es)) ++ [CNet e]) by (by destruct e).
  rewrite Hp, (clock_snoc nx_deser nx_dec_users nx_dec_topics nx_valid nx_enc_users nx_enc_topics d).
  assert (Hc : forall k, clock_step nx_deser nx_dec_users nx_dec_topics nx_valid nx_enc_users nx_enc_topics d k (CNet e) = happens k e (ck_sync k)) by (intros k; destruct e as [| | | |? []]; done).
  rewrite Hc. cbn [happens ck_events ck_now]. by rewrite I1, I2, app_assoc.
Qed.

Lemma listing_check l x y :
  forallb (fun e => match e with PRetry z => negb (bool_decide (z = x)) | PFail z w _ => negb (bool_decide (z = x /\ w = y))
    | PList z others => negb (bool_decide (z = x)) || bool_decide (y ∈ others) | _ => true end) l = true ->
  ~ In (PRetry x) l /\ (forall others, In (PList x others) l -> y ∈ others) /\ (forall t, ~ In (PFail x y t) l).
Proof.
  intros Hl. rewrite forallb_forall in Hl. split; [|split].
  - intros Hin. specialize (Hl _ Hin). cbn in Hl. by rewrite bool_decide_true in Hl.
  - intros others Hin. specialize (Hl _ Hin). cbn in Hl. rewrite bool_decide_true in Hl by done. by apply bool_decide_eq_true in Hl.
  - intros t Hin. specialize (Hl _ Hin). cbn in Hl. by rewrite bool_decide_true in Hl.
Qed.
Lemma keeps_check ps1 l x y : bid_gtb x y = false -> pa_beat (px_run 1 8 ps1) !! x <> None ->
  forallb (fun e => match e with PRetry z => negb (bool_decide (z = x)) | PFail z w _ => negb (bool_decide (z = x /\ w = y))
    | PList z others => negb (bool_decide (z = x)) || bool_decide (y ∈ others) | _ => true end) l = true -> px_dials 1 8 ps1 l x y.
Proof. intros Hg Hb Hl. split; [exact Hg|]. split; [exact Hb|]. exact (listing_check _ _ _ Hl). Qed.
Lemma whole_check d l ps es a b : ck_events (px_clock d l ps) = es -> plain_b es ->
  unbroken nx_deser nx_dec_users nx_dec_topics nx_valid a b (nx_run es) -> unbroken nx_deser nx_dec_users nx_dec_topics nx_valid b a (nx_run es) -> px_whole d l ps a b.
Proof. intros <- Hp H1 H2. split; [exact (plain_pass _ Hp)|]. split; [exact (plain_accepts _ Hp)|]. split; [exact H1|exact H2]. Qed.

Ltac plain := unfold plain_b; vm_compute; repeat constructor.
Ltac whole := apply unbroken_check; vm_compute; reflexivity.
Lemma pace_example_at p1 l p3 p4 p5 p6 :
  ck_now (px_clock 1 8 p1) = 4%N -> pa_beat (px_run 1 8 p1) !! nA = Some (Asking 0) -> l = px_l1 ++ px_l2 ->
  ck_now (px_clock 1 8 (p1 ++ l)) = 35%N -> ck_events (px_clock 1 8 (p1 ++ l)) = pe_2 -> ck_sync (px_clock 1 8 (p1 ++ l)) !! nB = Some (Asleep 40) ->
  ck_now (px_clock 1 8 p3) = 49%N -> ck_events (px_clock 1 8 p3) = pe_2 ++ pe_b -> ck_events (px_clock 1 8 p4) = pe_2 ++ pe_b ++ pe_c ->
  ck_events (px_clock 1 8 p5) = pe_2 ++ pe_b ++ pe_c ++ pe_d -> ck_events (px_clock 1 8 p6) = pe_2 ++ pe_b ++ pe_c ++ pe_d ++ pe_e ->
  p1 ++ l `prefix_of` p3 -> p3 `prefix_of` p4 -> p4 `prefix_of` p5 -> p5 `prefix_of` p6 ->
  px_dials 1 8 p1 l nA nB /\ px_whole 1 8 (p1 ++ l) nA nB
  /\ ck_now (px_clock 1 8 p1) = 4%N /\ ck_now (px_clock 1 8 (p1 ++ l)) = 35%N /\ ck_now (px_clock 1 8 p3) = 49%N
  /\ px_whole 1 8 p6 nA nB /\ fine nx_deser nx_dec_users nx_dec_topics nx_valid (px_net p6)
  /\ ck_sync (px_clock 1 8 (p1 ++ l)) !! nB = Some (Asleep 40)
  /\ c_get_user_connection (m_conns (nx_at (px_net p3) nB)) [2]%N = Some 101%N /\ c_get_user_connection (m_conns (nx_at (px_net p6) nB)) [2]%N = Some 101%N
  /\ (forall es, ck_events (px_clock 1 8 (p1 ++ l)) `prefix_of` es -> es `prefix_of` ck_events (px_clock 1 8 p6) -> subscribed_at nx_deser nx_dec_users nx_dec_topics nx_valid (nx_run es) nB [2]%N 8)
  /\ nx_caught_up (px_net p3) (px_net p4) nB 105 nA 5
  /\ nx_loop (px_net p5) nA 1 (OUser [1]%N 101) /\ c_get_user_connection (m_conns (nx_at (px_net p5) nA)) [1]%N = Some 101%N
  /\ (forall t, m_tasks (nx_at (px_net p4) nA) !! 1%N = Some t -> t_frames t < 1)
  /\ In (Rcvd 1 1 [4;8;99;51]%N no_hook) (m_rcvd (nx_at (px_net p5) nA)) /\ nx_done (px_net p5) nA 1 1
  /\ nx_caught_up (px_net p5) (px_net p6) nA 105 nB 5
  /\ (forall x c' hk' m, In (NDeliver x c' hk') (ck_events (px_clock 1 8 p6)) -> hk' m = HProcess m)
  (* and so the theorems apply *)
  /\ (LinkSpec.linked_once nA nB (px_net p6) /\ LinkSpec.linked_once nB nA (px_net p6))
  /\ nx_tied (px_net (p1 ++ l)) nA 105 5 nB 105 5 /\ nx_once (px_net p6) nB [2]%N nA 1 1 101 [4;8;99;51]%N.
Proof.
  intros N1 B1 Hl N2 E2 S2 N3 E3 E4 E5 E6 H23 H34 H45 H56.
  assert (K : px_dials 1 8 p1 l nA nB) by (apply keeps_check; [vm_compute; reflexivity|rewrite B1; discriminate|rewrite Hl; vm_compute; reflexivity]).
  assert (Hplain : plain_b (ck_events (px_clock 1 8 p6))) by (rewrite E6; unfold plain_b; vm_compute; repeat constructor).
  assert (W2 : px_whole 1 8 (p1 ++ l) nA nB).
  { apply (whole_check _ _ _ _ _ _ E2); [plain|whole|whole]. }
  assert (W6 : px_whole 1 8 p6 nA nB).
  { apply (whole_check _ _ _ _ _ _ E6); [plain|whole|whole]. }
  assert (Hf : fine nx_deser nx_dec_users nx_dec_topics nx_valid (px_net p6)) by (rewrite E6; apply fine_check; vm_compute; reflexivity).
  assert (C3 : c_get_user_connection (m_conns (nx_at (px_net p3) nB)) [2]%N = Some 101%N) by (rewrite E3; vm_compute; reflexivity).
  assert (C6 : c_get_user_connection (m_conns (nx_at (px_net p6) nB)) [2]%N = Some 101%N) by (rewrite E6; vm_compute; reflexivity).
  assert (Hsub : forall es, ck_events (px_clock 1 8 (p1 ++ l)) `prefix_of` es -> es `prefix_of` ck_events (px_clock 1 8 p6) -> subscribed_at nx_deser nx_dec_users nx_dec_topics nx_valid (nx_run es) nB [2]%N 8).
  { rewrite E2, E6. apply subscribed_check. vm_compute. reflexivity. }
  assert (T2 : nx_tied (px_net (p1 ++ l)) nA 105 5 nB 105 5) by (rewrite E2; tie).
  assert (K3 : nx_caught_up (px_net p3) (px_net p4) nB 105 nA 5) by (rewrite E3, E4; finished).
  assert (L : nx_loop (px_net p5) nA 1 (OUser [1]%N 101)) by (rewrite E5; eexists; split; [vm_compute; reflexivity|reflexivity]).
  assert (C5 : c_get_user_connection (m_conns (nx_at (px_net p5) nA)) [1]%N = Some 101%N) by (rewrite E5; vm_compute; reflexivity).
  assert (F : forall t, m_tasks (nx_at (px_net p4) nA) !! 1%N = Some t -> t_frames t < 1).
  { rewrite E4. intros t Ht. assert (He : t_frames <$> m_tasks (nx_at (nx_run (pe_2 ++ pe_b ++ pe_c)) nA) !! 1%N = Some 0) by (vm_compute; reflexivity). rewrite Ht in He. injection He as ->. lia. }
  assert (M : In (Rcvd 1 1 [4;8;99;51]%N no_hook) (m_rcvd (nx_at (px_net p5) nA))) by (rewrite E5; vm_compute; repeat (first [left; reflexivity|right])).
  assert (D : nx_done (px_net p5) nA 1 1) by (rewrite E5; finished).
  assert (K5 : nx_caught_up (px_net p5) (px_net p6) nA 105 nB 5) by (rewrite E5, E6; finished).
  assert (P : forall x c' hk' m, In (NDeliver x c' hk') (ck_events (px_clock 1 8 p6)) -> hk' m = HProcess m).
  { intros x c' hk' m Hin. unfold plain_b in Hplain. rewrite Forall_forall in Hplain. specialize (Hplain _ Hin). cbn in Hplain. by subst hk'. }
  assert (Hlt : (ck_now (px_clock 1 8 p1) + 20 + 8 + 2 * 1 < ck_now (px_clock 1 8 (p1 ++ l)))%N) by (rewrite N1, N2; reflexivity).
  assert (Hlt3 : (ck_now (px_clock 1 8 (p1 ++ l)) + 10 + 3 * 1 < ck_now (px_clock 1 8 p3))%N) by (rewrite N2, N3; reflexivity).
  assert (Hrun : ck_sync (px_clock 1 8 (p1 ++ l)) !! nB <> None) by (rewrite S2; discriminate).
  assert (Hne : nA <> nB) by done. assert (H10 : (8 + 1 < 10)%N) by reflexivity.
  do 19 (split; [assumption|]).
  split; [exact (C89_one_link nx_deser nx_dec_users nx_dec_topics nx_valid nx_enc_users nx_enc_topics 1 8 p6 nA nB nx_faithful H10 Hne W6)|]. split; [exact T2|].
  destruct (C89_broadcast_from_a_cold_start nx_deser nx_dec_users nx_dec_topics nx_valid nx_enc_users nx_enc_topics 1 8 p1 l nA nB nx_faithful H10 Hne (or_introl K) W2 Hlt) as (ca & ha & cb & hb & T & H).
  destruct T as (U1 & _ & U3 & _ & U5 & U6), T2 as (V1 & _ & V3 & _ & V5 & V6). rewrite V1 in U1. injection U1 as <-. rewrite V3 in U3. injection U3 as <-. rewrite V5 in U5. injection U5 as <-. rewrite V6 in U6. injection U6 as <-.
  refine (H p3 p4 p5 p6 [2]%N 101%N [1]%N 101%N 1%N 1 [4;8;99;51]%N no_hook [8;99]%N 8%N [51]%N H23 H34 H45 H56 W6 Hf Hrun Hlt3 C3 C6 Hsub K3 L C5 F M D eq_refl eq_refl (or_introl eq_refl) _ K5).
  intros x c' hk' Hin. by apply (P x c' hk').
Qed.
Definition px2 : list pevent := px1 ++ (px_l1 ++ px_l2).
Definition px3 : list pevent := px2 ++ px_l3.
Definition px4 : list pevent := px3 ++ pnets pe_c.
Definition px5 : list pevent := px4 ++ pnets pe_d.
Definition px6 : list pevent := px5 ++ pnets pe_e.
Definition px5' : list pevent := px4 ++ pnets pe_d'.
Definition px6' : list pevent := px5' ++ pnets pe_e'.
Lemma facts_split s n es bt st : px_facts s = (n, es, bt, st) -> ck_now (nx_clock 1 (pa_hist s)) = n /\ ck_events (nx_clock 1 (pa_hist s)) = es /\ pa_beat s !! nA = bt /\ ck_sync (nx_clock 1 (pa_hist s)) !! nB = st.
Proof. intros [= <- <- <- <-]. done. Qed.
Example C89_example :
  px_dials 1 8 px1 (px_l1 ++ px_l2) nA nB /\ px_whole 1 8 px2 nA nB
  /\ ck_now (px_clock 1 8 px1) = 4%N /\ ck_now (px_clock 1 8 px2) = 35%N /\ ck_now (px_clock 1 8 px3) = 49%N
  /\ px_whole 1 8 px6 nA nB /\ fine nx_deser nx_dec_users nx_dec_topics nx_valid (px_net px6)
  /\ ck_sync (px_clock 1 8 px2) !! nB = Some (Asleep 40)
  /\ c_get_user_connection (m_conns (nx_at (px_net px3) nB)) [2]%N = Some 101%N /\ c_get_user_connection (m_conns (nx_at (px_net px6) nB)) [2]%N = Some 101%N
  /\ (forall es, ck_events (px_clock 1 8 px2) `prefix_of` es -> es `prefix_of` ck_events (px_clock 1 8 px6) -> subscribed_at nx_deser nx_dec_users nx_dec_topics nx_valid (nx_run es) nB [2]%N 8)
  /\ nx_caught_up (px_net px3) (px_net px4) nB 105 nA 5
  /\ nx_loop (px_net px5) nA 1 (OUser [1]%N 101) /\ c_get_user_connection (m_conns (nx_at (px_net px5) nA)) [1]%N = Some 101%N
  /\ (forall t, m_tasks (nx_at (px_net px4) nA) !! 1%N = Some t -> t_frames t < 1)
  /\ In (Rcvd 1 1 [4;8;99;51]%N no_hook) (m_rcvd (nx_at (px_net px5) nA)) /\ nx_done (px_net px5) nA 1 1
  /\ nx_caught_up (px_net px5) (px_net px6) nA 105 nB 5
  /\ (forall x c' hk' m, In (NDeliver x c' hk') (ck_events (px_clock 1 8 px6)) -> hk' m = HProcess m)
  (* and so the theorems apply *)
  /\ (LinkSpec.linked_once nA nB (px_net px6) /\ LinkSpec.linked_once nB nA (px_net px6))
  /\ nx_tied (px_net px2) nA 105 5 nB 105 5 /\ nx_once (px_net px6) nB [2]%N nA 1 1 101 [4;8;99;51]%N.
Proof.
  destruct px_split as (F1 & _ & F2 & F3). apply facts_split in F1 as (N1 & _ & B1 & _), F2 as (N2 & E2 & _ & S2), F3 as (N3 & E3 & _).
  pose proof (pnets_run 1 8 px3 pe_c eq_refl) as [E4 _]. pose proof (pnets_run 1 8 px4 pe_d eq_refl) as [E5 _]. pose proof (pnets_run 1 8 px5 pe_e eq_refl) as [E6 _].
  fold px2 in N2, E2, S2, N3, E3. fold px3 in N3, E3. fold px4 in E4. fold px5 in E5. fold px6 in E6. rewrite E3, <- app_assoc in E4. rewrite E4, <- !app_assoc in E5. rewrite E5, <- !app_assoc in E6.
  exact (pace_example_at px1 (px_l1 ++ px_l2) px3 px4 px5 px6 N1 B1 eq_refl N2 E2 S2 N3 E3 E4 E5 E6 ltac:(by apply prefix_app_r) ltac:(by apply prefix_app_r) ltac:(by apply prefix_app_r) ltac:(by apply prefix_app_r)).
Qed.

Lemma direct_example_at p1 l p3 p4 p5 p6 :
  ck_now (px_clock 1 8 p1) = 4%N -> pa_beat (px_run 1 8 p1) !! nA = Some (Asking 0) -> l = px_l1 ++ px_l2 ->
  ck_now (px_clock 1 8 (p1 ++ l)) = 35%N -> ck_events (px_clock 1 8 (p1 ++ l)) = pe_2 ->
  ck_now (px_clock 1 8 p3) = 49%N -> ck_events (px_clock 1 8 p3) = pe_2 ++ pe_b -> ck_events (px_clock 1 8 p4) = pe_2 ++ pe_b ++ pe_c ->
  ck_events (px_clock 1 8 p5) = pe_2 ++ pe_b ++ pe_c ++ pe_d' -> ck_events (px_clock 1 8 p6) = pe_2 ++ pe_b ++ pe_c ++ pe_d' ++ pe_e' ->
  p1 ++ l `prefix_of` p3 -> p3 `prefix_of` p4 -> p4 `prefix_of` p5 -> p5 `prefix_of` p6 ->
  px_dials 1 8 p1 l nA nB /\ px_whole 1 8 (p1 ++ l) nA nB
  /\ ck_now (px_clock 1 8 p1) = 4%N /\ ck_now (px_clock 1 8 (p1 ++ l)) = 35%N /\ ck_now (px_clock 1 8 p3) = 49%N
  /\ px_whole 1 8 p6 nA nB /\ fine nx_deser nx_dec_users nx_dec_topics nx_valid (px_net p6)
  /\ admitted_once (px_net p6) [2]%N /\ In (EUserAuthed 1 2 [2]%N 101 [8]%N) (trace (px_net (p1 ++ l)) nB)
  /\ c_get_user_connection (m_conns (nx_at (px_net p3) nB)) [2]%N = Some 101%N /\ c_get_user_connection (m_conns (nx_at (px_net p6) nB)) [2]%N = Some 101%N
  /\ nx_caught_up (px_net p3) (px_net p4) nB 105 nA 5
  /\ nx_loop (px_net p5) nA 1 (OUser [1]%N 101) /\ c_get_user_connection (m_conns (nx_at (px_net p5) nA)) [1]%N = Some 101%N
  /\ (forall t, m_tasks (nx_at (px_net p4) nA) !! 1%N = Some t -> t_frames t < 1)
  /\ In (Rcvd 1 1 [3;2;50]%N no_hook) (m_rcvd (nx_at (px_net p5) nA)) /\ nx_done (px_net p5) nA 1 1
  /\ nx_caught_up (px_net p5) (px_net p6) nA 105 nB 5
  /\ (forall x c' hk' m, In (NDeliver x c' hk') (ck_events (px_clock 1 8 p6)) -> hk' m = HProcess m)
  (* and so the theorems apply *)
  /\ (LinkSpec.linked_once nA nB (px_net p6) /\ LinkSpec.linked_once nB nA (px_net p6))
  /\ nx_tied (px_net (p1 ++ l)) nA 105 5 nB 105 5 /\ nx_once (px_net p6) nB [2]%N nA 1 1 101 [3;2;50]%N.
Proof.
  intros N1 B1 Hl N2 E2 N3 E3 E4 E5 E6 H23 H34 H45 H56.
  assert (K : px_dials 1 8 p1 l nA nB) by (apply keeps_check; [vm_compute; reflexivity|rewrite B1; discriminate|rewrite Hl; vm_compute; reflexivity]).
  assert (Hplain : plain_b (ck_events (px_clock 1 8 p6))) by (rewrite E6; unfold plain_b; vm_compute; repeat constructor).
  assert (W2 : px_whole 1 8 (p1 ++ l) nA nB).
  { apply (whole_check _ _ _ _ _ _ E2); [plain|whole|whole]. }
  assert (W6 : px_whole 1 8 p6 nA nB).
  { apply (whole_check _ _ _ _ _ _ E6); [plain|whole|whole]. }
  assert (Hf : fine nx_deser nx_dec_users nx_dec_topics nx_valid (px_net p6)) by (rewrite E6; apply fine_check; vm_compute; reflexivity).
  assert (C3 : c_get_user_connection (m_conns (nx_at (px_net p3) nB)) [2]%N = Some 101%N) by (rewrite E3; vm_compute; reflexivity).
  assert (C6 : c_get_user_connection (m_conns (nx_at (px_net p6) nB)) [2]%N = Some 101%N) by (rewrite E6; vm_compute; reflexivity).
  assert (Hone : admitted_once (px_net p6) [2]%N) by (rewrite E6; apply once_check; vm_compute; lia).
  assert (Hadm : In (EUserAuthed 1 2 [2]%N 101 [8]%N) (trace (px_net (p1 ++ l)) nB)) by (rewrite E2; vm_compute; repeat (first [left; reflexivity|right])).
  assert (T2 : nx_tied (px_net (p1 ++ l)) nA 105 5 nB 105 5) by (rewrite E2; tie).
  assert (K3 : nx_caught_up (px_net p3) (px_net p4) nB 105 nA 5) by (rewrite E3, E4; finished).
  assert (L : nx_loop (px_net p5) nA 1 (OUser [1]%N 101)) by (rewrite E5; eexists; split; [vm_compute; reflexivity|reflexivity]).
  assert (C5 : c_get_user_connection (m_conns (nx_at (px_net p5) nA)) [1]%N = Some 101%N) by (rewrite E5; vm_compute; reflexivity).
  assert (F : forall t, m_tasks (nx_at (px_net p4) nA) !! 1%N = Some t -> t_frames t < 1).
  { rewrite E4. intros t Ht. assert (He : t_frames <$> m_tasks (nx_at (nx_run (pe_2 ++ pe_b ++ pe_c)) nA) !! 1%N = Some 0) by (vm_compute; reflexivity). rewrite Ht in He. injection He as ->. lia. }
  assert (M : In (Rcvd 1 1 [3;2;50]%N no_hook) (m_rcvd (nx_at (px_net p5) nA))) by (rewrite E5; vm_compute; repeat (first [left; reflexivity|right])).
  assert (D : nx_done (px_net p5) nA 1 1) by (rewrite E5; finished).
  assert (K5 : nx_caught_up (px_net p5) (px_net p6) nA 105 nB 5) by (rewrite E5, E6; finished).
  assert (P : forall x c' hk' m, In (NDeliver x c' hk') (ck_events (px_clock 1 8 p6)) -> hk' m = HProcess m).
  { intros x c' hk' m Hin. unfold plain_b in Hplain. rewrite Forall_forall in Hplain. specialize (Hplain _ Hin). cbn in Hplain. by subst hk'. }
  assert (Hlt : (ck_now (px_clock 1 8 p1) + 20 + 8 + 2 * 1 < ck_now (px_clock 1 8 (p1 ++ l)))%N) by (rewrite N1, N2; reflexivity).
  assert (Hlt3 : (ck_now (px_clock 1 8 (p1 ++ l)) + 2 * 1 < ck_now (px_clock 1 8 p3))%N) by (rewrite N2, N3; reflexivity).
  assert (Hne : nA <> nB) by done. assert (H10 : (8 + 1 < 10)%N) by reflexivity.
  do 19 (split; [assumption|]).
  split; [exact (C89_one_link nx_deser nx_dec_users nx_dec_topics nx_valid nx_enc_users nx_enc_topics 1 8 p6 nA nB nx_faithful H10 Hne W6)|]. split; [exact T2|].
  destruct (C89_direct_from_a_cold_start nx_deser nx_dec_users nx_dec_topics nx_valid nx_enc_users nx_enc_topics 1 8 p1 l nA nB nx_faithful H10 Hne (or_introl K) W2 Hlt) as (ca & ha & cb & hb & T & H).
  destruct T as (U1 & _ & U3 & _ & U5 & U6), T2 as (V1 & _ & V3 & _ & V5 & V6). rewrite V1 in U1. injection U1 as <-. rewrite V3 in U3. injection U3 as <-. rewrite V5 in U5. injection U5 as <-. rewrite V6 in U6. injection U6 as <-.
  refine (H p3 p4 p5 p6 [2]%N 101%N 1%N 2%N [8]%N [1]%N 101%N 1%N 1 [3;2;50]%N no_hook [50]%N H23 H34 H45 H56 W6 Hf Hone Hadm Hlt3 C3 C6 K3 L C5 F M D eq_refl eq_refl _ K5).
  intros x c' hk' Hin. by apply (P x c' hk').
Qed.
Example C89_direct_example :
  px_dials 1 8 px1 (px_l1 ++ px_l2) nA nB /\ px_whole 1 8 px2 nA nB
  /\ ck_now (px_clock 1 8 px1) = 4%N /\ ck_now (px_clock 1 8 px2) = 35%N /\ ck_now (px_clock 1 8 px3) = 49%N
  /\ px_whole 1 8 px6' nA nB /\ fine nx_deser nx_dec_users nx_dec_topics nx_valid (px_net px6')
  /\ admitted_once (px_net px6') [2]%N /\ In (EUserAuthed 1 2 [2]%N 101 [8]%N) (trace (px_net px2) nB)
  /\ c_get_user_connection (m_conns (nx_at (px_net px3) nB)) [2]%N = Some 101%N /\ c_get_user_connection (m_conns (nx_at (px_net px6') nB)) [2]%N = Some 101%N
  /\ nx_caught_up (px_net px3) (px_net px4) nB 105 nA 5
  /\ nx_loop (px_net px5') nA 1 (OUser [1]%N 101) /\ c_get_user_connection (m_conns (nx_at (px_net px5') nA)) [1]%N = Some 101%N
  /\ (forall t, m_tasks (nx_at (px_net px4) nA) !! 1%N = Some t -> t_frames t < 1)
  /\ In (Rcvd 1 1 [3;2;50]%N no_hook) (m_rcvd (nx_at (px_net px5') nA)) /\ nx_done (px_net px5') nA 1 1
  /\ nx_caught_up (px_net px5') (px_net px6') nA 105 nB 5
  /\ (forall x c' hk' m, In (NDeliver x c' hk') (ck_events (px_clock 1 8 px6')) -> hk' m = HProcess m)
  (* and so the theorems apply *)
  /\ (LinkSpec.linked_once nA nB (px_net px6') /\ LinkSpec.linked_once nB nA (px_net px6'))
  /\ nx_tied (px_net px2) nA 105 5 nB 105 5 /\ nx_once (px_net px6') nB [2]%N nA 1 1 101 [3;2;50]%N.
Proof.
  destruct px_split as (F1 & _ & F2 & F3). apply facts_split in F1 as (N1 & _ & B1 & _), F2 as (N2 & E2 & _ & S2), F3 as (N3 & E3 & _).
  pose proof (pnets_run 1 8 px3 pe_c eq_refl) as [E4 _]. pose proof (pnets_run 1 8 px4 pe_d' eq_refl) as [E5 _]. pose proof (pnets_run 1 8 px5' pe_e' eq_refl) as [E6 _].
  fold px2 in N2, E2, S2, N3, E3. fold px3 in N3, E3. fold px4 in E4. fold px5' in E5. fold px6' in E6. rewrite E3, <- app_assoc in E4. rewrite E4, <- !app_assoc in E5. rewrite E5, <- !app_assoc in E6.
  exact (direct_example_at px1 (px_l1 ++ px_l2) px3 px4 px5' px6' N1 B1 eq_refl N2 E2 N3 E3 E4 E5 E6 ltac:(by apply prefix_app_r) ltac:(by apply prefix_app_r) ltac:(by apply prefix_app_r) ltac:(by apply prefix_app_r)).
Qed.

(** At 19 s A's heartbeat task asks discovery again, ten seconds after the list that made it dial B; the
    dial is over, two seconds ago. *)
Example C89_rounds_example :
  (8 + 1 < 10)%N /\ bid_gtb nA nB = false /\ nA <> nB /\ pa_beat (px_run 1 8 (px1 ++ px_l1)) !! nA = Some (Asking 19) /\ In (NUp nA 5 6 105 nB 5 6 105) (ck_events (px_clock 1 8 (px1 ++ px_l1)))
  /\ (forall t, (nA, nB, t) ∉ pa_dials (px_run 1 8 (px1 ++ px_l1))).
Proof.
  destruct px_split as (_ & F0 & _). apply facts_split in F0 as (N0 & E0 & B0 & _).
  assert (H10 : (8 + 1 < 10)%N) by reflexivity. assert (Hg : bid_gtb nA nB = false) by (vm_compute; reflexivity). assert (Hne : nA <> nB) by done.
  split; [exact H10|]. split; [exact Hg|]. split; [exact Hne|]. split; [exact B0|]. split; [rewrite E0; unfold pe_0; apply in_app_iff; right; vm_compute; repeat (first [left; reflexivity|right])|].
  exact (proj1 (C89_rounds_do_not_overlap nx_deser nx_dec_users nx_dec_topics nx_valid nx_enc_users nx_enc_topics 1 8 (px1 ++ px_l1) nA nB 19 H10 Hg Hne B0)).
Qed.

(** ** Dials that take ten seconds *)
(** Nothing else takes any time (the delay is 0), and a dial takes up to 10 s: A dials B, and once more 10 s
    later, the first dial being under way still. Both succeed, and the two brokers are left without a
    link, although nothing broke but what they stopped themselves, discovery always answered and no
    dial failed. *)
Definition pz : list pevent :=
  [PStart nA; PList nA {[nB]}; ptick 10; PWake nA; PList nA {[nB]}; PDial nA 1 2 101 nB 1 2 101 0; PDial nA 3 4 103 nB 3 4 103 10] ++ pnets (drop 2 lx_crossed).
Lemma pz_run : ck_events (px_clock 0 10 pz) = lx_crossed /\ ck_now (px_clock 0 10 pz) = 10%N /\ pa_dials (px_run 0 10 pz) = [] .
Proof. vm_compute. repeat split. Qed.
Lemma slow_at ps : ck_events (px_clock 0 10 ps) = lx_crossed -> ck_now (px_clock 0 10 ps) = 10%N -> pa_dials (px_run 0 10 ps) = [] -> ps = pz ->
  exists l a b, let net := nx_run (ck_events (px_clock 0 10 ps)) in
  ps = PStart a :: l /\ bid_gtb a b = false /\ a <> b
  /\ ~ In (PRetry a) l /\ (forall others, In (PList a others) l -> b ∈ others) /\ (forall t, ~ In (PFail a b t) l) /\ pa_dials (px_run 0 10 ps) = []
  /\ plain_b (ck_events (px_clock 0 10 ps)) /\ own_failures (ck_events (px_clock 0 10 ps))
  /\ links_made a b (ck_events (px_clock 0 10 ps)) = 2
  /\ nx_rest net /\ mx_unlinked net a b.
Proof.
  intros E N D Hps. exists (drop 1 pz), nA, nB. cbv zeta. rewrite D, E, Hps. clear.
  split; [reflexivity|]. split; [vm_compute; reflexivity|]. split; [done|].
  assert (H : forallb (fun e => match e with PRetry z => negb (bool_decide (z = nA)) | PFail z w _ => negb (bool_decide (z = nA /\ w = nB))
    | PList z others => negb (bool_decide (z = nA)) || bool_decide (nB ∈ others) | _ => true end) (drop 1 pz) = true) by (vm_compute; reflexivity).
  destruct (listing_check _ _ _ H) as (K1 & K2 & K3). split; [exact K1|]. split; [exact K2|]. split; [exact K3|]. split; [reflexivity|].
  split; [plain|]. split; [apply own_check; vm_compute; reflexivity|]. split; [vm_compute; reflexivity|].
  split; [apply rest_check; vm_compute; reflexivity|split; vm_compute; reflexivity].
Qed.
Theorem C89_slow_dials_refuted :
  exists ps l a b, let net := nx_run (ck_events (px_clock 0 10 ps)) in
  ps = PStart a :: l /\ bid_gtb a b = false /\ a <> b
  /\ ~ In (PRetry a) l /\ (forall others, In (PList a others) l -> b ∈ others) /\ (forall t, ~ In (PFail a b t) l) /\ pa_dials (px_run 0 10 ps) = []
  /\ plain_b (ck_events (px_clock 0 10 ps)) /\ own_failures (ck_events (px_clock 0 10 ps))
  /\ links_made a b (ck_events (px_clock 0 10 ps)) = 2
  /\ nx_rest net /\ mx_unlinked net a b.
Proof. exists pz. destruct pz_run as (E & N & D). exact (slow_at pz E N D eq_refl). Qed.
Print Assumptions C89_slow_dials_refuted.
