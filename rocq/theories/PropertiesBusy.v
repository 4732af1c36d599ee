(** Property C87: messages get through while everything else goes on. Nothing here assumes that the
    network is at rest ([at_rest]) or synchronised at any moment: at all the moments named, tasks may
    have work left, frames may be in transit, users may come and go. The proofs are in BusyProofs.v,
    BusyProofs2.v and BusyProofs3.v.

    Hypotheses used throughout (vocabulary in BusySpec.v): [faithful_sync], [hooks_pass] and [fine] as
    in PropertiesSettle.v. [tied]: the same link is registered at both ends, and these are its
    connections and loops. [user_told], [topic_told]: the broker has no more to tell the other about
    this user or topic. [done_with]: the receive loop has finished this many frames. [caught_up]: the
    receiving end of a link is done with all that had been sent on it at the earlier moment. *)
From stdpp Require Import gmap fin_maps list countable.
From Coq Require Import NArith Lia.
From Verif Require Import IdModel RelMapModel VMapModel ConnModel ConnSpec ConnProofs3 TopicModel MsgModel RouteModel
  TaskModel TaskProofs TaskOrder TaskHandles TaskGuarded TaskCheck TaskSync NetModel NetProofs NetOrigin NetComplete NetSynced NetConcurrent NetDelivery NetCheck
  NetSettle NetSettleDir PropertiesNet PropertiesSettle FifoSpec BusySpec BusyProofs BusyProofs2 BusyProofs3.

(** * C87 *)
(** Users: [v] is connected to [b] on the same connection at [es1] and [es2], and the link between
    [a] and [b] is the same at both moments. If [b] had told [a] about [v] at [es1] and [a] is done at
    [es2] with what it had been sent by [es1], then [a] knows where [v] is, from [es2] on. *)
Theorem C87_user_known_once_told :
  forall deser dec_users dec_topics valid enc_users enc_topics es1 es2 es3 a ca ha b cb hb v c,
  faithful_sync deser dec_users dec_topics enc_users enc_topics ->
  let run := n_run deser dec_users dec_topics valid enc_users enc_topics in
  let conns n x := m_conns (broker_at deser dec_users dec_topics valid n x) in
  es1 `prefix_of` es2 -> es2 `prefix_of` es3 -> hooks_pass es3 -> fine deser dec_users dec_topics valid (run es3) -> admitted_once (run es3) v ->
  tied deser dec_users dec_topics valid (run es1) a ca ha b cb hb -> tied deser dec_users dec_topics valid (run es2) a ca ha b cb hb ->
  c_get_user_connection (conns (run es1) b) v = Some c -> c_get_user_connection (conns (run es3) b) v = Some c ->
  user_told deser dec_users dec_topics valid (run es1) b a v -> caught_up deser dec_users dec_topics valid (run es1) (run es2) b cb a ha ->
  c_get_broker_identifier_of_user (conns (run es3) a) v = Some b.
Proof.
  intros deser dec_users dec_topics valid enc_users enc_topics es1 es2 es3 a ca ha b cb hb v c Hcod run conns H12 H23 Hh Hf Hone Ht1 Ht2 Hc1 Hc3 Htold Hcu.
  assert (H13 : es1 `prefix_of` es3) by (etrans; [exact H12|exact H23]).
  assert (Hc2 : c_get_user_connection (conns (run es2) b) v = Some c) by (by eapply (user_between deser dec_users dec_topics valid enc_users enc_topics es1 es3)).
  assert (Hone2 : admitted_once (run es2) v) by (by eapply once_before).
  assert (Hd : d_in v b (direct (conns (run es2) a))).
  { eapply (known_told deser dec_users dec_topics valid enc_users enc_topics Hcod v b c es1 es2 a ca ha cb hb H12); try done; [by eapply hooks_before|by eapply fine_before]. }
  pose proof (known_stays deser dec_users dec_topics valid enc_users enc_topics Hcod v b c es2 es3 a H23 Hh Hf Hone Hc2 Hc3 Hd es3 H23 ltac:(done)) as Hk.
  unfold d_in in Hk. unfold c_get_broker_identifier_of_user, vm_get, conns, run. by rewrite Hk.
Qed.
Print Assumptions C87_user_known_once_told.

(** Topics: the same for a topic to which [v] stays subscribed. *)
Theorem C87_topic_known_once_told :
  forall deser dec_users dec_topics valid enc_users enc_topics es1 es2 es3 a ca ha b cb hb v t,
  faithful_sync deser dec_users dec_topics enc_users enc_topics ->
  let run := n_run deser dec_users dec_topics valid enc_users enc_topics in
  let conns n x := m_conns (broker_at deser dec_users dec_topics valid n x) in
  es1 `prefix_of` es2 -> es2 `prefix_of` es3 -> hooks_pass es3 -> fine deser dec_users dec_topics valid (run es3) ->
  tied deser dec_users dec_topics valid (run es1) a ca ha b cb hb -> tied deser dec_users dec_topics valid (run es3) a ca ha b cb hb ->
  (forall es, es1 `prefix_of` es -> es `prefix_of` es3 -> subscribed_at deser dec_users dec_topics valid (run es) b v t) ->
  topic_told deser dec_users dec_topics valid (run es1) b a t -> caught_up deser dec_users dec_topics valid (run es1) (run es2) b cb a ha ->
  In b (c_get_interested_by_topic (conns (run es3) a) [t] false).1.
Proof.
  intros deser dec_users dec_topics valid enc_users enc_topics es1 es2 es3 a ca ha b cb hb v t Hcod run conns H12 H23 Hh Hf Ht1 Ht3 Hsub Htold Hcu.
  by eapply (topic_heard deser dec_users dec_topics valid enc_users enc_topics Hcod es1 es2 es3 a ca ha b cb hb v t).
Qed.
Print Assumptions C87_topic_known_once_told.

(** Direct messages across a link. The session [h] of user [u] at [a] has its [k]th frame accepted
    between [es2] and [es3], and [a] is done with it at [es3], the user being still connected; at [es4]
    [b] is done with all that [a] had sent it by [es3]. Then [b] has sent the message to [v], once. *)
Theorem C87_busy_direct :
  forall deser dec_users dec_topics valid enc_users enc_topics es1 es2 es3 es4 a ca ha b cb hb v c u cu h k raw hk body,
  faithful_sync deser dec_users dec_topics enc_users enc_topics ->
  let run := n_run deser dec_users dec_topics valid enc_users enc_topics in
  let at_ := broker_at deser dec_users dec_topics valid in
  es1 `prefix_of` es2 -> es2 `prefix_of` es3 -> es3 `prefix_of` es4 -> hooks_pass es4 -> fine deser dec_users dec_topics valid (run es4) ->
  (* the link and the recipient *)
  tied deser dec_users dec_topics valid (run es1) a ca ha b cb hb -> tied deser dec_users dec_topics valid (run es4) a ca ha b cb hb ->
  admitted_once (run es4) v ->
  c_get_user_connection (m_conns (at_ (run es1) b)) v = Some c -> c_get_user_connection (m_conns (at_ (run es4) b)) v = Some c ->
  (* [a] has been told, and has listened *)
  user_told deser dec_users dec_topics valid (run es1) b a v -> caught_up deser dec_users dec_topics valid (run es1) (run es2) b cb a ha ->
  (* the message *)
  loop_of deser dec_users dec_topics valid (run es3) a h (OUser u cu) -> c_get_user_connection (m_conns (at_ (run es3) a)) u = Some cu ->
  (forall t, m_tasks (at_ (run es2) a) !! h = Some t -> t_frames t < k) -> In (Rcvd h k raw hk) (m_rcvd (at_ (run es3) a)) ->
  done_with deser dec_users dec_topics valid (run es3) a h k ->
  deser raw = Some (MDirect v body) -> hk (MDirect v body) = HProcess (MDirect v body) ->
  (forall x c' hk', In (NDeliver x c' hk') es4 -> hk' (MDirect v body) = HProcess (MDirect v body)) ->
  caught_up deser dec_users dec_topics valid (run es3) (run es4) a ca b hb ->
  sent_once deser dec_users dec_topics valid (run es4) b v a h k c raw.
Proof.
  intros deser dec_users dec_topics valid enc_users enc_topics es1 es2 es3 es4 a ca ha b cb hb v c u cu h k raw hk body Hcod run at_. intros.
  apply (direct_relayed deser dec_users dec_topics valid enc_users enc_topics Hcod es1 es2 es3 es4 a ca ha b cb hb v c u cu h k raw hk body); assumption.
Qed.
Print Assumptions C87_busy_direct.

(** Broadcasts across a link, to a user who stays subscribed to one of the topics. *)
Theorem C87_busy_broadcast :
  forall deser dec_users dec_topics valid enc_users enc_topics es1 es2 es3 es4 a ca ha b cb hb v c u cu h k raw hk ts t body,
  faithful_sync deser dec_users dec_topics enc_users enc_topics ->
  let run := n_run deser dec_users dec_topics valid enc_users enc_topics in
  let at_ := broker_at deser dec_users dec_topics valid in
  es1 `prefix_of` es2 -> es2 `prefix_of` es3 -> es3 `prefix_of` es4 -> hooks_pass es4 -> fine deser dec_users dec_topics valid (run es4) ->
  (* the link and the recipient *)
  tied deser dec_users dec_topics valid (run es1) a ca ha b cb hb -> tied deser dec_users dec_topics valid (run es4) a ca ha b cb hb ->
  c_get_user_connection (m_conns (at_ (run es1) b)) v = Some c -> c_get_user_connection (m_conns (at_ (run es4) b)) v = Some c ->
  (forall es, es1 `prefix_of` es -> es `prefix_of` es4 -> subscribed_at deser dec_users dec_topics valid (run es) b v t) ->
  (* [a] has been told, and has listened *)
  topic_told deser dec_users dec_topics valid (run es1) b a t -> caught_up deser dec_users dec_topics valid (run es1) (run es2) b cb a ha ->
  (* the message *)
  loop_of deser dec_users dec_topics valid (run es3) a h (OUser u cu) -> c_get_user_connection (m_conns (at_ (run es3) a)) u = Some cu ->
  (forall tk, m_tasks (at_ (run es2) a) !! h = Some tk -> t_frames tk < k) -> In (Rcvd h k raw hk) (m_rcvd (at_ (run es3) a)) ->
  done_with deser dec_users dec_topics valid (run es3) a h k ->
  deser raw = Some (MBroadcast ts body) -> hk (MBroadcast ts body) = HProcess (MBroadcast ts body) -> In t ts ->
  (forall x c' hk', In (NDeliver x c' hk') es4 -> hk' (MBroadcast ts body) = HProcess (MBroadcast ts body)) ->
  caught_up deser dec_users dec_topics valid (run es3) (run es4) a ca b hb ->
  sent_once deser dec_users dec_topics valid (run es4) b v a h k c raw.
Proof.
  intros deser dec_users dec_topics valid enc_users enc_topics es1 es2 es3 es4 a ca ha b cb hb v c u cu h k raw hk ts t body Hcod run at_ H12 H23 H34 Hh Hf Ht1 Ht4 Hc1 Hc4 Hsub.
  assert (Hv : valid t = true).
  { eapply (C64_only_known_topics deser dec_users dec_topics valid b (trace (run es4) b) v t true). apply (Hsub es4); [|done].
    etrans; [exact H12|]. etrans; [exact H23|exact H34]. }
  intros. apply (broadcast_relayed deser dec_users dec_topics valid enc_users enc_topics Hcod es1 es2 es3 es4 a ca ha b cb hb v c u cu h k raw hk ts t body); assumption.
Qed.
Print Assumptions C87_busy_broadcast.

(** At one broker nobody has to be told: a direct message to a user connected to the same broker,
    and a broadcast to one who stays subscribed there, are sent once the broker is done with them. *)
Theorem C87_busy_same_broker :
  forall deser dec_users dec_topics valid enc_users enc_topics es1 es2 b v c u cu h k raw hk m,
  faithful_sync deser dec_users dec_topics enc_users enc_topics ->
  let run := n_run deser dec_users dec_topics valid enc_users enc_topics in
  let at_ := broker_at deser dec_users dec_topics valid in
  es1 `prefix_of` es2 -> hooks_pass es2 ->
  c_get_user_connection (m_conns (at_ (run es1) b)) v = Some c -> c_get_user_connection (m_conns (at_ (run es2) b)) v = Some c ->
  loop_of deser dec_users dec_topics valid (run es2) b h (OUser u cu) -> c_get_user_connection (m_conns (at_ (run es2) b)) u = Some cu ->
  (forall tk, m_tasks (at_ (run es1) b) !! h = Some tk -> t_frames tk < k) -> In (Rcvd h k raw hk) (m_rcvd (at_ (run es2) b)) ->
  done_with deser dec_users dec_topics valid (run es2) b h k ->
  deser raw = Some m -> hk m = HProcess m ->
  (exists body, m = MDirect v body)
  \/ (exists ts t body, m = MBroadcast ts body /\ In t ts
      /\ forall es, es1 `prefix_of` es -> es `prefix_of` es2 -> subscribed_at deser dec_users dec_topics valid (run es) b v t) ->
  sent_once deser dec_users dec_topics valid (run es2) b v b h k c raw.
Proof.
  intros deser dec_users dec_topics valid enc_users enc_topics es1 es2 b v c u cu h k raw hk m Hcod run at_ H12 Hh Hc1 Hc2 Hl Hcu H0 Hr Hd Hraw Hk [(body & ->)|(ts & t & body & -> & Hin & Hsub)].
  - eapply (direct_served deser dec_users dec_topics valid enc_users enc_topics Hcod); eassumption.
  - assert (Hv : valid t = true).
    { eapply (C64_only_known_topics deser dec_users dec_topics valid b (trace (run es2) b) v t true). by apply (Hsub es2). }
    eapply (broadcast_served deser dec_users dec_topics valid enc_users enc_topics Hcod); eassumption.
Qed.
Print Assumptions C87_busy_same_broker.

(** ** A busy network that meets the hypotheses *)
(** After the setup of PropertiesNet.v, user 2 at B publishes something whose handling is left
    unfinished throughout. User 4 (topic 8) connects to B ([bz1]). While user 1 at A publishes something
    else, A reads the news ([bz2]). User 1 sends a direct message to user 4, user 5 connects to A, user 1
    sends a broadcast about topic 8 ([bz3]); the news of user 5 is still on its way when B has got all
    of it ([bz4]). *)
Definition bz1 : list nevent :=
  nx_setup ++ NPublish nB 1 [4;7;9;60]%N no_hook :: goes nB 1 2 ++ NUser nB 7 8 [4]%N 107 [8]%N :: goes nB 8 9.
Definition bz_b : list nevent :=
  NPublish nA 1 [3;2;61]%N no_hook :: goes nA 1 1 ++ NDeliver nB 105 no_hook :: goes nA 5 1 ++ NDeliver nB 105 no_hook :: goes nA 5 1.
Definition bz2 : list nevent := bz1 ++ bz_b.
Definition bz_c : list nevent :=
  goes nA 1 2 ++ NPublish nA 1 [3;4;50]%N no_hook :: goes nA 1 3 ++ NUser nA 7 8 [5]%N 107 [8]%N :: goes nA 8 1 ++ NPublish nA 1 [4;8;99;51]%N no_hook :: goes nA 1 6.
Definition bz3 : list nevent := bz2 ++ bz_c.
Definition bz_d : list nevent :=
  NDeliver nA 105 no_hook :: goes nB 5 3 ++ NDeliver nA 105 no_hook :: goes nB 5 3 ++ goes nA 8 1 ++ NDeliver nA 105 no_hook :: goes nB 5 3.
Definition bz4 : list nevent := bz3 ++ bz_d.

(** Boolean checks. *)
Definition tells_user_b (a : bid) (v : ukey) (x : act) : bool :=
  match x with
  | ASendBroker p _ (FUserSync d) | ALookupBroker p (FUserSync d) => bool_decide (p = a) && bool_decide (is_Some (entries d !! v))
  | ASendBrokers (FUserSync d) => bool_decide (is_Some (entries d !! v))
  | AFullUserSync p | ARemoveBroker p => bool_decide (p = a)
  | _ => false
  end.
Lemma tells_user_check a v x : tells_user a v x -> tells_user_b a v x = true.
Proof.
  destruct x as [| | | |p f|p c f|f| |p| | | | | | | |p| |]; try done; try destruct f; try done; cbn;
    rewrite ?andb_true_iff, ?bool_decide_eq_true; done.
Qed.
Definition tells_topic_b (a : bid) (t : N) (x : act) : bool :=
  match x with
  | ASendBroker p _ (FTopicSync d) | ALookupBroker p (FTopicSync d) => bool_decide (p = a) && bool_decide (is_Some (entries d !! t))
  | ASendBrokers (FTopicSync d) => bool_decide (is_Some (entries d !! t))
  | AFullTopicSync p | ARemoveBroker p => bool_decide (p = a)
  | _ => false
  end.
Lemma tells_topic_check a t x : tells_topic a t x -> tells_topic_b a t x = true.
Proof.
  destruct x as [| | | |p f|p c f|f| |p| | | | | | |p| | |]; try done; try destruct f; try done; cbn;
    rewrite ?andb_true_iff, ?bool_decide_eq_true; done.
Qed.
Definition no_act (P : act -> bool) (n : net) (b : bid) : bool :=
  forallb (fun p => forallb (fun x => negb (P x)) (t_acts p.2)) (map_to_list (m_tasks (nx_at n b))).
Lemma no_act_check P n b h t x : no_act P n b = true -> m_tasks (nx_at n b) !! h = Some t -> In x (t_acts t) -> P x = false.
Proof.
  intros Hn Ht Hx. unfold no_act in Hn. rewrite forallb_forall in Hn. specialize (Hn (h, t)). cbn in Hn. rewrite forallb_forall in Hn.
  apply negb_true_iff, Hn; [|done]. by apply elem_of_list_In, elem_of_map_to_list.
Qed.
Definition user_told_b (n : net) (b a : bid) (v : ukey) : bool :=
  match (c_get_partial_user_sync (m_conns (nx_at n b))).2 with Some d => bool_decide (entries d !! v = None) | None => true end && no_act (tells_user_b a v) n b.
Lemma user_told_check n b a v : user_told_b n b a v = true -> user_told nx_deser nx_dec_users nx_dec_topics nx_valid n b a v.
Proof.
  intros [H1 H2]%andb_prop. split.
  - intros d Hd. rewrite Hd in H1. by apply bool_decide_eq_true in H1.
  - intros h t x Ht Hx Htl%tells_user_check. pose proof (no_act_check _ _ _ _ _ _ H2 Ht Hx). congruence.
Qed.
Definition topic_told_b (n : net) (b a : bid) (t : N) : bool :=
  match (c_get_partial_topic_sync (m_conns (nx_at n b))).2 with Some d => bool_decide (entries d !! t = None) | None => true end && no_act (tells_topic_b a t) n b.
Lemma topic_told_check n b a t : topic_told_b n b a t = true -> topic_told nx_deser nx_dec_users nx_dec_topics nx_valid n b a t.
Proof.
  intros [H1 H2]%andb_prop. split.
  - intros d Hd. rewrite Hd in H1. by apply bool_decide_eq_true in H1.
  - intros h tk x Ht Hx Htl%tells_topic_check. pose proof (no_act_check _ _ _ _ _ _ H2 Ht Hx). congruence.
Qed.
Definition subscribed_b (es1 l : list nevent) (b : bid) (v : ukey) (t : N) : bool :=
  forallb (fun i => bool_decide (v ∈ (c_get_interested_by_topic (m_conns (nx_at (nx_run (es1 ++ take i l)) b)) [t] true).2)) (seq 0 (S (length l))).
Lemma subscribed_check es1 l b v t : subscribed_b es1 l b v t = true ->
  forall es, es1 `prefix_of` es -> es `prefix_of` es1 ++ l -> subscribed_at nx_deser nx_dec_users nx_dec_topics nx_valid (nx_run es) b v t.
Proof.
  intros Hb es [l1 ->] [l2 Hl]. rewrite <- app_assoc in Hl. apply app_inv_head in Hl. subst l. unfold subscribed_b in Hb. rewrite forallb_forall in Hb.
  specialize (Hb (length l1)). rewrite take_app in Hb. unfold subscribed_at. apply elem_of_list_In. eapply bool_decide_eq_true, Hb.
  apply in_seq. rewrite app_length. lia.
Qed.
Definition busy_b (n : net) : bool := existsb (fun '(b, es) => existsb (fun p => match t_acts p.2 with [] => false | _ => true end) (map_to_list (m_tasks (nx_at n b)))) (map_to_list (n_trace n)).
Lemma busy_check n : busy_b n = true -> ~ nx_rest n.
Proof.
  intros Hb [Hr _]. unfold busy_b in Hb. apply existsb_exists in Hb as ([b es] & _ & Hb). apply existsb_exists in Hb as ([h t] & Ht & Hb).
  apply elem_of_list_In, elem_of_map_to_list in Ht. cbn in Hb. by rewrite (Hr b h t Ht) in Hb.
Qed.

Notation nx_tied := (tied nx_deser nx_dec_users nx_dec_topics nx_valid).
Notation nx_told_user := (user_told nx_deser nx_dec_users nx_dec_topics nx_valid).
Notation nx_told_topic := (topic_told nx_deser nx_dec_users nx_dec_topics nx_valid).
Notation nx_caught_up := (caught_up nx_deser nx_dec_users nx_dec_topics nx_valid).
Notation nx_done := (done_with nx_deser nx_dec_users nx_dec_topics nx_valid).
Notation nx_loop := (loop_of nx_deser nx_dec_users nx_dec_topics nx_valid).
Notation nx_once := (sent_once nx_deser nx_dec_users nx_dec_topics nx_valid).
Notation nx_never := (sent_never nx_deser nx_dec_users nx_dec_topics nx_valid).

Ltac tie := unfold tied, loop_of; split; [vm_compute; reflexivity|]; split; [eexists; split; [vm_compute; reflexivity|reflexivity]|];
  split; [vm_compute; reflexivity|]; split; [eexists; split; [vm_compute; reflexivity|reflexivity]|]; split; vm_compute; reflexivity.
Ltac finished := eexists; split; [vm_compute; reflexivity|]; vm_compute; first [right; split; reflexivity|left; lia].
Example C87_example :
  ~ nx_rest (nx_run bz1) /\ ~ nx_rest (nx_run bz2) /\ ~ nx_rest (nx_run bz3) /\ ~ nx_rest (nx_run bz4)
  /\ hooks_pass bz4 /\ fine nx_deser nx_dec_users nx_dec_topics nx_valid (nx_run bz4) /\ admitted_once (nx_run bz4) [4]%N
  /\ nx_tied (nx_run bz1) nA 105 5 nB 105 5 /\ nx_tied (nx_run bz2) nA 105 5 nB 105 5 /\ nx_tied (nx_run bz4) nA 105 5 nB 105 5
  /\ c_get_user_connection (m_conns (nx_at (nx_run bz1) nB)) [4]%N = Some 107%N /\ c_get_user_connection (m_conns (nx_at (nx_run bz4) nB)) [4]%N = Some 107%N
  /\ (forall es, bz1 `prefix_of` es -> es `prefix_of` bz4 -> subscribed_at nx_deser nx_dec_users nx_dec_topics nx_valid (nx_run es) nB [4]%N 8)
  /\ nx_told_user (nx_run bz1) nB nA [4]%N /\ nx_told_topic (nx_run bz1) nB nA 8 /\ nx_caught_up (nx_run bz1) (nx_run bz2) nB 105 nA 5
  /\ nx_loop (nx_run bz3) nA 1 (OUser [1]%N 101) /\ c_get_user_connection (m_conns (nx_at (nx_run bz3) nA)) [1]%N = Some 101%N
  /\ (forall t, m_tasks (nx_at (nx_run bz2) nA) !! 1%N = Some t -> t_frames t = 1)
  /\ In (Rcvd 1 2 [3;4;50]%N no_hook) (m_rcvd (nx_at (nx_run bz3) nA)) /\ nx_done (nx_run bz3) nA 1 2
  /\ In (Rcvd 1 3 [4;8;99;51]%N no_hook) (m_rcvd (nx_at (nx_run bz3) nA)) /\ nx_done (nx_run bz3) nA 1 3
  /\ nx_caught_up (nx_run bz3) (nx_run bz4) nA 105 nB 5
  /\ (forall x c' hk' m, In (NDeliver x c' hk') bz4 -> hk' m = HProcess m)
  (* and so the theorems apply *)
  /\ nx_once (nx_run bz4) nB [4]%N nA 1 2 107 [3;4;50]%N /\ nx_once (nx_run bz4) nB [4]%N nA 1 3 107 [4;8;99;51]%N.
Proof.
  assert (R1 : ~ nx_rest (nx_run bz1)) by (apply busy_check; vm_compute; reflexivity).
  assert (R2 : ~ nx_rest (nx_run bz2)) by (apply busy_check; vm_compute; reflexivity).
  assert (R3 : ~ nx_rest (nx_run bz3)) by (apply busy_check; vm_compute; reflexivity).
  assert (R4 : ~ nx_rest (nx_run bz4)) by (apply busy_check; vm_compute; reflexivity).
  assert (Hplain : plain_b bz4) by (unfold plain_b; vm_compute; repeat constructor).
  assert (Hh : hooks_pass bz4) by (exact (plain_pass _ Hplain)).
  assert (Hf : fine nx_deser nx_dec_users nx_dec_topics nx_valid (nx_run bz4)) by (apply fine_check; vm_compute; reflexivity).
  assert (Hone : admitted_once (nx_run bz4) [4]%N) by (apply once_check; vm_compute; lia).
  assert (T1 : nx_tied (nx_run bz1) nA 105 5 nB 105 5) by tie.
  assert (T2 : nx_tied (nx_run bz2) nA 105 5 nB 105 5) by tie.
  assert (T4 : nx_tied (nx_run bz4) nA 105 5 nB 105 5) by tie.
  assert (C1 : c_get_user_connection (m_conns (nx_at (nx_run bz1) nB)) [4]%N = Some 107%N) by (vm_compute; reflexivity).
  assert (C4 : c_get_user_connection (m_conns (nx_at (nx_run bz4) nB)) [4]%N = Some 107%N) by (vm_compute; reflexivity).
  assert (Hbz4 : bz4 = bz1 ++ (bz_b ++ bz_c ++ bz_d)) by (unfold bz4, bz3, bz2; by rewrite <- !app_assoc).
  assert (Hsub : forall es, bz1 `prefix_of` es -> es `prefix_of` bz4 -> subscribed_at nx_deser nx_dec_users nx_dec_topics nx_valid (nx_run es) nB [4]%N 8).
  { rewrite Hbz4. apply subscribed_check. vm_compute. reflexivity. }
  assert (U1 : nx_told_user (nx_run bz1) nB nA [4]%N) by (apply user_told_check; vm_compute; reflexivity).
  assert (U2 : nx_told_topic (nx_run bz1) nB nA 8) by (apply topic_told_check; vm_compute; reflexivity).
  assert (K1 : nx_caught_up (nx_run bz1) (nx_run bz2) nB 105 nA 5) by finished.
  assert (L : nx_loop (nx_run bz3) nA 1 (OUser [1]%N 101)) by (eexists; split; [vm_compute; reflexivity|reflexivity]).
  assert (C3 : c_get_user_connection (m_conns (nx_at (nx_run bz3) nA)) [1]%N = Some 101%N) by (vm_compute; reflexivity).
  assert (F2 : forall t, m_tasks (nx_at (nx_run bz2) nA) !! 1%N = Some t -> t_frames t = 1).
  { intros t Ht. assert (He : t_frames <$> m_tasks (nx_at (nx_run bz2) nA) !! 1%N = Some 1) by (vm_compute; reflexivity). rewrite Ht in He. by injection He. }
  assert (M1 : In (Rcvd 1 2 [3;4;50]%N no_hook) (m_rcvd (nx_at (nx_run bz3) nA))) by (vm_compute; repeat (first [left; reflexivity|right])).
  assert (D1 : nx_done (nx_run bz3) nA 1 2) by finished.
  assert (M2 : In (Rcvd 1 3 [4;8;99;51]%N no_hook) (m_rcvd (nx_at (nx_run bz3) nA))) by (vm_compute; repeat (first [left; reflexivity|right])).
  assert (D2 : nx_done (nx_run bz3) nA 1 3) by finished.
  assert (K3 : nx_caught_up (nx_run bz3) (nx_run bz4) nA 105 nB 5) by finished.
  assert (P : forall x c' hk' m, In (NDeliver x c' hk') bz4 -> hk' m = HProcess m).
  { intros x c' hk' m Hin. unfold plain_b in Hplain. rewrite Forall_forall in Hplain. specialize (Hplain _ Hin). cbn in Hplain. by subst hk'. }
  assert (H12 : bz1 `prefix_of` bz2) by (by apply prefix_app_r). assert (H23 : bz2 `prefix_of` bz3) by (by apply prefix_app_r). assert (H34 : bz3 `prefix_of` bz4) by (by apply prefix_app_r).
  do 25 (split; [assumption|]). split.
  - apply (C87_busy_direct nx_deser nx_dec_users nx_dec_topics nx_valid nx_enc_users nx_enc_topics bz1 bz2 bz3 bz4 nA 105 5 nB 105 5 [4]%N 107 [1]%N 101 1 2 [3;4;50]%N no_hook [50]%N nx_faithful); try assumption; try reflexivity.
    + intros t Ht. rewrite (F2 t Ht). lia.
    + intros x c' hk' Hin. by apply (P x c' hk').
  - apply (C87_busy_broadcast nx_deser nx_dec_users nx_dec_topics nx_valid nx_enc_users nx_enc_topics bz1 bz2 bz3 bz4 nA 105 5 nB 105 5 [4]%N 107 [1]%N 101 1 3 [4;8;99;51]%N no_hook [8;99]%N 8 [51]%N nx_faithful); try assumption; try reflexivity.
    + intros t Ht. rewrite (F2 t Ht). lia.
    + by left.
    + intros x c' hk' Hin. by apply (P x c' hk').
Qed.

(** At one broker: user 5 connects to A, whose announcement of it is never finished, and user 1 sends a
    direct message to user 5. *)
Definition bz5 : list nevent := bz1 ++ NUser nA 7 8 [5]%N 107 [8]%N :: goes nA 8 1.
Definition bz6 : list nevent := bz5 ++ NPublish nA 1 [3;5;70]%N no_hook :: goes nA 1 3.
Example C87_same_broker_example :
  ~ nx_rest (nx_run bz5) /\ ~ nx_rest (nx_run bz6) /\ hooks_pass bz6
  /\ c_get_user_connection (m_conns (nx_at (nx_run bz5) nA)) [5]%N = Some 107%N /\ c_get_user_connection (m_conns (nx_at (nx_run bz6) nA)) [5]%N = Some 107%N
  /\ nx_loop (nx_run bz6) nA 1 (OUser [1]%N 101) /\ c_get_user_connection (m_conns (nx_at (nx_run bz6) nA)) [1]%N = Some 101%N
  /\ (forall t, m_tasks (nx_at (nx_run bz5) nA) !! 1%N = Some t -> t_frames t < 1)
  /\ In (Rcvd 1 1 [3;5;70]%N no_hook) (m_rcvd (nx_at (nx_run bz6) nA)) /\ nx_done (nx_run bz6) nA 1 1
  /\ nx_once (nx_run bz6) nA [5]%N nA 1 1 107 [3;5;70]%N.
Proof.
  assert (Hh : hooks_pass bz6) by (apply plain_pass; unfold plain_b; vm_compute; repeat constructor).
  assert (C1 : c_get_user_connection (m_conns (nx_at (nx_run bz5) nA)) [5]%N = Some 107%N) by (vm_compute; reflexivity).
  assert (C2 : c_get_user_connection (m_conns (nx_at (nx_run bz6) nA)) [5]%N = Some 107%N) by (vm_compute; reflexivity).
  assert (L : nx_loop (nx_run bz6) nA 1 (OUser [1]%N 101)) by (eexists; split; [vm_compute; reflexivity|reflexivity]).
  assert (C3 : c_get_user_connection (m_conns (nx_at (nx_run bz6) nA)) [1]%N = Some 101%N) by (vm_compute; reflexivity).
  assert (F : forall t, m_tasks (nx_at (nx_run bz5) nA) !! 1%N = Some t -> t_frames t < 1).
  { intros t Ht. assert (He : t_frames <$> m_tasks (nx_at (nx_run bz5) nA) !! 1%N = Some 0) by (vm_compute; reflexivity). rewrite Ht in He. injection He as ->. lia. }
  assert (M : In (Rcvd 1 1 [3;5;70]%N no_hook) (m_rcvd (nx_at (nx_run bz6) nA))) by (vm_compute; repeat (first [left; reflexivity|right])).
  assert (D : nx_done (nx_run bz6) nA 1 1) by finished.
  split; [apply busy_check; vm_compute; reflexivity|]. split; [apply busy_check; vm_compute; reflexivity|].
  do 8 (split; [assumption|]).
  apply (C87_busy_same_broker nx_deser nx_dec_users nx_dec_topics nx_valid nx_enc_users nx_enc_topics bz5 bz6 nA [5]%N 107 [1]%N 101 1 1 [3;5;70]%N no_hook (MDirect [5]%N [70]%N) nx_faithful);
    try assumption; try reflexivity.
  - by apply prefix_app_r.
  - left. by eexists.
Qed.

(** ** Being told is not enough: the other broker must have listened *)
(** As above, but user 1 sends its direct message to user 4 when B has told A of user 4 and A has not
    yet read it: every other hypothesis of [C87_busy_direct] holds, with [es2] the moment at which B had
    told A, and the message is never sent. *)
Definition bz_early : list nevent := bz1 ++ NPublish nA 1 [3;4;50]%N no_hook :: goes nA 1 3.
Definition bz_after : list nevent :=
  bz_early ++ NDeliver nB 105 no_hook :: goes nA 5 1 ++ NDeliver nB 105 no_hook :: goes nA 5 1.
Theorem C87_told_but_not_heard_refuted :
  exists es1 es3 es4 a ca ha b cb hb v c u cu h k raw body,
  let n1 := nx_run es1 in let n3 := nx_run es3 in let n4 := nx_run es4 in
  es1 `prefix_of` es3 /\ es3 `prefix_of` es4 /\ hooks_pass es4 /\ fine nx_deser nx_dec_users nx_dec_topics nx_valid n4
  /\ nx_tied n1 a ca ha b cb hb /\ nx_tied n4 a ca ha b cb hb /\ admitted_once n4 v
  /\ c_get_user_connection (m_conns (nx_at n1 b)) v = Some c /\ c_get_user_connection (m_conns (nx_at n4 b)) v = Some c
  /\ nx_told_user n1 b a v
  /\ nx_loop n3 a h (OUser u cu) /\ c_get_user_connection (m_conns (nx_at n3 a)) u = Some cu
  /\ (forall t, m_tasks (nx_at n1 a) !! h = Some t -> t_frames t < k) /\ In (Rcvd h k raw no_hook) (m_rcvd (nx_at n3 a)) /\ nx_done n3 a h k
  /\ nx_deser raw = Some (MDirect v body) /\ nx_caught_up n3 n4 a ca b hb
  (* [b] is done with everything [a] sent, and [a] with everything [b] sent *)
  /\ nx_caught_up n4 n4 a ca b hb /\ nx_caught_up n4 n4 b cb a ha
  /\ nx_never n4 b v a h k.
Proof.
  exists bz1, bz_early, bz_after, nA, 105%N, 5%N, nB, 105%N, 5%N, [4]%N, 107%N, [1]%N, 101%N, 1%N, 1, [3;4;50]%N, [50]%N. cbv zeta.
  split; [by apply prefix_app_r|]. split; [by apply prefix_app_r|].
  split; [apply plain_pass; unfold plain_b; vm_compute; repeat constructor|]. split; [apply fine_check; vm_compute; reflexivity|].
  split; [tie|]. split; [tie|]. split; [apply once_check; vm_compute; lia|]. split; [vm_compute; reflexivity|]. split; [vm_compute; reflexivity|].
  split; [apply user_told_check; vm_compute; reflexivity|]. split; [eexists; split; [vm_compute; reflexivity|reflexivity]|]. split; [vm_compute; reflexivity|].
  split.
  { intros t Ht. assert (He : t_frames <$> m_tasks (nx_at (nx_run bz1) nA) !! 1%N = Some 0) by (vm_compute; reflexivity). rewrite Ht in He. injection He as ->. lia. }
  split; [vm_compute; repeat (first [left; reflexivity|right])|]. split; [finished|]. split; [reflexivity|]. split; [finished|]. split; [finished|]. split; [finished|].
  intros x Hx Hto Hc.
  assert (Hnone : forallb (fun x => negb (bool_decide (e_to (s_what x) = inl [4]%N))) (m_sent (nx_at (nx_run bz_after) nB)) = true) by (vm_compute; reflexivity).
  rewrite forallb_forall in Hnone. specialize (Hnone x Hx). apply negb_true_iff, bool_decide_eq_false in Hnone. by apply Hnone.
Qed.
Print Assumptions C87_told_but_not_heard_refuted.
