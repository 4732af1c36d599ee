(** Property theorems: what the tasks of a running broker have done by the time they are
    finished — a peer to which a send failed is gone, a new broker has been told everything,
    a change has been announced to every connected broker. *)
From stdpp Require Import gmap list.
From Coq Require Import NArith.
From Verif Require Import IdModel RelMapModel VMapModel ConnModel TopicModel MsgModel RouteModel TaskModel TaskProofs TaskEffects
  PropertiesConn PropertiesRoute PropertiesTask.

(** * C61: a peer to which a send failed is disconnected *)
(** [ECancel h] is excluded because the code does not suspend between the failed send and
    the removal (user/sender.rs 22-29, broker/sender.rs 38-45), and a task can be aborted
    only where it suspends. The other tasks may do anything in between. *)
Theorem C61_failed_send_removes_user :
  forall deser dec_users dec_topics valid i es1 es2 h t u c f rest good,
  let r := m_run deser dec_users dec_topics valid i in
  m_tasks (r es1) !! h = Some t -> t_acts t = ASendUser u c f :: rest ->
  (forall g, ~ In (ERun h g) es2) -> ~ In (ECancel h) es2 ->
  m_sent (r (es1 ++ [ERun h false])) = m_sent (r es1)
  /\ c_get_user_connection (m_conns (r ((es1 ++ [ERun h false]) ++ es2 ++ [ERun h good]))) u = None.
Proof.
  intros * Ht Ha Hr Hc. unfold r in *. clear r. rewrite (m_run_app _ _ _ _ i (es1 ++ [ERun h false])), m_run_snoc. by eapply failed_send_user.
Qed.
Print Assumptions C61_failed_send_removes_user.

Theorem C61_failed_send_removes_broker :
  forall deser dec_users dec_topics valid i es1 es2 h t b c f rest good,
  let r := m_run deser dec_users dec_topics valid i in
  m_tasks (r es1) !! h = Some t -> t_acts t = ASendBroker b c f :: rest ->
  (forall g, ~ In (ERun h g) es2) -> ~ In (ECancel h) es2 ->
  m_sent (r (es1 ++ [ERun h false])) = m_sent (r es1)
  /\ c_get_broker_connection (m_conns (r ((es1 ++ [ERun h false]) ++ es2 ++ [ERun h good]))) b = None.
Proof.
  intros * Ht Ha Hr Hc. unfold r in *. clear r. rewrite (m_run_app _ _ _ _ i (es1 ++ [ERun h false])), m_run_snoc. by eapply failed_send_broker.
Qed.
Print Assumptions C61_failed_send_removes_broker.

(** User 1 broadcasts on 7 and 9: the send to broker B fails, then the send to user 3. *)
Definition ex_fail_b : list event := ex_setup ++ [EFrame 1 [4;7;9;42]%N no_hook; ERun 1 true; ERun 1 true].
Definition ex_fail_u : list event := ex_fail_b ++ [ERun 1 true; ERun 1 true].
Example C61_example :
  (t_acts <$> m_tasks (ex_run ex_fail_b) !! 1%N)
    = Some [ASendBroker ex_other 105 (FRelay [4;7;9;42]%N); ALookupUser [3]%N (FRelay [4;7;9;42]%N); ALookupUser [1]%N (FRelay [4;7;9;42]%N)]
  /\ c_get_broker_connection (m_conns (ex_run ex_fail_b)) ex_other = Some 105%N
  /\ c_get_broker_connection (m_conns (ex_run ((ex_fail_b ++ [ERun 1 false]) ++ [EFrame 3 [3;1;1]%N no_hook] ++ [ERun 1 true]))) ex_other = None
  /\ (t_acts <$> m_tasks (ex_run ex_fail_u) !! 1%N)
    = Some [ASendUser [3]%N 103 (FRelay [4;7;9;42]%N); ALookupUser [1]%N (FRelay [4;7;9;42]%N)]
  /\ c_get_user_connection (m_conns (ex_run ex_fail_u)) [3]%N = Some 103%N
  /\ c_get_user_connection (m_conns (ex_run ((ex_fail_u ++ [ERun 1 false]) ++ [EFrame 3 [3;1;1]%N no_hook] ++ [ERun 1 true]))) [3]%N = None.
Proof. vm_compute. done. Qed.

(** * C62: a broker that has just connected is told everything *)
(** Task [hh] handles the new connection [c] of broker [b] and runs to its end, none of its
    sends failing; from its first step on (the registration) [b] stays registered on [c].
    Then at some moment after the registration the complete topic map was read and — unless it
    was empty — sent to [b], and so was the complete user directory. *)
Theorem C62_new_broker_is_told_everything :
  forall deser dec_users dec_topics valid i es1 es2 h hh b c t,
  h <> hh -> m_tasks (m_run deser dec_users dec_topics valid i es1) !! h = None ->
  m_tasks (m_run deser dec_users dec_topics valid i es1) !! hh = None ->
  let r es := m_run deser dec_users dec_topics valid i ((es1 ++ [EBrokerAuthed h hh b c]) ++ es) in
  ~ In (ERun hh false) es2 -> ~ In (ECancel hh) es2 ->
  m_tasks (r es2) !! hh = Some t -> t_acts t = [] ->
  (forall es3 es4, es2 = es3 ++ es4 -> In (ERun hh true) es3 -> c_get_broker_connection (m_conns (r es3)) b = Some c) ->
  (exists es3 es4, es2 = es3 ++ es4 /\ c_get_broker_connection (m_conns (r es3)) b = Some c
     /\ (entries (topic_sync (m_conns (r es3))) <> ∅ ->
          In (Sent hh 0 (Emit (inr b) c (FTopicSync (topic_sync (m_conns (r es3)))))) (m_sent (r es2))))
  /\ (exists es3 es4, es2 = es3 ++ es4 /\ c_get_broker_connection (m_conns (r es3)) b = Some c
     /\ (entries (direct (m_conns (r es3))) <> ∅ ->
          In (Sent hh 0 (Emit (inr b) c (FUserSync (direct (m_conns (r es3)))))) (m_sent (r es2)))).
Proof. intros * Hne Hn1 Hn2 r Hs1 Hs2. apply broker_told; [done|done|done|by split]. Qed.
Print Assumptions C62_new_broker_is_told_everything.

(** Users 1 and 3 are there when broker B connects; between two steps of B's task user 1 unsubscribes from 9. *)
Definition ex_before : list event := firstn 12 ex_setup.
Definition ex_telling : list event :=
  [ERun 6 true; ERun 6 true; EFrame 1 [6;9]%N no_hook; ERun 1 true; ERun 6 true; ERun 6 true; ERun 6 true; ERun 6 true; ERun 6 true].
Notation ex_told es := (ex_run ((ex_before ++ [EBrokerAuthed 5 6 ex_other 105]) ++ es)).
Example C62_example :
  m_tasks (ex_run ex_before) !! 5%N = None /\ m_tasks (ex_run ex_before) !! 6%N = None
  /\ (t_acts <$> m_tasks (ex_told ex_telling) !! 6%N) = Some []
  /\ (map (fun n => c_get_broker_connection (m_conns (ex_told (firstn n ex_telling))) ex_other) (seq 1 9)) = repeat (Some 105%N) 9
  /\ map_to_list (entries (topic_sync (m_conns (ex_told [ERun 6 true])))) = [(7, VVal 1 (Some Subscribed)); (9, VVal 1 (Some Subscribed))]%N
  /\ map s_what (m_sent (ex_told ex_telling))
     = [Emit (inr ex_other) 105 (FTopicSync (topic_sync (m_conns (ex_told [ERun 6 true]))));
        Emit (inr ex_other) 105 (FUserSync (direct (m_conns (ex_told [ERun 6 true]))))].
Proof. vm_compute. done. Qed.

(** * C63: what a sync announces reaches every connected broker *)
(** A periodic round: the change of the directory that is due when the round looks at it goes
    to every broker that stays connected during the round; the same for the topics. *)
Theorem C63_round_reaches_every_broker :
  forall deser dec_users dec_topics valid i es1 es2 hh t,
  m_tasks (m_run deser dec_users dec_topics valid i es1) !! hh = None ->
  let r es := m_run deser dec_users dec_topics valid i ((es1 ++ [ESync hh]) ++ es) in
  ~ In (ERun hh false) es2 -> ~ In (ECancel hh) es2 ->
  m_tasks (r es2) !! hh = Some t -> t_acts t = [] ->
  let stays b c := forall es5 es6, es2 = es5 ++ es6 -> c_get_broker_connection (m_conns (r es5)) b = Some c in
  (exists es3 es4, es2 = es3 ++ es4 /\
     forall d b c, (c_get_partial_user_sync (m_conns (r es3))).2 = Some d -> stays b c ->
       In (Sent hh 0 (Emit (inr b) c (FUserSync d))) (m_sent (r es2)))
  /\ (exists es3 es4, es2 = es3 ++ es4 /\
     forall d b c, (c_get_partial_topic_sync (m_conns (r es3))).2 = Some d -> stays b c ->
       In (Sent hh 0 (Emit (inr b) c (FTopicSync d))) (m_sent (r es2))).
Proof.
  intros * Hn r Hs1 Hs2 Hend Hnil stays.
  assert (smooth hh es2) as Hs by (by split).
  pose proof (round_told deser dec_users dec_topics valid i es1 es2 hh t Hn Hs Hend Hnil) as H. split.
  - destruct (H false) as (es3 & es4 & He & Hf). exists es3, es4. split; [done|]. intros d b c Hd Hb.
    apply Hf; [|exact Hb]. cbn. unfold r in Hd. by rewrite Hd.
  - destruct (H true) as (es3 & es4 & He & Hf). exists es3, es4. split; [done|]. intros d b c Hd Hb.
    apply Hf; [|exact Hb]. cbn. unfold r in Hd. by rewrite Hd.
Qed.
Print Assumptions C63_round_reaches_every_broker.

(** A user who connects: once they are registered the change that is due — which contains
    the new user unless another task has announced it in the meantime — goes to every broker
    that stays connected from then on. *)
Theorem C63_arrival_announced_to_every_broker :
  forall deser dec_users dec_topics valid i es1 es2 h hh u cu ts t,
  h <> hh -> m_tasks (m_run deser dec_users dec_topics valid i es1) !! h = None ->
  m_tasks (m_run deser dec_users dec_topics valid i es1) !! hh = None ->
  let r es := m_run deser dec_users dec_topics valid i ((es1 ++ [EUserAuthed h hh u cu ts]) ++ es) in
  ~ In (ERun hh false) es2 -> ~ In (ECancel hh) es2 ->
  m_tasks (r es2) !! hh = Some t -> t_acts t = [] ->
  exists ea eb, es2 = ea ++ eb
    /\ c_get_user_connection (m_conns (r ea)) u = Some cu
    /\ c_get_broker_identifier_of_user (m_conns (r ea)) u = Some i
    /\ (exists d, (c_get_partial_user_sync (m_conns (r ea))).2 = Some d /\ vm_get d u = Some i)
    /\ let stays b c := forall es5 es6, eb = es5 ++ es6 -> c_get_broker_connection (m_conns (r (ea ++ es5))) b = Some c in
       (exists es3 es4, eb = es3 ++ es4 /\
          forall d b c, (c_get_partial_user_sync (m_conns (r (ea ++ es3)))).2 = Some d -> stays b c ->
            In (Sent hh 0 (Emit (inr b) c (FUserSync d))) (m_sent (r es2)))
       /\ (exists es3 es4, eb = es3 ++ es4 /\
          forall d b c, (c_get_partial_topic_sync (m_conns (r (ea ++ es3)))).2 = Some d -> stays b c ->
            In (Sent hh 0 (Emit (inr b) c (FTopicSync d))) (m_sent (r es2))).
Proof.
  intros * Hne Hn1 Hn2 r Hs1 Hs2 Hend Hnil.
  assert (smooth hh es2) as Hs by (by split).
  destruct (user_announced deser dec_users dec_topics valid i es1 es2 h hh u cu ts t Hne Hn1 Hn2 Hs Hend Hnil) as (ea & eb & -> & Hadd & H).
  exists (ea ++ [ERun hh true]), eb. split; [done|].
  change (m_conns (r (ea ++ [ERun hh true])) = c_add_user (m_conns (r ea)) u cu (prune valid ts).1 h) in Hadd.
  assert (identity (m_conns (r ea)) = i) as Hid.
  { unfold r. destruct (machine_history deser dec_users dec_topics valid i ((es1 ++ [EUserAuthed h hh u cu ts]) ++ ea)) as [os Hos].
    rewrite Hos. apply ConnProofs.run_identity. }
  destruct (add_user_facts (m_conns (r ea)) u cu (prune valid ts).1 h) as (A1 & A2 & A3). rewrite <- Hadd in A1, A2, A3. rewrite Hid in A2, A3.
  split; [exact A1|]. split; [exact A2|]. split; [exact A3|]. split.
  - destruct (H false) as (es3 & es4 & He & Hf). exists es3, es4. split; [done|]. intros d b c Hd Hb.
    apply Hf; [|exact Hb]. cbn. unfold r in Hd. by rewrite Hd.
  - destruct (H true) as (es3 & es4 & He & Hf). exists es3, es4. split; [done|]. intros d b c Hd Hb.
    apply Hf; [|exact Hb]. cbn. unfold r in Hd. by rewrite Hd.
Qed.
Print Assumptions C63_arrival_announced_to_every_broker.

(** Broker B is connected; user 5 arrives with topic 8. *)
Definition ex_arrival : list event := repeat (ERun 12 true) 10.
Notation ex_arrived es := (ex_run ((ex_setup ++ [EUserAuthed 11 12 [5]%N 111 [8]%N]) ++ es)).
Example C63_arrival_example :
  m_tasks (ex_run ex_setup) !! 11%N = None /\ m_tasks (ex_run ex_setup) !! 12%N = None
  /\ (t_acts <$> m_tasks (ex_arrived ex_arrival) !! 12%N) = Some []
  /\ (map (fun n => c_get_broker_connection (m_conns (ex_arrived (firstn n ex_arrival))) ex_other) (seq 1 10)) = repeat (Some 105%N) 10
  /\ map (fun x => (e_to (s_what x), e_conn (s_what x))) (m_sent (ex_arrived ex_arrival)) = [(inr ex_other, 105%N); (inr ex_other, 105%N)].
Proof. vm_compute. done. Qed.

(** User 1 subscribes to 8; the next round tells broker B. *)
Definition ex_round : list event := repeat (ERun 13 true) 8.
Notation ex_rounded es := (ex_run (((ex_setup ++ [EFrame 1 [5;8]%N no_hook; ERun 1 true]) ++ [ESync 13]) ++ es)).
Example C63_round_example :
  m_tasks (ex_run (ex_setup ++ [EFrame 1 [5;8]%N no_hook; ERun 1 true])) !! 13%N = None
  /\ (t_acts <$> m_tasks (ex_rounded ex_round) !! 13%N) = Some []
  /\ (map (fun n => c_get_broker_connection (m_conns (ex_rounded (firstn n ex_round))) ex_other) (seq 0 9)) = repeat (Some 105%N) 9
  /\ map (fun x => match s_what x with
                   | Emit to c (FTopicSync d) => (to, c, map_to_list (entries d))
                   | Emit to c _ => (to, c, []) end) (m_sent (ex_rounded ex_round))
     = [(inr ex_other, 105, [(8, VVal 1 (Some Subscribed))])]%N.
Proof. vm_compute. done. Qed.
