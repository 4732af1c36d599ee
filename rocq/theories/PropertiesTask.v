(** Property theorems: a running broker with all its tasks interleaved at lock granularity. *)
From stdpp Require Import gmap list.
From Coq Require Import NArith.
From Verif Require Import IdModel RelMapModel VMapModel VMapSpec ConnModel ConnSpec ConnProofs ConnProofs2 ConnProofs3 ConnProofs4
  TopicModel MsgModel RouteModel RouteSpec RouteProofs RouteProofs2 TaskModel TaskProofs TaskOrder TaskHandles TaskIsolation TaskGuarded TaskCheck
  PropertiesConn PropertiesRoute.

Notation ex_run := (m_run ex_deser ex_dec_users ex_dec_topics ex_valid ex_self).

(** Users 1 (topics 9) and 3 (topics 7, 9) and broker B connect; B advertises 7; user 1
    broadcasts on 7 and 9, and its loop finishes. Registration takes three actions per
    user plus their sync fan-out. *)
Definition ex_setup : list event :=
  [EUserAuthed 1 2 [1]%N 101 [9]%N; ERun 2 true; ERun 2 true; ERun 2 true; ERun 2 true; ERun 2 true;
   EUserAuthed 3 4 [3]%N 103 [7;9]%N; ERun 4 true; ERun 4 true; ERun 4 true; ERun 4 true; ERun 4 true;
   EBrokerAuthed 5 6 ex_other 105; ERun 6 true;
   EFrame 5 [8;7;1]%N no_hook; ERun 5 true].
Definition ex_events : list event :=
  ex_setup ++ [EFrame 1 [4;7;9;42]%N no_hook; ERun 1 true; ERun 1 true; ERun 1 true; ERun 1 true; ERun 1 true; ERun 1 true; ERun 1 true;
               EFrame 1 [3;3;43]%N no_hook; ERun 1 true; ERun 1 true; ERun 1 true].

Example ex_events_sent :
  m_sent (ex_run ex_events)
  = [Sent 1 1 (Emit (inr ex_other) 105 (FRelay [4;7;9;42]%N)); Sent 1 1 (Emit (inl [3]%N) 103 (FRelay [4;7;9;42]%N));
     Sent 1 1 (Emit (inl [1]%N) 101 (FRelay [4;7;9;42]%N)); Sent 1 2 (Emit (inl [3]%N) 103 (FRelay [3;3;43]%N))].
Proof. vm_compute. done. Qed.

(** * C04, C06, C25 at one running broker *)
Theorem C04_relay_to_broker_comes_from_user_loop :
  forall deser dec_users dec_topics valid i es x b c raw,
  In x (m_sent (m_run deser dec_users dec_topics valid i es)) -> s_what x = Emit (inr b) c (FRelay raw) ->
  exists u cu t, m_tasks (m_run deser dec_users dec_topics valid i es) !! s_task x = Some t /\ t_owner t = OUser u cu.
Proof.
  intros * Hin Hw. destruct (prov_run deser dec_users dec_topics valid i es) as [_ Hs].
  rewrite Forall_forall in Hs. specialize (Hs x). rewrite elem_of_list_In in Hs. specialize (Hs Hin).
  unfold sent_ok in Hs. rewrite Hw in Hs. tauto.
Qed.
Print Assumptions C04_relay_to_broker_comes_from_user_loop.

Theorem C06_relayed_bytes_were_received :
  forall deser dec_users dec_topics valid i es x raw,
  In x (m_sent (m_run deser dec_users dec_topics valid i es)) -> e_frame (s_what x) = FRelay raw ->
  exists hk, In (Rcvd (s_task x) (s_frame x) raw hk) (m_rcvd (m_run deser dec_users dec_topics valid i es)).
Proof.
  intros * Hin Hw. destruct (prov_run deser dec_users dec_topics valid i es) as [_ Hs].
  rewrite Forall_forall in Hs. specialize (Hs x). rewrite elem_of_list_In in Hs. specialize (Hs Hin).
  unfold sent_ok in Hs. destruct (s_what x) as [[u|b] c f]; cbn in Hw; subst f.
  - destruct Hs as [(msg & (hk & m0 & Hr & _) & _) _]. eauto.
  - destruct Hs as (_ & (msg & (hk & m0 & Hr & _) & _) & _). eauto.
Qed.
Print Assumptions C06_relayed_bytes_were_received.

(** Frame [s_frame x] of loop [s_task x] was received; later the recipient was looked up, and
    later still (or at the same time) their connection. *)
Theorem C25_delivery_has_a_reason :
  forall deser dec_users dec_topics valid i es x u c f,
  let run := m_run deser dec_users dec_topics valid i in
  In x (m_sent (run es)) -> s_what x = Emit (inl u) c f ->
  exists raw hk m0 msg, f = FRelay raw /\ deser raw = Some m0 /\ hk m0 = HProcess msg
     /\ (exists es1 es2, es = es1 ++ es2 /\ (exists hk', In (Rcvd (s_task x) (s_frame x) raw hk') (m_rcvd (run es1)))
          /\ c_get_user_connection (m_conns (run es1)) u = Some c)
     /\ ((exists body, msg = MDirect u body /\ exists es1 es2, es = es1 ++ es2
            /\ In (Rcvd (s_task x) (s_frame x) raw hk) (m_rcvd (run es1))
            /\ exists c1, c_get_user_connection (m_conns (run es1)) u = Some c1)
         \/ (exists ts body t, msg = MBroadcast ts body /\ In t ts /\ exists es1 es2, es = es1 ++ es2
            /\ In (Rcvd (s_task x) (s_frame x) raw hk) (m_rcvd (run es1))
            /\ In u (c_get_interested_by_topic (m_conns (run es1)) [t] true).2)).
Proof.
  intros until run. unfold run. clear run. intros Hin Hw. destruct (prov_run deser dec_users dec_topics valid i es) as [_ Hs].
  rewrite Forall_forall in Hs. specialize (Hs x). rewrite elem_of_list_In in Hs. specialize (Hs Hin).
  unfold sent_ok in Hs. rewrite Hw in Hs. destruct f as [raw| |]; [|done|done].
  destruct Hs as [(msg & _ & Hwhy) (ea & eb & Hab & (msga & hka & m0a & Hra & _) & Hconn)].
  assert (Hc : exists es1 es2, es = es1 ++ es2
      /\ (exists hk', In (Rcvd (s_task x) (s_frame x) raw hk') (m_rcvd (m_run deser dec_users dec_topics valid i es1)))
      /\ c_get_user_connection (m_conns (m_run deser dec_users dec_topics valid i es1)) u = Some c).
  { exists ea, eb. split; [done|]. split; [by exists hka|done]. }
  destruct Hwhy as [(body & -> & es1 & es2 & He & (hk & m0 & Hr & Hd & Hh) & H)
                   |(ts & body & t & -> & Ht & es1 & es2 & He & (hk & m0 & Hr & Hd & Hh) & H)].
  - exists raw, hk, m0, (MDirect u body). do 4 (split; [done|]). left. exists body. split; [done|]. exists es1, es2.
    split; [done|]. split; [done|].
    destruct (machine_history deser dec_users dec_topics valid i es1) as [os Hos]. rewrite Hos in *. by apply directory_iff_connected.
  - exists raw, hk, m0, (MBroadcast ts body). do 4 (split; [done|]). right. exists ts, body, t. split; [done|]. split; [done|].
    exists es1, es2. done.
Qed.
Print Assumptions C25_delivery_has_a_reason.

(** * C24, one broker: order and no duplicates per receive loop *)
Theorem C24_loop_order_on_connection :
  forall deser dec_users dec_topics valid i es j k x y,
  let m := m_run deser dec_users dec_topics valid i es in
  NoDup (authed_conns es) ->
  j < k -> m_sent m !! j = Some x -> m_sent m !! k = Some y ->
  s_task x = s_task y -> e_conn (s_what x) = e_conn (s_what y) ->
  is_relay (e_frame (s_what x)) = true -> is_relay (e_frame (s_what y)) = true ->
  s_frame x < s_frame y.
Proof. exact loop_order. Qed.
Print Assumptions C24_loop_order_on_connection.

Theorem C24_frame_once_per_peer :
  forall deser dec_users dec_topics valid i es j k x y,
  let m := m_run deser dec_users dec_topics valid i es in
  j < k -> m_sent m !! j = Some x -> m_sent m !! k = Some y ->
  s_task x = s_task y -> s_frame x = s_frame y ->
  is_relay (e_frame (s_what x)) = true -> is_relay (e_frame (s_what y)) = true ->
  e_to (s_what x) <> e_to (s_what y).
Proof. exact frame_once. Qed.
Print Assumptions C24_frame_once_per_peer.

Example C24_loop_example :
  NoDup (authed_conns ex_events)
  /\ m_sent (ex_run ex_events) !! 1 = Some (Sent 1 1 (Emit (inl [3]%N) 103 (FRelay [4;7;9;42]%N)))
  /\ m_sent (ex_run ex_events) !! 3 = Some (Sent 1 2 (Emit (inl [3]%N) 103 (FRelay [3;3;43]%N))).
Proof. split; [apply (bool_decide_unpack _); vm_compute; exact I|]. vm_compute. done. Qed.

(** * C09, with tasks: a registered connection's loop exists and was not aborted *)
Theorem C09_registered_loop_not_aborted :
  forall deser dec_users dec_topics valid i es h o,
  let m := m_run deser dec_users dec_topics valid i es in
  registered (m_conns m) h o ->
  (exists t, m_tasks m !! h = Some t /\ t_owner t = o) /\ ~ In h (aborted (m_conns m)).
Proof. exact registered_task. Qed.
Print Assumptions C09_registered_loop_not_aborted.

Example C09_machine_example :
  registered (m_conns (ex_run ex_setup)) 3 (OUser [3]%N 103) /\ registered (m_conns (ex_run ex_setup)) 5 (OBroker ex_other 105).
Proof. split; [vm_compute; done|]. eexists. vm_compute. done. Qed.

(** * C12: fails in general; holds when subscriptions are performed only for registered users *)
Definition ex_ghost : list event :=
  [EUserAuthed 1 2 [1]%N 101 [9]%N; ERun 2 true; EFrame 1 [5;7]%N no_hook; EKick 3 [1]%N; ERun 3 true; ERun 1 true].

Theorem C12_users_connected_refuted :
  exists i es u t, In u (c_get_interested_by_topic (m_conns (m_run ex_deser ex_dec_users ex_dec_topics ex_valid i es)) [t] true).2
    /\ c_get_user_connection (m_conns (m_run ex_deser ex_dec_users ex_dec_topics ex_valid i es)) u = None.
Proof. exists ex_self, ex_ghost, [1]%N, 7%N. vm_compute. auto. Qed.
Print Assumptions C12_users_connected_refuted.

Theorem C12_users_connected_guarded :
  forall deser dec_users dec_topics valid i es ts only u,
  subscribes_connected deser dec_users dec_topics valid i es ->
  In u (c_get_interested_by_topic (m_conns (m_run deser dec_users dec_topics valid i es)) ts only).2 ->
  exists c, c_get_user_connection (m_conns (m_run deser dec_users dec_topics valid i es)) u = Some c.
Proof. exact guarded_users_connected. Qed.
Print Assumptions C12_users_connected_guarded.

Definition ex_subscribe : list event := ex_setup ++ [EFrame 1 [5;8]%N no_hook; ERun 1 true].
Example C12_example :
  subscribes_connected ex_deser ex_dec_users ex_dec_topics ex_valid ex_self ex_subscribe
  /\ In [1]%N (c_get_interested_by_topic (m_conns (ex_run ex_subscribe)) [8]%N true).2.
Proof. split; [apply subs_check; vm_compute; done|]. vm_compute. auto. Qed.

(** * C51, running broker *)
Theorem C51_user_loop_isolated :
  forall deser dec_users dec_topics valid i es e h t u c,
  loop_step e h -> m_tasks (m_run deser dec_users dec_topics valid i es) !! h = Some t -> t_owner t = OUser u c ->
  let s := m_conns (m_run deser dec_users dec_topics valid i es) in
  let s' := m_conns (m_run deser dec_users dec_topics valid i (es ++ [e])) in
  (forall v, v <> u ->
     (c_get_user_connection s' v = c_get_user_connection s v
      /\ c_get_broker_identifier_of_user s' v = c_get_broker_identifier_of_user s v
      /\ forall ts only, In v (c_get_interested_by_topic s' ts only).2 <-> In v (c_get_interested_by_topic s ts only).2)
     \/ exists cv, send_failed deser dec_users dec_topics valid i es h v cv)
  /\ (forall b,
     (c_get_broker_connection s' b = c_get_broker_connection s b
      /\ forall ts only, In b (c_get_interested_by_topic s' ts only).1 <-> In b (c_get_interested_by_topic s ts only).1)
     \/ exists cb, bsend_failed deser dec_users dec_topics valid i es h b cb).
Proof. exact user_loop_isolated. Qed.
Print Assumptions C51_user_loop_isolated.

Example C51_loop_example :
  loop_step (EFrame 1 [99]%N no_hook) 1 /\ (t_owner <$> m_tasks (ex_run ex_setup) !! 1%N) = Some (OUser [1]%N 101)
  /\ c_get_user_connection (m_conns (ex_run (ex_setup ++ [EFrame 1 [99]%N no_hook; ERun 1 true]))) [1]%N = None
  /\ c_get_user_connection (m_conns (ex_run (ex_setup ++ [EFrame 1 [99]%N no_hook; ERun 1 true]))) [3]%N = Some 103%N.
Proof. split; [left; eauto|]. vm_compute. done. Qed.

(** * C52: fails in general; the causes by which a registered connection can go *)
(** The first connection of user 1 fails; before its loop removes the user, the user
    connects again; the removal takes the new connection away. *)
Definition ex_stale_error : list event :=
  [EUserAuthed 1 2 [1]%N 101 [9]%N; ERun 2 true; ERecvErr 1; EUserAuthed 3 4 [1]%N 102 [9]%N; ERun 4 true].
Theorem C52_old_failure_removes_new_refuted :
  exists i es, let r := m_run ex_deser ex_dec_users ex_dec_topics ex_valid i in
    (* connection 102 is the only registered one, loop 1 belongs to connection 101 *)
    c_get_user_connection (m_conns (r es)) [1]%N = Some 102%N
    /\ (exists t, m_tasks (r es) !! 1%N = Some t /\ t_owner t = OUser [1]%N 101)
    /\ c_get_user_connection (m_conns (r (es ++ [ERun 1 true]))) [1]%N = None.
Proof. exists ex_self, ex_stale_error. split; [vm_compute; done|]. split; [eexists; vm_compute; done|]. vm_compute. done. Qed.
Print Assumptions C52_old_failure_removes_new_refuted.

(** A send that fails on the OLD connection, noticed after the user has reconnected. *)
Definition ex_stale_send : list event :=
  [EUserAuthed 1 2 [1]%N 101 [9]%N; ERun 2 true; EUserAuthed 3 4 [3]%N 103 [7]%N; ERun 4 true;
   EFrame 3 [3;1;42]%N no_hook; ERun 3 true; ERun 3 true;
   EUserAuthed 5 6 [1]%N 102 [9]%N; ERun 6 true; ERun 3 false].
Theorem C52_old_send_failure_removes_new_refuted :
  exists i es, let r := m_run ex_deser ex_dec_users ex_dec_topics ex_valid i in
    c_get_user_connection (m_conns (r es)) [1]%N = Some 102%N
    /\ send_failed ex_deser ex_dec_users ex_dec_topics ex_valid i es 3 [1]%N 101
    /\ c_get_user_connection (m_conns (r (es ++ [ERun 3 true]))) [1]%N = None.
Proof.
  exists ex_self, ex_stale_send. split; [vm_compute; done|]. split; [|vm_compute; done].
  exists (firstn 9 ex_stale_send), []. do 5 eexists. split; [done|vm_compute; done].
Qed.
Print Assumptions C52_old_send_failure_removes_new_refuted.

Theorem C52_why_a_connection_goes :
  forall deser dec_users dec_topics valid i es e h u c,
  let r := m_run deser dec_users dec_topics valid i in
  registered (m_conns (r es)) h (OUser u c) ->
  ~ registered (m_conns (r (es ++ [e]))) h (OUser u c) ->
  exists hh good t a l, e = ERun hh good /\ m_tasks (r es) !! hh = Some t /\ t_acts t = a :: l /\
    ((exists c' ts h', a = AAddUser u c' ts h')
     \/ (exists d, a = AApplyUserSync d /\ sync_overrides i d u (entries (direct (m_conns (r es))) !! u))
     \/ (a = ARemoveUser u /\
          (hh = h
           \/ In (EKick hh u) es
           \/ (exists cu, send_failed deser dec_users dec_topics valid i es hh u cu)
           \/ (hh <> h /\ (exists c', t_owner t = OUser u c')
               /\ (In hh (aborted (m_conns (r es))) \/ unregistered (r es) hh))))).
Proof. exact why_removed. Qed.
Print Assumptions C52_why_a_connection_goes.

Example C52_example :
  registered (m_conns (ex_run ex_stale_error)) 3 (OUser [1]%N 102)
  /\ ~ registered (m_conns (ex_run (ex_stale_error ++ [ERun 1 true]))) 3 (OUser [1]%N 102)
  /\ In 1%N (aborted (m_conns (ex_run ex_stale_error))).
Proof. vm_compute. split; [done|]. split; [done|auto]. Qed.

(** * C53: fails in general; holds when loops start after registration *)
Definition ex_dead_loop : list event :=
  [EUserAuthed 1 2 [1]%N 101 [9]%N; ERecvErr 1; ERun 1 true; ERun 2 true].
Theorem C53_registered_without_loop_refuted :
  exists i es h u c, let m := m_run ex_deser ex_dec_users ex_dec_topics ex_valid i es in
    registered (m_conns m) h (OUser u c)
    /\ exists t, m_tasks m !! h = Some t /\ t_open t = false /\ t_acts t = [].
Proof. exists ex_self, ex_dead_loop, 1%N, [1]%N, 101%N. split; [vm_compute; done|]. eexists. vm_compute. done. Qed.
Print Assumptions C53_registered_without_loop_refuted.

Theorem C53_registered_has_live_loop_guarded :
  forall deser dec_users dec_topics valid i es,
  prompt deser dec_users dec_topics valid i es ->
  let m := m_run deser dec_users dec_topics valid i es in
  forall h o, registered (m_conns m) h o ->
    exists t, m_tasks m !! h = Some t /\ t_owner t = o
      /\ (t_open t = true \/ exists a, In a (t_acts t)
            /\ match o with OUser u _ => a = ARemoveUser u | OBroker b _ => a = ARemoveBroker b | OOther => False end).
Proof. intros * Hp m. exact (proj2 (loop_run deser dec_users dec_topics valid i es Hp)). Qed.
Print Assumptions C53_registered_has_live_loop_guarded.

Example C53_example :
  prompt ex_deser ex_dec_users ex_dec_topics ex_valid ex_self ex_events
  /\ registered (m_conns (ex_run ex_events)) 3 (OUser [3]%N 103).
Proof. split; [apply prompt_check; vm_compute; done|]. vm_compute. done. Qed.

(** * C54: fails in general; an update handled while registered takes effect *)
Definition ex_early_subscribe : list event :=
  [EUserAuthed 1 2 [1]%N 101 [9]%N; EFrame 1 [5;7]%N no_hook; ERun 1 true; ERun 2 true].
Theorem C54_early_subscribe_lost_refuted :
  exists i es, let m := m_run ex_deser ex_dec_users ex_dec_topics ex_valid i es in
    In (Rcvd 1 1 [5;7]%N no_hook) (m_rcvd m) /\ ex_deser [5;7]%N = Some (MSubscribe [7]%N)
    /\ c_get_user_connection (m_conns m) [1]%N = Some 101%N
    /\ (exists t, m_tasks m !! 1%N = Some t /\ t_acts t = [] /\ t_open t = true)
    /\ (c_get_interested_by_topic (m_conns m) [7]%N false).2 = [].
Proof.
  exists ex_self, ex_early_subscribe. split; [vm_compute; auto|]. split; [done|]. split; [vm_compute; done|].
  split; [eexists; vm_compute; done|]. vm_compute. done.
Qed.
Print Assumptions C54_early_subscribe_lost_refuted.

Definition ex_early_topic_sync : list event :=
  [EBrokerAuthed 1 2 ex_other 101; EFrame 1 [8;7;1]%N no_hook; ERun 1 true; ERun 2 true].
Theorem C54_early_topic_sync_lost_refuted :
  exists i es, let m := m_run ex_deser ex_dec_users ex_dec_topics ex_valid i es in
    In (Rcvd 1 1 [8;7;1]%N no_hook) (m_rcvd m)
    /\ c_get_broker_connection (m_conns m) ex_other = Some 101%N
    /\ (exists t, m_tasks m !! 1%N = Some t /\ t_acts t = [] /\ t_open t = true)
    /\ (c_get_interested_by_topic (m_conns m) [7]%N false).1 = [].
Proof.
  exists ex_self, ex_early_topic_sync. split; [vm_compute; auto|]. split; [vm_compute; done|].
  split; [eexists; vm_compute; done|]. vm_compute. done.
Qed.
Print Assumptions C54_early_topic_sync_lost_refuted.

Theorem C54_subscribe_takes_effect :
  forall deser dec_users dec_topics valid i es h good t u ts l ts' only,
  m_tasks (m_run deser dec_users dec_topics valid i es) !! h = Some t -> t_acts t = ASubscribe u ts :: l ->
  (exists x, In x ts /\ In x ts') ->
  In u (c_get_interested_by_topic (m_conns (m_run deser dec_users dec_topics valid i (es ++ [ERun h good]))) ts' only).2.
Proof. exact subscribe_effective. Qed.
Print Assumptions C54_subscribe_takes_effect.

Theorem C54_topic_sync_takes_effect_when_registered :
  forall deser dec_users dec_topics valid i es h good t b d l x rv,
  let r := m_run deser dec_users dec_topics valid i in
  m_tasks (r es) !! h = Some t -> t_acts t = AApplyTopicSync b d :: l ->
  (exists c, c_get_broker_connection (m_conns (r es)) b = Some c) ->
  entries d !! x = Some rv ->
  (forall lv, (exists be, brokers (m_conns (r es)) !! b = Some be /\ entries (be_topics be) !! x = Some lv) -> (ver lv < ver rv)%N) ->
  In b (c_get_interested_by_topic (m_conns (r (es ++ [ERun h good]))) [x] false).1 <-> val rv = Some Subscribed.
Proof. exact topic_sync_effective. Qed.
Print Assumptions C54_topic_sync_takes_effect_when_registered.

Example C54_example :
  (t_acts <$> m_tasks (ex_run (ex_setup ++ [EFrame 1 [5;8]%N no_hook])) !! 1%N) = Some [ASubscribe [1]%N [8]%N]
  /\ (c_get_interested_by_topic (m_conns (ex_run (ex_setup ++ [EFrame 1 [5;8]%N no_hook; ERun 1 true]))) [8]%N false).2 = [[1]%N].
Proof. vm_compute. done. Qed.
