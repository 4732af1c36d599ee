(** Property theorems: the broker's connection state. *)
From stdpp Require Import gmap.
From Coq Require Import NArith ZArith.
From Verif Require Import IdModel RelMapModel VMapModel VMapSpec ConnModel ConnSpec ConnProofs ConnProofs2 ConnProofs3.

(** A concrete history used by the examples: users 1 and 2 connect, user 1 connects again,
    broker B connects and advertises topic 7, B announces that user 2 moved to it. *)
Definition ex_self : bid := Bid [1]%N [1]%N.
Definition ex_other : bid := Bid [2]%N [2]%N.
Definition ex_history : list conn_op :=
  [CAddUser [1]%N 100 [7;8]%N 1000; CAddUser [2]%N 101 [7]%N 1001; CPartialUserSync; CAddUser [1]%N 102 [8;9]%N 1002;
   CAddBroker ex_other 200 2000;
   CApplyTopicSync ex_other (VMap {[7%N := VVal 1 (Some Subscribed)]} ∅ 0%N);
   CApplyUserSync (VMap {[[2]%N := VVal 2 (Some ex_other)]} ∅ ex_other);
   CSubscribeUser [1]%N [10]%N; CUnsubscribeUser [1]%N [8]%N; CPartialTopicSync].

(** * C01, at the broker: recipients of a topic list are exactly the subscribed users *)
Theorem C01_broker_recipients_exact :
  forall i os ts only u,
    In u (c_get_interested_by_topic (c_run i os) ts only).2 <-> exists t, In t ts /\ user_topic i os u t.
Proof. exact interested_users_history. Qed.
Print Assumptions C01_broker_recipients_exact.

Example C01_broker_example :
  (c_get_interested_by_topic (c_run ex_self ex_history) [9;10;8]%N false).2 = [[1]%N]
  /\ (c_get_interested_by_topic (c_run ex_self ex_history) [7]%N false) = ([ex_other], []).
Proof. vm_compute. done. Qed.

(** * C07 *)
Theorem C07_directory_iff_connected :
  forall i os u,
    c_get_broker_identifier_of_user (c_run i os) u = Some i
    <-> exists c, c_get_user_connection (c_run i os) u = Some c.
Proof. exact directory_iff_connected. Qed.
Print Assumptions C07_directory_iff_connected.

Example C07_example :
  c_get_broker_identifier_of_user (c_run ex_self ex_history) [1]%N = Some ex_self
  /\ c_get_user_connection (c_run ex_self ex_history) [1]%N = Some 102%N
  /\ c_get_broker_identifier_of_user (c_run ex_self ex_history) [2]%N = Some ex_other
  /\ c_get_user_connection (c_run ex_self ex_history) [2]%N = None.
Proof. vm_compute. done. Qed.

(** * C08 *)
Theorem C08_gauges_exact :
  forall i os,
    gauge_users (c_run i os) = Z.of_nat (c_num_users (c_run i os))
    /\ gauge_users (c_run i os) = Z.of_nat (length (c_all_users (c_run i os)))
    /\ gauge_brokers (c_run i os) = Z.of_nat (length (c_get_broker_identifiers (c_run i os))).
Proof. exact gauges_exact. Qed.
Print Assumptions C08_gauges_exact.

Example C08_example :
  gauge_users (c_run ex_self ex_history) = 1%Z /\ gauge_brokers (c_run ex_self ex_history) = 1%Z.
Proof. vm_compute. done. Qed.

(** * C09 *)
Theorem C09_registered_is_latest :
  forall i os,
    (forall u, c_get_user_connection (c_run i os) u = fst <$> current_user i os u)
    /\ (forall b, c_get_broker_connection (c_run i os) b = fst <$> current_broker os b).
Proof. exact registered_current. Qed.
Print Assumptions C09_registered_is_latest.

Theorem C09_tasks_accounted :
  forall i os h,
    NoDup (added_handles os) ->
    (In h (added_handles os) <-> In h (live_handles (c_run i os)) \/ In h (aborted (c_run i os)))
    /\ ~ (In h (live_handles (c_run i os)) /\ In h (aborted (c_run i os)))
    /\ NoDup (aborted (c_run i os)) /\ NoDup (live_handles (c_run i os)).
Proof. exact handles_accounted. Qed.
Print Assumptions C09_tasks_accounted.

(** Without any freshness assumption: as multisets, handed over = cancelled + registered. *)
Theorem C09_tasks_conserved :
  forall i os, added_handles os ≡ₚ aborted (c_run i os) ++ live_handles (c_run i os).
Proof. exact run_handles. Qed.
Print Assumptions C09_tasks_conserved.

Example C09_example :
  NoDup (added_handles ex_history)
  /\ aborted (c_run ex_self ex_history) = [1000;1001]%N
  /\ live_handles (c_run ex_self ex_history) = [1002;2000]%N
  /\ current_user ex_self ex_history [1]%N = Some (102,1002)%N.
Proof.
  split; [apply (bool_decide_unpack _); vm_compute; exact I|]. split; [vm_compute; done|]. split; [vm_compute; done|].
  vm_compute. done.
Qed.

(** * C10 *)
Theorem C10_remove_user_frame :
  forall i os u,
    let s := c_run i os in let s' := c_remove_user s u in
    c_get_user_connection s' u = None
    /\ (forall ts tuo, ~ In u (c_get_interested_by_topic s' ts tuo).2)
    /\ c_get_broker_identifier_of_user s' u <> Some i
    /\ (forall u', u' <> u ->
          c_get_user_connection s' u' = c_get_user_connection s u'
          /\ c_get_broker_identifier_of_user s' u' = c_get_broker_identifier_of_user s u'
          /\ forall ts tuo, In u' (c_get_interested_by_topic s' ts tuo).2 <-> In u' (c_get_interested_by_topic s ts tuo).2)
    /\ (forall b, c_get_broker_connection s' b = c_get_broker_connection s b)
    /\ (forall b ts tuo, In b (c_get_interested_by_topic s' ts tuo).1 <-> In b (c_get_interested_by_topic s ts tuo).1).
Proof. exact remove_user_frame. Qed.
Print Assumptions C10_remove_user_frame.

Theorem C10_remove_broker_frame :
  forall i os b,
    let s := c_run i os in let s' := c_remove_broker s b in
    c_get_broker_connection s' b = None
    /\ (forall ts tuo, ~ In b (c_get_interested_by_topic s' ts tuo).1)
    /\ (forall b', b' <> b ->
          c_get_broker_connection s' b' = c_get_broker_connection s b'
          /\ forall ts tuo, In b' (c_get_interested_by_topic s' ts tuo).1 <-> In b' (c_get_interested_by_topic s ts tuo).1)
    /\ (forall u, c_get_user_connection s' u = c_get_user_connection s u
          /\ c_get_broker_identifier_of_user s' u = c_get_broker_identifier_of_user s u)
    /\ (forall u ts tuo, In u (c_get_interested_by_topic s' ts tuo).2 <-> In u (c_get_interested_by_topic s ts tuo).2).
Proof. exact remove_broker_frame. Qed.
Print Assumptions C10_remove_broker_frame.

Example C10_example :
  let s := c_run ex_self ex_history in
  c_get_user_connection s [1]%N = Some 102%N /\ c_get_user_connection (c_remove_user s [1]%N) [1]%N = None
  /\ c_get_broker_connection s ex_other = Some 200%N /\ c_get_broker_connection (c_remove_broker s ex_other) ex_other = None.
Proof. vm_compute. done. Qed.

(** * C11 *)
Theorem C11_interested_brokers_connected :
  forall i os ts tuo b,
    In b (c_get_interested_by_topic (c_run i os) ts tuo).1 ->
    exists c, c_get_broker_connection (c_run i os) b = Some c.
Proof. exact interested_brokers_connected. Qed.
Print Assumptions C11_interested_brokers_connected.

Example C11_example :
  In ex_other (c_get_interested_by_topic (c_run ex_self ex_history) [7]%N false).1.
Proof. vm_compute. auto. Qed.
