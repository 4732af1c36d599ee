(** Property theorems: what a broker does with one received frame, run without
    interruption. They hold for every decoder [deser], every topic validity predicate,
    every message hook [hk] and every choice [ok] of the connections on which sending
    succeeds. *)
From stdpp Require Import gmap list.
From Coq Require Import NArith.
From Verif Require Import IdModel RelMapModel VMapModel VMapSpec ConnModel ConnSpec ConnProofs ConnProofs2 ConnProofs3 ConnProofs4
  TopicModel MsgModel RouteModel RouteSpec RouteProofs RouteProofs2 PropertiesConn.

(** A concrete decoder used by the examples: the first byte is the kind. *)
Definition ex_deser (raw : bytes) : option message :=
  match raw with
  | 3 :: r :: body => Some (MDirect [r] body)
  | 4 :: t1 :: t2 :: body => Some (MBroadcast [t1; t2] body)
  | 5 :: ts => Some (MSubscribe ts)
  | 6 :: ts => Some (MUnsubscribe ts)
  | 7 :: p => Some (MUserSync p)
  | 8 :: p => Some (MTopicSync p)
  | _ => None
  end%N.
Definition ex_valid (t : N) : bool := (t <? 100)%N.
Definition ex_dec_users (p : bytes) : option direct_map := None.
(** [b; t; v]: topic [t] subscribed, at version [v]. *)
Definition ex_dec_topics (p : bytes) : option topic_map :=
  match p with [t; v] => Some (VMap {[t := VVal v (Some Subscribed)]} ∅ 0%N) | _ => None end.
Definition all_ok (c : N) : bool := true.

(** [ex_history] with user 3 connected too (topics 7 and 9). *)
Definition ex_history3 : list conn_op := ex_history ++ [CAddUser [3]%N 103 [7;9]%N 1003].

(** * C03: a broadcast reaches exactly the interested peers, each exactly once *)
Theorem C03_broadcast_from_user_exactly_once :
  forall deser valid ok i os u raw hk ts body msg,
  deser raw = Some msg -> hk msg = HProcess (MBroadcast ts body) -> (exists t, In t ts /\ valid t = true) ->
  let out := (exec ok depth (c_run i os) (user_frame deser valid u raw hk).1).2 in
  (forall e, In e out <->
     (exists b c, (exists t, In t ts /\ valid t = true /\ advertised os b t)
        /\ c_get_broker_connection (c_run i os) b = Some c /\ ok c = true /\ e = Emit (inr b) c (FRelay raw))
     \/ (exists v c, (exists t, In t ts /\ valid t = true /\ user_topic i os v t)
        /\ c_get_user_connection (c_run i os) v = Some c /\ ok c = true /\ e = Emit (inl v) c (FRelay raw)))
  /\ NoDup (map e_to out).
Proof. exact broadcast_from_user. Qed.
Print Assumptions C03_broadcast_from_user_exactly_once.

Theorem C03_broadcast_from_broker_exactly_once :
  forall deser dec_users dec_topics ok i os b raw hk ts body msg,
  deser raw = Some msg -> hk msg = HProcess (MBroadcast ts body) ->
  let out := (exec ok depth (c_run i os) (broker_frame deser dec_users dec_topics b raw hk).1).2 in
  (forall e, In e out <->
     exists v c, (exists t, In t ts /\ user_topic i os v t)
        /\ c_get_user_connection (c_run i os) v = Some c /\ ok c = true /\ e = Emit (inl v) c (FRelay raw))
  /\ NoDup (map e_to out).
Proof. exact broadcast_from_broker. Qed.
Print Assumptions C03_broadcast_from_broker_exactly_once.

Theorem C03_broadcast_without_valid_topic :
  forall deser valid ok i os u raw hk ts body msg,
  deser raw = Some msg -> hk msg = HProcess (MBroadcast ts body) -> (forall t, In t ts -> valid t = false) ->
  exec ok depth (c_run i os) (user_frame deser valid u raw hk).1 = (c_remove_user (c_run i os) u, []).
Proof. exact broadcast_invalid. Qed.
Print Assumptions C03_broadcast_without_valid_topic.

(** User 1 (topics 9, 10) broadcasts on topics 7 and 9: broker B (7) once, users 1 and 3 once. *)
Example C03_example :
  (exec all_ok depth (c_run ex_self ex_history3) (user_frame ex_deser ex_valid [1]%N [4;7;9;42]%N no_hook).1).2
  = [Emit (inr ex_other) 200 (FRelay [4;7;9;42]%N); Emit (inl [3]%N) 103 (FRelay [4;7;9;42]%N); Emit (inl [1]%N) 102 (FRelay [4;7;9;42]%N)]
  /\ (exec all_ok depth (c_run ex_self ex_history3) (broker_frame ex_deser ex_dec_users ex_dec_topics ex_other [4;7;9;42]%N no_hook).1).2
  = [Emit (inl [3]%N) 103 (FRelay [4;7;9;42]%N); Emit (inl [1]%N) 102 (FRelay [4;7;9;42]%N)]
  /\ ex_deser [4;7;9;42]%N = Some (MBroadcast [7;9]%N [42]%N) /\ ex_valid 7 = true
  /\ ex_deser [4;200;201;42]%N = Some (MBroadcast [200;201]%N [42]%N) /\ ex_valid 200 = false /\ ex_valid 201 = false.
Proof. vm_compute. done. Qed.

(** * C04 *)
Theorem C04_broker_frames_go_to_users_only :
  forall deser dec_users dec_topics ok i os b raw hk e,
  In e (exec ok depth (c_run i os) (broker_frame deser dec_users dec_topics b raw hk).1).2 ->
  e_frame e = FRelay raw /\ exists u, e_to e = inl u.
Proof. intros deser du dt. exact (broker_frame_bytes deser du dt (fun _ => true)). Qed.
Print Assumptions C04_broker_frames_go_to_users_only.

(** Topic 7 is advertised by B itself, and is not sent back to it. *)
Example C04_example :
  (exec all_ok depth (c_run ex_self ex_history3) (broker_frame ex_deser ex_dec_users ex_dec_topics ex_other [4;7;7]%N no_hook).1).2
  = [Emit (inl [3]%N) 103 (FRelay [4;7;7]%N)]
  /\ fst (c_get_interested_by_topic (c_run ex_self ex_history3) [7]%N false) = [ex_other].
Proof. vm_compute. done. Qed.

(** * C05: direct messages *)
Theorem C05_direct_from_user :
  forall deser valid ok i os u raw hk r body msg e,
  deser raw = Some msg -> hk msg = HProcess (MDirect r body) ->
  let s := c_run i os in
  (In e (exec ok depth s (user_frame deser valid u raw hk).1).2 <->
  (exists c, c_get_user_connection s r = Some c /\ ok c = true /\ e = Emit (inl r) c (FRelay raw))
  \/ (c_get_user_connection s r = None
      /\ exists b c, c_get_broker_identifier_of_user s r = Some b
           /\ c_get_broker_connection s b = Some c /\ ok c = true /\ e = Emit (inr b) c (FRelay raw)))
  /\ length (exec ok depth s (user_frame deser valid u raw hk).1).2 <= 1.
Proof. intros deser. exact (direct_from_user deser (fun _ => None) (fun _ => None)). Qed.
Print Assumptions C05_direct_from_user.

Theorem C05_direct_from_broker :
  forall deser dec_users dec_topics ok i os b raw hk r body msg e,
  deser raw = Some msg -> hk msg = HProcess (MDirect r body) ->
  let s := c_run i os in
  (In e (exec ok depth s (broker_frame deser dec_users dec_topics b raw hk).1).2 <->
  (exists c, c_get_user_connection s r = Some c /\ ok c = true /\ e = Emit (inl r) c (FRelay raw)))
  /\ length (exec ok depth s (broker_frame deser dec_users dec_topics b raw hk).1).2 <= 1.
Proof. intros deser du dt. exact (direct_from_broker deser du dt (fun _ => true)). Qed.
Print Assumptions C05_direct_from_broker.

(** To the local user 1, to user 2 at broker B, to the unknown user 9; from B, user 2 is not chased further. *)
Example C05_example :
  (exec all_ok depth (c_run ex_self ex_history3) (user_frame ex_deser ex_valid [3]%N [3;1;42]%N no_hook).1).2 = [Emit (inl [1]%N) 102 (FRelay [3;1;42]%N)]
  /\ (exec all_ok depth (c_run ex_self ex_history3) (user_frame ex_deser ex_valid [3]%N [3;2;42]%N no_hook).1).2 = [Emit (inr ex_other) 200 (FRelay [3;2;42]%N)]
  /\ (exec all_ok depth (c_run ex_self ex_history3) (user_frame ex_deser ex_valid [3]%N [3;9;42]%N no_hook).1).2 = []
  /\ (exec all_ok depth (c_run ex_self ex_history3) (broker_frame ex_deser ex_dec_users ex_dec_topics ex_other [3;2;42]%N no_hook).1).2 = []
  /\ (exec all_ok depth (c_run ex_self ex_history3) (broker_frame ex_deser ex_dec_users ex_dec_topics ex_other [3;1;42]%N no_hook).1).2
     = [Emit (inl [1]%N) 102 (FRelay [3;1;42]%N)].
Proof. vm_compute. done. Qed.

(** * C06: what is forwarded is the received frame, whatever the hook did to the message *)
Theorem C06_user_frame_forwarded_unchanged :
  forall deser valid ok i os u raw hk e,
  In e (exec ok depth (c_run i os) (user_frame deser valid u raw hk).1).2 -> e_frame e = FRelay raw.
Proof. intros deser. exact (user_frame_bytes deser (fun _ => None) (fun _ => None)). Qed.
Print Assumptions C06_user_frame_forwarded_unchanged.

Theorem C06_broker_frame_forwarded_unchanged :
  forall deser dec_users dec_topics ok i os b raw hk e,
  In e (exec ok depth (c_run i os) (broker_frame deser dec_users dec_topics b raw hk).1).2 -> e_frame e = FRelay raw.
Proof. intros * H. by eapply (broker_frame_bytes _ _ _ (fun _ => true)) in H as [-> _]. Qed.
Print Assumptions C06_broker_frame_forwarded_unchanged.

(** A hook that rewrites the message changes the recipients, never the bytes. *)
Example C06_example :
  (exec all_ok depth (c_run ex_self ex_history3)
     (user_frame ex_deser ex_valid [3]%N [3;1;42]%N (fun _ => HProcess (MBroadcast [9]%N []))).1).2
  = [Emit (inl [3]%N) 103 (FRelay [3;1;42]%N); Emit (inl [1]%N) 102 (FRelay [3;1;42]%N)].
Proof. vm_compute. done. Qed.

(** * C51, one frame at a time *)
Theorem C51_user_frame_isolated :
  forall deser valid ok i os u raw hk,
  let s := c_run i os in
  let s' := (exec ok depth s (user_frame deser valid u raw hk).1).1 in
  (forall v, v <> u -> (forall c, c_get_user_connection s v = Some c -> ok c = true) ->
     c_get_user_connection s' v = c_get_user_connection s v
     /\ c_get_broker_identifier_of_user s' v = c_get_broker_identifier_of_user s v
     /\ forall ts only, In v (c_get_interested_by_topic s' ts only).2 <-> In v (c_get_interested_by_topic s ts only).2)
  /\ (forall b, (forall c, c_get_broker_connection s b = Some c -> ok c = true) ->
     c_get_broker_connection s' b = c_get_broker_connection s b
     /\ forall ts only, In b (c_get_interested_by_topic s' ts only).1 <-> In b (c_get_interested_by_topic s ts only).1).
Proof. exact user_frame_isolated. Qed.
Print Assumptions C51_user_frame_isolated.

(** Garbage from user 1 removes user 1 and leaves user 3 connected. *)
Example C51_example :
  let s' := (exec all_ok depth (c_run ex_self ex_history3) (user_frame ex_deser ex_valid [1]%N [99]%N no_hook).1).1 in
  c_get_user_connection s' [1]%N = None /\ c_get_user_connection s' [3]%N = Some 103%N
  /\ c_get_broker_connection s' ex_other = Some 200%N.
Proof. vm_compute. done. Qed.
