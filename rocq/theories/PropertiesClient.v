(** Properties of the client: C47–C50, C57, C58. *)
From stdpp Require Import gmap list.
From Coq Require Import NArith.
From Verif Require Import TopicModel ClientModel ClientSpec ClientProofs ClientSubs ClientClose ClientMore ClientStuck.
From Verif Require IdModel VMapModel ConnModel MsgModel RouteModel TaskModel.

(** Schedules used below. Thread 1 brings up connection 0. *)
Definition ex_connect : list cev :=
  [EStart 1 KEnsure; EStep 1 true; EStep 1 true; EStep 1 true;
   ETask 0 true; ETask 0 true; ETask 0 true; ETask 0 true; ETask 0 true; ETask 0 true; EStep 1 true].
Definition ex_valid : N -> bool := fun t => N.leb t 9.

(** * C47 *)
Theorem C47_one_attempt :
  forall ts es r1 r2, attempting (krun ts es).1 r1 -> attempting (krun ts es).1 r2 -> r1 = r2.
Proof. exact one_attempt. Qed.
Print Assumptions C47_one_attempt.

(** While an attempt is in progress there is no shared connection, so the new connection
    never overwrites one. *)
Theorem C47_attempt_only_without_connection :
  forall ts es r, attempting (krun ts es).1 r -> k_slot (krun ts es).1 = None.
Proof. exact attempt_no_slot. Qed.
Print Assumptions C47_attempt_only_without_connection.

(** A connection is given up only by a call whose operation failed on it or on an older one. *)
Theorem C47_given_up_after_error_partial :
  forall ts es t c c', In (OTook t c (Some c')) (krun ts es).2 ->
  (c <= c')%N /\ In (OUse t c false) (krun ts es).2.
Proof. exact took_older. Qed.
Print Assumptions C47_given_up_after_error_partial.

(** A late error on the old connection takes away the new one, on which nothing failed. *)
Definition ex_stale : list cev :=
  ex_connect ++
  [EStart 2 KSend; EStep 2 true; EStart 3 KSend; EStep 3 true;
   EStep 2 false; EStep 2 true; EStep 2 true; EStart 4 KSend; EStep 4 true; EStep 4 true;
   ETask 1 true; ETask 1 true; ETask 1 true; ETask 1 true; ETask 1 true; ETask 1 true;
   EStep 3 false; EStep 3 true; EStep 3 true].
Theorem C47_replaced_only_after_its_error_refuted :
  exists ts es t c c', In (OTook t c (Some c')) (krun ts es).2 /\ c <> c'
    /\ (forall t', ~ In (OUse t' c' false) (krun ts es).2).
Proof.
  exists [1%N], ex_stale, 3%N, 0%N, 1%N. split; [|split; [done|]].
  - vm_compute. intuition.
  - intros t'. vm_compute. intros H. repeat destruct H as [H|H]; try discriminate H. destruct H.
Qed.
Print Assumptions C47_replaced_only_after_its_error_refuted.

Example C47_example :
  attempting (krun [1%N] (take 6 ex_connect)).1 0 /\ k_slot (krun [1%N] ex_connect).1 = Some 0%N
  /\ In (OTook 2 0 (Some 0%N)) (krun [1%N] ex_stale).2.
Proof. split; [left; vm_compute; reflexivity|]. split; [vm_compute; reflexivity|]. vm_compute. intuition. Qed.

(** * C48: the requests of the current connection, handled in order, give exactly the valid topics asked for *)
Theorem C48_topics_match_partial :
  forall valid ts es c, k_slot (krun ts es).1 = Some c ->
  exists qs, k_sent (krun ts es).1 !! c = Some qs
    /\ forall S x, b_topics valid qs = Some S ->
         x ∈ S <-> valid x = true /\ x ∈ wanted (list_to_set ts) (krun ts es).2.
Proof. exact topics_match. Qed.
Print Assumptions C48_topics_match_partial.

(** A broker that handles a request before it has registered the user loses it. *)
Definition ex_subscribe : list cev := ex_connect ++ [EStart 2 (KSub [7%N]); EStep 2 true; EStep 2 true; EStep 2 true].
Definition ex_deser (raw : list N) : option MsgModel.message :=
  match raw with 5%N :: l => Some (MsgModel.MSubscribe l) | _ => None end.
Definition ex_broker : IdModel.bid := IdModel.Bid [1%N] [2%N].
Theorem C48_early_subscribe_refuted :
  exists ts es bs,
    k_slot (krun ts es).1 = Some 0%N
    /\ k_sent (krun ts es).1 !! 0%N = Some [RSub [9%N]; RSub [7%N]]
    /\ 7%N ∈ wanted (list_to_set ts) (krun ts es).2
    /\ bs = [TaskModel.EUserAuthed 1 2 [1%N] 101 [9%N]; TaskModel.EFrame 1 [5;7]%N MsgModel.no_hook; TaskModel.ERun 1 true; TaskModel.ERun 2 true]
    /\ let m := TaskModel.m_run ex_deser (fun _ => None) (fun _ => None) ex_valid ex_broker bs in
       ConnModel.c_get_user_connection (TaskModel.m_conns m) [1%N] = Some 101%N
       /\ (ConnModel.c_get_interested_by_topic (TaskModel.m_conns m) [7%N] false).2 = [].
Proof.
  exists [9%N], ex_subscribe, [TaskModel.EUserAuthed 1 2 [1%N] 101 [9%N]; TaskModel.EFrame 1 [5;7]%N MsgModel.no_hook; TaskModel.ERun 1 true; TaskModel.ERun 2 true].
  split; [vm_compute; reflexivity|]. split; [vm_compute; reflexivity|].
  split; [apply (bool_decide_unpack _); vm_compute; exact I|]. split; [reflexivity|].
  split; vm_compute; reflexivity.
Qed.
Print Assumptions C48_early_subscribe_refuted.

Example C48_example :
  k_sent (krun [9%N] (ex_subscribe ++ [EStart 3 (KUnsub [9;42]%N); EStep 3 true; EStep 3 true; EStep 3 true])).1 !! 0%N
    = Some [RSub [9%N]; RSub [7%N]; RUnsub [9%N]]
  /\ b_topics ex_valid [RSub [9%N]; RSub [7%N]; RUnsub [9%N]] = Some {[7%N]}
  /\ k_sent (krun [9%N] (ex_subscribe ++ [EStart 3 KSend; EStep 3 true; EStep 3 false; EStep 3 true; EStep 3 true;
       EStart 4 KSend; EStep 4 true; EStep 4 true; ETask 1 true; ETask 1 true; ETask 1 true; ETask 1 true])).1 !! 1%N
    = Some [RSub [7;9]%N].
Proof.
  split; [vm_compute; reflexivity|].
  split; [apply (bool_decide_unpack _); vm_compute; exact I|]. vm_compute. reflexivity.
Qed.

(** * C49: what holds after [close] has returned *)
Theorem C49_closed_stays_closed_partial :
  forall ts es tc, In (ORet tc KClose true) (krun ts es).2 ->
  forall es', let k := (kgo (krun ts es).1 es').1 in let outs := (kgo (krun ts es).1 es').2 in
    k_slot k = None /\ (forall r, ~ In (OAttempt r) outs) /\ (forall r c, ~ In (OConn r c) outs)
    /\ (forall t o es'', k_thr k !! t = None ->
          forall o', In (ORet t o' true) (kgo k (EStart t o :: es'')).2 -> o' = KClose).
Proof.
  intros ts es tc H es' k outs. pose proof (closed_shut _ _ _ H) as Hs.
  destruct (shut_go _ es' Hs) as [Hk Ho]. fold k in Hk. fold outs in Ho.
  split; [apply Hk|]. rewrite List.Forall_forall in Ho.
  split; [intros r Hr; apply (Ho _ Hr)|]. split; [intros r c Hr; apply (Ho _ Hr)|].
  intros t o es'' Ht o' Hin.
  assert (Hl : Forall (fails t) (kgo k (EStart t o :: es'')).2).
  { apply late_go; [done|apply psl_go, (krun_all (fun _ => true))|]. unfold lateT. by rewrite Ht. }
  rewrite List.Forall_forall in Hl. exact (Hl _ Hin eq_refl).
Qed.
Print Assumptions C49_closed_stays_closed_partial.

(** A pending receive keeps its connection and may still succeed. *)
Definition ex_pending : list cev :=
  ex_connect ++ [EStart 2 KRecv; EStep 2 true; EStart 3 KClose; EStep 3 true; EStep 3 true; EStep 3 true].
Theorem C49_pending_receive_refuted :
  exists ts es es' c t, In (ORet 3 KClose true) (krun ts es).2
    /\ has_conn (krun ts es).1 c /\ In (ORet t KRecv true) (kgo (krun ts es).1 es').2.
Proof.
  exists [1%N], ex_pending, [EStep 2 true], 0%N, 2%N. split; [vm_compute; intuition|].
  split; [right; exists 2%N, KRecv; vm_compute; reflexivity|]. vm_compute. intuition.
Qed.
Print Assumptions C49_pending_receive_refuted.

(** [close] may never return. *)
Definition ex_hang : list cev :=
  [EStart 1 KSend; EStep 1 true; EStart 2 KClose; EStep 2 true; EStep 2 true; EStep 1 true; ETask 0 true].
Theorem C49_close_never_returns_refuted :
  exists ts es t, In (OStart t KClose) (krun ts es).2 /\
  forall es', Forall (bystanders t) es' -> k_thr (krun ts (es ++ es')).1 !! t = Some PClose3.
Proof.
  exists [], ex_hang, 2%N. split; [vm_compute; intuition|]. intros es' Hes.
  unfold krun. rewrite kgo_app. cbn [fst].
  refine (hg_t _ 2 0 (hang_go _ es' 2 0 _ Hes)). split.
  - apply krun_tk.
  - intros t p Ht. change (({[2%N := PClose3]} : gmap N pc) !! t = Some p) in Ht.
    apply lookup_singleton_Some in Ht as [_ <-]. exact I.
  - vm_compute. reflexivity.
  - vm_compute. reflexivity.
  - vm_compute. reflexivity.
  - apply (bool_decide_unpack _). vm_compute. exact I.
  - left. vm_compute. reflexivity.
Qed.
Print Assumptions C49_close_never_returns_refuted.

(** It returns though a reconnection is running, wherever that is and whatever the network does: the
    reconnection is aborted, and makes no attempt and no connection any more. *)
Theorem C49_close_ends_reconnection_partial :
  forall ts es t r, let k := (krun ts es).1 in
  k_thr k !! t = None -> k_rd k = ∅ -> k_handle k = Some r ->
  (forall r' q, k_tasks k !! r' = Some q -> r' = r) ->
  (kgo k (close_now t r)).2 = [OStart t KClose; ORet t KClose true].
Proof. exact close_completes. Qed.
Print Assumptions C49_close_ends_reconnection_partial.

(** Task 0 is waiting for the network. *)
Example C49_close_ends_case :
  let k := (krun [1%N] [EStart 1 KSend; EStep 1 true; EStep 1 true; ETask 0 true; ETask 0 true]).1 in
  k_thr k !! 3%N = None /\ k_rd k = ∅ /\ k_handle k = Some 0%N /\ map_to_list (k_tasks k) = [(0%N, QNet)].
Proof.
  split; [vm_compute; reflexivity|]. split; [apply (bool_decide_unpack _); vm_compute; exact I|].
  split; vm_compute; reflexivity.
Qed.

Example C49_example :
  In (ORet 3 KClose true) (krun [1%N] (ex_connect ++ [EStart 3 KClose; EStep 3 true; EStep 3 true; EStep 3 true])).2
  /\ (krun [1%N] (ex_connect ++ [EStart 3 KClose; EStep 3 true; EStep 3 true; EStep 3 true; EStart 4 KSend; EStep 4 true])).2
     = [OStart 1 KEnsure; OAttempt 0; OConn 0 0; ORet 1 KEnsure true; OStart 3 KClose; ORet 3 KClose true;
        OStart 4 KSend; ORet 4 KSend false].
Proof. split; vm_compute; intuition. Qed.

(** * C50: false for every redundant call; true for calls that change something *)
Theorem C50_redundant_call_disconnects_refuted :
  forall valid ts es t o l c, let k := (krun ts es).1 in
  k_thr k !! t = Some (PUse o c) -> k_slot k = Some c ->
  (o = KSub l /\ forall x, x ∈ l -> x ∈ wanted (list_to_set ts) (krun ts es).2)
   \/ (o = KUnsub l /\ forall x, x ∈ l -> x ∉ wanted (list_to_set ts) (krun ts es).2) ->
  exists qs, k_sent (krun ts (es ++ [EStep t true])).1 !! c = Some qs /\ b_topics valid qs = None.
Proof. exact redundant. Qed.
Print Assumptions C50_redundant_call_disconnects_refuted.

Theorem C50_effective_call_harmless_partial :
  forall valid ts es t o l c qs S x, let k := (krun ts es).1 in
  k_thr k !! t = Some (PUse o c) -> k_sent k !! c = Some qs -> b_topics valid qs = Some S ->
  x ∈ l -> valid x = true ->
  (o = KSub l /\ x ∉ wanted (list_to_set ts) (krun ts es).2)
   \/ (o = KUnsub l /\ x ∈ wanted (list_to_set ts) (krun ts es).2) ->
  exists qs' S', k_sent (krun ts (es ++ [EStep t true])).1 !! c = Some qs' /\ b_topics valid qs' = Some S'.
Proof. exact effective. Qed.
Print Assumptions C50_effective_call_harmless_partial.

Example C50_example :
  k_thr (krun [7%N] (ex_connect ++ [EStart 2 (KSub [7%N]); EStep 2 true; EStep 2 true])).1 !! 2%N = Some (PUse (KSub [7%N]) 0)
  /\ k_slot (krun [7%N] (ex_connect ++ [EStart 2 (KSub [7%N]); EStep 2 true; EStep 2 true])).1 = Some 0%N
  /\ k_sent (krun [7%N] (ex_connect ++ [EStart 2 (KSub [7%N]); EStep 2 true; EStep 2 true; EStep 2 true])).1 !! 0%N
     = Some [RSub [7%N]; RSub []]
  /\ b_topics ex_valid [RSub [7%N]; RSub []] = None.
Proof. split_and!; vm_compute; reflexivity. Qed.

(** * C57: recovery *)
Theorem C57_recovery_possible_partial :
  forall ts es, k_closed (krun ts es).1 = false -> k_subl (krun ts es).1 = None ->
  exists es', k_slot (krun ts (es ++ es')).1 <> None.
Proof. exact run_recovers. Qed.
Print Assumptions C57_recovery_possible_partial.

(** A subscribe call that failed waits for the connection's lock, holding the topic set's;
    the reconnection task waits for the topic set's, holding the connection's. *)
Definition ex_knot : list cev :=
  ex_connect ++
  [EStart 2 (KSub [1%N]); EStep 2 true; EStep 2 true; EStart 3 KSend; EStep 3 true;
   EStep 2 false; EStep 2 true; EStep 3 false; EStep 3 true; EStep 3 true;
   EStart 4 KSend; EStep 4 true; EStep 4 true; ETask 1 true].
Theorem C57_never_reconnects_refuted :
  exists ts es t, k_closed (krun ts es).1 = false /\
  forall es', Forall (bystanders t) es' ->
    k_slot (krun ts (es ++ es')).1 = None /\ (forall r c, ~ In (OConn r c) (kgo (krun ts es).1 es').2)
    /\ (exists o c, k_thr (krun ts (es ++ es')).1 !! t = Some (PTake o c)).
Proof.
  exists [], ex_knot, 2%N. split; [vm_compute; reflexivity|]. intros es' Hes.
  assert (Hk : knot (krun [] ex_knot).1 2 1).
  { split.
    - apply krun_tk.
    - intros t p Ht. change (({[2%N := PTake (KSub [1%N]) 0]} : gmap N pc) !! t = Some p) in Ht.
      apply lookup_singleton_Some in Ht as [_ <-]. exact I.
    - exists (KSub [1%N]), 0%N. vm_compute. reflexivity.
    - vm_compute. reflexivity.
    - vm_compute. reflexivity.
    - vm_compute. reflexivity.
    - apply (bool_decide_unpack _). vm_compute. exact I.
    - left. vm_compute. reflexivity. }
  destruct (knot_go _ es' 2 1 Hk Hes) as [H1 H2]. unfold krun at 1 3. rewrite kgo_app. cbn [fst].
  split; [apply H1|]. split; [exact H2|apply H1].
Qed.
Print Assumptions C57_never_reconnects_refuted.

Example C57_example :
  let k := (krun [1%N] (ex_connect ++ [EStart 2 KSend; EStep 2 true; EStep 2 false; EStep 2 true; EStep 2 true])).1 in
  k_closed k = false /\ k_subl k = None /\ k_slot k = None.
Proof. vm_compute. auto. Qed.

(** * C58: [ensure_initialized] *)
Theorem C58_error_means_closed :
  forall ts es t, In (ORet t KEnsure false) (krun ts es).2 -> k_closed (krun ts es).1 = true.
Proof. exact ensure_err_closed. Qed.
Print Assumptions C58_error_means_closed.

Definition ex_ensure : list cev :=
  [EStart 1 KEnsure; EStep 1 true; EStep 1 true; EStep 1 true; EStart 2 KClose; EStep 2 true; EStep 1 true].
Theorem C58_success_without_connection_refuted :
  exists ts es t, In (ORet t KEnsure true) (krun ts es).2 /\ forall r c, ~ In (OConn r c) (krun ts es).2.
Proof.
  exists [], ex_ensure, 1%N. split; [vm_compute; intuition|]. intros r c. vm_compute. intros H.
  repeat destruct H as [H|H]; try discriminate H. destruct H.
Qed.
Print Assumptions C58_success_without_connection_refuted.

Example C58_example :
  In (ORet 3 KEnsure false) (krun [] (ex_ensure ++ [EStart 3 KEnsure; EStep 3 true])).2.
Proof. vm_compute. intuition. Qed.
