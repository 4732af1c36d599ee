(** Property C59: one user that stops reading and the memory of the broker. *)
From stdpp Require Import list gmap.
From Coq Require Import NArith Lia.
From Verif Require Import PoolModel FlowModel FlowSpec FlowProofs.

(** * Every byte in use belongs to a message somebody has, and all of it comes back *)

(** In every reachable state a message occupying memory is received and not yet handled,
    waiting to be written, or being read. *)
Theorem C59_memory_is_held (P : N) (es : list fevent) (id : nat) :
  let s := (frun (flow_new P) es).1 in
  is_Some (p_live (f_pool s) !! id) ->
  exists c x, f_conns s !! c = Some x /\ (In id (fc_queue x) \/ In id (fc_recv x) \/ fc_read x = FMem id).
Proof. cbn zeta. intros Hl. exact (live_held P _ id (frun_inv P es) Hl). Qed.
Print Assumptions C59_memory_is_held.

(** Whatever happened before: when no connection has anything received, anything to write or
    a message being read, the whole pool is available again and no reader waits. *)
Theorem C59_memory_comes_back (P : N) (es : list fevent) :
  let s := (frun (flow_new P) es).1 in
  (forall c x, f_conns s !! c = Some x -> idle x) ->
  p_avail (f_pool s) = P /\ p_wait (f_pool s) = [] /\ p_live (f_pool s) = ∅.
Proof.
  cbn zeta. intros Hi. destruct (idle_pool P _ (frun_inv P es) Hi) as (H1 & H2 & H3). done.
Qed.
Print Assumptions C59_memory_comes_back.

(** Two users; one is sent a message and does not read it, its connection is closed by the next
    message, which is lost for it; the memory is all back. *)
Definition ex_run : list fevent :=
  [FOpen 1; FOpen 2; FAnnounce 1 60; FBody 1; FHandle 1 [2; 1]; FAnnounce 1 50; FWriteFail 2; FWritten 1; FBody 1; FHandle 1 [2]]%N.
Example C59_memory_comes_back_example :
  let s := (frun (flow_new 100) ex_run).1 in
  map_to_list (f_conns s) = [(1%N, fconn_new)] /\ p_avail (f_pool s) = 100%N
  /\ (forall c x, f_conns s !! c = Some x -> idle x)
  /\ (exists id, is_Some (p_live (f_pool (frun (flow_new 100) (take 6 ex_run)).1) !! id)).
Proof.
  cbn zeta.
  assert (map_to_list (f_conns (frun (flow_new 100) ex_run).1) = [(1%N, fconn_new)]) as E by (vm_compute; reflexivity).
  split_and!; [vm_compute; reflexivity|vm_compute; reflexivity| |exists 0; vm_compute; by eexists].
  intros c x Hx. apply elem_of_map_to_list in Hx. rewrite E in Hx. clear E. apply elem_of_list_singleton in Hx as [= _ ->].
  split_and!; [reflexivity|reflexivity|intros id; discriminate].
Qed.

(** * As long as writes succeed, memory cannot run out for good *)

(** From every reachable state in which no write has failed, whatever the order in which the
    broker finishes reads, handles messages (sending each to at most [K] peers) and finishes
    writes, this work comes to an end after a bounded number of steps, and when nothing is
    left of it no reader waits for memory and the whole pool is available. The sizes announced
    have to fit the pool. *)
Theorem C59_no_deadlock_while_writes_succeed (P : N) (es : list fevent) (K : nat) :
  (forall c n, In (FAnnounce c n) es -> (n <= P)%N) ->
  all_alive (frun (flow_new P) es).1 ->
  exists B, forall es', Forall (own_work K) es' -> busy (frun (flow_new P) es).1 es' ->
    length es' <= B
    /\ (let s := (frun (flow_new P) (es ++ es')).1 in
        (forall e, own_work K e -> (fstep s e).1 = s) -> p_wait (f_pool s) = [] /\ p_avail (f_pool s) = P).
Proof. intros Hs Ha. exact (own_work_ends P es K Hs Ha). Qed.
Print Assumptions C59_no_deadlock_while_writes_succeed.

(** A pool of 100 bytes, 60 of them waiting to be written to user 2, user 1 announcing 50 more:
    its reader waits. Three steps of the broker's own work finish everything. *)
Definition ex_full : list fevent := [FOpen 1; FOpen 2; FAnnounce 1 60; FBody 1; FHandle 1 [2]; FAnnounce 1 50]%N.
Definition ex_work : list fevent := [FWritten 2; FBody 1; FHandle 1 []]%N.
Example C59_no_deadlock_example :
  (forall c n, In (FAnnounce c n) ex_full -> (n <= 100)%N) /\ all_alive (frun (flow_new 100) ex_full).1
  /\ length (p_wait (f_pool (frun (flow_new 100) ex_full).1)) = 1
  /\ Forall (own_work 0) ex_work
  /\ p_avail (f_pool (frun (flow_new 100) (ex_full ++ ex_work)).1) = 100%N
  /\ (frun (frun (flow_new 100) ex_full).1 ex_work).2 = 1.
Proof.
  split_and!.
  - intros c n H. cbn in H. repeat destruct H as [[=]|H]; subst; try lia.
  - assert (map_to_list (f_conns (frun (flow_new 100) ex_full).1) = [(1%N, FConn (FMem 1) [] [] true); (2%N, FConn FHeader [] [0] true)]) as E
      by (vm_compute; reflexivity).
    intros c x Hx. apply elem_of_map_to_list in Hx. rewrite E in Hx. clear E. apply elem_of_cons in Hx as [[= _ ->]|Hx]; [reflexivity|].
    apply elem_of_list_singleton in Hx as [= _ ->]. reflexivity.
  - vm_compute. reflexivity.
  - repeat constructor.
  - vm_compute. reflexivity.
  - vm_compute. reflexivity.
Qed.

(** * A user that stops reading can stop the broker *)

(** Let a pool be exactly filled by messages of sizes [g :: bs], sent by [p] to a user [S] that
    reads nothing, and let the write of the first one time out. From then on, as long as [S]
    keeps its connection open, the broker receives no message of more than [g] bytes from
    anybody, whatever all the others do: the closed queue keeps the memory, and the queue would
    be freed only by the next message for [S], which cannot be received. [S] stays registered. *)
Theorem C59_reader_that_stops_refuted (g : N) (bs : list N) (p S : N) :
  p <> S -> Forall (fun n => (n <= 536870911)%N) (g :: bs) ->
  let s := (frun (flow_new (total (g :: bs))) ([FOpen p; FOpen S] ++ fill p S (g :: bs) ++ [FWriteFail S])).1 in
  forall es, Forall (harmless g S) es ->
    (frun s es).2 = 0 /\ is_Some (f_conns (frun s es).1 !! S).
Proof.
  cbn zeta. intros Hne Hf es He. destruct (stuck_run g S es _ (fill_stuck g bs p S Hne Hf) He) as [[(x & Hx & _) _ _ _] H2].
  split; [done|by eexists].
Qed.
Print Assumptions C59_reader_that_stops_refuted.

(** Three messages of 10, 40 and 50 bytes fill 100 bytes. User 3 arrives and sends 20 bytes, the
    publisher leaves: nothing of more than 10 bytes gets in. Before the write failed 20 bytes would
    not have got in either, but there the next write would have made room. *)
Example C59_reader_that_stops_example :
  let s := (frun (flow_new 100) ([FOpen 1; FOpen 2] ++ fill 1 2 [10; 40; 50] ++ [FWriteFail 2]))%N.1 in
  let es := [FOpen 3; FAnnounce 3 20; FBody 3; FHandle 3 [2]; FKick 1; FEnd 2; FWritten 2; FBody 3]%N in
  Forall (harmless 10 2) es /\ (frun s es).2 = 0 /\ p_avail (f_pool s) = 10%N
  /\ (frun s [FOpen 3; FAnnounce 3 10; FBody 3]%N).2 = 1
  /\ (frun s [FKick 2; FOpen 3; FAnnounce 3 100; FBody 3]%N).2 = 1.
Proof.
  cbn zeta. split; [|split; [|split; [|split]]].
  - repeat (apply Forall_cons; split); try apply Forall_nil; cbn [harmless]; try exact I; try discriminate. split; [lia|discriminate].
  - vm_compute. reflexivity.
  - vm_compute. reflexivity.
  - vm_compute. reflexivity.
  - vm_compute. reflexivity.
Qed.
