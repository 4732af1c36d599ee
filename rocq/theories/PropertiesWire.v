(** Properties of framing, connections and the memory pool (C39–C44). *)
From stdpp Require Import list gmap.
From Coq Require Import NArith Lia.
From Verif Require Import IdModel WireModel WireSpec WireProofs PoolModel PoolSpec PoolProofs.

(** * C39 *)

(** Reading the stream of any messages within the limit gives back these messages. *)
Theorem C39_framing_lossless : forall ms : list bytes,
  Forall (fun m => (blen m <= size_limit)%N) ms ->
  (read_stream (stream_of ms)).2 = ms.
Proof.
  intros ms H. rewrite stream_frames.
  - unfold read_stream. rewrite read_frames; [reflexivity|exact H].
  - eapply Forall_impl; [exact H|]. cbn. intros m Hm.
    change size_limit with 536870911%N in Hm. change (2 ^ 32)%N with 4294967296%N. lia.
Qed.
Print Assumptions C39_framing_lossless.

Example C39_framing_case :
  (read_stream (stream_of [[1; 2; 3]; []; [7]]%N)).2 = [[1; 2; 3]; []; [7]]%N.
Proof. vm_compute. reflexivity. Qed.

(** A stream cut anywhere gives the messages that are complete before the cut and then stands
    in an unfinished read, which the end of the stream turns into an error. *)
Theorem C39_truncated_stream : forall (ms : list bytes) (k : nat),
  Forall (fun m => (blen m <= size_limit)%N) ms ->
  k < length (stream_of ms) ->
  exists j,
    (read_stream (take k (stream_of ms))).2 = take j ms
    /\ j < length ms
    /\ length (stream_of (take j ms)) <= k < length (stream_of (take (S j) ms))
    /\ 0 < rwants (read_stream (take k (stream_of ms))).1
    /\ (forall c, c_rp c = (read_stream (take k (stream_of ms))).1 ->
        c_rp (cstep c EReadFail).1 = RStop /\ recvs (cstep c EReadFail).2 = []).
Proof.
  intros ms k H Hk.
  assert (H32 : Forall (fun m => (blen m < 2 ^ 32)%N) ms).
  { eapply Forall_impl; [exact H|]. cbn. intros m Hm.
    change size_limit with 536870911%N in Hm. change (2 ^ 32)%N with 4294967296%N. lia. }
  rewrite stream_frames in * by exact H32.
  destruct (read_cut [] ms k H Hk) as (j & p & E & Hw & Hj & Hlen).
  unfold read_stream. rewrite E. exists j. cbn [app fst snd].
  rewrite !stream_frames by (by apply Forall_take).
  split; [done|]. split; [done|]. split; [exact Hlen|]. split; [exact Hw|].
  intros c Hc. cbn [cstep]. rewrite Hc.
  destruct p; cbn [rwants] in Hw; try lia; split; reflexivity.
Qed.
Print Assumptions C39_truncated_stream.

Example C39_truncated_case :
  (read_stream (take 12 (stream_of [[1; 2; 3]; [4; 5; 6]; [7]]%N))).2 = [[1; 2; 3]]%N.
Proof. vm_compute. reflexivity. Qed.

(** How the bytes of a read are split into pieces does not matter. *)
Theorem C39_pieces : forall p l1 l2,
  length (l1 ++ l2) <= rwants p -> l2 <> [] ->
  rtake p (l1 ++ l2) = rtake (rtake p l1) l2.
Proof. exact rtake_app. Qed.
Print Assumptions C39_pieces.

Example C39_pieces_case :
  rtake (RHead [0; 0]%N) ([0] ++ [5])%N = RWait 5
  /\ rtake (rtake (RHead [0; 0]%N) [0]%N) [5]%N = RWait 5.
Proof. vm_compute. auto. Qed.

(** Whatever is passed to the transport is the beginning of the stream of the accepted
    messages. *)
Theorem C39_bytes_on_transport : forall cap es,
  Forall (fun m => (blen m < 2 ^ 32)%N) (sends (crun (conn_new cap) es).2) ->
  passed (crun (conn_new cap) es).2 `prefix_of` stream_of (sends (crun (conn_new cap) es).2).
Proof. intros cap es H. rewrite stream_frames by exact H. apply passed_prefix. Qed.
Print Assumptions C39_bytes_on_transport.

Example C39_bytes_case :
  passed (crun (conn_new None) [ESend [9]%N; ETake; EWrite 3; EPass 2; EWriteFail]).2 = [0; 0]%N.
Proof. vm_compute. reflexivity. Qed.

(** * C40 *)

(** Whatever a peer sends, a header announcing more than the limit is refused: nothing is
    allocated, nothing is delivered and nothing after the header is read. *)
Theorem C40_oversized_refused : forall cap (h l : bytes) es,
  length h = 4 -> (size_limit < be_u32 h)%N ->
  let o := (crun (peer_stream cap (h ++ l)) es).2 in
  allocs o = [] /\ recvs o = [] /\ length (reads o) <= 4.
Proof. exact oversized_refused. Qed.
Print Assumptions C40_oversized_refused.

Example C40_oversized_case :
  let h := [32; 0; 0; 0]%N in
  (size_limit < be_u32 h)%N /\
  (crun (peer_stream None (h ++ [1; 2; 3]%N)) [EReadSome 10; EReadSome 10]).2
  = [ORead h; ORead []].
Proof. vm_compute. auto. Qed.

(** No connection ever asks for more than the limit. *)
Theorem C40_allocations_within_limit : forall cap l es,
  Forall (fun n => (n <= size_limit)%N) (allocs (crun (peer_stream cap l) es).2).
Proof. intros cap l es. rewrite <- max_eq. apply crun_allocs. Qed.
Print Assumptions C40_allocations_within_limit.

Example C40_allocations_case :
  allocs (crun (peer_stream None [31; 255; 255; 255]%N) [EReadSome 4]).2 = [536870911%N].
Proof. vm_compute. reflexivity. Qed.

(** A message within the limit, sent first on a connection, is written by the sender and
    returned by the receiver. *)
Theorem C40_within_limit_accepted : forall m : bytes,
  (blen m <= size_limit)%N ->
  fits_u32 m = true /\ (read_stream (stream_of [m])).2 = [m].
Proof.
  intros m H. split.
  - apply N.ltb_lt. change size_limit with 536870911%N in H.
    change (2 ^ 32)%N with 4294967296%N. lia.
  - apply C39_framing_lossless. by constructor.
Qed.
Print Assumptions C40_within_limit_accepted.

Example C40_within_limit_case : (blen [1; 2; 3]%N <= size_limit)%N.
Proof. vm_compute. discriminate. Qed.

(** The sender itself does not check the limit: it accepts and transmits a message of
    2^29 bytes, and the receiver gives up the connection. *)
Theorem C40_sender_unchecked_refuted : exists (m : bytes) es,
  (size_limit < blen m)%N /\
  OSendOk m ∈ (crun (conn_new None) es).2 /\
  passed (crun (conn_new None) es).2 = frame m /\
  c_rp (crun (conn_new None) es).1 = RStop.
Proof.
  exists (replicate (N.to_nat (size_limit + 1)) 0%N). eexists.
  assert (size_limit < blen (replicate (N.to_nat (size_limit + 1)) 0))%N as H1.
  { rewrite zeros_len. apply N.lt_add_pos_r. reflexivity. }
  assert (blen (replicate (N.to_nat (size_limit + 1)) 0) < 2 ^ 32)%N as H2.
  { rewrite zeros_len. reflexivity. }
  split; [exact H1|]. exact (sender_lets_through _ H1 H2).
Qed.
Print Assumptions C40_sender_unchecked_refuted.

(** * C41 *)

(** At every moment of every run, what was received is a prefix of what was accepted. *)
Theorem C41_received_prefix_of_sent : forall cap es,
  recvs (crun (conn_new cap) es).2 `prefix_of` sends (crun (conn_new cap) es).2.
Proof. exact recv_prefix. Qed.
Print Assumptions C41_received_prefix_of_sent.

(** A run with two messages, a bounded queue, split reads and a failing sender. *)
Definition C41_run : list event :=
  [ESend [1; 2]%N; ETake; EWrite 3; EPass 1; ESend [3]%N; EWrite 10; EFlushed; EReadSome 1;
   EReadSome 9; EGrant; EReadSome 9; EPush; ETake; EWrite 2; EWriteFail; ERecv; EReadFail; ERecv].
Example C41_received_case :
  sends (crun (conn_new (Some 1)) C41_run).2 = [[1; 2]; [3]]%N
  /\ recvs (crun (conn_new (Some 1)) C41_run).2 = [[1; 2]]%N.
Proof. vm_compute. auto. Qed.

(** And when both tasks are alive and nothing is under way, everything was received. *)
Theorem C41_nothing_lost : forall cap es got,
  let c := (crun (conn_new cap) es).1 in
  c_sp c = SIdle -> c_sq c = [] -> c_wire c = [] -> c_rp c = RHead got -> c_rq c = [] ->
  recvs (crun (conn_new cap) es).2 = sends (crun (conn_new cap) es).2.
Proof. exact quiet_complete. Qed.
Print Assumptions C41_nothing_lost.

Example C41_nothing_lost_case :
  let c := (crun (conn_new (Some 1))
    [ESend [1; 2]%N; ETake; EWrite 6; EFlushed; EReadSome 4; EGrant; EReadSome 2; EPush; ERecv]).1 in
  c_sp c = SIdle /\ c_sq c = [] /\ c_wire c = [] /\ c_rp c = RHead [] /\ c_rq c = [].
Proof. vm_compute. auto 10. Qed.

(** * C42 *)

(** If a soft close returns successfully, the whole stream of the messages accepted before it
    was passed to the transport before it returned. *)
Theorem C42_soft_close_flushes : forall cap es o1 k o2,
  (crun (conn_new cap) es).2 = o1 ++ OSoftOk k :: o2 ->
  NoDup (soft_starts o1) ->
  k ∈ soft_starts o1 /\
  forall o0 o0', o1 = o0 ++ OSoftStart k :: o0' ->
    stream_of (sends o0) `prefix_of` passed o1.
Proof. exact soft_close_flushed. Qed.
Print Assumptions C42_soft_close_flushes.

Example C42_soft_close_case :
  (crun (conn_new None)
     [ESend [1; 2]%N; ESoft 7; ETake; EWrite 6; EFlushed; ETake; ESoftDone]).2
  = [OSendOk [1; 2]%N; OSoftStart 7; OPassed [0; 0; 0; 2; 1; 2]%N] ++ OSoftOk 7 :: [].
Proof. vm_compute. reflexivity. Qed.

(** * C43 *)

(** The messages in existence never take more than the pool. *)
Theorem C43_pool_bounds_memory : forall P os,
  (held (p_live (prun (pool_new P) os)) <= P)%N.
Proof. intros P os. pose proof (pi_sum _ _ (pool_inv P os)). lia. Qed.
Print Assumptions C43_pool_bounds_memory.

(** Capacity is never lost: what is available, held, and collected by waiting calls adds up
    to the pool; with nothing held and nobody waiting all of it is available. *)
Theorem C43_capacity_conserved : forall P os,
  let p := prun (pool_new P) os in
  (p_avail p + held (p_live p) + foldr (fun w a => (w_got w + a)%N) 0%N (p_wait p) = P)%N
  /\ (p_live p = ∅ -> p_wait p = [] -> p_avail p = P).
Proof.
  intros P os p. pose proof (pi_sum _ _ (pool_inv P os)) as H. fold p in H.
  split; [exact H|]. intros E1 E2. rewrite E1, E2, held_empty, collected_nil in H. lia.
Qed.
Print Assumptions C43_capacity_conserved.

(** A message keeps its memory while any copy exists … *)
Theorem C43_kept_while_copies_exist : forall P os0 id n c os,
  p_live (prun (pool_new P) os0) !! id = Some (n, S c) ->
  (forall os1 os2, os = os1 ++ os2 -> drops id os1 <= c + clones id os1) ->
  p_live (prun (pool_new P) (os0 ++ os)) !! id
  = Some (n, S (c + clones id os - drops id os)).
Proof.
  intros P os0 id n c os H Hd. unfold prun. rewrite fold_left_app.
  exact (copies_live P _ id n c os (pool_inv P os0) H Hd).
Qed.
Print Assumptions C43_kept_while_copies_exist.

(** … and gives it back with the last one. *)
Theorem C43_returned_with_last_copy : forall P os id n,
  p_live (prun (pool_new P) os) !! id = Some (n, 1) ->
  p_live (prun (pool_new P) (os ++ [PDrop id])) !! id = None.
Proof.
  intros P os id n H. unfold prun. rewrite fold_left_app.
  exact (last_copy P _ id n (pool_inv P os) H).
Qed.
Print Assumptions C43_returned_with_last_copy.

(** Message 1 takes 6 of 10 bytes and is cloned; message 2 waits for 5 bytes with 4 of them
    in hand; it is served when both copies of message 1 are gone. *)
Definition C43_ops : list pop := [PAlloc 1 6; PClone 1; PAlloc 2 5; PDrop 1; PDrop 1].
Example C43_pool_case :
  p_wait (prun (pool_new 10) (take 4 C43_ops)) = [Waiter 2 5 4]
  /\ p_live (prun (pool_new 10) (take 4 C43_ops)) !! 1 = Some (6%N, 1)
  /\ held (p_live (prun (pool_new 10) (take 4 C43_ops))) = 6%N
  /\ p_live (prun (pool_new 10) C43_ops) !! 2 = Some (5%N, 1)
  /\ p_live (prun (pool_new 10) C43_ops) !! 1 = None
  /\ p_avail (prun (pool_new 10) C43_ops) = 5%N.
Proof. vm_compute. auto 10. Qed.

(** Every message received was allocated with exactly its size, in order. *)
Theorem C43_message_sizes : forall cap es,
  blen <$> recvs (crun (conn_new cap) es).2 `prefix_of` allocs (crun (conn_new cap) es).2.
Proof. exact recv_sizes. Qed.
Print Assumptions C43_message_sizes.

Example C43_sizes_case :
  allocs (crun (conn_new (Some 1)) C41_run).2 = [2%N].
Proof. vm_compute. reflexivity. Qed.

(** * C44 *)

(** If no message is larger than the pool, nobody is left waiting when nothing is held. *)
Theorem C44_fitting_messages_received_partial : forall P os,
  Forall (fun n => (n <= P)%N) (asked os) ->
  p_live (prun (pool_new P) os) = ∅ ->
  p_wait (prun (pool_new P) os) = [] /\ p_avail (prun (pool_new P) os) = P.
Proof. exact all_fit. Qed.
Print Assumptions C44_fitting_messages_received_partial.

Example C44_fitting_case :
  Forall (fun n => (n <= 10)%N) (asked (C43_ops ++ [PDrop 2]))
  /\ p_live (prun (pool_new 10) (C43_ops ++ [PDrop 2])) = ∅.
Proof.
  split; [|apply (bool_decide_unpack _); vm_compute; exact I].
  change (asked (C43_ops ++ [PDrop 2])) with [6; 5]%N.
  constructor; [vm_compute; discriminate|constructor; [vm_compute; discriminate|constructor]].
Qed.

(** In particular with the default pool (1 GB: cdn-broker/src/binaries/broker.rs 71), since
    every size asked for is within the limit (C40). *)
Theorem C44_default_pool : forall os,
  Forall (fun n => (n <= size_limit)%N) (asked os) ->
  p_live (prun (pool_new 1073741824) os) = ∅ ->
  p_wait (prun (pool_new 1073741824) os) = [].
Proof.
  intros os H He. apply all_fit; [|exact He].
  eapply Forall_impl; [exact H|]. cbn. intros n Hn. change size_limit with 536870911%N in Hn. lia.
Qed.
Print Assumptions C44_default_pool.

Example C44_default_case :
  Forall (fun n => (n <= size_limit)%N) (asked [PAlloc 1 536870911; PDrop 1])
  /\ p_live (prun (pool_new 1073741824) [PAlloc 1 536870911; PDrop 1]) = ∅.
Proof.
  split; [|apply (bool_decide_unpack _); vm_compute; exact I].
  change (asked [PAlloc 1 536870911; PDrop 1]) with [536870911]%N.
  constructor; [vm_compute; discriminate|constructor].
Qed.

(** For a smaller pool the claim fails: a message within the limit and larger than the pool
    waits forever, whatever is released, and with it everybody else who needs memory. *)
Theorem C44_larger_than_pool_refuted : exists P n, (n <= size_limit)%N /\
  forall os, PCancel 0 ∉ os ->
    let p := prun (pool_new P) (PAlloc 0 n :: os) in
    p_live p !! 0 = None /\ forall j m c, p_live p !! j = Some (m, c) -> m = 0%N.
Proof.
  exists 1000%N, 1001%N. split; [vm_compute; discriminate|]. intros os Hc p.
  pose proof (stuck_forever 1000 1001 0 os ltac:(lia) Hc) as Hs. fold p in Hs.
  pose proof (pool_inv 1000 (PAlloc 0 1001 :: os)) as Hp. fold p in Hp.
  destruct Hs as [(ws & Ew & _) _ Hl]. split; [|exact Hl].
  apply (pi_fresh _ _ Hp (Waiter 0 1001 1000)). rewrite Ew. left.
Qed.
Print Assumptions C44_larger_than_pool_refuted.
