(** C94: the counters of bytes sent and received. *)
From stdpp Require Import gmap list.
From Coq Require Import NArith Lia.
From Verif Require Import IdModel WireModel WireSpec WireProofs CountModel CountSpec CountProofs CountProofs2.

(** Whatever has happened on any number of connections between any number of processes: a process's
    counter of bytes sent is the volume of the messages that the transports of its connections have
    accepted to the last byte, up to 2^53 bytes. Messages are counted in the order in which they were
    sent, each once; one cut off midway is not counted, nor are the headers. *)
Theorem C94_bytes_sent : forall ls es, exists W : nat -> list bytes,
  (forall i x, ls !! i = Some x -> written (seen x.2 i es) (W i))
  /\ forall p, let total := sum_lines ls (from_p p) (fun i => volume (W i)) in
     (total <= 2 ^ 53)%N -> gauge (f_sent (f_run ls es)) p = total.
Proof.
  intros ls es. destruct (tally_run ls es) as (W & R & [_ Hl Hs _]). exists W. split; [|exact Hs].
  intros i x Hx. destruct (Hl i x Hx) as (l & _ & _ & _ & Hc & H & _). rewrite Hc in H.
  apply sc_written in H. by destruct (seen x.2 i es).
Qed.
Print Assumptions C94_bytes_sent.

(** The same for its counter of bytes received: the messages that have arrived to the last byte,
    whether or not the process has asked for them yet. *)
Theorem C94_bytes_received : forall ls es, exists R : nat -> list bytes,
  (forall i x, ls !! i = Some x -> arrived (seen x.2 i es) (R i))
  /\ forall p, let total := sum_lines ls (to_p p) (fun i => volume (R i)) in
     (total <= 2 ^ 53)%N -> gauge (f_recv (f_run ls es)) p = total.
Proof.
  intros ls es. destruct (tally_run ls es) as (W & R & [_ Hl _ Hr]). exists R. split; [|exact Hr].
  intros i x Hx. destruct (Hl i x Hx) as (l & _ & _ & _ & Hc & _ & H). rewrite Hc in H. by apply rc_arrived.
Qed.
Print Assumptions C94_bytes_received.

(** Once nothing is under way, both ends have counted everything that was sent: the headers are
    four bytes more per message on the transport. *)
Theorem C94_all_accounted : forall ls es,
  (forall i x, ls !! i = Some x -> at_rest (seen x.2 i es).1) ->
  let volume_of i := match ls !! i with Some x => volume (sends (seen x.2 i es).2) | None => 0%N end in
  (forall p, let total := sum_lines ls (from_p p) volume_of in (total <= 2 ^ 53)%N -> gauge (f_sent (f_run ls es)) p = total)
  /\ (forall p, let total := sum_lines ls (to_p p) volume_of in (total <= 2 ^ 53)%N -> gauge (f_recv (f_run ls es)) p = total)
  /\ (forall i x, ls !! i = Some x ->
       blen (reads (seen x.2 i es).2) = (volume_of i + 4 * N.of_nat (length (sends (seen x.2 i es).2)))%N
       /\ reads (seen x.2 i es).2 = passed (seen x.2 i es).2).
Proof.
  intros ls es Hrest volume_of. destruct (tally_run ls es) as (W & R & [_ Hl Hs Hr]).
  assert (Heq : forall i x, ls !! i = Some x -> W i = sends (seen x.2 i es).2 /\ R i = sends (seen x.2 i es).2).
  { intros i x Hx. destruct (Hl i x Hx) as (l & _ & _ & _ & Hc & Hsc & Hrc). rewrite Hc in Hsc, Hrc. by eapply rest_all; eauto. }
  split; [|split].
  - intros p. cbv zeta. specialize (Hs p). rewrite (sum_lines_ext ls (from_p p) volume_of (fun i => volume (W i))); [exact Hs|].
    intros i x Hx. unfold volume_of. rewrite Hx. by rewrite (proj1 (Heq i x Hx)).
  - intros p. cbv zeta. specialize (Hr p). rewrite (sum_lines_ext ls (to_p p) volume_of (fun i => volume (R i))); [exact Hr|].
    intros i x Hx. unfold volume_of. rewrite Hx. by rewrite (proj2 (Heq i x Hx)).
  - intros i x Hx. unfold volume_of. rewrite Hx. destruct (Hl i x Hx) as (l & _ & _ & _ & Hc & Hsc & Hrc). rewrite Hc in Hsc, Hrc.
    destruct (Hrest i x Hx) as (A1 & A2 & A3 & A4 & A5).
    destruct Hsc as (part & rest & S1 & S2 & S3 & S4). rewrite A2, A1 in S4. destruct S4 as [-> ->]. rewrite A3, !app_nil_r in S1.
    destruct Hrc as (Hb & _). rewrite A4, app_nil_r in Hb.
    split; [|done]. rewrite <- Hb, S1, <- (proj1 (Heq i x Hx)). clear. induction (W i) as [|m w IH]; [done|].
    cbn [flat_map]. unfold blen in *. rewrite app_length, frame_len.
    change (volume (m :: w)) with (blen m + volume w)%N. unfold blen at 1. cbn [length]. lia.
Qed.
Print Assumptions C94_all_accounted.

(** Counters never fall, however large they are. *)
Theorem C94_never_fall : forall ls es es' p,
  (gauge (f_sent (f_run ls es)) p <= gauge (f_sent (f_run ls (es ++ es'))) p)%N
  /\ (gauge (f_recv (f_run ls es)) p <= gauge (f_recv (f_run ls (es ++ es'))) p)%N.
Proof. exact never_falls. Qed.
Print Assumptions C94_never_fall.

(** Past 2^53 bytes a counter may stand still: any number of messages of one byte are sent, and it
    shows none of them. *)
Theorem C94_counters_exact_refuted : forall n, exists ls es,
  length ls = 1 /\ ls !! 0 = Some (0%N, 1%N, None)
  /\ let ms := sends (seen None 0 es).2 in
     Forall (fun m => (blen m <= size_limit)%N) ms /\ passed (seen None 0 es).2 = stream_of ms
     /\ volume ms = (2 ^ 53 + N.of_nat n)%N /\ gauge (f_sent (f_run ls es)) 0 = (2 ^ 53)%N.
Proof.
  intros n. destruct (stuck n) as (es & ms & Hs & Hp & Hf & Hv & Hg). exists lone, es.
  split; [done|]. split; [done|]. cbv zeta. rewrite Hs. split; [done|]. split; [|done].
  rewrite Hp. symmetry. apply stream_frames. eapply Forall_impl; [exact Hf|]. intros m Hm. cbv beta in *.
  change size_limit with 536870911%N in Hm. change (2 ^ 32)%N with 4294967296%N. lia.
Qed.
Print Assumptions C94_counters_exact_refuted.

(** Two processes and three connections; on the second one a message is cut off midway. *)
Definition kx_lines : list (N * N * option nat) := [(0%N, 1%N, Some 2); (0%N, 1%N, None); (1%N, 0%N, None)].
Definition kx_run : list (nat * event) :=
  [(0, ESend [1; 2; 3]%N); (2, ESend []); (0, ETake); (1, ESend [7; 7]%N); (1, ETake); (0, EWrite 5); (2, ETake); (1, EWrite 5);
   (0, EWrite 9); (2, EWrite 4); (0, EFlushed); (0, EReadSome 4); (0, EGrant); (0, EReadSome 3); (0, EPush);
   (2, EFlushed); (2, EReadSome 9); (2, EGrant); (2, EPush); (1, EPass 9); (1, EReadSome 4); (1, EGrant); (1, EReadSome 9); (0, ERecv)].
Example C94_nonvacuous :
  gauge (f_sent (f_run kx_lines kx_run)) 0 = 3%N /\ gauge (f_recv (f_run kx_lines kx_run)) 1 = 3%N
  /\ gauge (f_sent (f_run kx_lines kx_run)) 1 = 0%N
  /\ sends (seen None 1 kx_run).2 = [[7; 7]]%N /\ reads (seen None 1 kx_run).2 = [0; 0; 0; 2; 7]%N
  /\ recvs (seen (Some 2) 0 kx_run).2 = [[1; 2; 3]]%N
  /\ at_rest (seen (Some 2) 0 kx_run).1 /\ at_rest (seen None 2 kx_run).1.
Proof. unfold at_rest. split_and!; by vm_compute. Qed.
(** It is completed. *)
Definition kx_done : list (nat * event) := kx_run ++ [(1, EWrite 9); (1, EFlushed); (1, EReadSome 9); (1, EPush)].
Example C94_all_accounted_nonvacuous :
  (forall i x, kx_lines !! i = Some x -> at_rest (seen x.2 i kx_done).1)
  /\ gauge (f_sent (f_run kx_lines kx_done)) 0 = 5%N /\ gauge (f_recv (f_run kx_lines kx_done)) 1 = 5%N
  /\ sum_lines kx_lines (to_p 1) (fun i => match kx_lines !! i with Some x => volume (sends (seen x.2 i kx_done).2) | None => 0%N end) = 5%N.
Proof.
  split; [|split_and!; by vm_compute]. intros i x Hx. unfold at_rest.
  destruct i as [|[|[|i]]]; cbn in Hx; try (injection Hx as <-; split_and!; by vm_compute). discriminate Hx.
Qed.
