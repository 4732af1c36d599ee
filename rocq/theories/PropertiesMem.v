(** Property C60: the in-memory transport joins two ends. *)
From stdpp Require Import list gmap.
From Coq Require Import NArith Lia.
From Verif Require Import MemModel MemSpec MemProofs.

(** * No pipe is shared *)

(** In every run, no two connectors write into the same pipe, no two acceptors do, and the pipe a
    connector writes into is read by a call of [accept] that returned. *)
Theorem C60_pipes_not_shared (es : list mevent) :
  let s := mrun mem_new es in
  (forall i1 i2 j, m_conns s !! i1 = Some (MConnected j) -> m_conns s !! i2 = Some (MConnected j) -> i1 = i2)
  /\ (forall j1 j2 i, m_accs s !! j1 = Some (MAccepted i) -> m_accs s !! j2 = Some (MAccepted i) -> j1 = j2)
  /\ (forall i j, m_conns s !! i = Some (MConnected j) -> exists i', m_accs s !! j = Some (MAccepted i')).
Proof.
  cbn zeta. pose proof (mrun_inv es) as H. split; [|split].
  - apply (mi_conn_inj _ H).
  - intros j1 j2 i H1 H2. apply (mi_held_inj _ H _ _ _ _ i H1 H2); by right.
  - apply (mi_conn _ H).
Qed.
Print Assumptions C60_pipes_not_shared.

(** * One connector at a time *)

(** If never two connectors wait at the same listener and nobody gives up waiting, the two
    directions belong together: whoever a connector writes to writes to it. *)
Theorem C60_joined_one_at_a_time (es : list mevent) :
  (forall es1 es2, es = es1 ++ es2 -> alone (mrun mem_new es1)) ->
  (forall i, ~ In (MGiveUp i) es) ->
  forall i j, m_conns (mrun mem_new es) !! i = Some (MConnected j) -> m_accs (mrun mem_new es) !! j = Some (MAccepted i).
Proof. intros H1 H2. apply (oi_conn _ (oinv_run es H1 H2)). Qed.
Print Assumptions C60_joined_one_at_a_time.

(** Two connections to one listener and one to another, the third overlapping the second. *)
Definition ex_mem : list mevent :=
  [MBind 0 0; MBind 1 1; MDial 0 0; MTake 0 0; MGive 0; MReceive 0; MDial 1 0; MDial 2 1; MTake 1 2; MTake 0 1; MGive 1; MGive 2; MReceive 2; MReceive 1]%N.
Example C60_joined_example :
  (forall es1 es2, ex_mem = es1 ++ es2 -> alone (mrun mem_new es1)) /\ (forall i, ~ In (MGiveUp i) ex_mem)
  /\ map_to_list (m_conns (mrun mem_new ex_mem)) = [(0%N, MConnected 0); (1%N, MConnected 1); (2%N, MConnected 2)].
Proof.
  split; [|split].
  - intros es1 es2 H.
    assert (es1 = take (length es1) ex_mem) as -> by (rewrite H, take_app; reflexivity).
    assert (length es1 <= 14) as Hl by (apply (f_equal length) in H; rewrite app_length in H; cbn in H; lia).
    generalize dependent (length es1). clear. intros n Hn.
    assert (forall i1 l, m_conns (mrun mem_new (take n ex_mem)) !! i1 = Some (MPending l) -> i1 = if (l =? 1)%N then 2%N else if n <=? 6 then 0%N else 1%N) as Hu.
    { intros i l Hi. apply elem_of_map_to_list in Hi.
      do 15 (destruct n as [|n]; [vm_compute in Hi; repeat (apply elem_of_cons in Hi as [Hi|Hi]; [try discriminate Hi; injection Hi as -> ->; vm_compute; reflexivity|]); by apply elem_of_nil in Hi|]).
      lia. }
    intros i1 i2 l H1 H2. rewrite (Hu _ _ H1), (Hu _ _ H2). reflexivity.
  - intros i H. cbn in H. repeat destruct H as [[=]|H]; exact H.
  - vm_compute. reflexivity.
Qed.

(** * Two connectors at once *)

(** Two connectors that overlap can be crossed: 0 writes to acceptor 1, which answers to 1, and
    the other way round. *)
Theorem C60_crossed_refuted :
  exists es, (forall i, ~ In (MGiveUp i) es) /\
    let s := mrun mem_new es in
    m_conns s !! 0%N = Some (MConnected 1) /\ m_conns s !! 1%N = Some (MConnected 0)
    /\ m_accs s !! 0%N = Some (MAccepted 0) /\ m_accs s !! 1%N = Some (MAccepted 1).
Proof.
  exists [MBind 0 0; MDial 0 0; MDial 1 0; MTake 0 0; MGive 0; MReceive 1; MTake 0 1; MGive 1; MReceive 0]%N. split.
  - intros i H. cbn in H. repeat destruct H as [[=]|H]; exact H.
  - vm_compute. repeat split; reflexivity.
Qed.
Print Assumptions C60_crossed_refuted.

(** One connector that gives up at the wrong moment (a time-out) shifts all later ones: however
    many connections are made afterwards, one after the other, each writes to the acceptor that
    answers to its predecessor. *)
Theorem C60_shifted_for_ever_refuted (n : nat) (k : N) :
  (0 < k <= N.of_nat n)%N ->
  let s := mrun mem_new (lost_one ++ rounds n) in
  m_conns s !! k = Some (MConnected (k - 1)) /\ m_accs s !! (k - 1)%N = Some (MAccepted (k - 1)).
Proof.
  cbn zeta. intros Hk. destruct (shifted_rounds n) as [_ _ _ H4 H5]. split; [by apply H4|]. apply H5. lia.
Qed.
Print Assumptions C60_shifted_for_ever_refuted.
Example C60_shifted_example : m_conns (mrun mem_new (lost_one ++ rounds 3)) !! 3%N = Some (MConnected 2).
Proof. vm_compute. reflexivity. Qed.

(** * Binding *)

(** A connector waiting at a listener that does not accept keeps everybody from binding any
    endpoint: whatever the others do, the table of endpoints stays as it is. *)
Theorem C60_bind_waits_refuted (es : list mevent) :
  (forall j, ~ In (MTake 0 j) es) -> ~ In (MGiveUp 0) es -> ~ In (MClose 0) es ->
  m_ends (mrun mem_new ([MBind 0 0; MDial 0 0]%N ++ es)) = {[0%N := 0%N]}.
Proof.
  intros H1 H2 H3. rewrite mrun_app. apply (bl_ends 0 0).
  assert (blocked 0 0 {[0%N := 0%N]} (mrun mem_new [MBind 0 0; MDial 0 0]%N)) as Hb.
  { constructor; [vm_compute; reflexivity|vm_compute; reflexivity|eexists; split; [vm_compute; reflexivity|split; reflexivity]|].
    intros j k Hj. apply elem_of_map_to_list in Hj. vm_compute in Hj. by apply elem_of_nil in Hj. }
  generalize dependent (mrun mem_new [MBind 0 0; MDial 0 0]%N). induction es as [|e es IH]; intros s Hb; [exact Hb|].
  apply (IH ltac:(intros j Hj; apply (H1 j); by right) ltac:(intros Hj; apply H2; by right) ltac:(intros Hj; apply H3; by right)).
  apply blocked_step; [exact Hb|intros j ->; apply (H1 j); by left|intros ->; apply H2; by left|intros ->; apply H3; by left].
Qed.
Print Assumptions C60_bind_waits_refuted.
Example C60_bind_waits_example :
  m_ends (mrun mem_new [MBind 0 0; MDial 0 0; MBind 1 1; MDial 1 1]%N) = {[0%N := 0%N]}
  /\ map_to_list (m_ends (mrun mem_new [MBind 0 0; MDial 0 0; MTake 0 0; MGive 0; MReceive 0; MBind 1 1]%N)) = [(0%N, 0%N); (1%N, 1%N)].
Proof. split; vm_compute; reflexivity. Qed.
