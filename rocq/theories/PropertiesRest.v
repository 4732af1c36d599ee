(** Property theorems: a network that is left alone settles. They complement
    PropertiesSettle.v (what a settled network knows and delivers) by how it gets there.

    [calm] events: a task performs its next action (sends succeed), a broker receives the
    next frame of a link; [tidy] events are these and the start of a round of the periodic
    synchronisation (tasks/broker/sync.rs 129-145). Nobody connects, publishes or fails.
    The other hypotheses are those of PropertiesSettle.v. *)
From stdpp Require Import gmap fin_maps list countable.
From Coq Require Import NArith Lia.
From Verif Require Import IdModel RelMapModel VMapModel ConnModel ConnSpec ConnProofs3 TopicModel MsgModel RouteModel
  TaskModel TaskProofs TaskOrder TaskHandles TaskGuarded TaskCheck TaskSync NetModel NetProofs NetOrigin NetComplete NetSynced NetConcurrent NetDelivery NetCheck
  NetSettle NetSettleDir NetSettleAll NetRounds NetRest PropertiesNet PropertiesSettle.

(** * C65: a network left alone comes to rest, and two rounds later it is settled *)
(** Whatever has happened before — links cut off in the middle, tasks half done, frames
    that cannot be decoded — finishing what was begun and reading what was sent comes to an
    end, with all links still in place. *)
Theorem C65_comes_to_rest :
  forall deser dec_users dec_topics valid enc_users enc_topics es,
  let run := n_run deser dec_users dec_topics valid enc_users enc_topics in
  exists es1, Forall calm es1 /\ at_rest deser dec_users dec_topics valid (run (es ++ es1))
    /\ n_links (run (es ++ es1)) = n_links (run es)
    /\ ((forall b, prompt deser dec_users dec_topics valid b (trace (run es) b)) ->
        forall b, prompt deser dec_users dec_topics valid b (trace (run (es ++ es1)) b)).
Proof.
  intros. destruct (comes_to_rest deser dec_users dec_topics valid enc_users enc_topics es) as (es1 & H1 & H2 & H3 & H4 & _).
  exists es1. by split_and!.
Qed.
Print Assumptions C65_comes_to_rest.

(** A round of synchronisation in which every broker of the network takes part can always
    be completed. *)
Theorem C65_round_can_be_completed :
  forall deser dec_users dec_topics valid enc_users enc_topics es,
  let run := n_run deser dec_users dec_topics valid enc_users enc_topics in
  exists r, Forall tidy r /\ at_rest deser dec_users dec_topics valid (run (es ++ r))
    /\ (forall b, is_Some (n_trace (run es) !! b) ->
          exists r1 hh r2, r = r1 ++ NStep b (ESync hh) :: r2 /\ m_tasks (broker_at deser dec_users dec_topics valid (run (es ++ r1)) b) !! hh = None)
    /\ (forall b, is_Some (n_trace (run (es ++ r)) !! b) <-> is_Some (n_trace (run es) !! b))
    /\ ((forall b, prompt deser dec_users dec_topics valid b (trace (run es) b)) ->
        forall b, prompt deser dec_users dec_topics valid b (trace (run (es ++ r)) b)).
Proof. intros. apply round_exists. Qed.
Print Assumptions C65_round_can_be_completed.

(** However the two rounds go: whoever was linked knows of each other what there is to
    know. [takes_part n b]: broker [b] has made a step; [sync_starts es r b]: broker [b]
    starts a round during [r]. *)
Theorem C65_two_rounds_settle :
  forall deser dec_users dec_topics valid enc_users enc_topics es r1 r2,
  faithful_sync deser dec_users dec_topics enc_users enc_topics -> hooks_pass es -> Forall tidy r1 -> Forall tidy r2 ->
  let run := n_run deser dec_users dec_topics valid enc_users enc_topics in
  let starts := sync_starts deser dec_users dec_topics valid enc_users enc_topics in
  let conns n b := m_conns (broker_at deser dec_users dec_topics valid n b) in
  let n' := run (es ++ r1 ++ r2) in
  at_rest deser dec_users dec_topics valid (run es) ->
  at_rest deser dec_users dec_topics valid (run (es ++ r1)) ->
  at_rest deser dec_users dec_topics valid n' ->
  (forall b, takes_part (run es) b -> starts es r1 b) ->
  (forall b, takes_part (run (es ++ r1)) b -> starts (es ++ r1) r2 b) ->
  fine deser dec_users dec_topics valid n' ->
  (forall b, (c_get_partial_user_sync (conns n' b)).2 = None /\ (c_get_partial_topic_sync (conns n' b)).2 = None)
  /\ forall a b, joined deser dec_users dec_topics valid (run es) a b ->
     joined deser dec_users dec_topics valid n' a b
     /\ (forall t, In b (c_get_interested_by_topic (conns n' a) [t] false).1 <-> exists v, subscribed_at deser dec_users dec_topics valid n' b v t)
     /\ (forall v, admitted_once n' v -> (exists c, c_get_user_connection (conns n' b) v = Some c) ->
           c_get_broker_identifier_of_user (conns n' a) v = Some b).
Proof.
  intros deser dec_users dec_topics valid enc_users enc_topics es r1 r2 Hc Hh Ht1 Ht2 run starts conns n' Hr0 Hr1 Hr2 Hs1 Hs2 Hf.
  destruct (two_rounds deser dec_users dec_topics valid enc_users enc_topics Hc es r1 r2 Ht1 Ht2 Hr0 Hr1 Hr2 Hs1 Hs2) as (Hd & Hj & _).
  assert (Hh' : hooks_pass (es ++ r1 ++ r2)).
  { destruct Hh as [Hh1 Hh2]. assert (Htt : Forall tidy (r1 ++ r2)) by (by apply Forall_app). rewrite List.Forall_forall in Htt. split.
    - intros a c hk Hin. apply in_app_iff in Hin as [Hin|Hin]; [by eapply Hh1|]. specialize (Htt _ Hin). cbn in Htt. subst hk. apply no_hook_passes.
    - intros b h raw hk Hin. apply in_app_iff in Hin as [Hin|Hin]; [by eapply Hh2|]. by specialize (Htt _ Hin). }
  split; [exact Hd|]. intros a b Hab. pose proof (Hj a b Hab) as Hab'. split; [done|]. split.
  - intros t. apply (C64_topics_settle _ _ _ _ _ _ (es ++ r1 ++ r2) a b t Hc Hh' Hf Hr2 Hab'). apply Hd.
  - intros v Hone Hcon. refine (C64_directory_settles _ _ _ _ _ _ (es ++ r1 ++ r2) a b v Hc Hh' Hf Hr2 Hab' Hone _ Hcon). apply Hd.
Qed.
Print Assumptions C65_two_rounds_settle.

(** The second round disconnects nobody and changes nobody's subscriptions. *)
Theorem C65_second_round_disconnects_nobody :
  forall deser dec_users dec_topics valid enc_users enc_topics es r1 r2,
  faithful_sync deser dec_users dec_topics enc_users enc_topics -> Forall tidy r1 -> Forall tidy r2 ->
  let run := n_run deser dec_users dec_topics valid enc_users enc_topics in
  let starts := sync_starts deser dec_users dec_topics valid enc_users enc_topics in
  let conns n b := m_conns (broker_at deser dec_users dec_topics valid n b) in
  at_rest deser dec_users dec_topics valid (run es) ->
  at_rest deser dec_users dec_topics valid (run (es ++ r1)) ->
  at_rest deser dec_users dec_topics valid (run (es ++ r1 ++ r2)) ->
  (forall b, takes_part (run es) b -> starts es r1 b) ->
  (forall b, takes_part (run (es ++ r1)) b -> starts (es ++ r1) r2 b) ->
  forall b u t,
    c_get_user_connection (conns (run (es ++ r1 ++ r2)) b) u = c_get_user_connection (conns (run (es ++ r1)) b) u
    /\ (subscribed_at deser dec_users dec_topics valid (run (es ++ r1 ++ r2)) b u t <-> subscribed_at deser dec_users dec_topics valid (run (es ++ r1)) b u t)
    /\ c_get_broker_identifier_of_user (conns (run (es ++ r1 ++ r2)) b) u = c_get_broker_identifier_of_user (conns (run (es ++ r1)) b) u.
Proof.
  intros deser dec_users dec_topics valid enc_users enc_topics es r1 r2 Hc Ht1 Ht2 run starts conns Hr0 Hr1 Hr2 Hs1 Hs2 b u t.
  destruct (two_rounds deser dec_users dec_topics valid enc_users enc_topics Hc es r1 r2 Ht1 Ht2 Hr0 Hr1 Hr2 Hs1 Hs2) as (_ & _ & Hk).
  destruct (Hk b) as (K1 & K2 & K3). fold (run (es ++ r1 ++ r2)) (run (es ++ r1)) in K1, K2, K3. unfold conns. split_and!.
  - unfold c_get_user_connection. by rewrite K1.
  - unfold subscribed_at. unfold c_get_interested_by_topic. cbn [snd]. by rewrite K2.
  - unfold c_get_broker_identifier_of_user. by rewrite K3.
Qed.
Print Assumptions C65_second_round_disconnects_nobody.

(** So every history can be continued, without anybody connecting, publishing or failing,
    until nothing is under way and nothing remains to be announced. *)
Theorem C65_can_always_settle :
  forall deser dec_users dec_topics valid enc_users enc_topics es,
  faithful_sync deser dec_users dec_topics enc_users enc_topics ->
  let run := n_run deser dec_users dec_topics valid enc_users enc_topics in
  exists r, Forall tidy r /\ at_rest deser dec_users dec_topics valid (run (es ++ r))
    /\ (forall b, (c_get_partial_user_sync (m_conns (broker_at deser dec_users dec_topics valid (run (es ++ r)) b))).2 = None
               /\ (c_get_partial_topic_sync (m_conns (broker_at deser dec_users dec_topics valid (run (es ++ r)) b))).2 = None)
    /\ ((forall b, prompt deser dec_users dec_topics valid b (trace (run es) b)) ->
        forall b, prompt deser dec_users dec_topics valid b (trace (run (es ++ r)) b)).
Proof.
  intros deser dec_users dec_topics valid enc_users enc_topics es Hc run.
  destruct (comes_to_rest deser dec_users dec_topics valid enc_users enc_topics es) as (e0 & T0 & R0 & _ & P0 & _).
  destruct (round_exists deser dec_users dec_topics valid enc_users enc_topics (es ++ e0)) as (r1 & T1 & R1 & S1 & _ & P1).
  destruct (round_exists deser dec_users dec_topics valid enc_users enc_topics ((es ++ e0) ++ r1)) as (r2 & T2 & R2 & S2 & _ & P2).
  rewrite <- (app_assoc (es ++ e0)) in R2.
  destruct (two_rounds deser dec_users dec_topics valid enc_users enc_topics Hc (es ++ e0) r1 r2 T1 T2 R0 R1 R2 S1 S2) as (Hd & _).
  rewrite <- app_assoc in R2, Hd. exists (e0 ++ r1 ++ r2). split; [|split; [done|split; [exact Hd|]]].
  - apply Forall_app. split; [|by apply Forall_app]. eapply List.Forall_impl; [exact calm_tidy|exact T0].
  - intros Hp. pose proof (P2 (P1 (P0 Hp))) as Hp2. rewrite <- !app_assoc in Hp2. exact Hp2.
Qed.
Print Assumptions C65_can_always_settle.

(** ** One round is not enough *)
(** User 2, connected to B, connects to A as well (on topic 5); B removes it before it hears
    of that. B's removal then is as new as A's claim, and B has the greater identifier. *)
Definition rx_split : list nevent :=
  nx_setup ++ NUser nA 7 8 [2]%N 107 [5]%N :: goes nA 8 10 ++ NStep nB (EKick 9 [2]%N) :: goes nB 9 1
  ++ [NDeliver nA 105 no_hook] ++ goes nB 5 2 ++ [NDeliver nA 105 no_hook] ++ goes nB 5 2.
(** Both brokers synchronise, A first; A learns of the removal afterwards and disconnects
    the user, which changes what A's users are subscribed to. *)
Definition rx_round1 : list nevent :=
  NStep nA (ESync 20) :: goes nA 20 10 ++ NStep nB (ESync 20) :: goes nB 20 10
  ++ [NDeliver nB 105 no_hook] ++ goes nA 5 2 ++ [NDeliver nB 105 no_hook] ++ goes nA 5 2.
Definition rx_round2 : list nevent :=
  NStep nA (ESync 21) :: goes nA 21 10 ++ NStep nB (ESync 21) :: goes nB 21 10 ++ [NDeliver nA 105 no_hook] ++ goes nB 5 2.

Lemma rx_parts es b : takes_part (nx_run es) b -> (map_to_list (n_trace (nx_run es))).*1 = [nA; nB] \/ (map_to_list (n_trace (nx_run es))).*1 = [nB; nA] -> b = nA \/ b = nB.
Proof.
  intros [tr Htr] Hl. assert (Hk : b ∈ (map_to_list (n_trace (nx_run es))).*1).
  { apply elem_of_list_fmap. exists (b, tr). split; [done|]. by apply elem_of_map_to_list. }
  destruct Hl as [Hl|Hl]; rewrite Hl in Hk; set_solver.
Qed.
Notation nx_starts := (sync_starts nx_deser nx_dec_users nx_dec_topics nx_valid nx_enc_users nx_enc_topics).
Lemma rx_starts1 b : takes_part (nx_run rx_split) b -> nx_starts rx_split rx_round1 b.
Proof.
  intros Hb. apply rx_parts in Hb as [->| ->]; [| |vm_compute; tauto].
  - exists [], 20%N. eexists. split; [reflexivity|]. vm_compute. reflexivity.
  - exists (NStep nA (ESync 20) :: goes nA 20 10), 20%N. eexists. split; [reflexivity|]. vm_compute. reflexivity.
Qed.
Lemma rx_starts2 b : takes_part (nx_run (rx_split ++ rx_round1)) b -> nx_starts (rx_split ++ rx_round1) rx_round2 b.
Proof.
  intros Hb. apply rx_parts in Hb as [->| ->]; [| |vm_compute; tauto].
  - exists [], 21%N. eexists. split; [reflexivity|]. vm_compute. reflexivity.
  - exists (NStep nA (ESync 21) :: goes nA 21 10), 21%N. eexists. split; [reflexivity|]. vm_compute. reflexivity.
Qed.
Lemma rx_tidy1 : Forall tidy rx_round1.
Proof. unfold rx_round1. vm_compute. repeat constructor. Qed.
Lemma rx_tidy2 : Forall tidy rx_round2.
Proof. unfold rx_round2. vm_compute. repeat constructor. Qed.

Theorem C65_one_round_is_not_enough :
  exists es r,
    faithful_sync nx_deser nx_dec_users nx_dec_topics nx_enc_users nx_enc_topics /\ hooks_pass es /\ Forall tidy r
    /\ fine nx_deser nx_dec_users nx_dec_topics nx_valid (nx_run (es ++ r))
    /\ nx_rest (nx_run es) /\ nx_rest (nx_run (es ++ r))
    /\ (forall b, takes_part (nx_run es) b -> nx_starts es r b)
    /\ joined nx_deser nx_dec_users nx_dec_topics nx_valid (nx_run (es ++ r)) nB nA
    /\ In nA (c_get_interested_by_topic (m_conns (nx_at (nx_run (es ++ r)) nB)) [5]%N false).1
    /\ ~ exists v, subscribed_at nx_deser nx_dec_users nx_dec_topics nx_valid (nx_run (es ++ r)) nA v 5.
Proof.
  exists rx_split, rx_round1. split; [apply nx_faithful|]. split; [apply plain_pass; unfold plain_b; vm_compute; repeat constructor|].
  split; [apply rx_tidy1|]. split; [apply fine_check; vm_compute; reflexivity|].
  split; [apply rest_check; vm_compute; reflexivity|]. split; [apply rest_check; vm_compute; reflexivity|].
  split; [apply rx_starts1|]. split; [|split; [vm_compute; left; reflexivity|]].
  - exists 105%N, 105%N, 5%N, 5%N. eexists. split; [vm_compute; reflexivity|]. split; [vm_compute; reflexivity|].
    split; [vm_compute; reflexivity|]. split; [vm_compute; reflexivity|]. split; [vm_compute; reflexivity|reflexivity].
  - intros [v Hv]. unfold subscribed_at in Hv. vm_compute in Hv. exact Hv.
Qed.
Print Assumptions C65_one_round_is_not_enough.

Example C65_example :
  faithful_sync nx_deser nx_dec_users nx_dec_topics nx_enc_users nx_enc_topics /\ hooks_pass rx_split /\ Forall tidy rx_round1 /\ Forall tidy rx_round2
  /\ nx_rest (nx_run rx_split) /\ nx_rest (nx_run (rx_split ++ rx_round1)) /\ nx_rest (nx_run (rx_split ++ rx_round1 ++ rx_round2))
  /\ (forall b, takes_part (nx_run rx_split) b -> nx_starts rx_split rx_round1 b)
  /\ (forall b, takes_part (nx_run (rx_split ++ rx_round1)) b -> nx_starts (rx_split ++ rx_round1) rx_round2 b)
  /\ fine nx_deser nx_dec_users nx_dec_topics nx_valid (nx_run (rx_split ++ rx_round1 ++ rx_round2))
  /\ joined nx_deser nx_dec_users nx_dec_topics nx_valid (nx_run rx_split) nB nA
  /\ In nA (c_get_interested_by_topic (m_conns (nx_at (nx_run (rx_split ++ rx_round1 ++ rx_round2)) nB)) [7]%N false).1
  /\ (exists c, c_get_user_connection (m_conns (nx_at (nx_run (rx_split ++ rx_round1 ++ rx_round2)) nA)) [1]%N = Some c)
  /\ admitted_once (nx_run (rx_split ++ rx_round1 ++ rx_round2)) [1]%N.
Proof.
  split; [apply nx_faithful|]. split; [apply plain_pass; unfold plain_b; vm_compute; repeat constructor|].
  split; [apply rx_tidy1|]. split; [apply rx_tidy2|].
  split; [apply rest_check; vm_compute; reflexivity|]. split; [apply rest_check; vm_compute; reflexivity|]. split; [apply rest_check; vm_compute; reflexivity|].
  split; [apply rx_starts1|]. split; [apply rx_starts2|]. split; [apply fine_check; vm_compute; reflexivity|]. split.
  - exists 105%N, 105%N, 5%N, 5%N. eexists. split; [vm_compute; reflexivity|]. split; [vm_compute; reflexivity|].
    split; [vm_compute; reflexivity|]. split; [vm_compute; reflexivity|]. split; [vm_compute; reflexivity|reflexivity].
  - split; [vm_compute; left; reflexivity|]. split; [eexists; vm_compute; reflexivity|]. apply once_check. vm_compute. lia.
Qed.
