(** Properties of synchronisation between brokers: C18, C19 (topics), C20-C23 (users). *)
From stdpp Require Import gmap fin_maps list.
From Coq Require Import NArith Lia.
From Verif Require Import IdModel IdProofs VMapModel VMapSpec VMapProofs ConnModel ConnSpec ConnProofs ConnProofs2
  SyncSpec TopicSyncProofs SyncModel DirSyncProofs DirSeqProofs.

Definition sy_lo : bid := Bid [1]%N [1]%N.
Definition sy_mid : bid := Bid [2]%N [2]%N.
Definition sy_hi : bid := Bid [3]%N [3]%N.
Definition sy_u : ukey := [7;7]%N.

(** C18. A broker links to the peer ([CAddBroker b c h] at the receiver) and then handles,
    in whatever order, with whatever repetition, and interleaved with anything else, a full
    topic sync and all later partial ones (and possibly older ones): its view is exactly
    what the peer advertises. *)
Theorem C18_topic_sync_converges :
  forall a os1 os2 r rs0 b c h rs t,
    (topic_rounds (os1 ++ os2) < 18446744073709551616)%N ->
    (forall o, In o rs -> ~ relinks b o) ->
    (forall m, In (CApplyTopicSync b m) rs -> topic_sent a (os1 ++ os2) m) ->
    (forall m, c_get_full_topic_sync (c_run a os1) = Some m \/ In m (topic_deltas (c_run a os1) os2) ->
       In (CApplyTopicSync b m) rs) ->
    In b (c_get_interested_by_topic (c_run r (rs0 ++ CAddBroker b c h :: rs)) [t] false).1
    <-> advertised a (os1 ++ os2) t.
Proof. exact topic_sync_converges. Qed.
Print Assumptions C18_topic_sync_converges.

(** The peer gains topics 1 and 2, is copied, drops 2, gains 3 and regains 2; the two
    deltas arrive before the full copy, newest first, and one of them twice. *)
Definition ex18_os1 : list conn_op := [CAddUser sy_u 1 [1;2] 1; CPartialTopicSync]%N.
Definition ex18_os2 : list conn_op :=
  [CUnsubscribeUser sy_u [2]; CPartialTopicSync; CSubscribeUser sy_u [2;3]; CPartialTopicSync]%N.
Definition ex18_full : topic_map := topic_sync (c_run sy_lo ex18_os1).
Definition ex18_d (k : nat) : topic_map := nth k (topic_deltas (c_run sy_lo ex18_os1) ex18_os2) (vm_new 0%N).
Definition ex18_rs : list conn_op :=
  map (CApplyTopicSync sy_lo) [ex18_d 1; ex18_d 0; ex18_full; ex18_d 1].

Example C18_example :
  (topic_rounds (ex18_os1 ++ ex18_os2) < 18446744073709551616)%N
  /\ (forall o, In o ex18_rs -> ~ relinks sy_lo o)
  /\ (forall m, In (CApplyTopicSync sy_lo m) ex18_rs -> topic_sent sy_lo (ex18_os1 ++ ex18_os2) m)
  /\ (forall m, c_get_full_topic_sync (c_run sy_lo ex18_os1) = Some m \/ In m (topic_deltas (c_run sy_lo ex18_os1) ex18_os2) ->
       In (CApplyTopicSync sy_lo m) ex18_rs)
  /\ advertised sy_lo (ex18_os1 ++ ex18_os2) 2%N
  /\ vm_get (ex18_d 0) 2%N = Some Unsubscribed.
Proof.
  assert (Hlen : length (topic_deltas (c_run sy_lo ex18_os1) ex18_os2) = 2) by (vm_compute; reflexivity).
  assert (Hin : forall m, In (CApplyTopicSync sy_lo m) ex18_rs <-> In m [ex18_d 1; ex18_d 0; ex18_full; ex18_d 1]).
  { intros m. unfold ex18_rs. rewrite in_map_iff. split; [|eauto]. intros (m' & [= ->] & ?). done. }
  assert (Hfull : c_get_full_topic_sync (c_run sy_lo ex18_os1) = Some ex18_full).
  { unfold c_get_full_topic_sync, ex18_full. case_decide as He; [|reflexivity].
    apply (f_equal (lookup 1%N)) in He. vm_compute in He. discriminate He. }
  assert (Hd : forall k, k < 2 -> In (ex18_d k) (topic_deltas (c_run sy_lo ex18_os1) ex18_os2)).
  { intros k Hk. apply nth_In. by rewrite Hlen. }
  assert (Hd' : forall m, In m (topic_deltas (c_run sy_lo ex18_os1) ex18_os2) -> m = ex18_d 0 \/ m = ex18_d 1).
  { intros m Hm. apply (In_nth _ _ (vm_new 0%N)) in Hm as (k & Hk & <-). rewrite Hlen in Hk.
    destruct k as [|[|k]]; [exact (or_introl eq_refl)|exact (or_intror eq_refl)|lia]. }
  assert (Hdelta : forall k, k < 2 -> topic_sent sy_lo (ex18_os1 ++ ex18_os2) (ex18_d k)).
  { intros k Hk. left. rewrite topic_deltas_run, in_app_iff. right. exact (Hd k Hk). }
  split_and!.
  - vm_compute. reflexivity.
  - intros o Ho Hr. unfold ex18_rs in Ho. apply in_map_iff in Ho as (m & <- & _). exact Hr.
  - intros m Hm. apply Hin in Hm as [<-|[<-|[<-|[<-|[]]]]]; try (apply Hdelta; lia).
    right. exists ex18_os1, ex18_os2. split; [reflexivity|exact Hfull].
  - intros m [Hm|Hm]; apply Hin.
    + rewrite Hfull in Hm. injection Hm as <-. right; right; left; reflexivity.
    + apply Hd' in Hm as [-> | ->]; [right; left; reflexivity|left; reflexivity].
  - vm_compute. reflexivity.
  - vm_compute. reflexivity.
Qed.

(** C19. Right after a partial topic sync the advertised topics are exactly those with a
    subscriber; nothing is sent iff that was already so; and a partial sync mentions
    exactly the topics whose status changed, with the new status. *)
Theorem C19_advertisements_exact :
  forall i os,
    (topic_rounds os + 1 < 18446744073709551616)%N ->
    (forall t, advertised i (os ++ [CPartialTopicSync]) t <-> has_subscriber i os t)
    /\ ((c_get_partial_topic_sync (c_run i os)).2 = None <->
          forall t, has_subscriber i os t <-> advertised i os t)
    /\ (forall d t, (c_get_partial_topic_sync (c_run i os)).2 = Some d ->
          (vm_get d t = Some Subscribed <-> has_subscriber i os t /\ ~ advertised i os t)
          /\ (vm_get d t = Some Unsubscribed <-> ~ has_subscriber i os t /\ advertised i os t)
          /\ (is_Some (entries d !! t) <-> ~ (has_subscriber i os t <-> advertised i os t))).
Proof.
  intros i os Hn. split_and!.
  - intros t. by apply advertised_exact.
  - by apply partial_topic_none.
  - intros d t Hd. split_and!.
    + by apply partial_topic_contents.
    + by apply partial_topic_contents_un.
    + by apply partial_topic_no_other.
Qed.
Print Assumptions C19_advertisements_exact.

Example C19_example :
  let os := ex18_os1 ++ [CUnsubscribeUser sy_u [2]; CSubscribeUser sy_u [3]]%N in
  (topic_rounds os + 1 < 18446744073709551616)%N
  /\ exists d, (c_get_partial_topic_sync (c_run sy_lo os)).2 = Some d
     /\ vm_get d 1%N = None /\ vm_get d 2%N = Some Unsubscribed /\ vm_get d 3%N = Some Subscribed
     /\ (c_get_partial_topic_sync (c_run sy_lo ex18_os1)).2 = None.
Proof. vm_compute. split; [done|]. eexists. done. Qed.

(** C20. As stated it is false. (a) Three brokers, only connects, FIFO links: a user that
    connects to the two lower ones at the same time is listed by the highest one at the
    wrong broker for good, because ties are decided by comparing the SENDER of the message
    with the receiver instead of the two claimants. *)
Inductive three := N1 | N2 | N3.
Global Instance three_eq_dec : EqDecision three.
Proof. solve_decision. Defined.
Definition three_id (i : three) : bid := match i with N1 => sy_lo | N2 => sy_mid | N3 => sy_hi end.

Definition ex20_tie : list (un_op three) :=
  [ULocal N1 (CAddUser sy_u 1 [] 1); ULocal N2 (CAddUser sy_u 2 [] 2); UPartial N1; UPartial N2; UPartial N3;
   UDeliver N1 N2 0; UDeliver N1 N3 0; UDeliver N2 N1 0; UDeliver N2 N3 0]%N.

Theorem C20_three_brokers_disagree_refuted :
  exists os : list (un_op three), exists u,
    Forall fifo_event os
    /\ (forall i o, In (ULocal i o) os -> exists u c ts h, o = CAddUser u c ts h)
    /\ let s := un_run (fun i => c_new (three_id i)) os in
       exchanged s
       /\ c_get_broker_identifier_of_user (un_conns s N2) u = Some (three_id N2)
       /\ c_get_user_connection (un_conns s N2) u <> None
       /\ c_get_user_connection (un_conns s N1) u = None
       /\ c_get_broker_identifier_of_user (un_conns s N3) u = Some (three_id N1).
Proof.
  exists ex20_tie, sy_u. split; [|split].
  - repeat constructor.
  - intros i o Ho. destruct Ho as [Ho|[Ho|Ho]]; [injection Ho as <- <-; eauto 10|injection Ho as <- <-; eauto 10|].
    repeat (destruct Ho as [Ho|Ho]; [discriminate Ho|]). destruct Ho.
  - cbv zeta. split.
    { split; [intros []; vm_compute; done|intros [] []; vm_compute; done]. }
    split_and!; vm_compute; done.
Qed.
Print Assumptions C20_three_brokers_disagree_refuted.

(** (b) Two brokers, FIFO links, with disconnects: deletions are forgotten by the broker
    that made them, so versions restart at 1 and overlap with older ones. In the end one
    broker lists the user at the other, where it is not connected. *)
Definition two_id (x : bool) : bid := if x then sy_hi else sy_lo.
Definition ex20_del : list (un_op bool) :=
  [ULocal false (CAddUser sy_u 1 [] 1); UPartial false; UDeliver false true 0;
   ULocal false (CRemoveUser sy_u); UPartial false;
   ULocal false (CAddUser sy_u 2 [] 2); UPartial false;
   ULocal true (CAddUser sy_u 3 [] 3); UPartial true;
   ULocal true (CRemoveUser sy_u); UPartial true;
   UDeliver false true 0; UDeliver false true 0; UDeliver true false 0; UDeliver true false 0]%N.

Theorem C20_disconnects_disagree_refuted :
  exists os : list (un_op bool), exists u,
    Forall fifo_event os
    /\ let s := un_run (fun x => c_new (two_id x)) os in
       exchanged s
       /\ c_get_broker_identifier_of_user (un_conns s false) u = None
       /\ c_get_user_connection (un_conns s false) u = None
       /\ c_get_broker_identifier_of_user (un_conns s true) u = Some (two_id false).
Proof.
  exists ex20_del, sy_u. split; [repeat constructor|]. cbv zeta. split.
  { split; [intros []; vm_compute; done|intros [] []; vm_compute; done]. }
  split_and!; vm_compute; done.
Qed.
Print Assumptions C20_disconnects_disagree_refuted.

(** (c) A full copy taken while a change is unsent: the next change of the same user goes
    out under the same version, and a receiver with a greater identity ignores it. *)
Definition ex20_full : list (un_op bool) :=
  [ULocal false (CAddUser sy_u 1 [] 1); UFull false true; UDeliver false true 0;
   ULocal false (CRemoveUser sy_u); UPartial false; UDeliver false true 0]%N.

Theorem C20_full_sync_stale_refuted :
  exists os : list (un_op bool), exists u,
    (forall i j k, In (UDeliver i j k) os -> k = 0)
    /\ let s := un_run (fun x => c_new (two_id x)) os in
       exchanged s
       /\ c_get_user_connection (un_conns s false) u = None
       /\ c_get_broker_identifier_of_user (un_conns s false) u = None
       /\ c_get_broker_identifier_of_user (un_conns s true) u = Some (two_id false).
Proof.
  exists ex20_full, sy_u. split.
  { intros i j k Ho. repeat (destruct Ho as [Ho|Ho]; [try discriminate Ho; by injection Ho as _ _ <-|]). destruct Ho. }
  cbv zeta. split.
  { split; [intros []; vm_compute; done|intros [] []; vm_compute; done]. }
  split_and!; vm_compute; done.
Qed.
Print Assumptions C20_full_sync_stale_refuted.

(** C20 under the discipline that excludes these races: any number of brokers, FIFO
    links, any interleaving of different users; each user's listing is changed only at a
    broker with no other broker's change of that user still under way. *)
Theorem C20_sequential_agreement_partial :
  forall (I : Type) (HI : EqDecision I) (ident : I -> bid) os u,
    (forall i j, ident i = ident j -> i = j) ->
    Forall fifo_event os -> one_writer_at_a_time (fun i => c_new (ident i)) os ->
    (N.of_nat (length os) < 18446744073709551616)%N ->
    let s := un_run (fun i => c_new (ident i)) os in
    settled s u ->
    (forall i j, c_get_broker_identifier_of_user (un_conns s i) u = c_get_broker_identifier_of_user (un_conns s j) u)
    /\ (forall i c, c_get_user_connection (un_conns s i) u = Some c ->
          forall j, c_get_broker_identifier_of_user (un_conns s j) u = Some (ident i)
                    /\ (j <> i -> c_get_user_connection (un_conns s j) u = None)).
Proof.
  intros I HI ident os u Hinj H1 H2 H3 s Hs. split.
  - intros i j. by eapply seq_agree.
  - intros i c Hc j. by eapply (seq_connected ident Hinj os u i c).
Qed.
Print Assumptions C20_sequential_agreement_partial.

(** A user moves from the first to the second of three brokers, leaves and comes back. *)
Definition ex20_seq : list (un_op three) :=
  [ULocal N1 (CAddUser sy_u 1 [] 1); UPartial N1; UDeliver N1 N2 0; UDeliver N1 N3 0;
   ULocal N2 (CAddUser sy_u 2 [] 2); UPartial N2; ULocal N2 (CRemoveUser sy_u); UPartial N2;
   UDeliver N2 N1 0; ULocal N2 (CAddUser sy_u 3 [] 3); UPartial N2;
   UDeliver N2 N1 0; UDeliver N2 N1 0; UDeliver N2 N3 0; UDeliver N2 N3 0; UDeliver N2 N3 0]%N.

Example C20_example :
  Forall fifo_event ex20_seq
  /\ one_writer_at_a_time (fun i => c_new (three_id i)) ex20_seq
  /\ (forall i j, three_id i = three_id j -> i = j)
  /\ let s := un_run (fun i => c_new (three_id i)) ex20_seq in
     settled s sy_u /\ c_get_user_connection (un_conns s N2) sy_u = Some 3%N
     /\ c_get_broker_identifier_of_user (un_conns s N3) sy_u = Some sy_mid.
Proof.
  split_and!.
  - repeat constructor.
  - intros o1 o o2 u i Heq Hw.
    do 16 (destruct o1 as [|x o1]; [injection Heq as <- _;
      first [ exfalso; exact Hw
            | destruct Hw as [<- [<- _]] || destruct Hw as [<- <-];
              intros k Hk; split;
              [intros d Hd; destruct k; first [exfalso; apply Hk; reflexivity|vm_compute in Hd; discriminate Hd]
              |intros j m Hm; destruct k, j; first [exfalso; apply Hk; reflexivity|vm_compute in Hm; destruct Hm]] ]
      |injection Heq as <- Heq]).
    destruct o1; discriminate Heq.
  - intros [] []; done.
  - cbv zeta. split; [|split; vm_compute; reflexivity]. split.
    + intros i d Hd. destruct i; vm_compute in Hd; discriminate Hd.
    + intros i j m Hm. destruct i, j; vm_compute in Hm; destruct Hm.
Qed.

(** C21. Two brokers: any histories of connects (and subscriptions, syncs into the void)
    before they link up, then any interleaving of connects, deltas and deliveries, with
    messages reordered and duplicated at will: once everything is exchanged the
    directories agree. *)
Theorem C21_two_brokers_agree :
  forall ident (pre : bool -> list conn_op) os,
    ident true <> ident false ->
    (forall x, Forall pre_op (pre x)) -> Forall connects_only os ->
    (N.of_nat (length (pre true) + length (pre false) + length os) < 18446744073709551616)%N ->
    let s := un_run (fun x => c_run (ident x) (pre x)) os in
    exchanged s ->
    forall u, c_get_broker_identifier_of_user (un_conns s true) u = c_get_broker_identifier_of_user (un_conns s false) u.
Proof. exact two_brokers_agree. Qed.
Print Assumptions C21_two_brokers_agree.

(** C22. In the same setting every user that ever connected is, once everything is
    exchanged, connected to exactly one of the two, and both directories say which. *)
Theorem C22_exactly_one_connection :
  forall ident (pre : bool -> list conn_op) os u,
    ident true <> ident false ->
    (forall x, Forall pre_op (pre x)) -> Forall connects_only os ->
    (N.of_nat (length (pre true) + length (pre false) + length os) < 18446744073709551616)%N ->
    let s := un_run (fun x => c_run (ident x) (pre x)) os in
    exchanged s -> ever_connected pre os u ->
    exists x, (exists c, c_get_user_connection (un_conns s x) u = Some c)
      /\ c_get_user_connection (un_conns s (negb x)) u = None
      /\ forall y, c_get_broker_identifier_of_user (un_conns s y) u = Some (ident x).
Proof. exact two_brokers_one_connection. Qed.
Print Assumptions C22_exactly_one_connection.

(** The user is connected to both before they link up, moves to the lower broker once
    more, and everything is delivered out of order. *)
Definition ex21_pre (x : bool) : list conn_op :=
  if x then [CAddUser sy_u 1 [] 1; CPartialUserSync]%N else [CAddUser sy_u 2 [] 2]%N.
Definition ex21_os : list (un_op bool) :=
  [UDup false true 0; UPartial false; ULocal false (CAddUser sy_u 3 [] 3); UPartial false;
   UDeliver false true 3; UDeliver false true 0; UDeliver true false 0; UDeliver false true 1; UDeliver false true 0]%N.

Example C21_C22_example :
  two_id true <> two_id false
  /\ (forall x, Forall pre_op (ex21_pre x)) /\ Forall connects_only ex21_os
  /\ (N.of_nat (length (ex21_pre true) + length (ex21_pre false) + length ex21_os) < 18446744073709551616)%N
  /\ let s := un_run (fun x => c_run (two_id x) (ex21_pre x)) ex21_os in
     exchanged s /\ ever_connected ex21_pre ex21_os sy_u
     /\ c_get_user_connection (un_conns s false) sy_u = Some 3%N.
Proof.
  split_and!.
  - done.
  - intros []; cbn; repeat apply Forall_cons_2; try apply Forall_nil_2; first [left; exact I|right; reflexivity].
  - repeat constructor.
  - vm_compute. done.
  - cbv zeta. split_and!.
    + split; [intros []; vm_compute; done|intros [] []; vm_compute; done].
    + exists true, 1%N, [], 1%N. left. by left.
    + vm_compute. reflexivity.
Qed.

(** C23. As stated it is false: when a broker with a greater identity sends back exactly
    what it learned from us, the tie rule counts this as news and the user is dropped. *)
Definition ex23_os : list (un_op bool) :=
  [ULocal false (CAddUser sy_u 1 [] 1); UPartial false; UDeliver false true 0; UFull true false]%N.

Theorem C23_no_news_disconnects_refuted :
  exists os : list (un_op bool), exists u,
    let s := un_run (fun x => c_new (two_id x)) os in
    let s' := un_step s (UDeliver true false 0) in
    (forall m u e, In m (un_link s true false) -> entries m !! u = Some e ->
       entries (direct (un_conns s false)) !! u = Some e)
    /\ c_get_user_connection (un_conns s false) u = Some 1%N
    /\ c_get_user_connection (un_conns s' false) u = None
    /\ c_get_user_connection (un_conns s' true) u = None.
Proof.
  exists ex23_os, sy_u. cbv zeta. split_and!; [|vm_compute; reflexivity|vm_compute; reflexivity|vm_compute; reflexivity].
  intros m u e Hm. vm_compute in Hm. destruct Hm as [<-|[]].
  intros He. vm_compute in He |- *. exact He.
Qed.
Print Assumptions C23_no_news_disconnects_refuted.

(** Exactly: a sync without news from a sender that is not greater changes nothing at all;
    from a greater one it drops precisely the connected users it lists. *)
Theorem C23_no_news_exact_partial :
  forall i os m,
    (forall u e, entries m !! u = Some e -> entries (direct (c_run i os)) !! u = Some e) ->
    (bid_gtb (cid m) i = false -> c_apply_user_sync (c_run i os) m = c_run i os)
    /\ (bid_gtb (cid m) i = true -> forall u,
          c_get_user_connection (c_apply_user_sync (c_run i os) m) u =
          if decide (is_Some (entries m !! u)) then None else c_get_user_connection (c_run i os) u).
Proof.
  intros i os m Hsub. split.
  - intros Hg. by apply no_news_untouched.
  - intros Hg u. by apply no_news_kicks.
Qed.
Print Assumptions C23_no_news_exact_partial.

Example C23_example :
  let s := c_run sy_mid [CAddUser sy_u 1 [] 1; CPartialUserSync]%N in
  (forall u e, entries (VMap (entries (direct s)) ∅ sy_lo) !! u = Some e -> entries (direct s) !! u = Some e)
  /\ bid_gtb sy_lo sy_mid = false /\ bid_gtb sy_hi sy_mid = true
  /\ c_get_user_connection s sy_u = Some 1%N.
Proof. cbv zeta. split; [done|]. vm_compute. done. Qed.
