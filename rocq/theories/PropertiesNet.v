(** Property theorems: a network of any number of brokers (NetModel.v). They hold for every
    decoder, every topic validity predicate and every encoding of sync messages; where a
    theorem needs the decoder to recognise sync messages, or hooks not to turn them into
    something else, it says so ([sync_codec], [hooks_keep_sync]). *)
From stdpp Require Import gmap fin_maps list countable.
From Coq Require Import NArith Lia.
From Verif Require Import IdModel RelMapModel VMapModel ConnModel ConnSpec ConnProofs3 TopicModel MsgModel RouteModel
  TaskModel TaskProofs TaskOrder NetModel NetProofs NetOrigin NetComplete NetSynced NetConcurrent NetDelivery NetCheck.

(** * A concrete network for the examples *)
(** Sync payloads are one number each (any injective encoding would do). *)
Definition is_sub (s : sub_status) : bool := match s with Subscribed => true | Unsubscribed => false end.
Definition of_sub (b : bool) : sub_status := if b then Subscribed else Unsubscribed.
Definition pack_users (m : direct_map) : positive :=
  encode ((fun p : bytes * vval bid => (p.1, (ver p.2, val p.2))) <$> map_to_list (entries m), cid m).
Definition unpack_users (p : positive) : option direct_map :=
  '(l, c) ← decode (A := list (bytes * (N * option bid)) * bid) p;
  Some (VMap (list_to_map ((fun e : bytes * (N * option bid) => (e.1, VVal e.2.1 e.2.2)) <$> l)) ∅ c).
Definition pack_topics (m : topic_map) : positive :=
  encode ((fun p : N * vval sub_status => (p.1, (ver p.2, is_sub <$> val p.2))) <$> map_to_list (entries m), cid m).
Definition unpack_topics (p : positive) : option topic_map :=
  '(l, c) ← decode (A := list (N * (N * option bool)) * N) p;
  Some (VMap (list_to_map ((fun e : N * (N * option bool) => (e.1, VVal e.2.1 (of_sub <$> e.2.2))) <$> l)) ∅ c).
Definition nx_deser (raw : bytes) : option message :=
  match raw with
  | 3 :: r :: body => Some (MDirect [r] body)
  | 4 :: t1 :: t2 :: body => Some (MBroadcast [t1; t2] body)
  | 5 :: ts => Some (MSubscribe ts)
  | 6 :: ts => Some (MUnsubscribe ts)
  | 7 :: p => Some (MUserSync p)
  | 8 :: p => Some (MTopicSync p)
  | _ => None
  end%N.
Definition nx_valid (t : N) : bool := (t <? 100)%N.
Definition nx_enc_users (m : direct_map) : bytes := [7; Npos (pack_users m)]%N.
Definition nx_enc_topics (m : topic_map) : bytes := [8; Npos (pack_topics m)]%N.
Definition nx_dec_users (p : bytes) : option direct_map := match p with [Npos q] => unpack_users q | _ => None end.
Definition nx_dec_topics (p : bytes) : option topic_map := match p with [Npos q] => unpack_topics q | _ => None end.
Notation nx_run := (n_run nx_deser nx_dec_users nx_dec_topics nx_valid nx_enc_users nx_enc_topics).
Notation nx_at := (broker_at nx_deser nx_dec_users nx_dec_topics nx_valid).

Notation nx_from es := (comes_from nx_deser nx_dec_users nx_dec_topics nx_valid (nx_run es)).
Notation nx_rest := (at_rest nx_deser nx_dec_users nx_dec_topics nx_valid).
Notation nx_synced := (synchronised nx_deser nx_dec_users nx_dec_topics nx_valid).

Definition nA : bid := Bid [1]%N [1]%N.
Definition nB : bid := Bid [2]%N [2]%N.
Definition goes (b : bid) (h : N) (k : nat) : list nevent := repeat (NStep b (ERun h true)) k.
(** Users 1 (topic 7) at A, 2 (topic 7) and 3 (topic 9) at B; then A and B are linked and exchange their maps. *)
Definition nx_setup : list nevent :=
  NUser nA 1 2 [1]%N 101 [7]%N :: goes nA 2 6
  ++ NUser nB 1 2 [2]%N 101 [7]%N :: goes nB 2 6
  ++ NUser nB 3 4 [3]%N 103 [9]%N :: goes nB 4 6
  ++ NUp nA 5 6 105 nB 5 6 105 :: goes nA 6 8 ++ goes nB 6 8
  ++ [NDeliver nA 105 no_hook] ++ goes nB 5 2 ++ [NDeliver nA 105 no_hook] ++ goes nB 5 2
  ++ [NDeliver nB 105 no_hook] ++ goes nA 5 2 ++ [NDeliver nB 105 no_hook] ++ goes nA 5 2.

Lemma nx_codec : sync_codec nx_deser nx_enc_users nx_enc_topics.
Proof. split; intros m; eexists; done. Qed.
Example nx_sync_payloads_survive :
  match nx_dec_users [Npos (pack_users (direct (m_conns (nx_at (nx_run nx_setup) nB))))] with
  | Some m => bool_decide (entries m = entries (direct (m_conns (nx_at (nx_run nx_setup) nB))))
  | None => false
  end = true.
Proof. vm_compute. reflexivity. Qed.

Lemma no_hook_keeps : hook_keeps no_hook.
Proof. intros m msg [= ->]. done. Qed.
Definition plain_b (es : list nevent) : Prop := Forall (fun e => match e with NPublish _ _ _ hk | NDeliver _ _ hk => hk = no_hook | _ => True end) es.
Lemma plain_keeps es : plain_b es -> hooks_keep es.
Proof.
  intros Hp. unfold plain_b in Hp. rewrite Forall_forall in Hp.
  split; [intros a c hk Hin|intros b h raw hk Hin]; specialize (Hp _ Hin); cbn in Hp; subst hk; apply no_hook_keeps.
Qed.

(** User 1 at A broadcasts on 7 and 9, then sends a direct message to user 3 at B. *)
Definition nx_bcast : list nevent := goes nA 1 8 ++ [NDeliver nA 105 no_hook] ++ goes nB 5 8.
Definition nx_published : list nevent := nx_setup ++ NPublish nA 1 [4;7;9;42]%N no_hook :: nx_bcast.
Definition nx_dmsg : list nevent := goes nA 1 3 ++ [NDeliver nA 105 no_hook] ++ goes nB 5 3.
Definition nx_direct : list nevent := nx_published ++ NPublish nA 1 [3;3;43]%N no_hook :: nx_dmsg.

(** * C25: no misdelivery anywhere in the network *)
(** Every copy sent to user [u] on connection [c] of broker [b]: the connection was
    authenticated as [u] and as nobody else; the bytes are those of a frame published by a
    user session somewhere; and at some moment after [b] received them, the message (as the
    hook left it) named [u], who was connected to [b], or [u] was subscribed at [b] to one of
    its topics. *)
Theorem C25_network_delivery :
  forall deser dec_users dec_topics valid enc_users enc_topics es b x u c f,
  let n := n_run deser dec_users dec_topics valid enc_users enc_topics in
  sync_codec deser enc_users enc_topics -> hooks_keep_sync es ->
  In x (m_sent (broker_at deser dec_users dec_topics valid (n es) b)) -> s_what x = Emit (inl u) c f ->
  (exists h hh ts, In (NUser b h hh u c ts) es /\ In (EUserAuthed h hh u c ts) (trace (n es) b)
     /\ forall e, In e (trace (n es) b) -> In c (authed_conn e) -> e = EUserAuthed h hh u c ts)
  /\ exists raw, f = FRelay raw
    /\ (exists a h k v cv hk, comes_from deser dec_users dec_topics valid (n es) b x a h k
          /\ loop_of deser dec_users dec_topics valid (n es) a h (OUser v cv)
          /\ In (Rcvd h k raw hk) (m_rcvd (broker_at deser dec_users dec_topics valid (n es) a)) /\ In (NPublish a h raw hk) es)
    /\ exists hk m0 msg es1 es2, deser raw = Some m0 /\ hk m0 = HProcess msg /\ es = es1 ++ es2
         /\ ((exists h', In (NPublish b h' raw hk) es) \/ exists a' c', In (NDeliver a' c' hk) es)
         /\ In (Rcvd (s_task x) (s_frame x) raw hk) (m_rcvd (broker_at deser dec_users dec_topics valid (n es1) b))
         /\ ((exists body, msg = MDirect u body
                /\ exists c1, c_get_user_connection (m_conns (broker_at deser dec_users dec_topics valid (n es1) b)) u = Some c1)
             \/ (exists ts body t, msg = MBroadcast ts body /\ In t ts /\ subscribed_at deser dec_users dec_topics valid (n es1) b u t)).
Proof. intros until n. intros Hc Hh Hin Hw. exact (network_delivery deser dec_users dec_topics valid enc_users enc_topics Hc es b x u c f Hh Hin Hw). Qed.
Print Assumptions C25_network_delivery.

(** With hooks that do not rewrite messages. *)
Theorem C25_network_recipient :
  forall deser dec_users dec_topics valid enc_users enc_topics es b x u c raw m,
  let n := n_run deser dec_users dec_topics valid enc_users enc_topics in
  sync_codec deser enc_users enc_topics -> hooks_keep es ->
  In x (m_sent (broker_at deser dec_users dec_topics valid (n es) b)) -> s_what x = Emit (inl u) c (FRelay raw) ->
  deser raw = Some m ->
  exists es1 es2, es = es1 ++ es2
    /\ (exists hk, In (Rcvd (s_task x) (s_frame x) raw hk) (m_rcvd (broker_at deser dec_users dec_topics valid (n es1) b)))
    /\ ((exists body, m = MDirect u body
           /\ exists c1, c_get_user_connection (m_conns (broker_at deser dec_users dec_topics valid (n es1) b)) u = Some c1)
        \/ (exists ts body t, m = MBroadcast ts body /\ In t ts /\ subscribed_at deser dec_users dec_topics valid (n es1) b u t)).
Proof. intros until n. intros Hc Hh Hin Hw Hd. exact (network_delivery_plain deser dec_users dec_topics valid enc_users enc_topics Hc es b x u c raw m Hh Hin Hw Hd). Qed.
Print Assumptions C25_network_recipient.

Example C25_network_example :
  sync_codec nx_deser nx_enc_users nx_enc_topics /\ hooks_keep nx_direct
  /\ In (Sent 5 3 (Emit (inl [2]%N) 101 (FRelay [4;7;9;42]%N))) (m_sent (nx_at (nx_run nx_direct) nB))
  /\ In (Sent 5 4 (Emit (inl [3]%N) 103 (FRelay [3;3;43]%N))) (m_sent (nx_at (nx_run nx_direct) nB)).
Proof.
  split; [apply nx_codec|]. split; [apply plain_keeps; unfold plain_b; vm_compute; repeat constructor|].
  vm_compute. split; repeat (first [left; reflexivity|right]).
Qed.

(** * C24: order and duplicates across the network *)
Theorem C24_network_no_duplicates :
  forall deser dec_users dec_topics valid enc_users enc_topics es b u j k x y a h i,
  let n := n_run deser dec_users dec_topics valid enc_users enc_topics es in
  let sent := m_sent (broker_at deser dec_users dec_topics valid n b) in
  sync_codec deser enc_users enc_topics -> hooks_keep_sync es -> j < k ->
  sent !! j = Some x -> sent !! k = Some y -> e_to (s_what x) = inl u -> e_to (s_what y) = inl u ->
  comes_from deser dec_users dec_topics valid n b x a h i -> ~ comes_from deser dec_users dec_topics valid n b y a h i.
Proof. intros until sent. intros Hc. exact (no_duplicates deser dec_users dec_topics valid enc_users enc_topics Hc es b u j k x y a h i). Qed.
Print Assumptions C24_network_no_duplicates.

(** Order, for frames of one session ([h] at broker [a]) that reached [b] through the same
    receive loop of [b]: published earlier, delivered earlier. *)
Theorem C24_network_order_same_loop :
  forall deser dec_users dec_topics valid enc_users enc_topics es b c j k x y a h i i',
  let n := n_run deser dec_users dec_topics valid enc_users enc_topics es in
  let sent := m_sent (broker_at deser dec_users dec_topics valid n b) in
  sync_codec deser enc_users enc_topics -> hooks_keep_sync es -> j < k ->
  sent !! j = Some x -> sent !! k = Some y ->
  (exists u, e_to (s_what x) = inl u) -> e_conn (s_what x) = c -> e_conn (s_what y) = c ->
  comes_from deser dec_users dec_topics valid n b x a h i -> comes_from deser dec_users dec_topics valid n b y a h i' ->
  s_task x = s_task y -> i < i'.
Proof. intros until sent. intros Hc. exact (order_same_path deser dec_users dec_topics valid enc_users enc_topics Hc es b c j k x y a h i i'). Qed.
Print Assumptions C24_network_order_same_loop.

(** Order holds if there has only ever been one link from [a] to [b]. *)
Theorem C24_network_order_one_link :
  forall deser dec_users dec_topics valid enc_users enc_topics es b c j k x y a h i i',
  let n := n_run deser dec_users dec_topics valid enc_users enc_topics es in
  let sent := m_sent (broker_at deser dec_users dec_topics valid n b) in
  sync_codec deser enc_users enc_topics -> hooks_keep_sync es -> j < k ->
  sent !! j = Some x -> sent !! k = Some y ->
  (exists u, e_to (s_what x) = inl u) -> e_conn (s_what x) = c -> e_conn (s_what y) = c ->
  comes_from deser dec_users dec_topics valid n b x a h i -> comes_from deser dec_users dec_topics valid n b y a h i' ->
  (forall c1 h1 c2 h2, n_links n !! (a, c1) = Some (b, h1) -> n_links n !! (a, c2) = Some (b, h2) -> c1 = c2) ->
  i < i'.
Proof. intros until sent. intros Hc. exact (order_one_link deser dec_users dec_topics valid enc_users enc_topics Hc es b c j k x y a h i i'). Qed.
Print Assumptions C24_network_order_one_link.

Definition nx_x : sent := Sent 5 3 (Emit (inl [3]%N) 103 (FRelay [4;7;9;42]%N)).
Definition nx_y : sent := Sent 5 4 (Emit (inl [3]%N) 103 (FRelay [3;3;43]%N)).
Example C24_network_example :
  hooks_keep_sync nx_direct
  /\ m_sent (nx_at (nx_run nx_direct) nB) !! 2 = Some nx_x /\ m_sent (nx_at (nx_run nx_direct) nB) !! 4 = Some nx_y
  /\ nx_from nx_direct nB nx_x nA 1 1 /\ nx_from nx_direct nB nx_y nA 1 2
  /\ (forall c1 h1 c2 h2, n_links (nx_run nx_direct) !! (nA, c1) = Some (nB, h1) -> n_links (nx_run nx_direct) !! (nA, c2) = Some (nB, h2) -> c1 = c2).
Proof.
  split; [apply hooks_keep_weaken, plain_keeps; unfold plain_b; vm_compute; repeat constructor|].
  split; [vm_compute; reflexivity|]. split; [vm_compute; reflexivity|].
  split; [apply (from_link _ _ _ _ _ _ _ nA 105 (Sent 1 1 (Emit (inr nB) 105 (FRelay [4;7;9;42]%N)))); vm_compute; reflexivity|].
  split; [apply (from_link _ _ _ _ _ _ _ nA 105 (Sent 1 2 (Emit (inr nB) 105 (FRelay [3;3;43]%N)))); vm_compute; reflexivity|].
  assert (Hl : map_to_list (n_links (nx_run nx_direct)) = [((nA, 105%N), (nB, 5%N)); ((nB, 105%N), (nA, 5%N))]
            \/ map_to_list (n_links (nx_run nx_direct)) = [((nB, 105%N), (nA, 5%N)); ((nA, 105%N), (nB, 5%N))]) by (vm_compute; tauto).
  assert (H1 : forall c h, n_links (nx_run nx_direct) !! (nA, c) = Some (nB, h) -> c = 105%N).
  { intros c h Hc. apply elem_of_map_to_list in Hc.
    destruct Hl as [Hl|Hl]; rewrite Hl in Hc; rewrite !elem_of_cons, elem_of_nil in Hc;
      destruct Hc as [Hc|[Hc|[]]]; try discriminate Hc; injection Hc; intros; assumption. }
  intros c1 h1 c2 h2 Hc1 Hc2. rewrite (H1 _ _ Hc1), (H1 _ _ Hc2). reflexivity.
Qed.

(** In general order is lost when a second link replaces the first: message 1 has been
    received by B over link 105, whose loop has not yet sent it on; a second link (dialled at
    the same time from the other side) comes up, A registers it, message 2 goes over it and
    B's new loop is faster. *)
Definition nx_overtake : list nevent :=
  nx_setup ++ NPublish nA 1 [3;2;1]%N no_hook :: goes nA 1 3 ++ [NDeliver nA 105 no_hook]
  ++ NUp nA 7 8 107 nB 7 8 107 :: goes nA 8 1
  ++ NPublish nA 1 [3;2;2]%N no_hook :: goes nA 1 3 ++ [NDeliver nA 107 no_hook] ++ goes nB 7 3 ++ goes nB 5 3.
Definition nx_first : sent := Sent 7 1 (Emit (inl [2]%N) 101 (FRelay [3;2;2]%N)).
Definition nx_second : sent := Sent 5 3 (Emit (inl [2]%N) 101 (FRelay [3;2;1]%N)).
Theorem C24_network_order_refuted :
  sync_codec nx_deser nx_enc_users nx_enc_topics /\ hooks_keep nx_overtake /\
  exists j k x y c i i',
    let sent := m_sent (nx_at (nx_run nx_overtake) nB) in
    j < k /\ sent !! j = Some x /\ sent !! k = Some y
    /\ e_to (s_what x) = inl [2]%N /\ e_conn (s_what x) = c /\ e_to (s_what y) = inl [2]%N /\ e_conn (s_what y) = c
    /\ nx_from nx_overtake nB x nA 1 i /\ nx_from nx_overtake nB y nA 1 i' /\ i' < i.
Proof.
  split; [apply nx_codec|]. split; [apply plain_keeps; unfold plain_b; vm_compute; repeat constructor|].
  exists 2, 3, nx_first, nx_second, 101%N, 2, 1. cbn zeta. split; [lia|].
  split; [vm_compute; reflexivity|]. split; [vm_compute; reflexivity|]. do 4 (split; [reflexivity|]).
  split; [apply (from_link _ _ _ _ _ _ _ nA 107 (Sent 1 2 (Emit (inr nB) 107 (FRelay [3;2;2]%N)))); vm_compute; reflexivity|].
  split; [apply (from_link _ _ _ _ _ _ _ nA 105 (Sent 1 1 (Emit (inr nB) 105 (FRelay [3;2;1]%N)))); vm_compute; reflexivity|]. lia.
Qed.
Print Assumptions C24_network_order_refuted.

(** * C26: complete delivery in a synchronised network *)
(** A network at rest, synchronised as seen from the publisher's broker; one publication;
    then only deliveries over links and steps of tasks whose sends succeed, until the network
    is at rest again. What each broker sent to each user in between: *)
Theorem C26_broadcast_complete :
  forall deser dec_users dec_topics valid enc_users enc_topics es0 es1 a h u cu k0 raw ts body,
  let n := n_run deser dec_users dec_topics valid enc_users enc_topics es0 in
  let n' := n_run deser dec_users dec_topics valid enc_users enc_topics (es0 ++ NPublish a h raw no_hook :: es1) in
  deser raw = Some (MBroadcast ts body) -> (exists t, In t ts /\ valid t = true) ->
  at_rest deser dec_users dec_topics valid n -> synchronised deser dec_users dec_topics valid n a ->
  m_tasks (broker_at deser dec_users dec_topics valid n a) !! h = Some (Task (OUser u cu) [] true k0) ->
  Forall calm es1 -> at_rest deser dec_users dec_topics valid n' ->
  forall b v,
    ((exists t, In t ts /\ subscribed_at deser dec_users dec_topics valid n b v t) ->
       exists x c, copies deser dec_users dec_topics valid n n' b v = [x]
         /\ c_get_user_connection (m_conns (broker_at deser dec_users dec_topics valid n b)) v = Some c
         /\ s_what x = Emit (inl v) c (FRelay raw))
    /\ (~ (exists t, In t ts /\ subscribed_at deser dec_users dec_topics valid n b v t) ->
       copies deser dec_users dec_topics valid n n' b v = []).
Proof. exact broadcast_complete. Qed.
Print Assumptions C26_broadcast_complete.

Theorem C26_direct_complete :
  forall deser dec_users dec_topics valid enc_users enc_topics es0 es1 a h u cu k0 raw r body,
  let n := n_run deser dec_users dec_topics valid enc_users enc_topics es0 in
  let n' := n_run deser dec_users dec_topics valid enc_users enc_topics (es0 ++ NPublish a h raw no_hook :: es1) in
  deser raw = Some (MDirect r body) ->
  at_rest deser dec_users dec_topics valid n -> synchronised deser dec_users dec_topics valid n a ->
  m_tasks (broker_at deser dec_users dec_topics valid n a) !! h = Some (Task (OUser u cu) [] true k0) ->
  Forall calm es1 -> at_rest deser dec_users dec_topics valid n' ->
  forall b v,
    (forall c, v = r -> c_get_user_connection (m_conns (broker_at deser dec_users dec_topics valid n b)) v = Some c ->
       exists x, copies deser dec_users dec_topics valid n n' b v = [x] /\ s_what x = Emit (inl v) c (FRelay raw))
    /\ (v <> r \/ c_get_user_connection (m_conns (broker_at deser dec_users dec_topics valid n b)) v = None ->
       copies deser dec_users dec_topics valid n n' b v = []).
Proof. exact direct_complete. Qed.
Print Assumptions C26_direct_complete.

(** Coming to rest is always possible, however far things have got. *)
Theorem C26_broadcast_finishes :
  forall deser dec_users dec_topics valid enc_users enc_topics es0 es1 a h u cu k0 raw ts body,
  deser raw = Some (MBroadcast ts body) -> (exists t, In t ts /\ valid t = true) ->
  at_rest deser dec_users dec_topics valid (n_run deser dec_users dec_topics valid enc_users enc_topics es0) ->
  m_tasks (broker_at deser dec_users dec_topics valid (n_run deser dec_users dec_topics valid enc_users enc_topics es0) a) !! h = Some (Task (OUser u cu) [] true k0) ->
  Forall calm es1 ->
  exists es2, Forall calm es2 /\ at_rest deser dec_users dec_topics valid (n_run deser dec_users dec_topics valid enc_users enc_topics (es0 ++ NPublish a h raw no_hook :: es1 ++ es2)).
Proof. exact broadcast_finishes. Qed.
Print Assumptions C26_broadcast_finishes.
Theorem C26_direct_finishes :
  forall deser dec_users dec_topics valid enc_users enc_topics es0 es1 a h u cu k0 raw r body,
  deser raw = Some (MDirect r body) ->
  at_rest deser dec_users dec_topics valid (n_run deser dec_users dec_topics valid enc_users enc_topics es0) ->
  m_tasks (broker_at deser dec_users dec_topics valid (n_run deser dec_users dec_topics valid enc_users enc_topics es0) a) !! h = Some (Task (OUser u cu) [] true k0) ->
  Forall calm es1 ->
  exists es2, Forall calm es2 /\ at_rest deser dec_users dec_topics valid (n_run deser dec_users dec_topics valid enc_users enc_topics (es0 ++ NPublish a h raw no_hook :: es1 ++ es2)).
Proof. exact direct_finishes. Qed.
Print Assumptions C26_direct_finishes.

Example C26_example :
  nx_rest (nx_run nx_setup) /\ nx_synced (nx_run nx_setup) nA
  /\ m_tasks (nx_at (nx_run nx_setup) nA) !! 1%N = Some (Task (OUser [1]%N 101) [] true 0)
  /\ Forall calm nx_bcast /\ nx_rest (nx_run nx_published)
  /\ subscribed_at nx_deser nx_dec_users nx_dec_topics nx_valid (nx_run nx_setup) nB [3]%N 9
  /\ copies nx_deser nx_dec_users nx_dec_topics nx_valid (nx_run nx_setup) (nx_run nx_published) nB [3]%N = [nx_x]
  (* and the direct message after it *)
  /\ nx_synced (nx_run nx_published) nA
  /\ m_tasks (nx_at (nx_run nx_published) nA) !! 1%N = Some (Task (OUser [1]%N 101) [] true 1)
  /\ Forall calm nx_dmsg /\ nx_rest (nx_run nx_direct)
  /\ c_get_user_connection (m_conns (nx_at (nx_run nx_published) nB)) [3]%N = Some 103%N
  /\ copies nx_deser nx_dec_users nx_dec_topics nx_valid (nx_run nx_published) (nx_run nx_direct) nB [3]%N = [nx_y].
Proof.
  split; [apply rest_check; vm_compute; reflexivity|]. split; [apply sync_check; vm_compute; reflexivity|].
  split; [vm_compute; reflexivity|]. split; [vm_compute; repeat constructor|]. split; [apply rest_check; vm_compute; reflexivity|].
  split; [vm_compute; left; reflexivity|]. split; [vm_compute; reflexivity|]. split; [apply sync_check; vm_compute; reflexivity|].
  split; [vm_compute; reflexivity|]. split; [vm_compute; repeat constructor|]. split; [apply rest_check; vm_compute; reflexivity|].
  split; vm_compute; reflexivity.
Qed.

(** Any number of publications at once. From a network at rest, synchronised as seen from
    broker [a]: then publications (direct messages, broadcasts with a known topic) by any
    users anywhere, deliveries over links and steps of tasks whose sends succeed, in any
    interleaving, until the network is at rest again. For each frame accepted from a session
    at [a] meanwhile, and each user anywhere: *)
Theorem C26_overlapping_broadcasts :
  forall deser dec_users dec_topics valid enc_users enc_topics es0 es1 a h u cu t0 k raw hk ts body,
  let n := n_run deser dec_users dec_topics valid enc_users enc_topics es0 in
  let n' := n_run deser dec_users dec_topics valid enc_users enc_topics (es0 ++ es1) in
  let conn b v := c_get_user_connection (m_conns (broker_at deser dec_users dec_topics valid n b)) v in
  let sent b := m_sent (broker_at deser dec_users dec_topics valid n' b) in
  let copy b v x := e_to (s_what x) = inl v /\ comes_from deser dec_users dec_topics valid n' b x a h k in
  sync_codec deser enc_users enc_topics -> hooks_keep_sync es0 ->
  at_rest deser dec_users dec_topics valid n -> synchronised deser dec_users dec_topics valid n a ->
  Forall (quiet deser valid) es1 -> at_rest deser dec_users dec_topics valid n' ->
  m_tasks (broker_at deser dec_users dec_topics valid n a) !! h = Some t0 -> t_owner t0 = OUser u cu -> t_frames t0 < k ->
  In (Rcvd h k raw hk) (m_rcvd (broker_at deser dec_users dec_topics valid n' a)) ->
  deser raw = Some (MBroadcast ts body) ->
  forall b v,
    ((exists t, In t ts /\ subscribed_at deser dec_users dec_topics valid n b v t) ->
       exists c j x, conn b v = Some c /\ sent b !! j = Some x /\ copy b v x /\ s_what x = Emit (inl v) c (FRelay raw)
         /\ forall j' x', sent b !! j' = Some x' -> copy b v x' -> j' = j)
    /\ (~ (exists t, In t ts /\ subscribed_at deser dec_users dec_topics valid n b v t) ->
       forall x, In x (sent b) -> ~ copy b v x).
Proof.
  intros until copy. unfold conn, sent, copy. clear conn sent copy. intros H1 H2 H3 H4 H5 H6 H7 H8 H9 H10 H11 b v.
  destruct (broadcast_concurrent deser dec_users dec_topics valid enc_users enc_topics es0 es1 a h u cu t0 k raw hk ts body H1 H2 H3 H4 H5 H6 H7 H8 H9 H10 H11 b v) as [Hy Hn].
  split.
  - intros Hs. destruct (Hy Hs) as (c & Hc & j & x & Hj & Hw & Hcf & Hu). exists c, j, x. split; [exact Hc|]. split; [exact Hj|].
    split; [split; [by rewrite Hw|exact Hcf]|]. split; [exact Hw|]. intros j' x' Hj' [Hv Hcf']. exact (Hu j' x' Hj' Hv Hcf').
  - intros Hs x Hx [Hv Hcf]. exact (Hn Hs x Hx Hv Hcf).
Qed.
Print Assumptions C26_overlapping_broadcasts.

Theorem C26_overlapping_directs :
  forall deser dec_users dec_topics valid enc_users enc_topics es0 es1 a h u cu t0 k raw hk r body,
  let n := n_run deser dec_users dec_topics valid enc_users enc_topics es0 in
  let n' := n_run deser dec_users dec_topics valid enc_users enc_topics (es0 ++ es1) in
  let conn b v := c_get_user_connection (m_conns (broker_at deser dec_users dec_topics valid n b)) v in
  let sent b := m_sent (broker_at deser dec_users dec_topics valid n' b) in
  let copy b v x := e_to (s_what x) = inl v /\ comes_from deser dec_users dec_topics valid n' b x a h k in
  sync_codec deser enc_users enc_topics -> hooks_keep_sync es0 ->
  at_rest deser dec_users dec_topics valid n -> synchronised deser dec_users dec_topics valid n a ->
  Forall (quiet deser valid) es1 -> at_rest deser dec_users dec_topics valid n' ->
  m_tasks (broker_at deser dec_users dec_topics valid n a) !! h = Some t0 -> t_owner t0 = OUser u cu -> t_frames t0 < k ->
  In (Rcvd h k raw hk) (m_rcvd (broker_at deser dec_users dec_topics valid n' a)) ->
  deser raw = Some (MDirect r body) ->
  forall b v,
    (forall c, v = r -> conn b v = Some c ->
       exists j x, sent b !! j = Some x /\ copy b v x /\ s_what x = Emit (inl v) c (FRelay raw)
         /\ forall j' x', sent b !! j' = Some x' -> copy b v x' -> j' = j)
    /\ (v <> r \/ conn b v = None -> forall x, In x (sent b) -> ~ copy b v x).
Proof.
  intros until copy. unfold conn, sent, copy. clear conn sent copy. intros H1 H2 H3 H4 H5 H6 H7 H8 H9 H10 H11 b v.
  destruct (direct_concurrent deser dec_users dec_topics valid enc_users enc_topics es0 es1 a h u cu t0 k raw hk r body H1 H2 H3 H4 H5 H6 H7 H8 H9 H10 H11 b v) as [Hy Hn].
  split.
  - intros c Hv Hc. destruct (Hy c Hv Hc) as (j & x & Hj & Hw & Hcf & Hu). exists j, x. split; [exact Hj|].
    split; [split; [by rewrite Hw|exact Hcf]|]. split; [exact Hw|]. intros j' x' Hj' [Hv' Hcf']. exact (Hu j' x' Hj' Hv' Hcf').
  - intros Hs x Hx [Hv Hcf]. exact (Hn Hs x Hx Hv Hcf).
Qed.
Print Assumptions C26_overlapping_directs.

(** From any point of such an execution the network can come to rest without further publications. *)
Theorem C26_overlapping_finish :
  forall deser dec_users dec_topics valid enc_users enc_topics es0 es1,
  at_rest deser dec_users dec_topics valid (n_run deser dec_users dec_topics valid enc_users enc_topics es0) ->
  Forall (quiet deser valid) es1 ->
  exists es2, Forall calm es2 /\ at_rest deser dec_users dec_topics valid (n_run deser dec_users dec_topics valid enc_users enc_topics (es0 ++ es1 ++ es2)).
Proof. intros. by apply concurrent_finishes. Qed.
Print Assumptions C26_overlapping_finish.

(** User 1 at A broadcasts, user 3 at B writes to user 1, user 1 writes to user 3 before the broadcast has arrived at B. *)
Definition nx_traffic : list nevent :=
  [NPublish nA 1 [4;7;9;42]%N no_hook; NPublish nB 3 [3;1;44]%N no_hook] ++ goes nA 1 8 ++ goes nB 3 2
  ++ [NPublish nA 1 [3;3;43]%N no_hook; NDeliver nA 105 no_hook] ++ goes nB 3 1 ++ goes nB 5 8 ++ goes nA 1 3
  ++ [NDeliver nB 105 no_hook; NDeliver nA 105 no_hook] ++ goes nA 5 3 ++ goes nB 5 3.
Example C26_overlapping_example :
  nx_rest (nx_run nx_setup) /\ nx_synced (nx_run nx_setup) nA /\ nx_synced (nx_run nx_setup) nB
  /\ hooks_keep_sync nx_setup /\ Forall (quiet nx_deser nx_valid) nx_traffic /\ nx_rest (nx_run (nx_setup ++ nx_traffic))
  /\ (exists t, m_tasks (nx_at (nx_run nx_setup) nA) !! 1%N = Some t /\ t_owner t = OUser [1]%N 101 /\ t_frames t = 0)
  /\ (exists t, m_tasks (nx_at (nx_run nx_setup) nB) !! 3%N = Some t /\ t_owner t = OUser [3]%N 103 /\ t_frames t = 0)
  /\ In (Rcvd 1 1 [4;7;9;42]%N no_hook) (m_rcvd (nx_at (nx_run (nx_setup ++ nx_traffic)) nA))
  /\ In (Rcvd 1 2 [3;3;43]%N no_hook) (m_rcvd (nx_at (nx_run (nx_setup ++ nx_traffic)) nA))
  /\ In (Rcvd 3 1 [3;1;44]%N no_hook) (m_rcvd (nx_at (nx_run (nx_setup ++ nx_traffic)) nB)).
Proof.
  split; [apply rest_check; vm_compute; reflexivity|]. split; [apply sync_check; vm_compute; reflexivity|]. split; [apply sync_check; vm_compute; reflexivity|].
  split; [apply hooks_keep_weaken, plain_keeps; vm_compute; repeat constructor|].
  split; [repeat (constructor; [first [exact I|reflexivity|split; [reflexivity|]]|]); [right|left|left|constructor]; [|by exists [1]%N, [44]%N|by exists [3]%N, [43]%N];
    exists [7;9]%N, [42]%N; split; [reflexivity|exists 7%N; split; [by left|reflexivity]]|].
  split; [apply rest_check; vm_compute; reflexivity|].
  split; [eexists; split; [vm_compute; reflexivity|split; reflexivity]|]. split; [eexists; split; [vm_compute; reflexivity|split; reflexivity]|].
  split; [vm_compute; tauto|]. split; vm_compute; tauto.
Qed.
