(** Property theorems: what the brokers of a network know about each other once nothing is
    under way (NetModel.v), without assuming that they are synchronised.

    Hypotheses used throughout. [faithful_sync]: sync messages are decoded to what was
    encoded. [hooks_pass]: hooks change no message they let pass and drop no sync message.
    [fine]: every broker's receive loops accept frames only once their connection is
    registered ([prompt], needed because of the finding in C54), and no broker makes 2^64
    steps. [at_rest]: no task has anything left to do, and what was sent on a link that is
    still being read was received. [joined]: the same link is registered at both ends. *)
From stdpp Require Import gmap fin_maps list countable.
From Coq Require Import NArith Lia.
From Verif Require Import IdModel RelMapModel VMapModel ConnModel ConnSpec ConnProofs3 TopicModel MsgModel RouteModel
  TaskModel TaskProofs TaskOrder TaskHandles TaskGuarded TaskCheck TaskSync NetModel NetProofs NetOrigin NetComplete NetSynced NetConcurrent NetDelivery NetCheck
  NetSettle NetSettleDir NetSettleAll PropertiesNet.

(** * The concrete network of PropertiesNet.v meets the hypotheses *)
Lemma nx_faithful : faithful_sync nx_deser nx_dec_users nx_dec_topics nx_enc_users nx_enc_topics.
Proof.
  split; intros d.
  - eexists _, (VMap (entries d) ∅ (cid d)). split; [reflexivity|]. split; [|done].
    unfold nx_dec_users, unpack_users, pack_users. rewrite decode_encode. cbn [mbind option_bind]. do 2 f_equal.
    rewrite <- list_fmap_compose.
    etransitivity; [|apply list_to_map_to_list]. f_equal. etransitivity; [|apply list_fmap_id].
    apply list_fmap_ext. intros i [k [x y]] _. done.
  - eexists _, (VMap (entries d) ∅ (cid d)). split; [reflexivity|]. split; [|done].
    unfold nx_dec_topics, unpack_topics, pack_topics. rewrite decode_encode. cbn [mbind option_bind]. do 2 f_equal.
    rewrite <- list_fmap_compose.
    etransitivity; [|apply list_to_map_to_list]. f_equal. etransitivity; [|apply list_fmap_id].
    apply list_fmap_ext. intros i [k [x [[]|]]] _; done.
Qed.

Lemma no_hook_passes : hook_passes no_hook.
Proof. split; [apply no_hook_keeps|done]. Qed.
Lemma plain_pass es : plain_b es -> hooks_pass es.
Proof.
  intros Hp. unfold plain_b in Hp. rewrite Forall_forall in Hp.
  split; [intros a c hk Hin|intros b h raw hk Hin]; specialize (Hp _ Hin); cbn in Hp; subst hk; [apply no_hook_passes|apply no_hook_keeps].
Qed.

(** Boolean checks. *)
Definition fine_b (n : net) : bool :=
  forallb (fun '(b, es) => all_ev nx_deser nx_dec_users nx_dec_topics nx_valid prompt_ev (m_init b) es && (N.of_nat (length es) <? 2 ^ 64)%N) (map_to_list (n_trace n)).
Lemma fine_check n : fine_b n = true -> fine nx_deser nx_dec_users nx_dec_topics nx_valid n.
Proof.
  intros Hb b. unfold trace. destruct (n_trace n !! b) as [es|] eqn:E; cbn.
  - apply (forallb_map (fun b es => all_ev nx_deser nx_dec_users nx_dec_topics nx_valid prompt_ev (m_init b) es && (N.of_nat (length es) <? 2 ^ 64)%N) _ _ _ Hb) in E.
    apply andb_prop in E as [E1 E2]. split; [by apply prompt_check|]. by apply N.ltb_lt in E2.
  - split; [by apply prompt_check|]. done.
Qed.
Definition subs_b (n : net) : bool :=
  forallb (fun '(b, es) => all_ev nx_deser nx_dec_users nx_dec_topics nx_valid subs_ev (m_init b) es) (map_to_list (n_trace n)).
Lemma subs_check_all n : subs_b n = true -> forall b, subscribes_connected nx_deser nx_dec_users nx_dec_topics nx_valid b (trace n b).
Proof.
  intros Hb b. unfold trace. destruct (n_trace n !! b) as [es|] eqn:E; cbn.
  - apply (forallb_map (fun b es => all_ev nx_deser nx_dec_users nx_dec_topics nx_valid subs_ev (m_init b) es) _ _ _ Hb) in E. by apply subs_check.
  - by apply subs_check.
Qed.
(** The admissions of a user: broker and position. *)
Definition admits (v : ukey) (e : event) : bool := match e with EUserAuthed _ _ u _ _ => bool_decide (u = v) | _ => false end.
Definition admissions (n : net) (v : ukey) : list (bid * nat) :=
  concat (map (fun '(b, es) => map (fun p => (b, p.1)) (filter (fun p => admits v p.2 = true) (imap (fun i e => (i, e)) es)))
    (map_to_list (n_trace n))).
Lemma admission_in n v x i h hh c ts : trace n x !! i = Some (EUserAuthed h hh v c ts) -> In (x, i) (admissions n v).
Proof.
  unfold trace. destruct (n_trace n !! x) as [es|] eqn:E; [|done]. cbn. intros Hi.
  apply in_concat. eexists. split.
  - apply in_map_iff. exists (x, es). split; [reflexivity|]. by apply elem_of_list_In, elem_of_map_to_list.
  - apply in_map_iff. exists (i, EUserAuthed h hh v c ts). split; [done|]. apply elem_of_list_In, elem_of_list_filter. split; [by apply bool_decide_eq_true|].
    apply elem_of_lookup_imap. eauto.
Qed.
Lemma once_check n v : length (admissions n v) <= 1 -> admitted_once n v.
Proof.
  intros Hl x i h hh c ts y j h' hh' c' ts' Hx Hy. apply admission_in in Hx, Hy.
  destruct (admissions n v) as [|p [|]]; cbn in Hl; [done| |lia]. destruct Hx as [->|[]], Hy as [Hy|[]]. by injection Hy as -> ->.
Qed.

Notation nx_due := (nothing_due nx_deser nx_dec_users nx_dec_topics nx_valid).
Notation nx_joined := (joined nx_deser nx_dec_users nx_dec_topics nx_valid).

(** * C64: once nothing is under way, every broker knows the others' users and topics *)
(** Topics: broker [a] forwards messages about a topic to a broker [b] it shares a link with
    if and only if some user at [b] is subscribed to it — provided [b] has announced its
    changes (the next delta would be empty). *)
Theorem C64_topics_settle :
  forall deser dec_users dec_topics valid enc_users enc_topics es a b t,
  faithful_sync deser dec_users dec_topics enc_users enc_topics -> hooks_pass es ->
  let n := n_run deser dec_users dec_topics valid enc_users enc_topics es in
  fine deser dec_users dec_topics valid n -> at_rest deser dec_users dec_topics valid n -> joined deser dec_users dec_topics valid n a b ->
  (c_get_partial_topic_sync (m_conns (broker_at deser dec_users dec_topics valid n b))).2 = None ->
  In b (c_get_interested_by_topic (m_conns (broker_at deser dec_users dec_topics valid n a)) [t] false).1
  <-> exists v, subscribed_at deser dec_users dec_topics valid n b v t.
Proof. intros. by eapply topics_settle. Qed.
Print Assumptions C64_topics_settle.

(** Users: broker [a] knows where every user of [b] is, provided the user was admitted once
    in the whole network (by C20-C23 the directories need not agree about users that were
    admitted at several brokers). *)
Theorem C64_directory_settles :
  forall deser dec_users dec_topics valid enc_users enc_topics es a b v,
  faithful_sync deser dec_users dec_topics enc_users enc_topics -> hooks_pass es ->
  let n := n_run deser dec_users dec_topics valid enc_users enc_topics es in
  fine deser dec_users dec_topics valid n -> at_rest deser dec_users dec_topics valid n -> joined deser dec_users dec_topics valid n a b ->
  admitted_once n v ->
  (c_get_partial_user_sync (m_conns (broker_at deser dec_users dec_topics valid n b))).2 = None ->
  (exists c, c_get_user_connection (m_conns (broker_at deser dec_users dec_topics valid n b)) v = Some c) ->
  c_get_broker_identifier_of_user (m_conns (broker_at deser dec_users dec_topics valid n a)) v = Some b.
Proof. intros. by eapply directory_settles. Qed.
Print Assumptions C64_directory_settles.

(** Every topic anybody is subscribed to is a topic of the application. *)
Theorem C64_only_known_topics :
  forall deser dec_users dec_topics valid i es u t only,
  In u (c_get_interested_by_topic (m_conns (m_run deser dec_users dec_topics valid i es)) [t] only).2 -> valid t = true.
Proof.
  intros deser dec_users dec_topics valid i es u t only Hin.
  destruct (machine_history deser dec_users dec_topics valid i es) as [os Hos]. pose proof (known_run deser dec_users dec_topics valid i es) as Hk.
  rewrite Hos in Hin, Hk. apply interested_users in Hin as (t' & [<-|[]] & Hf); [|apply ConnProofs2.run_idx]. by eapply Hk.
Qed.
Print Assumptions C64_only_known_topics.

(** Hence a settled network is synchronised, which is what complete delivery (C26) needs. *)
Theorem C64_settled_is_synchronised :
  forall deser dec_users dec_topics valid enc_users enc_topics es a,
  faithful_sync deser dec_users dec_topics enc_users enc_topics -> hooks_pass es ->
  let n := n_run deser dec_users dec_topics valid enc_users enc_topics es in
  fine deser dec_users dec_topics valid n ->
  (forall b, subscribes_connected deser dec_users dec_topics valid b (trace n b)) ->
  at_rest deser dec_users dec_topics valid n ->
  (forall b v c, b <> a -> c_get_user_connection (m_conns (broker_at deser dec_users dec_topics valid n b)) v = Some c ->
     joined deser dec_users dec_topics valid n a b /\ nothing_due deser dec_users dec_topics valid n b /\ admitted_once n v) ->
  synchronised deser dec_users dec_topics valid n a.
Proof. intros. by eapply settled_synchronised. Qed.
Print Assumptions C64_settled_is_synchronised.

(** End to end: in a settled network a broadcast reaches every user subscribed to one of its
    topics, at whatever broker, exactly once, and nobody else; a direct message likewise. *)
Theorem C64_settled_broadcast_complete :
  forall deser dec_users dec_topics valid enc_users enc_topics es0 es1 a h u cu k0 raw ts body,
  faithful_sync deser dec_users dec_topics enc_users enc_topics -> hooks_pass es0 ->
  let n := n_run deser dec_users dec_topics valid enc_users enc_topics es0 in
  let n' := n_run deser dec_users dec_topics valid enc_users enc_topics (es0 ++ NPublish a h raw no_hook :: es1) in
  fine deser dec_users dec_topics valid n ->
  (forall b, subscribes_connected deser dec_users dec_topics valid b (trace n b)) ->
  settled deser dec_users dec_topics valid n a ->
  deser raw = Some (MBroadcast ts body) -> (exists t, In t ts /\ valid t = true) ->
  m_tasks (broker_at deser dec_users dec_topics valid n a) !! h = Some (Task (OUser u cu) [] true k0) ->
  Forall calm es1 -> at_rest deser dec_users dec_topics valid n' ->
  forall b v,
    ((exists t, In t ts /\ subscribed_at deser dec_users dec_topics valid n b v t) ->
       exists x c, copies deser dec_users dec_topics valid n n' b v = [x]
         /\ c_get_user_connection (m_conns (broker_at deser dec_users dec_topics valid n b)) v = Some c
         /\ s_what x = Emit (inl v) c (FRelay raw))
    /\ (~ (exists t, In t ts /\ subscribed_at deser dec_users dec_topics valid n b v t) ->
       copies deser dec_users dec_topics valid n n' b v = []).
Proof.
  intros deser dec_users dec_topics valid enc_users enc_topics es0 es1 a h u cu k0 raw ts body Hc Hh n n' Hf Hsc Hset Hd Hv Ht Hcalm Hr.
  eapply C26_broadcast_complete; try done; [by destruct Hset|]. by eapply settled_synchronised.
Qed.
Print Assumptions C64_settled_broadcast_complete.

Theorem C64_settled_direct_complete :
  forall deser dec_users dec_topics valid enc_users enc_topics es0 es1 a h u cu k0 raw r body,
  faithful_sync deser dec_users dec_topics enc_users enc_topics -> hooks_pass es0 ->
  let n := n_run deser dec_users dec_topics valid enc_users enc_topics es0 in
  let n' := n_run deser dec_users dec_topics valid enc_users enc_topics (es0 ++ NPublish a h raw no_hook :: es1) in
  fine deser dec_users dec_topics valid n ->
  (forall b, subscribes_connected deser dec_users dec_topics valid b (trace n b)) ->
  settled deser dec_users dec_topics valid n a ->
  deser raw = Some (MDirect r body) ->
  m_tasks (broker_at deser dec_users dec_topics valid n a) !! h = Some (Task (OUser u cu) [] true k0) ->
  Forall calm es1 -> at_rest deser dec_users dec_topics valid n' ->
  forall b v,
    (forall c, v = r -> c_get_user_connection (m_conns (broker_at deser dec_users dec_topics valid n b)) v = Some c ->
       exists x, copies deser dec_users dec_topics valid n n' b v = [x] /\ s_what x = Emit (inl v) c (FRelay raw))
    /\ (v <> r \/ c_get_user_connection (m_conns (broker_at deser dec_users dec_topics valid n b)) v = None ->
       copies deser dec_users dec_topics valid n n' b v = []).
Proof.
  intros deser dec_users dec_topics valid enc_users enc_topics es0 es1 a h u cu k0 raw r body Hc Hh n n' Hf Hsc Hset Hd Ht Hcalm Hr.
  eapply C26_direct_complete; try done; [by destruct Hset|]. by eapply settled_synchronised.
Qed.
Print Assumptions C64_settled_direct_complete.

(** The network of PropertiesNet.v (users at A and B, a link, the sync messages exchanged)
    meets all of this, as seen from A. *)
Lemma key_among {K A} `{Countable K} (m : gmap K A) k x : m !! k = Some x -> k ∈ (map_to_list m).*1.
Proof. intros E. apply elem_of_list_fmap. exists (k, x). split; [done|]. by apply elem_of_map_to_list. Qed.
Lemma nx_setup_fine : fine nx_deser nx_dec_users nx_dec_topics nx_valid (nx_run nx_setup).
Proof. apply fine_check. vm_compute. reflexivity. Qed.
Lemma nx_setup_subs : forall b, subscribes_connected nx_deser nx_dec_users nx_dec_topics nx_valid b (trace (nx_run nx_setup) b).
Proof. apply subs_check_all. vm_compute. reflexivity. Qed.
Lemma nx_setup_rest : nx_rest (nx_run nx_setup).
Proof. apply rest_check. vm_compute. reflexivity. Qed.
Lemma nx_setup_joined : nx_joined (nx_run nx_setup) nA nB.
Proof.
  exists 105%N, 105%N, 5%N, 5%N. eexists. split; [vm_compute; reflexivity|]. split; [vm_compute; reflexivity|].
  split; [vm_compute; reflexivity|]. split; [vm_compute; reflexivity|]. split; [vm_compute; reflexivity|reflexivity].
Qed.
Lemma nx_setup_due : nx_due (nx_run nx_setup) nB.
Proof. split; vm_compute; reflexivity. Qed.
Lemma nx_setup_brokers b l : n_trace (nx_run nx_setup) !! b = Some l -> b = nA \/ b = nB.
Proof.
  intros E. apply key_among in E.
  assert (Hl : (map_to_list (n_trace (nx_run nx_setup))).*1 = [nA; nB] \/ (map_to_list (n_trace (nx_run nx_setup))).*1 = [nB; nA]) by (vm_compute; tauto).
  destruct Hl as [Hl|Hl]; rewrite Hl in E; clear - E; set_solver.
Qed.
Lemma nx_setup_users v p : users (m_conns (nx_at (nx_run nx_setup) nB)) !! v = Some p -> v = [2]%N \/ v = [3]%N.
Proof.
  intros E. apply key_among in E.
  assert (Hl : (map_to_list (users (m_conns (nx_at (nx_run nx_setup) nB)))).*1 = [[2]; [3]]%N \/ (map_to_list (users (m_conns (nx_at (nx_run nx_setup) nB)))).*1 = [[3]; [2]]%N) by (vm_compute; tauto).
  destruct Hl as [Hl|Hl]; rewrite Hl in E; clear - E; set_solver.
Qed.
Lemma nx_setup_once v : v = [2]%N \/ v = [3]%N -> admitted_once (nx_run nx_setup) v.
Proof. intros Hv. apply once_check. destruct Hv as [->| ->]; vm_compute; lia. Qed.
Lemma user_somewhere es b v c : c_get_user_connection (m_conns (nx_at (nx_run es) b)) v = Some c ->
  (exists l, n_trace (nx_run es) !! b = Some l) /\ exists p, users (m_conns (nx_at (nx_run es) b)) !! v = Some p.
Proof.
  intros Hc. split.
  - destruct (n_trace (nx_run es) !! b) as [l|] eqn:E; [by exists l|]. exfalso. rewrite (untouched _ _ _ _ _ _ E) in Hc.
    unfold c_get_user_connection in Hc. cbn in Hc. by rewrite lookup_empty in Hc.
  - unfold c_get_user_connection in Hc. destruct (users (m_conns (nx_at (nx_run es) b)) !! v) as [p|]; [by exists p|done].
Qed.
Lemma nx_setup_settled : settled nx_deser nx_dec_users nx_dec_topics nx_valid (nx_run nx_setup) nA.
Proof.
  split; [exact nx_setup_rest|]. intros b v c Hne Hc. destruct (user_somewhere _ _ _ _ Hc) as [(l & Hl) (p & Hp)]. clear Hc.
  destruct (nx_setup_brokers _ _ Hl) as [Hb|Hb]; [exfalso; exact (Hne Hb)|]. clear Hl. subst b.
  split; [exact nx_setup_joined|]. split; [exact nx_setup_due|]. exact (nx_setup_once v (nx_setup_users v p Hp)).
Qed.
Example C64_example :
  faithful_sync nx_deser nx_dec_users nx_dec_topics nx_enc_users nx_enc_topics /\ hooks_pass nx_setup
  /\ fine nx_deser nx_dec_users nx_dec_topics nx_valid (nx_run nx_setup)
  /\ (forall b, subscribes_connected nx_deser nx_dec_users nx_dec_topics nx_valid b (trace (nx_run nx_setup) b))
  /\ nx_rest (nx_run nx_setup) /\ nx_joined (nx_run nx_setup) nA nB /\ nx_due (nx_run nx_setup) nB
  /\ settled nx_deser nx_dec_users nx_dec_topics nx_valid (nx_run nx_setup) nA
  /\ (exists c, c_get_user_connection (m_conns (nx_at (nx_run nx_setup) nB)) [3]%N = Some c)
  /\ subscribed_at nx_deser nx_dec_users nx_dec_topics nx_valid (nx_run nx_setup) nB [3]%N 9.
Proof.
  split; [exact nx_faithful|]. split; [apply plain_pass; unfold plain_b; vm_compute; repeat constructor|].
  split; [exact nx_setup_fine|]. split; [exact nx_setup_subs|]. split; [exact nx_setup_rest|]. split; [exact nx_setup_joined|].
  split; [exact nx_setup_due|]. split; [exact nx_setup_settled|]. split; [exists 103%N; vm_compute; reflexivity|vm_compute; left; reflexivity].
Qed.
