(** A network in which nothing is under way is synchronised. *)
From stdpp Require Import gmap fin_maps fin_sets list.
From Coq Require Import NArith ZArith Lia.
From Verif Require Import IdModel RelMapModel RelMapProofs VMapModel VMapSpec VMapProofs ConnModel ConnSpec ConnProofs ConnProofs2 ConnProofs3 ConnProofs4
  SyncSpec SyncModel DirSyncProofs TopicSyncProofs TopicModel TopicProofs MsgModel RouteModel RouteProofs TaskModel TaskProofs TaskOrder TaskHandles TaskIsolation TaskGuarded TaskSync
  NetModel NetProofs NetOrigin NetDelivery NetComplete NetSynced NetSettle NetSettleDir.

(** ** Only known topics are subscribed to *)
Definition known_topics (valid : N -> bool) (s : conns) : Prop := forall u t, fwd (bm_users s) u t -> valid t = true.
Definition known_act (valid : N -> bool) (a : act) : Prop :=
  match a with AAddUser _ _ ts _ | ASubscribe _ ts => forall t, In t ts -> valid t = true | _ => True end.

Lemma step_known valid s o :
  (forall u c ts h t, o = CAddUser u c ts h -> In t ts -> valid t = true) -> (forall u ts t, o = CSubscribeUser u ts -> In t ts -> valid t = true) ->
  known_topics valid s -> known_topics valid (c_step s o).
Proof.
  intros Ha Hs Hi u t.
  destruct o as [u' c ts h|u'|b' c h|b'|u' ts|u' ts|m|b' m| |]; cbn [c_step].
  - rewrite au_bm_users, fwd_associate, fwd_remove. intros [[Hf _]|[-> Hin]]; [by eapply Hi|by eapply Ha].
  - rewrite ru_bm_users, fwd_remove. intros [Hf _]. by eapply Hi.
  - rewrite ab_bm_users. apply Hi.
  - rewrite rb_bm_users. apply Hi.
  - cbn. rewrite fwd_associate. intros [Hf|[-> Hin]]; [by eapply Hi|by eapply Hs].
  - cbn. rewrite fwd_dissociate. intros [Hf _]. by eapply Hi.
  - rewrite apply_user_sync_eq, rus_bm_users, remove_keys_fwd. cbn. intros [Hf _]. by eapply Hi.
  - destruct (apply_topic_frame s b' m) as (_ & _ & _ & -> & _). apply Hi.
  - rewrite partial_user_direct. apply Hi.
  - destruct (partial_topic_frame s) as (_ & _ & _ & _ & -> & _). apply Hi.
Qed.

Section machine.
Variable deser : bytes -> option message.
Variable dec_users : bytes -> option direct_map.
Variable dec_topics : bytes -> option topic_map.
Variable valid : N -> bool.
Notation m_step := (m_step deser dec_users dec_topics valid).
Notation m_run := (m_run deser dec_users dec_topics valid).
Notation m_run_snoc := (m_run_snoc deser dec_users dec_topics valid).
Notation loop_frame := (loop_frame deser dec_users dec_topics valid).

Lemma act_step_known ok s a s' nxt sends : act_step ok s a = (s', nxt, sends) -> Forall (known_act valid) nxt.
Proof.
  destruct a as [w raw only|ts raw only|w f|w cw f|b f|b cb f|f|w|b|w cw ts h'|b cb h'|w ts|w ts|d|b d|b|b| |]; cbn [act_step]; intros Heq.
  - injection Heq as <- <- <-. unfold direct_next. destruct (c_get_broker_identifier_of_user s w); [case_decide; [|destruct only]|]; repeat constructor.
  - injection Heq as <- <- <-. unfold broadcast_next. destruct (c_get_interested_by_topic s ts only). apply Forall_app. split; apply Forall_map, Forall_true; done.
  - injection Heq as <- <- <-. destruct (c_get_user_connection s w); repeat constructor.
  - destruct (ok cw); injection Heq as <- <- <-; repeat constructor.
  - injection Heq as <- <- <-. destruct (c_get_broker_connection s b); repeat constructor.
  - destruct (ok cb); injection Heq as <- <- <-; repeat constructor.
  - injection Heq as <- <- <-. apply Forall_map, Forall_true. done.
  - injection Heq as <- <- <-. constructor.
  - injection Heq as <- <- <-. constructor.
  - injection Heq as <- <- <-. constructor.
  - injection Heq as <- <- <-. constructor.
  - injection Heq as <- <- <-. constructor.
  - injection Heq as <- <- <-. constructor.
  - injection Heq as <- <- <-. constructor.
  - injection Heq as <- <- <-. constructor.
  - injection Heq as <- <- <-. destruct (c_get_full_topic_sync s); repeat constructor.
  - injection Heq as <- <- <-. destruct (c_get_full_user_sync s); repeat constructor.
  - destruct (c_get_partial_topic_sync s) as [s1 [d|]]; injection Heq as <- <- <-; repeat constructor.
  - destruct (c_get_partial_user_sync s) as [s1 [d|]]; injection Heq as <- <- <-; repeat constructor.
Qed.

Lemma loop_frame_known o raw hk : Forall (known_act valid) (loop_frame o raw hk).1.
Proof.
  destruct o as [u c|b c|]; cbn; [| |constructor].
  - unfold user_frame. destruct (deser raw) as [m0|]; [|by repeat constructor]. destruct (hk m0) as [|m1|]; [constructor| |by repeat constructor].
    destruct m1; try (by repeat constructor).
    + destruct (prune valid topics) as [? [|]] eqn:E; by repeat constructor.
    + destruct (prune valid topics) as [l [|]] eqn:E; repeat constructor. cbn. intros t Ht.
      assert (Hin : In t (prune valid topics).1) by (by rewrite E). by apply prune_in in Hin as [_ ?].
    + destruct (prune valid topics) as [? [|]] eqn:E; by repeat constructor.
  - unfold broker_frame. destruct (deser raw) as [m0|]; [|by repeat constructor]. destruct (hk m0) as [|m1|]; [constructor| |by repeat constructor].
    destruct m1; try (by repeat constructor); [destruct (dec_users payload)|destruct (dec_topics payload)]; by repeat constructor.
Qed.

Lemma known_pending i es h t : m_tasks (m_run i es) !! h = Some t -> Forall (known_act valid) (t_acts t).
Proof.
  revert h t. apply (task_shape deser dec_users dec_topics valid (fun _ l => Forall (known_act valid) l)).
  - constructor.
  - intros u c ts h. repeat constructor. cbn. intros t Ht. by apply prune_in in Ht as [_ ?].
  - repeat constructor.
  - repeat constructor.
  - repeat constructor.
  - apply loop_frame_known.
  - intros [?|?|]; repeat constructor.
  - intros ok s o a l s' nxt sends Hf Ha. apply Forall_cons in Hf as [_ Hf]. apply Forall_app. split; [by eapply act_step_known|done].
Qed.

Lemma known_run i es : known_topics valid (m_conns (m_run i es)).
Proof.
  induction es as [|e es IH] using rev_ind.
  { intros u t. cbn. unfold fwd; cbn. rewrite lookup_empty; cbn. set_solver. }
  rewrite m_run_snoc. destruct (m_step_op deser dec_users dec_topics valid (m_run i es) e) as [->|(h & good & o & a & l & op & n & c & -> & Ht & Hc & ->)]; [done|].
  pose proof (known_pending i es h _ Ht) as Hk. cbn in Hk. apply Forall_cons in Hk as [Hk _].
  apply step_known; [| |done].
  - intros u c1 ts h1 t -> Hin. destruct a; cbn in Hc; try done. injection Hc as -> -> -> ->. by apply Hk.
  - intros u ts t -> Hin. destruct a; cbn in Hc; try done. injection Hc as -> ->. by apply Hk.
Qed.
End machine.

(** ** Links *)
Section net.
Variable deser : bytes -> option message.
Variable dec_users : bytes -> option direct_map.
Variable dec_topics : bytes -> option topic_map.
Variable valid : N -> bool.
Variable enc_users : direct_map -> bytes.
Variable enc_topics : topic_map -> bytes.
Notation m_step := (m_step deser dec_users dec_topics valid).
Notation broker_at := (broker_at deser dec_users dec_topics valid).
Notation n_run := (n_run deser dec_users dec_topics valid enc_users enc_topics).
Notation net_inv := (net_inv deser dec_users dec_topics valid enc_users enc_topics).
Notation fine := (fine deser dec_users dec_topics valid).
Notation loop_of := (loop_of deser dec_users dec_topics valid).
Notation joined := (joined deser dec_users dec_topics valid).
Notation at_rest := (at_rest deser dec_users dec_topics valid).
Notation subscribed_at := (subscribed_at deser dec_users dec_topics valid).
Notation synchronised := (synchronised deser dec_users dec_topics valid).
Notation run_other := (run_other deser dec_users dec_topics valid).
Notation broker_extend := (broker_extend deser dec_users dec_topics valid).
Notation conns_at n b := (m_conns (broker_at n b)).
Notation tasks_at n b := (m_tasks (broker_at n b)).

(** Both directions of a link exist. *)
Definition paired (n : net) : Prop :=
  forall b cb a ha, n_links n !! (b, cb) = Some (a, ha) ->
    exists ca hb, n_links n !! (a, ca) = Some (b, hb) /\ loop_of n a ha (OBroker b ca) /\ loop_of n b hb (OBroker a cb).

Lemma paired_run es : hooks_pass es -> fine (n_run es) -> paired (n_run es).
Proof.
  intros Hh Hf. apply (net_induct deser dec_users dec_topics valid enc_users enc_topics paired es Hh Hf).
  - intros b cb a ha Hl. cbn in Hl. by rewrite lookup_empty in Hl.
  - intros n b0 e Hi HP _ _ b cb a ha Hl. destruct (HP b cb a ha Hl) as (ca & hb & Hl' & H1 & H2).
    exists ca, hb. split; [exact Hl'|]. split; by apply loop_of_extend.
  - intros n a ha hha ca b hb hhb cb Hi _ Hne Ha Hb _ HP. set (n1 := extend _ b _) in *.
    assert (Hla : loop_of n1 a ha (OBroker b ca)).
    { exists (Task (OBroker b ca) [] true 0). split; [|done]. unfold n1. rewrite run_other by done. rewrite broker_extend, decide_True by done. by apply m_step_broker_authed; apply Ha. }
    assert (Hlb : loop_of n1 b hb (OBroker a cb)).
    { exists (Task (OBroker a cb) [] true 0). split; [|done]. unfold n1. rewrite broker_extend, decide_True by done. rewrite run_other by done. by apply m_step_broker_authed; apply Hb. }
    assert (Hold : forall a' c' p, n_links n1 !! (a', c') = Some p -> (a', c') <> (a, ca) /\ (a', c') <> (b, cb)).
    { intros a' c' [b' h'] Hl. change (n_links n !! (a', c') = Some (b', h')) in Hl. destruct Hi as (I0 & _). destruct (I0 _ _ _ _ Hl) as (_ & (ha' & hx & Hin) & _).
      assert (Hc' : c' ∈ authed_conns (trace n a')).
      { apply elem_of_list_In, in_concat. exists [c']. split; [|by left]. apply in_map_iff. exists (EBrokerAuthed ha' hx b' c'). split; [reflexivity|exact Hin]. }
      destruct Ha as (_ & _ & _ & Ha), Hb as (_ & _ & _ & Hb). split; intros [= -> ->]; done. }
    intros b' cb' a' ha' Hl. unfold linked_up in Hl |- *. fold n1 in Hl |- *. cbn [n_links] in Hl |- *.
    apply lookup_insert_Some in Hl as [[Heq Hv]|[_ Hl]].
    { injection Heq as <- <-. injection Hv as <- <-. exists cb, ha. split; [|split; [exact Hlb|exact Hla]].
      rewrite lookup_insert_ne by (intros [= ? ?]; done). by rewrite lookup_insert. }
    apply lookup_insert_Some in Hl as [[Heq Hv]|[_ Hl]].
    { injection Heq as <- <-. injection Hv as <- <-. exists ca, hb. split; [|split; [exact Hla|exact Hlb]]. by rewrite lookup_insert. }
    destruct (HP b' cb' a' ha' Hl) as (ca' & hb' & Hl' & H1 & H2). exists ca', hb'. split; [|split; [exact H1|exact H2]].
    destruct (Hold _ _ _ Hl') as [Hn1 Hn2]. by rewrite !lookup_insert_ne by congruence.
Qed.

Lemma joined_sym n a b : paired n -> joined n a b -> joined n b a.
Proof.
  intros HP (ca & cb & ha & hb & ta & Hca & Hcb & Hl1 & Hl2 & Hta & Hoa).
  destruct (HP _ _ _ _ Hl2) as (ca' & hb' & Hl' & (t1 & Ht1 & Ho1) & (t2 & Ht2 & Ho2)).
  rewrite Hta in Ht1. injection Ht1 as <-. assert (ca' = ca) as -> by congruence. rewrite Hl1 in Hl'. injection Hl' as <-.
  exists cb, ca, hb, ha, t2. done.
Qed.

Lemma joined_open n a b :
  net_inv n -> paired n -> fine n -> at_rest n -> joined n a b ->
  exists ca hb t, c_get_broker_connection (conns_at n a) b = Some ca /\ n_links n !! (a, ca) = Some (b, hb) /\ tasks_at n b !! hb = Some t /\ t_open t = true.
Proof.
  intros Hi HP Hf [Hr1 _] Hj. apply joined_sym in Hj; [|done].
  destruct (joined_live deser dec_users dec_topics valid enc_users enc_topics n b a Hi Hj) as (cb & ca & hb & R & Hca & Hl & HR & _).
  destruct (loop_run deser dec_users dec_topics valid b (trace n b) (proj1 (Hf b))) as [_ Hlr].
  destruct (Hlr hb (OBroker a cb)) as (t & Ht & _ & Hop); [by exists R|].
  exists ca, hb, t. split; [done|]. split; [done|]. split; [done|]. destruct Hop as [Hop|(y & Hy & _)]; [done|]. by rewrite (Hr1 _ _ _ Ht) in Hy.
Qed.

(** ** Settled networks are synchronised *)
(** Broker [b] has nothing to announce. *)
Definition nothing_due (n : net) (b : bid) : Prop :=
  (c_get_partial_user_sync (conns_at n b)).2 = None /\ (c_get_partial_topic_sync (conns_at n b)).2 = None.

(** Nothing is under way, broker [a] shares a link with every other broker that has users,
    these have nothing to announce, and their users were admitted once. *)
Definition settled (n : net) (a : bid) : Prop :=
  at_rest n
  /\ forall b v c, b <> a -> c_get_user_connection (conns_at n b) v = Some c ->
       joined n a b /\ nothing_due n b /\ admitted_once n v.

Lemma settled_synchronised es a :
  faithful_sync deser dec_users dec_topics enc_users enc_topics -> hooks_pass es -> let n := n_run es in fine n ->
  (forall b, subscribes_connected deser dec_users dec_topics valid b (trace n b)) ->
  settled n a -> synchronised n a.
Proof.
  intros Hcodec Hh n Hf Hsc [Hr Hset]. pose proof (inv_run deser dec_users dec_topics valid enc_users enc_topics es) as Hi. fold n in Hi.
  pose proof (paired_run es Hh Hf) as HP. fold n in HP.
  assert (Hcon : forall b v t, subscribed_at n b v t -> exists c, c_get_user_connection (conns_at n b) v = Some c).
  { intros b v t Hs. by eapply guarded_users_connected. }
  split; [|split].
  - intros b v c Hne Hc. destruct (Hset b v c Hne Hc) as (Hj & [Hd1 Hd2] & Hone). split.
    + apply (directory_settles deser dec_users dec_topics valid enc_users enc_topics Hcodec es a b v); eauto.
    + by apply joined_open.
  - intros b v t Hne Hs. destruct (Hcon b v t Hs) as [c Hc]. destruct (Hset b v c Hne Hc) as (Hj & [Hd1 Hd2] & Hone).
    apply (topics_settle deser dec_users dec_topics valid enc_users enc_topics Hcodec es a b t); eauto.
  - intros b v t Hs. split; [|by eapply Hcon]. apply interested_users in Hs as (t' & [<-|[]] & Hs'); [|apply state_idx].
    eapply (known_run deser dec_users dec_topics valid b (trace n b)). exact Hs'.
Qed.
End net.
