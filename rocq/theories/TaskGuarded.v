(** Guarded versions of properties that fail for arbitrary interleavings. *)
From stdpp Require Import gmap fin_maps fin_sets list.
From Coq Require Import NArith ZArith Lia.
From Verif Require Import IdModel RelMapModel RelMapProofs VMapModel VMapSpec VMapProofs ConnModel ConnSpec ConnProofs ConnProofs2 ConnProofs3 ConnProofs4
  TopicModel TopicProofs MsgModel RouteModel RouteProofs RouteSpec RouteProofs2 TaskModel TaskProofs TaskHandles TaskIsolation.

Definition user_interest_inv (s : conns) : Prop :=
  forall u t, fwd (bm_users s) u t -> is_Some (users s !! u).

Lemma step_user_interest s o :
  (forall u ts, o = CSubscribeUser u ts -> is_Some (users s !! u)) ->
  user_interest_inv s -> user_interest_inv (c_step s o).
Proof.
  intros Hg Hi u t.
  destruct o as [u' c ts h|u'|b' c h|b'|u' ts|u' ts|m|b' m| |]; cbn [c_step].
  - rewrite au_bm_users, fwd_associate, fwd_remove, au_users. destruct (decide (u' = u)) as [->|Hne].
    + rewrite lookup_insert. eauto.
    + rewrite lookup_insert_ne by done. intros [[Hf _]|[-> _]]; [by eapply Hi|done].
  - rewrite ru_bm_users, fwd_remove, ru_users. intros [Hf Hne]. rewrite lookup_delete_ne by done. by eapply Hi.
  - rewrite ab_bm_users, ab_users. apply Hi.
  - rewrite rb_bm_users, rb_users. apply Hi.
  - cbn. rewrite fwd_associate. intros [Hf|[-> _]]; [by eapply Hi|by eapply Hg].
  - cbn. rewrite fwd_dissociate. intros [Hf _]. by eapply Hi.
  - rewrite apply_user_sync_eq, rus_bm_users, remove_keys_fwd, rus_users. cbn. intros [Hf Hn]. rewrite decide_False by done. by eapply Hi.
  - destruct (apply_topic_frame s b' m) as (_ & -> & _ & -> & _). apply Hi.
  - rewrite partial_user_direct. apply Hi.
  - destruct (partial_topic_frame s) as (_ & -> & _ & _ & -> & _). apply Hi.
Qed.

Lemma act_step_op ok s a :
  (act_step ok s a).1.1 = s
  \/ exists o, (act_step ok s a).1.1 = c_step s o /\ (forall u ts, o = CSubscribeUser u ts -> a = ASubscribe u ts).
Proof.
  destruct a as [u raw only|ts raw only|u f|u c f|b f|b c f|f|u|b|u c ts h|b c h|u ts|u ts|m|b m|b|b| |]; cbn [act_step fst];
    try (by left).
  - destruct (ok c); by left.
  - destruct (ok c); by left.
  - right. by exists (CRemoveUser u).
  - right. by exists (CRemoveBroker b).
  - right. by exists (CAddUser u c ts h).
  - right. by exists (CAddBroker b c h).
  - right. exists (CSubscribeUser u ts). split; [done|]. by intros ? ? [= <- <-].
  - right. by exists (CUnsubscribeUser u ts).
  - right. by exists (CApplyUserSync m).
  - right. by exists (CApplyTopicSync b m).
  - right. exists CPartialTopicSync. cbn [c_step]. by destruct (c_get_partial_topic_sync s).
  - right. exists CPartialUserSync. cbn [c_step]. by destruct (c_get_partial_user_sync s).
Qed.

Section proofs.
Variable deser : bytes -> option message.
Variable dec_users : bytes -> option direct_map.
Variable dec_topics : bytes -> option topic_map.
Variable valid : N -> bool.
Notation m_step := (m_step deser dec_users dec_topics valid).
Notation m_run := (m_run deser dec_users dec_topics valid).
Notation m_run_snoc := (m_run_snoc deser dec_users dec_topics valid).

(** Whenever a subscription is performed, the user is connected (that is: loops of removed
    connections have really stopped, and loops start after registration). *)
Definition subscribes_connected (i : bid) (es : list event) : Prop :=
  forall es1 h good es2 t u ts l, es = es1 ++ ERun h good :: es2 ->
    m_tasks (m_run i es1) !! h = Some t -> t_acts t = ASubscribe u ts :: l ->
    exists c, c_get_user_connection (m_conns (m_run i es1)) u = Some c.

Lemma guarded_interest i es : subscribes_connected i es -> user_interest_inv (m_conns (m_run i es)).
Proof.
  induction es as [|e es IH] using rev_ind; intros Hg.
  { intros u t. cbn. unfold fwd; cbn. rewrite lookup_empty; cbn. set_solver. }
  assert (IH' : user_interest_inv (m_conns (m_run i es))).
  { apply IH. intros es1 h good es2 t u ts l -> Ht Ha. apply (Hg es1 h good (es2 ++ [e]) t u ts l); [by rewrite <- app_assoc|done|done]. }
  clear IH. rewrite m_run_snoc.
  destruct e as [h1 hh v c1 ts|h1 hh b c1|hh|hh v|h1 raw hk|h1|h1 good|h1]; cbn [TaskModel.m_step].
  - by case_decide.
  - by case_decide.
  - by destruct (m_tasks _ !! hh).
  - by destruct (m_tasks _ !! hh).
  - destruct (m_tasks _ !! h1) as [[o [|? ?] [|] n]|]; try done. by destruct (loop_frame _ _ _ _ o raw hk).
  - by destruct (m_tasks _ !! h1) as [[o [|? ?] [|] n]|].
  - destruct (m_tasks (m_run i es) !! h1) as [[o [|a l] op n]|] eqn:E; try done.
    destruct (act_step_op (fun _ => good) (m_conns (m_run i es)) a) as [Hs|(c & Hs & Hc)];
      destruct (act_step (fun _ => good) (m_conns (m_run i es)) a) as [[s' nxt] sends]; cbn in Hs |- *; [by rewrite Hs|].
    rewrite Hs. apply step_user_interest; [|done]. intros u ts Ho. apply Hc in Ho as ->.
    destruct (Hg es h1 good [] (Task o (ASubscribe u ts :: l) op n) u ts l eq_refl E eq_refl) as [cc Hcc].
    unfold c_get_user_connection in Hcc. destruct (users (m_conns (m_run i es)) !! u); [eauto|done].
  - destruct (m_tasks _ !! h1) as [[o l op n]|] eqn:E; [|done]. by case_decide.
Qed.

Lemma guarded_users_connected i es ts only u :
  subscribes_connected i es ->
  In u (c_get_interested_by_topic (m_conns (m_run i es)) ts only).2 ->
  exists c, c_get_user_connection (m_conns (m_run i es)) u = Some c.
Proof.
  intros Hg Hin. pose proof (guarded_interest i es Hg) as Hinv.
  destruct (machine_history deser dec_users dec_topics valid i es) as [os Hos]. rewrite Hos in Hin. rewrite interested_users in Hin by apply run_idx.
  destruct Hin as (t & _ & Hf). rewrite <- Hos in Hf. destruct (Hinv _ _ Hf) as [[c h] Hu]. exists c. unfold c_get_user_connection. by rewrite Hu.
Qed.

(** A subscription performed while the user is registered counts. *)
Lemma subscribe_effective i es h good t u ts l ts' only :
  m_tasks (m_run i es) !! h = Some t -> t_acts t = ASubscribe u ts :: l ->
  (exists x, In x ts /\ In x ts') ->
  In u (c_get_interested_by_topic (m_conns (m_run i (es ++ [ERun h good]))) ts' only).2.
Proof.
  intros Ht Ha (x & Hx & Hx'). destruct (machine_history deser dec_users dec_topics valid i es) as [os Hos].
  rewrite m_run_snoc. cbn [TaskModel.m_step]. rewrite Ht. destruct t as [o acts op n]. cbn in Ha. subst acts. cbn [m_conns act_step]. rewrite Hos.
  change (c_subscribe_user_to (c_run i os) u ts) with (c_step (c_run i os) (CSubscribeUser u ts)). rewrite <- c_run_snoc.
  rewrite interested_users_history. exists x. split; [done|]. unfold user_topic. rewrite rev_app_distr. cbn. by left.
Qed.

(** A topic sync applied while the peer is registered counts: newer words are adopted. *)
Lemma topic_sync_effective i es h good t b d l x rv :
  m_tasks (m_run i es) !! h = Some t -> t_acts t = AApplyTopicSync b d :: l ->
  (exists c, c_get_broker_connection (m_conns (m_run i es)) b = Some c) ->
  entries d !! x = Some rv ->
  (forall lv, (exists be, brokers (m_conns (m_run i es)) !! b = Some be /\ entries (be_topics be) !! x = Some lv) -> (ver lv < ver rv)%N) ->
  In b (c_get_interested_by_topic (m_conns (m_run i (es ++ [ERun h good]))) [x] false).1 <-> val rv = Some Subscribed.
Proof.
  intros Ht Ha [c Hc] Hd Hnew. destruct (machine_history deser dec_users dec_topics valid i es) as [os Hos].
  rewrite m_run_snoc. cbn [TaskModel.m_step]. rewrite Ht. destruct t as [o acts op n]. cbn in Ha. subst acts. cbn [m_conns act_step]. rewrite Hos in *.
  change (c_apply_topic_sync (c_run i os) b d) with (c_step (c_run i os) (CApplyTopicSync b d)). rewrite <- c_run_snoc.
  rewrite interested_brokers_view. setoid_rewrite view_advertised. unfold advertised, peer_word. rewrite rev_app_distr. cbn [rev app peer_word_rev].
  pose proof (run_current_broker i os b) as Hcur. unfold c_get_broker_connection in Hc.
  destruct (brokers (c_run i os) !! b) as [be|] eqn:Eb; [|done]. cbn in Hcur.
  pose proof (run_peer_word i os b x) as Hw. rewrite Eb in Hw. destruct Hw as [Hw _].
  assert (Hdec : b = b /\ current_broker_rev (rev os) b <> None) by (split; [done|]; unfold current_broker in Hcur; congruence).
  assert (Hl : lww u32_gtb (cid d) 0%N (peer_word_rev (rev os) b x) (entries d !! x) = taken rv).
  { rewrite Hd. cbn. fold (peer_word os b x). rewrite <- Hw. destruct (entries (be_topics be) !! x) as [lv|] eqn:El.
    - rewrite decide_True; [done|]. cbn. left. apply Hnew. eauto.
    - destruct rv as [v [y|]]; cbn; [rewrite decide_True by done; done|]. rewrite decide_False by (intros H; by apply H). done. }
  split.
  - intros (_ & t & [<-|[]] & v & Hv). rewrite decide_True in Hv by done. rewrite Hl in Hv. unfold taken in Hv. destruct rv as [v' [y|]]; cbn in *; [|done]. congruence.
  - intros Hv. split; [done|]. exists x. split; [by left|]. exists (ver rv). rewrite decide_True by done. rewrite Hl. unfold taken. rewrite Hv. destruct rv; cbn in *. by subst.
Qed.
End proofs.
