(** The running broker at lock granularity: provenance of everything it sends. *)
From stdpp Require Import gmap fin_maps fin_sets list.
From Coq Require Import NArith ZArith Lia.
From Verif Require Import IdModel RelMapModel VMapModel ConnModel ConnSpec ConnProofs ConnProofs2 ConnProofs3 ConnProofs4
  TopicModel TopicProofs MsgModel RouteModel TaskModel.

Section proofs.
Variable deser : bytes -> option message.
Variable dec_users : bytes -> option direct_map.
Variable dec_topics : bytes -> option topic_map.
Variable valid : N -> bool.
Notation m_step := (m_step deser dec_users dec_topics valid).
Notation m_run := (m_run deser dec_users dec_topics valid).

Lemma m_run_snoc i es e : m_run i (es ++ [e]) = m_step (m_run i es) e.
Proof. unfold TaskModel.m_run. by rewrite fold_left_app. Qed.

(** Every state of the running broker is reached by a history of calls on [Connections]. *)
Lemma act_step_history ok s a : exists os, (act_step ok s a).1.1 = fold_left c_step os s.
Proof.
  destruct a as [u raw only|ts raw only|u f|u c f|b f|b c f|f|u|b|u c ts h|b c h|u ts|u ts|m|b m|b|b| |]; cbn [act_step fst];
    try (by exists []).
  - destruct (ok c); by exists [].
  - destruct (ok c); by exists [].
  - by exists [CRemoveUser u].
  - by exists [CRemoveBroker b].
  - by exists [CAddUser u c ts h].
  - by exists [CAddBroker b c h].
  - by exists [CSubscribeUser u ts].
  - by exists [CUnsubscribeUser u ts].
  - by exists [CApplyUserSync m].
  - by exists [CApplyTopicSync b m].
  - exists [CPartialTopicSync]. cbn [fold_left c_step]. destruct (c_get_partial_topic_sync s); done.
  - exists [CPartialUserSync]. cbn [fold_left c_step]. destruct (c_get_partial_user_sync s); done.
Qed.

Lemma m_step_conns m e :
  m_conns (m_step m e) = m_conns m
  \/ exists a ok, m_conns (m_step m e) = (act_step ok (m_conns m) a).1.1.
Proof.
  destruct e as [h hh u c ts|h hh b c|hh|hh u|h raw hk|h|h good|h]; cbn [TaskModel.m_step].
  - case_decide; auto.
  - case_decide; auto.
  - destruct (m_tasks m !! hh); auto.
  - destruct (m_tasks m !! hh); auto.
  - destruct (m_tasks m !! h) as [[o [|? ?] [|] n]|]; auto. destruct (loop_frame _ _ _ _ o raw hk); auto.
  - destruct (m_tasks m !! h) as [[o [|? ?] [|] n]|]; auto.
  - destruct (m_tasks m !! h) as [[o [|a l] op n]|]; auto. right. exists a, (fun _ => good).
    destruct (act_step _ _ a) as [[s' nxt] es]. done.
  - destruct (m_tasks m !! h) as [[o l op n]|]; repeat case_decide; auto.
Qed.

Lemma machine_history i es : exists os, m_conns (m_run i es) = c_run i os.
Proof.
  induction es as [|e es [os IH]] using rev_ind; [by exists []|].
  rewrite m_run_snoc. destruct (m_step_conns (m_run i es) e) as [->|(a & ok & ->)]; [by exists os|].
  destruct (act_step_history ok (m_conns (m_run i es)) a) as [os' ->]. exists (os ++ os').
  rewrite IH. unfold c_run. by rewrite fold_left_app.
Qed.

Lemma machine_identity i es : identity (m_conns (m_run i es)) = i.
Proof. destruct (machine_history i es) as [os ->]. apply run_identity. Qed.

(** ** Provenance *)
Definition is_broker_loop (o : owner) : bool := match o with OBroker _ _ => true | _ => false end.

(** The message routed when loop [h] handled its frame number [n], after the hook. *)
Definition routed (m : machine) (h : N) (n : nat) (raw : bytes) (msg : message) : Prop :=
  exists hk m0, In (Rcvd h n raw hk) (m_rcvd m) /\ deser raw = Some m0 /\ hk m0 = HProcess msg.

(** At some moment after the frame was received (a prefix of the events) the recipient read by the router was
    user [u]: named by a direct message while the directory said "here", or subscribed to
    one of the topics. *)
Definition user_reason (i : bid) (es : list event) (h : N) (n : nat) (raw : bytes) (u : ukey) : Prop :=
  exists msg, routed (m_run i es) h n raw msg /\
    ((exists body, msg = MDirect u body /\
        exists es1 es2, es = es1 ++ es2 /\ routed (m_run i es1) h n raw msg /\ c_get_broker_identifier_of_user (m_conns (m_run i es1)) u = Some i)
     \/ (exists ts body t, msg = MBroadcast ts body /\ In t ts /\
          exists es1 es2, es = es1 ++ es2 /\ routed (m_run i es1) h n raw msg /\ In u (c_get_interested_by_topic (m_conns (m_run i es1)) [t] true).2)).

Definition broker_reason (i : bid) (es : list event) (h : N) (n : nat) (raw : bytes) (b : bid) : Prop :=
  exists msg, routed (m_run i es) h n raw msg /\
    ((exists u body, msg = MDirect u body /\ b <> i /\
        exists es1 es2, es = es1 ++ es2 /\ routed (m_run i es1) h n raw msg /\ c_get_broker_identifier_of_user (m_conns (m_run i es1)) u = Some b)
     \/ (exists ts body t, msg = MBroadcast ts body /\ In t ts /\ valid t = true /\
          exists es1 es2, es = es1 ++ es2 /\ routed (m_run i es1) h n raw msg /\ view (m_conns (m_run i es1)) b t = Some Subscribed)).

(** The connection used was registered for that peer at some earlier moment; for users, at
    one after the frame was received. *)
Definition user_conn_was (i : bid) (es : list event) (h : N) (n : nat) (raw : bytes) (u : ukey) (c : N) : Prop :=
  exists es1 es2, es = es1 ++ es2 /\ (exists msg, routed (m_run i es1) h n raw msg) /\ c_get_user_connection (m_conns (m_run i es1)) u = Some c.
Definition broker_conn_was (i : bid) (es : list event) (b : bid) (c : N) : Prop :=
  exists es1 es2, es = es1 ++ es2 /\ c_get_broker_connection (m_conns (m_run i es1)) b = Some c.

(** What a pending action of task [h] (owner [o], frame [n]) must satisfy. *)
Definition act_ok (i : bid) (es : list event) (h : N) (o : owner) (n : nat) (a : act) : Prop :=
  match a with
  | ADirect u raw only =>
      only = is_broker_loop o /\ o <> OOther /\ exists body, routed (m_run i es) h n raw (MDirect u body)
  | ABroadcast ts raw only =>
      only = is_broker_loop o /\ o <> OOther /\ (exists ts0 body, routed (m_run i es) h n raw (MBroadcast ts0 body) /\
        (forall t, In t ts -> In t ts0 /\ (only = false -> valid t = true)))
  | ALookupUser u (FRelay raw) => o <> OOther /\ user_reason i es h n raw u
  | ASendUser u c (FRelay raw) => o <> OOther /\ user_reason i es h n raw u /\ user_conn_was i es h n raw u c
  | ALookupBroker b (FRelay raw) => (exists u c, o = OUser u c) /\ broker_reason i es h n raw b
  | ASendBroker b c (FRelay raw) => (exists u c, o = OUser u c) /\ broker_reason i es h n raw b /\ broker_conn_was i es b c
  | ALookupUser _ _ | ASendUser _ _ _ => False
  | ASendBroker b c _ => broker_conn_was i es b c
  | ASendBrokers (FRelay _) => False
  | _ => True
  end.

Definition sent_ok (i : bid) (es : list event) (x : sent) : Prop :=
  match s_what x with
  | Emit (inl u) c (FRelay raw) => user_reason i es (s_task x) (s_frame x) raw u /\ user_conn_was i es (s_task x) (s_frame x) raw u c
  | Emit (inl u) c _ => False
  | Emit (inr b) c (FRelay raw) =>
      (exists u cu t, m_tasks (m_run i es) !! s_task x = Some t /\ t_owner t = OUser u cu)
      /\ broker_reason i es (s_task x) (s_frame x) raw b /\ broker_conn_was i es b c
  | Emit (inr b) c _ => broker_conn_was i es b c
  end.

Definition prov (i : bid) (es : list event) : Prop :=
  (forall h t, m_tasks (m_run i es) !! h = Some t -> Forall (act_ok i es h (t_owner t) (t_frames t)) (t_acts t))
  /\ Forall (sent_ok i es) (m_sent (m_run i es)).

(** Monotonicity in the history. *)
Lemma rcvd_mono i es e x : In x (m_rcvd (m_run i es)) -> In x (m_rcvd (m_run i (es ++ [e]))).
Proof.
  intros Hin. rewrite m_run_snoc.
  destruct e as [h hh u c ts|h hh b c|hh|hh u|h raw hk|h|h good|h]; cbn [TaskModel.m_step].
  - case_decide; auto.
  - case_decide; auto.
  - destruct (m_tasks _ !! hh); auto.
  - destruct (m_tasks _ !! hh); auto.
  - destruct (m_tasks _ !! h) as [[o [|? ?] [|] n]|]; auto. destruct (loop_frame _ _ _ _ o raw hk); cbn. apply in_app_iff; auto.
  - destruct (m_tasks _ !! h) as [[o [|? ?] [|] n]|]; auto.
  - destruct (m_tasks _ !! h) as [[o [|a l] op n]|]; auto. destruct (act_step _ _ a) as [[s' nxt] ?]. done.
  - destruct (m_tasks _ !! h) as [[o l op n]|]; repeat case_decide; auto.
Qed.

Lemma routed_mono i es e h n raw msg : routed (m_run i es) h n raw msg -> routed (m_run i (es ++ [e])) h n raw msg.
Proof. intros (hk & m0 & H1 & H2 & H3). exists hk, m0. split; [by apply rcvd_mono|done]. Qed.

Lemma user_reason_mono i es e h n raw u : user_reason i es h n raw u -> user_reason i (es ++ [e]) h n raw u.
Proof.
  intros (msg & Hr & Hw). exists msg. split; [by apply routed_mono|].
  destruct Hw as [(body & -> & es1 & es2 & -> & H)|(ts & body & t & -> & Ht & es1 & es2 & -> & H)].
  - left. exists body. split; [done|]. exists es1, (es2 ++ [e]). by rewrite app_assoc.
  - right. exists ts, body, t. split; [done|]. split; [done|]. exists es1, (es2 ++ [e]). by rewrite app_assoc.
Qed.
Lemma broker_reason_mono i es e h n raw b : broker_reason i es h n raw b -> broker_reason i (es ++ [e]) h n raw b.
Proof.
  intros (msg & Hr & Hw). exists msg. split; [by apply routed_mono|].
  destruct Hw as [(u & body & -> & Hne & es1 & es2 & -> & H)|(ts & body & t & -> & Ht & Hv & es1 & es2 & -> & H)].
  - left. exists u, body. split; [done|]. split; [done|]. exists es1, (es2 ++ [e]). by rewrite app_assoc.
  - right. exists ts, body, t. split; [done|]. split; [done|]. split; [done|]. exists es1, (es2 ++ [e]). by rewrite app_assoc.
Qed.
Lemma user_conn_mono i es e h n raw u c : user_conn_was i es h n raw u c -> user_conn_was i (es ++ [e]) h n raw u c.
Proof. intros (es1 & es2 & -> & H). exists es1, (es2 ++ [e]). by rewrite app_assoc. Qed.
Lemma broker_conn_mono i es e b c : broker_conn_was i es b c -> broker_conn_was i (es ++ [e]) b c.
Proof. intros (es1 & es2 & -> & H). exists es1, (es2 ++ [e]). by rewrite app_assoc. Qed.

Lemma act_ok_mono i es e h o n a : act_ok i es h o n a -> act_ok i (es ++ [e]) h o n a.
Proof.
  destruct a as [u raw only|ts raw only|u f|u c f|b f|b c f|f|u|b|u c ts h'|b c h'|u ts|u ts|m|b m|b|b| |]; cbn [act_ok]; try done.
  - intros (H1 & H2 & body & H3). split; [done|]. split; [done|]. exists body. by apply routed_mono.
  - intros (H1 & H2 & ts0 & body & H3 & H4). split; [done|]. split; [done|]. exists ts0, body. split; [by apply routed_mono|done].
  - destruct f; try done. intros [? ?]. split; [done|]. by apply user_reason_mono.
  - destruct f; try done. intros (? & ? & ?). split; [done|]. split; [by apply user_reason_mono|by apply user_conn_mono].
  - destruct f; try done. intros [? ?]. split; [done|]. by apply broker_reason_mono.
  - destruct f; try (intros ?; by apply broker_conn_mono). intros (? & ? & ?). split; [done|]. split; [by apply broker_reason_mono|by apply broker_conn_mono].
Qed.

(** A task never changes its owner. *)
Lemma step_owner i es e h t : m_tasks (m_run i es) !! h = Some t ->
  exists t', m_tasks (m_run i (es ++ [e])) !! h = Some t' /\ t_owner t' = t_owner t.
Proof.
  intros Ht. rewrite m_run_snoc. set (m := m_run i es) in *.
  destruct e as [h1 hh u c ts|h1 hh b c|hh|hh u|h1 raw hk|h1|h1 good|h1]; cbn [TaskModel.m_step].
  - case_decide as Hd; [|eauto]. destruct Hd as (Hne & H1 & H2). cbn. rewrite !lookup_insert_ne by congruence. eauto.
  - case_decide as Hd; [|eauto]. destruct Hd as (Hne & H1 & H2). cbn. rewrite !lookup_insert_ne by congruence. eauto.
  - destruct (m_tasks m !! hh) eqn:E; [eauto|]. cbn. rewrite lookup_insert_ne by congruence. eauto.
  - destruct (m_tasks m !! hh) eqn:E; [eauto|]. cbn. rewrite lookup_insert_ne by congruence. eauto.
  - destruct (m_tasks m !! h1) as [[o [|? ?] [|] n]|] eqn:E; eauto. destruct (loop_frame _ _ _ _ o raw hk) as [acts go]. cbn.
    destruct (decide (h = h1)) as [->|Hne]; [|rewrite lookup_insert_ne by done; eauto]. rewrite lookup_insert. rewrite E in Ht. injection Ht as <-. eauto.
  - destruct (m_tasks m !! h1) as [[o [|? ?] [|] n]|] eqn:E; eauto. cbn.
    destruct (decide (h = h1)) as [->|Hne]; [|rewrite lookup_insert_ne by done; eauto]. rewrite lookup_insert. rewrite E in Ht. injection Ht as <-. eauto.
  - destruct (m_tasks m !! h1) as [[o [|a l] op n]|] eqn:E; eauto. destruct (act_step _ _ a) as [[s' nxt] es']. cbn.
    destruct (decide (h = h1)) as [->|Hne]; [|rewrite lookup_insert_ne by done; eauto]. rewrite lookup_insert. rewrite E in Ht. injection Ht as <-. eauto.
  - destruct (m_tasks m !! h1) as [[o l op n]|] eqn:E; eauto. case_decide; eauto. cbn.
    destruct (decide (h = h1)) as [->|Hne]; [|rewrite lookup_insert_ne by done; eauto]. rewrite lookup_insert. rewrite E in Ht. injection Ht as <-. eauto.
Qed.

Lemma sent_ok_mono i es e x : sent_ok i es x -> sent_ok i (es ++ [e]) x.
Proof.
  unfold sent_ok. destruct (s_what x) as [[u|b] c [raw|m|m]]; try done.
  - intros [? ?]. split; [by apply user_reason_mono|by apply user_conn_mono].
  - intros ((u & cu & t & Ht & Ho) & ? & ?). split; [|split; [by apply broker_reason_mono|by apply broker_conn_mono]].
    destruct (step_owner i es e _ _ Ht) as (t' & Ht' & Ho'). exists u, cu, t'. split; [done|congruence].
  - apply broker_conn_mono.
  - apply broker_conn_mono.
Qed.

(** Executing one allowed action only produces allowed actions and sends. *)
Lemma act_step_ok i es h o n a good e s' nxt sends :
  act_ok i es h o n a ->
  act_step (fun _ => good) (m_conns (m_run i es)) a = (s', nxt, sends) ->
  Forall (act_ok i (es ++ [e]) h o n) nxt /\
  ((exists t, m_tasks (m_run i (es ++ [e])) !! h = Some t /\ t_owner t = o) -> Forall (fun x => sent_ok i (es ++ [e]) (Sent h n x)) sends).
Proof.
  intros Hok Heq. set (m := m_run i es) in *.
  assert (Hidx : idx_inv (m_conns m)) by (destruct (machine_history i es) as [os Hos]; subst m; rewrite Hos; apply run_idx).
  assert (Hview : view_inv (m_conns m)) by (destruct (machine_history i es) as [os Hos]; subst m; rewrite Hos; apply run_view).
  assert (Hself : exists es1 es2, es = es1 ++ es2 /\ m_run i es1 = m) by (exists es, []; by rewrite app_nil_r).
  destruct a as [u raw only|ts raw only|u f|u c f|b f|b c f|f|u|b|u c ts h'|b c h'|u ts|u ts|d|b d|b|b| |];
    cbn [act_step] in Heq; cbn [act_ok] in Hok.
  - (* direct *) injection Heq as <- <- <-. split; [|constructor]. destruct Hok as (-> & Hno & body & Hr).
    unfold direct_next. destruct (c_get_broker_identifier_of_user (m_conns m) u) as [b|] eqn:Ed; [|constructor].
    subst m. rewrite machine_identity. case_decide as Hb.
    + subst b. constructor; [|constructor]. cbn. split; [done|]. exists (MDirect u body). split; [by apply routed_mono|].
      left. exists body. split; [done|]. exists es, [e]. done.
    + destruct o as [u0 c0|b0 c0|]; [|constructor|done]. cbn. constructor; [|constructor]. split; [by eauto|].
      exists (MDirect u body). split; [by apply routed_mono|]. left. exists u, body. split; [done|]. split; [done|]. exists es, [e]. done.
  - (* broadcast *) injection Heq as <- <- <-. split; [|constructor]. destruct Hok as (-> & Hno & ts0 & body & Hr & Hts).
    unfold broadcast_next. destruct (c_get_interested_by_topic (m_conns m) ts (is_broker_loop o)) as [bs us] eqn:Ei.
    apply Forall_app. split; apply Forall_forall; intros a Ha; apply elem_of_list_In, in_map_iff in Ha as (x & <- & Hx).
    + cbn. assert (Hb : In x (c_get_interested_by_topic (m_conns m) ts (is_broker_loop o)).1) by by rewrite Ei.
      apply interested_brokers in Hb as (Hon & t & Ht & Hf); [|done]. apply Hview in Hf.
      destruct o as [u0 c0|b0 c0|]; [|done|done]. split; [by eauto|]. exists (MBroadcast ts0 body). split; [by apply routed_mono|].
      right. exists ts0, body, t. destruct (Hts t Ht) as [Ht0 Hv]. split; [done|]. split; [done|]. split; [by apply Hv|]. exists es, [e]. done.
    + cbn. assert (Hu : In x (c_get_interested_by_topic (m_conns m) ts (is_broker_loop o)).2) by by rewrite Ei.
      apply interested_users in Hu as (t & Ht & Hf); [|done].
      split; [done|]. exists (MBroadcast ts0 body). split; [by apply routed_mono|]. right. exists ts0, body, t.
      destruct (Hts t Ht) as [Ht0 _]. split; [done|]. split; [done|]. exists es, [e]. split; [done|]. split; [done|].
      apply interested_users; [done|]. exists t. split; [by left|done].
  - injection Heq as <- <- <-. split; [|constructor]. destruct f as [raw|d|d]; [|done|done]. destruct Hok as [Ho Hr].
    destruct (c_get_user_connection (m_conns m) u) as [c|] eqn:Ec; constructor; [|constructor]. cbn.
    split; [done|]. split; [by apply user_reason_mono|]. exists es, [e]. split; [done|]. split; [|done]. destruct Hr as (msg & Hr & _). by exists msg.
  - destruct f as [raw|d|d]; [|done|done]. destruct Hok as (Ho & Hr & Hc). destruct good; injection Heq as <- <- <-.
    + split; [constructor|]. intros _. constructor; [|constructor]. cbn. split; [by apply user_reason_mono|by apply user_conn_mono].
    + split; [|constructor]. constructor; [done|constructor].
  - injection Heq as <- <- <-. split; [|constructor].
    destruct (c_get_broker_connection (m_conns m) b) as [c|] eqn:Ec; constructor; [|constructor].
    destruct f as [raw|d|d]; cbn.
    + destruct Hok as [Ho Hr]. split; [done|]. split; [by apply broker_reason_mono|]. exists es, [e]. done.
    + exists es, [e]. done.
    + exists es, [e]. done.
  - destruct good; injection Heq as <- <- <-.
    + split; [constructor|]. intros (t & Ht & Hto). constructor; [|constructor]. destruct f as [raw|d|d]; cbn.
      * destruct Hok as ((u0 & c0 & ->) & Hr & Hc). split; [by eauto 6|]. split; [by apply broker_reason_mono|by apply broker_conn_mono].
      * by apply broker_conn_mono.
      * by apply broker_conn_mono.
    + split; [|constructor]. constructor; [done|constructor].
  - injection Heq as <- <- <-. split; [|constructor]. apply Forall_forall. intros a Ha.
    apply elem_of_list_In, in_map_iff in Ha as (x & <- & Hx). destruct f; done.
  - injection Heq as <- <- <-. split; constructor.
  - injection Heq as <- <- <-. split; constructor.
  - injection Heq as <- <- <-. split; constructor.
  - injection Heq as <- <- <-. split; constructor.
  - injection Heq as <- <- <-. split; constructor.
  - injection Heq as <- <- <-. split; constructor.
  - injection Heq as <- <- <-. split; constructor.
  - injection Heq as <- <- <-. split; constructor.
  - injection Heq as <- <- <-. split; [|constructor]. destruct (c_get_full_topic_sync (m_conns m)); repeat constructor.
  - injection Heq as <- <- <-. split; [|constructor]. destruct (c_get_full_user_sync (m_conns m)); repeat constructor.
  - destruct (c_get_partial_topic_sync (m_conns m)) as [s1 o1]. injection Heq as <- <- <-. split; [|constructor]. destruct o1; repeat constructor.
  - destruct (c_get_partial_user_sync (m_conns m)) as [s1 o1]. injection Heq as <- <- <-. split; [|constructor]. destruct o1; repeat constructor.
Qed.

(** The actions of a frame are allowed. *)
Lemma loop_frame_ok i es h o n raw hk acts go :
  loop_frame deser dec_users dec_topics valid o raw hk = (acts, go) ->
  In (Rcvd h n raw hk) (m_rcvd (m_run i es)) ->
  Forall (act_ok i es h o n) acts.
Proof.
  intros Heq Hin. destruct o as [u c|b c|]; cbn [loop_frame] in Heq; [| |injection Heq as <- <-; constructor].
  - unfold user_frame in Heq. destruct (deser raw) as [m0|] eqn:Ed; [|injection Heq as <- <-; repeat constructor].
    destruct (hk m0) as [|msg|] eqn:Eh; [injection Heq as <- <-; constructor| |injection Heq as <- <-; repeat constructor].
    destruct msg as [? ? ?|?|? ?|r body|ts body|ts|ts|p|p]; try (injection Heq as <- <-; repeat constructor; fail).
    + injection Heq as <- <-. constructor; [|constructor]. cbn. split; [done|]. split; [done|]. exists body, hk, m0. done.
    + destruct (prune valid ts) as [ts' good] eqn:Ep. destruct good; injection Heq as <- <-; [|repeat constructor].
      constructor; [|constructor]. cbn. split; [done|]. split; [done|]. exists ts, body. split; [exists hk, m0; done|].
      intros t Ht. assert (Ht' : In t (prune valid ts).1) by by rewrite Ep. apply prune_in in Ht'. tauto.
    + destruct (prune valid ts) as [ts' good] eqn:Ep. destruct good; injection Heq as <- <-; repeat constructor.
    + destruct (prune valid ts) as [ts' good] eqn:Ep. destruct good; injection Heq as <- <-; repeat constructor.
  - unfold broker_frame in Heq. destruct (deser raw) as [m0|] eqn:Ed; [|injection Heq as <- <-; repeat constructor].
    destruct (hk m0) as [|msg|] eqn:Eh; [injection Heq as <- <-; constructor| |injection Heq as <- <-; repeat constructor].
    destruct msg as [? ? ?|?|? ?|r body|ts body|ts|ts|p|p]; try (injection Heq as <- <-; repeat constructor; fail).
    + injection Heq as <- <-. constructor; [|constructor]. cbn. split; [done|]. split; [done|]. exists body, hk, m0. done.
    + injection Heq as <- <-. constructor; [|constructor]. cbn. split; [done|]. split; [done|]. exists ts, body. split; [exists hk, m0; done|].
      intros t Ht. split; [done|]. done.
    + destruct (dec_users p); injection Heq as <- <-; repeat constructor.
    + destruct (dec_topics p); injection Heq as <- <-; repeat constructor.
Qed.

Lemma prov_run i es : prov i es.
Proof.
  induction es as [|e es [IHt IHs]] using rev_ind.
  { split; [|constructor]. intros h t. cbn. by rewrite lookup_empty. }
  assert (Hold : forall h t, m_tasks (m_run i es) !! h = Some t -> Forall (act_ok i (es ++ [e]) h (t_owner t) (t_frames t)) (t_acts t)).
  { intros h t Ht. eapply Forall_impl; [by apply IHt|]. intros a. apply act_ok_mono. }
  assert (Hsold : Forall (sent_ok i (es ++ [e])) (m_sent (m_run i es))).
  { eapply Forall_impl; [apply IHs|]. intros a. apply sent_ok_mono. }
  pose proof (m_run_snoc i es e) as Hrun.
  split; [intros h t; rewrite Hrun|rewrite Hrun].
  - destruct e as [h1 hh u c ts|h1 hh b c|hh|hh u|h1 raw hk|h1|h1 good|h1]; cbn [TaskModel.m_step] in *.
    + case_decide as Hd; [|apply Hold]. cbn. destruct (decide (h = hh)) as [->|Hne]; [rewrite lookup_insert|rewrite lookup_insert_ne by done].
      * intros [= <-]. cbn. repeat constructor.
      * destruct (decide (h = h1)) as [->|Hne']; [rewrite lookup_insert|rewrite lookup_insert_ne by done]; [intros [= <-]; constructor|apply Hold].
    + case_decide as Hd; [|apply Hold]. cbn. destruct (decide (h = hh)) as [->|Hne]; [rewrite lookup_insert|rewrite lookup_insert_ne by done].
      * intros [= <-]. cbn. repeat constructor.
      * destruct (decide (h = h1)) as [->|Hne']; [rewrite lookup_insert|rewrite lookup_insert_ne by done]; [intros [= <-]; constructor|apply Hold].
    + destruct (m_tasks (m_run i es) !! hh) eqn:E; [apply Hold|]. cbn. destruct (decide (h = hh)) as [->|Hne]; [rewrite lookup_insert|rewrite lookup_insert_ne by done; apply Hold].
      intros [= <-]. repeat constructor.
    + destruct (m_tasks (m_run i es) !! hh) eqn:E; [apply Hold|]. cbn. destruct (decide (h = hh)) as [->|Hne]; [rewrite lookup_insert|rewrite lookup_insert_ne by done; apply Hold].
      intros [= <-]. repeat constructor.
    + destruct (m_tasks (m_run i es) !! h1) as [[o [|? ?] [|] n]|] eqn:E; try apply Hold.
      destruct (loop_frame deser dec_users dec_topics valid o raw hk) as [acts go] eqn:El. cbn.
      destruct (decide (h = h1)) as [->|Hne]; [rewrite lookup_insert|rewrite lookup_insert_ne by done; apply Hold].
      intros [= <-]. cbn. eapply loop_frame_ok; [exact El|]. rewrite Hrun. cbn. apply in_app_iff. right. by left.
    + destruct (m_tasks (m_run i es) !! h1) as [[o [|? ?] [|] n]|] eqn:E; try apply Hold. cbn.
      destruct (decide (h = h1)) as [->|Hne]; [rewrite lookup_insert|rewrite lookup_insert_ne by done; apply Hold].
      intros [= <-]. cbn. destruct o; repeat constructor.
    + destruct (m_tasks (m_run i es) !! h1) as [[o [|a l] op n]|] eqn:E; try apply Hold.
      destruct (act_step (fun _ => good) (m_conns (m_run i es)) a) as [[s' nxt] sends] eqn:Ea. cbn.
      destruct (decide (h = h1)) as [->|Hne]; [rewrite lookup_insert|rewrite lookup_insert_ne by done; apply Hold].
      intros [= <-]. cbn. pose proof (Hold _ _ E) as Hf. cbn in Hf. apply Forall_cons in Hf as [_ Hf].
      pose proof (IHt _ _ E) as Hf0. cbn in Hf0. apply Forall_cons in Hf0 as [Ha0 _].
      apply Forall_app. split; [|done].
      apply (act_step_ok i es h1 o n a good (ERun h1 good) s' nxt sends Ha0 Ea).
    + destruct (m_tasks (m_run i es) !! h1) as [[o l op n]|] eqn:E; try apply Hold. case_decide; [|apply Hold]. cbn.
      destruct (decide (h = h1)) as [->|Hne]; [rewrite lookup_insert|rewrite lookup_insert_ne by done; apply Hold].
      intros [= <-]. constructor.
  - destruct e as [h1 hh u c ts|h1 hh b c|hh|hh u|h1 raw hk|h1|h1 good|h1]; cbn [TaskModel.m_step] in *.
    + case_decide; done.
    + case_decide; done.
    + destruct (m_tasks (m_run i es) !! hh); done.
    + destruct (m_tasks (m_run i es) !! hh); done.
    + destruct (m_tasks (m_run i es) !! h1) as [[o [|? ?] [|] n]|]; try done. destruct (loop_frame deser dec_users dec_topics valid o raw hk); done.
    + destruct (m_tasks (m_run i es) !! h1) as [[o [|? ?] [|] n]|]; done.
    + destruct (m_tasks (m_run i es) !! h1) as [[o [|a l] op n]|] eqn:E; try done.
      pose proof (step_owner i es (ERun h1 good) _ _ E) as (t' & Ht' & Ho').
      destruct (act_step (fun _ => good) (m_conns (m_run i es)) a) as [[s' nxt] sends] eqn:Ea. cbn.
      apply Forall_app. split; [done|].
      pose proof (IHt _ _ E) as Hf0. cbn in Hf0. apply Forall_cons in Hf0 as [Ha0 _].
      apply Forall_map. apply (act_step_ok i es h1 o n a good (ERun h1 good) s' nxt sends Ha0 Ea). eauto.
    + destruct (m_tasks (m_run i es) !! h1) as [[o l op n]|]; repeat case_decide; done.
Qed.
End proofs.
