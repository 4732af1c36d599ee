(** The running broker at lock granularity: what the receive loop of one user can do to others. *)
From stdpp Require Import gmap fin_maps fin_sets list.
From Coq Require Import NArith ZArith Lia.
From Verif Require Import IdModel RelMapModel VMapModel ConnModel ConnSpec ConnProofs ConnProofs2 ConnProofs3 ConnProofs4
  TopicModel TopicProofs MsgModel RouteModel RouteProofs RouteProofs2 TaskModel TaskProofs TaskHandles.

Section proofs.
Variable deser : bytes -> option message.
Variable dec_users : bytes -> option direct_map.
Variable dec_topics : bytes -> option topic_map.
Variable valid : N -> bool.
Notation m_step := (m_step deser dec_users dec_topics valid).
Notation m_run := (m_run deser dec_users dec_topics valid).
Notation m_run_snoc := (m_run_snoc deser dec_users dec_topics valid).
Notation loop_frame := (loop_frame deser dec_users dec_topics valid).

(** Earlier, task [h] tried to send to user [v] on one of its connections and the send failed. *)
Definition send_failed (i : bid) (es : list event) (h : N) (v : ukey) (c : N) : Prop :=
  exists es1 es2 o f l op n, es = es1 ++ ERun h false :: es2
    /\ m_tasks (m_run i es1) !! h = Some (Task o (ASendUser v c f :: l) op n).
Definition bsend_failed (i : bid) (es : list event) (h : N) (b : bid) (c : N) : Prop :=
  exists es1 es2 o f l op n, es = es1 ++ ERun h false :: es2
    /\ m_tasks (m_run i es1) !! h = Some (Task o (ASendBroker b c f :: l) op n).

(** What the loop of user [u] may have to do. *)
Definition user_act (i : bid) (es : list event) (h : N) (u : ukey) (a : act) : Prop :=
  match a with
  | ADirect _ _ _ | ABroadcast _ _ _ | ALookupUser _ _ | ASendUser _ _ _ | ALookupBroker _ _ | ASendBroker _ _ _ => True
  | ARemoveUser v => v = u \/ exists c, send_failed i es h v c
  | ARemoveBroker b => exists c, bsend_failed i es h b c
  | ASubscribe v _ | AUnsubscribe v _ => v = u
  | _ => False
  end.

Lemma send_failed_mono i es e h v c : send_failed i es h v c -> send_failed i (es ++ [e]) h v c.
Proof. intros (es1 & es2 & o & f & l & op & n & -> & H). exists es1, (es2 ++ [e]), o, f, l, op, n. by rewrite <- app_assoc. Qed.
Lemma bsend_failed_mono i es e h v c : bsend_failed i es h v c -> bsend_failed i (es ++ [e]) h v c.
Proof. intros (es1 & es2 & o & f & l & op & n & -> & H). exists es1, (es2 ++ [e]), o, f, l, op, n. by rewrite <- app_assoc. Qed.
Lemma user_act_mono i es e h u a : user_act i es h u a -> user_act i (es ++ [e]) h u a.
Proof.
  destruct a; cbn; try done.
  - intros [->|[c Hc]]; [by left|right]. exists c. by apply send_failed_mono.
  - intros [c Hc]. exists c. by apply bsend_failed_mono.
Qed.

Definition user_loop_ok (i : bid) (es : list event) : Prop :=
  forall h t u c, m_tasks (m_run i es) !! h = Some t -> t_owner t = OUser u c -> Forall (user_act i es h u) (t_acts t).

Lemma user_frame_acts i es h u c raw hk : Forall (user_act i es h u) (loop_frame (OUser u c) raw hk).1.
Proof.
  cbn. unfold user_frame.
  assert (Hr : Forall (user_act i es h u) [ARemoveUser u]) by (apply Forall_singleton; by left).
  destruct (deser raw) as [m0|]; [|exact Hr]. destruct (hk m0) as [|m1|]; [constructor| |exact Hr].
  destruct m1; try exact Hr; try (destruct (prune valid topics) as [? [|]]; [|exact Hr]); by apply Forall_singleton.
Qed.

Lemma user_loop_run i es : user_loop_ok i es.
Proof.
  induction es as [|e es IH] using rev_ind.
  { intros h t u c Ht. cbn in Ht. by rewrite lookup_empty in Ht. }
  assert (Hold : forall h t u c, m_tasks (m_run i es) !! h = Some t -> t_owner t = OUser u c -> Forall (user_act i (es ++ [e]) h u) (t_acts t)).
  { intros h t u c Ht Ho. eapply Forall_impl; [by eapply IH|]. intros a. apply user_act_mono. }
  clear IH. unfold user_loop_ok. rewrite m_run_snoc. set (m := m_run i es) in *.
  destruct e as [h1 hh v c1 ts|h1 hh b c1|hh|hh v|h1 raw hk|h1|h1 good|h1]; cbn [TaskModel.m_step].
  - case_decide; [|done]. intros h t u c. cbn. destruct (decide (h = hh)) as [->|Hne]; [rewrite lookup_insert; by intros [= <-]|rewrite lookup_insert_ne by done].
    destruct (decide (h = h1)) as [->|Hne2]; [rewrite lookup_insert; intros [= <-]; constructor|rewrite lookup_insert_ne by done; apply Hold].
  - case_decide; [|done]. intros h t u c. cbn. destruct (decide (h = hh)) as [->|Hne]; [rewrite lookup_insert; by intros [= <-]|rewrite lookup_insert_ne by done].
    destruct (decide (h = h1)) as [->|Hne2]; [rewrite lookup_insert; intros [= <-]; constructor|rewrite lookup_insert_ne by done; apply Hold].
  - destruct (m_tasks m !! hh); [done|]. intros h t u c. cbn. destruct (decide (h = hh)) as [->|Hne]; [rewrite lookup_insert; by intros [= <-]|rewrite lookup_insert_ne by done; apply Hold].
  - destruct (m_tasks m !! hh); [done|]. intros h t u c. cbn. destruct (decide (h = hh)) as [->|Hne]; [rewrite lookup_insert; by intros [= <-]|rewrite lookup_insert_ne by done; apply Hold].
  - destruct (m_tasks m !! h1) as [[o [|? ?] [|] n]|] eqn:E; try done.
    destruct (loop_frame o raw hk) as [acts go] eqn:El. intros h t u c. cbn. destruct (decide (h = h1)) as [->|Hne]; [|rewrite lookup_insert_ne by done; apply Hold].
    rewrite lookup_insert. intros [= <-]. cbn. intros ->. pose proof (user_frame_acts i (es ++ [EFrame h1 raw hk]) h1 u c raw hk) as Hf. rewrite El in Hf. exact Hf.
  - destruct (m_tasks m !! h1) as [[o [|? ?] [|] n]|] eqn:E; try done. intros h t u c. cbn. destruct (decide (h = h1)) as [->|Hne]; [|rewrite lookup_insert_ne by done; apply Hold].
    rewrite lookup_insert. intros [= <-]. cbn. intros ->. apply Forall_singleton. by left.
  - destruct (m_tasks m !! h1) as [[o [|a l] op n]|] eqn:E; try done.
    destruct (act_step (fun _ => good) (m_conns m) a) as [[s' nxt] sends] eqn:Ea.
    intros h t u c. cbn. destruct (decide (h = h1)) as [->|Hne]; [|rewrite lookup_insert_ne by done; apply Hold].
    rewrite lookup_insert. intros [= <-]. cbn. intros ->.
    pose proof (Hold h1 _ u c E eq_refl) as Hf. cbn in Hf. apply Forall_cons in Hf as [Ha Hf]. apply Forall_app. split; [|done].
    destruct a as [w raw only|ts raw only|w f|w cw f|b f|b cb f|f|w|b|w cw ts h'|b cb h'|w ts|w ts|d|b d|b|b| |]; cbn [act_step] in Ea; try done.
    + injection Ea as <- <- <-. unfold direct_next. destruct (c_get_broker_identifier_of_user (m_conns m) w); [case_decide; [|destruct only]|]; repeat constructor.
    + injection Ea as <- <- <-. unfold broadcast_next. destruct (c_get_interested_by_topic (m_conns m) ts only). apply Forall_app. split; apply Forall_map, Forall_true; done.
    + injection Ea as <- <- <-. destruct (c_get_user_connection (m_conns m) w); repeat constructor.
    + destruct good; injection Ea as <- <- <-; [constructor|]. apply Forall_singleton. right. exists cw. exists es, [], (OUser u c), f, l, op, n. split; [done|exact E].
    + injection Ea as <- <- <-. destruct (c_get_broker_connection (m_conns m) b); repeat constructor.
    + destruct good; injection Ea as <- <- <-; [constructor|]. apply Forall_singleton. exists cb. exists es, [], (OUser u c), f, l, op, n. split; [done|exact E].
    + injection Ea as <- <- <-. constructor.
    + injection Ea as <- <- <-. constructor.
    + injection Ea as <- <- <-. constructor.
    + injection Ea as <- <- <-. constructor.
  - destruct (m_tasks m !! h1) as [[o l op n]|] eqn:E; [|done]. case_decide; [|done]. intros h t u c. cbn. destruct (decide (h = h1)) as [->|Hne]; [|rewrite lookup_insert_ne by done; apply Hold].
    rewrite lookup_insert. intros [= <-]. constructor.
Qed.

(** A step of the receive loop of user [u] (accepting a frame, failing, or performing an
    action): other users and brokers keep connection, directory entry and interest, except
    for those to whom this loop tried to send and could not. *)
Definition loop_step (e : event) (h : N) : Prop :=
  (exists raw hk, e = EFrame h raw hk) \/ e = ERecvErr h \/ (exists good, e = ERun h good) \/ e = ECancel h.

Lemma user_loop_isolated i es e h t u c :
  loop_step e h -> m_tasks (m_run i es) !! h = Some t -> t_owner t = OUser u c ->
  let s := m_conns (m_run i es) in let s' := m_conns (m_run i (es ++ [e])) in
  (forall v, v <> u ->
     (c_get_user_connection s' v = c_get_user_connection s v
      /\ c_get_broker_identifier_of_user s' v = c_get_broker_identifier_of_user s v
      /\ forall ts only, In v (c_get_interested_by_topic s' ts only).2 <-> In v (c_get_interested_by_topic s ts only).2)
     \/ exists cv, send_failed i es h v cv)
  /\ (forall b,
     (c_get_broker_connection s' b = c_get_broker_connection s b
      /\ forall ts only, In b (c_get_interested_by_topic s' ts only).1 <-> In b (c_get_interested_by_topic s ts only).1)
     \/ exists cb, bsend_failed i es h b cb).
Proof.
  intros He Ht Ho s s'. subst s s'. rewrite m_run_snoc. pose proof (user_loop_run i es h t u c Ht Ho) as Hacts.
  destruct (machine_history deser dec_users dec_topics valid i es) as [os Hos].
  set (m := m_run i es) in *.
  assert (Hsame : forall s', m_conns m = s' ->
    (forall v, v <> u -> (c_get_user_connection s' v = c_get_user_connection (m_conns m) v
      /\ c_get_broker_identifier_of_user s' v = c_get_broker_identifier_of_user (m_conns m) v
      /\ forall ts only, In v (c_get_interested_by_topic s' ts only).2 <-> In v (c_get_interested_by_topic (m_conns m) ts only).2) \/ exists cv, send_failed i es h v cv)
    /\ (forall b, (c_get_broker_connection s' b = c_get_broker_connection (m_conns m) b
      /\ forall ts only, In b (c_get_interested_by_topic s' ts only).1 <-> In b (c_get_interested_by_topic (m_conns m) ts only).1) \/ exists cb, bsend_failed i es h b cb)).
  { intros s' <-. split; intros; by left. }
  destruct t as [o acts op n]. cbn in Ho, Hacts. subst o.
  destruct He as [(raw & hk & ->)|[->|[(good & ->)| -> ]]]; cbn [TaskModel.m_step]; rewrite Ht.
  - apply Hsame. destruct acts, op; try done. destruct (loop_frame _ _ _); done.
  - apply Hsame. by destruct acts, op.
  - destruct acts as [|a l]; [by apply Hsame|]. apply Forall_cons in Hacts as [Ha _].
    destruct (act_step (fun _ => good) (m_conns m) a) as [[s' nxt] sends] eqn:Ea. cbn [m_conns].
    assert (Hu : forall o, s' = c_step (m_conns m) o ->
       match o with CRemoveUser x => x = u \/ exists cv, send_failed i es h x cv | CRemoveBroker b => exists cb, bsend_failed i es h b cb
       | CSubscribeUser x _ | CUnsubscribeUser x _ => x = u | _ => False end ->
       (forall v, v <> u -> (c_get_user_connection s' v = c_get_user_connection (m_conns m) v
      /\ c_get_broker_identifier_of_user s' v = c_get_broker_identifier_of_user (m_conns m) v
      /\ forall ts only, In v (c_get_interested_by_topic s' ts only).2 <-> In v (c_get_interested_by_topic (m_conns m) ts only).2) \/ exists cv, send_failed i es h v cv)
    /\ (forall b, (c_get_broker_connection s' b = c_get_broker_connection (m_conns m) b
      /\ forall ts only, In b (c_get_interested_by_topic s' ts only).1 <-> In b (c_get_interested_by_topic (m_conns m) ts only).1) \/ exists cb, bsend_failed i es h b cb)).
    { intros o -> Hop. rewrite Hos. change (c_step (c_run i os) o) with (fold_left c_step [o] (c_run i os)). split.
      - intros v Hne. destruct o as [|x| |b|x ts'|x ts'| | | |]; try done.
        + destruct (decide (x = v)) as [->|Hno]; [right; by destruct Hop as [->|Hop]|]. left. apply ops_frame_user. by apply Forall_singleton.
        + left. apply ops_frame_user. by apply Forall_singleton.
        + left. apply ops_frame_user. apply Forall_singleton. congruence.
        + left. apply ops_frame_user. apply Forall_singleton. congruence.
      - intros b. destruct o as [|x| |b'|x ts'|x ts'| | | |]; try done.
        + left. apply ops_frame_broker. by apply Forall_singleton.
        + destruct (decide (b' = b)) as [->|Hno]; [by right|]. left. apply ops_frame_broker. by apply Forall_singleton.
        + left. apply ops_frame_broker. by apply Forall_singleton.
        + left. apply ops_frame_broker. by apply Forall_singleton. }
    destruct a as [w raw only|ts raw only|w f|w cw f|b f|b cb f|f|w|b|w cw ts h'|b cb h'|w ts|w ts|d|b d|b|b| |]; cbn [act_step] in Ea; try done;
      try (injection Ea as <- <- <-; by apply Hsame).
    + destruct good; injection Ea as <- <- <-; by apply Hsame.
    + destruct good; injection Ea as <- <- <-; by apply Hsame.
    + injection Ea as <- <- <-. apply (Hu (CRemoveUser w)); done.
    + injection Ea as <- <- <-. apply (Hu (CRemoveBroker b)); done.
    + injection Ea as <- <- <-. apply (Hu (CSubscribeUser w ts)); done.
    + injection Ea as <- <- <-. apply (Hu (CUnsubscribeUser w ts)); done.
  - apply Hsame. case_decide; done.
Qed.

(** ** Why a registered user connection disappears *)
Definition remove_cause (i : bid) (es : list event) (h : N) (o : owner) (a : act) : Prop :=
  match a with
  | ARemoveUser v => (exists c, o = OUser v c) \/ In (EKick h v) es \/ exists c, send_failed i es h v c
  | _ => True
  end.

Lemma remove_cause_mono i es e h o a : remove_cause i es h o a -> remove_cause i (es ++ [e]) h o a.
Proof.
  destruct a; cbn; try done. intros [Ho|[Hk|[c Hc]]]; [by left|right; left; apply in_app_iff; by left|].
  right. right. exists c. by apply send_failed_mono.
Qed.

Lemma loop_frame_cause i es h o raw hk : Forall (remove_cause i es h o) (loop_frame o raw hk).1.
Proof.
  destruct o as [u c|b c|]; cbn; [| |constructor].
  - unfold user_frame.
    assert (Hr : Forall (remove_cause i es h (OUser u c)) [ARemoveUser u]) by (apply Forall_singleton; left; eauto).
    destruct (deser raw) as [m0|]; [|exact Hr]. destruct (hk m0) as [|m1|]; [constructor| |exact Hr].
    destruct m1; try exact Hr; try (destruct (prune valid topics) as [? [|]]; [|exact Hr]); by apply Forall_singleton.
  - unfold broker_frame. destruct (deser raw) as [m0|]; [|repeat constructor]. destruct (hk m0) as [|m1|]; [constructor| |repeat constructor].
    destruct m1; try (destruct (dec_users payload)); try (destruct (dec_topics payload)); repeat constructor.
Qed.

Lemma act_step_cause i es h o good s a s' nxt sends l op n :
  m_conns (m_run i es) = s -> m_tasks (m_run i es) !! h = Some (Task o (a :: l) op n) ->
  act_step (fun _ => good) s a = (s', nxt, sends) -> Forall (remove_cause i (es ++ [ERun h good]) h o) nxt.
Proof.
  intros <- E Ea.
  destruct a as [w raw only|ts raw only|w f|w cw f|b f|b cb f|f|w|b|w cw ts h'|b cb h'|w ts|w ts|d|b d|b|b| |]; cbn [act_step] in Ea; try done;
    try (injection Ea as <- <- <-; constructor).
  - injection Ea as <- <- <-. unfold direct_next. destruct (c_get_broker_identifier_of_user _ w); [case_decide; [|destruct only]|]; repeat constructor.
  - injection Ea as <- <- <-. unfold broadcast_next. destruct (c_get_interested_by_topic _ ts only). apply Forall_app. split; apply Forall_map, Forall_true; done.
  - injection Ea as <- <- <-. destruct (c_get_user_connection _ w); repeat constructor.
  - destruct good; injection Ea as <- <- <-; [constructor|]. apply Forall_singleton. right. right. exists cw. exists es, [], o, f, l, op, n. split; [done|exact E].
  - injection Ea as <- <- <-. destruct (c_get_broker_connection _ b); repeat constructor.
  - destruct good; injection Ea as <- <- <-; repeat constructor.
  - injection Ea as <- <- <-. apply Forall_map, Forall_true. done.
  - injection Ea as <- <- <-. destruct (c_get_full_topic_sync _); repeat constructor.
  - injection Ea as <- <- <-. destruct (c_get_full_user_sync _); repeat constructor.
  - destruct (c_get_partial_topic_sync _) as [s1 [o1|]]; injection Ea as <- <- <-; repeat constructor.
  - destruct (c_get_partial_user_sync _) as [s1 [o1|]]; injection Ea as <- <- <-; repeat constructor.
Qed.

Lemma cause_run i es h t :
  m_tasks (m_run i es) !! h = Some t -> Forall (remove_cause i es h (t_owner t)) (t_acts t).
Proof.
  revert h t. induction es as [|e es IH] using rev_ind.
  { intros h t Ht. cbn in Ht. by rewrite lookup_empty in Ht. }
  assert (Hold : forall h t, m_tasks (m_run i es) !! h = Some t -> Forall (remove_cause i (es ++ [e]) h (t_owner t)) (t_acts t)).
  { intros h t Ht. eapply Forall_impl; [by eapply IH|]. intros a. apply remove_cause_mono. }
  clear IH. rewrite m_run_snoc.
  destruct e as [h1 hh v c1 ts|h1 hh b c1|hh|hh v|h1 raw hk|h1|h1 good|h1]; cbn [TaskModel.m_step].
  - case_decide; [|done]. intros h t. cbn. destruct (decide (h = hh)) as [->|Hne]; [rewrite lookup_insert; intros [= <-]; repeat constructor|rewrite lookup_insert_ne by done].
    destruct (decide (h = h1)) as [->|Hne2]; [rewrite lookup_insert; intros [= <-]; constructor|rewrite lookup_insert_ne by done; apply Hold].
  - case_decide; [|done]. intros h t. cbn. destruct (decide (h = hh)) as [->|Hne]; [rewrite lookup_insert; intros [= <-]; repeat constructor|rewrite lookup_insert_ne by done].
    destruct (decide (h = h1)) as [->|Hne2]; [rewrite lookup_insert; intros [= <-]; constructor|rewrite lookup_insert_ne by done; apply Hold].
  - destruct (m_tasks (m_run i es) !! hh); [done|]. intros h t. cbn. destruct (decide (h = hh)) as [->|Hne]; [rewrite lookup_insert; intros [= <-]; repeat constructor|rewrite lookup_insert_ne by done; apply Hold].
  - destruct (m_tasks (m_run i es) !! hh); [done|]. intros h t. cbn. destruct (decide (h = hh)) as [->|Hne]; [rewrite lookup_insert; intros [= <-]|rewrite lookup_insert_ne by done; apply Hold].
    apply Forall_singleton. right. left. apply in_app_iff. right. by left.
  - destruct (m_tasks (m_run i es) !! h1) as [[o [|? ?] [|] n]|] eqn:E; try done.
    pose proof (loop_frame_cause i (es ++ [EFrame h1 raw hk]) h1 o raw hk) as Hf.
    destruct (loop_frame o raw hk) as [acts go] eqn:El. intros h t. cbn. destruct (decide (h = h1)) as [->|Hne]; [|rewrite lookup_insert_ne by done; apply Hold].
    rewrite lookup_insert. intros [= <-]. exact Hf.
  - destruct (m_tasks (m_run i es) !! h1) as [[o [|? ?] [|] n]|] eqn:E; try done. intros h t. cbn. destruct (decide (h = h1)) as [->|Hne]; [|rewrite lookup_insert_ne by done; apply Hold].
    rewrite lookup_insert. intros [= <-]. cbn. destruct o; cbn; [|repeat constructor|constructor]. apply Forall_singleton. left. eauto.
  - destruct (m_tasks (m_run i es) !! h1) as [[o [|a l] op n]|] eqn:E; try done.
    destruct (act_step (fun _ => good) (m_conns (m_run i es)) a) as [[s' nxt] sends] eqn:Ea.
    intros h t. cbn. destruct (decide (h = h1)) as [->|Hne]; [|rewrite lookup_insert_ne by done; apply Hold].
    rewrite lookup_insert. intros [= <-]. cbn. pose proof (Hold h1 _ E) as Hf. cbn in Hf. apply Forall_cons in Hf as [Ha Hf]. apply Forall_app. split; [|done].
    by eapply act_step_cause.
  - destruct (m_tasks (m_run i es) !! h1) as [[o l op n]|] eqn:E; [|done]. case_decide; [|done]. intros h t. cbn. destruct (decide (h = h1)) as [->|Hne]; [|rewrite lookup_insert_ne by done; apply Hold].
    rewrite lookup_insert. intros [= <-]. constructor.
Qed.

(** Loops: registered, superseded (cancelled), or still waiting to be registered. *)
Lemma live_registered s h : In h (live_handles s) -> exists o, registered s h o.
Proof.
  unfold live_handles. rewrite in_app_iff, !in_map_iff. intros [([u [c h']] & <- & Hi)|([b [c tm h']] & <- & Hi)]; apply elem_of_list_In, elem_of_map_to_list in Hi.
  - by exists (OUser u c).
  - exists (OBroker b c). by exists tm.
Qed.

Definition known (s : conns) (h : N) : Prop := In h (live_handles s) \/ In h (aborted s).

Definition loops_known (m : machine) : Prop :=
  (forall h t, m_tasks m !! h = Some t -> t_owner t <> OOther -> unregistered m h \/ known (m_conns m) h)
  /\ (forall h t, m_tasks m !! h = Some t -> adds (t_acts t) <> [] -> t_owner t = OOther)
  /\ (forall h t, m_tasks m !! h = Some t -> known (m_conns m) h -> t_owner t <> OOther).

Lemma known_added i os h : NoDup (added_handles os) -> known (c_run i os) h <-> In h (added_handles os).
Proof. intros Hnd. destruct (handles_accounted i os h Hnd) as [Hiff _]. unfold known. tauto. Qed.

(** Adding or changing tasks without touching the state. *)
Lemma loops_known_set m h o acts op n sent rcv :
  loops_known m -> adds acts = [] ->
  (forall t, m_tasks m !! h = Some t -> t_owner t = o /\ (adds (t_acts t) = [])) ->
  (m_tasks m !! h = None -> o = OOther /\ ~ known (m_conns m) h) ->
  loops_known (Machine (m_conns m) (<[h := Task o acts op n]> (m_tasks m)) sent rcv).
Proof.
  intros (HA & HB & HC) Hadds Hold Hnew.
  assert (Hun : forall h', unregistered m h' -> unregistered (Machine (m_conns m) (<[h := Task o acts op n]> (m_tasks m)) sent rcv) h').
  { intros h' (hh & t & Ht & Hi). exists hh, t. split; [|done]. cbn. rewrite lookup_insert_ne; [done|]. intros <-. destruct (Hold _ Ht) as [_ He]. by rewrite He in Hi. }
  split; [|split]; intros h' t; cbn [m_tasks m_conns]; (destruct (decide (h' = h)) as [->|Hne]; [rewrite lookup_insert; intros [= <-]; cbn|rewrite lookup_insert_ne by done; intros Ht]).
  - intros Ho. destruct (m_tasks m !! h) as [t|] eqn:E; [|by destruct (Hnew eq_refl) as [-> _]]. destruct (Hold t eq_refl) as [<- _].
    destruct (HA _ _ E Ho); auto.
  - intros Ho. destruct (HA _ _ Ht Ho); auto.
  - intros Hne. change (adds acts <> []) in Hne. by rewrite Hadds in Hne.
  - exact (HB _ _ Ht).
  - intros Hk. destruct (m_tasks m !! h) as [t|] eqn:E; [|by destruct (Hnew eq_refl) as [_ ?]]. destruct (Hold t eq_refl) as [<- _]. by eapply HC.
  - exact (HC _ _ Ht).
Qed.

Lemma loops_known_start m h hh o a rest :
  loops_known m -> h <> hh -> m_tasks m !! h = None -> m_tasks m !! hh = None ->
  ~ known (m_conns m) hh ->
  add_owner a = Some (h, o) -> o <> OOther ->
  loops_known (set_task (set_task m h (Task o [] true 0)) hh (Task OOther (a :: rest) false 0)).
Proof.
  intros (HA & HB & HC) Hne Hh Hhh Hk Hao Hoo.
  assert (Hun : forall h', unregistered m h' -> unregistered (set_task (set_task m h (Task o [] true 0)) hh (Task OOther (a :: rest) false 0)) h').
  { intros h' (h2 & t & Ht & Hi). exists h2, t. split; [|done]. cbn. rewrite !lookup_insert_ne by congruence. done. }
  split; [|split]; intros h' t; cbn [m_tasks m_conns set_task];
    (destruct (decide (h' = hh)) as [->|Hne1]; [rewrite lookup_insert; intros [= <-]; cbn|rewrite lookup_insert_ne by done]);
    try (destruct (decide (h' = h)) as [->|Hne2]; [rewrite lookup_insert; intros [= <-]; cbn|rewrite lookup_insert_ne by done; intros Ht]).
  - done.
  - intros _. left. exists hh, (Task OOther (a :: rest) false 0). split; [cbn; by rewrite lookup_insert|]. apply adds_in. exists a, o. split; [by left|done].
  - intros Ho. destruct (HA _ _ Ht Ho); auto.
  - done.
  - done.
  - exact (HB _ _ Ht).
  - done.
  - done.
  - exact (HC _ _ Ht).
Qed.

Lemma loops_known_run i es : loops_known (m_run i es).
Proof.
  induction es as [|e es IH] using rev_ind.
  { split; [|split]; intros h t; cbn; by rewrite lookup_empty. }
  pose proof (handle_run deser dec_users dec_topics valid i es) as Hh. rewrite m_run_snoc. set (m := m_run i es) in *.
  assert (Hfresh : forall h, m_tasks m !! h = None -> ~ known (m_conns m) h).
  { intros h Hn Hk. destruct Hh as (os & Hc & Hnd & Hin & _). rewrite Hc, known_added in Hk by done. destruct (Hin h Hk) as [[t Ht] _]. congruence. }
  assert (Hown : forall h t, m_tasks m !! h = Some t -> t_owner t <> OOther -> adds (t_acts t) = []).
  { intros h t Ht Ho. destruct (adds (t_acts t)) eqn:E; [done|]. exfalso. apply Ho. destruct IH as (_ & HB & _). apply (HB _ _ Ht). congruence. }
  destruct e as [h1 hh v c1 ts|h1 hh b c1|hh|hh v|h1 raw hk|h1|h1 good|h1]; cbn [TaskModel.m_step].
  - case_decide as Hd; [|done]. destruct Hd as (Hne & H1 & H2). eapply loops_known_start; eauto; done.
  - case_decide as Hd; [|done]. destruct Hd as (Hne & H1 & H2). eapply loops_known_start; eauto; done.
  - destruct (m_tasks m !! hh) eqn:E; [done|]. apply loops_known_set; [done|done|congruence|auto].
  - destruct (m_tasks m !! hh) eqn:E; [done|]. apply loops_known_set; [done|done|congruence|auto].
  - destruct (m_tasks m !! h1) as [[o [|? ?] [|] n]|] eqn:E; try done.
    pose proof (loop_frame_adds deser dec_users dec_topics valid o raw hk) as Hl. destruct (loop_frame o raw hk) as [acts go].
    apply loops_known_set; [done|done| |congruence]. intros t. rewrite E. by intros [= <-].
  - destruct (m_tasks m !! h1) as [[o [|? ?] [|] n]|] eqn:E; try done.
    apply loops_known_set; [done|by destruct o| |congruence]. intros t. rewrite E. by intros [= <-].
  - destruct (m_tasks m !! h1) as [[o [|a l] op n]|] eqn:E; try done.
    destruct (act_step (fun _ => good) (m_conns m) a) as [[s' nxt] sends] eqn:Ea.
    destruct (act_step_adds _ _ _ _ _ _ Ea) as (Hnxt & os' & Hos' & Hadd).
    destruct IH as (HA & HB & HC). destruct Hh as (os & Hc & Hnd & Hin & Hn & Ho & Hu & _).
    assert (Hnd' : NoDup (added_handles (os ++ os'))).
    { pose proof (handle_run deser dec_users dec_topics valid i (es ++ [ERun h1 good])) as (os2 & Hc2 & Hnd2 & _). rewrite m_run_snoc in Hc2. fold m in Hc2. cbn in Hc2. rewrite E, Ea in Hc2. cbn in Hc2.
      assert (s' = c_run i (os ++ os')) as Hs by (rewrite Hos', Hc; unfold c_run; by rewrite fold_left_app).
      rewrite run_handles. rewrite <- Hs, Hc2, <- run_handles. done. }
    assert (Hkn : forall h, known s' h <-> known (m_conns m) h \/ In h (add_handle a)).
    { intros h. rewrite Hos', Hc. replace (fold_left c_step os' (c_run i os)) with (c_run i (os ++ os')) by (unfold c_run; by rewrite fold_left_app).
      rewrite !known_added by done. unfold added_handles. rewrite map_app, concat_app, in_app_iff. fold (added_handles os) (added_handles os'). by rewrite Hadd. }
    assert (Hal : forall x, In x (adds (a :: l)) <-> In x (add_handle a) \/ In x (adds l)).
    { intros x. change (adds (a :: l)) with (add_handle a ++ adds l). by rewrite in_app_iff. }
    split; [|split]; intros h t; cbn [m_tasks m_conns].
    + intros Ht Hoo. rewrite Hkn.
      assert (Hpre : unregistered m h \/ known (m_conns m) h).
      { destruct (decide (h = h1)) as [->|Hne]; [rewrite lookup_insert in Ht; injection Ht as <-; by eapply (HA h1)|rewrite lookup_insert_ne in Ht by done; by eapply HA]. }
      destruct Hpre as [(h2 & t2 & Ht2 & Hi2)|Hk]; [|auto].
      destruct (decide (h2 = h1)) as [->|Hne2].
      * rewrite E in Ht2. injection Ht2 as <-. apply Hal in Hi2 as [Hi2|Hi2]; [auto|]. left. exists h1, (Task o (nxt ++ l) op n). cbn [m_tasks]. rewrite lookup_insert. split; [done|]. cbn [t_acts]. rewrite adds_app, Hnxt. exact Hi2.
      * left. exists h2, t2. cbn. rewrite lookup_insert_ne by done. done.
    + destruct (decide (h = h1)) as [->|Hne]; [rewrite lookup_insert; intros [= <-]|rewrite lookup_insert_ne by done; apply HB].
      cbn [t_acts t_owner]. rewrite adds_app, Hnxt. cbn [app]. intros Hal0. apply (HB h1 _ E). cbn [t_acts]. change (adds (a :: l)) with (add_handle a ++ adds l). destruct (add_handle a); [done|done].
    + intros Ht Hk. apply Hkn in Hk as [Hk|Hk].
      * destruct (decide (h = h1)) as [->|Hne]; [rewrite lookup_insert in Ht; injection Ht as <-; exact (HC h1 _ E Hk)|rewrite lookup_insert_ne in Ht by done; exact (HC _ _ Ht Hk)].
      * assert (Hao : exists o0, add_owner a = Some (h, o0) /\ o0 <> OOther).
        { destruct a; cbn in Hk; try done; destruct Hk as [<-|[]]; cbn; eauto. }
        destruct Hao as (o0 & Hao & Hoo). destruct (Ho h1 _ a h o0 E (or_introl eq_refl) Hao) as (t0 & Ht0 & Hot0).
        destruct (decide (h = h1)) as [->|Hne]; [rewrite lookup_insert in Ht; injection Ht as <-|rewrite lookup_insert_ne in Ht by done].
        -- rewrite E in Ht0. injection Ht0 as <-. cbn in *. congruence.
        -- congruence.
  - destruct (m_tasks m !! h1) as [[o l op n]|] eqn:E; [|done]. case_decide as Hin; [|done]. apply elem_of_list_In in Hin.
    apply loops_known_set; [done|done| |congruence]. intros t. rewrite E. intros [= <-]. split; [done|]. apply (Hown h1 _ E). destruct IH as (_ & _ & HC). apply (HC h1 _ E). by right.
Qed.

(** The causes, exhaustively. *)
Lemma why_removed i es e h u c :
  registered (m_conns (m_run i es)) h (OUser u c) ->
  ~ registered (m_conns (m_run i (es ++ [e]))) h (OUser u c) ->
  exists hh good t a l, e = ERun hh good /\ m_tasks (m_run i es) !! hh = Some t /\ t_acts t = a :: l /\
    ((exists c' ts h', a = AAddUser u c' ts h')
     \/ (exists d, a = AApplyUserSync d /\ sync_overrides i d u (entries (direct (m_conns (m_run i es))) !! u))
     \/ (a = ARemoveUser u /\
          (hh = h
           \/ In (EKick hh u) es
           \/ (exists cu, send_failed i es hh u cu)
           \/ (hh <> h /\ (exists c', t_owner t = OUser u c')
               /\ (In hh (aborted (m_conns (m_run i es))) \/ unregistered (m_run i es) hh))))).
Proof.
  intros Hr Hn. rewrite m_run_snoc in Hn.
  pose proof (cause_run i es) as Hcause. pose proof (handle_run deser dec_users dec_topics valid i es) as Hh.
  pose proof (loops_known_run i es) as Hk. destruct (machine_history deser dec_users dec_topics valid i es) as [os0 Hos0].
  set (m := m_run i es) in *.
  assert (Hsame : forall s', m_conns m = s' -> registered s' h (OUser u c)) by (intros s' <-; done).
  destruct e as [h1 hh v c1 ts|h1 hh b c1|hh|hh v|h1 raw hk|h1|h1 good|h1]; cbn [TaskModel.m_step] in Hn.
  - exfalso; apply Hn, Hsame. by case_decide.
  - exfalso; apply Hn, Hsame. by case_decide.
  - exfalso; apply Hn, Hsame. by destruct (m_tasks m !! hh).
  - exfalso; apply Hn, Hsame. by destruct (m_tasks m !! hh).
  - exfalso; apply Hn, Hsame. destruct (m_tasks m !! h1) as [[o [|? ?] [|] n]|]; try done. by destruct (loop_frame o raw hk).
  - exfalso; apply Hn, Hsame. by destruct (m_tasks m !! h1) as [[o [|? ?] [|] n]|].
  - destruct (m_tasks m !! h1) as [[o [|a l] op n]|] eqn:E; try (exfalso; by apply Hn, Hsame).
    exists h1, good, (Task o (a :: l) op n), a, l. split; [done|]. split; [done|]. split; [done|].
    destruct (act_step (fun _ => good) (m_conns m) a) as [[s' nxt] sends] eqn:Ea. cbn [m_conns] in Hn.
    assert (Hkeep : users s' !! u = users (m_conns m) !! u -> False).
    { intros Hk0. apply Hn. cbn in *. by rewrite Hk0. }
    destruct a as [w raw only|ts raw only|w f|w cw f|b f|b cb f|f|w|b|w cw ts h'|b cb h'|w ts|w ts|d|b d|b|b| |]; cbn [act_step] in Ea; try done;
      try (injection Ea as <- <- <-; exfalso; by apply Hkeep).
    + destruct good; injection Ea as <- <- <-; exfalso; by apply Hkeep.
    + destruct good; injection Ea as <- <- <-; exfalso; by apply Hkeep.
    + injection Ea as <- <- <-. destruct (decide (w = u)) as [->|Hne]; [|exfalso; apply Hkeep; by rewrite ru_users, lookup_delete_ne].
      right. right. split; [done|]. pose proof (Hcause h1 _ E) as Hf. cbn in Hf. apply Forall_cons in Hf as [Hf _]. cbn in Hf.
      destruct Hf as [[c' Ho]|[Hki|Hs]]; [|by right; left|by right; right; left].
      destruct (decide (h1 = h)) as [->|Hne]; [by left|]. right. right. right. split; [done|]. split; [cbn; eauto|].
      destruct Hh as (os & Hc & Hnd & Hin & _ & _ & _ & Hreg).
      destruct Hk as (HA & _ & _). cbn in Ho. destruct (HA h1 _ E) as [Hun|[Hlive|Hab]]; [cbn; congruence|by right| |by left].
      exfalso. destruct (live_registered _ _ Hlive) as [o' Ho']. destruct (Hreg _ _ Ho') as (t' & Ht' & Hot'). rewrite E in Ht'. injection Ht' as <-.
      cbn in Hot'. subst o o'. cbn in Ho', Hr. rewrite Hr in Ho'. congruence.
    + injection Ea as <- <- <-. exfalso. apply Hkeep. by rewrite rb_users.
    + injection Ea as <- <- <-. destruct (decide (w = u)) as [->|Hne]; [left; eauto|]. exfalso. apply Hkeep. by rewrite au_users, lookup_insert_ne.
    + injection Ea as <- <- <-. exfalso. apply Hkeep. by rewrite ab_users.
    + injection Ea as <- <- <-. right. left. exists d. split; [done|].
      assert (Hus : users (c_apply_user_sync (m_conns m) d) !! u = if decide (sync_overrides i d u (entries (direct (m_conns m)) !! u)) then None else users (m_conns m) !! u).
      { rewrite Hos0. rewrite apply_user_sync_users by apply run_dir. by rewrite run_identity. }
      case_decide; [done|]. by destruct (Hkeep Hus).
    + injection Ea as <- <- <-. exfalso. apply Hkeep. by destruct (apply_topic_frame (m_conns m) b d) as (_ & -> & _).
    + destruct (c_get_partial_topic_sync (m_conns m)) as [s1 o1] eqn:E1. injection Ea as <- <- <-. exfalso. apply Hkeep.
      pose proof (partial_topic_frame (m_conns m)) as Hf. cbn zeta in Hf. rewrite E1 in Hf. cbn [fst] in Hf. destruct Hf as (_ & -> & _). done.
    + destruct (c_get_partial_user_sync (m_conns m)) as [s1 o1] eqn:E1. injection Ea as <- <- <-. exfalso. apply Hkeep.
      pose proof (partial_user_direct (m_conns m)) as Hd. rewrite E1 in Hd. injection Hd as -> _. done.
  - exfalso; apply Hn, Hsame. destruct (m_tasks m !! h1) as [[o l op n]|] eqn:E; [|done]. by case_decide.
Qed.
End proofs.
