(** The running broker at lock granularity: what a task has done by the time it has finished,
    whatever the other tasks do in between. *)
From stdpp Require Import gmap fin_maps fin_sets list.
From Coq Require Import NArith ZArith Lia.
From Verif Require Import IdModel RelMapModel VMapModel VMapProofs ConnModel ConnProofs TopicModel MsgModel RouteModel TaskModel TaskProofs.

Section proofs.
Variable deser : bytes -> option message.
Variable dec_users : bytes -> option direct_map.
Variable dec_topics : bytes -> option topic_map.
Variable valid : N -> bool.
Notation m_step := (m_step deser dec_users dec_topics valid).
Notation m_run := (m_run deser dec_users dec_topics valid).
Notation run_from := (fold_left m_step).

Lemma m_run_app i es1 es2 : m_run i (es1 ++ es2) = run_from es2 (m_run i es1).
Proof. unfold TaskModel.m_run. by rewrite fold_left_app. Qed.

(** A task with something left to do is changed by its own steps only. *)
Lemma task_kept m e h t : m_tasks m !! h = Some t -> t_acts t <> [] ->
  (forall g, e <> ERun h g) -> e <> ECancel h -> m_tasks (m_step m e) !! h = Some t.
Proof.
  intros Ht Ha Hr Hc. destruct e as [h1 hh u c ts|h1 hh b c|hh|hh u|h1 raw hk|h1|h1 good|h1]; cbn [TaskModel.m_step].
  - case_decide as Hd; [|done]. destruct Hd as (Hne & H1 & H2). cbn. by rewrite !lookup_insert_ne by congruence.
  - case_decide as Hd; [|done]. destruct Hd as (Hne & H1 & H2). cbn. by rewrite !lookup_insert_ne by congruence.
  - destruct (m_tasks m !! hh) eqn:E; [done|]. cbn. by rewrite lookup_insert_ne by congruence.
  - destruct (m_tasks m !! hh) eqn:E; [done|]. cbn. by rewrite lookup_insert_ne by congruence.
  - destruct (m_tasks m !! h1) as [[o [|? ?] [|] n]|] eqn:E; try done. destruct (loop_frame _ _ _ _ o raw hk) as [acts go]. cbn.
    destruct (decide (h = h1)) as [->|Hne]; [|by rewrite lookup_insert_ne]. rewrite E in Ht. by injection Ht as <-.
  - destruct (m_tasks m !! h1) as [[o [|? ?] [|] n]|] eqn:E; try done. cbn.
    destruct (decide (h = h1)) as [->|Hne]; [|by rewrite lookup_insert_ne]. rewrite E in Ht. by injection Ht as <-.
  - destruct (decide (h = h1)) as [->|Hne]; [by destruct (Hr good)|].
    destruct (m_tasks m !! h1) as [[o [|a l] op n]|] eqn:E; try done. destruct (act_step _ _ a) as [[s' nxt] es']. cbn. by rewrite lookup_insert_ne.
  - destruct (decide (h = h1)) as [->|Hne]; [done|].
    destruct (m_tasks m !! h1) as [[o l op n]|] eqn:E; try done. case_decide; [|done]. cbn. by rewrite lookup_insert_ne.
Qed.

Lemma task_kept_run m es h t : m_tasks m !! h = Some t -> t_acts t <> [] ->
  (forall g, ~ In (ERun h g) es) -> ~ In (ECancel h) es -> m_tasks (run_from es m) !! h = Some t.
Proof.
  revert m. induction es as [|e es IH]; intros m Ht Ha Hr Hc; [done|]. cbn [fold_left]. apply IH; [|done| |].
  - apply task_kept; [done|done| |]; [intros g ->; apply (Hr g); by left|intros ->; apply Hc; by left].
  - intros g Hg. apply (Hr g). by right.
  - intros Hg. apply Hc. by right.
Qed.

Lemma sent_step m e x : In x (m_sent m) -> In x (m_sent (m_step m e)).
Proof.
  intros Hin. destruct e as [h hh u c ts|h hh b c|hh|hh u|h raw hk|h|h good|h]; cbn [TaskModel.m_step].
  - by case_decide.
  - by case_decide.
  - by destruct (m_tasks m !! hh).
  - by destruct (m_tasks m !! hh).
  - destruct (m_tasks m !! h) as [[o [|? ?] [|] n]|]; try done. by destruct (loop_frame _ _ _ _ o raw hk).
  - by destruct (m_tasks m !! h) as [[o [|? ?] [|] n]|].
  - destruct (m_tasks m !! h) as [[o [|a l] op n]|]; try done. destruct (act_step _ _ a) as [[s' nxt] es']. cbn. apply in_app_iff. by left.
  - destruct (m_tasks m !! h) as [[o l op n]|]; [|done]. by case_decide.
Qed.
Lemma sent_run m es x : In x (m_sent m) -> In x (m_sent (run_from es m)).
Proof. revert m; induction es as [|e es IH]; intros m H; [done|]. cbn [fold_left]. by apply IH, sent_step. Qed.

(** ** A failed send *)
Lemma run_act m h good o a rest op n s' nxt sends :
  m_tasks m !! h = Some (Task o (a :: rest) op n) -> act_step (fun _ => good) (m_conns m) a = (s', nxt, sends) ->
  m_step m (ERun h good) = Machine s' (<[h := Task o (nxt ++ rest) op n]> (m_tasks m)) (m_sent m ++ map (Sent h n) sends) (m_rcvd m).
Proof. intros Ht Ha. cbn [TaskModel.m_step]. by rewrite Ht, Ha. Qed.

Lemma failed_send_user m es h t u c f rest good :
  m_tasks m !! h = Some t -> t_acts t = ASendUser u c f :: rest ->
  (forall g, ~ In (ERun h g) es) -> ~ In (ECancel h) es ->
  m_sent (m_step m (ERun h false)) = m_sent m
  /\ c_get_user_connection (m_conns (run_from (es ++ [ERun h good]) (m_step m (ERun h false)))) u = None.
Proof.
  intros Ht Ha Hr Hc. destruct t as [o acts op n]; cbn in Ha; subst acts.
  rewrite (run_act m h false o _ rest op n _ _ _ Ht eq_refl). cbn [m_sent map]. split; [by rewrite app_nil_r|].
  set (m1 := Machine _ _ _ _). rewrite fold_left_app. cbn [fold_left].
  assert (m_tasks (run_from es m1) !! h = Some (Task o (ARemoveUser u :: rest) op n)) as Ht1.
  { apply task_kept_run; [cbn; by rewrite lookup_insert|done|done|done]. }
  rewrite (run_act _ h good o _ rest op n _ _ _ Ht1 eq_refl). cbn [m_conns]. generalize (m_conns (run_from es m1)). clear. intros s.
  unfold c_get_user_connection, c_remove_user. cbn. destruct (users s !! u) as [[c h]|] eqn:E; cbn; [by rewrite lookup_delete|by rewrite E].
Qed.
Lemma failed_send_broker m es h t b c f rest good :
  m_tasks m !! h = Some t -> t_acts t = ASendBroker b c f :: rest ->
  (forall g, ~ In (ERun h g) es) -> ~ In (ECancel h) es ->
  m_sent (m_step m (ERun h false)) = m_sent m
  /\ c_get_broker_connection (m_conns (run_from (es ++ [ERun h good]) (m_step m (ERun h false)))) b = None.
Proof.
  intros Ht Ha Hr Hc. destruct t as [o acts op n]; cbn in Ha; subst acts.
  rewrite (run_act m h false o _ rest op n _ _ _ Ht eq_refl). cbn [m_sent map]. split; [by rewrite app_nil_r|].
  set (m1 := Machine _ _ _ _). rewrite fold_left_app. cbn [fold_left].
  assert (m_tasks (run_from es m1) !! h = Some (Task o (ARemoveBroker b :: rest) op n)) as Ht1.
  { apply task_kept_run; [cbn; by rewrite lookup_insert|done|done|done]. }
  rewrite (run_act _ h good o _ rest op n _ _ _ Ht1 eq_refl). cbn [m_conns]. generalize (m_conns (run_from es m1)). clear. intros s.
  unfold c_get_broker_connection, c_remove_broker. cbn. destruct (brokers s !! b) as [e|] eqn:E; cbn; [by rewrite lookup_delete|by rewrite E].
Qed.

(** ** A task that runs to its end, all of its sends succeeding *)
Definition smooth (h : N) (es : list event) : Prop := ~ In (ERun h false) es /\ ~ In (ECancel h) es.
Lemma smooth_app h es1 es2 : smooth h (es1 ++ es2) <-> smooth h es1 /\ smooth h es2.
Proof. unfold smooth. rewrite !in_app_iff. tauto. Qed.
Lemma smooth_cons h e es : smooth h (e :: es) -> smooth h es.
Proof. unfold smooth. cbn. tauto. Qed.

(** The next step of the task. *)
Lemma next_run m es h o a rest op n t' :
  m_tasks m !! h = Some (Task o (a :: rest) op n) -> smooth h es ->
  m_tasks (run_from es m) !! h = Some t' -> t_acts t' = [] ->
  exists es3 es4, es = es3 ++ ERun h true :: es4 /\ (forall g, ~ In (ERun h g) es3)
    /\ m_tasks (run_from es3 m) !! h = Some (Task o (a :: rest) op n).
Proof.
  revert m. induction es as [|e es IH]; intros m Ht [Hs1 Hs2] Hend Hnil.
  { cbn in Hend. rewrite Ht in Hend. injection Hend as <-. done. }
  assert (e = ERun h true \/ e <> ERun h true) as [He|He].
  { destruct e as [| | | | | |h1 [|]|]; try (right; discriminate). destruct (decide (h1 = h)) as [->|Hne]; [by left|right; congruence]. }
  - subst e. exists [], es. split; [done|]. split; [intros g []|done].
  - assert (m_tasks (m_step m e) !! h = Some (Task o (a :: rest) op n)) as Ht1.
    { apply task_kept; [done|done| |]; [intros [|] ->; [done|apply Hs1; by left]|intros ->; apply Hs2; by left]. }
    destruct (IH _ Ht1) as (es3 & es4 & -> & Hno & Hk); [split; intros H; [apply Hs1|apply Hs2]; by right|done|done|].
    exists (e :: es3), es4. split; [done|]. split; [|done]. intros g [->|Hg]; [destruct g; [done|apply Hs1; by left]|by apply (Hno g)].
Qed.

(** The part of a run up to the completion of the first action [a] with everything it entails. *)
Definition held (b : bid) (c : N) (m : machine) (es : list event) : Prop :=
  forall es1 es2, es = es1 ++ es2 -> c_get_broker_connection (m_conns (run_from es1 m)) b = Some c.
Lemma held_drop b c m es1 es2 : held b c m (es1 ++ es2) -> held b c (run_from es1 m) es2.
Proof. intros H es3 es4 ->. rewrite <- fold_left_app. apply (H _ es4). by rewrite app_assoc. Qed.
Lemma run_end m es1 es2 : run_from (es1 ++ es2) m = run_from es2 (run_from es1 m).
Proof. apply fold_left_app. Qed.

Lemma act_then m es h o a rest op n t' :
  m_tasks m !! h = Some (Task o (a :: rest) op n) -> smooth h es ->
  m_tasks (run_from es m) !! h = Some t' -> t_acts t' = [] ->
  exists es3 es4, es = (es3 ++ [ERun h true]) ++ es4 /\ smooth h es4 /\ (forall g, ~ In (ERun h g) es3)
    /\ let r := act_step (fun _ => true) (m_conns (run_from es3 m)) a in
       let m1 := run_from (es3 ++ [ERun h true]) m in
       m_tasks m1 !! h = Some (Task o (r.1.2 ++ rest) op n) /\ m_conns m1 = r.1.1
       /\ m_sent m1 = m_sent (run_from es3 m) ++ map (Sent h n) r.2
       /\ m_tasks (run_from es4 m1) !! h = Some t'.
Proof.
  intros Ht Hs Hend Hnil. destruct (next_run m es h o a rest op n t' Ht Hs Hend Hnil) as (es3 & es4 & -> & Hno & Hk).
  exists es3, es4. split; [by rewrite <- app_assoc|]. apply smooth_app in Hs as [_ Hs]. split; [by eapply smooth_cons|]. split; [done|].
  cbn zeta. rewrite <- (fold_left_app m_step (es3 ++ [ERun h true])), <- app_assoc. rewrite (run_end m es3 [ERun h true]). cbn [fold_left].
  destruct (act_step (fun _ => true) (m_conns (run_from es3 m)) a) as [[s' nxt] sends] eqn:E.
  rewrite (run_act _ h true o a rest op n _ _ _ Hk E). cbn. rewrite lookup_insert. done.
Qed.

Lemma lookup_sends m es h o b c f rest op n t' :
  m_tasks m !! h = Some (Task o (ALookupBroker b f :: rest) op n) -> smooth h es ->
  m_tasks (run_from es m) !! h = Some t' -> t_acts t' = [] -> held b c m es ->
  exists es1 es2, es = es1 ++ es2 /\ smooth h es2 /\ m_tasks (run_from es1 m) !! h = Some (Task o rest op n)
    /\ m_tasks (run_from es2 (run_from es1 m)) !! h = Some t'
    /\ In (Sent h n (Emit (inr b) c f)) (m_sent (run_from es1 m)).
Proof.
  intros Ht Hs Hend Hnil Hh.
  destruct (act_then m es h o _ rest op n t' Ht Hs Hend Hnil) as (es3 & es4 & -> & Hs4 & _ & Ht1 & Hc1 & Hx1 & Hend1).
  assert (c_get_broker_connection (m_conns (run_from es3 m)) b = Some c) as Hb by (apply (Hh _ ([ERun h true] ++ es4)); by rewrite app_assoc).
  cbn [act_step fst snd] in Ht1. rewrite Hb in Ht1. cbn [app] in Ht1.
  set (m1 := run_from (es3 ++ [ERun h true]) m) in *.
  destruct (act_then m1 es4 h o _ rest op n t' Ht1 Hs4 Hend1 Hnil) as (es5 & es6 & -> & Hs6 & _ & Ht2 & _ & Hx2 & Hend2).
  exists ((es3 ++ [ERun h true]) ++ es5 ++ [ERun h true]), es6. rewrite (run_end m (es3 ++ [ERun h true])). fold m1.
  split; [by rewrite !app_assoc|]. split; [done|]. split; [exact Ht2|]. split; [exact Hend2|].
  rewrite Hx2. cbn. apply in_app_iff. right. by left.
Qed.

(** The full topic sync and the full user sync. *)
Lemma full_topic_sends m es h o b c rest op n t' :
  m_tasks m !! h = Some (Task o (AFullTopicSync b :: rest) op n) -> smooth h es ->
  m_tasks (run_from es m) !! h = Some t' -> t_acts t' = [] -> held b c m es ->
  exists es0 es1 es2, es = es0 ++ es1 ++ es2 /\ smooth h es2 /\ m_tasks (run_from (es0 ++ es1) m) !! h = Some (Task o rest op n)
    /\ m_tasks (run_from es2 (run_from (es0 ++ es1) m)) !! h = Some t'
    /\ (entries (topic_sync (m_conns (run_from es0 m))) <> ∅ ->
         In (Sent h n (Emit (inr b) c (FTopicSync (topic_sync (m_conns (run_from es0 m)))))) (m_sent (run_from (es0 ++ es1) m))).
Proof.
  intros Ht Hs Hend Hnil Hh.
  destruct (act_then m es h o _ rest op n t' Ht Hs Hend Hnil) as (es3 & es4 & -> & Hs4 & _ & Ht1 & Hc1 & Hx1 & Hend1).
  cbn [act_step fst snd] in Ht1. unfold c_get_full_topic_sync in Ht1. case_decide as Hd.
  - exists es3, [ERun h true], es4. split; [by rewrite app_assoc|]. split; [done|]. split; [exact Ht1|]. split; [exact Hend1|]. done.
  - cbn [app] in Ht1. destruct (lookup_sends _ es4 h o b c _ rest op n t' Ht1 Hs4 Hend1 Hnil) as (es5 & es6 & -> & Hs6 & Ht2 & Hend2 & Hin).
    { by apply held_drop. }
    exists es3, ([ERun h true] ++ es5), es6. split; [by rewrite <- !app_assoc|].
    replace (es3 ++ [ERun h true] ++ es5) with ((es3 ++ [ERun h true]) ++ es5) by (by rewrite <- app_assoc). rewrite (run_end m (es3 ++ [ERun h true])). split; [done|]. split; [exact Ht2|]. split; [exact Hend2|].
    intros _. exact Hin.
Qed.
Lemma full_user_sends m es h o b c rest op n t' :
  m_tasks m !! h = Some (Task o (AFullUserSync b :: rest) op n) -> smooth h es ->
  m_tasks (run_from es m) !! h = Some t' -> t_acts t' = [] -> held b c m es ->
  exists es0 es1 es2, es = es0 ++ es1 ++ es2 /\ smooth h es2 /\ m_tasks (run_from (es0 ++ es1) m) !! h = Some (Task o rest op n)
    /\ m_tasks (run_from es2 (run_from (es0 ++ es1) m)) !! h = Some t'
    /\ (entries (direct (m_conns (run_from es0 m))) <> ∅ ->
         In (Sent h n (Emit (inr b) c (FUserSync (direct (m_conns (run_from es0 m)))))) (m_sent (run_from (es0 ++ es1) m))).
Proof.
  intros Ht Hs Hend Hnil Hh.
  destruct (act_then m es h o _ rest op n t' Ht Hs Hend Hnil) as (es3 & es4 & -> & Hs4 & _ & Ht1 & Hc1 & Hx1 & Hend1).
  cbn [act_step fst snd] in Ht1. unfold c_get_full_user_sync in Ht1. case_decide as Hd.
  - exists es3, [ERun h true], es4. split; [by rewrite app_assoc|]. split; [done|]. split; [exact Ht1|]. split; [exact Hend1|]. done.
  - cbn [app] in Ht1. destruct (lookup_sends _ es4 h o b c _ rest op n t' Ht1 Hs4 Hend1 Hnil) as (es5 & es6 & -> & Hs6 & Ht2 & Hend2 & Hin).
    { by apply held_drop. }
    exists es3, ([ERun h true] ++ es5), es6. split; [by rewrite <- !app_assoc|].
    replace (es3 ++ [ERun h true] ++ es5) with ((es3 ++ [ERun h true]) ++ es5) by (by rewrite <- app_assoc). rewrite (run_end m (es3 ++ [ERun h true])). split; [done|]. split; [exact Ht2|]. split; [exact Hend2|].
    intros _. exact Hin.
Qed.

Lemma broker_told i es1 es2 h hh b c t :
  h <> hh -> m_tasks (m_run i es1) !! h = None -> m_tasks (m_run i es1) !! hh = None ->
  let r es := m_run i ((es1 ++ [EBrokerAuthed h hh b c]) ++ es) in
  smooth hh es2 -> m_tasks (r es2) !! hh = Some t -> t_acts t = [] ->
  (forall es3 es4, es2 = es3 ++ es4 -> In (ERun hh true) es3 -> c_get_broker_connection (m_conns (r es3)) b = Some c) ->
  (exists es3 es4, es2 = es3 ++ es4 /\ c_get_broker_connection (m_conns (r es3)) b = Some c
     /\ (entries (topic_sync (m_conns (r es3))) <> ∅ ->
          In (Sent hh 0 (Emit (inr b) c (FTopicSync (topic_sync (m_conns (r es3)))))) (m_sent (r es2))))
  /\ (exists es3 es4, es2 = es3 ++ es4 /\ c_get_broker_connection (m_conns (r es3)) b = Some c
     /\ (entries (direct (m_conns (r es3))) <> ∅ ->
          In (Sent hh 0 (Emit (inr b) c (FUserSync (direct (m_conns (r es3)))))) (m_sent (r es2)))).
Proof.
  intros Hne Hn1 Hn2 r Hs Hend Hnil Hreg. unfold r in *. clear r.
  assert (forall es, m_run i ((es1 ++ [EBrokerAuthed h hh b c]) ++ es) = run_from es (m_run i (es1 ++ [EBrokerAuthed h hh b c]))) as Hr by (intros es; apply m_run_app).
  rewrite !Hr in *. setoid_rewrite Hr. setoid_rewrite Hr in Hreg. clear Hr.
  set (m := m_run i (es1 ++ [EBrokerAuthed h hh b c])) in *.
  assert (m_tasks m !! hh = Some (Task OOther (broker_connected b c h) false 0)) as Ht.
  { unfold m. rewrite m_run_snoc. cbn [TaskModel.m_step]. rewrite decide_True by done. cbn. by rewrite lookup_insert. }
  destruct (act_then m es2 hh _ _ _ _ _ t Ht Hs Hend Hnil) as (ea & eb & -> & Hsb & _ & Hta & _ & _ & Henda). cbn [act_step fst snd app] in Hta.
  set (pa := ea ++ [ERun hh true]) in *.
  assert (held b c (run_from pa m) eb) as Hh.
  { intros e1 e2 ->. rewrite <- run_end. apply (Hreg _ e2); [by rewrite app_assoc|]. unfold pa. rewrite !in_app_iff. left. right. by left. }
  destruct (full_topic_sends _ eb hh _ b c _ _ _ t Hta Hsb Henda Hnil Hh) as (e0 & e1 & e2 & -> & Hs2 & Ht2 & Hend2 & Hin2).
  assert (held b c (run_from (e0 ++ e1) (run_from pa m)) e2) as Hh2 by (apply held_drop; by rewrite <- app_assoc).
  destruct (full_user_sends _ e2 hh _ b c _ _ _ t Ht2 Hs2 Hend2 Hnil Hh2) as (f0 & f1 & f2 & -> & Hs3 & Ht3 & Hend3 & Hin3).
  rewrite <- !run_end in *. split.
  - exists (pa ++ e0), (e1 ++ f0 ++ f1 ++ f2). split; [by rewrite <- app_assoc|]. split.
    + apply (Hreg _ (e1 ++ f0 ++ f1 ++ f2)); [by rewrite <- app_assoc|]. unfold pa. rewrite !in_app_iff. left. right. by left.
    + intros Hx. rewrite (app_assoc pa). rewrite (app_assoc (pa ++ e0)). rewrite (run_end m ((pa ++ e0) ++ e1)). apply sent_run.
      rewrite <- (app_assoc pa e0 e1). by apply Hin2.
  - exists (pa ++ e0 ++ e1 ++ f0), (f1 ++ f2). split; [by rewrite <- !app_assoc|]. split.
    + apply (Hreg _ (f1 ++ f2)); [by rewrite <- !app_assoc|]. unfold pa. rewrite !in_app_iff. left. right. by left.
    + intros Hx. replace (pa ++ e0 ++ e1 ++ f0 ++ f1 ++ f2) with ((pa ++ e0 ++ e1 ++ f0 ++ f1) ++ f2) by (by rewrite <- !app_assoc).
      rewrite (run_end m (pa ++ e0 ++ e1 ++ f0 ++ f1) f2). apply sent_run. revert Hin3 Hx. rewrite <- !app_assoc. intros Hin3 Hx. by apply Hin3.
Qed.
(** ** Fan-out to all brokers *)
Lemma lookup_done m es h o b f rest op n t' :
  m_tasks m !! h = Some (Task o (ALookupBroker b f :: rest) op n) -> smooth h es ->
  m_tasks (run_from es m) !! h = Some t' -> t_acts t' = [] ->
  exists es1 es2, es = es1 ++ es2 /\ smooth h es2 /\ m_tasks (run_from es1 m) !! h = Some (Task o rest op n)
    /\ m_tasks (run_from es2 (run_from es1 m)) !! h = Some t'
    /\ (forall c, held b c m es -> In (Sent h n (Emit (inr b) c f)) (m_sent (run_from es1 m))).
Proof.
  intros Ht Hs Hend Hnil.
  destruct (act_then m es h o _ rest op n t' Ht Hs Hend Hnil) as (es3 & es4 & -> & Hs4 & _ & Ht1 & Hc1 & Hx1 & Hend1).
  cbn [act_step fst snd] in Ht1.
  assert (forall c, held b c m ((es3 ++ [ERun h true]) ++ es4) -> c_get_broker_connection (m_conns (run_from es3 m)) b = Some c) as Hb.
  { intros c Hh. apply (Hh _ ([ERun h true] ++ es4)). by rewrite app_assoc. }
  destruct (c_get_broker_connection (m_conns (run_from es3 m)) b) as [c0|].
  - cbn [app] in Ht1. set (m1 := run_from (es3 ++ [ERun h true]) m) in *.
    destruct (act_then m1 es4 h o _ rest op n t' Ht1 Hs4 Hend1 Hnil) as (es5 & es6 & -> & Hs6 & _ & Ht2 & _ & Hx2 & Hend2).
    exists ((es3 ++ [ERun h true]) ++ es5 ++ [ERun h true]), es6. rewrite (run_end m (es3 ++ [ERun h true])). fold m1.
    split; [by rewrite !app_assoc|]. split; [done|]. split; [exact Ht2|]. split; [exact Hend2|].
    intros c Hh. specialize (Hb c Hh). injection Hb as ->. rewrite Hx2. cbn. apply in_app_iff. right. by left.
  - exists (es3 ++ [ERun h true]), es4. split; [done|]. split; [done|]. split; [exact Ht1|]. split; [exact Hend1|].
    intros c Hh. by specialize (Hb c Hh).
Qed.

Lemma lookups_done bs : forall m es h o f rest op n t',
  m_tasks m !! h = Some (Task o (map (fun b => ALookupBroker b f) bs ++ rest) op n) -> smooth h es ->
  m_tasks (run_from es m) !! h = Some t' -> t_acts t' = [] ->
  exists es1 es2, es = es1 ++ es2 /\ smooth h es2 /\ m_tasks (run_from es1 m) !! h = Some (Task o rest op n)
    /\ m_tasks (run_from es2 (run_from es1 m)) !! h = Some t'
    /\ (forall b c, In b bs -> held b c m es -> In (Sent h n (Emit (inr b) c f)) (m_sent (run_from es1 m))).
Proof.
  induction bs as [|b0 bs IH]; intros m es h o f rest op n t' Ht Hs Hend Hnil.
  { exists [], es. split; [done|]. split; [done|]. split; [exact Ht|]. split; [exact Hend|]. intros b c []. }
  cbn [map app] in Ht.
  destruct (lookup_done m es h o b0 f _ op n t' Ht Hs Hend Hnil) as (es1 & es2 & -> & Hs2 & Ht2 & Hend2 & Hin).
  destruct (IH (run_from es1 m) es2 h o f rest op n t' Ht2 Hs2 Hend2 Hnil) as (es3 & es4 & -> & Hs4 & Ht4 & Hend4 & Hin4).
  exists (es1 ++ es3), es4. rewrite (run_end m es1 es3). split; [by rewrite app_assoc|]. split; [done|]. split; [exact Ht4|]. split; [exact Hend4|].
  intros b c [->|Hb] Hh.
  - apply sent_run. by apply Hin.
  - apply Hin4; [done|]. by apply held_drop.
Qed.

Lemma fanout_done m es h o f rest op n t' :
  m_tasks m !! h = Some (Task o (ASendBrokers f :: rest) op n) -> smooth h es ->
  m_tasks (run_from es m) !! h = Some t' -> t_acts t' = [] ->
  exists es1 es2, es = es1 ++ es2 /\ smooth h es2 /\ m_tasks (run_from es1 m) !! h = Some (Task o rest op n)
    /\ m_tasks (run_from es2 (run_from es1 m)) !! h = Some t'
    /\ (forall b c, held b c m es -> In (Sent h n (Emit (inr b) c f)) (m_sent (run_from es1 m))).
Proof.
  intros Ht Hs Hend Hnil.
  destruct (act_then m es h o _ rest op n t' Ht Hs Hend Hnil) as (es3 & es4 & -> & Hs4 & _ & Ht1 & Hc1 & Hx1 & Hend1).
  cbn [act_step fst snd] in Ht1. set (m1 := run_from (es3 ++ [ERun h true]) m) in *.
  destruct (lookups_done _ m1 es4 h o f rest op n t' Ht1 Hs4 Hend1 Hnil) as (es5 & es6 & -> & Hs6 & Ht2 & Hend2 & Hin).
  exists ((es3 ++ [ERun h true]) ++ es5), es6. rewrite (run_end m (es3 ++ [ERun h true])). fold m1.
  split; [by rewrite app_assoc|]. split; [done|]. split; [exact Ht2|]. split; [exact Hend2|].
  intros b c Hh. apply Hin; [|by apply held_drop].
  assert (c_get_broker_connection (m_conns (run_from es3 m)) b = Some c) as Hb by (apply (Hh _ ([ERun h true] ++ es5 ++ es6)); by rewrite (app_assoc es3)).
  unfold c_get_broker_identifiers. unfold c_get_broker_connection in Hb. destruct (brokers (m_conns (run_from es3 m)) !! b) as [be|] eqn:E; [|done].
  apply elem_of_list_In, elem_of_elements, elem_of_dom. by exists be.
Qed.

(** The two partial syncs. *)
Definition delta_frame (topics : bool) (s : conns) : option frame :=
  if topics then option_map FTopicSync (c_get_partial_topic_sync s).2 else option_map FUserSync (c_get_partial_user_sync s).2.
Definition partial_act (topics : bool) : act := if topics then APartialTopicSync else APartialUserSync.

Lemma partial_act_step ok s tp : (act_step ok s (partial_act tp)).1.2 = match delta_frame tp s with Some f => [ASendBrokers f] | None => [] end.
Proof.
  destruct tp; cbn.
  - destruct (c_get_partial_topic_sync s) as [s' [d|]]; done.
  - destruct (c_get_partial_user_sync s) as [s' [d|]]; done.
Qed.
Lemma partial_done tp m es h o rest op n t' :
  m_tasks m !! h = Some (Task o (partial_act tp :: rest) op n) -> smooth h es ->
  m_tasks (run_from es m) !! h = Some t' -> t_acts t' = [] ->
  exists es0 es1 es2, es = (es0 ++ es1) ++ es2 /\ smooth h es2 /\ m_tasks (run_from (es0 ++ es1) m) !! h = Some (Task o rest op n)
    /\ m_tasks (run_from es2 (run_from (es0 ++ es1) m)) !! h = Some t'
    /\ (forall f b c, delta_frame tp (m_conns (run_from es0 m)) = Some f -> held b c m es ->
          In (Sent h n (Emit (inr b) c f)) (m_sent (run_from (es0 ++ es1) m))).
Proof.
  intros Ht Hs Hend Hnil.
  destruct (act_then m es h o _ rest op n t' Ht Hs Hend Hnil) as (es3 & es4 & -> & Hs4 & _ & Ht1 & Hc1 & Hx1 & Hend1).
  rewrite partial_act_step in Ht1.
  destruct (delta_frame tp (m_conns (run_from es3 m))) as [f|] eqn:Ed.
  - cbn [app] in Ht1. set (m1 := run_from (es3 ++ [ERun h true]) m) in *.
    destruct (fanout_done m1 es4 h o f rest op n t' Ht1 Hs4 Hend1 Hnil) as (es5 & es6 & -> & Hs6 & Ht2 & Hend2 & Hin).
    exists es3, ([ERun h true] ++ es5), es6. rewrite (app_assoc es3). rewrite (run_end m (es3 ++ [ERun h true])). fold m1.
    split; [by rewrite app_assoc|]. split; [done|]. split; [exact Ht2|]. split; [exact Hend2|].
    intros f' b c Hf Hh. rewrite Ed in Hf. injection Hf as <-. apply Hin. by apply held_drop.
  - exists es3, [ERun h true], es4. split; [done|]. split; [done|]. split; [exact Ht1|]. split; [exact Hend1|].
    intros f b c Hf. by rewrite Ed in Hf.
Qed.

Lemma partials_done tp m es h o rest op n t' :
  m_tasks m !! h = Some (Task o (partial_act tp :: partial_act (negb tp) :: rest) op n) -> smooth h es ->
  m_tasks (run_from es m) !! h = Some t' -> t_acts t' = [] ->
  forall tp', exists es3 es4, es = es3 ++ es4
    /\ (forall f b c, delta_frame tp' (m_conns (run_from es3 m)) = Some f -> held b c m es ->
          In (Sent h n (Emit (inr b) c f)) (m_sent (run_from es m))).
Proof.
  intros Ht Hs Hend Hnil tp'.
  destruct (partial_done tp m es h o _ op n t' Ht Hs Hend Hnil) as (e0 & e1 & e2 & -> & Hs2 & Ht2 & Hend2 & Hin).
  destruct (partial_done (negb tp) _ e2 h o rest op n t' Ht2 Hs2 Hend2 Hnil) as (f0 & f1 & f2 & -> & Hs3 & Ht3 & Hend3 & Hin3).
  assert (tp' = tp \/ tp' = negb tp) as [->| ->] by (destruct tp, tp'; auto).
  - exists e0, (e1 ++ (f0 ++ f1) ++ f2). split; [by rewrite <- !app_assoc|].
    intros f b c Hf Hh. rewrite (run_end m (e0 ++ e1)). apply sent_run. by apply Hin.
  - exists ((e0 ++ e1) ++ f0), (f1 ++ f2). split; [by rewrite <- !app_assoc|].
    intros f b c Hf Hh. rewrite (run_end m (e0 ++ e1)), (run_end _ (f0 ++ f1)). apply sent_run. apply Hin3; [by rewrite <- run_end|by apply held_drop].
Qed.

(** A periodic round, and the announcements following a user's connection. *)
Lemma round_told i es1 es2 hh t :
  m_tasks (m_run i es1) !! hh = None ->
  let r es := m_run i ((es1 ++ [ESync hh]) ++ es) in
  smooth hh es2 -> m_tasks (r es2) !! hh = Some t -> t_acts t = [] ->
  forall tp, exists es3 es4, es2 = es3 ++ es4 /\
    forall f b c, delta_frame tp (m_conns (r es3)) = Some f ->
      (forall es5 es6, es2 = es5 ++ es6 -> c_get_broker_connection (m_conns (r es5)) b = Some c) ->
      In (Sent hh 0 (Emit (inr b) c f)) (m_sent (r es2)).
Proof.
  intros Hn r Hs Hend Hnil tp. unfold r in *. clear r.
  assert (forall es, m_run i ((es1 ++ [ESync hh]) ++ es) = run_from es (m_run i (es1 ++ [ESync hh]))) as Hr by (intros es; apply m_run_app).
  rewrite !Hr in *. setoid_rewrite Hr. clear Hr. set (m := m_run i (es1 ++ [ESync hh])) in *.
  assert (m_tasks m !! hh = Some (Task OOther sync_round false 0)) as Ht.
  { unfold m. rewrite m_run_snoc. cbn [TaskModel.m_step]. rewrite Hn. cbn. by rewrite lookup_insert. }
  destruct (partials_done false m es2 hh OOther [] false 0 t Ht Hs Hend Hnil tp) as (es3 & es4 & -> & Hin).
  exists es3, es4. split; [done|]. intros f b c Hf Hh. by apply Hin.
Qed.

Lemma user_announced i es1 es2 h hh u cu ts t :
  h <> hh -> m_tasks (m_run i es1) !! h = None -> m_tasks (m_run i es1) !! hh = None ->
  let r es := m_run i ((es1 ++ [EUserAuthed h hh u cu ts]) ++ es) in
  smooth hh es2 -> m_tasks (r es2) !! hh = Some t -> t_acts t = [] ->
  exists ea eb, es2 = (ea ++ [ERun hh true]) ++ eb
    /\ m_conns (r (ea ++ [ERun hh true])) = c_add_user (m_conns (r ea)) u cu (prune valid ts).1 h
    /\ forall tp, exists es3 es4, eb = es3 ++ es4 /\
    forall f b c, delta_frame tp (m_conns (r ((ea ++ [ERun hh true]) ++ es3))) = Some f ->
      (forall es5 es6, eb = es5 ++ es6 -> c_get_broker_connection (m_conns (r ((ea ++ [ERun hh true]) ++ es5))) b = Some c) ->
      In (Sent hh 0 (Emit (inr b) c f)) (m_sent (r es2)).
Proof.
  intros Hne Hn1 Hn2 r Hs Hend Hnil. unfold r in *. clear r.
  assert (forall es, m_run i ((es1 ++ [EUserAuthed h hh u cu ts]) ++ es) = run_from es (m_run i (es1 ++ [EUserAuthed h hh u cu ts]))) as Hr by (intros es; apply m_run_app).
  rewrite !Hr in *. setoid_rewrite Hr. clear Hr. set (m := m_run i (es1 ++ [EUserAuthed h hh u cu ts])) in *.
  assert (m_tasks m !! hh = Some (Task OOther (user_connected valid u cu ts h) false 0)) as Ht.
  { unfold m. rewrite m_run_snoc. cbn [TaskModel.m_step]. rewrite decide_True by done. cbn. by rewrite lookup_insert. }
  destruct (act_then m es2 hh _ _ _ _ _ t Ht Hs Hend Hnil) as (ea & eb & -> & Hsb & _ & Hta & Hca & _ & Henda). cbn [act_step fst snd app] in Hta.
  exists ea, eb. split; [done|]. split; [exact Hca|]. intros tp.
  destruct (partials_done true _ eb hh OOther [] false 0 t Hta Hsb Henda Hnil tp) as (es3 & es4 & -> & Hin).
  exists es3, es4. split; [done|]. intros f b c Hf Hh. rewrite (run_end m (ea ++ [ERun hh true])). apply Hin; [by rewrite <- run_end|].
  intros e5 e6 He. rewrite <- run_end. by apply (Hh e5 e6).
Qed.
End proofs.

(** Registering a user: connected, in the directory, and due to be announced. *)
Lemma add_user_facts s u c ts h :
  let s' := c_add_user s u c ts h in
  c_get_user_connection s' u = Some c /\ c_get_broker_identifier_of_user s' u = Some (identity s)
  /\ exists d, (c_get_partial_user_sync s').2 = Some d /\ vm_get d u = Some (identity s).
Proof.
  cbn zeta. unfold c_get_user_connection, c_get_broker_identifier_of_user. rewrite partial_user_direct, au_direct. cbn [snd].
  split; [rewrite au_users; by rewrite lookup_insert|].
  set (m := vm_remove_if_equals (direct s) u (identity s)).
  assert (vm_get (vm_insert m u (identity s)) u = Some (identity s)) as Hg.
  { unfold vm_get, vm_insert. rewrite modify_local_lookup, decide_True by done. by destruct (entries m !! u). }
  split; [exact Hg|].
  assert (vm_get (vm_diff (vm_insert m u (identity s))).1 u = Some (identity s)) as Hd.
  { unfold vm_get in *. rewrite diff_delta_lookup, decide_True; [exact Hg|]. cbn. set_solver. }
  exists (vm_diff (vm_insert m u (identity s))).1. split; [|exact Hd].
  unfold vm_is_empty. case_bool_decide as He; [|done]. unfold vm_get in Hd. by rewrite He, lookup_empty in Hd.
Qed.
