(** Order and absence of duplicates on every connection of one broker, and the link
    between connections and the peers authenticated on them. *)
From stdpp Require Import gmap fin_maps fin_sets list.
From Coq Require Import NArith ZArith Lia.
From Verif Require Import IdModel RelMapModel VMapModel ConnModel ConnSpec ConnProofs ConnProofs2 ConnProofs3 ConnProofs4
  TopicModel TopicProofs MsgModel RouteModel TaskModel TaskProofs.

(** The connections on which somebody was authenticated, in order. *)
Definition authed_conn (e : event) : list N :=
  match e with EUserAuthed _ _ _ c _ | EBrokerAuthed _ _ _ c => [c] | _ => [] end.
Definition authed_conns (es : list event) : list N := concat (map authed_conn es).

Definition authed_user (es : list event) (u : ukey) (c h : N) : Prop :=
  exists hh ts, In (EUserAuthed h hh u c ts) es.
Definition authed_broker (es : list event) (b : bid) (c h : N) : Prop :=
  exists hh, In (EBrokerAuthed h hh b c) es.

Definition is_relay (f : frame) : bool := match f with FRelay _ => true | _ => false end.

Lemma aborts_users_sub s us u : users (remove_users s us) !! u = None \/ users (remove_users s us) !! u = users s !! u.
Proof. rewrite rus_users. case_decide; auto. Qed.

Section proofs.
Variable deser : bytes -> option message.
Variable dec_users : bytes -> option direct_map.
Variable dec_topics : bytes -> option topic_map.
Variable valid : N -> bool.
Notation m_step := (m_step deser dec_users dec_topics valid).
Notation m_run := (m_run deser dec_users dec_topics valid).
Notation prov_run := (prov_run deser dec_users dec_topics valid).
Notation m_run_snoc := (m_run_snoc deser dec_users dec_topics valid).

(** ** Registered connections were authenticated for that peer *)
Definition add_ok (es : list event) (a : act) : Prop :=
  match a with
  | AAddUser u c _ h => authed_user es u c h
  | AAddBroker b c h => authed_broker es b c h
  | _ => True
  end.

Definition reg_ok (es : list event) (s : conns) : Prop :=
  (forall u c h, users s !! u = Some (c, h) -> authed_user es u c h)
  /\ (forall b be, brokers s !! b = Some be -> authed_broker es b (be_conn be) (be_handle be)).

Lemma authed_user_mono es e u c h : authed_user es u c h -> authed_user (es ++ [e]) u c h.
Proof. intros (hh & ts & H). exists hh, ts. apply in_app_iff. by left. Qed.
Lemma authed_broker_mono es e b c h : authed_broker es b c h -> authed_broker (es ++ [e]) b c h.
Proof. intros (hh & H). exists hh. apply in_app_iff. by left. Qed.
Lemma add_ok_mono es e a : add_ok es a -> add_ok (es ++ [e]) a.
Proof. destruct a; cbn; auto using authed_user_mono, authed_broker_mono. Qed.
Lemma reg_ok_mono es e s : reg_ok es s -> reg_ok (es ++ [e]) s.
Proof. intros [Hu Hb]. split; intros; [apply authed_user_mono|apply authed_broker_mono]; auto. Qed.

Lemma reg_remove_user es s u : reg_ok es s -> reg_ok es (c_remove_user s u).
Proof.
  intros [Hu Hb]. split.
  - intros u' c h. rewrite ru_users. rewrite lookup_delete_Some. intros [_ H]. by apply Hu.
  - intros b be. rewrite ru_brokers. apply Hb.
Qed.
Lemma reg_remove_broker es s b : reg_ok es s -> reg_ok es (c_remove_broker s b).
Proof.
  intros [Hu Hb]. split.
  - intros u' c h. rewrite rb_users. apply Hu.
  - intros b' be. rewrite rb_brokers. rewrite lookup_delete_Some. intros [_ H]. by apply Hb.
Qed.

Lemma act_step_reg es ok s a s' nxt sends :
  reg_ok es s -> add_ok es a -> act_step ok s a = (s', nxt, sends) -> reg_ok es s' /\ Forall (add_ok es) nxt.
Proof.
  intros Hr Ha Heq.
  destruct a as [u raw only|ts raw only|u f|u c f|b f|b c f|f|u|b|u c ts h'|b c h'|u ts|u ts|d|b d|b|b| |]; cbn [act_step] in Heq.
  - injection Heq as <- <- <-. split; [done|]. unfold direct_next. destruct (c_get_broker_identifier_of_user s u); [|constructor].
    case_decide; [repeat constructor|]. destruct only; repeat constructor.
  - injection Heq as <- <- <-. split; [done|]. unfold broadcast_next. destruct (c_get_interested_by_topic s ts only).
    apply Forall_app. split; apply Forall_map, Forall_true; done.
  - injection Heq as <- <- <-. split; [done|]. destruct (c_get_user_connection s u); repeat constructor.
  - destruct (ok c); injection Heq as <- <- <-; (split; [done|]); repeat constructor.
  - injection Heq as <- <- <-. split; [done|]. destruct (c_get_broker_connection s b); repeat constructor.
  - destruct (ok c); injection Heq as <- <- <-; (split; [done|]); repeat constructor.
  - injection Heq as <- <- <-. split; [done|]. apply Forall_map, Forall_true. done.
  - injection Heq as <- <- <-. split; [by apply reg_remove_user|constructor].
  - injection Heq as <- <- <-. split; [by apply reg_remove_broker|constructor].
  - injection Heq as <- <- <-. split; [|constructor]. destruct Hr as [Hu Hb]. split.
    + intros u' c0 h0. rewrite au_users. destruct (decide (u = u')) as [->|Hne].
      * rewrite lookup_insert. intros [= <- <-]. exact Ha.
      * rewrite lookup_insert_ne by done. apply Hu.
    + intros b be. rewrite au_brokers. apply Hb.
  - injection Heq as <- <- <-. split; [|constructor]. destruct Hr as [Hu Hb]. split.
    + intros u' c0 h0. rewrite ab_users. apply Hu.
    + intros b' be. rewrite ab_brokers. destruct (decide (b = b')) as [->|Hne].
      * rewrite lookup_insert. intros [= <-]. exact Ha.
      * rewrite lookup_insert_ne by done. apply Hb.
  - injection Heq as <- <- <-. split; [done|constructor].
  - injection Heq as <- <- <-. split; [done|constructor].
  - injection Heq as <- <- <-. split; [|constructor]. destruct Hr as [Hu Hb]. rewrite apply_user_sync_eq. split.
    + intros u c h. rewrite rus_users. case_decide; [done|]. apply Hu.
    + intros b be.
      destruct (rus_frame (set_direct (vm_merge bid_gtb (direct s) d).1 s) (map fst (vm_merge bid_gtb (direct s) d).2)) as (_ & -> & _). apply Hb.
  - injection Heq as <- <- <-. split; [|constructor]. destruct Hr as [Hu Hb]. split.
    + intros u c h. destruct (apply_topic_frame s b d) as (_ & -> & _). apply Hu.
    + intros b' be Hbe. pose proof (apply_topic_brokers s b d b') as Hab. rewrite Hbe in Hab. cbn in Hab.
      destruct (brokers s !! b') as [be0|] eqn:E0; [|done]. cbn in Hab. injection Hab as -> ->. by apply Hb.
  - injection Heq as <- <- <-. split; [done|]. destruct (c_get_full_topic_sync s); repeat constructor.
  - injection Heq as <- <- <-. split; [done|]. destruct (c_get_full_user_sync s); repeat constructor.
  - destruct (c_get_partial_topic_sync s) as [s1 o1] eqn:E. injection Heq as <- <- <-. split; [|destruct o1; repeat constructor].
    pose proof (partial_topic_frame s) as Hf. cbn zeta in Hf. rewrite E in Hf. cbn [fst] in Hf. destruct Hf as (_ & Hu' & Hb' & _). unfold reg_ok. by rewrite Hu', Hb'.
  - destruct (c_get_partial_user_sync s) as [s1 o1] eqn:E. injection Heq as <- <- <-. split; [|destruct o1; repeat constructor].
    pose proof (partial_user_direct s) as Hd. rewrite E in Hd. injection Hd as -> _. exact Hr.
Qed.

Definition reg_inv (es : list event) (m : machine) : Prop :=
  reg_ok es (m_conns m) /\ forall h t, m_tasks m !! h = Some t -> Forall (add_ok es) (t_acts t).

Lemma reg_run i es : reg_inv es (m_run i es).
Proof.
  induction es as [|e es [IHr IHt]] using rev_ind.
  { split; [split|]; intros *; cbn; by rewrite lookup_empty. }
  rewrite m_run_snoc. apply (reg_ok_mono _ e) in IHr.
  assert (Hold : forall h t, m_tasks (m_run i es) !! h = Some t -> Forall (add_ok (es ++ [e])) (t_acts t)).
  { intros h t Ht. eapply Forall_impl; [by eapply IHt|]. intros a. apply add_ok_mono. }
  clear IHt. set (m := m_run i es) in *.
  assert (He : In e (es ++ [e])) by (apply in_app_iff; right; by left).
  destruct e as [h1 hh u c ts|h1 hh b c|hh|hh u|h1 raw hk|h1|h1 good|h1]; cbn [TaskModel.m_step].
  - case_decide; [|by split]. split; [done|]. intros h t. cbn.
    destruct (decide (h = hh)) as [->|Hne]; [rewrite lookup_insert|rewrite lookup_insert_ne by done].
    + intros [= <-]. cbn. repeat constructor. by exists hh, ts.
    + destruct (decide (h = h1)) as [->|Hne']; [rewrite lookup_insert|rewrite lookup_insert_ne by done]; [intros [= <-]; constructor|apply Hold].
  - case_decide; [|by split]. split; [done|]. intros h t. cbn.
    destruct (decide (h = hh)) as [->|Hne]; [rewrite lookup_insert|rewrite lookup_insert_ne by done].
    + intros [= <-]. cbn. repeat constructor. by exists hh.
    + destruct (decide (h = h1)) as [->|Hne']; [rewrite lookup_insert|rewrite lookup_insert_ne by done]; [intros [= <-]; constructor|apply Hold].
  - destruct (m_tasks m !! hh); [by split|]. split; [done|]. intros h t. cbn.
    destruct (decide (h = hh)) as [->|Hne]; [rewrite lookup_insert|rewrite lookup_insert_ne by done; apply Hold]. intros [= <-]. repeat constructor.
  - destruct (m_tasks m !! hh); [by split|]. split; [done|]. intros h t. cbn.
    destruct (decide (h = hh)) as [->|Hne]; [rewrite lookup_insert|rewrite lookup_insert_ne by done; apply Hold]. intros [= <-]. repeat constructor.
  - destruct (m_tasks m !! h1) as [[o [|? ?] [|] n]|] eqn:E; try by split.
    destruct (loop_frame deser dec_users dec_topics valid o raw hk) as [acts go] eqn:El. split; [done|]. intros h t. cbn.
    destruct (decide (h = h1)) as [->|Hne]; [rewrite lookup_insert|rewrite lookup_insert_ne by done; apply Hold].
    intros [= <-]. cbn. destruct o as [u c|b c|]; cbn in El; [| |injection El as <- <-; constructor].
    + unfold user_frame in El. destruct (deser raw) as [m0|]; [|injection El as <- <-; repeat constructor].
      destruct (hk m0) as [|m1|]; [injection El as <- <-; repeat constructor| |injection El as <- <-; repeat constructor].
      destruct m1; try (destruct (prune valid topics) as [? [|]]); injection El as <- <-; repeat constructor.
    + unfold broker_frame in El. destruct (deser raw) as [m0|]; [|injection El as <- <-; repeat constructor].
      destruct (hk m0) as [|m1|]; [injection El as <- <-; repeat constructor| |injection El as <- <-; repeat constructor].
      destruct m1; try (destruct (dec_users payload)); try (destruct (dec_topics payload)); injection El as <- <-; repeat constructor.
  - destruct (m_tasks m !! h1) as [[o [|? ?] [|] n]|] eqn:E; try by split. split; [done|]. intros h t. cbn.
    destruct (decide (h = h1)) as [->|Hne]; [rewrite lookup_insert|rewrite lookup_insert_ne by done; apply Hold].
    intros [= <-]. cbn. destruct o; repeat constructor.
  - destruct (m_tasks m !! h1) as [[o [|a l] op n]|] eqn:E; try by split.
    destruct (act_step (fun _ => good) (m_conns m) a) as [[s' nxt] sends] eqn:Ea.
    pose proof (Hold _ _ E) as Hf. cbn in Hf. apply Forall_cons in Hf as [Ha Hf].
    destruct (act_step_reg _ _ _ _ _ _ _ IHr Ha Ea) as [Hr' Hn]. split; [done|]. intros h t. cbn.
    destruct (decide (h = h1)) as [->|Hne]; [rewrite lookup_insert|rewrite lookup_insert_ne by done; apply Hold].
    intros [= <-]. cbn. apply Forall_app. done.
  - destruct (m_tasks m !! h1) as [[o l op n]|] eqn:E; [|by split]. case_decide; [|by split]. split; [done|]. intros h t. cbn.
    destruct (decide (h = h1)) as [->|Hne]; [rewrite lookup_insert|rewrite lookup_insert_ne by done; apply Hold].
    intros [= <-]. constructor.
Qed.

Lemma user_conn_authed i es h0 n raw u c : user_conn_was deser dec_users dec_topics valid i es h0 n raw u c -> exists h, authed_user es u c h.
Proof.
  intros (es1 & es2 & -> & _ & Hc). unfold c_get_user_connection in Hc.
  destruct (users (m_conns (m_run i es1)) !! u) as [[c0 h1]|] eqn:E; [|done]. cbn in Hc. injection Hc as ->.
  destruct (reg_run i es1) as [[Hu _] _]. destruct (Hu _ _ _ E) as (hh & ts & Hin). exists h1, hh, ts. apply in_app_iff. by left.
Qed.
Lemma broker_conn_authed i es b c : broker_conn_was deser dec_users dec_topics valid i es b c -> exists h, authed_broker es b c h.
Proof.
  intros (es1 & es2 & -> & Hc). unfold c_get_broker_connection in Hc.
  destruct (brokers (m_conns (m_run i es1)) !! b) as [be|] eqn:E; [|done]. cbn in Hc. injection Hc as <-.
  destruct (reg_run i es1) as [[_ Hb] _]. destruct (Hb _ _ E) as (hh & Hin). exists (be_handle be), hh. apply in_app_iff. by left.
Qed.

(** With fresh connection numbers a connection belongs to one peer. *)
Lemma authed_unique es e1 e2 c :
  NoDup (authed_conns es) -> In e1 es -> In e2 es -> In c (authed_conn e1) -> In c (authed_conn e2) -> e1 = e2.
Proof.
  unfold authed_conns. induction es as [|e es IH]; [done|]. cbn. intros Hnd H1 H2 Hc1 Hc2.
  apply NoDup_app in Hnd as (Hn1 & Hdis & Hn2).
  assert (Hin : forall e', In e' es -> In c (authed_conn e') -> c ∈ concat (map authed_conn es)).
  { intros e' He' Hc'. apply elem_of_list_In, in_concat. exists (authed_conn e'). split; [|done]. by apply in_map. }
  destruct H1 as [->|H1], H2 as [->|H2]; [done| | |by apply IH].
  - exfalso. apply (Hdis c); [by apply elem_of_list_In|]. by eapply Hin.
  - exfalso. apply (Hdis c); [by apply elem_of_list_In|]. by eapply Hin.
Qed.

(** ** Order *)
Definition is_decision (a : act) : bool :=
  match a with ADirect _ _ _ | ABroadcast _ _ _ => true | _ => false end.
Definition act_targets (a : act) : list (bytes + bid) :=
  match a with
  | ALookupUser u (FRelay _) | ASendUser u _ (FRelay _) => [inl u]
  | ALookupBroker b (FRelay _) | ASendBroker b _ (FRelay _) => [inr b]
  | _ => []
  end.
Definition pending (l : list act) : list (bytes + bid) := concat (map act_targets l).

Definition task_ok (m : machine) (h : N) (t : task) : Prop :=
  NoDup (pending (t_acts t))
  /\ (forall a, In a (t_acts t) -> is_decision a = true -> t_acts t = [a])
  /\ (forall x, In x (m_sent m) -> s_task x = h -> (s_frame x <= t_frames t)
        /\ (s_frame x = t_frames t -> is_relay (e_frame (s_what x)) = true ->
              e_to (s_what x) ∉ pending (t_acts t) /\ forall a, In a (t_acts t) -> is_decision a = false)).

Definition order_inv (m : machine) : Prop :=
  (forall h t, m_tasks m !! h = Some t -> task_ok m h t)
  /\ (forall x, In x (m_sent m) -> is_Some (m_tasks m !! s_task x))
  /\ (forall j k x y, j < k -> m_sent m !! j = Some x -> m_sent m !! k = Some y -> s_task x = s_task y ->
        s_frame x <= s_frame y
        /\ (s_frame x = s_frame y -> is_relay (e_frame (s_what x)) = true -> is_relay (e_frame (s_what y)) = true ->
              e_to (s_what x) <> e_to (s_what y))).

Lemma pending_app l1 l2 : pending (l1 ++ l2) = pending l1 ++ pending l2.
Proof. unfold pending. by rewrite map_app, concat_app. Qed.

Lemma pending_cons a l : pending (a :: l) = act_targets a ++ pending l.
Proof. done. Qed.

Lemma pending_users f us : pending (map (fun u => ALookupUser u f) us) = if is_relay f then map inl us else [].
Proof. unfold pending. induction us as [|u us IH]; [by destruct f|]. cbn. rewrite IH. by destruct f. Qed.
Lemma pending_brokers f bs : pending (map (fun b => ALookupBroker b f) bs) = if is_relay f then map inr bs else [].
Proof. unfold pending. induction bs as [|b bs IH]; [by destruct f|]. cbn. rewrite IH. by destruct f. Qed.

(** What one action does to the pending targets. *)
Lemma act_step_order ok s a s' nxt sends :
  act_step ok s a = (s', nxt, sends) ->
  (match a with ASendBrokers (FRelay _) => False | _ => True end) ->
  (forall a', In a' nxt -> is_decision a' = false)
  /\ NoDup (pending nxt)
  /\ length sends <= 1
  /\ (is_decision a = true -> sends = [])
  /\ (is_decision a = false -> forall x, x ∈ pending nxt -> x ∈ act_targets a)
  /\ (forall x, In x sends -> is_relay (e_frame x) = true -> In (e_to x) (act_targets a) /\ pending nxt = []).
Proof.
  intros Heq Hns.
  destruct a as [u raw only|ts raw only|u f|u c f|b f|b c f|f|u|b|u c ts h'|b c h'|u ts|u ts|d|b d|b|b| |]; cbn [act_step] in Heq.
  - injection Heq as <- <- <-. unfold direct_next. destruct (c_get_broker_identifier_of_user s u) as [b|]; [case_decide; [|destruct only]|]; cbn; (split; [naive_solver|]);
      (split; [repeat constructor; set_solver|]); (split; [lia|]); (split; [done|]); (split; [done|naive_solver]).
  - injection Heq as <- <- <-. unfold broadcast_next. destruct (interested_nodup s ts only) as [Hb Hu].
    destruct (c_get_interested_by_topic s ts only) as [bs us]. cbn [fst snd] in *.
    split; [|split; [|split; [cbn; lia|split; [done|split; [done|naive_solver]]]]].
    + intros a'. rewrite in_app_iff, !in_map_iff. naive_solver.
    + rewrite pending_app, pending_users, pending_brokers. cbn. apply NoDup_app. split; [by apply (NoDup_fmap_2 inr)|].
      split; [|by apply (NoDup_fmap_2 inl)]. intros x. rewrite !elem_of_list_In, !in_map_iff. naive_solver.
  - injection Heq as <- <- <-. split; [destruct (c_get_user_connection s u); cbn; naive_solver|].
    split; [destruct (c_get_user_connection s u), f; cbn; repeat constructor; set_solver|]. split; [cbn; lia|]. split; [done|].
    split; [|cbn; naive_solver]. intros _ x. destruct (c_get_user_connection s u), f; cbn; set_solver.
  - destruct (ok c); injection Heq as <- <- <-.
    + split; [cbn; naive_solver|]. split; [constructor|]. split; [cbn; lia|]. split; [done|]. split; [cbn; set_solver|].
      intros x [<-|[]]. cbn. intros Hr. destruct f; [|done|done]. split; [by left|done].
    + split; [cbn; naive_solver|]. split; [constructor|]. split; [cbn; lia|]. split; [done|]. split; [cbn; set_solver|]. cbn. naive_solver.
  - injection Heq as <- <- <-. split; [destruct (c_get_broker_connection s b); cbn; naive_solver|].
    split; [destruct (c_get_broker_connection s b), f; cbn; repeat constructor; set_solver|]. split; [cbn; lia|]. split; [done|].
    split; [|cbn; naive_solver]. intros _ x. destruct (c_get_broker_connection s b), f; cbn; set_solver.
  - destruct (ok c); injection Heq as <- <- <-.
    + split; [cbn; naive_solver|]. split; [constructor|]. split; [cbn; lia|]. split; [done|]. split; [cbn; set_solver|].
      intros x [<-|[]]. cbn. intros Hr. destruct f; [|done|done]. split; [by left|done].
    + split; [cbn; naive_solver|]. split; [constructor|]. split; [cbn; lia|]. split; [done|]. split; [cbn; set_solver|]. cbn. naive_solver.
  - injection Heq as <- <- <-. split; [intros a'; rewrite in_map_iff; naive_solver|].
    rewrite pending_brokers. destruct f; [done| |]; cbn; (split; [constructor|]; split; [lia|]; split; [done|]; split; [set_solver|naive_solver]).
  - injection Heq as <- <- <-. cbn; (split; [naive_solver|]; split; [constructor|]; split; [lia|]; split; [done|]; split; [set_solver|naive_solver]).
  - injection Heq as <- <- <-. cbn; (split; [naive_solver|]; split; [constructor|]; split; [lia|]; split; [done|]; split; [set_solver|naive_solver]).
  - injection Heq as <- <- <-. cbn; (split; [naive_solver|]; split; [constructor|]; split; [lia|]; split; [done|]; split; [set_solver|naive_solver]).
  - injection Heq as <- <- <-. cbn; (split; [naive_solver|]; split; [constructor|]; split; [lia|]; split; [done|]; split; [set_solver|naive_solver]).
  - injection Heq as <- <- <-. cbn; (split; [naive_solver|]; split; [constructor|]; split; [lia|]; split; [done|]; split; [set_solver|naive_solver]).
  - injection Heq as <- <- <-. cbn; (split; [naive_solver|]; split; [constructor|]; split; [lia|]; split; [done|]; split; [set_solver|naive_solver]).
  - injection Heq as <- <- <-. cbn; (split; [naive_solver|]; split; [constructor|]; split; [lia|]; split; [done|]; split; [set_solver|naive_solver]).
  - injection Heq as <- <- <-. cbn; (split; [naive_solver|]; split; [constructor|]; split; [lia|]; split; [done|]; split; [set_solver|naive_solver]).
  - injection Heq as <- <- <-. destruct (c_get_full_topic_sync s); cbn; (split; [naive_solver|]; split; [constructor|]; split; [lia|]; split; [done|]; split; [set_solver|naive_solver]).
  - injection Heq as <- <- <-. destruct (c_get_full_user_sync s); cbn; (split; [naive_solver|]; split; [constructor|]; split; [lia|]; split; [done|]; split; [set_solver|naive_solver]).
  - destruct (c_get_partial_topic_sync s) as [s1 [o1|]]; injection Heq as <- <- <-; cbn; (split; [naive_solver|]; split; [constructor|]; split; [lia|]; split; [done|]; split; [set_solver|naive_solver]).
  - destruct (c_get_partial_user_sync s) as [s1 [o1|]]; injection Heq as <- <- <-; cbn; (split; [naive_solver|]; split; [constructor|]; split; [lia|]; split; [done|]; split; [set_solver|naive_solver]).
Qed.

Lemma loop_frame_single o raw hk acts go :
  loop_frame deser dec_users dec_topics valid o raw hk = (acts, go) -> length acts <= 1 /\ pending acts = [].
Proof.
  intros El. destruct o as [u c|b c|]; cbn in El; [| |injection El as <- <-; cbn; split; [lia|done]].
  - unfold user_frame in El. destruct (deser raw) as [m0|]; [|injection El as <- <-; cbn; split; [lia|done]].
    destruct (hk m0) as [|m1|]; [injection El as <- <-; cbn; split; [lia|done]| |injection El as <- <-; cbn; split; [lia|done]].
    destruct m1; try (destruct (prune valid topics) as [? [|]]); injection El as <- <-; cbn; (split; [lia|done]).
  - unfold broker_frame in El. destruct (deser raw) as [m0|]; [|injection El as <- <-; cbn; split; [lia|done]].
    destruct (hk m0) as [|m1|]; [injection El as <- <-; cbn; split; [lia|done]| |injection El as <- <-; cbn; split; [lia|done]].
    destruct m1; try (destruct (dec_users payload)); try (destruct (dec_topics payload)); injection El as <- <-; cbn; (split; [lia|done]).
Qed.

Lemma order_fresh m h t : m_tasks m !! h = None -> (forall x, In x (m_sent m) -> is_Some (m_tasks m !! s_task x)) ->
  pending (t_acts t) = [] -> (forall a, In a (t_acts t) -> is_decision a = false) -> task_ok m h t.
Proof.
  intros Hn Hs Hp Hd. split; [rewrite Hp; constructor|]. split.
  - intros a Ha Hda. specialize (Hd a Ha). congruence.
  - intros x Hx <-. destruct (Hs x Hx). congruence.
Qed.

Lemma task_ok_ext m m' h t : m_sent m' = m_sent m -> task_ok m h t -> task_ok m' h t.
Proof. unfold task_ok. by intros ->. Qed.

Lemma order_run i es : order_inv (m_run i es).
Proof.
  induction es as [|e es (IHt & IHs & IHo)] using rev_ind.
  { split; [|split]; cbn; [intros h t; by rewrite lookup_empty|done|]. intros j k x y _ Hx. by rewrite lookup_nil in Hx. }
  pose proof (prov_run i es) as [Hprov _].
  rewrite m_run_snoc. set (m := m_run i es) in *.
  destruct e as [h1 hh u c ts|h1 hh b c|hh|hh u|h1 raw hk|h1|h1 good|h1]; cbn [TaskModel.m_step].
  - case_decide as Hd; [|done]. destruct Hd as (Hne & H1 & H2). split; [|split; [|done]].
    + intros h t. cbn. destruct (decide (h = hh)) as [->|Hne1]; [rewrite lookup_insert|rewrite lookup_insert_ne by done].
      * intros [= <-]. apply (task_ok_ext m); [done|]. apply order_fresh; try done. cbn. naive_solver.
      * destruct (decide (h = h1)) as [->|Hne2]; [rewrite lookup_insert|rewrite lookup_insert_ne by done].
        -- intros [= <-]. apply (task_ok_ext m); [done|]. apply order_fresh; done.
        -- intros Ht. apply (task_ok_ext m); [done|]. by apply IHt.
    + intros x Hx. cbn. destruct (IHs x Hx). rewrite !lookup_insert_ne by congruence. eauto.
  - case_decide as Hd; [|done]. destruct Hd as (Hne & H1 & H2). split; [|split; [|done]].
    + intros h t. cbn. destruct (decide (h = hh)) as [->|Hne1]; [rewrite lookup_insert|rewrite lookup_insert_ne by done].
      * intros [= <-]. apply (task_ok_ext m); [done|]. apply order_fresh; try done. cbn. naive_solver.
      * destruct (decide (h = h1)) as [->|Hne2]; [rewrite lookup_insert|rewrite lookup_insert_ne by done].
        -- intros [= <-]. apply (task_ok_ext m); [done|]. apply order_fresh; done.
        -- intros Ht. apply (task_ok_ext m); [done|]. by apply IHt.
    + intros x Hx. cbn. destruct (IHs x Hx). rewrite !lookup_insert_ne by congruence. eauto.
  - destruct (m_tasks m !! hh) eqn:E; [done|]. split; [|split; [|done]].
    + intros h t. cbn. destruct (decide (h = hh)) as [->|Hne1]; [rewrite lookup_insert|rewrite lookup_insert_ne by done].
      * intros [= <-]. apply (task_ok_ext m); [done|]. apply order_fresh; try done. cbn. naive_solver.
      * intros Ht. apply (task_ok_ext m); [done|]. by apply IHt.
    + intros x Hx. cbn. destruct (IHs x Hx). rewrite !lookup_insert_ne by congruence. eauto.
  - destruct (m_tasks m !! hh) eqn:E; [done|]. split; [|split; [|done]].
    + intros h t. cbn. destruct (decide (h = hh)) as [->|Hne1]; [rewrite lookup_insert|rewrite lookup_insert_ne by done].
      * intros [= <-]. apply (task_ok_ext m); [done|]. apply order_fresh; try done. cbn. naive_solver.
      * intros Ht. apply (task_ok_ext m); [done|]. by apply IHt.
    + intros x Hx. cbn. destruct (IHs x Hx). rewrite !lookup_insert_ne by congruence. eauto.
  - destruct (m_tasks m !! h1) as [[o [|? ?] [|] n]|] eqn:E; try done.
    destruct (loop_frame deser dec_users dec_topics valid o raw hk) as [acts go] eqn:El.
    destruct (loop_frame_single _ _ _ _ _ El) as [Hlen Hpend]. split; [|split; [|done]].
    + intros h t. cbn. destruct (decide (h = h1)) as [->|Hne1]; [rewrite lookup_insert|rewrite lookup_insert_ne by done].
      * intros [= <-]. split; [|split]; cbn [t_acts t_frames m_sent].
        -- rewrite Hpend. constructor.
        -- intros a Ha _. destruct acts as [|a0 [|a1 acts]]; [done| |cbn in Hlen; lia]. destruct Ha as [->|[]]. done.
        -- intros x Hx Hh. destruct (IHt _ _ E) as (_ & _ & Hs). destruct (Hs x Hx Hh) as [Hle _]. cbn in Hle. split; [lia|]. lia.
      * intros Ht. apply (task_ok_ext m); [done|]. by apply IHt.
    + intros x Hx. cbn. destruct (decide (s_task x = h1)) as [->|Hne1]; [rewrite lookup_insert; eauto|rewrite lookup_insert_ne by done; by apply IHs].
  - destruct (m_tasks m !! h1) as [[o [|? ?] [|] n]|] eqn:E; try done. split; [|split; [|done]].
    + intros h t. cbn. destruct (decide (h = h1)) as [->|Hne1]; [rewrite lookup_insert|rewrite lookup_insert_ne by done].
      * intros [= <-]. destruct (IHt _ _ E) as (_ & _ & Hs). cbn in Hs. split; [|split]; cbn [t_acts t_frames m_sent].
        -- destruct o; constructor.
        -- destruct o; cbn; naive_solver.
        -- intros x Hx Hh. destruct (Hs x Hx Hh) as [Hle _]. split; [done|]. intros _ _. destruct o; cbn; split; (set_solver || naive_solver).
      * intros Ht. apply (task_ok_ext m); [done|]. by apply IHt.
    + intros x Hx. cbn. destruct (decide (s_task x = h1)) as [->|Hne1]; [rewrite lookup_insert; eauto|rewrite lookup_insert_ne by done; by apply IHs].
  - destruct (m_tasks m !! h1) as [[o [|a l] op n]|] eqn:E; try done.
    destruct (act_step (fun _ => good) (m_conns m) a) as [[s' nxt] sends] eqn:Ea.
    destruct (IHt _ _ E) as (Hnd & Hdec & Hsent). cbn [t_acts t_frames] in Hnd, Hdec, Hsent.
    assert (Hns : match a with ASendBrokers (FRelay _) => False | _ => True end).
    { specialize (Hprov _ _ E). cbn in Hprov. apply Forall_cons in Hprov as [Ha _]. destruct a as [| | | | | |f| | | | | | | | | | | |]; try done; by destruct f. }
    destruct (act_step_order _ _ _ _ _ _ Ea Hns) as (Hnd' & Hnn & Hlen & Hds & Hsub & Hem).
    rewrite pending_cons in Hnd. apply NoDup_app in Hnd as (Hna & Hdis' & Hnl).
    assert (Hdl : is_decision a = true -> l = []).
    { intros Hd. specialize (Hdec a (or_introl eq_refl) Hd). by injection Hdec. }
    assert (Hlnd : forall a', In a' l -> is_decision a' = false).
    { intros a' Ha'. destruct (is_decision a') eqn:Hd; [|done]. pose proof (Hdec a' (or_intror Ha') Hd) as Heq. injection Heq as -> ->. done. }
    split; [|split].
    + intros h t. cbn. destruct (decide (h = h1)) as [->|Hne1]; [rewrite lookup_insert|rewrite lookup_insert_ne by done].
      * intros [= <-]. split; [|split]; cbn [t_acts t_frames m_sent].
        -- rewrite pending_app. apply NoDup_app. split; [done|]. split; [|done]. intros x Hx. destruct (is_decision a) eqn:Hd.
           ++ rewrite Hdl by done. set_solver.
           ++ apply Hdis'. by apply Hsub.
        -- intros a' Ha' Hd'. exfalso. apply in_app_iff in Ha' as [Ha'|Ha']; [rewrite (Hnd' _ Ha') in Hd'|rewrite (Hlnd _ Ha') in Hd']; done.
        -- intros x Hx Hh. apply in_app_iff in Hx as [Hx|Hx].
           ++ destruct (Hsent x Hx Hh) as [Hle Hrel]. split; [done|]. intros Hf Hr. destruct (Hrel Hf Hr) as [Hnp Hnd2].
              split.
              ** rewrite pending_app, elem_of_app. intros [Hp|Hp].
                 --- apply Hnp. rewrite pending_cons, elem_of_app. left. apply Hsub; [|done]. apply Hnd2. by left.
                 --- apply Hnp. rewrite pending_cons, elem_of_app. by right.
              ** intros a' Ha'. apply in_app_iff in Ha' as [Ha'|Ha']; [by apply Hnd'|by apply Hlnd].
           ++ apply in_map_iff in Hx as (e0 & <- & He0). cbn. split; [done|]. intros _ Hr.
              destruct (Hem _ He0 Hr) as [Htg Hpn]. split.
              ** rewrite pending_app, Hpn. cbn. apply Hdis'. by apply elem_of_list_In.
              ** intros a' Ha'. apply in_app_iff in Ha' as [Ha'|Ha']; [by apply Hnd'|by apply Hlnd].
      * intros Ht. destruct (IHt _ _ Ht) as (H1 & H2 & H3). split; [done|]. split; [done|]. cbn. intros x Hx Hh.
        apply in_app_iff in Hx as [Hx|Hx]; [by apply H3|]. apply in_map_iff in Hx as (e0 & <- & _). cbn in Hh. done.
    + intros x Hx. cbn in *. apply in_app_iff in Hx as [Hx|Hx].
      * destruct (decide (s_task x = h1)) as [->|Hne1]; [rewrite lookup_insert; eauto|rewrite lookup_insert_ne by done; by apply IHs].
      * apply in_map_iff in Hx as (e0 & <- & _). cbn. rewrite lookup_insert. eauto.
    + intros j k x y Hjk Hx Hy Hsame. cbn in Hx, Hy.
      destruct (decide (k < length (m_sent m))) as [Hk|Hk].
      * rewrite lookup_app_l in Hx by lia. rewrite lookup_app_l in Hy by lia. exact (IHo j k x y Hjk Hx Hy Hsame).
      * rewrite lookup_app_r in Hy by lia.
        assert (k - length (m_sent m) = 0) as Hk0.
        { apply lookup_lt_Some in Hy. rewrite map_length in Hy. lia. }
        rewrite lookup_app_l in Hx by lia. apply elem_of_list_lookup_2, elem_of_list_In in Hx.
        apply elem_of_list_lookup_2, elem_of_list_In, in_map_iff in Hy as (e0 & <- & He0). cbn in Hsame |- *.
        destruct (Hsent x Hx Hsame) as [Hle Hrel]. split; [done|]. intros Hf Hr Hre Heq.
        destruct (Hrel Hf Hr) as [Hnp _]. apply Hnp. destruct (Hem _ He0 Hre) as [Htg _].
        rewrite pending_cons, elem_of_app, Heq. left. by apply elem_of_list_In.
  - destruct (m_tasks m !! h1) as [[o l op n]|] eqn:E; [|done]. case_decide; [|done]. split; [|split; [|done]].
    + intros h t. cbn. destruct (decide (h = h1)) as [->|Hne1]; [rewrite lookup_insert|rewrite lookup_insert_ne by done].
      * intros [= <-]. destruct (IHt _ _ E) as (_ & _ & Hs). cbn in Hs. split; [|split]; cbn [t_acts t_frames m_sent].
        -- constructor.
        -- done.
        -- intros x Hx Hh. destruct (Hs x Hx Hh) as [Hle _]. split; [done|]. intros _ _. cbn. split; [set_solver|done].
      * intros Ht. apply (task_ok_ext m); [done|]. by apply IHt.
    + intros x Hx. cbn. destruct (decide (s_task x = h1)) as [->|Hne1]; [rewrite lookup_insert; eauto|rewrite lookup_insert_ne by done; by apply IHs].
Qed.

(** The peer to which a connection belongs. *)
Lemma sent_authed i es x :
  In x (m_sent (m_run i es)) ->
  match e_to (s_what x) with
  | inl u => exists h, authed_user es u (e_conn (s_what x)) h
  | inr b => exists h, authed_broker es b (e_conn (s_what x)) h
  end.
Proof.
  intros Hx. destruct (prov_run i es) as [_ Hs]. rewrite Forall_forall in Hs.
  specialize (Hs x (proj2 (elem_of_list_In _ _) Hx)). unfold sent_ok in Hs.
  destruct (s_what x) as [[u|b] c [raw|d|d]]; cbn; try done.
  - destruct Hs as [_ Hc]. by eapply user_conn_authed.
  - destruct Hs as (_ & _ & Hc). by eapply broker_conn_authed.
  - by eapply broker_conn_authed.
  - by eapply broker_conn_authed.
Qed.

Lemma sent_same_target i es x y :
  NoDup (authed_conns es) ->
  In x (m_sent (m_run i es)) -> In y (m_sent (m_run i es)) ->
  e_conn (s_what x) = e_conn (s_what y) -> e_to (s_what x) = e_to (s_what y).
Proof.
  intros Hnd Hx Hy Hc. apply sent_authed in Hx, Hy. rewrite Hc in Hx.
  destruct (e_to (s_what x)) as [u|b], (e_to (s_what y)) as [u'|b'].
  - destruct Hx as (h & hh & ts & H1), Hy as (h' & hh' & ts' & H2).
    assert (Heq := authed_unique es _ _ (e_conn (s_what y)) Hnd H1 H2 (or_introl eq_refl) (or_introl eq_refl)). by injection Heq as -> -> -> ->.
  - destruct Hx as (h & hh & ts & H1), Hy as (h' & hh' & H2).
    assert (Heq := authed_unique es _ _ (e_conn (s_what y)) Hnd H1 H2 (or_introl eq_refl) (or_introl eq_refl)). done.
  - destruct Hx as (h & hh & H1), Hy as (h' & hh' & ts' & H2).
    assert (Heq := authed_unique es _ _ (e_conn (s_what y)) Hnd H1 H2 (or_introl eq_refl) (or_introl eq_refl)). done.
  - destruct Hx as (h & hh & H1), Hy as (h' & hh' & H2).
    assert (Heq := authed_unique es _ _ (e_conn (s_what y)) Hnd H1 H2 (or_introl eq_refl) (or_introl eq_refl)). by injection Heq as -> -> ->.
Qed.

(** Copies made by one receive loop appear on every connection in the order in which the
    loop received the originals, each at most once. *)
Lemma loop_order i es j k x y :
  NoDup (authed_conns es) ->
  j < k -> m_sent (m_run i es) !! j = Some x -> m_sent (m_run i es) !! k = Some y ->
  s_task x = s_task y -> e_conn (s_what x) = e_conn (s_what y) ->
  is_relay (e_frame (s_what x)) = true -> is_relay (e_frame (s_what y)) = true ->
  s_frame x < s_frame y.
Proof.
  intros Hnd Hjk Hx Hy Ht Hc Hrx Hry. destruct (order_run i es) as (_ & _ & Ho).
  destruct (Ho j k x y Hjk Hx Hy Ht) as [Hle Hne].
  destruct (decide (s_frame x = s_frame y)) as [Heq|?]; [|lia]. exfalso. apply (Hne Heq Hrx Hry).
  apply (sent_same_target i es); [done| | |done].
  - by apply elem_of_list_In, elem_of_list_lookup_2 with j.
  - by apply elem_of_list_In, elem_of_list_lookup_2 with k.
Qed.

(** One frame yields at most one copy per peer, whatever connections the peer has had. *)
Lemma frame_once i es j k x y :
  j < k -> m_sent (m_run i es) !! j = Some x -> m_sent (m_run i es) !! k = Some y ->
  s_task x = s_task y -> s_frame x = s_frame y ->
  is_relay (e_frame (s_what x)) = true -> is_relay (e_frame (s_what y)) = true ->
  e_to (s_what x) <> e_to (s_what y).
Proof.
  intros Hjk Hx Hy Ht Hf Hrx Hry. destruct (order_run i es) as (_ & _ & Ho).
  by apply (Ho j k x y Hjk Hx Hy Ht).
Qed.
End proofs.
