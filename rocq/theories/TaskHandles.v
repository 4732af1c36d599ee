(** The running broker at lock granularity: which tasks belong to registered connections. *)
From stdpp Require Import gmap fin_maps fin_sets list.
From Coq Require Import NArith ZArith Lia.
From Verif Require Import IdModel RelMapModel VMapModel ConnModel ConnSpec ConnProofs ConnProofs2 ConnProofs3 ConnProofs4
  TopicModel TopicProofs MsgModel RouteModel TaskModel TaskProofs.

(** Task [h] is the receive loop of a connection that is registered for [o]. *)
Definition registered (s : conns) (h : N) (o : owner) : Prop :=
  match o with
  | OUser u c => users s !! u = Some (c, h)
  | OBroker b c => exists tm, brokers s !! b = Some (BrokerEntry c tm h)
  | OOther => False
  end.

Definition add_handle (a : act) : list N :=
  match a with AAddUser _ _ _ h | AAddBroker _ _ h => [h] | _ => [] end.
Definition add_owner (a : act) : option (N * owner) :=
  match a with AAddUser u c _ h => Some (h, OUser u c) | AAddBroker b c h => Some (h, OBroker b c) | _ => None end.
Definition adds (l : list act) : list N := concat (map add_handle l).

(** A registration is still to be performed for loop [h]. *)
Definition unregistered (m : machine) (h : N) : Prop :=
  exists hh t, m_tasks m !! hh = Some t /\ In h (adds (t_acts t)).

Lemma adds_app l1 l2 : adds (l1 ++ l2) = adds l1 ++ adds l2.
Proof. unfold adds. by rewrite map_app, concat_app. Qed.

Lemma registered_live s h o : registered s h o -> In h (live_handles s).
Proof.
  unfold live_handles. rewrite in_app_iff. destruct o as [u c|b c|]; cbn; [|intros [tm H]|done].
  - intros H. left. apply in_map_iff. exists (u, (c, h)). split; [done|]. by apply elem_of_list_In, elem_of_map_to_list.
  - right. apply in_map_iff. eexists (b, _). split; [|apply elem_of_list_In, elem_of_map_to_list; exact H]. done.
Qed.

(** How one action changes the registrations. *)
Lemma act_step_registered ok s a s' nxt sends h o :
  act_step ok s a = (s', nxt, sends) -> registered s' h o ->
  registered s h o \/ add_owner a = Some (h, o).
Proof.
  intros Heq Hr.
  assert (Hu : forall u, users s' = delete u (users s) -> brokers s' = brokers s -> registered s h o).
  { intros u Hus Hbs. destruct o as [u0 c0|b0 c0|]; cbn in *; [|by rewrite Hbs in Hr|done].
    rewrite Hus, lookup_delete_Some in Hr. tauto. }
  assert (Hb : forall b, users s' = users s -> brokers s' = delete b (brokers s) -> registered s h o).
  { intros b Hus Hbs. destruct o as [u0 c0|b0 c0|]; cbn in *; [by rewrite Hus in Hr| |done].
    setoid_rewrite Hbs in Hr. destruct Hr as [tm Hr]. rewrite lookup_delete_Some in Hr. exists tm. tauto. }
  destruct a as [u raw only|ts raw only|u f|u c f|b f|b c f|f|u|b|u c ts h'|b c h'|u ts|u ts|d|b d|b|b| |]; cbn [act_step add_owner] in Heq |- *;
    try (injection Heq as <- <- <-; by left).
  - destruct (ok c); injection Heq as <- <- <-; by left.
  - destruct (ok c); injection Heq as <- <- <-; by left.
  - injection Heq as <- <- <-. left. apply (Hu u); [apply ru_users|apply ru_brokers].
  - injection Heq as <- <- <-. left. apply (Hb b); [apply rb_users|apply rb_brokers].
  - injection Heq as <- <- <-. destruct o as [u0 c0|b0 c0|]; cbn in *; [|left; by rewrite au_brokers in Hr|done].
    rewrite au_users, lookup_insert_Some in Hr. destruct Hr as [[-> [= <- <-]]|[_ Hr]]; [by right|by left].
  - injection Heq as <- <- <-. destruct o as [u0 c0|b0 c0|]; cbn in *; [left; by rewrite ab_users in Hr| |done].
    destruct Hr as [tm Hr]. rewrite ab_brokers, lookup_insert_Some in Hr. destruct Hr as [[-> [= <- _ <-]]|[_ Hr]]; [by right|left; eauto].
  - injection Heq as <- <- <-. left. rewrite apply_user_sync_eq in Hr. set (s0 := set_direct (vm_merge bid_gtb (direct s) d).1 s) in Hr.
    destruct o as [u0 c0|b0 c0|]; cbn in *; [| |done].
    + rewrite rus_users in Hr. case_decide; [done|]. exact Hr.
    + destruct (rus_frame s0 (map fst (vm_merge bid_gtb (direct s) d).2)) as (_ & Hbr & _). setoid_rewrite Hbr in Hr. exact Hr.
  - injection Heq as <- <- <-. left. destruct o as [u0 c0|b0 c0|]; cbn in *; [| |done].
    + destruct (apply_topic_frame s b d) as (_ & Hus & _). by rewrite Hus in Hr.
    + destruct Hr as [tm Hr]. pose proof (apply_topic_brokers s b d b0) as Hab. rewrite Hr in Hab. cbn in Hab.
      destruct (brokers s !! b0) as [[c1 tm1 h1]|]; [|done]. cbn in Hab. injection Hab as <- <-. eauto.
  - destruct (c_get_partial_topic_sync s) as [s1 o1] eqn:E. injection Heq as <- <- <-. left.
    pose proof (partial_topic_frame s) as Hf. cbn zeta in Hf. rewrite E in Hf. cbn [fst] in Hf. destruct Hf as (_ & Hu' & Hb' & _).
    destruct o; cbn in *; [by rewrite Hu' in Hr|by rewrite Hb' in Hr|done].
  - destruct (c_get_partial_user_sync s) as [s1 o1] eqn:E. injection Heq as <- <- <-. left.
    pose proof (partial_user_direct s) as Hd. rewrite E in Hd. injection Hd as -> _. by destruct o.
Qed.

Lemma act_step_adds ok s a s' nxt sends :
  act_step ok s a = (s', nxt, sends) ->
  adds nxt = [] /\ (exists os, s' = fold_left c_step os s /\ added_handles os = add_handle a).
Proof.
  intros Heq.
  assert (Hub : forall (A : Type) (f : A -> act) (l : list A), (forall x, add_handle (f x) = []) -> adds (map f l) = []).
  { intros A f l Hf. induction l as [|x l IH]; [done|]. unfold adds in *. cbn. by rewrite Hf, IH. }
  destruct a as [u raw only|ts raw only|u f|u c f|b f|b c f|f|u|b|u c ts h'|b c h'|u ts|u ts|d|b d|b|b| |]; cbn [act_step] in Heq.
  - injection Heq as <- <- <-. split; [|by exists []]. unfold direct_next. destruct (c_get_broker_identifier_of_user s u); [case_decide; [|destruct only]|]; done.
  - injection Heq as <- <- <-. split; [|by exists []]. unfold broadcast_next. destruct (c_get_interested_by_topic s ts only).
    rewrite adds_app, !Hub; done.
  - injection Heq as <- <- <-. split; [|by exists []]. by destruct (c_get_user_connection s u).
  - destruct (ok c); injection Heq as <- <- <-; (split; [done|by exists []]).
  - injection Heq as <- <- <-. split; [|by exists []]. by destruct (c_get_broker_connection s b).
  - destruct (ok c); injection Heq as <- <- <-; (split; [done|by exists []]).
  - injection Heq as <- <- <-. split; [|by exists []]. by rewrite Hub.
  - injection Heq as <- <- <-. split; [done|]. by exists [CRemoveUser u].
  - injection Heq as <- <- <-. split; [done|]. by exists [CRemoveBroker b].
  - injection Heq as <- <- <-. split; [done|]. by exists [CAddUser u c ts h'].
  - injection Heq as <- <- <-. split; [done|]. by exists [CAddBroker b c h'].
  - injection Heq as <- <- <-. split; [done|]. by exists [CSubscribeUser u ts].
  - injection Heq as <- <- <-. split; [done|]. by exists [CUnsubscribeUser u ts].
  - injection Heq as <- <- <-. split; [done|]. by exists [CApplyUserSync d].
  - injection Heq as <- <- <-. split; [done|]. by exists [CApplyTopicSync b d].
  - injection Heq as <- <- <-. split; [|by exists []]. by destruct (c_get_full_topic_sync s).
  - injection Heq as <- <- <-. split; [|by exists []]. by destruct (c_get_full_user_sync s).
  - destruct (c_get_partial_topic_sync s) as [s1 o1] eqn:E. injection Heq as <- <- <-. split; [by destruct o1|]. exists [CPartialTopicSync]. cbn [fold_left c_step]. by rewrite E.
  - destruct (c_get_partial_user_sync s) as [s1 o1] eqn:E. injection Heq as <- <- <-. split; [by destruct o1|]. exists [CPartialUserSync]. cbn [fold_left c_step]. by rewrite E.
Qed.

Section proofs.
Variable deser : bytes -> option message.
Variable dec_users : bytes -> option direct_map.
Variable dec_topics : bytes -> option topic_map.
Variable valid : N -> bool.
Notation m_step := (m_step deser dec_users dec_topics valid).
Notation m_run := (m_run deser dec_users dec_topics valid).
Notation m_run_snoc := (m_run_snoc deser dec_users dec_topics valid).
Notation loop_frame := (loop_frame deser dec_users dec_topics valid).

Lemma loop_frame_adds o raw hk : adds (loop_frame o raw hk).1 = [].
Proof.
  destruct o as [u c|b c|]; cbn; [| |done].
  - unfold user_frame. destruct (deser raw) as [m0|]; [|done]. destruct (hk m0) as [|m1|]; [done| |done].
    destruct m1; try done; by destruct (prune valid topics) as [? [|]].
  - unfold broker_frame. destruct (deser raw) as [m0|]; [|done]. destruct (hk m0) as [|m1|]; [done| |done].
    destruct m1; try done; [by destruct (dec_users payload)|by destruct (dec_topics payload)].
Qed.

(** The loop that stops has the removal of its own peer pending. *)
Lemma loop_frame_stops o raw hk : (loop_frame o raw hk).2 = false -> (loop_frame o raw hk).1 = loop_error o.
Proof.
  destruct o as [u c|b c|]; cbn; [| |done].
  - unfold user_frame. destruct (deser raw) as [m0|]; [|done]. destruct (hk m0) as [|m1|]; [done| |done].
    destruct m1; try done; by destruct (prune valid topics) as [? [|]].
  - unfold broker_frame. destruct (deser raw) as [m0|]; [|done]. destruct (hk m0) as [|m1|]; [done| |done].
    destruct m1; try done; [by destruct (dec_users payload)|by destruct (dec_topics payload)].
Qed.

Definition handle_inv (i : bid) (m : machine) : Prop :=
  exists os, m_conns m = c_run i os
  /\ NoDup (added_handles os)
  /\ (forall h, In h (added_handles os) -> is_Some (m_tasks m !! h) /\ ~ unregistered m h)
  /\ (forall hh t, m_tasks m !! hh = Some t -> NoDup (adds (t_acts t)))
  /\ (forall hh t a h o, m_tasks m !! hh = Some t -> In a (t_acts t) -> add_owner a = Some (h, o) ->
        exists t', m_tasks m !! h = Some t' /\ t_owner t' = o)
  /\ (forall h1 h2 t1 t2 h, m_tasks m !! h1 = Some t1 -> m_tasks m !! h2 = Some t2 ->
        In h (adds (t_acts t1)) -> In h (adds (t_acts t2)) -> h1 = h2)
  /\ (forall h o, registered (m_conns m) h o -> exists t, m_tasks m !! h = Some t /\ t_owner t = o).

Lemma adds_in l h : In h (adds l) <-> exists a o, In a l /\ add_owner a = Some (h, o).
Proof.
  unfold adds. rewrite in_concat. split.
  - intros (l' & Hl & Hh). apply in_map_iff in Hl as (a & <- & Ha). destruct a; cbn in Hh; try done; destruct Hh as [->|[]]; eexists _, _; (split; [exact Ha|done]).
  - intros (a & o & Ha & Ho). exists (add_handle a). split; [by apply in_map|]. destruct a; cbn in *; try done; injection Ho as -> _; by left.
Qed.

(** Setting a task that performs the actions [acts] with no registrations in them. *)
Lemma handle_inv_set i m h o acts op n sent rcv :
  handle_inv i m -> adds acts = [] ->
  (forall t, m_tasks m !! h = Some t -> t_owner t = o) ->
  handle_inv i (Machine (m_conns m) (<[h := Task o acts op n]> (m_tasks m)) sent rcv).
Proof.
  intros (os & Hc & Hnd & Hin & Hn & Ho & Hu & Hr) Ha Hown. exists os. split; [done|]. split; [done|]. cbn [m_conns m_tasks].
  assert (Hback : forall hh t, <[h := Task o acts op n]> (m_tasks m) !! hh = Some t -> (hh = h /\ adds (t_acts t) = []) \/ (hh <> h /\ m_tasks m !! hh = Some t)).
  { intros hh t. destruct (decide (hh = h)) as [->|Hne]; [rewrite lookup_insert; intros [= <-]; auto|rewrite lookup_insert_ne by done; auto]. }
  split; [|split; [|split; [|split]]].
  - intros h' Hh'. destruct (Hin h' Hh') as [Hs Hun]. split.
    + destruct (decide (h' = h)) as [->|Hne]; [rewrite lookup_insert|rewrite lookup_insert_ne by done]; eauto.
    + intros (hh & t & Ht & Hi). cbn in Ht. destruct (Hback _ _ Ht) as [[_ He]|[_ Ht']]; [by rewrite He in Hi|]. apply Hun. by exists hh, t.
  - intros hh t Ht. destruct (Hback _ _ Ht) as [[_ He]|[_ Ht']]; [rewrite He; constructor|eauto].
  - intros hh t a h' o' Ht Hia Hao.
    assert (Hex : exists t', m_tasks m !! h' = Some t' /\ t_owner t' = o').
    { destruct (Hback _ _ Ht) as [[_ He]|[_ Ht']]; [|eauto]. exfalso. assert (In h' (adds (t_acts t))) as Hx by (apply adds_in; eauto). by rewrite He in Hx. }
    destruct Hex as (t' & Ht' & Hot'). destruct (decide (h' = h)) as [->|Hne]; [rewrite lookup_insert|rewrite lookup_insert_ne by done]; [|eauto].
    eexists. split; [done|]. cbn. rewrite <- Hot'. symmetry. eauto.
  - intros h1 h2 t1 t2 h' H1 H2 Hi1 Hi2. destruct (Hback _ _ H1) as [[_ He]|[_ H1']]; [by rewrite He in Hi1|].
    destruct (Hback _ _ H2) as [[_ He]|[_ H2']]; [by rewrite He in Hi2|]. eauto.
  - intros h' o' Hreg. destruct (Hr h' o' Hreg) as (t' & Ht' & Hot'). destruct (decide (h' = h)) as [->|Hne]; [rewrite lookup_insert|rewrite lookup_insert_ne by done]; [|eauto].
    eexists. split; [done|]. cbn. rewrite <- Hot'. symmetry. eauto.
Qed.

(** Starting a loop [h] and a handler [hh] that will register it. *)
Lemma handle_inv_start i m h hh o a rest :
  handle_inv i m -> h <> hh -> m_tasks m !! h = None -> m_tasks m !! hh = None ->
  add_owner a = Some (h, o) -> adds rest = [] ->
  handle_inv i (set_task (set_task m h (Task o [] true 0)) hh (Task OOther (a :: rest) false 0)).
Proof.
  intros Hinv Hne Hh Hhh Hao Hrest.
  destruct Hinv as (os & Hc & Hnd & Hin & Hn & Ho & Hu & Hr). exists os. split; [done|]. split; [done|]. cbn [m_conns m_tasks set_task].
  assert (Hadds : adds (a :: rest) = [h]).
  { unfold adds in *. cbn. rewrite Hrest. destruct a; cbn in *; try done; by injection Hao as -> _. }
  assert (Hback : forall h' t, <[hh := Task OOther (a :: rest) false 0]> (<[h := Task o [] true 0]> (m_tasks m)) !! h' = Some t ->
    (h' = hh /\ t_acts t = a :: rest) \/ (h' = h /\ t_acts t = []) \/ (h' <> h /\ h' <> hh /\ m_tasks m !! h' = Some t)).
  { intros h' t. destruct (decide (h' = hh)) as [->|Hne1]; [rewrite lookup_insert; intros [= <-]; auto|rewrite lookup_insert_ne by done].
    destruct (decide (h' = h)) as [->|Hne2]; [rewrite lookup_insert; intros [= <-]; auto|rewrite lookup_insert_ne by done]. auto. }
  assert (Hkeep : forall h' t, m_tasks m !! h' = Some t -> <[hh := Task OOther (a :: rest) false 0]> (<[h := Task o [] true 0]> (m_tasks m)) !! h' = Some t).
  { intros h' t Ht. rewrite !lookup_insert_ne by congruence. done. }
  assert (Hnot : forall h' t, m_tasks m !! h' = Some t -> ~ In h (adds (t_acts t))).
  { intros h' t Ht Hi. apply adds_in in Hi as (a' & o' & Ha' & Hao'). destruct (Ho _ _ _ _ _ Ht Ha' Hao') as (t' & Ht' & _). congruence. }
  split; [|split; [|split; [|split]]].
  - intros h' Hh'. destruct (Hin h' Hh') as [[t' Ht'] Hun]. split; [rewrite (Hkeep _ _ Ht'); eauto|].
    intros (h2 & t & Ht & Hi). cbn in Ht. destruct (Hback _ _ Ht) as [[-> He]|[[-> He]|(_ & _ & Ht2)]].
    + rewrite He, Hadds in Hi. destruct Hi as [<-|[]]. congruence.
    + by rewrite He in Hi.
    + apply Hun. by exists h2, t.
  - intros h' t Ht. destruct (Hback _ _ Ht) as [[-> He]|[[-> He]|(_ & _ & Ht2)]]; [rewrite He, Hadds; apply NoDup_singleton|rewrite He; constructor|eauto].
  - intros h' t a' h2 o' Ht Hia Hao'. destruct (Hback _ _ Ht) as [[-> He]|[[-> He]|(_ & _ & Ht2)]].
    + assert (h2 = h) as ->.
      { assert (In h2 (adds (t_acts t))) as Hx by (apply adds_in; eauto). rewrite He, Hadds in Hx. destruct Hx as [->|[]]. done. }
      exists (Task o [] true 0). rewrite lookup_insert_ne by done. rewrite lookup_insert. split; [done|].
      rewrite He in Hia. destruct Hia as [->|Hia]; [cbn; congruence|]. exfalso. assert (In h (adds rest)) as Hx by (apply adds_in; eauto). by rewrite Hrest in Hx.
    + by rewrite He in Hia.
    + destruct (Ho _ _ _ _ _ Ht2 Hia Hao') as (t' & Ht' & Hot'). exists t'. split; [by apply Hkeep|done].
  - intros h1 h2 t1 t2 h' H1 H2 Hi1 Hi2.
    destruct (Hback _ _ H1) as [[-> He1]|[[-> He1]|(_ & _ & H1')]], (Hback _ _ H2) as [[-> He2]|[[-> He2]|(_ & _ & H2')]]; try done;
      try (rewrite He1 in Hi1; rewrite ?Hadds in Hi1); try (rewrite He2 in Hi2; rewrite ?Hadds in Hi2); try done.
    + destruct Hi1 as [<-|[]]. by destruct (Hnot _ _ H2').
    + destruct Hi2 as [<-|[]]. by destruct (Hnot _ _ H1').
    + eauto.
  - intros h' o' Hreg. destruct (Hr h' o' Hreg) as (t' & Ht' & Hot'). exists t'. split; [by apply Hkeep|done].
Qed.

Lemma handle_run i es : handle_inv i (m_run i es).
Proof.
  induction es as [|e es IH] using rev_ind.
  { exists []. cbn. split; [done|]. split; [constructor|]. split; [done|]. setoid_rewrite lookup_empty. do 3 (split; [done|]).
    intros h [u c|b c|]; cbn; [by rewrite lookup_empty| |done]. intros [tm H]. by rewrite lookup_empty in H. }
  rewrite m_run_snoc. set (m := m_run i es) in *.
  destruct e as [h1 hh u c ts|h1 hh b c|hh|hh u|h1 raw hk|h1|h1 good|h1]; cbn [TaskModel.m_step].
  - case_decide as Hd; [|done]. destruct Hd as (Hne & H1 & H2). by apply handle_inv_start.
  - case_decide as Hd; [|done]. destruct Hd as (Hne & H1 & H2). by apply handle_inv_start.
  - destruct (m_tasks m !! hh) eqn:E; [done|]. apply handle_inv_set; [done|done|congruence].
  - destruct (m_tasks m !! hh) eqn:E; [done|]. apply handle_inv_set; [done|done|congruence].
  - destruct (m_tasks m !! h1) as [[o [|? ?] [|] n]|] eqn:E; try done.
    pose proof (loop_frame_adds o raw hk) as Hl. destruct (loop_frame o raw hk) as [acts go]. apply handle_inv_set; [done|done|]. intros t. rewrite E. by intros [= <-].
  - destruct (m_tasks m !! h1) as [[o [|? ?] [|] n]|] eqn:E; try done. apply handle_inv_set; [done|by destruct o|]. intros t. rewrite E. by intros [= <-].
  - destruct (m_tasks m !! h1) as [[o [|a l] op n]|] eqn:E; try done.
    destruct (act_step (fun _ => good) (m_conns m) a) as [[s' nxt] sends] eqn:Ea.
    destruct (act_step_adds _ _ _ _ _ _ Ea) as (Hnxt & os' & Hos' & Hadd).
    destruct IH as (os & Hc & Hnd & Hin & Hn & Ho & Hu & Hr). exists (os ++ os').
    assert (Hah : added_handles (os ++ os') = added_handles os ++ add_handle a).
    { unfold added_handles in *. by rewrite map_app, concat_app, Hadd. }
    assert (Hal : adds (a :: l) = add_handle a ++ adds l) by done.
    pose proof (Hn _ _ E) as Hnl. cbn [t_acts] in Hnl. rewrite Hal in Hnl. apply NoDup_app in Hnl as (Hna & Hdis & Hnl).
    assert (Hadh : forall x, In x (add_handle a) -> exists o0, add_owner a = Some (x, o0)).
    { intros x Hx. destruct a; cbn in Hx; try done; destruct Hx as [<-|[]]; cbn; eauto. }
    assert (Hback : forall h t, <[h1 := Task o (nxt ++ l) op n]> (m_tasks m) !! h = Some t ->
      (h = h1 /\ t = Task o (nxt ++ l) op n /\ adds (t_acts t) = adds l) \/ (h <> h1 /\ m_tasks m !! h = Some t)).
    { intros h t. destruct (decide (h = h1)) as [->|Hne]; [rewrite lookup_insert; intros [= <-]; left|rewrite lookup_insert_ne by done; auto].
      split; [done|]. split; [done|]. cbn [t_acts]. by rewrite adds_app, Hnxt. }
    assert (Hkeep : forall h t, m_tasks m !! h = Some t -> exists t', <[h1 := Task o (nxt ++ l) op n]> (m_tasks m) !! h = Some t' /\ t_owner t' = t_owner t).
    { intros h t Ht. destruct (decide (h = h1)) as [->|Hne]; [rewrite lookup_insert; rewrite E in Ht; injection Ht as <-; eauto|rewrite lookup_insert_ne by done; eauto]. }
    split; [cbn; rewrite Hos', Hc; unfold c_run; by rewrite fold_left_app|]. rewrite Hah. cbn [m_conns m_tasks].
    split; [|split; [|split; [|split; [|split]]]].
    + apply NoDup_app. split; [done|]. split; [|done]. intros x Hx Hxa.
      apply elem_of_list_In in Hx, Hxa. destruct (Hin x Hx) as [_ Hun]. apply Hun. exists h1, (Task o (a :: l) op n). split; [done|]. cbn [t_acts]. rewrite Hal. apply in_app_iff. by left.
    + intros h Hh. apply in_app_iff in Hh as [Hh|Hh].
      * destruct (Hin h Hh) as [[t0 Ht0] Hun]. split; [destruct (Hkeep _ _ Ht0) as (t' & -> & _); eauto|].
        intros (h2 & t & Ht & Hi). cbn in Ht. destruct (Hback _ _ Ht) as [(-> & _ & He)|[_ Ht2]].
        -- apply Hun. exists h1, (Task o (a :: l) op n). split; [done|]. cbn [t_acts]. rewrite Hal. apply in_app_iff. right. by rewrite <- He.
        -- apply Hun. by exists h2, t.
      * destruct (Hadh _ Hh) as [o0 Ho0]. destruct (Ho h1 _ a h o0 E (or_introl eq_refl) Ho0) as (t0 & Ht0 & _).
        split; [destruct (Hkeep _ _ Ht0) as (t' & -> & _); eauto|].
        intros (h2 & t & Ht & Hi). cbn in Ht. destruct (Hback _ _ Ht) as [(-> & _ & He)|[Hne Ht2]].
        -- rewrite He in Hi. apply (Hdis h); by apply elem_of_list_In.
        -- apply Hne. eapply (Hu h2 h1); [exact Ht2|exact E|exact Hi|]. cbn [t_acts]. rewrite Hal. apply in_app_iff. by left.
    + intros h t Ht. destruct (Hback _ _ Ht) as [(-> & _ & He)|[_ Ht2]]; [by rewrite He|eauto].
    + intros h t a' h' o' Ht Ha' Hao'.
      assert (Hex : exists t', m_tasks m !! h' = Some t' /\ t_owner t' = o').
      { destruct (Hback _ _ Ht) as [(-> & -> & He)|[_ Ht2]]; [|eauto]. cbn in Ha'. apply in_app_iff in Ha' as [Ha'|Ha'].
        - exfalso. assert (In h' (adds nxt)) as Hx by (apply adds_in; eauto). by rewrite Hnxt in Hx.
        - eapply Ho; [exact E| |exact Hao']. by right. }
      destruct Hex as (t' & Ht' & Hot'). destruct (Hkeep _ _ Ht') as (t2 & Ht2 & Hot2). exists t2. split; [done|congruence].
    + assert (Hsub : forall h t x, <[h1 := Task o (nxt ++ l) op n]> (m_tasks m) !! h = Some t -> In x (adds (t_acts t)) ->
        exists t0, m_tasks m !! h = Some t0 /\ In x (adds (t_acts t0))).
      { intros h t x Ht Hx. destruct (Hback _ _ Ht) as [(-> & _ & He)|[_ Ht2]]; [|eauto]. eexists. split; [exact E|]. cbn [t_acts]. rewrite Hal. apply in_app_iff. right. by rewrite <- He. }
      intros h2 h3 t2 t3 h H2 H3 Hi2 Hi3. destruct (Hsub _ _ _ H2 Hi2) as (t2' & H2' & Hi2'), (Hsub _ _ _ H3 Hi3) as (t3' & H3' & Hi3'). eauto.
    + intros h o' Hreg. destruct (act_step_registered _ _ _ _ _ _ _ _ Ea Hreg) as [Hreg'|Hao].
      * destruct (Hr _ _ Hreg') as (t' & Ht' & Hot'). destruct (Hkeep _ _ Ht') as (t2 & Ht2 & Hot2). exists t2. split; [done|congruence].
      * destruct (Ho h1 _ a h o' E (or_introl eq_refl) Hao) as (t' & Ht' & Hot'). destruct (Hkeep _ _ Ht') as (t2 & Ht2 & Hot2). exists t2. split; [done|congruence].
  - destruct (m_tasks m !! h1) as [[o l op n]|] eqn:E; [|done]. case_decide; [|done]. apply handle_inv_set; [done|done|]. intros t. rewrite E. by intros [= <-].
Qed.

(** Registered connections: their loop exists, is theirs, and has not been cancelled; a
    loop whose registration was performed and is no longer in force has been cancelled. *)
Lemma registered_task i es h o :
  registered (m_conns (m_run i es)) h o ->
  (exists t, m_tasks (m_run i es) !! h = Some t /\ t_owner t = o) /\ ~ In h (aborted (m_conns (m_run i es))).
Proof.
  intros Hr. destruct (handle_run i es) as (os & Hc & Hnd & Hin & Hn & Ho & Hu & Hreg).
  split; [by apply Hreg|]. intros Ha. apply registered_live in Hr. rewrite Hc in Hr, Ha.
  destruct (handles_accounted i os h Hnd) as (_ & Hno & _). tauto.
Qed.

(** [AbortHandle]s are called only for loops whose registration has been performed. *)
Lemma aborted_not_pending i es h : In h (aborted (m_conns (m_run i es))) -> ~ unregistered (m_run i es) h.
Proof.
  intros Ha. destruct (handle_run i es) as (os & Hc & Hnd & Hin & _). apply Hin. rewrite Hc in Ha.
  apply (handles_accounted i os h Hnd). by right.
Qed.

(** ** Loops that start only after registration *)
(** The first thing every receive loop does happens after its connection was registered. *)
Definition prompt (i : bid) (es : list event) : Prop :=
  forall es1 e es2 h, es = es1 ++ e :: es2 ->
    (exists raw hk, e = EFrame h raw hk) \/ e = ERecvErr h -> ~ unregistered (m_run i es1) h.

Lemma prompt_app i es e : prompt i (es ++ [e]) -> prompt i es.
Proof. intros Hp es1 e' es2 h -> He. apply (Hp es1 e' (es2 ++ [e]) h); [by rewrite <- app_assoc|done]. Qed.

Definition removal (o : owner) (a : act) : Prop :=
  match o with OUser u _ => a = ARemoveUser u | OBroker b _ => a = ARemoveBroker b | OOther => False end.

Definition loop_inv (m : machine) : Prop :=
  (forall h, unregistered m h -> exists o, m_tasks m !! h = Some (Task o [] true 0) /\ o <> OOther)
  /\ (forall h o, registered (m_conns m) h o ->
        exists t, m_tasks m !! h = Some t /\ t_owner t = o /\ (t_open t = true \/ exists a, In a (t_acts t) /\ removal o a)).

Lemma removal_unregisters ok s a s' nxt sends h o :
  act_step ok s a = (s', nxt, sends) -> removal o a -> ~ registered s' h o.
Proof.
  intros Heq Hr Hreg. destruct o as [u c|b c|]; cbn in *; [| |done]; subst a; cbn in Heq; injection Heq as <- <- <-.
  - by rewrite ru_users, lookup_delete in Hreg.
  - destruct Hreg as [tm Hreg]. by rewrite rb_brokers, lookup_delete in Hreg.
Qed.

Lemma loop_run i es : prompt i es -> loop_inv (m_run i es).
Proof.
  induction es as [|e es IH] using rev_ind; intros Hp.
  { split.
    - intros h (hh & t & Ht & _). cbn in Ht. by rewrite lookup_empty in Ht.
    - intros h [u c|b c|]; cbn; [by rewrite lookup_empty| |done]. intros [tm H]. by rewrite lookup_empty in H. }
  destruct (IH (prompt_app _ _ _ Hp)) as [IHu IHr]. clear IH.
  pose proof (fun h H1 => Hp es e [] h eq_refl H1) as Hpe.
  pose proof (handle_run i es) as Hh. pose proof (handle_run i (es ++ [e])) as Hh'.
  pose proof (registered_task i es) as Hrt. pose proof (aborted_not_pending i es) as Hab.
  rewrite m_run_snoc in *. set (m := m_run i es) in *.
  destruct e as [h1 hh u c ts|h1 hh b c|hh|hh u|h1 raw hk|h1|h1 good|h1]; cbn [TaskModel.m_step] in *.
  - case_decide as Hd; [|by split]. destruct Hd as (Hne & H1 & H2). split.
    + intros h (h2 & t & Ht & Hi). cbn in Ht |- *. destruct (decide (h2 = hh)) as [->|Hne2]; [rewrite lookup_insert in Ht|rewrite lookup_insert_ne in Ht by done].
      * injection Ht as <-. cbn in Hi. destruct Hi as [<-|[]]. rewrite lookup_insert_ne by done. rewrite lookup_insert. eauto.
      * destruct (decide (h2 = h1)) as [->|Hne3]; [rewrite lookup_insert in Ht; injection Ht as <-; done|rewrite lookup_insert_ne in Ht by done].
        destruct (IHu h) as (o & Ho & Hoo); [by exists h2, t|]. rewrite !lookup_insert_ne by congruence. eauto.
    + intros h o Hreg. destruct (IHr h o Hreg) as (t & Ht & Hx). exists t. cbn. rewrite !lookup_insert_ne by congruence. done.
  - case_decide as Hd; [|by split]. destruct Hd as (Hne & H1 & H2). split.
    + intros h (h2 & t & Ht & Hi). cbn in Ht |- *. destruct (decide (h2 = hh)) as [->|Hne2]; [rewrite lookup_insert in Ht|rewrite lookup_insert_ne in Ht by done].
      * injection Ht as <-. cbn in Hi. destruct Hi as [<-|[]]. rewrite lookup_insert_ne by done. rewrite lookup_insert. eauto.
      * destruct (decide (h2 = h1)) as [->|Hne3]; [rewrite lookup_insert in Ht; injection Ht as <-; done|rewrite lookup_insert_ne in Ht by done].
        destruct (IHu h) as (o & Ho & Hoo); [by exists h2, t|]. rewrite !lookup_insert_ne by congruence. eauto.
    + intros h o Hreg. destruct (IHr h o Hreg) as (t & Ht & Hx). exists t. cbn. rewrite !lookup_insert_ne by congruence. done.
  - destruct (m_tasks m !! hh) eqn:E; [by split|]. split.
    + intros h (h2 & t & Ht & Hi). cbn in Ht |- *. destruct (decide (h2 = hh)) as [->|Hne2]; [rewrite lookup_insert in Ht; injection Ht as <-; done|rewrite lookup_insert_ne in Ht by done].
      destruct (IHu h) as (o & Ho & Hoo); [by exists h2, t|]. rewrite !lookup_insert_ne by congruence. eauto.
    + intros h o Hreg. destruct (IHr h o Hreg) as (t & Ht & Hx). exists t. cbn. rewrite !lookup_insert_ne by congruence. done.
  - destruct (m_tasks m !! hh) eqn:E; [by split|]. split.
    + intros h (h2 & t & Ht & Hi). cbn in Ht |- *. destruct (decide (h2 = hh)) as [->|Hne2]; [rewrite lookup_insert in Ht; injection Ht as <-; done|rewrite lookup_insert_ne in Ht by done].
      destruct (IHu h) as (o & Ho & Hoo); [by exists h2, t|]. rewrite !lookup_insert_ne by congruence. eauto.
    + intros h o Hreg. destruct (IHr h o Hreg) as (t & Ht & Hx). exists t. cbn. rewrite !lookup_insert_ne by congruence. done.
  - destruct (m_tasks m !! h1) as [[o [|? ?] [|] n]|] eqn:E; try by split.
    assert (Hnp : ~ unregistered m h1) by (apply Hpe; left; eauto).
    pose proof (loop_frame_adds o raw hk) as Hl. pose proof (loop_frame_stops o raw hk) as Hst. destruct (loop_frame o raw hk) as [acts go]. cbn [fst snd] in *. split.
    + intros h (h2 & t & Ht & Hi). cbn in Ht |- *. destruct (decide (h2 = h1)) as [->|Hne2]; [rewrite lookup_insert in Ht; injection Ht as <-; cbn [t_acts] in Hi; by rewrite Hl in Hi|rewrite lookup_insert_ne in Ht by done].
      assert (Hun : unregistered m h) by (by exists h2, t). destruct (IHu h Hun) as (o' & Ho & Hoo). rewrite lookup_insert_ne by congruence. eauto.
    + intros h o' Hreg. destruct (IHr h o' Hreg) as (t & Ht & Hot & Hx). cbn. destruct (decide (h = h1)) as [->|Hne]; [|rewrite lookup_insert_ne by done; eauto].
      rewrite lookup_insert. eexists. split; [done|]. rewrite E in Ht. injection Ht as <-. cbn in *. subst o'. split; [done|].
      destruct go; [by left|]. right. rewrite Hst by done. destruct o; cbn in *; [eauto|eauto|done].
  - destruct (m_tasks m !! h1) as [[o [|? ?] [|] n]|] eqn:E; try by split.
    assert (Hnp : ~ unregistered m h1) by (apply Hpe; by right). split.
    + intros h (h2 & t & Ht & Hi). cbn in Ht |- *. destruct (decide (h2 = h1)) as [->|Hne2]; [rewrite lookup_insert in Ht; injection Ht as <-; cbn in Hi; by destruct o|rewrite lookup_insert_ne in Ht by done].
      assert (Hun : unregistered m h) by (by exists h2, t). destruct (IHu h Hun) as (o' & Ho & Hoo). rewrite lookup_insert_ne by congruence. eauto.
    + intros h o' Hreg. destruct (IHr h o' Hreg) as (t & Ht & Hot & Hx). cbn. destruct (decide (h = h1)) as [->|Hne]; [|rewrite lookup_insert_ne by done; eauto].
      rewrite lookup_insert. eexists. split; [done|]. rewrite E in Ht. injection Ht as <-. cbn in *. subst o'. split; [done|]. right.
      destruct o; cbn in *; [eauto|eauto|done].
  - destruct (m_tasks m !! h1) as [[o [|a l] op n]|] eqn:E; try by split.
    destruct (act_step (fun _ => good) (m_conns m) a) as [[s' nxt] sends] eqn:Ea.
    destruct (act_step_adds _ _ _ _ _ _ Ea) as (Hnxt & _). cbn [m_conns] in *. split.
    + intros h (h2 & t & Ht & Hi). cbn in Ht |- *.
      assert (Hun : unregistered m h).
      { destruct (decide (h2 = h1)) as [->|Hne2]; [rewrite lookup_insert in Ht; injection Ht as <-|rewrite lookup_insert_ne in Ht by done; by exists h2, t].
        cbn [t_acts] in Hi. rewrite adds_app, Hnxt in Hi. exists h1, (Task o (a :: l) op n). split; [done|]. cbn [t_acts]. change (adds (a :: l)) with (add_handle a ++ adds l). apply in_app_iff. by right. }
      destruct (IHu h Hun) as (o' & Ho & Hoo). rewrite lookup_insert_ne by congruence. eauto.
    + intros h o' Hreg. cbn [m_tasks].
      destruct (act_step_registered _ _ _ _ _ _ _ _ Ea Hreg) as [Hreg'|Hao].
      * destruct (IHr h o' Hreg') as (t & Ht & Hot & Hx). destruct (decide (h = h1)) as [->|Hne]; [|rewrite lookup_insert_ne by done; eauto].
        rewrite lookup_insert. eexists. split; [done|]. rewrite E in Ht. injection Ht as <-. cbn in *. subst o'. split; [done|].
        destruct Hx as [Hx|(a' & Ha' & Hrem)]; [by left|]. destruct Ha' as [->|Ha'].
        -- exfalso. by eapply removal_unregisters.
        -- right. exists a'. split; [|done]. apply in_app_iff. by right.
      * assert (Hun : unregistered m h).
        { exists h1, (Task o (a :: l) op n). split; [done|]. apply adds_in. exists a, o'. split; [by left|done]. }
        destruct (IHu h Hun) as (o2 & Ho2 & Hoo). destruct Hh as (os & _ & _ & _ & _ & Ho & _).
        destruct (Ho h1 _ a h o' E (or_introl eq_refl) Hao) as (t' & Ht' & Hot'). rewrite Ho2 in Ht'. injection Ht' as <-. cbn in Hot'. subst o2.
        rewrite lookup_insert_ne by congruence. eexists. split; [exact Ho2|]. cbn. auto.
  - destruct (m_tasks m !! h1) as [[o l op n]|] eqn:E; [|by split]. case_decide as Hin; [|by split]. apply elem_of_list_In in Hin. split.
    + intros h (h2 & t & Ht & Hi). cbn in Ht |- *. destruct (decide (h2 = h1)) as [->|Hne2]; [rewrite lookup_insert in Ht; injection Ht as <-; done|rewrite lookup_insert_ne in Ht by done].
      assert (Hun : unregistered m h) by (by exists h2, t). destruct (IHu h Hun) as (o' & Ho & Hoo).
      destruct (decide (h = h1)) as [->|Hne]; [by destruct (Hab h1 Hin)|]. rewrite lookup_insert_ne by done. eauto.
    + intros h o' Hreg. destruct (IHr h o' Hreg) as (t & Ht & Hot & Hx). cbn. destruct (Hrt h o' Hreg) as [_ Hna].
      destruct (decide (h = h1)) as [->|Hne]; [done|]. rewrite lookup_insert_ne by done. eauto.
Qed.
End proofs.
