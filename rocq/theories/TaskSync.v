(** The running broker at lock granularity: which tasks send sync messages, and what becomes
    of a sync message that is due to a connected broker. *)
From stdpp Require Import gmap fin_maps fin_sets list.
From Coq Require Import NArith ZArith Lia.
From Verif Require Import IdModel RelMapModel VMapModel VMapSpec VMapProofs ConnModel ConnSpec ConnProofs ConnProofs2 ConnProofs3 ConnProofs4
  SyncSpec TopicSyncProofs TopicModel TopicProofs MsgModel RouteModel RouteProofs TaskModel TaskProofs TaskOrder TaskHandles TaskIsolation NetModel.

Section proofs.
Variable deser : bytes -> option message.
Variable dec_users : bytes -> option direct_map.
Variable dec_topics : bytes -> option topic_map.
Variable valid : N -> bool.
Notation m_step := (m_step deser dec_users dec_topics valid).
Notation m_run := (m_run deser dec_users dec_topics valid).
Notation m_run_snoc := (m_run_snoc deser dec_users dec_topics valid).
Notation loop_frame := (loop_frame deser dec_users dec_topics valid).

(** ** Invariants of the tasks *)
Lemma task_shape (Q : owner -> list act -> Prop) i es :
  (forall o, Q o []) ->
  (forall u c ts h, Q OOther (user_connected valid u c ts h)) -> (forall b c h, Q OOther (broker_connected b c h)) ->
  Q OOther sync_round -> (forall u, Q OOther [ARemoveUser u]) ->
  (forall o raw hk, Q o (loop_frame o raw hk).1) -> (forall o, Q o (loop_error o)) ->
  (forall ok s o a l s' nxt sends, Q o (a :: l) -> act_step ok s a = (s', nxt, sends) -> Q o (nxt ++ l)) ->
  forall h t, m_tasks (m_run i es) !! h = Some t -> Q (t_owner t) (t_acts t).
Proof.
  intros H0 Hu Hb Hs Hk Hf He Ha. induction es as [|e es IH] using rev_ind.
  { intros h t. cbn. by rewrite lookup_empty. }
  rewrite m_run_snoc. set (m := m_run i es) in *.
  destruct e as [h1 hh v c1 ts|h1 hh b c1|hh|hh v|h1 raw hk|h1|h1 good|h1]; cbn [TaskModel.m_step].
  - case_decide; [|done]. intros h t. cbn. intros Ht. apply lookup_insert_Some in Ht as [[<- <-]|[_ Ht]]; [apply Hu|].
    apply lookup_insert_Some in Ht as [[<- <-]|[_ Ht]]; [apply H0|by eapply IH].
  - case_decide; [|done]. intros h t. cbn. intros Ht. apply lookup_insert_Some in Ht as [[<- <-]|[_ Ht]]; [apply Hb|].
    apply lookup_insert_Some in Ht as [[<- <-]|[_ Ht]]; [apply H0|by eapply IH].
  - destruct (m_tasks m !! hh); [done|]. intros h t. cbn. intros Ht. apply lookup_insert_Some in Ht as [[<- <-]|[_ Ht]]; [apply Hs|by eapply IH].
  - destruct (m_tasks m !! hh); [done|]. intros h t. cbn. intros Ht. apply lookup_insert_Some in Ht as [[<- <-]|[_ Ht]]; [apply Hk|by eapply IH].
  - destruct (m_tasks m !! h1) as [[o [|? ?] [|] n]|] eqn:E; try done.
    pose proof (Hf o raw hk) as Hq. destruct (loop_frame o raw hk) as [acts go]. intros h t. cbn. intros Ht.
    apply lookup_insert_Some in Ht as [[<- <-]|[_ Ht]]; [exact Hq|by eapply IH].
  - destruct (m_tasks m !! h1) as [[o [|? ?] [|] n]|] eqn:E; try done. intros h t. cbn. intros Ht.
    apply lookup_insert_Some in Ht as [[<- <-]|[_ Ht]]; [apply He|by eapply IH].
  - destruct (m_tasks m !! h1) as [[o [|a l] op n]|] eqn:E; try done.
    destruct (act_step (fun _ => good) (m_conns m) a) as [[s' nxt] sends] eqn:Ea. intros h t. cbn. intros Ht.
    apply lookup_insert_Some in Ht as [[<- <-]|[_ Ht]]; [|by eapply IH]. eapply Ha; [exact (IH _ _ E)|exact Ea].
  - destruct (m_tasks m !! h1) as [[o l op n]|] eqn:E; [|done]. case_decide; [|done]. intros h t. cbn. intros Ht.
    apply lookup_insert_Some in Ht as [[<- <-]|[_ Ht]]; [apply H0|by eapply IH].
Qed.

(** Actions of the tasks that are not receive loops. *)
Definition syncing (a : act) : bool :=
  match a with
  | APartialTopicSync | APartialUserSync | AFullTopicSync _ | AFullUserSync _ | ASendBrokers _ | AAddUser _ _ _ _ | AAddBroker _ _ _ => true
  | ALookupBroker _ f | ASendBroker _ _ f => negb (is_relay f)
  | _ => false
  end.

Lemma act_step_syncing ok s a s' nxt sends :
  act_step ok s a = (s', nxt, sends) -> syncing a = false -> Forall (fun x => syncing x = false) nxt.
Proof.
  destruct a as [w raw only|ts raw only|w f|w cw f|b f|b cb f|f|w|b|w cw ts h'|b cb h'|w ts|w ts|d|b d|b|b| |]; cbn [act_step]; intros Heq Hs; try discriminate Hs.
  - injection Heq as <- <- <-. unfold direct_next. destruct (c_get_broker_identifier_of_user s w); [case_decide; [|destruct only]|]; repeat constructor.
  - injection Heq as <- <- <-. unfold broadcast_next. destruct (c_get_interested_by_topic s ts only). apply Forall_app. split; apply Forall_map, Forall_true; done.
  - injection Heq as <- <- <-. destruct (c_get_user_connection s w); repeat constructor.
  - destruct (ok cw); injection Heq as <- <- <-; repeat constructor.
  - injection Heq as <- <- <-. destruct (c_get_broker_connection s b); repeat constructor. exact Hs.
  - destruct (ok cb); injection Heq as <- <- <-; repeat constructor.
  - injection Heq as <- <- <-. constructor.
  - injection Heq as <- <- <-. constructor.
  - injection Heq as <- <- <-. constructor.
  - injection Heq as <- <- <-. constructor.
  - injection Heq as <- <- <-. constructor.
  - injection Heq as <- <- <-. constructor.
Qed.

Lemma loop_frame_syncing o raw hk : Forall (fun x => syncing x = false) (loop_frame o raw hk).1.
Proof.
  destruct o as [u c|b c|]; cbn; [| |constructor].
  - unfold user_frame. destruct (deser raw) as [m0|]; [|by repeat constructor]. destruct (hk m0) as [|m1|]; [constructor| |by repeat constructor].
    destruct m1; try (by repeat constructor); destruct (prune valid topics) as [? [|]]; by repeat constructor.
  - unfold broker_frame. destruct (deser raw) as [m0|]; [|by repeat constructor]. destruct (hk m0) as [|m1|]; [constructor| |by repeat constructor].
    destruct m1; try (by repeat constructor); [destruct (dec_users payload)|destruct (dec_topics payload)]; by repeat constructor.
Qed.

Lemma loops_not_syncing i es h t a : m_tasks (m_run i es) !! h = Some t -> In a (t_acts t) -> syncing a = true -> t_owner t = OOther.
Proof.
  intros Ht Hin Hs.
  assert (Hq : t_owner t = OOther \/ Forall (fun x => syncing x = false) (t_acts t)).
  { clear Hin. revert h t Ht. apply (task_shape (fun o l => o = OOther \/ Forall (fun x => syncing x = false) l)); try (by left); try (by right).
    - intros o raw hk. right. apply loop_frame_syncing.
    - intros [u c|b c|]; right; repeat constructor.
    - intros ok s o x l s' nxt sends [->|Hf] Hx; [by left|right]. apply Forall_cons in Hf as [Hx' Hf]. apply Forall_app. split; [|done].
      by eapply act_step_syncing. }
  destruct Hq as [Hq|Hq]; [done|]. rewrite Forall_forall in Hq. specialize (Hq a (proj2 (elem_of_list_In _ _) Hin)). congruence.
Qed.

(** A pending registration of a broker is followed by the two full syncs. *)
Lemma handler_shape i es h t b c h' :
  m_tasks (m_run i es) !! h = Some t -> In (AAddBroker b c h') (t_acts t) -> t_owner t = OOther /\ t_acts t = broker_connected b c h'.
Proof.
  intros Ht Hin. split; [by eapply loops_not_syncing|].
  revert h t Ht Hin. apply (task_shape (fun _ l => In (AAddBroker b c h') l -> l = broker_connected b c h')).
  - done.
  - intros u c0 ts h0 [?|[?|[?|[]]]]; done.
  - intros b0 c0 h0 [Heq|[?|[?|[]]]]; try done. by injection Heq as -> -> ->.
  - intros [?|[?|[]]]; done.
  - intros u [?|[]]; done.
  - intros o raw hk Hin. pose proof (loop_frame_syncing o raw hk) as Hf. rewrite Forall_forall in Hf.
    specialize (Hf _ (proj2 (elem_of_list_In _ _) Hin)). done.
  - intros [u c0|b0 c0|]; cbn; intros Hin; try done; destruct Hin as [?|[]]; done.
  - intros ok s o a l s' nxt sends Hq Ha Hin. apply in_app_iff in Hin as [Hin|Hin].
    + exfalso. destruct (act_step_adds _ _ _ _ _ _ Ha) as [Hn _].
      assert (In h' (adds nxt)) as Hx by (apply adds_in; eexists _, _; split; [exact Hin|reflexivity]). by rewrite Hn in Hx.
    + specialize (Hq (or_intror Hin)). injection Hq as -> ->. destruct Hin as [?|[?|[]]]; done.
Qed.

(** Cancelled tasks are receive loops. *)
Lemma aborted_loop i es h t : m_tasks (m_run i es) !! h = Some t -> In h (aborted (m_conns (m_run i es))) -> t_owner t <> OOther.
Proof. intros Ht Ha. destruct (loops_known_run deser dec_users dec_topics valid i es) as (_ & _ & HC). apply (HC h t Ht). by right. Qed.

(** ** The sender *)
Section sender.
Variables (a : bid) (c : N) (G : frame -> Prop) (tp : bool).

(** This action leads to a frame with [G] being sent to [a] on [c], or to [a] being removed. *)
Definition telling (x : act) : Prop :=
  match x with
  | ASendBroker b c' f => b = a /\ c' = c /\ G f /\ is_relay f = false
  | ALookupBroker b f => b = a /\ G f /\ is_relay f = false
  | ASendBrokers f => G f /\ is_relay f = false
  | ARemoveBroker b => b = a
  | AFullTopicSync b => b = a /\ tp = true
  | AFullUserSync b => b = a /\ tp = false
  | _ => False
  end.
Definition about_to (m : machine) : Prop :=
  exists h t x, m_tasks m !! h = Some t /\ t_owner t = OOther /\ In x (t_acts t) /\ telling x.
(** A frame with [G] was sent on [c], at position [k] or later. *)
Definition in_transit (m : machine) (k : nat) : Prop :=
  exists j x, k <= j /\ sent_on m c !! j = Some x /\ G (e_frame (s_what x)).
(** The full sync taken now has [G]. *)
Definition full_ok (s : conns) : Prop :=
  if tp then exists d, c_get_full_topic_sync s = Some d /\ G (FTopicSync d)
  else exists d, c_get_full_user_sync s = Some d /\ G (FUserSync d).

Lemma telling_step good s x s' nxt sends :
  act_step (fun _ => good) s x = (s', nxt, sends) -> telling x -> full_ok s ->
  c_get_broker_connection s a = Some c -> c_get_broker_connection s' a <> None ->
  (exists y, In y nxt /\ telling y) \/ (exists f, In (Emit (inr a) c f) sends /\ G f).
Proof.
  intros Heq Ht Hf Hc Hc'. unfold full_ok in Hf.
  destruct x as [w raw only|ts raw only|w f|w cw f|b f|b cb f|f|w|b|w cw ts h'|b cb h'|w ts|w ts|d|b d|b|b| |]; cbn [telling act_step] in *; try done.
  - destruct Ht as (-> & Hg & Hr). rewrite Hc in Heq. injection Heq as <- <- <-. left. eexists. split; [by left|]. done.
  - destruct Ht as (-> & -> & Hg & Hr). destruct good; injection Heq as <- <- <-.
    + right. exists f. split; [by left|done].
    + left. eexists. split; [by left|]. done.
  - destruct Ht as [Hg Hr]. injection Heq as <- <- <-. left. exists (ALookupBroker a f). split; [|done]. apply in_map_iff. exists a. split; [done|].
    unfold c_get_broker_identifiers. unfold c_get_broker_connection in Hc. destruct (brokers s !! a) as [be|] eqn:E; [|done].
    apply elem_of_list_In, elem_of_elements, elem_of_dom. by exists be.
  - subst b. injection Heq as <- <- <-. exfalso. apply Hc'. unfold c_get_broker_connection. by rewrite rb_brokers, lookup_delete.
  - destruct Ht as [-> ->]. destruct Hf as (d & Hd & Hg). rewrite Hd in Heq. injection Heq as <- <- <-. left. eexists. split; [by left|]. done.
  - destruct Ht as [-> ->]. destruct Hf as (d & Hd & Hg). rewrite Hd in Heq. injection Heq as <- <- <-. left. eexists. split; [by left|]. done.
Qed.

Lemma sent_on_app m s t l r c' : sent_on (Machine s t (m_sent m ++ l) r) c' = sent_on m c' ++ filter (fun x => e_conn (s_what x) = c') l.
Proof. unfold sent_on. cbn. by rewrite filter_app. Qed.

Lemma sender_step i es e k :
  let m := m_run i es in let m' := m_run i (es ++ [e]) in
  about_to m -> full_ok (m_conns m) -> c_get_broker_connection (m_conns m) a = Some c -> c_get_broker_connection (m_conns m') a <> None ->
  k <= length (sent_on m c) -> about_to m' \/ in_transit m' k.
Proof.
  intros m m' (h & t & x & Ht & Ho & Hx & Htell) Hf Hc Hc' Hk. subst m'. rewrite m_run_snoc in *.
  pose proof (aborted_loop i es) as Hab. fold m in Hab, Hc' |- *.
  assert (Hkeep : m_tasks (m_step m e) !! h = Some t -> about_to (m_step m e)) by (intros Ht'; by exists h, t, x).
  destruct e as [h1 hh v c1 ts|h1 hh b c1|hh|hh v|h1 raw hk|h1|h1 good|h1]; cbn [TaskModel.m_step] in *.
  - left. apply Hkeep. case_decide as Hd; [|done]. destruct Hd as (_ & Hn1 & Hn2). cbn. by rewrite !lookup_insert_ne by congruence.
  - left. apply Hkeep. case_decide as Hd; [|done]. destruct Hd as (_ & Hn1 & Hn2). cbn. by rewrite !lookup_insert_ne by congruence.
  - left. apply Hkeep. destruct (m_tasks m !! hh) eqn:E; [done|]. cbn. by rewrite lookup_insert_ne by congruence.
  - left. apply Hkeep. destruct (m_tasks m !! hh) eqn:E; [done|]. cbn. by rewrite lookup_insert_ne by congruence.
  - left. apply Hkeep. destruct (m_tasks m !! h1) as [[o [|? ?] [|] n]|] eqn:E; try done. destruct (loop_frame o raw hk) as [acts go]. cbn.
    rewrite lookup_insert_ne; [done|]. intros ->. rewrite Ht in E. injection E as ->. done.
  - left. apply Hkeep. destruct (m_tasks m !! h1) as [[o [|? ?] [|] n]|] eqn:E; try done. cbn.
    rewrite lookup_insert_ne; [done|]. intros ->. rewrite Ht in E. injection E as ->. done.
  - destruct (m_tasks m !! h1) as [[o [|y l] op n]|] eqn:E; try (left; by apply Hkeep).
    destruct (act_step (fun _ => good) (m_conns m) y) as [[s' nxt] sends] eqn:Ea.
    destruct (decide (h1 = h)) as [->|Hne]; [|left; apply Hkeep; cbn; by rewrite lookup_insert_ne].
    rewrite Ht in E. injection E as ->. cbn in Ho, Hx. subst o. destruct Hx as [->|Hx].
    + destruct (telling_step good _ _ _ _ _ Ea Htell Hf Hc) as [(z & Hz & Hzt)|(f & Hin & Hg)]; [cbn in Hc'; exact Hc'| |].
      * left. exists h, (Task OOther (nxt ++ l) op n), z. cbn. rewrite lookup_insert. split; [done|]. split; [done|]. split; [|done]. apply in_app_iff. by left.
      * right. unfold in_transit. rewrite sent_on_app.
        assert (Hel : Sent h n (Emit (inr a) c f) ∈ filter (fun x => e_conn (s_what x) = c) (map (Sent h n) sends)).
        { apply elem_of_list_filter. split; [done|]. apply elem_of_list_In, in_map_iff. eauto. }
        apply elem_of_list_lookup_1 in Hel as [j Hj]. exists (length (sent_on m c) + j), (Sent h n (Emit (inr a) c f)). split; [lia|]. split; [|done].
        rewrite lookup_app_r by lia. by replace (length (sent_on m c) + j - length (sent_on m c)) with j by lia.
    + left. exists h, (Task OOther (nxt ++ l) op n), x. cbn. rewrite lookup_insert. split; [done|]. split; [done|]. split; [|done]. apply in_app_iff. by right.
  - left. apply Hkeep. destruct (m_tasks m !! h1) as [[o l op n]|] eqn:E; [|done]. case_decide as Hd; [|done]. cbn.
    rewrite lookup_insert_ne; [done|]. intros ->. apply elem_of_list_In in Hd. apply (Hab h t); done.
Qed.

Lemma in_transit_step m e k : in_transit m k -> in_transit (m_step m e) k.
Proof.
  intros (j & x & Hj & Hx & Hg). exists j, x. split; [done|]. split; [|done].
  assert (Hl : exists l, m_sent (m_step m e) = m_sent m ++ l).
  { destruct e as [h hh u c0 ts|h hh b c0|hh|hh u|h raw hk|h|h good|h]; cbn [TaskModel.m_step].
    - case_decide; exists []; by rewrite app_nil_r.
    - case_decide; exists []; by rewrite app_nil_r.
    - destruct (m_tasks m !! hh); exists []; by rewrite app_nil_r.
    - destruct (m_tasks m !! hh); exists []; by rewrite app_nil_r.
    - destruct (m_tasks m !! h) as [[o [|? ?] [|] n]|]; try (exists []; by rewrite app_nil_r).
      destruct (loop_frame o raw hk). exists []; by rewrite app_nil_r.
    - destruct (m_tasks m !! h) as [[o [|? ?] [|] n]|]; exists []; by rewrite app_nil_r.
    - destruct (m_tasks m !! h) as [[o [|y rest] op n]|]; try (exists []; by rewrite app_nil_r).
      destruct (act_step (fun _ => good) (m_conns m) y) as [[s' nxt] sends]. cbn. eauto.
    - destruct (m_tasks m !! h) as [[o l op n]|]; [case_decide|]; exists []; by rewrite app_nil_r. }
  destruct Hl as [l Hl]. unfold sent_on in *. rewrite Hl, filter_app. by apply lookup_app_l_Some.
Qed.

(** A new registration of [a] on [c]: the full syncs are due. *)
Lemma registration_tells i es e :
  let m := m_run i es in let m' := m_run i (es ++ [e]) in
  c_get_broker_connection (m_conns m) a <> Some c -> c_get_broker_connection (m_conns m') a = Some c -> about_to m'.
Proof.
  intros m m' Hc Hc'. subst m'. pose proof (handler_shape i es) as Hsh. rewrite m_run_snoc in *. fold m in Hsh, Hc' |- *.
  destruct e as [h1 hh v c1 ts|h1 hh b c1|hh|hh v|h1 raw hk|h1|h1 good|h1]; cbn [TaskModel.m_step] in *.
  - exfalso. apply Hc. by destruct (decide _).
  - exfalso. apply Hc. by destruct (decide _).
  - exfalso. apply Hc. by destruct (m_tasks m !! hh).
  - exfalso. apply Hc. by destruct (m_tasks m !! hh).
  - exfalso. apply Hc. destruct (m_tasks m !! h1) as [[o [|? ?] [|] n]|]; try done. by destruct (loop_frame o raw hk).
  - exfalso. apply Hc. by destruct (m_tasks m !! h1) as [[o [|? ?] [|] n]|].
  - destruct (m_tasks m !! h1) as [[o [|y l] op n]|] eqn:E; try (exfalso; by apply Hc).
    destruct (act_step (fun _ => good) (m_conns m) y) as [[s' nxt] sends] eqn:Ea. cbn [m_conns] in Hc'.
    assert (Hreg : exists h, registered s' h (OBroker a c)).
    { unfold c_get_broker_connection in Hc'. destruct (brokers s' !! a) as [[c0 tm h0]|] eqn:Eb; [|done]. cbn in Hc'. injection Hc' as ->. exists h0, tm. done. }
    destruct Hreg as [h' Hreg]. destruct (act_step_registered _ _ _ _ _ _ _ _ Ea Hreg) as [(tm & Hr)|Hao].
    { exfalso. apply Hc. unfold c_get_broker_connection. by rewrite Hr. }
    destruct y; cbn in Hao; try discriminate Hao. injection Hao as -> -> ->.
    destruct (Hsh h1 _ a c h' E) as [Ho Hl]; [by left|]. cbn in Ho, Hl. injection Hl as ->. subst o. cbn in Ea. injection Ea as <- <- <-. cbn [app].
    assert (Htell : telling (if tp then AFullTopicSync a else AFullUserSync a)) by (unfold telling; destruct tp; done).
    eexists h1, _, (if tp then AFullTopicSync a else AFullUserSync a). cbn [m_tasks]. rewrite lookup_insert. split; [done|]. split; [done|]. split; [|exact Htell].
    clear. destruct tp; [by left|right; by left].
  - exfalso. apply Hc. destruct (m_tasks m !! h1) as [[o l op n]|]; [|done]. by destruct (decide _).
Qed.
End sender.

(** A delta computed now is due to every broker. *)
Lemma delta_tells (a : bid) (c : N) (G : frame -> Prop) (tp : bool) (i : bid) (es : list event) (e : event) (h : N) (good : bool) o l op n f :
  e = ERun h good ->
  m_tasks (m_run i es) !! h = Some (Task o ((if tp then APartialTopicSync else APartialUserSync) :: l) op n) ->
  (if tp then option_map FTopicSync (c_get_partial_topic_sync (m_conns (m_run i es))).2 else option_map FUserSync (c_get_partial_user_sync (m_conns (m_run i es))).2) = Some f ->
  G f -> about_to a c G tp (m_run i (es ++ [e])).
Proof.
  intros -> Ht Hf Hg. assert (Ho : o = OOther).
  { eapply (loops_not_syncing i es h _ (if tp then APartialTopicSync else APartialUserSync) Ht); [by left|by destruct tp]. }
  subst o. rewrite m_run_snoc. set (m := m_run i es) in *. cbn [TaskModel.m_step]. rewrite Ht.
  destruct tp; cbn [act_step].
  - destruct (c_get_partial_topic_sync (m_conns m)) as [s' [d|]]; [|done]. cbn in Hf. injection Hf as <-.
    eexists h, _, _. cbn. rewrite lookup_insert. split; [done|]. split; [done|]. split; [by left|]. done.
  - destruct (c_get_partial_user_sync (m_conns m)) as [s' [d|]]; [|done]. cbn in Hf. injection Hf as <-.
    eexists h, _, _. cbn. rewrite lookup_insert. split; [done|]. split; [done|]. split; [by left|]. done.
Qed.

(** ** The state of connections, one operation at a time *)
Definition act_op (a : act) : option conn_op :=
  match a with
  | ARemoveUser u => Some (CRemoveUser u) | ARemoveBroker b => Some (CRemoveBroker b)
  | AAddUser u c ts h => Some (CAddUser u c ts h) | AAddBroker b c h => Some (CAddBroker b c h)
  | ASubscribe u ts => Some (CSubscribeUser u ts) | AUnsubscribe u ts => Some (CUnsubscribeUser u ts)
  | AApplyUserSync m => Some (CApplyUserSync m) | AApplyTopicSync b m => Some (CApplyTopicSync b m)
  | APartialTopicSync => Some CPartialTopicSync | APartialUserSync => Some CPartialUserSync
  | _ => None
  end.
Lemma act_step_op ok s a s' nxt sends : act_step ok s a = (s', nxt, sends) -> s' = match act_op a with Some o => c_step s o | None => s end.
Proof.
  destruct a as [w raw only|ts raw only|w f|w cw f|b f|b cb f|f|w|b|w cw ts h'|b cb h'|w ts|w ts|d|b d|b|b| |]; cbn [act_step act_op c_step]; intros Heq;
    try (injection Heq as <- <- <-; done).
  - destruct (ok cw); by injection Heq as <- <- <-.
  - destruct (ok cb); by injection Heq as <- <- <-.
  - destruct (c_get_partial_topic_sync s). by injection Heq as <- <- <-.
  - destruct (c_get_partial_user_sync s). by injection Heq as <- <- <-.
Qed.

Lemma m_step_op m e :
  m_conns (m_step m e) = m_conns m
  \/ exists h good o a l op n c, e = ERun h good /\ m_tasks m !! h = Some (Task o (a :: l) op n) /\ act_op a = Some c /\ m_conns (m_step m e) = c_step (m_conns m) c.
Proof.
  destruct e as [h1 hh v c1 ts|h1 hh b c1|hh|hh v|h1 raw hk|h1|h1 good|h1]; cbn [TaskModel.m_step].
  - case_decide; by left.
  - case_decide; by left.
  - destruct (m_tasks m !! hh); by left.
  - destruct (m_tasks m !! hh); by left.
  - destruct (m_tasks m !! h1) as [[o [|? ?] [|] n]|]; try by left. destruct (loop_frame o raw hk); by left.
  - destruct (m_tasks m !! h1) as [[o [|? ?] [|] n]|]; by left.
  - destruct (m_tasks m !! h1) as [[o [|a l] op n]|] eqn:E; try by left.
    destruct (act_step (fun _ => good) (m_conns m) a) as [[s' nxt] sends] eqn:Ea. apply act_step_op in Ea. cbn.
    destruct (act_op a) as [c|] eqn:Ec; [|by left]. right. exists h1, good, o, a, l, op, n, c. done.
  - destruct (m_tasks m !! h1) as [[o l op n]|]; [case_decide|]; by left.
Qed.

Lemma rounds_le os : (topic_rounds os <= N.of_nat (length os))%N.
Proof.
  induction os as [|o os IH] using rev_ind; [done|]. rewrite topic_rounds_snoc, app_length. cbn [length]. destruct (is_topic_round o); lia.
Qed.

Lemma conns_history i es : exists os, m_conns (m_run i es) = c_run i os /\ length os <= length es.
Proof.
  induction es as [|e es (os & IH & Hl)] using rev_ind; [by exists []|]. rewrite m_run_snoc, app_length. cbn [length].
  destruct (m_step_op (m_run i es) e) as [->|(h & good & o & a & l & op & n & c & _ & _ & _ & ->)].
  - exists os. split; [done|]. lia.
  - exists (os ++ [c]). rewrite c_run_snoc, IH, app_length. cbn. split; [done|lia].
Qed.

(** Fewer steps than there are version numbers. *)
Definition short (es : list event) : Prop := (N.of_nat (length es) < u64_modulus)%N.
Lemma short_app es es' : short (es ++ es') -> short es.
Proof. unfold short. rewrite app_length. lia. Qed.

Lemma topic_state i es :
  short es -> let s := m_conns (m_run i es) in
  cid (topic_sync s) = 0%N /\ modified (topic_sync s) = ∅
  /\ (forall t e, entries (topic_sync s) !! t = Some e -> val e = Some (if decide (t ∈ previous_topics s) then Subscribed else Unsubscribed))
  /\ (forall t, t ∈ previous_topics s -> is_Some (entries (topic_sync s) !! t)).
Proof.
  intros Hs. cbn zeta. destruct (conns_history i es) as (os & -> & Hl). pose proof (rounds_le os). unfold short in Hs.
  destruct (sender_run i os) as [H1 H2 H3 H4 _]; [lia|]. split_and!; [done|done| |done]. intros t e He. by apply H3 in He as [_ He].
Qed.

Lemma topic_mono i es e t x :
  short (es ++ [e]) -> entries (topic_sync (m_conns (m_run i es))) !! t = Some x ->
  exists cur, entries (topic_sync (m_conns (m_run i (es ++ [e])))) !! t = Some cur /\ entry_le x cur.
Proof.
  intros Hs Hx. destruct (conns_history i es) as (os & Hos & Hl). unfold short in Hs. rewrite app_length in Hs. cbn in Hs. rewrite m_run_snoc.
  destruct (m_step_op (m_run i es) e) as [->|(h & good & o & a & l & op & n & c & _ & _ & _ & ->)].
  - exists x. split; [done|by right].
  - rewrite Hos in *. rewrite <- c_run_snoc. apply sender_step_le; [|done].
    rewrite topic_rounds_snoc. pose proof (rounds_le os). destruct (is_topic_round c); lia.
Qed.

(** A new entry is in the delta computed now. *)
Lemma topic_new i es e t cur :
  short (es ++ [e]) -> entries (topic_sync (m_conns (m_run i (es ++ [e])))) !! t = Some cur ->
  entries (topic_sync (m_conns (m_run i es))) !! t = Some cur
  \/ exists h good o l op n d, e = ERun h good /\ m_tasks (m_run i es) !! h = Some (Task o (APartialTopicSync :: l) op n)
       /\ (c_get_partial_topic_sync (m_conns (m_run i es))).2 = Some d /\ entries d !! t = Some cur.
Proof.
  intros Hs Hx. destruct (conns_history i es) as (os & Hos & Hl). unfold short in Hs. rewrite app_length in Hs. cbn in Hs. rewrite m_run_snoc in Hx.
  destruct (m_step_op (m_run i es) e) as [Heq|(h & good & o & a & l & op & n & c & -> & Ht & Hc & Heq)]; [rewrite Heq in Hx; by left|].
  rewrite Heq in Hx. destruct (is_topic_round c) eqn:Hr.
  - destruct c; try discriminate Hr. destruct a; try discriminate Hc. clear Hr. cbn [c_step] in Hx. pose proof (rounds_le os).
    destruct (sender_run i os) as [_ H2 _ _ _]; [lia|]. rewrite <- Hos in H2.
    destruct (partial_topic_effect _ H2) as (_ & _ & _ & E4 & E5). set (s := m_conns (m_run i es)) in *.
    destruct (decide (t ∈ topics_now s <-> t ∈ previous_topics s)) as [Hiff|Hiff].
    { left. rewrite E4 in Hx. rewrite decide_False in Hx by tauto. by rewrite decide_False in Hx by tauto. }
    destruct (c_get_partial_topic_sync s).2 as [d|] eqn:Ed; [|exfalso; apply Hiff; by rewrite E5].
    destruct E5 as (_ & _ & _ & E5). right. exists h, good, o, l, op, n, d. split; [done|]. split; [done|]. split; [done|]. rewrite E5. by rewrite decide_False.
  - left. destruct (step_topic_frame (m_conns (m_run i es)) c Hr) as [Hf _]. by rewrite Hf in Hx.
Qed.

(** ** What is said about topics is true, or was *)
Definition told (T d : topic_map) : Prop :=
  cid d = 0%N /\ forall t e, entries d !! t = Some e -> val e <> None /\ exists cur, entries T !! t = Some cur /\ entry_le e cur.

Lemma told_mono i es e d :
  short (es ++ [e]) -> told (topic_sync (m_conns (m_run i es))) d -> told (topic_sync (m_conns (m_run i (es ++ [e])))) d.
Proof.
  intros Hs [Hc Ht]. split; [done|]. intros t x Hx. destruct (Ht t x Hx) as (Hv & cur & Hcur & Hle). split; [done|].
  destruct (topic_mono i es e t cur Hs Hcur) as (cur' & ? & ?). exists cur'. split; [done|]. by eapply entry_le_trans.
Qed.

Lemma told_full i es d : short es -> c_get_full_topic_sync (m_conns (m_run i es)) = Some d -> told (topic_sync (m_conns (m_run i es))) d.
Proof.
  intros Hs Hf. destruct (topic_state i es Hs) as (H1 & _ & H3 & _). unfold c_get_full_topic_sync in Hf. case_decide; [done|]. injection Hf as <-.
  split; [done|]. intros t e He. split; [by rewrite (H3 t e He)|]. exists e. split; [done|by right].
Qed.

Lemma told_partial i es d :
  short es -> (c_get_partial_topic_sync (m_conns (m_run i es))).2 = Some d ->
  told (topic_sync (c_step (m_conns (m_run i es)) CPartialTopicSync)) d.
Proof.
  intros Hs Hd. destruct (topic_state i es Hs) as (H1 & H2 & H3 & _). cbn [c_step].
  destruct (partial_topic_effect _ H2) as (E1 & _ & _ & E4 & E5). rewrite Hd in E5. destruct E5 as (_ & Hc & _ & E5). split; [congruence|].
  intros t e He. rewrite E5 in He. case_decide as Hn; [done|]. split; [|exists e; split; [done|by right]].
  rewrite E4 in He. repeat case_decide; [by injection He as <-|by injection He as <-|]. by rewrite (H3 t e He).
Qed.

Definition carries (x : act) : option frame :=
  match x with ASendBroker _ _ f | ALookupBroker _ f | ASendBrokers f | ALookupUser _ f | ASendUser _ _ f => Some f | _ => None end.

Definition said (m : machine) : Prop :=
  (forall h t x d, m_tasks m !! h = Some t -> In x (t_acts t) -> carries x = Some (FTopicSync d) -> told (topic_sync (m_conns m)) d)
  /\ (forall x d, In x (m_sent m) -> e_frame (s_what x) = FTopicSync d -> told (topic_sync (m_conns m)) d).

Lemma act_step_carries ok s x s' nxt sends f :
  act_step ok s x = (s', nxt, sends) ->
  (exists y, In y nxt /\ carries y = Some f) \/ (exists y, In y sends /\ e_frame y = f) ->
  carries x = Some f \/ is_relay f = true
  \/ (exists b, x = AFullTopicSync b) /\ (exists d, c_get_full_topic_sync s = Some d /\ f = FTopicSync d)
  \/ (exists b, x = AFullUserSync b) /\ (exists d, c_get_full_user_sync s = Some d /\ f = FUserSync d)
  \/ x = APartialTopicSync /\ (exists d, (c_get_partial_topic_sync s).2 = Some d /\ f = FTopicSync d)
  \/ x = APartialUserSync /\ (exists d, (c_get_partial_user_sync s).2 = Some d /\ f = FUserSync d).
Proof.
  intros Heq Hf.
  destruct x as [w raw only|ts raw only|w f0|w cw f0|b f0|b cb f0|f0|w|b|w cw ts h'|b cb h'|w ts|w ts|d|b d|b|b| |]; cbn [act_step carries] in *.
  - injection Heq as <- <- <-. right. left. destruct Hf as [(y & Hy & Hc)|(y & [] & _)]. unfold direct_next in Hy.
    destruct (c_get_broker_identifier_of_user s w); [case_decide; [|destruct only]|]; try done; destruct Hy as [<-|[]]; by injection Hc as <-.
  - injection Heq as <- <- <-. right. left. destruct Hf as [(y & Hy & Hc)|(y & [] & _)]. unfold broadcast_next in Hy.
    destruct (c_get_interested_by_topic s ts only). apply in_app_iff in Hy as [Hy|Hy]; apply in_map_iff in Hy as (z & <- & _); by injection Hc as <-.
  - injection Heq as <- <- <-. left. destruct Hf as [(y & Hy & Hc)|(y & [] & _)]. destruct (c_get_user_connection s w); [|done]. destruct Hy as [<-|[]]. done.
  - left. destruct (ok cw); injection Heq as <- <- <-; destruct Hf as [(y & Hy & Hc)|(y & Hy & Hc)]; try done; destruct Hy as [<-|[]]; cbn in *; congruence.
  - injection Heq as <- <- <-. left. destruct Hf as [(y & Hy & Hc)|(y & [] & _)]. destruct (c_get_broker_connection s b); [|done]. destruct Hy as [<-|[]]. done.
  - left. destruct (ok cb); injection Heq as <- <- <-; destruct Hf as [(y & Hy & Hc)|(y & Hy & Hc)]; try done; destruct Hy as [<-|[]]; cbn in *; congruence.
  - injection Heq as <- <- <-. left. destruct Hf as [(y & Hy & Hc)|(y & [] & _)]. apply in_map_iff in Hy as (z & <- & _). done.
  - injection Heq as <- <- <-. destruct Hf as [(y & [] & Hc)|(y & [] & _)].
  - injection Heq as <- <- <-. destruct Hf as [(y & [] & Hc)|(y & [] & _)].
  - injection Heq as <- <- <-. destruct Hf as [(y & [] & Hc)|(y & [] & _)].
  - injection Heq as <- <- <-. destruct Hf as [(y & [] & Hc)|(y & [] & _)].
  - injection Heq as <- <- <-. destruct Hf as [(y & [] & Hc)|(y & [] & _)].
  - injection Heq as <- <- <-. destruct Hf as [(y & [] & Hc)|(y & [] & _)].
  - injection Heq as <- <- <-. destruct Hf as [(y & [] & Hc)|(y & [] & _)].
  - injection Heq as <- <- <-. destruct Hf as [(y & [] & Hc)|(y & [] & _)].
  - injection Heq as <- <- <-. right. right. left. split; [eauto|]. destruct Hf as [(y & Hy & Hc)|(y & [] & _)].
    destruct (c_get_full_topic_sync s) as [d|]; [|done]. destruct Hy as [<-|[]]. injection Hc as <-. eauto.
  - injection Heq as <- <- <-. right. right. right. left. split; [eauto|]. destruct Hf as [(y & Hy & Hc)|(y & [] & _)].
    destruct (c_get_full_user_sync s) as [d|]; [|done]. destruct Hy as [<-|[]]. injection Hc as <-. eauto.
  - do 4 right. left. split; [done|]. destruct (c_get_partial_topic_sync s) as [s1 [d|]]; injection Heq as <- <- <-; destruct Hf as [(y & Hy & Hc)|(y & [] & _)]; [|done].
    destruct Hy as [<-|[]]. injection Hc as <-. eauto.
  - do 5 right. split; [done|]. destruct (c_get_partial_user_sync s) as [s1 [d|]]; injection Heq as <- <- <-; destruct Hf as [(y & Hy & Hc)|(y & [] & _)]; [|done].
    destruct Hy as [<-|[]]. injection Hc as <-. eauto.
Qed.

Lemma loop_frame_carries o raw hk x : In x (loop_frame o raw hk).1 -> carries x = None.
Proof.
  destruct o as [u c|b c|]; cbn; [| |done].
  - unfold user_frame. destruct (deser raw) as [m0|]; [|by intros [<-|[]]]. destruct (hk m0) as [|m1|]; [done| |by intros [<-|[]]].
    destruct m1; try (by intros [<-|[]]); destruct (prune valid topics) as [? [|]]; by intros [<-|[]].
  - unfold broker_frame. destruct (deser raw) as [m0|]; [|by intros [<-|[]]]. destruct (hk m0) as [|m1|]; [done| |by intros [<-|[]]].
    destruct m1; try (by intros [<-|[]]); try done; [destruct (dec_users payload)|destruct (dec_topics payload)]; by intros [<-|[]].
Qed.

(** Frames that satisfy [K] (which may depend on the state and must survive steps): if every
    fresh sync message does, then so do all pending and sent ones. *)
Lemma frames_run (K : conns -> frame -> Prop) i es0 :
  (forall es e es', es0 = es ++ e :: es' -> forall f, K (m_conns (m_run i es)) f -> K (m_conns (m_run i (es ++ [e]))) f) ->
  (forall s raw, K s (FRelay raw)) ->
  (forall es es' d, es0 = es ++ es' -> c_get_full_topic_sync (m_conns (m_run i es)) = Some d -> K (m_conns (m_run i es)) (FTopicSync d)) ->
  (forall es es' d, es0 = es ++ es' -> c_get_full_user_sync (m_conns (m_run i es)) = Some d -> K (m_conns (m_run i es)) (FUserSync d)) ->
  (forall es es' d, es0 = es ++ es' -> (c_get_partial_topic_sync (m_conns (m_run i es))).2 = Some d -> K (c_step (m_conns (m_run i es)) CPartialTopicSync) (FTopicSync d)) ->
  (forall es es' d, es0 = es ++ es' -> (c_get_partial_user_sync (m_conns (m_run i es))).2 = Some d -> K (c_step (m_conns (m_run i es)) CPartialUserSync) (FUserSync d)) ->
  forall es es', es0 = es ++ es' -> let m := m_run i es in
  (forall h t x f, m_tasks m !! h = Some t -> In x (t_acts t) -> carries x = Some f -> K (m_conns m) f)
  /\ (forall x, In x (m_sent m) -> K (m_conns m) (e_frame (s_what x))).
Proof.
  intros Hmono Hrel Hft Hfu Hpt Hpu. induction es as [|e es IH] using rev_ind; intros es' Hes.
  { cbn zeta. split; [|done]. intros h t x f Ht. cbn in Ht. by rewrite lookup_empty in Ht. }
  rewrite <- app_assoc in Hes. cbn [app] in Hes. destruct (IH (e :: es') Hes) as [IHt IHs]. clear IH.
  specialize (Hmono es e es' Hes). specialize (Hft es (e :: es')). specialize (Hfu es (e :: es')). specialize (Hpt es (e :: es')). specialize (Hpu es (e :: es')).
  cbn zeta. rewrite m_run_snoc in *. set (m := m_run i es) in *.
  assert (Hgoal :
    (forall h t x f, m_tasks (m_step m e) !! h = Some t -> In x (t_acts t) -> carries x = Some f -> K (m_conns m) f \/ K (m_conns (m_step m e)) f)
    /\ (forall x, In x (m_sent (m_step m e)) -> K (m_conns m) (e_frame (s_what x)) \/ K (m_conns (m_step m e)) (e_frame (s_what x)))).
  2:{ destruct Hgoal as [H1 H2]. split.
      - intros h t x f Ht Hx Hc. destruct (H1 h t x f Ht Hx Hc); auto.
      - intros x Hx. destruct (H2 x Hx); auto. }
  clear Hmono.
  destruct e as [h1 hh v c1 ts|h1 hh b c1|hh|hh v|h1 raw hk|h1|h1 good|h1]; cbn [TaskModel.m_step].
  - case_decide; [|split; [intros; left; by eapply IHt|intros; left; by eapply IHs]]. cbn. split; [|intros; left; by eapply IHs].
    intros h t x f Ht Hx Hc. left. apply lookup_insert_Some in Ht as [[<- <-]|[_ Ht]].
    { destruct Hx as [<-|[<-|[<-|[]]]]; done. }
    apply lookup_insert_Some in Ht as [[<- <-]|[_ Ht]]; [done|by eapply IHt].
  - case_decide; [|split; [intros; left; by eapply IHt|intros; left; by eapply IHs]]. cbn. split; [|intros; left; by eapply IHs].
    intros h t x f Ht Hx Hc. left. apply lookup_insert_Some in Ht as [[<- <-]|[_ Ht]].
    { destruct Hx as [<-|[<-|[<-|[]]]]; done. }
    apply lookup_insert_Some in Ht as [[<- <-]|[_ Ht]]; [done|by eapply IHt].
  - destruct (m_tasks m !! hh); [split; [intros; left; by eapply IHt|intros; left; by eapply IHs]|]. cbn. split; [|intros; left; by eapply IHs].
    intros h t x f Ht Hx Hc. left. apply lookup_insert_Some in Ht as [[<- <-]|[_ Ht]]; [|by eapply IHt]. destruct Hx as [<-|[<-|[]]]; done.
  - destruct (m_tasks m !! hh); [split; [intros; left; by eapply IHt|intros; left; by eapply IHs]|]. cbn. split; [|intros; left; by eapply IHs].
    intros h t x f Ht Hx Hc. left. apply lookup_insert_Some in Ht as [[<- <-]|[_ Ht]]; [|by eapply IHt]. destruct Hx as [<-|[]]; done.
  - destruct (m_tasks m !! h1) as [[o [|? ?] [|] n]|] eqn:E; try (split; [intros; left; by eapply IHt|intros; left; by eapply IHs]).
    pose proof (loop_frame_carries o raw hk) as Hq. destruct (loop_frame o raw hk) as [acts go]. cbn. split; [|intros; left; by eapply IHs].
    intros h t x f Ht Hx Hc. left. apply lookup_insert_Some in Ht as [[<- <-]|[_ Ht]]; [|by eapply IHt]. by rewrite (Hq x Hx) in Hc.
  - destruct (m_tasks m !! h1) as [[o [|? ?] [|] n]|] eqn:E; try (split; [intros; left; by eapply IHt|intros; left; by eapply IHs]).
    cbn. split; [|intros; left; by eapply IHs].
    intros h t x f Ht Hx Hc. left. apply lookup_insert_Some in Ht as [[<- <-]|[_ Ht]]; [|by eapply IHt].
    destruct o; cbn in Hx; try done; destruct Hx as [<-|[]]; done.
  - destruct (m_tasks m !! h1) as [[o [|a l] op n]|] eqn:E; try (split; [intros; left; by eapply IHt|intros; left; by eapply IHs]).
    destruct (act_step (fun _ => good) (m_conns m) a) as [[s' nxt] sends] eqn:Ea.
    assert (Hnew : forall f, (exists y, In y nxt /\ carries y = Some f) \/ (exists y, In y sends /\ e_frame y = f) -> K (m_conns m) f \/ K s' f).
    { intros f Hf. pose proof (act_step_op _ _ _ _ _ _ Ea) as Hop.
      destruct (act_step_carries _ _ _ _ _ _ f Ea Hf) as [Hc|[Hr|[[[b ->] (d & Hd & ->)]|[[[b ->] (d & Hd & ->)]|[[-> (d & Hd & ->)]|[-> (d & Hd & ->)]]]]]].
      - left. eapply (IHt h1); [exact E|by left|done].
      - left. by destruct f.
      - left. by apply Hft.
      - left. by apply Hfu.
      - right. cbn in Hop. subst s'. by apply Hpt.
      - right. cbn in Hop. subst s'. by apply Hpu. }
    cbn. split.
    + intros h t x f Ht Hx Hc. apply lookup_insert_Some in Ht as [[<- <-]|[_ Ht]]; [|left; by eapply IHt]. cbn in Hx.
      apply in_app_iff in Hx as [Hx|Hx]; [apply Hnew; left; eauto|]. left. eapply (IHt h1); [exact E|by right|done].
    + intros x Hx. apply in_app_iff in Hx as [Hx|Hx]; [left; by apply IHs|]. apply in_map_iff in Hx as (y & <- & Hy). apply Hnew. right. eauto.
  - destruct (m_tasks m !! h1) as [[o l op n]|] eqn:E; [|split; [intros; left; by eapply IHt|intros; left; by eapply IHs]].
    case_decide; [|split; [intros; left; by eapply IHt|intros; left; by eapply IHs]]. cbn. split; [|intros; left; by eapply IHs].
    intros h t x f Ht Hx Hc. left. apply lookup_insert_Some in Ht as [[<- <-]|[_ Ht]]; [done|by eapply IHt].
Qed.

Lemma said_run i es : short es -> said (m_run i es).
Proof.
  intros Hs.
  assert (Hp : forall es1 es2, es = es1 ++ es2 -> short es1) by (intros es1 es2 ->; by eapply short_app).
  destruct (frames_run (fun s f => forall d, f = FTopicSync d -> told (topic_sync s) d) i es) with (es := es) (es' := @nil event) as [H1 H2].
  - intros es1 e es2 Heq f Hf d ->. apply told_mono; [|by apply Hf]. apply (Hp (es1 ++ [e]) es2). by rewrite <- app_assoc.
  - done.
  - intros es1 es2 d Heq Hd d' [= <-]. apply told_full; [by eapply Hp|done].
  - done.
  - intros es1 es2 d Heq Hd d' [= <-]. apply told_partial; [by eapply Hp|done].
  - done.
  - by rewrite app_nil_r.
  - split.
    + intros h t x d Ht Hx Hc. by eapply (H1 h t x).
    + intros x d Hx Hf. by eapply (H2 x).
Qed.
End proofs.
