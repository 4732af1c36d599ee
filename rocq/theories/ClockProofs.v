(** Proofs: news is announced within a period of the sync task. *)
From stdpp Require Import gmap fin_maps fin_sets list.
From Coq Require Import NArith ZArith Lia.
From Verif Require Import IdModel RelMapModel RelMapProofs VMapModel VMapSpec VMapProofs ConnModel ConnSpec ConnProofs ConnProofs2 ConnProofs3 ConnProofs4
  SyncSpec SyncModel DirSyncProofs TopicSyncProofs TopicModel TopicProofs MsgModel RouteModel RouteProofs TaskModel TaskProofs TaskOrder TaskHandles TaskIsolation TaskSync
  NetModel NetProofs NetOrigin NetDelivery NetComplete NetSynced NetConcurrent NetSettle NetSettleDir LinkSpec BusySpec BusyProofs BusyProofs2 ClockModel.

Section clock.
Variable deser : bytes -> option message.
Variable dec_users : bytes -> option direct_map.
Variable dec_topics : bytes -> option topic_map.
Variable valid : N -> bool.
Variable enc_users : direct_map -> bytes.
Variable enc_topics : topic_map -> bytes.
Hypothesis Hcodec : faithful_sync deser dec_users dec_topics enc_users enc_topics.
Notation m_step := (m_step deser dec_users dec_topics valid).
Notation m_run := (m_run deser dec_users dec_topics valid).
Notation m_run_snoc := (m_run_snoc deser dec_users dec_topics valid).
Notation loop_frame := (loop_frame deser dec_users dec_topics valid).
Notation broker_at := (broker_at deser dec_users dec_topics valid).
Notation n_run := (n_run deser dec_users dec_topics valid enc_users enc_topics).
Notation n_run_snoc := (n_run_snoc deser dec_users dec_topics valid enc_users enc_topics).
Notation fine := (fine deser dec_users dec_topics valid).
Notation step_at := (step_at deser dec_users dec_topics valid enc_users enc_topics).
Notation subscribed_at := (subscribed_at deser dec_users dec_topics valid).
Notation user_told := (user_told deser dec_users dec_topics valid).
Notation topic_told := (topic_told deser dec_users dec_topics valid).
Notation tied := (tied deser dec_users dec_topics valid).
Notation conns_at n b := (m_conns (broker_at n b)).
Notation tasks_at n b := (m_tasks (broker_at n b)).

(** ** Tasks other than receive loops *)
(** They do not receive. *)
Definition others_closed (m : machine) : Prop := forall h t, m_tasks m !! h = Some t -> t_owner t = OOther -> t_open t = false.
Lemma others_closed_run i es : others_closed (m_run i es).
Proof.
  induction es as [|e es IH] using rev_ind; [by intros ? ? ?|]. rewrite m_run_snoc. set (m := m_run i es) in *. intros h t Ht Ho.
  assert (Hold : m_tasks m !! h = Some t -> t_open t = false) by (intros ?; by eapply IH).
  destruct e as [h1 h2 w c1 ts|h1 h2 b1 c1|h2|h2 w|h1 raw hk|h1|h1 good|h1]; cbn [TaskModel.m_step] in Ht.
  - case_decide; [|by apply Hold]. cbn in Ht. apply lookup_insert_Some in Ht as [[<- <-]|[_ Ht]]; [done|].
    apply lookup_insert_Some in Ht as [[<- <-]|[_ Ht]]; [done|by apply Hold].
  - case_decide; [|by apply Hold]. cbn in Ht. apply lookup_insert_Some in Ht as [[<- <-]|[_ Ht]]; [done|].
    apply lookup_insert_Some in Ht as [[<- <-]|[_ Ht]]; [done|by apply Hold].
  - destruct (m_tasks m !! h2); [by apply Hold|]. cbn in Ht. apply lookup_insert_Some in Ht as [[<- <-]|[_ Ht]]; [done|by apply Hold].
  - destruct (m_tasks m !! h2); [by apply Hold|]. cbn in Ht. apply lookup_insert_Some in Ht as [[<- <-]|[_ Ht]]; [done|by apply Hold].
  - destruct (m_tasks m !! h1) as [[o [|? ?] [|] n]|] eqn:E; try (by apply Hold).
    destruct (loop_frame o raw hk) as [acts go] eqn:El. cbn in Ht. apply lookup_insert_Some in Ht as [[<- <-]|[_ Ht]]; [|by apply Hold].
    cbn in Ho. subst o. specialize (IH _ _ E eq_refl). done.
  - destruct (m_tasks m !! h1) as [[o [|? ?] [|] n]|] eqn:E; try (by apply Hold). cbn in Ht.
    apply lookup_insert_Some in Ht as [[<- <-]|[_ Ht]]; [done|by apply Hold].
  - destruct (m_tasks m !! h1) as [[o [|a l] op n]|] eqn:E; try (by apply Hold).
    destruct (act_step (fun _ => good) (m_conns m) a) as [[s' nxt] sends] eqn:Ea. cbn in Ht.
    apply lookup_insert_Some in Ht as [[<- <-]|[_ Ht]]; [|by apply Hold]. cbn in Ho |- *. by apply (IH _ _ E).
  - destruct (m_tasks m !! h1) as [[o l op n]|] eqn:E; [|by apply Hold]. case_decide; [|by apply Hold]. cbn in Ht.
    apply lookup_insert_Some in Ht as [[<- <-]|[_ Ht]]; [done|by apply Hold].
Qed.

(** One step: such a task stays as it is unless it runs. *)
Lemma others_step i es e h t : m_tasks (m_run i es) !! h = Some t -> t_owner t = OOther ->
  m_tasks (m_run i (es ++ [e])) !! h = Some t \/ (exists x l op k good, t = Task OOther (x :: l) op k /\ e = ERun h good).
Proof.
  intros Ht Ho. rewrite m_run_snoc. pose proof (others_closed_run i es h t Ht Ho) as Hcl. pose proof (aborted_loop deser dec_users dec_topics valid i es h t Ht) as Hab.
  set (m := m_run i es) in *.
  destruct e as [h1 h2 w c1 ts|h1 h2 b1 c1|h2|h2 w|h1 raw hk|h1|h1 good|h1]; cbn [TaskModel.m_step].
  - left. case_decide as Hd; [|done]. destruct Hd as (_ & Hn1 & Hn2). cbn. rewrite !lookup_insert_ne by congruence. done.
  - left. case_decide as Hd; [|done]. destruct Hd as (_ & Hn1 & Hn2). cbn. rewrite !lookup_insert_ne by congruence. done.
  - left. destruct (m_tasks m !! h2) eqn:E; [done|]. cbn. rewrite lookup_insert_ne by congruence. done.
  - left. destruct (m_tasks m !! h2) eqn:E; [done|]. cbn. rewrite lookup_insert_ne by congruence. done.
  - left. destruct (m_tasks m !! h1) as [[o [|? ?] [|] n]|] eqn:E; try done.
    destruct (loop_frame o raw hk) as [acts go] eqn:El. destruct (decide (h1 = h)) as [->|Hne]; [|cbn; by rewrite lookup_insert_ne].
    rewrite E in Ht. injection Ht as <-. done.
  - left. destruct (m_tasks m !! h1) as [[o [|? ?] [|] n]|] eqn:E; try done.
    destruct (decide (h1 = h)) as [->|Hne]; [|cbn; by rewrite lookup_insert_ne]. rewrite E in Ht. injection Ht as <-. done.
  - destruct (m_tasks m !! h1) as [[o [|a l] op n]|] eqn:E; try (by left).
    destruct (act_step (fun _ => good) (m_conns m) a) as [[s' nxt] sends] eqn:Ea. destruct (decide (h1 = h)) as [->|Hne]; [|left; cbn; by rewrite lookup_insert_ne].
    rewrite E in Ht. injection Ht as <-. cbn in Ho. subst o. right. by exists a, l, op, n, good.
  - left. destruct (m_tasks m !! h1) as [[o l op n]|] eqn:E; [|done]. case_decide as Hd; [|done].
    destruct (decide (h1 = h)) as [->|Hne]; [|cbn; by rewrite lookup_insert_ne]. rewrite E in Ht. injection Ht as <-. exfalso. apply Hab; [|done]. by apply elem_of_list_In.
Qed.

(** One step: an action of such a task that has not been carried out is still to be done. *)
Lemma act_waits i es e h t x : m_tasks (m_run i es) !! h = Some t -> t_owner t = OOther -> In x (t_acts t) ->
  (exists t', m_tasks (m_run i (es ++ [e])) !! h = Some t' /\ t_owner t' = OOther /\ In x (t_acts t'))
  \/ (exists l op k good, t = Task OOther (x :: l) op k /\ e = ERun h good).
Proof.
  intros Ht Ho Hx. destruct (others_step i es e h t Ht Ho) as [?|(y & l & op & k & good & -> & ->)]; [left; by exists t|].
  destruct Hx as [->|Hx]; [right; by exists l, op, k, good|left]. rewrite m_run_snoc. cbn [TaskModel.m_step]. rewrite Ht.
  destruct (act_step (fun _ => good) (m_conns (m_run i es)) y) as [[s' nxt] sends]. cbn. rewrite lookup_insert. eexists. split; [done|]. split; [done|]. apply in_app_iff. by right.
Qed.
(** What has finished does nothing more. *)
Lemma finished_step i es e h t : m_tasks (m_run i es) !! h = Some t -> t_owner t = OOther -> t_acts t = [] -> m_tasks (m_run i (es ++ [e])) !! h = Some t.
Proof. intros Ht Ho Hx. by destruct (others_step i es e h t Ht Ho) as [?|(y & l & op & k & good & -> & ->)]. Qed.

(** ** Receive loops announce nothing *)
Definition relays (x : act) : Prop :=
  match x with
  | ALookupUser _ f | ASendUser _ _ f | ALookupBroker _ f | ASendBroker _ _ f => exists raw, f = FRelay raw
  | ASendBrokers _ | AFullTopicSync _ | AFullUserSync _ | APartialTopicSync | APartialUserSync => False
  | _ => True
  end.
Lemma relays_step ok s x s' nxt sends y : act_step ok s x = (s', nxt, sends) -> relays x -> In y nxt -> relays y.
Proof.
  destruct x as [w raw only|ts raw only|w f0|w cw f0|p f0|p cb f0|f0|w|p|w cw ts h'|p cb h'|w ts|w ts|d|p d|p|p| |]; cbn [act_step]; intros Heq Hx Hy; try done;
    try (injection Heq as <- <- <-; done).
  - injection Heq as <- <- <-. unfold direct_next in Hy. destruct (c_get_broker_identifier_of_user s w); [|done]. case_decide; [|destruct only; [done|]]; destruct Hy as [<-|[]]; by exists raw.
  - injection Heq as <- <- <-. unfold broadcast_next in Hy. destruct (c_get_interested_by_topic s ts only). apply in_app_iff in Hy as [Hy|Hy]; apply in_map_iff in Hy as (z & <- & _); by exists raw.
  - injection Heq as <- <- <-. destruct (c_get_user_connection s w); [|done]. by destruct Hy as [<-|[]].
  - destruct (ok cw); injection Heq as <- <- <-; [done|]. by destruct Hy as [<-|[]].
  - injection Heq as <- <- <-. destruct (c_get_broker_connection s p); [|done]. by destruct Hy as [<-|[]].
  - destruct (ok cb); injection Heq as <- <- <-; [done|]. by destruct Hy as [<-|[]].
Qed.
Lemma frame_relays o raw hk y : In y (loop_frame o raw hk).1 -> relays y.
Proof.
  destruct o as [u c|p c|]; cbn [TaskModel.loop_frame]; [| |done].
  - unfold user_frame. destruct (deser raw) as [m|]; [|by intros [<-|[]]]. destruct (hk m) as [|m'|]; [done| |by intros [<-|[]]].
    destruct m'; try (by intros [<-|[]]); destruct (prune valid topics) as [? []]; by intros [<-|[]].
  - unfold broker_frame. destruct (deser raw) as [m|]; [|by intros [<-|[]]]. destruct (hk m) as [|m'|]; [done| |by intros [<-|[]]].
    destruct m'; try done; try (by intros [<-|[]]); [destruct (dec_users _)|destruct (dec_topics _)]; by intros [<-|[]].
Qed.

Lemma loops_relay i es h t y : m_tasks (m_run i es) !! h = Some t -> t_owner t <> OOther -> In y (t_acts t) -> relays y.
Proof.
  revert h t y. induction es as [|e es IH] using rev_ind; [by intros ? ? ? ?|]. rewrite m_run_snoc. set (m := m_run i es) in *. intros h t y Ht Ho Hy.
  assert (Hold : m_tasks m !! h = Some t -> relays y) by (intros ?; by eapply IH).
  destruct e as [h1 h2 w c1 ts|h1 h2 b1 c1|h2|h2 w|h1 raw hk|h1|h1 good|h1]; cbn [TaskModel.m_step] in Ht.
  - case_decide; [|by apply Hold]. cbn in Ht. apply lookup_insert_Some in Ht as [[<- <-]|[_ Ht]]; [done|].
    apply lookup_insert_Some in Ht as [[<- <-]|[_ Ht]]; [done|by apply Hold].
  - case_decide; [|by apply Hold]. cbn in Ht. apply lookup_insert_Some in Ht as [[<- <-]|[_ Ht]]; [done|].
    apply lookup_insert_Some in Ht as [[<- <-]|[_ Ht]]; [done|by apply Hold].
  - destruct (m_tasks m !! h2); [by apply Hold|]. cbn in Ht. apply lookup_insert_Some in Ht as [[<- <-]|[_ Ht]]; [done|by apply Hold].
  - destruct (m_tasks m !! h2); [by apply Hold|]. cbn in Ht. apply lookup_insert_Some in Ht as [[<- <-]|[_ Ht]]; [done|by apply Hold].
  - destruct (m_tasks m !! h1) as [[o [|? ?] [|] n]|] eqn:E; try (by apply Hold).
    destruct (loop_frame o raw hk) as [acts go] eqn:El. cbn in Ht. apply lookup_insert_Some in Ht as [[<- <-]|[_ Ht]]; [|by apply Hold].
    cbn in Hy. apply (frame_relays o raw hk). by rewrite El.
  - destruct (m_tasks m !! h1) as [[o [|? ?] [|] n]|] eqn:E; try (by apply Hold). cbn in Ht.
    apply lookup_insert_Some in Ht as [[<- <-]|[_ Ht]]; [|by apply Hold]. destruct o; cbn in Hy; try done; by destruct Hy as [<-|[]].
  - destruct (m_tasks m !! h1) as [[o [|a l] op n]|] eqn:E; try (by apply Hold).
    destruct (act_step (fun _ => good) (m_conns m) a) as [[s' nxt] sends] eqn:Ea. cbn in Ht.
    apply lookup_insert_Some in Ht as [[<- <-]|[_ Ht]]; [|by apply Hold]. cbn in Ho, Hy. apply in_app_iff in Hy as [Hy|Hy].
    + eapply relays_step; [exact Ea| |exact Hy]. eapply (IH h1); [exact E|done|by left].
    + eapply (IH h1); [exact E|done|by right].
  - destruct (m_tasks m !! h1) as [[o l op n]|] eqn:E; [|by apply Hold]. case_decide; [|by apply Hold]. cbn in Ht.
    apply lookup_insert_Some in Ht as [[<- <-]|[_ Ht]]; [done|by apply Hold].
Qed.

(** ** After the news has been drawn up *)
Section news.
Variables (a b : bid) (tells : act -> Prop) (K : conns -> Prop).
Notation quiet x := (tells x -> x = ARemoveBroker a).
(** Relaying does not tell; what follows a quiet action is quiet. *)
Hypothesis Hrel : forall x, relays x -> quiet x.
Hypothesis Hnext : forall ok s x s' nxt sends y, act_step ok s x = (s', nxt, sends) -> K s -> quiet x -> In y nxt -> quiet y.
Hypothesis Hstart : forall e y, started valid e y -> (forall h hh c, e <> EBrokerAuthed h hh a c) -> quiet y.

Lemma quiet_after es1 es : es1 `prefix_of` es ->
  (forall p, es1 `prefix_of` p -> p `prefix_of` es -> K (conns_at (n_run p) b)) ->
  (forall p e h hh c, es1 `prefix_of` p -> p ++ [e] `prefix_of` es -> trace (n_run (p ++ [e])) b <> trace (n_run p) b ++ [EBrokerAuthed h hh a c]) ->
  forall h t x, tasks_at (n_run es) b !! h = Some t -> In x (t_acts t) -> tells x ->
    x = ARemoveBroker a \/ exists t0, tasks_at (n_run es1) b !! h = Some t0 /\ t_owner t0 = OOther.
Proof.
  intros H1 HK Hno.
  apply (between_ind (fun p => forall h t x, tasks_at (n_run p) b !! h = Some t -> In x (t_acts t) -> tells x ->
    x = ARemoveBroker a \/ exists t0, tasks_at (n_run es1) b !! h = Some t0 /\ t_owner t0 = OOther) es1 es); [| |done|done].
  - intros h t x Ht Hx Htl. destruct (t_owner t) as [u c|q c|] eqn:Ho; [left|left|right; by exists t].
    + apply Hrel; [|done]. eapply (loops_relay b (trace (n_run es1) b) h t); [exact Ht|by rewrite Ho|done].
    + apply Hrel; [|done]. eapply (loops_relay b (trace (n_run es1) b) h t); [exact Ht|by rewrite Ho|done].
  - intros p e Hp Hpe IH h t x Ht Hx Htl. assert (Hpes : p `prefix_of` es) by (etrans; [|exact Hpe]; by apply prefix_app_r).
    destruct (step_at p e b) as [Heq|(ev & Htr & Heq)]; [rewrite Heq in Ht; by eapply IH|].
    rewrite Heq, m_run_snoc in Ht. fold (broker_at (n_run p) b) in Ht.
    destruct (acts_new deser dec_users dec_topics valid (broker_at (n_run p) b) ev h t x Ht Hx) as [(t0 & Ht0 & Hx0)|[Hst|[(raw & hk & t0 & -> & Ht0 & Hin)|(good & o & y & l & op & k & s' & nxt & sends & -> & Ht0 & Ha & Hin)]]].
    + by eapply IH.
    + left. apply (Hstart ev); [done| |done]. intros h' hh' c' ->. by apply (Hno p e h' hh' c').
    + left. apply Hrel; [|done]. by eapply frame_relays.
    + assert (Hdec : (exists t0, tasks_at (n_run es1) b !! h = Some t0 /\ t_owner t0 = OOther) \/ ~ exists t0, tasks_at (n_run es1) b !! h = Some t0 /\ t_owner t0 = OOther).
      { destruct (tasks_at (n_run es1) b !! h) as [t0|] eqn:E; [|right; by intros (? & ? & _)].
        destruct (t_owner t0) eqn:Eo; [right|right|left; by exists t0]; intros (? & [= <-] & ?); congruence. }
      destruct Hdec as [?|Hn]; [by right|left].
      eapply Hnext; [exact Ha|by apply HK| |exact Hin|exact Htl].
      intros Hy. destruct (IH h _ y Ht0 ltac:(by left) Hy) as [?|?]; [done|contradiction].
Qed.
End news.

(** ** A round draws up the news *)
Lemma round_draws (J : conns -> Prop) (part : act) (cop : conn_op) b p h es t :
  let p0 := p ++ [NStep b (ESync h)] in
  p0 `prefix_of` es -> tasks_at (n_run p) b !! h = None -> tasks_at (n_run es) b !! h = Some t -> t_acts t = [] ->
  In part sync_round -> act_op part = Some cop ->
  (forall q e, p0 `prefix_of` q -> q ++ [e] `prefix_of` es -> J (c_step (conns_at (n_run q) b) cop)) ->
  (forall q e, p0 `prefix_of` q -> q ++ [e] `prefix_of` es -> J (conns_at (n_run q) b) -> J (conns_at (n_run (q ++ [e])) b)) ->
  J (conns_at (n_run es) b).
Proof.
  intros p0 H1 Hnone Ht Hnil Hin Hop HJp HJs.
  assert (HI : J (conns_at (n_run es) b) \/ exists t, tasks_at (n_run es) b !! h = Some t /\ t_owner t = OOther /\ In part (t_acts t)).
  { apply (between_ind (fun q => J (conns_at (n_run q) b) \/ exists t, tasks_at (n_run q) b !! h = Some t /\ t_owner t = OOther /\ In part (t_acts t)) p0 es); [| |exact H1|done].
    - right. exists (Task OOther sync_round false 0). split; [|done]. unfold p0. rewrite n_run_snoc. cbn [n_step receives_nothing].
      rewrite (broker_extend deser dec_users dec_topics valid), decide_True by done. cbn [TaskModel.m_step]. rewrite Hnone. cbn. by rewrite lookup_insert.
    - intros q e Hq Hqe [HJ|(tq & Htq & Ho & Hx)]; [left; by apply HJs|].
      destruct (step_at q e b) as [->|(ev & _ & Heq)]; [right; by exists tq|]. rewrite Heq.
      destruct (act_waits b (trace (n_run q) b) ev h tq part Htq Ho Hx) as [?|(l & op & k & good & -> & ->)]; [by right|left].
      rewrite m_run_snoc, (m_step_run deser dec_users dec_topics valid _ _ _ _ _ _ _ _ Htq), Hop. by apply (HJp q e). }
  destruct HI as [?|(t' & Ht' & _ & Hx)]; [done|]. rewrite Ht in Ht'. injection Ht' as <-. by rewrite Hnil in Hx.
Qed.

(** Topics. *)
Definition topic_quiet (t : N) (s : conns) : Prop := forall d, (c_get_partial_topic_sync s).2 = Some d -> entries d !! t = None.
Lemma quiet_topic p b t : fine (n_run p) -> t ∈ topics_now (conns_at (n_run p) b) -> t ∈ previous_topics (conns_at (n_run p) b) -> topic_quiet t (conns_at (n_run p) b).
Proof.
  intros Hf Hn Hp d Hd. destruct (topic_state deser dec_users dec_topics valid b (trace (n_run p) b) (proj2 (Hf b))) as (_ & Hmod & _).
  destruct (partial_topic_effect _ Hmod) as (_ & _ & _ & _ & E5). fold (broker_at (n_run p) b) in E5. rewrite Hd in E5. destruct E5 as (_ & _ & _ & E5).
  rewrite E5. by rewrite decide_True.
Qed.
Lemma topic_prev_step q e b t : fine (n_run (q ++ [e])) -> t ∈ topics_now (conns_at (n_run q) b) ->
  t ∈ previous_topics (conns_at (n_run q) b) -> t ∈ previous_topics (conns_at (n_run (q ++ [e])) b).
Proof.
  intros Hf Hn Hp. destruct (step_at q e b) as [->|(ev & _ & Heq)]; [done|]. rewrite Heq, m_run_snoc.
  change (m_run b (trace (n_run q) b)) with (broker_at (n_run q) b).
  destruct (m_step_op deser dec_users dec_topics valid (broker_at (n_run q) b) ev) as [->|(h & good & o & x & l & op & k & cop & -> & Ht & Ha & Hs)]; [done|]. rewrite Hs.
  destruct (is_topic_round cop) eqn:Hr.
  - destruct cop; try discriminate Hr. cbn [c_step].
    assert (Hfq : fine (n_run q)) by (eapply fine_before; [|exact Hf]; by apply prefix_app_r).
    destruct (topic_state deser dec_users dec_topics valid b (trace (n_run q) b) (proj2 (Hfq b))) as (_ & Hmod & _).
    destruct (partial_topic_effect _ Hmod) as (E1 & _). change (m_run b (trace (n_run q) b)) with (broker_at (n_run q) b) in *. by rewrite E1.
  - destruct (step_topic_frame (conns_at (n_run q) b) cop Hr) as [_ ->]. done.
Qed.

(** Users. *)
Definition user_quiet (v : ukey) (s : conns) : Prop := forall d, (c_get_partial_user_sync s).2 = Some d -> entries d !! v = None.
Lemma quiet_user v s : v ∉ modified (direct s) -> user_quiet v s.
Proof.
  intros Hm d Hd. unfold c_get_partial_user_sync in Hd. pose proof (diff_delta_lookup (direct s) v) as Hl. destruct (vm_diff (direct s)) as [d0 m0]. cbn in Hd, Hl.
  destruct (vm_is_empty d0); [done|]. injection Hd as <-. by rewrite Hl, decide_False.
Qed.
Lemma modified_step v s o : (forall c ts h, o <> CAddUser v c ts h) -> users (c_step s o) !! v <> None -> v ∉ modified (direct s) -> v ∉ modified (direct (c_step s o)).
Proof.
  intros Hadd Hk Hm. destruct (decide (neutral o)) as [Hn|Hn]; [by rewrite neutral_direct|].
  destruct o; try (exfalso; by apply Hn); cbn [c_step] in *.
  - assert (Hne : u <> v) by (intros ->; by edestruct Hadd). rewrite add_user_modified. intros [?|?]; [congruence|done].
  - rewrite ru_direct, rie_modified. intros [?|[-> _]]; [done|]. rewrite ru_users, lookup_delete in Hk. done.
  - rewrite apply_user_sync_eq in *. set (s1 := set_direct (vm_merge bid_gtb (direct s) m).1 s) in *. set (us := map fst (vm_merge bid_gtb (direct s) m).2) in *.
    rewrite rus_users in Hk. assert (Hout : v ∉ us) by (intros ?; by rewrite decide_True in Hk). clear Hk.
    assert (Hm1 : v ∉ modified (direct s1)) by (unfold s1; cbn; rewrite merge_modified; tauto). clearbody s1 us. clear -Hm1 Hout.
    revert s1 Hm1. induction us as [|u us IH]; intros s1 Hm1; [done|]. rewrite remove_users_cons. apply not_elem_of_cons in Hout as [Hne Hout]. apply IH; [done|].
    rewrite ru_direct, rie_modified. intros [?|[-> _]]; done.
  - unfold c_get_partial_user_sync. pose proof (diff_rest_modified (direct s)) as Hl. destruct (vm_diff (direct s)) as [d0 m0]. cbn in Hl |- *. rewrite Hl. apply not_elem_of_empty.
Qed.
Lemma user_mod_step q e b v c : hooks_pass q -> fine (n_run q) -> solo v b (n_run q) -> c_get_user_connection (conns_at (n_run q) b) v = Some c ->
  c_get_user_connection (conns_at (n_run (q ++ [e])) b) v = Some c ->
  v ∉ modified (direct (conns_at (n_run q) b)) -> v ∉ modified (direct (conns_at (n_run (q ++ [e])) b)).
Proof.
  intros Hh Hf Hs Hc Hc' Hm. pose proof (connected_up deser dec_users dec_topics valid enc_users enc_topics Hcodec v b q c Hh Hf Hs Hc) as (_ & _ & _ & Hna & _).
  destruct (step_at q e b) as [->|(ev & _ & Heq)]; [done|]. rewrite Heq, m_run_snoc in *. fold (broker_at (n_run q) b) in *.
  destruct (m_step_op deser dec_users dec_topics valid (broker_at (n_run q) b) ev) as [->|(h & good & o & x & l & op & k & cop & -> & Ht & Ha & Hs')]; [done|]. rewrite Hs' in *.
  apply modified_step; [|unfold c_get_user_connection in Hc'; intros Hnone; by rewrite Hnone in Hc'|done].
  eapply (op_not_add deser dec_users dec_topics valid v (n_run q) b); [exact Ht|exact Ha|exact Hna].
Qed.
End clock.
