(** Links between brokers: why they go, and that they stay if nothing breaks. *)
From stdpp Require Import gmap fin_maps fin_sets list.
From Coq Require Import NArith ZArith Lia.
From Verif Require Import IdModel RelMapModel RelMapProofs VMapModel VMapSpec VMapProofs ConnModel ConnSpec ConnProofs ConnProofs2 ConnProofs3 ConnProofs4
  SyncSpec SyncModel DirSyncProofs TopicSyncProofs TopicModel TopicProofs MsgModel RouteModel RouteProofs TaskModel TaskProofs TaskOrder TaskHandles TaskIsolation TaskSync TaskCheck
  NetModel NetProofs NetOrigin NetDelivery NetComplete NetSynced NetSettle NetSettleDir NetSettleAll NetStay LinkSpec.

Lemma op_keeps_link s o p c tm h :
  brokers s !! p = Some (BrokerEntry c tm h) -> ~ relinks p o -> exists tm', brokers (c_step s o) !! p = Some (BrokerEntry c tm' h).
Proof.
  intros Hr Hn. destruct o as [u c1 ts h1|u|b c1 h1|b|u ts|u ts|m|b m| |]; cbn [c_step relinks] in *; try (by exists tm).
  - exists tm. by rewrite au_brokers.
  - exists tm. by rewrite ru_brokers.
  - exists tm. by rewrite ab_brokers, lookup_insert_ne.
  - exists tm. by rewrite rb_brokers, lookup_delete_ne.
  - exists tm. rewrite apply_user_sync_eq.
    pose proof (rus_frame (set_direct (vm_merge bid_gtb (direct s) m).1 s) (map fst (vm_merge bid_gtb (direct s) m).2)) as (_ & H1 & _). by rewrite H1.
  - destruct (brokers s !! b) as [be|] eqn:Hb.
    + rewrite (apply_topic_eq _ _ _ _ Hb).
      pose proof (topic_changes_frame b (vm_merge u32_gtb (be_topics be) m).2
        (set_brokers (<[b:=BrokerEntry (be_conn be) (vm_merge u32_gtb (be_topics be) m).1 (be_handle be)]> (brokers s)) s)) as Hf.
      cbn zeta in Hf. destruct Hf as (_ & _ & -> & _). cbn [set_brokers brokers].
      destruct (decide (b = p)) as [->|Hne].
      * rewrite lookup_insert. rewrite Hr in Hb. injection Hb as <-. eauto.
      * rewrite lookup_insert_ne by done. eauto.
    + exists tm. unfold c_apply_topic_sync. rewrite Hb, rb_brokers, lookup_delete_ne; [done|]. congruence.
  - exists tm. by rewrite partial_user_direct.
  - exists tm. pose proof (partial_topic_frame s) as Hf. cbn zeta in Hf. destruct Hf as (_ & _ & -> & _). done.
Qed.

Section machine.
Variable deser : bytes -> option message.
Variable dec_users : bytes -> option direct_map.
Variable dec_topics : bytes -> option topic_map.
Variable valid : N -> bool.
Notation m_step := (m_step deser dec_users dec_topics valid).
Notation m_run := (m_run deser dec_users dec_topics valid).
Notation m_run_snoc := (m_run_snoc deser dec_users dec_topics valid).
Notation loop_frame := (loop_frame deser dec_users dec_topics valid).
Notation bsend_failed := (bsend_failed deser dec_users dec_topics valid).

(** ** Why a registered link disappears *)
Definition drop_cause (i : bid) (es : list event) (h : N) (o : owner) (a : act) : Prop :=
  match a with
  | ARemoveBroker p => (exists c, o = OBroker p c) \/ exists c, bsend_failed i es h p c
  | _ => True
  end.
Lemma drop_cause_mono i es e h o a : drop_cause i es h o a -> drop_cause i (es ++ [e]) h o a.
Proof. destruct a; cbn; try done. intros [Ho|[c Hc]]; [by left|]. right. exists c. by apply bsend_failed_mono. Qed.
Lemma act_step_drops ok s a s' nxt sends p : act_step ok s a = (s', nxt, sends) -> In (ARemoveBroker p) nxt -> exists c f, a = ASendBroker p c f /\ ok c = false.
Proof.
  destruct a as [w raw only|ts raw only|w f|w cw f|b' f|b' cb f|f|w|b'|w cw ts h'|b' cb h'|w ts|w ts|d|b' d|b'|b'| |]; cbn [act_step]; intros Heq Hy;
    try (injection Heq as <- <- <-; done).
  - injection Heq as <- <- <-. unfold direct_next in Hy. destruct (c_get_broker_identifier_of_user s w); [|done]. case_decide; [destruct Hy as [Hy|[]]; done|].
    destruct only; [done|]. destruct Hy as [Hy|[]]. done.
  - injection Heq as <- <- <-. unfold broadcast_next in Hy. destruct (c_get_interested_by_topic s ts only). apply in_app_iff in Hy as [Hy|Hy]; apply in_map_iff in Hy as (x & Hx & _); done.
  - injection Heq as <- <- <-. destruct (c_get_user_connection s w); [|done]. destruct Hy as [Hy|[]]; done.
  - destruct (ok cw) eqn:E; injection Heq as <- <- <-; [done|]. destruct Hy as [Hy|[]]. done.
  - injection Heq as <- <- <-. destruct (c_get_broker_connection s b'); [|done]. destruct Hy as [Hy|[]]; done.
  - destruct (ok cb) eqn:E; injection Heq as <- <- <-; [done|]. destruct Hy as [[= ->]|[]]. eauto.
  - injection Heq as <- <- <-. apply in_map_iff in Hy as (x & Hx & _); done.
  - injection Heq as <- <- <-. destruct (c_get_full_topic_sync s); [|done]. destruct Hy as [Hy|[]]; done.
  - injection Heq as <- <- <-. destruct (c_get_full_user_sync s); [|done]. destruct Hy as [Hy|[]]; done.
  - destruct (c_get_partial_topic_sync s) as [s1 o]. injection Heq as <- <- <-. destruct o; [|done]. destruct Hy as [Hy|[]]; done.
  - destruct (c_get_partial_user_sync s) as [s1 o]. injection Heq as <- <- <-. destruct o; [|done]. destruct Hy as [Hy|[]]; done.
Qed.
Lemma frame_drops o raw hk p : In (ARemoveBroker p) (loop_frame o raw hk).1 -> exists c, o = OBroker p c /\ (loop_frame o raw hk).2 = false.
Proof.
  destruct o as [u c|b c|]; cbn; [| |done].
  - unfold user_frame. intros Hy. repeat (case_match; cbn in Hy; try done); destruct Hy as [Hy|[]]; done.
  - unfold broker_frame. intros Hy. exists c. repeat (case_match; cbn in Hy |- *; try done); destruct Hy as [Hy|[]]; first [discriminate Hy | by injection Hy as ->].
Qed.
(** A removal that is to be performed, and how it came about. *)
Lemma drop_new m e h t p : m_tasks (m_step m e) !! h = Some t -> In (ARemoveBroker p) (t_acts t) ->
  (exists t0, m_tasks m !! h = Some t0 /\ In (ARemoveBroker p) (t_acts t0) /\ t_owner t0 = t_owner t)
  \/ (exists c, t_owner t = OBroker p c /\
        (e = ERecvErr h \/ exists raw hk, e = EFrame h raw hk /\ (loop_frame (t_owner t) raw hk).2 = false)
        /\ exists t0, m_tasks m !! h = Some t0 /\ t_owner t0 = t_owner t)
  \/ (exists o c f l op n, e = ERun h false /\ m_tasks m !! h = Some (Task o (ASendBroker p c f :: l) op n)).
Proof.
  intros Ht Hy.
  assert (Hold : m_tasks m !! h = Some t -> exists t0, m_tasks m !! h = Some t0 /\ In (ARemoveBroker p) (t_acts t0) /\ t_owner t0 = t_owner t) by eauto.
  destruct e as [h1 h2 w c1 ts|h1 h2 b1 c1|h2|h2 w|h1 raw hk|h1|h1 good|h1]; cbn [TaskModel.m_step] in Ht.
  - case_decide; [|left; by apply Hold]. cbn in Ht. apply lookup_insert_Some in Ht as [[<- <-]|[_ Ht]]; [by destruct Hy as [?|[?|[?|[]]]]|].
    apply lookup_insert_Some in Ht as [[<- <-]|[_ Ht]]; [done|left; by apply Hold].
  - case_decide; [|left; by apply Hold]. cbn in Ht. apply lookup_insert_Some in Ht as [[<- <-]|[_ Ht]]; [by destruct Hy as [?|[?|[?|[]]]]|].
    apply lookup_insert_Some in Ht as [[<- <-]|[_ Ht]]; [done|left; by apply Hold].
  - destruct (m_tasks m !! h2); [left; by apply Hold|]. cbn in Ht. apply lookup_insert_Some in Ht as [[<- <-]|[_ Ht]]; [by destruct Hy as [?|[?|[]]]|left; by apply Hold].
  - destruct (m_tasks m !! h2); [left; by apply Hold|]. cbn in Ht. apply lookup_insert_Some in Ht as [[<- <-]|[_ Ht]]; [by destruct Hy as [?|[]]|left; by apply Hold].
  - destruct (m_tasks m !! h1) as [[o [|? ?] [|] n]|] eqn:E; try (left; by apply Hold).
    destruct (loop_frame o raw hk) as [acts go] eqn:El. cbn in Ht. apply lookup_insert_Some in Ht as [[<- <-]|[_ Ht]]; [|left; by apply Hold].
    cbn in Hy. destruct (frame_drops o raw hk p) as (c & Ho & Hg); [by rewrite El|]. right. left. exists c. cbn. split; [done|]. split; [right; eauto|]. eexists. split; [exact E|done].
  - destruct (m_tasks m !! h1) as [[o [|? ?] [|] n]|] eqn:E; try (left; by apply Hold).
    cbn in Ht. apply lookup_insert_Some in Ht as [[<- <-]|[_ Ht]]; [|left; by apply Hold].
    destruct o as [u c|b c|]; cbn in Hy; [by destruct Hy as [?|[]]| |done]. destruct Hy as [[= ->]|[]]. right. left. exists c. split; [done|]. split; [by left|]. eexists. split; [exact E|done].
  - destruct (m_tasks m !! h1) as [[o [|a l] op n]|] eqn:E; try (left; by apply Hold).
    destruct (act_step (fun _ => good) (m_conns m) a) as [[s' nxt] sends] eqn:Ea. cbn in Ht. apply lookup_insert_Some in Ht as [[<- <-]|[_ Ht]]; [|left; by apply Hold].
    cbn [t_acts] in Hy. apply in_app_iff in Hy as [Hy|Hy].
    + destruct (act_step_drops _ _ _ _ _ _ _ Ea Hy) as (c & f & -> & Hg). cbn in Hg. subst good. right. right. exists o, c, f, l, op, n. done.
    + left. eexists. split; [exact E|]. split; [by right|done].
  - destruct (m_tasks m !! h1) as [[o l op n]|] eqn:E; [|left; by apply Hold]. case_decide; [|left; by apply Hold]. cbn in Ht.
    apply lookup_insert_Some in Ht as [[<- <-]|[_ Ht]]; [done|left; by apply Hold].
Qed.
Lemma drop_run i es h t : m_tasks (m_run i es) !! h = Some t -> forall y, In y (t_acts t) -> drop_cause i es h (t_owner t) y.
Proof.
  revert h t. induction es as [|e es IH] using rev_ind; intros h t Ht y Hy.
  { cbn in Ht. by rewrite lookup_empty in Ht. }
  rewrite m_run_snoc in Ht. destruct y as [| | | | | | | |p| | | | | | | | | |]; try done.
  destruct (drop_new _ _ _ _ _ Ht Hy) as [(t0 & Ht0 & Hy0 & Ho)|[(c & Ho & _)|(o & c & f & l & op & n & -> & Ht0)]].
  - rewrite <- Ho. apply drop_cause_mono. by apply (IH h t0).
  - left. eauto.
  - right. exists c, es, [], o, f, l, op, n. done.
Qed.

Lemma why_link_gone i es e h p c :
  registered (m_conns (m_run i es)) h (OBroker p c) ->
  ~ registered (m_conns (m_run i (es ++ [e]))) h (OBroker p c) ->
  exists hh good t a l, e = ERun hh good /\ m_tasks (m_run i es) !! hh = Some t /\ t_acts t = a :: l /\
    ((exists c' h', a = AAddBroker p c' h')
     \/ (a = ARemoveBroker p /\
          (hh = h
           \/ (exists cp, bsend_failed i es hh p cp)
           \/ (hh <> h /\ (exists c', t_owner t = OBroker p c')
               /\ (In hh (aborted (m_conns (m_run i es))) \/ unregistered (m_run i es) hh))))).
Proof.
  intros Hr Hn. rewrite m_run_snoc in Hn.
  pose proof (handle_run deser dec_users dec_topics valid i es) as Hh.
  pose proof (loops_known_run deser dec_users dec_topics valid i es) as Hk.
  destruct (m_step_op deser dec_users dec_topics valid (m_run i es) e) as [Heq|(hh & good & o & a & l & op & n & cop & -> & Ht & Hc & Heq)].
  { exfalso. apply Hn. by rewrite Heq. }
  rewrite Heq in Hn. exists hh, good, (Task o (a :: l) op n), a, l. split; [done|]. split; [done|]. split; [done|].
  pose proof (drop_run i es hh _ Ht a (or_introl eq_refl)) as Hd. cbn [t_owner] in Hd.
  set (m := m_run i es) in *.
  destruct Hr as [tm Hr]. destruct (relinks_dec p cop) as [Hrl|Hrl].
  2:{ exfalso. apply Hn. by eapply op_keeps_link. }
  destruct a; cbn in Hc; try done; injection Hc as <-; cbn in Hrl; try done; subst.
  - right. split; [done|]. cbn in Hd. destruct Hd as [[c' Ho]|Hs]; [|by right; left].
    destruct (decide (hh = h)) as [->|Hne]; [by left|]. right. right. split; [done|]. split; [cbn; eauto|].
    destruct Hh as (os & Hc & Hnd & Hin & _ & _ & _ & Hreg).
    destruct Hk as (HA & _ & _). cbn in Ho. destruct (HA hh _ Ht) as [Hun|[Hlive|Hab]]; [cbn; congruence|by right| |by left].
    exfalso. destruct (live_registered _ _ Hlive) as [o' Ho']. destruct (Hreg _ _ Ho') as (t' & Ht' & Hot'). fold m in Ht'. rewrite Ht in Ht'. injection Ht' as <-.
    cbn in Hot'. subst o o'. destruct Ho' as [tm' Ho']. rewrite Hr in Ho'. congruence.
  - left. eauto.
Qed.

(** ** A link that nothing breaks *)
Section peer.
Variable p : bid.
Definition no_drop (m : machine) : Prop := forall h t, m_tasks m !! h = Some t -> ~ In (ARemoveBroker p) (t_acts t).
Definition link_open (m : machine) (h c : N) : Prop := exists acts k, m_tasks m !! h = Some (Task (OBroker p c) acts true k).
Definition link_held (tr : list event) (m : machine) : Prop :=
  forall h hh c, In (EBrokerAuthed h hh p c) tr -> link_open m h c
    /\ (m_tasks m !! hh = Some (Task OOther (broker_connected p c h) false 0) \/ registered (m_conns m) h (OBroker p c)).
(** Frames that are received from [p] are in order. *)
Definition frames_go (m : machine) (e : event) : Prop :=
  forall h raw hk t c, e = EFrame h raw hk -> m_tasks m !! h = Some t -> t_owner t = OBroker p c -> (loop_frame (OBroker p c) raw hk).2 = true.

Lemma no_drop_step m e : unbroken_step p m e -> frames_go m e -> no_drop m -> no_drop (m_step m e).
Proof.
  intros Hu Hg Hn h t Ht Hy. destruct (drop_new _ _ _ _ _ Ht Hy) as [(t0 & Ht0 & Hy0 & _)|[(c & Ho & He & t0 & Ht0 & Ho0)|(o & c & f & l & op & n & -> & Ht0)]].
  - by apply (Hn h t0).
  - destruct He as [->|(raw & hk & -> & Hf)].
    + cbn in Hu. apply (Hu t0 c Ht0). congruence.
    + rewrite Ho in Hf. rewrite (Hg h raw hk t0 c eq_refl Ht0) in Hf; [done|]. congruence.
  - cbn in Hu. by specialize (Hu _ c f l Ht0 eq_refl).
Qed.

Lemma link_open_step m e h c : unbroken_step p m e -> frames_go m e -> link_open m h c -> h ∉ aborted (m_conns m) -> link_open (m_step m e) h c.
Proof.
  intros He Hg (acts & k & Ht) Hna. assert (Hsame : link_open m h c) by (by exists acts, k).
  assert (Hset : forall h1 t0, m_tasks m !! h1 = None -> link_open (set_task m h1 t0) h c).
  { intros h1 t0 Hnone. exists acts, k. cbn. rewrite lookup_insert_ne; [done|]. congruence. }
  destruct e as [h1 h2 w c1 ts1|h1 h2 b1 c1|h2|h2 w|h1 raw hk|h1|h1 good|h1]; cbn [TaskModel.m_step].
  - case_decide as Hd; [|done]. destruct Hd as (_ & H1 & H2). exists acts, k. cbn. rewrite !lookup_insert_ne by congruence. done.
  - case_decide as Hd; [|done]. destruct Hd as (_ & H1 & H2). exists acts, k. cbn. rewrite !lookup_insert_ne by congruence. done.
  - destruct (m_tasks m !! h2) eqn:E; [done|by apply Hset].
  - destruct (m_tasks m !! h2) eqn:E; [done|by apply Hset].
  - destruct (decide (h1 = h)) as [->|Hne].
    + pose proof (Hg h raw hk _ c eq_refl Ht eq_refl) as Hgo. rewrite Ht. destruct acts as [|? ?]; [|done].
      destruct (loop_frame (OBroker p c) raw hk) as [acts' go] eqn:El. cbn in Hgo. subst go.
      exists acts', (S k). cbn. by rewrite lookup_insert.
    + destruct (m_tasks m !! h1) as [[o [|? ?] [|] n]|] eqn:E; try done. destruct (loop_frame o raw hk). exists acts, k. cbn. by rewrite lookup_insert_ne.
  - destruct (decide (h1 = h)) as [->|Hne].
    + exfalso. cbn in He. by eapply He.
    + destruct (m_tasks m !! h1) as [[o [|? ?] [|] n]|] eqn:E; try done. exists acts, k. cbn. by rewrite lookup_insert_ne.
  - destruct (decide (h1 = h)) as [->|Hne].
    + rewrite Ht. destruct acts as [|a l]; [done|]. destruct (act_step (fun _ => good) (m_conns m) a) as [[s' nxt] sends]. exists (nxt ++ l), k. cbn. by rewrite lookup_insert.
    + destruct (m_tasks m !! h1) as [[o [|a l] op n]|] eqn:E; try done. destruct (act_step (fun _ => good) (m_conns m) a) as [[s' nxt] sends]. exists acts, k. cbn. by rewrite lookup_insert_ne.
  - destruct (m_tasks m !! h1) as [[o l op n]|] eqn:E; [|done]. case_decide; [|done]. exists acts, k. cbn. rewrite lookup_insert_ne; [done|]. congruence.
Qed.

(** One step of a broker that was linked to [p] at most once. *)
Lemma link_step i tr e :
  (forall h hh c h' hh' c', In (EBrokerAuthed h hh p c) tr -> In (EBrokerAuthed h' hh' p c') tr -> h = h') ->
  unbroken_step p (m_run i tr) e -> frames_go (m_run i tr) e ->
  (forall h hh c, e = EBrokerAuthed h hh p c -> h <> hh /\ m_tasks (m_run i tr) !! h = None /\ m_tasks (m_run i tr) !! hh = None) ->
  no_drop (m_run i tr) -> link_held tr (m_run i tr) ->
  no_drop (m_run i (tr ++ [e])) /\ link_held (tr ++ [e]) (m_run i (tr ++ [e])).
Proof.
  intros Hone Hun Hgo Hfr Hn Hh. rewrite m_run_snoc. split; [by apply no_drop_step|].
  intros h hh c Hin. apply in_app_iff in Hin as [Hin|[->|[]]].
  2:{ destruct (Hfr _ _ _ eq_refl) as (H1 & H2 & H3). cbn [TaskModel.m_step]. rewrite decide_True by done.
      split; [exists [], 0|left]; cbn; [rewrite lookup_insert_ne, lookup_insert by done; done|by rewrite lookup_insert]. }
  destruct (Hh h hh c Hin) as [Hop Hst].
  assert (Hna : h ∉ aborted (m_conns (m_run i tr))).
  { intros Hab. apply elem_of_list_In in Hab. destruct Hst as [Ht|Hr].
    - eapply (aborted_not_pending deser dec_users dec_topics valid i tr h Hab). exists hh, (Task OOther (broker_connected p c h) false 0). split; [exact Ht|by left].
    - destruct (registered_task deser dec_users dec_topics valid i tr h (OBroker p c) Hr) as [_ Hna]. by apply Hna. }
  split; [by eapply link_open_step|]. destruct Hst as [Ht|Hr].
  - assert (Hcase : (exists good, e = ERun hh good) \/ forall good, e <> ERun hh good).
    { destruct e as [| | | | | |h1 g|]; try (right; done). destruct (decide (h1 = hh)) as [->|]; [left; eauto|right; congruence]. }
    destruct Hcase as [[good ->]|Hne]; [|left; by apply pending_step]. right. cbn [TaskModel.m_step]. rewrite Ht. cbn.
    eexists. by rewrite ab_brokers, lookup_insert.
  - right. destruct (m_step_op deser dec_users dec_topics valid (m_run i tr) e) as [Heq|(h1 & good & o & a & l & op & k & cop & -> & Ht & Hc & Heq)]; [by rewrite Heq|].
    rewrite Heq. destruct (relinks_dec p cop) as [Hrl|Hrl]; [exfalso|destruct Hr as [tm Hr]; by eapply op_keeps_link].
    destruct a; cbn in Hc; try done; injection Hc as <-; cbn in Hrl; try done; subst.
    + by apply (Hn _ _ Ht); left.
    + destruct (reg_run deser dec_users dec_topics valid i tr) as [_ Hadd]. specialize (Hadd _ _ Ht). cbn in Hadd. apply Forall_cons in Hadd as [[hh' Ha] _].
      rewrite <- (Hone _ _ _ _ _ _ Hin Ha) in *.
      eapply (registered_not_pending deser dec_users dec_topics valid i tr h (OBroker p c)); [exact Hr|].
      eexists h1, _. split; [exact Ht|]. apply adds_in. eexists _, _. split; [by left|reflexivity].
Qed.
End peer.
End machine.

(** * In the network *)
Section net.
Variable deser : bytes -> option message.
Variable dec_users : bytes -> option direct_map.
Variable dec_topics : bytes -> option topic_map.
Variable valid : N -> bool.
Variable enc_users : direct_map -> bytes.
Variable enc_topics : topic_map -> bytes.
Hypothesis Hcodec : faithful_sync deser dec_users dec_topics enc_users enc_topics.
Notation m_step := (m_step deser dec_users dec_topics valid).
Notation m_run := (m_run deser dec_users dec_topics valid).
Notation broker_at := (broker_at deser dec_users dec_topics valid).
Notation n_run := (n_run deser dec_users dec_topics valid enc_users enc_topics).
Notation n_run_snoc := (n_run_snoc deser dec_users dec_topics valid enc_users enc_topics).
Notation broker_extend := (broker_extend deser dec_users dec_topics valid).
Notation loop_of := (loop_of deser dec_users dec_topics valid).
Notation fresh_pair := (fresh_pair deser dec_users dec_topics valid).
Notation frames_go := (frames_go deser dec_users dec_topics valid).
Notation paired := (paired deser dec_users dec_topics valid).
Notation unbroken := (unbroken deser dec_users dec_topics valid).
Notation conns_at n b := (m_conns (broker_at n b)).
Notation tasks_at n b := (m_tasks (broker_at n b)).
Notation wire := (wire enc_users enc_topics).

(** What may be the next step of broker [b]: links are new, and frames from brokers are in order. *)
Definition sound_step (n : net) (b : bid) (e : event) : Prop :=
  (forall p, frames_go p (broker_at n b) e)
  /\ (forall h hh p c, e = EBrokerAuthed h hh p c -> fresh_pair n b h hh c).

Lemma relay_goes es a x raw p hk :
  hooks_pass es -> In x (m_sent (broker_at (n_run es) a)) -> e_frame (s_what x) = FRelay raw ->
  hook_passes hk -> (forall m, hk m <> HErr) -> (broker_frame deser dec_users dec_topics p raw hk).2 = true.
Proof.
  intros Hh Hx Hf [Hk _] Ha. destruct (relay_received deser dec_users dec_topics valid a _ x raw Hx Hf) as (hk' & m0 & msg & Hr & Hd & Hk' & Hmsg).
  assert (Hkeep : hook_keeps hk').
  { destruct Hh as [H1 H2]. destruct (rcv_run deser dec_users dec_topics valid enc_users enc_topics es a _ Hr) as [(u & c & _ & Hin)|(a1 & cb & a' & c & _ & Hin)]; cbn in Hin.
    - by eapply H2.
    - by destruct (H1 _ _ _ Hin). }
  rewrite (Hkeep _ _ Hk') in Hmsg. unfold broker_frame. rewrite Hd. specialize (Ha m0). destruct (hk m0) as [|m'|] eqn:E; [done| |done].
  rewrite (Hk _ _ E). by destruct Hmsg as [(r & body & ->)|(ts & body & ->)].
Qed.

Lemma net_induct0 (P : net -> Prop) es :
  hooks_pass es -> hooks_accept es ->
  P (Net ∅ ∅) ->
  (forall n b e, net_inv deser dec_users dec_topics valid enc_users enc_topics n -> P n -> sound_step n b e -> P (extend n b e)) ->
  (forall n a ha hha ca b hb hhb cb, net_inv deser dec_users dec_topics valid enc_users enc_topics n -> P n -> a <> b -> fresh_pair n a ha hha ca -> fresh_pair n b hb hhb cb ->
     P (extend (extend n a (EBrokerAuthed ha hha b ca)) b (EBrokerAuthed hb hhb a cb)) -> P (linked_up n a ha hha ca b hb hhb cb)) ->
  P (n_run es).
Proof.
  intros Hh Hacc H0 Hext Hup. induction es as [|e es IH] using rev_ind; [done|].
  assert (Hh' : hooks_pass es).
  { destruct Hh as [H1 H2]. split; [intros a c hk Hin; apply (H1 a c)|intros b h raw hk Hin; apply (H2 b h raw)]; apply in_app_iff; by left. }
  assert (Hacc' : hooks_accept es) by (intros a c hk m Hin; apply (Hacc a c); apply in_app_iff; by left).
  rewrite n_run_snoc in *. specialize (IH Hh' Hacc').
  pose proof (inv_run deser dec_users dec_topics valid enc_users enc_topics es) as Hi.
  pose proof (relay_goes es) as Hgo. set (n := n_run es) in *.
  assert (He : In e (es ++ [e])) by (apply in_app_iff; right; by left).
  destruct e as [b h hh u c ts|a ha hha ca b hb hhb cb|b h raw hk|a c hk|b e]; cbn [NetModel.n_step] in *.
  - case_decide as Hd; [|done]. apply Hext; [done|done|]. by split.
  - case_decide as Hd; [|done]. destruct Hd as (Hne & Ha & Hb). fold (linked_up n a ha hha ca b hb hhb cb) in *.
    set (n0 := extend n a (EBrokerAuthed ha hha b ca)) in *.
    assert (Hi0 : net_inv deser dec_users dec_topics valid enc_users enc_topics n0). { apply inv_extend; [done| |done]. cbn. intros c' [<-|[]]. apply Ha. }
    apply Hup; try done. apply Hext; [done| |].
    + apply Hext; [done|done|]. split; [done|]. by intros h hh p c [= <- <- <- <-].
    + split; [done|]. intros h hh p c [= <- <- <- <-]. destruct Hb as (Hb1 & Hb2 & Hb3 & Hb4). unfold NetModel.fresh_pair.
      assert (Htb : trace (extend n a (EBrokerAuthed ha hha b ca)) b = trace n b) by (rewrite trace_extend; by rewrite decide_False).
      unfold NetModel.broker_at in *. rewrite Htb. done.
  - destruct (tasks_at n b !! h) as [[[u c|b' c|] acts op k]|] eqn:E; try done.
    apply Hext; [done|done|]. split; [|done]. intros p h1 raw1 hk1 t c1 [= <- <- <-] Ht Ho. rewrite E in Ht. injection Ht as <-. done.
  - destruct (n_links n !! (a, c)) as [[b h]|] eqn:El; [|done].
    destruct (tasks_at n b !! h) as [t|] eqn:Et; [|done].
    destruct (sent_on (broker_at n a) c !! t_frames t) as [x|] eqn:Ex; [|done].
    apply Hext; [done|done|]. split; [|done]. intros p h1 raw1 hk1 t1 c1 [= <- <- <-] Ht Ho. cbn [TaskModel.loop_frame].
    destruct Hh as [H1 _]. specialize (H1 _ _ _ He).
    destruct (e_frame (s_what x)) as [raw|d|d] eqn:Ef.
    + eapply (Hgo a x raw p hk); [done| |done|done|]; [by apply (sent_on_in _ _ _ _ Ex)|]. intros m. by apply (Hacc a c).
    + cbn [NetModel.wire]. destruct H1 as [_ Hk]. destruct Hcodec as [Hc _]. destruct (Hc d) as (q & d' & Hd & Hp & _). unfold broker_frame. rewrite Hd. destruct (Hk q) as [-> _]. by rewrite Hp.
    + cbn [NetModel.wire]. destruct H1 as [_ Hk]. destruct Hcodec as [_ Hc]. destruct (Hc d) as (q & d' & Hd & Hp & _). unfold broker_frame. rewrite Hd. destruct (Hk q) as [_ ->]. by rewrite Hp.
  - destruct (receives_nothing e) eqn:Hr; [|done]. apply Hext; [done|done|]. split; [intros p h raw hk t c ->; done|intros h hh p c ->; done].
Qed.

Lemma unbroken_extend a p n b0 ev : unbroken a p (extend n b0 ev) -> unbroken a p n /\ (b0 = a -> unbroken_step p (broker_at n a) ev).
Proof.
  intros Hu. split.
  - intros es1 e es2 Ht. destruct (decide (b0 = a)) as [->|Hne].
    + apply (Hu es1 e (es2 ++ [ev])). rewrite trace_extend, decide_True, Ht, <- app_assoc by done. done.
    + apply (Hu es1 e es2). by rewrite trace_extend, decide_False.
  - intros ->. apply (Hu (trace n a) ev []). by rewrite trace_extend, decide_True.
Qed.
Lemma once_extend a p n b0 ev : linked_once a p (extend n b0 ev) -> linked_once a p n.
Proof.
  intros Ho h hh c h' hh' c' H1 H2. apply (Ho h hh c h' hh' c'); rewrite trace_extend; case_decide; try done; apply in_app_iff; by left.
Qed.

Lemma link_stays es a p :
  hooks_pass es -> hooks_accept es -> linked_once a p (n_run es) -> unbroken a p (n_run es) ->
  no_drop p (broker_at (n_run es) a) /\ link_held p (trace (n_run es) a) (broker_at (n_run es) a).
Proof.
  intros Hh Hacc.
  apply (net_induct0 (fun n => linked_once a p n -> unbroken a p n -> no_drop p (broker_at n a) /\ link_held p (trace n a) (broker_at n a)) es Hh Hacc).
  - intros _ _. split.
    + intros h t Ht. unfold NetModel.broker_at, trace in Ht. cbn in Ht. by rewrite !lookup_empty in Ht.
    + intros h hh c Hin. unfold trace in Hin. cbn in Hin. by rewrite lookup_empty in Hin.
  - intros n b0 e Hi IH [Hs1 Hs2] Ho Hu. pose proof (once_extend _ _ _ _ _ Ho) as Ho0. destruct (unbroken_extend _ _ _ _ _ Hu) as [Hu0 Hst].
    destruct (IH Ho0 Hu0) as [H1 H2]. destruct (decide (b0 = a)) as [->|Hne].
    + rewrite (run_extend deser dec_users dec_topics valid), trace_extend, decide_True by done.
      apply (link_step deser dec_users dec_topics valid p a (trace n a) e Ho0 (Hst eq_refl) (Hs1 p)); [|exact H1|exact H2].
      intros h hh c ->. destruct (Hs2 _ _ _ _ eq_refl) as (? & ? & ? & _). done.
    + rewrite (run_other deser dec_users dec_topics valid) by done. rewrite trace_extend, decide_False by done. done.
  - intros n a0 ha hha ca b hb hhb cb _ _ _ _ _ HP. exact HP.
Qed.

Lemma paired_run0 es : hooks_pass es -> hooks_accept es -> paired (n_run es).
Proof.
  intros Hh Hf. apply (net_induct0 paired es Hh Hf).
  - intros b cb a ha Hl. cbn in Hl. by rewrite lookup_empty in Hl.
  - intros n b0 e Hi HP _ b cb a ha Hl. destruct (HP b cb a ha Hl) as (ca & hb & Hl' & H1 & H2).
    exists ca, hb. split; [exact Hl'|]. split; by apply loop_of_extend.
  - intros n a ha hha ca b hb hhb cb Hi _ Hne Ha Hb HP. set (n1 := extend _ b _) in *.
    assert (Hla : loop_of n1 a ha (OBroker b ca)).
    { exists (Task (OBroker b ca) [] true 0). split; [|done]. unfold n1. rewrite (run_other deser dec_users dec_topics valid) by done. rewrite broker_extend, decide_True by done. by apply m_step_broker_authed; apply Ha. }
    assert (Hlb : loop_of n1 b hb (OBroker a cb)).
    { exists (Task (OBroker a cb) [] true 0). split; [|done]. unfold n1. rewrite broker_extend, decide_True by done. rewrite (run_other deser dec_users dec_topics valid) by done. by apply m_step_broker_authed; apply Hb. }
    assert (Hold : forall a' c' p, n_links n1 !! (a', c') = Some p -> (a', c') <> (a, ca) /\ (a', c') <> (b, cb)).
    { intros a' c' [b' h'] Hl. change (n_links n !! (a', c') = Some (b', h')) in Hl. destruct Hi as (I0 & _). destruct (I0 _ _ _ _ Hl) as (_ & (ha' & hx & Hin) & _).
      assert (Hc' : c' ∈ authed_conns (trace n a')).
      { apply elem_of_list_In, in_concat. exists [c']. split; [|by left]. apply in_map_iff. exists (EBrokerAuthed ha' hx b' c'). split; [reflexivity|exact Hin]. }
      destruct Ha as (_ & _ & _ & Ha), Hb as (_ & _ & _ & Hb). split; intros [= -> ->]; done. }
    intros b' cb' a' ha' Hl. unfold linked_up in Hl |- *. fold n1 in Hl |- *. cbn [n_links] in Hl |- *.
    apply lookup_insert_Some in Hl as [[Heq Hv]|[_ Hl]].
    { injection Heq as <- <-. injection Hv as <- <-. exists cb, ha. split; [|split; [exact Hlb|exact Hla]].
      rewrite lookup_insert_ne by (intros [= ? ?]; done). by rewrite lookup_insert. }
    apply lookup_insert_Some in Hl as [[Heq Hv]|[_ Hl]].
    { injection Heq as <- <-. injection Hv as <- <-. exists ca, hb. split; [|split; [exact Hla|exact Hlb]]. by rewrite lookup_insert. }
    destruct (HP b' cb' a' ha' Hl) as (ca' & hb' & Hl' & H1 & H2). exists ca', hb'. split; [|split; [exact H1|exact H2]].
    destruct (Hold _ _ _ Hl') as [Hn1 Hn2]. by rewrite !lookup_insert_ne by congruence.
Qed.

Lemma link_joined es a b ca hb :
  hooks_pass es -> hooks_accept es -> let n := n_run es in
  n_links n !! (a, ca) = Some (b, hb) ->
  linked_once a b n -> linked_once b a n -> unbroken a b n -> unbroken b a n ->
  (forall h t, tasks_at n a !! h = Some t -> t_acts t = []) -> (forall h t, tasks_at n b !! h = Some t -> t_acts t = []) ->
  c_get_broker_connection (conns_at n a) b = Some ca /\ joined deser dec_users dec_topics valid n a b.
Proof.
  intros Hh Hacc n Hl Oa Ob Ua Ub Ra Rb. destruct (paired_run0 es Hh Hacc a ca b hb Hl) as (cb & ha & Hl' & (tb & Htb & Hob) & (ta & Hta & Hoa)).
  destruct (loop_authed deser dec_users dec_topics valid _ _ _ _ _ _ Hta Hoa) as [hha Hina].
  destruct (loop_authed deser dec_users dec_topics valid _ _ _ _ _ _ Htb Hob) as [hhb Hinb].
  destruct (link_stays es a b Hh Hacc Oa Ua) as [_ Ha]. destruct (link_stays es b a Hh Hacc Ob Ub) as [_ Hb].
  destruct (Ha _ _ _ Hina) as [_ [Hp|[tma Hra]]]; [by specialize (Ra _ _ Hp)|].
  destruct (Hb _ _ _ Hinb) as [_ [Hp|[tmb Hrb]]]; [by specialize (Rb _ _ Hp)|].
  assert (Hca : c_get_broker_connection (conns_at n a) b = Some ca) by (unfold c_get_broker_connection, n; by rewrite Hra).
  split; [done|]. exists ca, cb, ha, hb, ta. split; [done|]. split; [unfold c_get_broker_connection, n; by rewrite Hrb|]. done.
Qed.
End net.

(** * Boolean checks, used by the examples *)
Section check.
Variable deser : bytes -> option message.
Variable dec_users : bytes -> option direct_map.
Variable dec_topics : bytes -> option topic_map.
Variable valid : N -> bool.
Definition unbroken_b (p : bid) (m : machine) (e : event) : bool :=
  match e with
  | ERecvErr h => match m_tasks m !! h with Some (Task (OBroker q _) _ _ _) => bool_decide (q <> p) | _ => true end
  | ERun h good => match m_tasks m !! h with Some (Task _ (ASendBroker q _ _ :: _) _ _) => good || bool_decide (q <> p) | _ => true end
  | _ => true
  end.
Lemma unbroken_check a p n :
  all_ev deser dec_users dec_topics valid (unbroken_b p) (m_init a) (trace n a) = true -> unbroken deser dec_users dec_topics valid a p n.
Proof.
  intros H es1 e es2 Ht. rewrite Ht in H. apply all_ev_split in H. fold (m_run deser dec_users dec_topics valid a es1) in H.
  destruct e as [| | | | |h|h good|]; cbn in H |- *; try done.
  - intros t c Htk Ho. rewrite Htk in H. destruct t as [o acts op k]. cbn in Ho. subst o. by apply bool_decide_eq_true in H.
  - intros t c f l Htk Ha. rewrite Htk in H. destruct t as [o acts op k]. cbn in Ha. subst acts. apply orb_prop in H as [H|H]; [done|]. by apply bool_decide_eq_true in H.
Qed.
Definition ups (p : bid) (es : list event) : list N := concat (map (fun e => match e with EBrokerAuthed h _ q _ => if bool_decide (q = p) then [h] else [] | _ => [] end) es).
Lemma linked_once_check a p n : length (ups p (trace n a)) <= 1 -> linked_once a p n.
Proof.
  intros Hl h hh c h' hh' c' H1 H2.
  assert (Hin : forall h hh c, In (EBrokerAuthed h hh p c) (trace n a) -> In h (ups p (trace n a))).
  { intros h0 hh0 c0 Hi. apply in_concat. exists [h0]. split; [|by left]. apply in_map_iff. eexists. split; [|exact Hi]. cbn. by rewrite bool_decide_eq_true_2. }
  apply Hin in H1, H2. destruct (ups p (trace n a)) as [|x [|]]; cbn in Hl; [done| |lia]. destruct H1 as [->|[]], H2 as [->|[]]. done.
Qed.
End check.
