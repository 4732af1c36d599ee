(** Brokers that dial each other become linked, once. *)
From stdpp Require Import gmap fin_maps fin_sets list.
From Coq Require Import NArith ZArith Lia.
From Verif Require Import IdModel RelMapModel RelMapProofs VMapModel VMapSpec VMapProofs ConnModel ConnSpec ConnProofs ConnProofs2 ConnProofs3 ConnProofs4
  SyncSpec SyncModel DirSyncProofs TopicSyncProofs TopicModel TopicProofs MsgModel RouteModel RouteProofs TaskModel TaskProofs TaskOrder TaskHandles TaskIsolation TaskSync TaskCheck
  NetModel NetProofs NetOrigin NetDelivery NetComplete NetSynced NetSettle NetSettleDir NetSettleAll NetStay LinkSpec LinkProofs DialModel IdProofs ShakeProofs MeshModel MeshSpec.

(** * One broker *)
Section machine.
Variable deser : bytes -> option message.
Variable dec_users : bytes -> option direct_map.
Variable dec_topics : bytes -> option topic_map.
Variable valid : N -> bool.
Notation m_step := (m_step deser dec_users dec_topics valid).
Notation m_run := (m_run deser dec_users dec_topics valid).
Notation m_run_snoc := (m_run_snoc deser dec_users dec_topics valid).
Notation loop_frame := (loop_frame deser dec_users dec_topics valid).
Notation frames_go := (frames_go deser dec_users dec_topics valid).
Variable p : bid.

Lemma act_step_no_add ok s a s' nxt sends c h : act_step ok s a = (s', nxt, sends) -> ~ In (AAddBroker p c h) nxt.
Proof.
  intros Heq Hy. destruct (act_step_adds _ _ _ _ _ _ Heq) as [Hn _].
  assert (Hh : In h (adds nxt)) by (apply adds_in; eexists _, _; split; [exact Hy|reflexivity]). by rewrite Hn in Hh.
Qed.
Lemma frame_no_add o raw hk c h : ~ In (AAddBroker p c h) (loop_frame o raw hk).1.
Proof.
  intros Hy. assert (Hh : In h (adds (loop_frame o raw hk).1)) by (apply adds_in; eexists _, _; split; [exact Hy|reflexivity]).
  by rewrite loop_frame_adds in Hh.
Qed.
(** A registration that is to be performed, and how it came about. *)
Lemma add_new m e h t c' h' : m_tasks (m_step m e) !! h = Some t -> In (AAddBroker p c' h') (t_acts t) ->
  (exists t0, m_tasks m !! h = Some t0 /\ In (AAddBroker p c' h') (t_acts t0)) \/ e = EBrokerAuthed h' h p c'.
Proof.
  intros Ht Hy.
  assert (Hold : m_tasks m !! h = Some t -> exists t0, m_tasks m !! h = Some t0 /\ In (AAddBroker p c' h') (t_acts t0)) by eauto.
  destruct e as [h1 h2 w c1 ts|h1 h2 b1 c1|h2|h2 w|h1 raw hk|h1|h1 good|h1]; cbn [TaskModel.m_step] in Ht.
  - case_decide; [|left; by apply Hold]. cbn in Ht. apply lookup_insert_Some in Ht as [[<- <-]|[_ Ht]]; [by destruct Hy as [?|[?|[?|[]]]]|].
    apply lookup_insert_Some in Ht as [[<- <-]|[_ Ht]]; [done|left; by apply Hold].
  - case_decide; [|left; by apply Hold]. cbn in Ht. apply lookup_insert_Some in Ht as [[<- <-]|[_ Ht]].
    { right. destruct Hy as [Hy|[Hy|[Hy|[]]]]; [|done|done]. by injection Hy as -> -> ->. }
    apply lookup_insert_Some in Ht as [[<- <-]|[_ Ht]]; [done|left; by apply Hold].
  - destruct (m_tasks m !! h2); [left; by apply Hold|]. cbn in Ht. apply lookup_insert_Some in Ht as [[<- <-]|[_ Ht]]; [by destruct Hy as [?|[?|[]]]|left; by apply Hold].
  - destruct (m_tasks m !! h2); [left; by apply Hold|]. cbn in Ht. apply lookup_insert_Some in Ht as [[<- <-]|[_ Ht]]; [by destruct Hy as [?|[]]|left; by apply Hold].
  - destruct (m_tasks m !! h1) as [[o [|? ?] [|] n]|] eqn:E; try (left; by apply Hold).
    pose proof (frame_no_add o raw hk c' h') as Hl. destruct (loop_frame o raw hk) as [acts go] eqn:El. cbn in Ht. apply lookup_insert_Some in Ht as [[<- <-]|[_ Ht]]; [done|left; by apply Hold].
  - destruct (m_tasks m !! h1) as [[o [|? ?] [|] n]|] eqn:E; try (left; by apply Hold).
    cbn in Ht. apply lookup_insert_Some in Ht as [[<- <-]|[_ Ht]]; [|left; by apply Hold].
    destruct o as [u c|b c|]; cbn in Hy; [by destruct Hy as [?|[]]|by destruct Hy as [?|[]]|done].
  - destruct (m_tasks m !! h1) as [[o [|a l] op n]|] eqn:E; try (left; by apply Hold).
    destruct (act_step (fun _ => good) (m_conns m) a) as [[s' nxt] sends] eqn:Ea. cbn in Ht. apply lookup_insert_Some in Ht as [[<- <-]|[_ Ht]]; [|left; by apply Hold].
    cbn [t_acts] in Hy. apply in_app_iff in Hy as [Hy|Hy].
    + by apply (act_step_no_add _ _ _ _ _ _ _ _ Ea) in Hy.
    + left. eexists. split; [exact E|]. by right.
  - destruct (m_tasks m !! h1) as [[o l op n]|] eqn:E; [|left; by apply Hold]. case_decide; [|left; by apply Hold]. cbn in Ht.
    apply lookup_insert_Some in Ht as [[<- <-]|[_ Ht]]; [done|left; by apply Hold].
Qed.

(** No link with [p], and none coming. *)
Definition no_link (m : machine) : Prop :=
  no_drop p m /\ brokers (m_conns m) !! p = None /\ forall h t c' h', m_tasks m !! h = Some t -> ~ In (AAddBroker p c' h') (t_acts t).
(** The link with receive loop [h] on connection [c], and no other one coming. *)
Definition one_link (h hh c : N) (m : machine) : Prop :=
  no_drop p m
  /\ (m_tasks m !! hh = Some (Task OOther (broker_connected p c h) false 0) \/ registered (m_conns m) h (OBroker p c))
  /\ forall h1 t c' h', m_tasks m !! h1 = Some t -> In (AAddBroker p c' h') (t_acts t) -> h' = h.

Definition not_authed (e : event) : Prop := forall h hh c, e <> EBrokerAuthed h hh p c.

Lemma op_no_link s o : brokers s !! p = None -> ~ relinks p o -> brokers (c_step s o) !! p = None.
Proof.
  intros Hr Hn. destruct o as [u c1 ts h1|u|b c1 h1|b|u ts|u ts|m|b m| |]; cbn [c_step relinks] in *; try done.
  - by rewrite au_brokers.
  - by rewrite ru_brokers.
  - by rewrite ab_brokers, lookup_insert_ne.
  - by rewrite rb_brokers, lookup_delete_ne.
  - rewrite apply_user_sync_eq.
    pose proof (rus_frame (set_direct (vm_merge bid_gtb (direct s) m).1 s) (map fst (vm_merge bid_gtb (direct s) m).2)) as (_ & H1 & _). by rewrite H1.
  - destruct (brokers s !! b) as [be|] eqn:Hb.
    + rewrite (apply_topic_eq _ _ _ _ Hb).
      pose proof (topic_changes_frame b (vm_merge u32_gtb (be_topics be) m).2
        (set_brokers (<[b:=BrokerEntry (be_conn be) (vm_merge u32_gtb (be_topics be) m).1 (be_handle be)]> (brokers s)) s)) as Hf.
      cbn zeta in Hf. destruct Hf as (_ & _ & -> & _). cbn [set_brokers brokers]. rewrite lookup_insert_ne; [done|]. congruence.
    + unfold c_apply_topic_sync. rewrite Hb, rb_brokers. destruct (decide (b = p)) as [->|]; [by rewrite lookup_delete|by rewrite lookup_delete_ne].
  - by rewrite partial_user_direct.
  - pose proof (partial_topic_frame s) as Hf. cbn zeta in Hf. destruct Hf as (_ & _ & -> & _). done.
Qed.

Lemma no_link_step m e : unbroken_step p m e -> frames_go p m e -> not_authed e -> no_link m -> no_link (m_step m e).
Proof.
  intros Hu Hg Hne (Hd & Hb & Ha). split; [by apply no_drop_step|]. split.
  - destruct (m_step_op deser dec_users dec_topics valid m e) as [->|(h & good & o & a & l & op & n & c & -> & Ht & Hc & ->)]; [done|].
    apply op_no_link; [done|]. intros Hr. destruct a; cbn in Hc; try done; injection Hc as <-; cbn in Hr; try done; subst.
    + by apply (Hd _ _ Ht); left.
    + eapply (Ha _ _ _ _ Ht). by left.
  - intros h t c' h' Ht Hy. destruct (add_new _ _ _ _ _ _ Ht Hy) as [(t0 & Ht0 & Hy0)|He]; [by apply (Ha _ _ _ _ Ht0 Hy0)|by eapply Hne].
Qed.

Lemma link_new m h hh c : h <> hh -> m_tasks m !! h = None -> m_tasks m !! hh = None -> no_link m -> one_link h hh c (m_step m (EBrokerAuthed h hh p c)).
Proof.
  intros H1 H2 H3 (Hd & Hb & Ha). split; [|split].
  - intros h1 t Ht Hy. destruct (drop_new _ _ _ _ _ _ _ _ _ Ht Hy) as [(t0 & Ht0 & Hy0 & _)|[(c1 & _ & He & _)|(o & c1 & f & l & op & n & He & _)]]; [by apply (Hd h1 t0)| |done].
    destruct He as [He|(raw & hk & He & _)]; done.
  - left. cbn [TaskModel.m_step]. rewrite decide_True by done. cbn. by rewrite lookup_insert.
  - intros h1 t c' h' Ht Hy. destruct (add_new _ _ _ _ _ _ Ht Hy) as [(t0 & Ht0 & Hy0)|He]; [exfalso; by eapply Ha|]. by injection He.
Qed.

Lemma one_link_step i tr e h hh c :
  unbroken_step p (m_run i tr) e -> frames_go p (m_run i tr) e -> not_authed e -> one_link h hh c (m_run i tr) -> one_link h hh c (m_step (m_run i tr) e).
Proof.
  intros Hu Hg Hne (Hd & Hst & Ha). split; [by apply no_drop_step|]. split.
  - destruct Hst as [Ht|Hr].
    + assert (Hcase : (exists good, e = ERun hh good) \/ forall good, e <> ERun hh good).
      { destruct e as [| | | | | |h1 g|]; try (right; done). destruct (decide (h1 = hh)) as [->|]; [left; eauto|right; congruence]. }
      destruct Hcase as [[good ->]|Hn]; [|left; by apply pending_step]. right. cbn [TaskModel.m_step]. rewrite Ht. cbn.
      eexists. by rewrite ab_brokers, lookup_insert.
    + right. destruct (m_step_op deser dec_users dec_topics valid (m_run i tr) e) as [Heq|(h1 & good & o & a & l & op & k & cop & -> & Ht & Hc & Heq)]; [by rewrite Heq|].
      rewrite Heq. destruct (relinks_dec p cop) as [Hrl|Hrl]; [exfalso|destruct Hr as [tm Hr]; by eapply op_keeps_link].
      destruct a; cbn in Hc; try done; injection Hc as <-; cbn in Hrl; try done; subst.
      * by apply (Hd _ _ Ht); left.
      * rewrite (Ha _ _ _ _ Ht (or_introl eq_refl)) in Ht.
        eapply (registered_not_pending deser dec_users dec_topics valid i tr h (OBroker p c)); [exact Hr|].
        eexists h1, _. split; [exact Ht|]. apply adds_in. eexists _, _. split; [by left|reflexivity].
  - intros h1 t c' h' Ht Hy. destruct (add_new _ _ _ _ _ _ Ht Hy) as [(t0 & Ht0 & Hy0)|He]; [by eapply Ha|]. by apply Hne in He.
Qed.
End machine.

(** * Two brokers of a network *)
Section net.
Variable deser : bytes -> option message.
Variable dec_users : bytes -> option direct_map.
Variable dec_topics : bytes -> option topic_map.
Variable valid : N -> bool.
Variable enc_users : direct_map -> bytes.
Variable enc_topics : topic_map -> bytes.
Hypothesis Hcodec : faithful_sync deser dec_users dec_topics enc_users enc_topics.
Notation m_step := (m_step deser dec_users dec_topics valid).
Notation m_run := (m_run deser dec_users dec_topics valid).
Notation broker_at := (broker_at deser dec_users dec_topics valid).
Notation n_run := (n_run deser dec_users dec_topics valid enc_users enc_topics).
Notation n_run_snoc := (n_run_snoc deser dec_users dec_topics valid enc_users enc_topics).
Notation broker_extend := (broker_extend deser dec_users dec_topics valid).
Notation fresh_pair := (fresh_pair deser dec_users dec_topics valid).
Notation frames_go := (frames_go deser dec_users dec_topics valid).
Notation sound_step := (sound_step deser dec_users dec_topics valid).
Notation net_inv := (net_inv deser dec_users dec_topics valid enc_users enc_topics).
Notation joined := (joined deser dec_users dec_topics valid).
Notation unbroken_since := (unbroken_since deser dec_users dec_topics valid).
Notation conns_at n b := (m_conns (broker_at n b)).
Notation tasks_at n b := (m_tasks (broker_at n b)).
Notation mesh_run := (mesh_run deser dec_users dec_topics valid enc_users enc_topics).
Notation mesh_step := (mesh_step deser dec_users dec_topics valid enc_users enc_topics).

Lemma hooks_app es e : hooks_pass (es ++ [e]) -> hooks_accept (es ++ [e]) -> hooks_pass es /\ hooks_accept es.
Proof.
  intros [H1 H2] Ha. split.
  - split; [intros a c hk Hin; apply (H1 a c)|intros b h raw hk Hin; apply (H2 b h raw)]; apply in_app_iff; by left.
  - intros a c hk m Hin. apply (Ha a c). apply in_app_iff; by left.
Qed.

(** What one event does to the network. *)
Lemma net_step_cases es e : hooks_pass (es ++ [e]) -> hooks_accept (es ++ [e]) -> let n := n_run es in let n' := n_run (es ++ [e]) in
  n' = n
  \/ (exists b ev, n' = extend n b ev /\ sound_step n b ev /\ forall p, not_authed p ev)
  \/ exists a ha hha ca b hb hhb cb, e = NUp a ha hha ca b hb hhb cb /\ a <> b /\ fresh_pair n a ha hha ca /\ fresh_pair n b hb hhb cb
       /\ n' = linked_up n a ha hha ca b hb hhb cb.
Proof.
  intros Hh Hacc n n'. unfold n'. rewrite n_run_snoc. fold n.
  pose proof (relay_goes deser dec_users dec_topics valid enc_users enc_topics es) as Hgo. fold n in Hgo.
  destruct (hooks_app _ _ Hh Hacc) as [Hh0 Hacc0].
  assert (He : In e (es ++ [e])) by (apply in_app_iff; right; by left).
  destruct e as [b h hh u c ts|a ha hha ca b hb hhb cb|b h raw hk|a c hk|b e]; cbn [NetModel.n_step].
  - case_decide as Hd; [|by left]. right. left. eexists _, _. split; [done|]. by split.
  - case_decide as Hd; [|by left]. destruct Hd as (Hne & Ha & Hb). right. right. exists a, ha, hha, ca, b, hb, hhb, cb. done.
  - destruct (tasks_at n b !! h) as [[[u c|b' c|] acts op k]|] eqn:E; try (by left). right. left. eexists _, _. split; [done|]. split; [|done].
    split; [|done]. intros p h1 raw1 hk1 t c1 [= <- <- <-] Ht Ho. rewrite E in Ht. injection Ht as <-. done.
  - destruct (n_links n !! (a, c)) as [[b h]|] eqn:El; [|by left].
    destruct (tasks_at n b !! h) as [t|] eqn:Et; [|by left].
    destruct (sent_on (broker_at n a) c !! t_frames t) as [x|] eqn:Ex; [|by left]. right. left. eexists _, _. split; [done|]. split; [|done].
    split; [|done]. intros p h1 raw1 hk1 t1 c1 [= <- <- <-] Ht Ho. cbn [TaskModel.loop_frame].
    destruct Hh as [H1 _]. specialize (H1 _ _ _ He).
    destruct (e_frame (s_what x)) as [raw|d|d] eqn:Ef.
    + eapply (Hgo a x raw p hk); [done| |done|done|]; [by apply (sent_on_in _ _ _ _ Ex)|]. intros m. by apply (Hacc a c).
    + cbn [NetModel.wire]. destruct H1 as [_ Hk]. destruct Hcodec as [Hc _]. destruct (Hc d) as (q & d' & Hd & Hp & _). unfold broker_frame. rewrite Hd. destruct (Hk q) as [-> _]. by rewrite Hp.
    + cbn [NetModel.wire]. destruct H1 as [_ Hk]. destruct Hcodec as [_ Hc]. destruct (Hc d) as (q & d' & Hd & Hp & _). unfold broker_frame. rewrite Hd. destruct (Hk q) as [_ ->]. by rewrite Hp.
  - destruct (receives_nothing e) eqn:Hr; [|by left]. right. left. eexists _, _. split; [done|].
    split; [split; [intros p h raw hk t c ->; done|intros h hh p c ->; done]|]. intros p h hh c ->. done.
Qed.

Lemma since_extend a p n0 n b0 ev tr : trace n a = trace n0 a ++ tr ->
  unbroken_since a p n0 (extend n b0 ev) -> unbroken_since a p n0 n /\ (b0 = a -> unbroken_step p (broker_at n a) ev).
Proof.
  intros Htr Hu. split.
  - intros es1 e es2 Ht. destruct (decide (b0 = a)) as [->|Hne].
    + apply (Hu es1 e (es2 ++ [ev])). rewrite trace_extend, decide_True, Ht by done. rewrite <- !app_assoc. done.
    + apply (Hu es1 e es2). by rewrite trace_extend, decide_False.
  - intros ->. unfold NetModel.broker_at. rewrite Htr. apply (Hu tr ev []). rewrite trace_extend, decide_True, Htr by done. by rewrite <- app_assoc.
Qed.

Definition prefix_at (n0 n : net) (a : bid) : Prop := exists tr, trace n a = trace n0 a ++ tr.
Lemma prefix_extend n0 n a b ev : prefix_at n0 n a -> prefix_at n0 (extend n b ev) a.
Proof. intros [tr Ht]. unfold prefix_at. rewrite trace_extend. case_decide; [|by exists tr]. exists (tr ++ [ev]). by rewrite Ht, app_assoc. Qed.

(** The state of a pair of brokers, as far as one of them is concerned. *)
Inductive phase := Apart | Linked (h hh c : N).
Definition in_phase (n : net) (a p : bid) (f : phase) : Prop :=
  match f with Apart => no_link p (broker_at n a) | Linked h hh c => one_link p h hh c (broker_at n a) end.

Lemma phase_extend n b ev a p f :
  (b = a -> unbroken_step p (broker_at n a) ev) -> frames_go p (broker_at n b) ev -> (b = a -> not_authed p ev) -> in_phase n a p f -> in_phase (extend n b ev) a p f.
Proof.
  intros Hu Hg Hn Hf. unfold in_phase in *. rewrite broker_extend. case_decide as Hd; [subst b|done].
  destruct f as [|h hh c]; [by apply no_link_step; auto|by apply one_link_step; auto].
Qed.

Lemma links_kept n a ha hha ca b hb hhb cb x c q :
  net_inv n -> fresh_pair n a ha hha ca -> fresh_pair n b hb hhb cb ->
  n_links n !! (x, c) = Some q -> n_links (linked_up n a ha hha ca b hb hhb cb) !! (x, c) = Some q.
Proof.
  intros (I0 & _) Ha Hb Hl. destruct q as [y h]. destruct (I0 _ _ _ _ Hl) as (_ & (ha' & hx & Hin) & _).
  assert (Hc' : c ∈ authed_conns (trace n x)).
  { apply elem_of_list_In, in_concat. exists [c]. split; [|by left]. apply in_map_iff. exists (EBrokerAuthed ha' hx y c). split; [reflexivity|exact Hin]. }
  destruct Ha as (_ & _ & _ & Ha), Hb as (_ & _ & _ & Hb). unfold linked_up. cbn [n_links extend].
  rewrite !lookup_insert_ne; [done| |]; intros [= -> ->]; done.
Qed.

Lemma links_net es e x c q : hooks_pass (es ++ [e]) -> hooks_accept (es ++ [e]) ->
  n_links (n_run es) !! (x, c) = Some q -> n_links (n_run (es ++ [e])) !! (x, c) = Some q.
Proof.
  intros Hh Ha Hl. destruct (net_step_cases es e Hh Ha) as [->|[(b & ev & -> & _)|(a & ha & hha & ca & b & hb & hhb & cb & _ & _ & H1 & H2 & ->)]]; [done|done|].
  apply links_kept; try done. apply inv_run.
Qed.

(** One event of the network that does not link [a] and [p]. *)
Definition other_link (a p : bid) (e : nevent) : Prop :=
  match e with NUp x _ _ _ y _ _ _ => ~ (x = a /\ y = p) /\ ~ (x = p /\ y = a) | _ => True end.
Lemma phase_net n0 es e a p f : hooks_pass (es ++ [e]) -> hooks_accept (es ++ [e]) -> prefix_at n0 (n_run es) a ->
  unbroken_since a p n0 (n_run (es ++ [e])) ->
  prefix_at n0 (n_run (es ++ [e])) a /\ unbroken_since a p n0 (n_run es)
  /\ (other_link a p e -> in_phase (n_run es) a p f -> in_phase (n_run (es ++ [e])) a p f).
Proof.
  intros Hh Ha [tr Htr] Hu. destruct (net_step_cases es e Hh Ha) as [Heq|[(b & ev & Heq & [Hg _] & Hn)|(x & hx & hhx & cx & y & hy & hhy & cy & He & Hne & H1 & H2 & Heq)]].
  - rewrite Heq in *. split; [by exists tr|]. done.
  - rewrite Heq in *. destruct (since_extend _ _ _ _ _ _ _ Htr Hu) as [Hu0 Hst]. split; [apply prefix_extend; by exists tr|]. split; [done|].
    intros _ Hf. by apply phase_extend.
  - rewrite Heq in *. set (n1 := extend (n_run es) x (EBrokerAuthed hx hhx y cx)) in *. set (n2 := extend n1 y (EBrokerAuthed hy hhy x cy)) in *.
    change (unbroken_since a p n0 n2) in Hu. change (prefix_at n0 n2 a /\ unbroken_since a p n0 (n_run es) /\ (other_link a p e -> in_phase (n_run es) a p f -> in_phase n2 a p f)).
    assert (Hp1 : prefix_at n0 n1 a) by (apply prefix_extend; by exists tr). destruct Hp1 as [tr1 Htr1].
    destruct (since_extend _ _ _ _ _ _ _ Htr1 Hu) as [Hu1 Hst1]. destruct (since_extend _ _ _ _ _ _ _ Htr Hu1) as [Hu0 Hst0].
    split; [apply prefix_extend; by exists tr1|]. split; [done|].
    intros Ho Hf. subst e. cbn in Ho. apply phase_extend; [done|done| |].
    + intros -> h hh c [= -> -> -> ->]. tauto.
    + apply phase_extend; [done|done| |done]. intros -> h hh c [= -> -> -> ->]. tauto.
Qed.

(** The event that links them. *)
Lemma phase_up es a ha hha ca b hb hhb cb :
  hooks_pass (es ++ [NUp a ha hha ca b hb hhb cb]) -> hooks_accept (es ++ [NUp a ha hha ca b hb hhb cb]) ->
  a <> b -> fresh_pair (n_run es) a ha hha ca -> fresh_pair (n_run es) b hb hhb cb ->
  in_phase (n_run es) a b Apart -> in_phase (n_run es) b a Apart ->
  let n := n_run (es ++ [NUp a ha hha ca b hb hhb cb]) in
  in_phase n a b (Linked ha hha ca) /\ in_phase n b a (Linked hb hhb cb) /\ n_links n !! (a, ca) = Some (b, hb) /\ n_links n !! (b, cb) = Some (a, ha).
Proof.
  intros Hh Hac Hne Fa Fb Pa Pb n. unfold n. rewrite n_run_snoc. cbn [NetModel.n_step]. rewrite decide_True by done. cbv zeta.
  set (n1 := extend (n_run es) a (EBrokerAuthed ha hha b ca)). set (n2 := extend n1 b (EBrokerAuthed hb hhb a cb)).
  destruct Fa as (F1 & F2 & F3 & _), Fb as (G1 & G2 & G3 & _).
  split; [|split; [|split]].
  - change (one_link b ha hha ca (broker_at n2 a)). unfold n2. rewrite broker_extend, decide_False by done. unfold n1. rewrite broker_extend, decide_True by done.
    by apply link_new.
  - change (one_link a hb hhb cb (broker_at n2 b)). unfold n2. rewrite broker_extend, decide_True by done. unfold n1. rewrite broker_extend, decide_False by done.
    by apply link_new.
  - cbn [n_links]. by rewrite lookup_insert.
  - cbn [n_links]. rewrite lookup_insert_ne by (intros [= ? ?]; done). by rewrite lookup_insert.
Qed.

Lemma one_less_sub x y l : y ∈ one_less x l -> y ∈ l.
Proof. induction l as [|z l IH]; cbn; [done|]. case_decide; set_solver. Qed.
Lemma one_less_other x y l : y <> x -> y ∈ l -> y ∈ one_less x l.
Proof. induction l as [|z l IH]; cbn; [done|]. case_decide; set_solver. Qed.
Lemma one_less_gone x l : x ∉ l -> x ∉ one_less x l.
Proof. intros H H1. apply H. by apply one_less_sub in H1. Qed.
Lemma one_less_twice x y l : x ∉ one_less x l -> x ∉ one_less x (one_less y l).
Proof.
  induction l as [|z l IH]; cbn [one_less]; [done|]. destruct (decide (z = y)) as [Hy|Hy].
  - case_decide; [intros; by apply one_less_gone|]. set_solver.
  - cbn [one_less]. destruct (decide (z = x)) as [Hx|Hx]; [|set_solver]. intros H H1. apply H. by apply one_less_sub in H1.
Qed.
Lemma one_less_app x l l' : x ∉ l -> one_less x (l ++ l') = l ++ one_less x l'.
Proof. induction l as [|z l IH]; cbn; [done|]. rewrite not_elem_of_cons. intros [H1 H2]. rewrite decide_False by done. by rewrite IH. Qed.
Lemma one_less_app2 x l l' : x ∉ l' -> x ∉ one_less x l -> x ∉ one_less x (l ++ l').
Proof. induction l as [|z l IH]; cbn; [intros; by apply one_less_gone|]. case_decide; set_solver. Qed.
Lemma one_less_nodup x l : NoDup l -> x ∉ one_less x l.
Proof. induction l as [|z l IH]; cbn; [set_solver|]. rewrite NoDup_cons. intros [H1 H2]. case_decide; [by subst|]. set_solver. Qed.

(** The two brokers and the dials between them. *)
Section pair.
Variables (es0 : list nevent) (a b : bid).
Hypothesis Hab : a <> b.
Hypothesis Hdir : bid_gtb a b = false.
Notation n0 := (n_run es0).
Definition apart (s : mesh) : Prop :=
  let n := n_run (me_events s) in in_phase n a b Apart /\ in_phase n b a Apart /\ (a, b) ∉ one_less (a, b) (me_dialing s)
  /\ links_made a b (me_events s) = links_made a b es0.
Definition together (s : mesh) : Prop :=
  let n := n_run (me_events s) in
  (a, b) ∉ me_dialing s /\ exists ha hha ca hb hhb cb, in_phase n a b (Linked ha hha ca) /\ in_phase n b a (Linked hb hhb cb)
    /\ n_links n !! (a, ca) = Some (b, hb) /\ n_links n !! (b, cb) = Some (a, ha)
    /\ links_made a b (me_events s) <= S (links_made a b es0).
Lemma beat_in (w x y : bid) (others : gset bid) : (x, y) ∈ map (fun z => (w, z)) (elements others) <-> x = w /\ y ∈ others.
Proof.
  rewrite elem_of_list_In, in_map_iff. split.
  - intros (z & [= <- <-] & Hz). split; [done|]. by apply elem_of_elements, elem_of_list_In.
  - intros [-> Hy]. exists y. split; [done|]. by apply elem_of_list_In, elem_of_elements.
Qed.

Lemma mesh_prefix ms x : prefix_at n0 (n_run (me_events (mesh_run es0 ms))) x.
Proof.
  induction ms as [|m ms IH] using rev_ind; [exists []; by rewrite app_nil_r|].
  unfold MeshModel.mesh_run. rewrite fold_left_app. fold (mesh_run es0 ms). cbn [fold_left]. set (s0 := mesh_run es0 ms) in *.
  assert (Hsn : forall e d, prefix_at n0 (n_run (me_events (Mesh (me_events s0 ++ [e]) d))) x).
  { intros e d. cbn [me_events]. rewrite n_run_snoc. destruct IH as [tr Htr]. revert Htr. generalize (n_run (me_events s0)). intros n Htr.
    assert (Hx : prefix_at n0 n x) by (by exists tr).
    destruct e; cbn [NetModel.n_step]; repeat case_match; try exact Hx; try (by apply prefix_extend).
    match goal with |- prefix_at _ (Net (n_trace ?n2) _) _ => change (prefix_at n0 n2 x) end. by do 2 apply prefix_extend. }
  destruct m as [y others|y hy hhy cy z hz hhz cz|y z|e]; cbn [MeshModel.mesh_step]; [exact IH|case_decide; [apply Hsn|exact IH]|exact IH|].
  destruct e; try apply Hsn. exact IH.
Qed.

Lemma mesh_no_back ms : (b, a) ∉ me_dialing (mesh_run es0 ms).
Proof.
  induction ms as [|m ms IH] using rev_ind; [cbn; set_solver|].
  unfold MeshModel.mesh_run. rewrite fold_left_app. fold (mesh_run es0 ms). cbn [fold_left]. set (s0 := mesh_run es0 ms) in *.
  destruct m as [y others|y hy hhy cy z hz hhz cz|y z|e]; cbn [MeshModel.mesh_step].
  - cbn [me_dialing]. intros Hin. apply elem_of_app in Hin as [Hin|Hin]; [done|]. apply beat_in in Hin as [<- Hin]. apply dials_spec in Hin as (_ & _ & Hg).
    destruct (bid_gtb_total a b Hab) as [Hg'|Hg']; congruence.
  - case_decide; [|done]. cbn [me_dialing]. intros H1. by apply one_less_sub in H1.
  - cbn [me_dialing]. intros H1. by apply one_less_sub in H1.
  - by destruct e.
Qed.

Definition wanted (ms : list mevent) : Prop := together (Mesh es0 []) \/ listed ms a b.
Definition pair_ok (ms : list mevent) (s : mesh) : Prop :=
  (apart s \/ together s) /\ (wanted ms -> together s \/ (a, b) ∈ me_dialing s).

Lemma wanted_snoc ms m : (forall others, m <> MBeat a others) -> wanted (ms ++ [m]) -> wanted ms.
Proof. intros Hn [H|(others & Hin & Ho)]; [by left|right]. exists others. split; [|done]. apply in_app_iff in Hin as [Hin|[->|[]]]; [done|]. by destruct (Hn others). Qed.

Lemma other_link_dec e : other_link a b e \/ ~ other_link a b e.
Proof.
  destruct e as [|x ? ? ? y ? ? ?| | |]; try (left; done). cbn.
  destruct (decide (x = a /\ y = b)) as [|H1]; [right; tauto|]. destruct (decide (x = b /\ y = a)) as [|H2]; [right; tauto|]. by left.
Qed.
Lemma other_link_sym e : other_link a b e -> other_link b a e.
Proof. destruct e; cbn; tauto. Qed.

Lemma links_made_snoc es e : other_link a b e -> links_made a b (es ++ [e]) = links_made a b es.
Proof.
  intros Ho. unfold links_made. rewrite List.filter_app, app_length. destruct e as [|x ? ? ? y ? ? ?| | |]; cbn; try lia.
  cbn in Ho. rewrite bool_decide_eq_false_2 by tauto. cbn. lia.
Qed.

(** An event of the network. *)
Lemma pair_net ms m s0 e d : s0 = mesh_run es0 ms ->
  hooks_pass (me_events s0 ++ [e]) -> hooks_accept (me_events s0 ++ [e]) ->
  unbroken_since a b n0 (n_run (me_events s0 ++ [e])) -> unbroken_since b a n0 (n_run (me_events s0 ++ [e])) ->
  (forall others, m <> MBeat a others) ->
  (other_link a b e -> ((a, b) ∉ one_less (a, b) (me_dialing s0) -> (a, b) ∉ one_less (a, b) d) /\ ((a, b) ∉ me_dialing s0 -> (a, b) ∉ d)
     /\ ((a, b) ∈ me_dialing s0 -> (a, b) ∈ d)) ->
  (~ other_link a b e -> exists ha hha ca hb hhb cb, e = NUp a ha hha ca b hb hhb cb /\ fresh_pair (n_run (me_events s0)) a ha hha ca /\ fresh_pair (n_run (me_events s0)) b hb hhb cb
     /\ (a, b) ∈ me_dialing s0 /\ d = one_less (a, b) (me_dialing s0)) ->
  pair_ok ms s0 -> pair_ok (ms ++ [m]) (Mesh (me_events s0 ++ [e]) d).
Proof.
  intros Hs0 Hh Hac Ua Ub Hnb Hoth Hup (Hst & Hli).
  pose proof (mesh_prefix ms a) as Pa. pose proof (mesh_prefix ms b) as Pb. rewrite <- Hs0 in Pa, Pb.
  destruct (phase_net n0 _ e a b Apart Hh Hac Pa Ua) as (_ & _ & Fa0). destruct (phase_net n0 _ e b a Apart Hh Hac Pb Ub) as (_ & _ & Fb0).
  destruct (other_link_dec e) as [Ho|Ho].
  - destruct (Hoth Ho) as (D1 & D2 & D3).
    assert (Hkeep : together s0 -> together (Mesh (me_events s0 ++ [e]) d)).
    { intros (Hnd & ha & hha & ca & hb & hhb & cb & F1 & F2 & L1 & L2 & L3). split; [by apply D2|]. exists ha, hha, ca, hb, hhb, cb. cbn [me_events].
      split; [by apply (phase_net n0 _ e a b (Linked ha hha ca) Hh Hac Pa Ua)|]. split; [apply (phase_net n0 _ e b a (Linked hb hhb cb) Hh Hac Pb Ub); [by apply other_link_sym|done]|].
      split; [by apply links_net|]. split; [by apply links_net|]. by rewrite (links_made_snoc _ _ Ho). }
    split.
    + destruct Hst as [(A1 & A2 & A3 & A4)|Ht]; [left|right; by apply Hkeep]. split; [by apply Fa0|]. split; [by apply Fb0; [apply other_link_sym|]|]. split; [by apply D1|]. cbn [me_events]. by rewrite (links_made_snoc _ _ Ho).
    + intros Hl. destruct (Hli (wanted_snoc _ _ Hnb Hl)) as [Ht|Hin]; [left; by apply Hkeep|right; by apply D3].
  - destruct (Hup Ho) as (ha & hha & ca & hb & hhb & cb & -> & Fr1 & Fr2 & Hin & ->).
    destruct Hst as [(A1 & A2 & A3 & A4)|(Hnd & _)]; [|done].
    assert (Ht : together (Mesh (me_events s0 ++ [NUp a ha hha ca b hb hhb cb]) (one_less (a, b) (me_dialing s0)))).
    { split; [done|]. exists ha, hha, ca, hb, hhb, cb. cbn [me_events].
      edestruct phase_up as (P1 & P2 & P3 & P4); [exact Hh|exact Hac|exact Hab|exact Fr1|exact Fr2|exact A1|exact A2|]. do 4 (split; [done|]). unfold links_made in *. rewrite List.filter_app, app_length, A4. cbn. case_bool_decide; cbn; lia. }
    split; [by right|]. by left.
Qed.

(** The other events. *)
Lemma pair_same ms m s0 d : pair_ok ms s0 ->
  (apart s0 -> (a, b) ∉ one_less (a, b) d) -> (together s0 -> (a, b) ∉ d) ->
  (wanted (ms ++ [m]) -> together s0 \/ (a, b) ∈ d) -> pair_ok (ms ++ [m]) (Mesh (me_events s0) d).
Proof.
  intros (Hst & Hli) D1 D2 D3.
  assert (Hkeep : together s0 -> together (Mesh (me_events s0) d)).
  { intros Ht. pose proof (D2 Ht) as Hn. destruct Ht as (_ & Hr). by split. }
  split.
  - destruct Hst as [Hst|Ht]; [left|right; by apply Hkeep]. pose proof (D1 Hst) as Hn. destruct Hst as (A1 & A2 & _ & A4). done.
  - intros Hl. destruct (D3 Hl) as [Ht|Hin]; [left; by apply Hkeep|by right].
Qed.

Lemma since_net ms e x y : hooks_pass (me_events (mesh_run es0 ms) ++ [e]) -> hooks_accept (me_events (mesh_run es0 ms) ++ [e]) ->
  unbroken_since x y n0 (n_run (me_events (mesh_run es0 ms) ++ [e])) -> unbroken_since x y n0 (n_run (me_events (mesh_run es0 ms))).
Proof. intros Hh Hac Hu. by apply (phase_net n0 _ e x y Apart Hh Hac (mesh_prefix ms x) Hu). Qed.

Lemma mesh_pair ms :
  (apart (Mesh es0 []) \/ together (Mesh es0 [])) ->
  let s := mesh_run es0 ms in
  hooks_pass (me_events s) -> hooks_accept (me_events s) ->
  unbroken_since a b n0 (n_run (me_events s)) -> unbroken_since b a n0 (n_run (me_events s)) ->
  prompt_rounds deser dec_users dec_topics valid enc_users enc_topics es0 ms a b -> ~ In (MFail a b) ms -> pair_ok ms s.
Proof.
  intros Hstart. induction ms as [|m ms IH] using rev_ind; intros s Hh Hac Ua Ub Hp Hnf.
  { split; [done|]. intros [H|(others & [] & _)]. by left. }
  assert (Hp' : prompt_rounds deser dec_users dec_topics valid enc_users enc_topics es0 ms a b).
  { intros ms1 others ms2 ->. apply (Hp ms1 others (ms2 ++ [m])). by rewrite <- app_assoc. }
  assert (Hnf' : ~ In (MFail a b) ms) by (intros Hin; apply Hnf, in_app_iff; by left).
  assert (Hnm : m <> MFail a b) by (intros ->; apply Hnf, in_app_iff; right; by left).
  assert (Hs : s = mesh_step (mesh_run es0 ms) m) by (unfold s, MeshModel.mesh_run; by rewrite fold_left_app).
  clearbody s. cbv zeta in IH.
  assert (IHe : forall e, hooks_pass (me_events (mesh_run es0 ms) ++ [e]) -> hooks_accept (me_events (mesh_run es0 ms) ++ [e]) ->
    unbroken_since a b n0 (n_run (me_events (mesh_run es0 ms) ++ [e])) -> unbroken_since b a n0 (n_run (me_events (mesh_run es0 ms) ++ [e])) -> pair_ok ms (mesh_run es0 ms)).
  { intros e H1 H2 H3 H4. destruct (hooks_app _ _ H1 H2) as [H1' H2']. apply IH; try done; by eapply since_net. }
  set (s0 := mesh_run es0 ms) in *.
  destruct m as [x others|x hx hhx cx y hy hhy cy|x y|e]; cbn [MeshModel.mesh_step] in Hs.
  - subst s. cbn [me_events] in *. pose proof (IH Hh Hac Ua Ub Hp' Hnf') as Hok.
    apply pair_same; [exact Hok| | |].
    + intros (A1 & A2 & A3 & A4). destruct (decide (x = a)) as [->|Hne].
      * destruct (Hp ms others [] eq_refl) as [Hnd _]. fold s0 in Hnd. rewrite one_less_app by done. rewrite not_elem_of_app. split; [done|].
        apply one_less_nodup. apply NoDup_fmap_2; [intros ? ? [=]; done|apply NoDup_elements].
      * apply one_less_app2; [|done]. intros Hin. apply beat_in in Hin as [<- _]. done.
    + intros (Hnd & ha & hha & ca & hb & hhb & cb & F1 & F2 & L1 & L2 & L3) Hin. apply elem_of_app in Hin as [Hin|Hin]; [done|]. apply beat_in in Hin as [<- Hin].
      apply dials_spec in Hin as (_ & Hc & _). apply Hc. destruct (Hp ms others [] eq_refl) as [_ Hna]. fold s0 in Hna.
      destruct F1 as (_ & [Ht|[tm Hr]] & _); [exfalso; eapply Hna; [exact Ht|by left]|]. unfold connected_to. apply elem_of_dom. by eexists.
    + destruct Hok as (Hst & Hli). intros [H0|(others' & Hin & Ho)].
      { destruct Hli as [Ht|Hd]; [by left|by left|right; apply elem_of_app; by left]. }
      apply in_app_iff in Hin as [Hin|[[= -> ->]|[]]].
      * destruct Hli as [Ht|Hd]; [right; by exists others'|by left|right; apply elem_of_app; by left].
      * destruct Hst as [(A1 & A2 & A3 & A4)|Ht]; [right|by left]. apply elem_of_app. right. apply beat_in. split; [done|]. apply dials_spec. split; [done|]. split; [|done].
        destruct A1 as (_ & Hb & _). unfold connected_to. rewrite elem_of_dom, Hb. by intros [? ?].
  - case_decide as Hd.
    + destruct Hd as (Hin & Hne & Fx & Fy). subst s. cbn [me_events] in *.
      apply pair_net; try done; [| |by eapply IHe].
      * intros Ho. cbn in Ho. split; [apply one_less_twice|]. split; [intros H1 H2; by apply one_less_sub in H2|].
        intros H. apply one_less_other; [|done]. intros [= <- <-]. tauto.
      * intros Ho. cbn in Ho. destruct (decide (x = a /\ y = b)) as [[-> ->]|H1].
        -- exists hx, hhx, cx, hy, hhy, cy. done.
        -- destruct (decide (x = b /\ y = a)) as [[-> ->]|H2]; [by apply mesh_no_back in Hin|tauto].
    + subst s. destruct (IH Hh Hac Ua Ub Hp' Hnf') as [Hst Hli]. split; [done|]. intros Hl. apply Hli. by apply (fun H => wanted_snoc _ _ H Hl).
  - subst s. cbn [me_events] in *. pose proof (IH Hh Hac Ua Ub Hp' Hnf') as Hok.
    apply pair_same; [exact Hok| | |].
    + intros (_ & _ & A3 & _). by apply one_less_twice.
    + intros (Hn & _) H2. by apply one_less_sub in H2.
    + intros Hl. apply wanted_snoc in Hl; [|done]. destruct Hok as (_ & Hli). destruct (Hli Hl) as [Ht|Hd]; [by left|]. right. apply one_less_other; [|done]. congruence.
  - assert (Hup : (exists x hx hhx cx y hy hhy cy, e = NUp x hx hhx cx y hy hhy cy) \/ (s = Mesh (me_events s0 ++ [e]) (me_dialing s0) /\ other_link a b e)).
    { destruct e as [|x hx hhx cx y hy hhy cy| | |]; try (right; done). left. by exists x, hx, hhx, cx, y, hy, hhy, cy. }
    destruct Hup as [(x & hx & hhx & cx & y & hy & hhy & cy & ->)|[-> Ho]].
    + subst s. destruct (IH Hh Hac Ua Ub Hp' Hnf') as [Hst Hli]. split; [done|]. intros Hl. apply Hli. by apply (fun H => wanted_snoc _ _ H Hl).
    + cbn [me_events] in *. apply pair_net; try done. by eapply IHe.
Qed.

(** Once the two have nothing left to do. *)
Notation idle_at := (idle_at deser dec_users dec_topics valid).
Notation unlinked := (unlinked deser dec_users dec_topics valid).
Lemma idle_nodrop n x p : idle_at n x -> no_drop p (broker_at n x).
Proof. intros Hi h t Ht. rewrite (Hi _ _ Ht). by intros []. Qed.
Lemma idle_noadd n x p : idle_at n x -> forall h t c' h', m_tasks (broker_at n x) !! h = Some t -> ~ In (AAddBroker p c' h') (t_acts t).
Proof. intros Hi h t c' h' Ht. rewrite (Hi _ _ Ht). by intros []. Qed.
Lemma idle_apart : idle_at n0 a -> idle_at n0 b -> unlinked n0 a b -> apart (Mesh es0 []).
Proof.
  intros Ia Ib [H1 H2]. split; [|split; [|split; [cbn; set_solver|done]]]; cbn [me_events].
  - split; [by apply idle_nodrop|]. split; [|by apply idle_noadd].
    unfold c_get_broker_connection in H1. by destruct (brokers _ !! b).
  - split; [by apply idle_nodrop|]. split; [|by apply idle_noadd].
    unfold c_get_broker_connection in H2. by destruct (brokers _ !! a).
Qed.
Lemma idle_together : hooks_pass es0 -> hooks_accept es0 -> idle_at n0 a -> idle_at n0 b -> joined n0 a b -> together (Mesh es0 []).
Proof.
  intros Hh Hac Ia Ib Hj. pose proof (inv_run deser dec_users dec_topics valid enc_users enc_topics es0) as Hi.
  pose proof (paired_run0 deser dec_users dec_topics valid enc_users enc_topics Hcodec es0 Hh Hac) as HP.
  split; [cbn; set_solver|]. cbn [me_events].
  destruct (joined_live deser dec_users dec_topics valid enc_users enc_topics _ _ _ Hi Hj) as (ca & cb & ha & R & Hcb & Hlb & HR & _).
  apply joined_sym in Hj; [|done].
  destruct (joined_live deser dec_users dec_topics valid enc_users enc_topics _ _ _ Hi Hj) as (cb' & ca' & hb & R' & Hca & Hla & HR' & _).
  assert (ca' = ca) as -> by (unfold c_get_broker_connection in Hca; rewrite HR in Hca; by injection Hca).
  assert (cb' = cb) as -> by (unfold c_get_broker_connection in Hcb; rewrite HR' in Hcb; by injection Hcb).
  exists ha, 0%N, ca, hb, 0%N, cb. split; [|split; [|split; [done|split; [done|lia]]]].
  - split; [by apply idle_nodrop|]. split; [right; by exists R|]. intros h t c' h' Ht Hin. by destruct (idle_noadd _ _ _ Ia _ _ _ _ Ht Hin).
  - split; [by apply idle_nodrop|]. split; [right; by exists R'|]. intros h t c' h' Ht Hin. by destruct (idle_noadd _ _ _ Ib _ _ _ _ Ht Hin).
Qed.
Lemma together_joined s : idle_at (n_run (me_events s)) a -> idle_at (n_run (me_events s)) b -> together s -> joined (n_run (me_events s)) a b.
Proof.
  intros Ia Ib (_ & ha & hha & ca & hb & hhb & cb & F1 & F2 & L1 & L2 & L3).
  destruct F1 as (_ & [Ht|Hra] & _); [by specialize (Ia _ _ Ht)|]. destruct F2 as (_ & [Ht|Hrb] & _); [by specialize (Ib _ _ Ht)|].
  destruct (registered_task deser dec_users dec_topics valid a (trace (n_run (me_events s)) a) ha (OBroker b ca) Hra) as [(ta & Hta & Hoa) _].
  destruct Hra as [tma Hra], Hrb as [tmb Hrb].
  exists ca, cb, ha, hb, ta. split; [unfold c_get_broker_connection; by rewrite Hra|]. split; [unfold c_get_broker_connection; by rewrite Hrb|]. done.
Qed.

Lemma mesh_hooks ms : hooks_pass (me_events (mesh_run es0 ms)) -> hooks_accept (me_events (mesh_run es0 ms)) -> hooks_pass es0 /\ hooks_accept es0.
Proof.
  induction ms as [|m ms IH] using rev_ind; [done|]. unfold MeshModel.mesh_run. rewrite fold_left_app. fold (mesh_run es0 ms). cbn [fold_left].
  set (s0 := mesh_run es0 ms) in *. intros Hh Hac.
  assert (Hc : me_events (mesh_step s0 m) = me_events s0 \/ exists e, me_events (mesh_step s0 m) = me_events s0 ++ [e]).
  { destruct m as [y others|y hy hhy cy z hz hhz cz|y z|e]; cbn [MeshModel.mesh_step]; [by left|case_decide; [right; by eexists|by left]|by left|].
    destruct e; try (right; by eexists). by left. }
  destruct Hc as [Hc|[e Hc]]; rewrite Hc in Hh, Hac; [by apply IH|]. destruct (hooks_app _ _ Hh Hac) as [H1 H2]. by apply IH.
Qed.

Lemma mesh_joined ms :
  let s := mesh_run es0 ms in let n := n_run (me_events s) in
  hooks_pass (me_events s) -> hooks_accept (me_events s) ->
  idle_at n0 a -> idle_at n0 b -> joined n0 a b \/ unlinked n0 a b ->
  unbroken_since a b n0 n -> unbroken_since b a n0 n ->
  prompt_rounds deser dec_users dec_topics valid enc_users enc_topics es0 ms a b -> ~ In (MFail a b) ms ->
  joined n0 a b \/ listed ms a b -> (a, b) ∉ me_dialing s -> idle_at n a -> idle_at n b -> joined n a b.
Proof.
  intros s n Hh Hac Ia Ib Hst Ua Ub Hp Hnf Hl Hnd Ja Jb.
  pose proof (mesh_hooks ms Hh Hac) as Hpre.
  destruct Hpre as [Hh0 Hac0].
  assert (Hstart : apart (Mesh es0 []) \/ together (Mesh es0 [])) by (destruct Hst; [right; by apply idle_together|left; by apply idle_apart]).
  destruct (mesh_pair ms Hstart Hh Hac Ua Ub Hp Hnf) as [Hs Hli]. apply together_joined; [done|done|]. fold s in Hs, Hli.
  assert (Hw : wanted ms) by (destruct Hl as [Hj|Hl]; [left; by apply idle_together|by right]).
  by destruct (Hli Hw).
Qed.

Lemma mesh_once ms :
  let s := mesh_run es0 ms in let n := n_run (me_events s) in
  hooks_pass (me_events s) -> hooks_accept (me_events s) ->
  idle_at n0 a -> idle_at n0 b -> joined n0 a b \/ unlinked n0 a b ->
  unbroken_since a b n0 n -> unbroken_since b a n0 n ->
  prompt_rounds deser dec_users dec_topics valid enc_users enc_topics es0 ms a b -> ~ In (MFail a b) ms ->
  links_made a b (me_events s) <= S (links_made a b es0).
Proof.
  intros s n Hh Hac Ia Ib Hst Ua Ub Hp Hnf. destruct (mesh_hooks ms Hh Hac) as [Hh0 Hac0].
  assert (Hstart : apart (Mesh es0 []) \/ together (Mesh es0 [])) by (destruct Hst; [right; by apply idle_together|left; by apply idle_apart]).
  destruct (mesh_pair ms Hstart Hh Hac Ua Ub Hp Hnf) as [[(_ & _ & _ & H)|(_ & ? & ? & ? & ? & ? & ? & _ & _ & _ & _ & H)] _]; fold s in H; lia.
Qed.
End pair.
End net.
