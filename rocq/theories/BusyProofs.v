(** Proofs: what is on its way arrives, and what arrives is passed on, while everything else goes on. *)
From stdpp Require Import gmap fin_maps fin_sets list.
From Coq Require Import NArith ZArith Lia.
From Verif Require Import IdModel RelMapModel RelMapProofs VMapModel VMapSpec VMapProofs ConnModel ConnSpec ConnProofs ConnProofs2 ConnProofs3 ConnProofs4
  SyncSpec SyncModel DirSyncProofs TopicSyncProofs TopicModel TopicProofs MsgModel RouteModel RouteProofs TaskModel TaskProofs TaskOrder TaskHandles TaskIsolation TaskSync
  NetModel NetProofs NetOrigin NetDelivery NetComplete NetSynced NetConcurrent NetSettle NetSettleDir FifoSpec FifoProofs FifoComplete BusySpec.

(** Moments of a run between two others. *)
Lemma between_ind {A} (P : list A -> Prop) es1 es : P es1 ->
  (forall p e, es1 `prefix_of` p -> p ++ [e] `prefix_of` es -> P p -> P (p ++ [e])) ->
  forall p, es1 `prefix_of` p -> p `prefix_of` es -> P p.
Proof.
  intros H0 Hs p [l ->]. induction l as [|e l IH] using rev_ind; intros Hp; [by rewrite app_nil_r|].
  rewrite app_assoc in Hp |- *. apply Hs; [by apply prefix_app_r|done|]. apply IH. etrans; [|exact Hp]. by apply prefix_app_r.
Qed.

Section busy.
Variable deser : bytes -> option message.
Variable dec_users : bytes -> option direct_map.
Variable dec_topics : bytes -> option topic_map.
Variable valid : N -> bool.
Variable enc_users : direct_map -> bytes.
Variable enc_topics : topic_map -> bytes.
Hypothesis Hcodec : faithful_sync deser dec_users dec_topics enc_users enc_topics.
Notation m_step := (m_step deser dec_users dec_topics valid).
Notation m_run := (m_run deser dec_users dec_topics valid).
Notation m_run_snoc := (m_run_snoc deser dec_users dec_topics valid).
Notation loop_frame := (loop_frame deser dec_users dec_topics valid).
Notation broker_at := (broker_at deser dec_users dec_topics valid).
Notation loop_of := (loop_of deser dec_users dec_topics valid).
Notation n_run := (n_run deser dec_users dec_topics valid enc_users enc_topics).
Notation n_run_snoc := (n_run_snoc deser dec_users dec_topics valid enc_users enc_topics).
Notation wire := (wire enc_users enc_topics).
Notation fine := (fine deser dec_users dec_topics valid).
Notation inv_run := (inv_run deser dec_users dec_topics valid enc_users enc_topics).
Notation comes_from := (comes_from deser dec_users dec_topics valid).
Notation sent_once := (sent_once deser dec_users dec_topics valid).
Notation subscribed_at := (subscribed_at deser dec_users dec_topics valid).
Notation user_told := (user_told deser dec_users dec_topics valid).
Notation topic_told := (topic_told deser dec_users dec_topics valid).
Notation done_with := (done_with deser dec_users dec_topics valid).
Notation caught_up := (caught_up deser dec_users dec_topics valid).
Notation tied := (tied deser dec_users dec_topics valid).
Notation conns_at n b := (m_conns (broker_at n b)).
Notation tasks_at n b := (m_tasks (broker_at n b)).
Notation sent_at n b := (m_sent (broker_at n b)).

(** ** Steps *)
Lemma step_at p e x :
  broker_at (n_run (p ++ [e])) x = broker_at (n_run p) x
  \/ exists ev, trace (n_run (p ++ [e])) x = trace (n_run p) x ++ [ev] /\ broker_at (n_run (p ++ [e])) x = m_run x (trace (n_run p) x ++ [ev]).
Proof.
  rewrite n_run_snoc. unfold NetModel.broker_at.
  destruct (trace_step deser dec_users dec_topics valid enc_users enc_topics (n_run p) e x) as [->|[ev Hev]]; [by left|right]. exists ev. by rewrite Hev.
Qed.

(** *** From an earlier moment to a later one *)
Lemma later_ind (P : list nevent -> Prop) p q : p `prefix_of` q -> P p -> (forall r e, p `prefix_of` r -> P r -> P (r ++ [e])) -> P q.
Proof. intros Hpq H0 Hs. apply (between_ind P p q H0); [|done|done]. intros r e Hr _. by apply Hs. Qed.

Lemma trace_later p q x : p `prefix_of` q -> trace (n_run p) x `prefix_of` trace (n_run q) x.
Proof.
  intros Hpq. apply (later_ind (fun r => trace (n_run p) x `prefix_of` trace (n_run r) x) p q Hpq); [done|]. intros r e _ Hr. rewrite n_run_snoc.
  destruct (trace_step deser dec_users dec_topics valid enc_users enc_topics (n_run r) e x) as [->|[ev ->]]; [done|]. by apply prefix_app_r.
Qed.
Lemma task_later p q x h t : p `prefix_of` q -> tasks_at (n_run p) x !! h = Some t -> exists t', tasks_at (n_run q) x !! h = Some t' /\ t_owner t' = t_owner t /\ t_frames t <= t_frames t'.
Proof.
  intros Hpq Ht. apply (later_ind (fun r => exists t', tasks_at (n_run r) x !! h = Some t' /\ t_owner t' = t_owner t /\ t_frames t <= t_frames t') p q Hpq); [by exists t|].
  intros r e _ (t1 & Ht1 & Ho1 & Hf1). destruct (step_at r e x) as [->|(ev & _ & ->)]; [by exists t1|].
  destruct (step_owner deser dec_users dec_topics valid x (trace (n_run r) x) ev h t1 Ht1) as (t2 & Ht2 & Ho2). exists t2. split; [done|]. split; [congruence|].
  rewrite m_run_snoc in Ht2. destruct (step_frames deser dec_users dec_topics valid _ _ _ _ _ Ht1 Ht2) as [->|[-> _]]; lia.
Qed.
Lemma sent_later p q x : p `prefix_of` q -> sent_at (n_run p) x `prefix_of` sent_at (n_run q) x.
Proof.
  intros Hpq. apply (later_ind (fun r => sent_at (n_run p) x `prefix_of` sent_at (n_run r) x) p q Hpq); [done|]. intros r e _ Hr.
  destruct (step_at r e x) as [->|(ev & _ & ->)]; [done|]. etrans; [exact Hr|]. rewrite m_run_snoc. change (m_run x (trace (n_run r) x)) with (broker_at (n_run r) x).
  set (m := broker_at (n_run r) x). destruct ev as [h hh u c0 ts|h hh b c0|hh|hh u|h raw hk|h|h good|h]; cbn [TaskModel.m_step].
  - by case_decide.
  - by case_decide.
  - by destruct (m_tasks m !! hh).
  - by destruct (m_tasks m !! hh).
  - destruct (m_tasks m !! h) as [[o [|? ?] [|] n]|]; try done. by destruct (loop_frame o raw hk).
  - by destruct (m_tasks m !! h) as [[o [|? ?] [|] n]|].
  - destruct (m_tasks m !! h) as [[o [|y rest] op n]|]; try done.
    destruct (act_step (fun _ => good) (m_conns m) y) as [[s' nxt] sends]. cbn. by apply prefix_app_r.
  - destruct (m_tasks m !! h) as [[o l op n]|]; [by case_decide|done].
Qed.
Lemma sent_on_later p q x c : p `prefix_of` q -> sent_on (broker_at (n_run p) x) c `prefix_of` sent_on (broker_at (n_run q) x) c.
Proof. intros Hpq. destruct (sent_later p q x Hpq) as [l Hl]. unfold sent_on. rewrite Hl, list.filter_app. by apply prefix_app_r. Qed.
Lemma rcvd_later p q x r : p `prefix_of` q -> In r (m_rcvd (broker_at (n_run p) x)) -> In r (m_rcvd (broker_at (n_run q) x)).
Proof.
  intros Hpq Hr. apply (later_ind (fun q => In r (m_rcvd (broker_at (n_run q) x))) p q Hpq); [done|]. intros s e _ Hs.
  destruct (step_at s e x) as [->|(ev & _ & ->)]; [done|]. by apply rcvd_mono.
Qed.

(** *** From a later moment to an earlier one *)
Lemma hooks_before p q : p `prefix_of` q -> hooks_pass q -> hooks_pass p.
Proof. intros [l ->] [H1 H2]. split; [intros a c hk Hin; apply (H1 a c)|intros b h raw hk Hin; apply (H2 b h raw)]; apply in_app_iff; by left. Qed.
Lemma fine_before p q : p `prefix_of` q -> fine (n_run q) -> fine (n_run p).
Proof.
  intros Hpq Hf b. destruct (trace_later p q b Hpq) as [l Hl]. destruct (Hf b) as [Hpr Hsh]. rewrite Hl in Hpr, Hsh. split; [|by eapply short_app].
  clear Hl Hsh. revert Hpr. induction l as [|e l IH] using rev_ind; [by rewrite app_nil_r|]. rewrite app_assoc. intros Hpr. apply IH. by eapply prompt_app.
Qed.
Lemma live_before p q x h : p `prefix_of` q -> is_Some (tasks_at (n_run p) x !! h) -> live (broker_at (n_run q) x) h -> live (broker_at (n_run p) x) h.
Proof.
  intros Hpq [t Ht]. apply (later_ind (fun q => live (broker_at (n_run q) x) h -> live (broker_at (n_run p) x) h) p q Hpq); [done|].
  intros r e Hr IH Hl. apply IH. destruct (step_at r e x) as [Heq|(ev & _ & Heq)]; rewrite Heq in Hl; [done|].
  eapply live_back; [|exact Hl]. destruct (task_later p r x h t Hr Ht) as (t' & Ht' & _). by exists t'.
Qed.
(** What is registered at two moments, on the same connection, is registered all the time in between. *)
Lemma registered_between p q x h o r :
  registered (conns_at (n_run p) x) h o -> live (broker_at (n_run q) x) h -> p `prefix_of` r -> r `prefix_of` q -> registered (conns_at (n_run r) x) h o.
Proof.
  intros Hr Hl. revert r. apply between_ind; [done|]. intros r e Hpr Hrq IH.
  assert (Hlr : live (broker_at (n_run (r ++ [e])) x) h).
  { eapply live_before; [exact Hrq| |exact Hl]. destruct (registered_task deser dec_users dec_topics valid x (trace (n_run p) x) h o Hr) as [(t & Ht & _) _].
    destruct (task_later p (r ++ [e]) x h t ltac:(by apply prefix_app_r) Ht) as (t' & Ht' & _). by exists t'. }
  destruct (step_at r e x) as [Heq|(ev & _ & Heq)]; rewrite Heq in Hlr |- *; [done|]. by apply stays_registered.
Qed.
Lemma user_registered n b v c : c_get_user_connection (conns_at n b) v = Some c -> exists h, registered (conns_at n b) h (OUser v c).
Proof. unfold c_get_user_connection. destruct (users (conns_at n b) !! v) as [[c' h]|] eqn:E; [|done]. cbn. intros [= ->]. by exists h. Qed.
Lemma peer_registered n a b c : c_get_broker_connection (conns_at n a) b = Some c -> exists h, registered (conns_at n a) h (OBroker b c).
Proof. unfold c_get_broker_connection. destruct (brokers (conns_at n a) !! b) as [[c' R h]|] eqn:E; [|done]. cbn. intros [= ->]. exists h, R. done. Qed.

Lemma user_handle es b v c h h' : registered (conns_at (n_run es) b) h (OUser v c) -> loop_of (n_run es) b h' (OUser v c) -> h = h'.
Proof.
  intros Hr (t & Ht & Ho). destruct (reg_run deser dec_users dec_topics valid b (trace (n_run es) b)) as [[Hp _] _]. destruct (Hp v c h Hr) as (hh & ts & Hin).
  assert (Hin' : exists hh' ts', In (EUserAuthed h' hh' v c ts') (trace (n_run es) b)).
  { clear Hr Hp Hin. revert t Ht Ho. unfold NetModel.broker_at. generalize (trace (n_run es) b) as tr. induction tr as [|e tr IH] using rev_ind; intros t Ht Ho; [cbn in Ht; by rewrite lookup_empty in Ht|].
    destruct (m_tasks (m_run b tr) !! h') as [t0|] eqn:E.
    { destruct (step_owner deser dec_users dec_topics valid b tr e h' t0 E) as (t' & Ht' & Ho'). rewrite Ht in Ht'. injection Ht' as <-.
      destruct (IH t0 eq_refl) as (hh' & ts' & Hin'); [congruence|]. exists hh', ts'. apply in_app_iff. by left. }
    rewrite m_run_snoc in Ht. set (m := m_run b tr) in *.
    destruct e as [h1 h2 w c1 ts1|h1 h2 b1 c1|h2|h2 w|h1 raw hk|h1|h1 good|h1]; cbn [TaskModel.m_step] in Ht.
    - case_decide; [|congruence]. cbn in Ht. apply lookup_insert_Some in Ht as [[<- <-]|[_ Ht]]; [done|].
      apply lookup_insert_Some in Ht as [[<- <-]|[_ Ht]]; [|congruence]. cbn in Ho. injection Ho as -> ->. exists h2, ts1. apply in_app_iff. right. by left.
    - case_decide; [|congruence]. cbn in Ht. apply lookup_insert_Some in Ht as [[<- <-]|[_ Ht]]; [done|].
      apply lookup_insert_Some in Ht as [[<- <-]|[_ Ht]]; [done|congruence].
    - destruct (m_tasks m !! h2); [congruence|]. cbn in Ht. apply lookup_insert_Some in Ht as [[<- <-]|[_ Ht]]; [done|congruence].
    - destruct (m_tasks m !! h2); [congruence|]. cbn in Ht. apply lookup_insert_Some in Ht as [[<- <-]|[_ Ht]]; [done|congruence].
    - destruct (m_tasks m !! h1) as [[o [|? ?] [|] n]|] eqn:E1; try congruence. destruct (loop_frame o raw hk). cbn in Ht.
      apply lookup_insert_Some in Ht as [[<- <-]|[_ Ht]]; congruence.
    - destruct (m_tasks m !! h1) as [[o [|? ?] [|] n]|] eqn:E1; try congruence. cbn in Ht.
      apply lookup_insert_Some in Ht as [[<- <-]|[_ Ht]]; congruence.
    - destruct (m_tasks m !! h1) as [[o [|a l] op n]|] eqn:E1; try congruence.
      destruct (act_step (fun _ => good) (m_conns m) a) as [[s' nxt] sends]. cbn in Ht.
      apply lookup_insert_Some in Ht as [[<- <-]|[_ Ht]]; congruence.
    - destruct (m_tasks m !! h1) as [[o l op n]|] eqn:E1; [|congruence]. case_decide; [|congruence]. cbn in Ht.
      apply lookup_insert_Some in Ht as [[<- <-]|[_ Ht]]; congruence. }
  destruct Hin' as (hh' & ts' & Hin'). destruct (inv_run es) as (_ & _ & _ & I4).
  pose proof (authed_unique _ _ _ c (I4 b) Hin Hin' (or_introl eq_refl) (or_introl eq_refl)) as Heq. by injection Heq as ->.
Qed.
Lemma peer_handle es a b c h h' : registered (conns_at (n_run es) a) h (OBroker b c) -> loop_of (n_run es) a h' (OBroker b c) -> h = h'.
Proof.
  intros [R Hr] (t & Ht & Ho). destruct (reg_run deser dec_users dec_topics valid a (trace (n_run es) a)) as [[_ Hp] _]. destruct (Hp _ _ Hr) as (hh & Hin). cbn in Hin.
  destruct (loop_authed deser dec_users dec_topics valid _ _ _ _ _ _ Ht Ho) as (hh' & Hin'). destruct (inv_run es) as (_ & _ & _ & I4).
  pose proof (authed_unique _ _ _ c (I4 a) Hin Hin' (or_introl eq_refl) (or_introl eq_refl)) as Heq. by injection Heq as ->.
Qed.

(** A user connected on [c] at two moments was connected on [c] all the time in between. *)
Lemma user_between p q b v c : p `prefix_of` q ->
  c_get_user_connection (conns_at (n_run p) b) v = Some c -> c_get_user_connection (conns_at (n_run q) b) v = Some c ->
  forall r, p `prefix_of` r -> r `prefix_of` q -> c_get_user_connection (conns_at (n_run r) b) v = Some c.
Proof.
  intros Hpq H1 H2 r Hpr Hrq. destruct (user_registered _ _ _ _ H1) as [h1 R1]. destruct (user_registered _ _ _ _ H2) as [h2 R2].
  destruct (registered_task deser dec_users dec_topics valid b (trace (n_run p) b) h1 _ R1) as [(t & Ht & Ho) _].
  destruct (task_later p q b h1 t Hpq Ht) as (t' & Ht' & Ho' & _).
  assert (h2 = h1) as ->. { eapply user_handle; [exact R2|]. exists t'. split; [done|congruence]. }
  pose proof (registered_between p q b h1 _ r R1 ltac:(left; by exists (OUser v c)) Hpr Hrq) as Hr. cbn in Hr. unfold c_get_user_connection. by rewrite Hr.
Qed.
Lemma peer_between p q a b c : p `prefix_of` q ->
  c_get_broker_connection (conns_at (n_run p) a) b = Some c -> c_get_broker_connection (conns_at (n_run q) a) b = Some c ->
  forall r, p `prefix_of` r -> r `prefix_of` q -> c_get_broker_connection (conns_at (n_run r) a) b = Some c.
Proof.
  intros Hpq H1 H2 r Hpr Hrq. destruct (peer_registered _ _ _ _ H1) as [h1 R1]. destruct (peer_registered _ _ _ _ H2) as [h2 R2].
  destruct (registered_task deser dec_users dec_topics valid a (trace (n_run p) a) h1 _ R1) as [(t & Ht & Ho) _].
  destruct (task_later p q a h1 t Hpq Ht) as (t' & Ht' & Ho' & _).
  assert (h2 = h1) as ->. { eapply peer_handle; [exact R2|]. exists t'. split; [done|congruence]. }
  destruct (registered_between p q a h1 _ r R1 ltac:(left; by exists (OBroker b c)) Hpr Hrq) as [R Hr]. unfold c_get_broker_connection. by rewrite Hr.
Qed.

(** ** What a loop does with a frame *)
Lemma rcvd_same es x h k raw hk raw' hk' :
  In (Rcvd h k raw hk) (m_rcvd (broker_at (n_run es) x)) -> In (Rcvd h k raw' hk') (m_rcvd (broker_at (n_run es) x)) -> raw = raw' /\ hk = hk'.
Proof.
  intros H1 H2. pose proof (numbered_run deser dec_users dec_topics valid x (trace (n_run es) x) h) as Hn. fold (broker_at (n_run es) x) in Hn.
  assert (Hi : forall raw hk, In (Rcvd h k raw hk) (m_rcvd (broker_at (n_run es) x)) -> got (broker_at (n_run es) x) h !! pred k = Some (Rcvd h k raw hk)).
  { intros raw0 hk0 Hin. assert (Hg : Rcvd h k raw0 hk0 ∈ got (broker_at (n_run es) x) h) by (apply elem_of_list_filter; split; [done|by apply elem_of_list_In]).
    apply elem_of_list_lookup in Hg as [i Hi].
    assert (Hk : map r_frame (got (broker_at (n_run es) x) h) !! i = Some k) by (change (map r_frame) with (fmap (M := list) r_frame); rewrite list_lookup_fmap, Hi; done).
    rewrite Hn in Hk. apply lookup_seq in Hk as [-> _]. done. }
  pose proof (Hi _ _ H1) as G1. pose proof (Hi _ _ H2) as G2. rewrite G1 in G2. by injection G2.
Qed.

(** A frame is handled by actions of one kind, [Tl], each of which leads to another, or to an emission [Em], as long as [Q]. *)
Lemma frame_leads (Q : conns -> Prop) (Tl : act -> Prop) (Em : emission -> Prop) es1 es x h k raw hk o :
  es1 `prefix_of` es ->
  (forall p, es1 `prefix_of` p -> p `prefix_of` es -> Q (conns_at (n_run p) x)) ->
  (forall good s a s' nxt sends, act_step (fun _ => good) s a = (s', nxt, sends) -> Tl a -> Q s -> Q s' ->
     (exists y, In y nxt /\ Tl y) \/ (exists e, In e sends /\ Em e)) ->
  (exists y, In y (loop_frame o raw hk).1 /\ Tl y) ->
  loop_of (n_run es) x h o -> live (broker_at (n_run es) x) h ->
  (forall t, tasks_at (n_run es1) x !! h = Some t -> t_frames t < k) ->
  In (Rcvd h k raw hk) (m_rcvd (broker_at (n_run es) x)) -> done_with (n_run es) x h k ->
  exists e, In (Sent h k e) (sent_at (n_run es) x) /\ Em e.
Proof.
  intros H1 HQ Hst Hfr Hlo Hlive H0 Hr Hdone.
  assert (HJ : forall p, es1 `prefix_of` p -> p `prefix_of` es ->
    (forall t, tasks_at (n_run p) x !! h = Some t -> t_frames t < k)
    \/ (exists t y, tasks_at (n_run p) x !! h = Some t /\ t_frames t = k /\ In y (t_acts t) /\ Tl y)
    \/ (exists e, In (Sent h k e) (sent_at (n_run p) x) /\ Em e)).
  { apply between_ind; [by left|]. intros p e Hp Hpe IH.
    assert (Hpes : p `prefix_of` es) by (etrans; [|exact Hpe]; by apply prefix_app_r).
    destruct (sent_later p (p ++ [e]) x ltac:(by apply prefix_app_r)) as [l Hl].
    pose proof (HQ p Hp Hpes) as Q1. pose proof (HQ (p ++ [e]) ltac:(etrans; [exact Hp|by apply prefix_app_r]) Hpe) as Q2.
    destruct IH as [IH|[(t & y & Ht & Hk & Hy & Hty)|(em & Hem & HEm)]].
    3: { right. right. exists em. split; [|done]. rewrite Hl. apply in_app_iff. by left. }
    - (* not yet received *)
      destruct (tasks_at (n_run (p ++ [e])) x !! h) as [t'|] eqn:Et'; [|left; done].
      destruct (decide (t_frames t' < k)) as [Hlt|Hge]; [left; intros t1 [= <-]; done|].
      destruct (step_at p e x) as [Heq|(ev & Htr & Heq)]; [rewrite Heq in Et'; left; intros t1 Ht1; by specialize (IH t' Et')|].
      destruct (tasks_at (n_run p) x !! h) as [t|] eqn:Et.
      2: { (* a new task has received nothing *) exfalso. apply Hge. rewrite Heq, m_run_snoc in Et'. change (m_run x (trace (n_run p) x)) with (broker_at (n_run p) x) in Et'.
           pose proof (rcvd_frame_pos deser dec_users dec_topics valid x (trace (n_run es) x) _ Hr) as Hk1. cbn in Hk1.
           set (m := broker_at (n_run p) x) in *.
           destruct ev as [h1 h2 w c1 ts|h1 h2 b1 c1|h2|h2 w|h1 raw1 hk1|h1|h1 good|h1]; cbn [TaskModel.m_step] in Et'.
           - case_decide; [|congruence]. cbn in Et'. apply lookup_insert_Some in Et' as [[<- <-]|[_ Et']]; [cbn; lia|].
             apply lookup_insert_Some in Et' as [[<- <-]|[_ Et']]; [cbn; lia|congruence].
           - case_decide; [|congruence]. cbn in Et'. apply lookup_insert_Some in Et' as [[<- <-]|[_ Et']]; [cbn; lia|].
             apply lookup_insert_Some in Et' as [[<- <-]|[_ Et']]; [cbn; lia|congruence].
           - destruct (m_tasks m !! h2); [congruence|]. cbn in Et'. apply lookup_insert_Some in Et' as [[<- <-]|[_ Et']]; [cbn; lia|congruence].
           - destruct (m_tasks m !! h2); [congruence|]. cbn in Et'. apply lookup_insert_Some in Et' as [[<- <-]|[_ Et']]; [cbn; lia|congruence].
           - destruct (m_tasks m !! h1) as [[o1 [|? ?] [|] n]|] eqn:E1; try congruence. destruct (loop_frame o1 raw1 hk1). cbn in Et'.
             apply lookup_insert_Some in Et' as [[<- <-]|[_ Et']]; congruence.
           - destruct (m_tasks m !! h1) as [[o1 [|? ?] [|] n]|] eqn:E1; try congruence. cbn in Et'.
             apply lookup_insert_Some in Et' as [[<- <-]|[_ Et']]; congruence.
           - destruct (m_tasks m !! h1) as [[o1 [|a l1] op n]|] eqn:E1; try congruence.
             destruct (act_step (fun _ => good) (m_conns m) a) as [[s' nxt] sends]. cbn in Et'.
             apply lookup_insert_Some in Et' as [[<- <-]|[_ Et']]; congruence.
           - destruct (m_tasks m !! h1) as [[o1 l1 op n]|] eqn:E1; [|congruence]. case_decide; [|congruence]. cbn in Et'.
             apply lookup_insert_Some in Et' as [[<- <-]|[_ Et']]; congruence. }
      specialize (IH t eq_refl).
      assert (Hl1 : live (m_run x (trace (n_run p) x ++ [ev])) h).
      { rewrite <- Heq. eapply live_before; [exact Hpe| |exact Hlive]. by exists t'. }
      destruct (loop_step deser dec_users dec_topics valid x (trace (n_run p) x) ev h t Et Hl1) as (t2 & Ht2 & Hcase).
      rewrite <- Heq, Et' in Ht2. injection Ht2 as <-.
      destruct Hcase as [[Hfs _]|(raw1 & hk1 & -> & Hnil & Hfs & Hacts)]; [exfalso; lia|].
      assert (Hkk : k = S (t_frames t)) by lia.
      assert (Hin1 : In (Rcvd h k raw1 hk1) (m_rcvd (broker_at (n_run (p ++ [e])) x))).
      { rewrite Heq, m_run_snoc. change (m_run x (trace (n_run p) x)) with (broker_at (n_run p) x). cbn [TaskModel.m_step]. rewrite Et.
        rewrite Heq, m_run_snoc in Et'. change (m_run x (trace (n_run p) x)) with (broker_at (n_run p) x) in Et'. cbn [TaskModel.m_step] in Et'. rewrite Et in Et'.
        destruct t as [o1 ac op n]. cbn in Hnil. subst ac. destruct op.
        - destruct (loop_frame o1 raw1 hk1). cbn. apply in_app_iff. right. left. cbn in Hkk. by subst.
        - exfalso. rewrite Et in Et'. injection Et' as <-. cbn in Hfs. lia. }
      pose proof (rcvd_later (p ++ [e]) es x _ Hpe Hin1) as Hin2. destruct (rcvd_same _ _ _ _ _ _ _ _ Hr Hin2) as [<- <-].
      destruct (task_later (p ++ [e]) es x h t' Hpe Et') as (t3 & Ht3 & Ho3 & _). destruct Hlo as (t4 & Ht4 & Ho4). rewrite Ht3 in Ht4. injection Ht4 as <-.
      destruct (task_later p (p ++ [e]) x h t ltac:(by apply prefix_app_r) Et) as (t5 & Ht5 & Ho5 & _). rewrite Et' in Ht5. injection Ht5 as <-.
      destruct Hfr as (y & Hy & Hty). right. left. exists t', y. split; [done|]. split; [lia|]. split; [|done]. rewrite Hacts. assert (t_owner t = o) as -> by congruence. done.
    - (* being handled *)
      destruct (step_at p e x) as [Heq|(ev & Htr & Heq)]; [right; left; exists t, y; by rewrite Heq|].
      assert (Hl1 : live (m_run x (trace (n_run p) x ++ [ev])) h).
      { rewrite <- Heq. eapply live_before; [exact Hpe| |exact Hlive]. destruct (task_later p (p ++ [e]) x h t ltac:(by apply prefix_app_r) Ht) as (t1 & Ht1 & _). by exists t1. }
      destruct (loop_step deser dec_users dec_topics valid x (trace (n_run p) x) ev h t Ht Hl1) as (t2 & Ht2 & Hcase). rewrite <- Heq in Ht2.
      destruct Hcase as [[Hfs Hac]|(raw1 & hk1 & -> & Hnil & _)]; [|by rewrite Hnil in Hy].
      destruct (Hac y Hy) as [Hy2|(good & l1 & -> & Hl2)]; [right; left; exists t2, y; split; [done|]; split; [lia|done]|].
      rewrite Heq, m_run_snoc in Ht2, Q2 |- *. change (m_run x (trace (n_run p) x)) with (broker_at (n_run p) x) in *.
      destruct t as [o1 ac op n]. cbn in Hl2, Hk. subst ac n. cbn [TaskModel.m_step] in Ht2, Q2 |- *. rewrite Ht in Ht2, Q2 |- *.
      destruct (act_step (fun _ => good) (m_conns (broker_at (n_run p) x)) y) as [[s' nxt] sends] eqn:Ea. cbn in Ht2, Q2 |- *.
      destruct (Hst _ _ _ _ _ _ Ea Hty Q1 Q2) as [(z & Hz & Htz)|(em & Hem & HEm)].
      + right. left. rewrite lookup_insert. eexists _, z. split; [done|]. split; [done|]. split; [|done]. cbn. apply in_app_iff. by left.
      + right. right. exists em. split; [|done]. apply in_app_iff. right. apply in_map_iff. by exists em. }
  destruct Hdone as (t & Ht & Hd). destruct (HJ es H1 ltac:(done)) as [Hlt|[(t' & y & Ht' & Hk & Hy & _)|?]]; [| |done].
  - specialize (Hlt t Ht). lia.
  - rewrite Ht in Ht'. injection Ht' as <-. destruct Hd as [?|[_ Hnil]]; [lia|]. by rewrite Hnil in Hy.
Qed.

(** ** What is on its way arrives *)
(** A frame with [G] among the first [L] sent on [cb], or what it makes the loop do, [App], leads to [A]. *)
Lemma arrives (G : frame -> Prop) (App : act -> Prop) (A : conns -> Prop) es1 es a ha ca b cb :
  es1 `prefix_of` es -> hooks_pass es -> fine (n_run es) ->
  n_links (n_run es) !! (b, cb) = Some (a, ha) -> registered (conns_at (n_run es) a) ha (OBroker b ca) -> is_Some (tasks_at (n_run es1) a !! ha) ->
  (forall f hk, G f -> hook_passes hk -> exists x, In x (broker_frame deser dec_users dec_topics b (wire f) hk).1 /\ App x) ->
  (forall p x, es1 `prefix_of` p -> p `prefix_of` es -> App x -> registered (conns_at (n_run p) a) ha (OBroker b ca) ->
     exists c, act_op x = Some c /\ A (c_step (conns_at (n_run p) a) c)) ->
  (forall p e, es1 `prefix_of` p -> p ++ [e] `prefix_of` es -> A (conns_at (n_run p) a) -> A (conns_at (n_run (p ++ [e])) a)) ->
  A (conns_at (n_run es1) a)
  \/ (exists t j x, tasks_at (n_run es1) a !! ha = Some t /\ t_frames t <= j /\ sent_on (broker_at (n_run es1) b) cb !! j = Some x /\ G (e_frame (s_what x)))
  \/ (exists t x, tasks_at (n_run es1) a !! ha = Some t /\ t_frames t <= length (sent_on (broker_at (n_run es1) b) cb) /\ In x (t_acts t) /\ App x) ->
  caught_up (n_run es1) (n_run es) b cb a ha -> A (conns_at (n_run es) a).
Proof.
  intros H1 Hh Hf Hl Hreg Hta HG HApp HA Hstart Hcu. set (L := length (sent_on (broker_at (n_run es1) b) cb)) in *.
  assert (Hlive : live (broker_at (n_run es) a) ha) by (left; by exists (OBroker b ca)).
  destruct (registered_task deser dec_users dec_topics valid a (trace (n_run es) a) ha _ Hreg) as [(tz & Htz & Hoz) _].
  destruct (inv_run es) as (I0 & I2 & I3 & _).
  assert (HK : forall p, es1 `prefix_of` p -> p `prefix_of` es ->
    A (conns_at (n_run p) a)
    \/ (exists t j x, tasks_at (n_run p) a !! ha = Some t /\ t_frames t <= j /\ sent_on (broker_at (n_run es1) b) cb !! j = Some x /\ G (e_frame (s_what x)))
    \/ (exists t x, tasks_at (n_run p) a !! ha = Some t /\ t_frames t <= L /\ In x (t_acts t) /\ App x)).
  { apply between_ind; [done|]. intros p e Hp Hpe IH.
    assert (Hpes : p `prefix_of` es) by (etrans; [|exact Hpe]; by apply prefix_app_r).
    assert (Hta' : exists t, tasks_at (n_run p) a !! ha = Some t). { destruct Hta as [t Ht]. destruct (task_later es1 p a ha t Hp Ht) as (t' & Ht' & _). by exists t'. }
    destruct Hta' as [t Ht]. destruct (task_later p es a ha t Hpes Ht) as (t9 & Ht9 & Ho9 & _). fold (broker_at (n_run es) a) in Htz. rewrite Htz in Ht9. injection Ht9 as <-.
    assert (Ho : t_owner t = OBroker b ca) by congruence.
    destruct (step_at p e a) as [Heq|(ev & Htr & Heq)].
    { destruct IH as [IH|[IH|IH]]; [left; by apply HA|right; left; by rewrite Heq|right; right; by rewrite Heq]. }
    assert (Hl1 : live (m_run a (trace (n_run p) a ++ [ev])) ha).
    { rewrite <- Heq. eapply live_before; [exact Hpe| |exact Hlive]. destruct (task_later p (p ++ [e]) a ha t ltac:(by apply prefix_app_r) Ht) as (t1 & Ht1 & _). by exists t1. }
    destruct (loop_step deser dec_users dec_topics valid a (trace (n_run p) a) ev ha t Ht Hl1) as (t2 & Ht2 & Hcase). rewrite <- Heq in Ht2.
    destruct IH as [IH|[(t' & j & x & Ht' & Hj & Hx & Hg)|(t' & x & Ht' & HtL & Hx & Happ)]]; [left; by apply HA| |]; rewrite Ht in Ht'; injection Ht' as <-.
    - destruct Hcase as [[Hfs _]|(raw & hk & -> & Hnil & Hfs & Hacts)]; [right; left; exists t2, j, x; split; [done|]; split; [lia|done]|].
      destruct (decide (j = t_frames t)) as [->|Hne]; [|right; left; exists t2, j, x; split; [done|]; split; [lia|done]].
      right. right.
      assert (Hin : In (Rcvd ha (S (t_frames t)) raw hk) (m_rcvd (broker_at (n_run (p ++ [e])) a))).
      { rewrite Heq, m_run_snoc in Ht2 |- *. change (m_run a (trace (n_run p) a)) with (broker_at (n_run p) a) in *. cbn [TaskModel.m_step] in Ht2 |- *. rewrite Ht in Ht2 |- *.
        destruct t as [o1 ac op n]. cbn in Hnil. subst ac. destruct op; [|rewrite Ht in Ht2; injection Ht2 as <-; cbn in Hfs; lia].
        destruct (loop_frame o1 raw hk). cbn. apply in_app_iff. right. by left. }
      apply (rcvd_later _ es a _ Hpe) in Hin.
      assert (Hk : hook_passes hk).
      { destruct (rcv_run deser dec_users dec_topics valid enc_users enc_topics es a _ Hin) as [(u & c' & (t4 & Ht4 & Ho4) & _)|(a1 & cb1 & a2 & c2 & _ & H2)].
        - cbn in Ht4. rewrite Htz in Ht4. injection Ht4 as <-. congruence.
        - cbn in H2. by apply (proj1 Hh) in H2. }
      destruct (I3 a _ b ca Hin) as (b' & cb' & x' & Hl' & Hx' & Hw); [by exists tz|]. cbn [r_task r_frame r_raw] in Hl', Hx', Hw.
      destruct (I2 _ _ _ _ _ _ Hl Hl') as [<- <-]. rewrite Nat.sub_succ, Nat.sub_0_r in Hx'.
      destruct (sent_on_later es1 es b cb H1) as [l Hsl]. rewrite Hsl, (lookup_app_l_Some _ _ _ _ Hx) in Hx'. injection Hx' as <-.
      destruct (HG _ hk Hg Hk) as (y & Hy & Happ). exists t2, y. split; [done|]. split; [apply lookup_lt_Some in Hx; unfold L; lia|]. split; [|done].
      rewrite Hacts, Ho. cbn [TaskModel.loop_frame]. by rewrite <- Hw.
    - destruct Hcase as [[Hfs Hac]|(raw & hk & -> & Hnil & _)]; [|by rewrite Hnil in Hx].
      destruct (Hac x Hx) as [Hx2|(good & l & -> & Hl2)]; [right; right; exists t2, x; split; [done|]; split; [lia|done]|].
      left. assert (Hlp : live (broker_at (n_run p) a) ha) by (eapply live_before; [exact Hpes|by exists t|exact Hlive]).
      pose proof (busy_registered deser dec_users dec_topics valid a (trace (n_run p) a) ha t (proj1 (fine_before p es Hpes Hf a)) Hlp Ht) as Hrg. rewrite Ho in Hrg.
      destruct (HApp p x Hp Hpes Happ) as (c & Hop & HAc); [apply Hrg; by rewrite Hl2|].
      rewrite Heq, m_run_snoc. change (m_run a (trace (n_run p) a)) with (broker_at (n_run p) a) in *. destruct t as [ow ac op k]. cbn in Hl2. subst ac.
      rewrite (m_step_run deser dec_users dec_topics valid _ _ _ _ _ _ _ _ Ht), Hop. exact HAc. }
  destruct Hcu as (t & Ht & Hd). fold L in Hd. destruct (HK es H1 ltac:(done)) as [?|[(t' & j & x & Ht' & Hj & Hx & _)|(t' & x & Ht' & HtL & Hx & _)]]; [done| |];
    rewrite Ht in Ht'; injection Ht' as <-; exfalso.
  - apply lookup_lt_Some in Hx. fold L in Hx. lia.
  - destruct Hd as [?|[_ Hnil]]; [lia|]. by rewrite Hnil in Hx.
Qed.

(** ** Where a user is *)
Section user.
Variables (v : ukey) (b : bid).
Notation up := (up deser dec_users dec_topics valid v b).
Notation d_in := (d_in v b).

Lemma solo_before p q : p `prefix_of` q -> solo v b (n_run q) -> solo v b (n_run p).
Proof.
  intros Hpq Hs x i ev Hx Ha.
  assert (Hk : forall y k e', trace (n_run p) y !! k = Some e' -> trace (n_run q) y !! k = Some e').
  { intros y k e' Hk. destruct (trace_later p q y Hpq) as [l ->]. by apply lookup_app_l_Some. }
  destruct (Hs x i ev (Hk _ _ _ Hx) Ha) as [-> Hu]. split; [done|]. intros j ev' Hj Ha'. by apply (Hu j ev'); [apply Hk|].
Qed.
Lemma once_solo es : admitted_once (n_run es) v -> (exists c, c_get_user_connection (conns_at (n_run es) b) v = Some c) -> solo v b (n_run es).
Proof.
  intros Hone Hc x i ev Hx Hadm. destruct ev as [h hh u c ts| | | | | | |]; try done. cbn in Hadm. subst u.
  assert (Hb : exists j h' hh' c' ts', trace (n_run es) b !! j = Some (EUserAuthed h' hh' v c' ts')).
  { destruct Hc as [c1 Hc]. unfold c_get_user_connection in Hc. destruct (users (conns_at (n_run es) b) !! v) as [[c2 h2]|] eqn:E; [|done].
    destruct (registered_authed deser dec_users dec_topics valid v (n_run es) b c2 h2 E) as (hh' & ts' & Hin). apply in_lookup in Hin as [j Hj']. eauto 10. }
  destruct Hb as (j & h' & hh' & c' & ts' & Hj'). destruct (Hone _ _ _ _ _ _ _ _ _ _ _ _ Hx Hj') as [-> _]. split; [done|].
  intros k ev' Hk Hadm'. destruct ev' as [h2 hh2 u2 c2 ts2| | | | | | |]; try done. cbn in Hadm'. subst u2.
  by destruct (Hone _ _ _ _ _ _ _ _ _ _ _ _ Hk Hx).
Qed.
Lemma connected_up es c : hooks_pass es -> fine (n_run es) -> solo v b (n_run es) -> c_get_user_connection (conns_at (n_run es) b) v = Some c -> up (n_run es).
Proof.
  intros Hh Hf Hs Hc. destruct (phases deser dec_users dec_topics valid enc_users enc_topics Hcodec v b es Hh Hf Hs) as [Hcl|[?|(_ & Hg & _)]]; [exfalso|done|exfalso].
  - assert (Hd : c_get_broker_identifier_of_user (conns_at (n_run es) b) v = Some b) by (apply state_directory; eauto).
    unfold c_get_broker_identifier_of_user, vm_get in Hd. destruct (entries (direct (conns_at (n_run es) b)) !! v) as [e|] eqn:E; [|done].
    by apply (only_direct _ _ _ _ _ _ (n_run es) b e Hcl).
  - unfold c_get_user_connection in Hc. by rewrite Hg in Hc.
Qed.
(** What a broker has learnt about [v] it does not forget. *)
Lemma known_step p e a c : up (n_run p) -> solo v b (n_run p) -> c_get_user_connection (conns_at (n_run (p ++ [e])) b) v = Some c ->
  d_in (direct (conns_at (n_run p) a)) -> d_in (direct (conns_at (n_run (p ++ [e])) a)).
Proof.
  intros (Hon & Hu & Hd & Hna & _) Hsolo Hc HA. destruct (step_at p e a) as [->|(ev & _ & Heq)]; [done|]. rewrite Heq, m_run_snoc.
  change (m_run a (trace (n_run p) a)) with (broker_at (n_run p) a).
  destruct (m_step_op deser dec_users dec_topics valid (broker_at (n_run p) a) ev) as [->|(h & good & o & x & l & op & k & cop & -> & Ht & Ha & Hs)]; [done|].
  rewrite Hs. destruct (op_keeps v b (conns_at (n_run p) a) cop) as (_ & K2 & _); [| | | |by apply K2].
  - eapply (op_not_add deser dec_users dec_topics valid v (n_run p) a); [exact Ht|exact Ha|].
    destruct (decide (a = b)) as [->|Hne]; [exact Hna|by apply (elsewhere_no_add deser dec_users dec_topics valid v b)].
  - intros m e0 -> He. destruct x; cbn in Ha; try done. injection Ha as ->. exact (only_apply _ _ _ _ _ _ (n_run p) a _ _ _ _ _ _ e0 Hon Ht He).
  - intros e0 He. exact (only_direct _ _ _ _ _ _ (n_run p) a e0 Hon He).
  - destruct (decide (a = b)) as [->|Hne]; [right|left].
    + rewrite <- Hs. rewrite Heq, m_run_snoc in Hc. unfold c_get_user_connection in Hc. fold (broker_at (n_run p) b) in Hc. intros Hnone. by rewrite Hnone in Hc.
    + by rewrite (identity_at deser dec_users dec_topics valid).
Qed.
End user.
End busy.
