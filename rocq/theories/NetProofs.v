(** Proofs about the network model: the invariant of links, origins of delivered frames,
    absence of duplicates and order. *)
From stdpp Require Import gmap fin_maps list.
From Coq Require Import NArith Lia.
From Verif Require Import IdModel VMapModel ConnModel TopicModel MsgModel RouteModel TaskModel TaskProofs TaskOrder NetModel.

(** ** Lists *)
Lemma filter_index {A} (P : A -> Prop) `{!forall x, Decision (P x)} (l : list A) a x :
  filter P l !! a = Some x -> exists j, l !! j = Some x /\ P x.
Proof.
  intros Hl. apply elem_of_list_lookup_2, elem_of_list_filter in Hl as [HP Hin].
  apply elem_of_list_lookup_1 in Hin as [j Hj]. eauto.
Qed.

Lemma filter_indices {A} (P : A -> Prop) `{!forall x, Decision (P x)} (l : list A) a b x y :
  a < b -> filter P l !! a = Some x -> filter P l !! b = Some y ->
  exists j k, j < k /\ l !! j = Some x /\ l !! k = Some y.
Proof.
  revert a b. induction l as [|z l IH]; intros a b Hab Hx Hy; [by rewrite filter_nil, lookup_nil in Hx|].
  rewrite filter_cons in Hx, Hy. case_decide as Hz.
  - destruct b as [|b]; [lia|]. destruct a as [|a].
    + cbn in Hx, Hy. injection Hx as ->. apply filter_index in Hy as (k & Hk & _).
      exists 0, (S k). split; [lia|]. split; [done|exact Hk].
    + cbn in Hx, Hy. destruct (IH a b ltac:(lia) Hx Hy) as (j & k & Hjk & Hj & Hk).
      exists (S j), (S k). split; [lia|]. split; [exact Hj|exact Hk].
  - destruct (IH a b Hab Hx Hy) as (j & k & Hjk & Hj & Hk).
    exists (S j), (S k). split; [lia|]. split; [exact Hj|exact Hk].
Qed.

Section proofs.
Variable deser : bytes -> option message.
Variable dec_users : bytes -> option direct_map.
Variable dec_topics : bytes -> option topic_map.
Variable valid : N -> bool.
Variable enc_users : direct_map -> bytes.
Variable enc_topics : topic_map -> bytes.
Notation m_step := (m_step deser dec_users dec_topics valid).
Notation m_run := (m_run deser dec_users dec_topics valid).
Notation m_run_snoc := (m_run_snoc deser dec_users dec_topics valid).
Notation broker_at := (broker_at deser dec_users dec_topics valid).
Notation n_step := (n_step deser dec_users dec_topics valid enc_users enc_topics).
Notation n_run := (n_run deser dec_users dec_topics valid enc_users enc_topics).
Notation wire := (wire enc_users enc_topics).

Lemma n_run_snoc es e : n_run (es ++ [e]) = n_step (n_run es) e.
Proof. unfold NetModel.n_run. by rewrite fold_left_app. Qed.

(** ** One broker *)
Lemma step_sent m e : exists l, m_sent (m_step m e) = m_sent m ++ l.
Proof.
  destruct e as [h hh u c ts|h hh b c|hh|hh u|h raw hk|h|h good|h]; cbn [TaskModel.m_step].
  - case_decide; exists []; by rewrite app_nil_r.
  - case_decide; exists []; by rewrite app_nil_r.
  - destruct (m_tasks m !! hh); exists []; by rewrite app_nil_r.
  - destruct (m_tasks m !! hh); exists []; by rewrite app_nil_r.
  - destruct (m_tasks m !! h) as [[o [|? ?] [|] n]|]; try (exists []; by rewrite app_nil_r).
    destruct (loop_frame deser dec_users dec_topics valid o raw hk). exists []; by rewrite app_nil_r.
  - destruct (m_tasks m !! h) as [[o [|? ?] [|] n]|]; exists []; by rewrite app_nil_r.
  - destruct (m_tasks m !! h) as [[o [|a rest] op n]|]; try (exists []; by rewrite app_nil_r).
    destruct (act_step (fun _ => good) (m_conns m) a) as [[s' nxt] sends]. cbn. eauto.
  - destruct (m_tasks m !! h) as [[o l op n]|]; [case_decide|]; exists []; by rewrite app_nil_r.
Qed.

Lemma step_rcvd m e :
  m_rcvd (m_step m e) = m_rcvd m
  \/ exists h raw hk t, e = EFrame h raw hk /\ m_tasks m !! h = Some t
       /\ m_rcvd (m_step m e) = m_rcvd m ++ [Rcvd h (S (t_frames t)) raw hk].
Proof.
  destruct e as [h hh u c ts|h hh b c|hh|hh u|h raw hk|h|h good|h]; cbn [TaskModel.m_step].
  - case_decide; by left.
  - case_decide; by left.
  - destruct (m_tasks m !! hh); by left.
  - destruct (m_tasks m !! hh); by left.
  - destruct (m_tasks m !! h) as [[o [|? ?] [|] n]|] eqn:E; try by left.
    destruct (loop_frame deser dec_users dec_topics valid o raw hk). right. exists h, raw, hk, (Task o [] true n). done.
  - destruct (m_tasks m !! h) as [[o [|? ?] [|] n]|]; by left.
  - destruct (m_tasks m !! h) as [[o [|a rest] op n]|]; try by left.
    destruct (act_step (fun _ => good) (m_conns m) a) as [[s' nxt] sends]. by left.
  - destruct (m_tasks m !! h) as [[o l op n]|]; [case_decide|]; by left.
Qed.

Lemma step_task i es e h t : m_tasks (m_run i es) !! h = Some t -> is_Some (m_tasks (m_run i (es ++ [e])) !! h).
Proof. intros Ht. destruct (step_owner deser dec_users dec_topics valid i es e h t Ht) as (t' & -> & _). eauto. Qed.

Lemma rcvd_task i es r : In r (m_rcvd (m_run i es)) -> is_Some (m_tasks (m_run i es) !! r_task r).
Proof.
  induction es as [|e es IH] using rev_ind; [done|].
  intros Hin. rewrite m_run_snoc in Hin.
  destruct (step_rcvd (m_run i es) e) as [Heq|(h & raw & hk & t & -> & Ht & Heq)]; rewrite Heq in Hin.
  - destruct (IH Hin) as [t Ht]. by eapply step_task.
  - apply in_app_iff in Hin as [Hin|[<-|[]]].
    + destruct (IH Hin) as [t0 Ht0]. by eapply step_task.
    + by eapply step_task.
Qed.

Lemma sent_on_step m e c : exists l, sent_on (m_step m e) c = sent_on m c ++ l.
Proof.
  destruct (step_sent m e) as [l Hl]. exists (filter (fun x => e_conn (s_what x) = c) l).
  unfold sent_on. by rewrite Hl, filter_app.
Qed.

(** The task that sent a relayed frame to a broker is a user's loop. *)
Lemma relay_to_broker i es x b c raw :
  In x (m_sent (m_run i es)) -> s_what x = Emit (inr b) c (FRelay raw) ->
  exists u cu t, m_tasks (m_run i es) !! s_task x = Some t /\ t_owner t = OUser u cu.
Proof.
  intros Hin Hw. destruct (prov_run deser dec_users dec_topics valid i es) as [_ Hs].
  rewrite Forall_forall in Hs. specialize (Hs x (proj2 (elem_of_list_In _ _) Hin)).
  unfold sent_ok in Hs. rewrite Hw in Hs. tauto.
Qed.

(** Every relayed frame was received, by a receive loop, and routed. *)
Lemma relay_received i es x raw :
  In x (m_sent (m_run i es)) -> e_frame (s_what x) = FRelay raw ->
  exists hk m0 msg, In (Rcvd (s_task x) (s_frame x) raw hk) (m_rcvd (m_run i es))
    /\ deser raw = Some m0 /\ hk m0 = HProcess msg
    /\ ((exists r body, msg = MDirect r body) \/ (exists ts body, msg = MBroadcast ts body)).
Proof.
  intros Hin Hw. destruct (prov_run deser dec_users dec_topics valid i es) as [_ Hs].
  rewrite Forall_forall in Hs. specialize (Hs x (proj2 (elem_of_list_In _ _) Hin)).
  unfold sent_ok in Hs. destruct (s_what x) as [[u|b] c f]; cbn in Hw; subst f.
  - destruct Hs as [(msg & (hk & m0 & Hr & Hd & Hh) & Hy) _]. exists hk, m0, msg. split; [done|]. split; [done|]. split; [done|].
    destruct Hy as [(body & -> & _)|(ts & body & t & -> & _)]; [left|right]; eauto.
  - destruct Hs as (_ & (msg & (hk & m0 & Hr & Hd & Hh) & Hy) & _). exists hk, m0, msg. split; [done|]. split; [done|]. split; [done|].
    destruct Hy as [(u & body & -> & _)|(ts & body & t & -> & _)]; [left|right]; eauto.
Qed.

(** Who receives: the receiving task is a loop. *)
Lemma rcvd_frame_pos i es r : In r (m_rcvd (m_run i es)) -> 1 <= r_frame r.
Proof.
  induction es as [|e es IH] using rev_ind; [done|]. intros Hin. rewrite m_run_snoc in Hin.
  destruct (step_rcvd (m_run i es) e) as [Heq|(h & raw & hk & t & -> & Ht & Heq)]; rewrite Heq in Hin; [by apply IH|].
  apply in_app_iff in Hin as [Hin|[<-|[]]]; [by apply IH|]. cbn. lia.
Qed.

(** ** The invariant *)
Definition fed (n : net) (b : bid) (h : N) (k : nat) (raw : bytes) : Prop :=
  exists a c x, n_links n !! (a, c) = Some (b, h) /\ sent_on (broker_at n a) c !! k = Some x
    /\ wire (e_frame (s_what x)) = raw.

Definition loop_of (n : net) (b : bid) (h : N) (o : owner) : Prop :=
  exists t, m_tasks (broker_at n b) !! h = Some t /\ t_owner t = o.

Definition net_inv (n : net) : Prop :=
  (forall a c b h, n_links n !! (a, c) = Some (b, h) ->
     a <> b /\ (exists ha, authed_broker (trace n a) b c ha) /\ exists cb, loop_of n b h (OBroker a cb))
  /\ (forall a c a' c' b h, n_links n !! (a, c) = Some (b, h) -> n_links n !! (a', c') = Some (b, h) -> a = a' /\ c = c')
  /\ (forall b r a cb, In r (m_rcvd (broker_at n b)) -> loop_of n b (r_task r) (OBroker a cb) ->
        fed n b (r_task r) (r_frame r - 1) (r_raw r))
  /\ (forall b, NoDup (authed_conns (trace n b))).

Lemma trace_extend n b e b' : trace (extend n b e) b' = if decide (b = b') then trace n b' ++ [e] else trace n b'.
Proof. unfold trace at 1, extend. cbn. case_decide as Hd; [subst; by rewrite lookup_insert|by rewrite lookup_insert_ne]. Qed.

Lemma broker_extend n b e b' :
  broker_at (extend n b e) b' = if decide (b = b') then m_step (broker_at n b') e else broker_at n b'.
Proof. unfold NetModel.broker_at. rewrite trace_extend. case_decide; [by rewrite m_run_snoc|done]. Qed.

Lemma sent_on_extend n b e a c : exists l, sent_on (broker_at (extend n b e) a) c = sent_on (broker_at n a) c ++ l.
Proof. rewrite broker_extend. case_decide; [apply sent_on_step|exists []; by rewrite app_nil_r]. Qed.

Lemma loop_of_extend n b e b' h o : loop_of n b' h o -> loop_of (extend n b e) b' h o.
Proof.
  intros (t & Ht & Ho). unfold loop_of. unfold NetModel.broker_at in *. rewrite trace_extend. case_decide; [|eauto].
  destruct (step_owner deser dec_users dec_topics valid b' (trace n b') e h t Ht) as (t' & Ht' & Ho'). exists t'. split; [done|congruence].
Qed.

Lemma loop_of_back n b e b' h o :
  is_Some (m_tasks (broker_at n b') !! h) -> loop_of (extend n b e) b' h o -> loop_of n b' h o.
Proof.
  intros [t Ht] Hl. assert (Hl2 : loop_of (extend n b e) b' h (t_owner t)) by (apply loop_of_extend; by exists t).
  destruct Hl as (t1 & Ht1 & Ho1), Hl2 as (t2 & Ht2 & Ho2). exists t. split; [done|]. congruence.
Qed.

Lemma fed_extend n b e b' h k raw : fed n b' h k raw -> fed (extend n b e) b' h k raw.
Proof.
  intros (a & c & x & Hl & Hx & Hw). exists a, c, x. split; [done|]. split; [|done].
  destruct (sent_on_extend n b e a c) as [l ->]. by apply lookup_app_l_Some.
Qed.

Lemma authed_conns_snoc es e : authed_conns (es ++ [e]) = authed_conns es ++ authed_conn e.
Proof. unfold authed_conns. rewrite map_app, concat_app. cbn. by rewrite app_nil_r. Qed.

Lemma inv_extend n b e :
  net_inv n ->
  (forall c, In c (authed_conn e) -> c ∉ authed_conns (trace n b)) ->
  (forall h raw hk t a cb, e = EFrame h raw hk -> m_tasks (broker_at n b) !! h = Some t -> t_owner t = OBroker a cb ->
     fed n b h (t_frames t) raw) ->
  net_inv (extend n b e).
Proof.
  intros (I0 & I2 & I3 & I4) Hc Hf. split; [|split; [|split]].
  - intros a c b' h Hl. destruct (I0 a c b' h Hl) as (Hne & (ha & Ha) & cb & Hlo). split; [done|]. split.
    + exists ha. rewrite trace_extend. case_decide; [by apply authed_broker_mono|done].
    + exists cb. by apply loop_of_extend.
  - exact I2.
  - intros b' r a cb Hin Hlo. rewrite broker_extend in Hin. case_decide as Hd; [subst b'|].
    + destruct (step_rcvd (broker_at n b) e) as [Heq|(h & raw & hk & t & -> & Ht & Heq)]; rewrite Heq in Hin.
      * apply fed_extend. apply (I3 b r a cb Hin). eapply loop_of_back; [|exact Hlo]. by apply rcvd_task.
      * apply in_app_iff in Hin as [Hin|[<-|[]]].
        -- apply fed_extend. apply (I3 b r a cb Hin). eapply loop_of_back; [|exact Hlo]. by apply rcvd_task.
        -- cbn in *. replace (t_frames t - 0) with (t_frames t) by lia. apply fed_extend.
           apply loop_of_back in Hlo; [|by exists t]. destruct Hlo as (t' & Ht' & Ho'). rewrite Ht in Ht'. injection Ht' as <-. by eapply Hf.
    + apply fed_extend. apply (I3 b' r a cb Hin). eapply loop_of_back; [|exact Hlo]. by apply rcvd_task.
  - intros b'. rewrite trace_extend. case_decide as Hd; [subst b'|apply I4].
    rewrite authed_conns_snoc. apply NoDup_app. split; [apply I4|]. split.
    + intros c Hin Hin'. apply elem_of_list_In in Hin'. by apply (Hc c Hin').
    + destruct e; cbn; first [apply NoDup_nil_2|apply NoDup_singleton].
Qed.

Lemma m_step_broker_authed m h hh b c :
  h <> hh -> m_tasks m !! h = None -> m_tasks m !! hh = None ->
  m_tasks (m_step m (EBrokerAuthed h hh b c)) !! h = Some (Task (OBroker b c) [] true 0).
Proof.
  intros H1 H2 H3. cbn [TaskModel.m_step]. rewrite decide_True by done. cbn.
  rewrite lookup_insert_ne by done. by rewrite lookup_insert.
Qed.

Lemma inv_step n e : net_inv n -> net_inv (n_step n e).
Proof.
  intros Hi. destruct e as [b h hh u c ts|a ha hha ca b hb hhb cb|b h raw hk|a c hk|b e]; cbn [NetModel.n_step].
  - case_decide as Hd; [|done]. destruct Hd as (_ & _ & _ & Hc). apply inv_extend; [done| |done].
    cbn. intros c' [<-|[]]. exact Hc.
  - case_decide as Hd; [|done]. destruct Hd as (Hab & (Ha1 & Ha2 & Ha3 & Ha4) & (Hb1 & Hb2 & Hb3 & Hb4)).
    set (n0 := extend n a (EBrokerAuthed ha hha b ca)). set (n1 := extend n0 b (EBrokerAuthed hb hhb a cb)).
    assert (Hi0 : net_inv n0). { apply inv_extend; [done| |done]. cbn. intros c' [<-|[]]. exact Ha4. }
    assert (Hb : broker_at n0 b = broker_at n b). { unfold n0. rewrite broker_extend. by rewrite decide_False. }
    assert (Htb : trace n0 b = trace n b). { unfold n0. rewrite trace_extend. by rewrite decide_False. }
    assert (Hi1 : net_inv n1). { apply inv_extend; [done| |done]. cbn. intros c' [<-|[]]. by rewrite Htb. }
    assert (Hta : trace n1 a = trace n a ++ [EBrokerAuthed ha hha b ca]).
    { unfold n1. rewrite trace_extend, decide_False by congruence. unfold n0. by rewrite trace_extend, decide_True. }
    assert (Htb1 : trace n1 b = trace n b ++ [EBrokerAuthed hb hhb a cb]).
    { unfold n1. rewrite trace_extend, decide_True by done. by rewrite Htb. }
    assert (Hla : loop_of n1 a ha (OBroker b ca)).
    { exists (Task (OBroker b ca) [] true 0). split; [|done]. unfold NetModel.broker_at. rewrite Hta, m_run_snoc. by apply m_step_broker_authed. }
    assert (Hlb : loop_of n1 b hb (OBroker a cb)).
    { exists (Task (OBroker a cb) [] true 0). split; [|done]. unfold NetModel.broker_at. rewrite Htb1, m_run_snoc. by apply m_step_broker_authed. }
    assert (Hold : forall a' c' b' h', n_links n !! (a', c') = Some (b', h') -> (b', h') <> (b, hb) /\ (b', h') <> (a, ha)
                     /\ (a', c') <> (a, ca) /\ (a', c') <> (b, cb)).
    { intros a' c' b' h' Hl. destruct Hi as (I0 & _). destruct (I0 _ _ _ _ Hl) as (_ & (ha' & hx & Hin) & cb' & t & Ht & _).
      split; [intros [= -> ->]; congruence|]. split; [intros [= -> ->]; congruence|].
      assert (Hc' : c' ∈ authed_conns (trace n a')).
      { apply elem_of_list_In, in_concat. exists [c']. split; [|by left]. apply in_map_iff. exists (EBrokerAuthed ha' hx b' c'). split; [reflexivity|exact Hin]. }
      split; intros [= -> ->]; done. }
    destruct Hi1 as (I0 & I2 & I3 & I4). split; [|split; [|split]].
    + intros a' c' b' h' Hl. cbn [n_links] in Hl. apply lookup_insert_Some in Hl as [[Heq Hv]|[Hne Hl]].
      { injection Heq as <- <-. injection Hv as <- <-. split; [done|]. split; [|by exists cb]. exists ha, hha.
        change (In (EBrokerAuthed ha hha b ca) (trace n1 a)). rewrite Hta. apply in_app_iff. right. by left. }
      apply lookup_insert_Some in Hl as [[Heq Hv]|[Hne' Hl]].
      { injection Heq as <- <-. injection Hv as <- <-. split; [done|]. split; [|by exists ca]. exists hb, hhb.
        change (In (EBrokerAuthed hb hhb a cb) (trace n1 b)). rewrite Htb1. apply in_app_iff. right. by left. }
      exact (I0 _ _ _ _ Hl).
    + intros a1 c1 a2 c2 b' h' Hl1 Hl2. cbn [n_links] in Hl1, Hl2.
      apply lookup_insert_Some in Hl1 as [[Heq1 Hv1]|[Hne1 Hl1]]; apply lookup_insert_Some in Hl2 as [[Heq2 Hv2]|[Hne2 Hl2]];
        try (apply lookup_insert_Some in Hl1 as [[Heq1 Hv1]|[Hne1' Hl1]]); try (apply lookup_insert_Some in Hl2 as [[Heq2 Hv2]|[Hne2' Hl2]]);
        try (injection Heq1 as <- <-); try (injection Heq2 as <- <-); try done; try congruence;
        try (by destruct (Hold _ _ _ _ Hl1) as (? & ? & _); congruence); try (by destruct (Hold _ _ _ _ Hl2) as (? & ? & _); congruence).
      exact (I2 _ _ _ _ _ _ Hl1 Hl2).
    + intros b' r a' cb' Hin Hlo. destruct (I3 b' r a' cb' Hin Hlo) as (a1 & c1 & x & Hl & Hx & Hw).
      exists a1, c1, x. split; [|split; [exact Hx|exact Hw]].
      destruct (Hold _ _ _ _ Hl) as (_ & _ & Hk1 & Hk2). cbn [n_links]. rewrite lookup_insert_ne by congruence. by rewrite lookup_insert_ne by congruence.
    + exact I4.
  - destruct (m_tasks (broker_at n b) !! h) as [[[u c|b' c|] acts op k]|] eqn:E; try done.
    apply inv_extend; [done|done|]. intros h' raw' hk' t a cb [= <- <- <-] Ht Ho. rewrite E in Ht. injection Ht as <-. done.
  - destruct (n_links n !! (a, c)) as [[b h]|] eqn:El; [|done].
    destruct (m_tasks (broker_at n b) !! h) as [t|] eqn:Et; [|done].
    destruct (sent_on (broker_at n a) c !! t_frames t) as [x|] eqn:Ex; [|done].
    apply inv_extend; [done|done|]. intros h' raw' hk' t' a' cb [= <- <- <-] Ht' _. rewrite Et in Ht'. injection Ht' as <-.
    by exists a, c, x.
  - destruct (receives_nothing e) eqn:He; [|done]. apply inv_extend; [done| |].
    + destruct e; done.
    + intros. by subst.
Qed.

Lemma inv_run es : net_inv (n_run es).
Proof.
  induction es as [|e es IH] using rev_ind; [|rewrite n_run_snoc; by apply inv_step].
  split; [|split; [|split]].
  - intros a c b h. cbn. by rewrite lookup_empty.
  - intros a c a' c' b h. cbn. by rewrite lookup_empty.
  - intros b r a cb. unfold NetModel.broker_at, trace. cbn. rewrite lookup_empty. done.
  - intros b. unfold trace. cbn. rewrite lookup_empty. constructor.
Qed.
End proofs.
