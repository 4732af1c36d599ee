(** What the brokers of a network know about each other once nothing is under way. *)
From stdpp Require Import gmap fin_maps fin_sets list.
From Coq Require Import NArith ZArith Lia.
From Verif Require Import IdModel RelMapModel RelMapProofs VMapModel VMapSpec VMapProofs ConnModel ConnSpec ConnProofs ConnProofs2 ConnProofs3 ConnProofs4
  SyncSpec TopicSyncProofs TopicModel TopicProofs MsgModel RouteModel RouteProofs TaskModel TaskProofs TaskOrder TaskHandles TaskIsolation TaskSync
  NetModel NetProofs NetOrigin NetDelivery NetComplete NetSynced.

(** Hooks let everything they process pass unchanged, and drop no sync message. *)
Definition hook_passes (hk : hook) : Prop :=
  hook_keeps hk /\ forall p, hk (MUserSync p) = HProcess (MUserSync p) /\ hk (MTopicSync p) = HProcess (MTopicSync p).
Definition hooks_pass (es : list nevent) : Prop :=
  (forall a c hk, In (NDeliver a c hk) es -> hook_passes hk) /\ (forall b h raw hk, In (NPublish b h raw hk) es -> hook_keeps hk).

(** Sync messages are decoded to what was encoded. *)
Definition faithful_sync (deser : bytes -> option message) (dec_users : bytes -> option direct_map) (dec_topics : bytes -> option topic_map)
    (enc_users : direct_map -> bytes) (enc_topics : topic_map -> bytes) : Prop :=
  (forall d, exists p d', deser (enc_users d) = Some (MUserSync p) /\ dec_users p = Some d' /\ entries d' = entries d /\ cid d' = cid d)
  /\ (forall d, exists p d', deser (enc_topics d) = Some (MTopicSync p) /\ dec_topics p = Some d' /\ entries d' = entries d /\ cid d' = cid d).

Lemma relinks_dec b o : relinks b o \/ ~ relinks b o.
Proof. destruct o; cbn; try (by right; intros []); match goal with |- ?x = ?y \/ _ => destruct (decide (x = y)); [by left|by right] end. Qed.

(** ** One machine: loops and registrations over one step *)
Section machine.
Variable deser : bytes -> option message.
Variable dec_users : bytes -> option direct_map.
Variable dec_topics : bytes -> option topic_map.
Variable valid : N -> bool.
Notation m_step := (m_step deser dec_users dec_topics valid).
Notation m_run := (m_run deser dec_users dec_topics valid).
Notation m_run_snoc := (m_run_snoc deser dec_users dec_topics valid).
Notation loop_frame := (loop_frame deser dec_users dec_topics valid).
Notation prompt := (prompt deser dec_users dec_topics valid).

Definition live (m : machine) (h : N) : Prop := (exists o, registered (m_conns m) h o) \/ unregistered m h.

Lemma unregistered_back i es e h :
  is_Some (m_tasks (m_run i es) !! h) -> unregistered (m_run i (es ++ [e])) h -> unregistered (m_run i es) h.
Proof.
  intros [t0 Ht0] (hh & t & Ht & Hin). rewrite m_run_snoc in Ht. set (m := m_run i es) in *.
  assert (Hold : forall k tk, m_tasks m !! k = Some tk -> In h (adds (t_acts tk)) -> unregistered m h) by (intros k tk ? ?; by exists k, tk).
  destruct e as [h1 h2 v c1 ts|h1 h2 b c1|h2|h2 v|h1 raw hk|h1|h1 good|h1]; cbn [TaskModel.m_step] in Ht.
  - case_decide as Hd; [|by eapply Hold]. destruct Hd as (_ & Hn1 & Hn2). cbn in Ht. apply lookup_insert_Some in Ht as [[<- <-]|[_ Ht]].
    { cbn in Hin. destruct Hin as [<-|[]]. congruence. }
    apply lookup_insert_Some in Ht as [[<- <-]|[_ Ht]]; [done|by eapply Hold].
  - case_decide as Hd; [|by eapply Hold]. destruct Hd as (_ & Hn1 & Hn2). cbn in Ht. apply lookup_insert_Some in Ht as [[<- <-]|[_ Ht]].
    { cbn in Hin. destruct Hin as [<-|[]]. congruence. }
    apply lookup_insert_Some in Ht as [[<- <-]|[_ Ht]]; [done|by eapply Hold].
  - destruct (m_tasks m !! h2); [by eapply Hold|]. cbn in Ht. apply lookup_insert_Some in Ht as [[<- <-]|[_ Ht]]; [done|by eapply Hold].
  - destruct (m_tasks m !! h2); [by eapply Hold|]. cbn in Ht. apply lookup_insert_Some in Ht as [[<- <-]|[_ Ht]]; [done|by eapply Hold].
  - destruct (m_tasks m !! h1) as [[o [|? ?] [|] n]|] eqn:E; try (by eapply Hold).
    pose proof (loop_frame_adds deser dec_users dec_topics valid o raw hk) as Hl. destruct (loop_frame o raw hk) as [acts go]. cbn in Ht, Hl.
    apply lookup_insert_Some in Ht as [[<- <-]|[_ Ht]]; [|by eapply Hold]. cbn in Hin. by rewrite Hl in Hin.
  - destruct (m_tasks m !! h1) as [[o [|? ?] [|] n]|] eqn:E; try (by eapply Hold). cbn in Ht.
    apply lookup_insert_Some in Ht as [[<- <-]|[_ Ht]]; [|by eapply Hold]. by destruct o.
  - destruct (m_tasks m !! h1) as [[o [|a l] op n]|] eqn:E; try (by eapply Hold).
    destruct (act_step (fun _ => good) (m_conns m) a) as [[s' nxt] sends] eqn:Ea. cbn in Ht.
    apply lookup_insert_Some in Ht as [[<- <-]|[_ Ht]]; [|by eapply Hold]. cbn [t_acts] in Hin. rewrite adds_app in Hin.
    destruct (act_step_adds _ _ _ _ _ _ Ea) as [Hn _]. rewrite Hn in Hin. cbn [app] in Hin.
    eapply Hold; [exact E|]. cbn [t_acts]. change (a :: l) with ([a] ++ l). rewrite adds_app. apply in_app_iff. by right.
  - destruct (m_tasks m !! h1) as [[o l op n]|] eqn:E; [|by eapply Hold]. case_decide; [|by eapply Hold]. cbn in Ht.
    apply lookup_insert_Some in Ht as [[<- <-]|[_ Ht]]; [done|by eapply Hold].
Qed.

(** The actions behind a change of the registrations. *)
Lemma registered_back i es e h o :
  registered (m_conns (m_run i (es ++ [e]))) h o -> registered (m_conns (m_run i es)) h o \/ unregistered (m_run i es) h.
Proof.
  intros Hr. rewrite m_run_snoc in Hr. set (m := m_run i es) in *.
  destruct e as [h1 h2 v c1 ts|h1 h2 b c1|h2|h2 v|h1 raw hk|h1|h1 good|h1]; cbn [TaskModel.m_step] in Hr.
  - left. by destruct (decide _).
  - left. by destruct (decide _).
  - left. by destruct (m_tasks m !! h2).
  - left. by destruct (m_tasks m !! h2).
  - left. destruct (m_tasks m !! h1) as [[o' [|? ?] [|] n]|]; try done. by destruct (loop_frame o' raw hk).
  - left. by destruct (m_tasks m !! h1) as [[o' [|? ?] [|] n]|].
  - destruct (m_tasks m !! h1) as [[o' [|a l] op n]|] eqn:E; try by left.
    destruct (act_step (fun _ => good) (m_conns m) a) as [[s' nxt] sends] eqn:Ea. cbn in Hr.
    destruct (act_step_registered _ _ _ _ _ _ _ _ Ea Hr) as [?|Hao]; [by left|right].
    exists h1, (Task o' (a :: l) op n). split; [done|]. apply adds_in. exists a, o. split; [by left|done].
  - left. destruct (m_tasks m !! h1) as [[o' l op n]|]; [|done]. by destruct (decide _).
Qed.

Lemma live_back i es e h : is_Some (m_tasks (m_run i es) !! h) -> live (m_run i (es ++ [e])) h -> live (m_run i es) h.
Proof.
  intros Ht [[o Hr]|Hu].
  - destruct (registered_back i es e h o Hr) as [?|?]; [left; by exists o|by right].
  - right. by eapply unregistered_back.
Qed.

Lemma registered_not_pending i es h o : registered (m_conns (m_run i es)) h o -> ~ unregistered (m_run i es) h.
Proof.
  intros Hr. destruct (handle_run deser dec_users dec_topics valid i es) as (os & Hc & Hnd & Hin & _). apply Hin.
  rewrite Hc in Hr. apply (handles_accounted i os h Hnd). left. by eapply registered_live.
Qed.

Lemma stays_registered i es e h o :
  registered (m_conns (m_run i es)) h o -> live (m_run i (es ++ [e])) h -> registered (m_conns (m_run i (es ++ [e]))) h o.
Proof.
  intros Hr Hl. destruct (registered_task deser dec_users dec_topics valid i es h o Hr) as [(t & Ht & Ho) _].
  destruct Hl as [[o' Hr']|Hu].
  - destruct (registered_task deser dec_users dec_topics valid i (es ++ [e]) h o' Hr') as [(t' & Ht' & Ho') _].
    destruct (step_owner deser dec_users dec_topics valid i es e h t Ht) as (t2 & Ht2 & Ho2). assert (o' = o) as -> by congruence. done.
  - exfalso. eapply registered_not_pending; [exact Hr|]. eapply unregistered_back; [eauto|done].
Qed.

Lemma m_step_run m hh good o a l op n :
  m_tasks m !! hh = Some (Task o (a :: l) op n) ->
  m_conns (m_step m (ERun hh good)) = match act_op a with Some c => c_step (m_conns m) c | None => m_conns m end.
Proof.
  intros Ht. cbn [TaskModel.m_step]. rewrite Ht. destruct (act_step (fun _ => good) (m_conns m) a) as [[s' nxt] sends] eqn:Ea.
  cbn. by eapply act_step_op.
Qed.

(** The peer's topic map over one step. *)
Lemma peer_map_step i es e b c R h :
  let m := m_run i es in let m' := m_run i (es ++ [e]) in
  brokers (m_conns m) !! b = Some (BrokerEntry c R h) -> live m' h ->
  exists R', brokers (m_conns m') !! b = Some (BrokerEntry c R' h)
    /\ (R' = R \/ exists hh good o l op n d, e = ERun hh good /\ m_tasks m !! hh = Some (Task o (AApplyTopicSync b d :: l) op n)
          /\ R' = (vm_merge u32_gtb R d).1)
    /\ ((forall hh good o l op n d, e = ERun hh good -> m_tasks m !! hh = Some (Task o (AApplyTopicSync b d :: l) op n) ->
          R' = (vm_merge u32_gtb R d).1)).
Proof.
  intros m m' Hb Hl.
  assert (Hr : registered (m_conns m) h (OBroker b c)) by (by exists R).
  pose proof (stays_registered i es e h _ Hr Hl) as [R' Hb']. fold m' in Hb'. exists R'. split; [done|].
  pose proof (registered_not_pending i es h _ Hr) as Hnp. fold m in Hnp.
  subst m'. rewrite m_run_snoc in *. fold m in Hb', Hl |- *.
  assert (Happ : forall d, m_conns (m_step m e) = c_step (m_conns m) (CApplyTopicSync b d) -> R' = (vm_merge u32_gtb R d).1).
  { intros d Heq. rewrite Heq in Hb'. pose proof (step_peer_map (m_conns m) (CApplyTopicSync b d) b ltac:(intros [])) as Hp.
    rewrite Hb', Hb, decide_True in Hp by done. cbn in Hp. by injection Hp as ->. }
  split.
  - destruct (m_step_op deser dec_users dec_topics valid m e) as [Heq|(hh & good & o & a & l & op & n & cop & -> & Ht & Hc & Heq)].
    + rewrite Heq, Hb in Hb'. injection Hb' as <-. by left.
    + destruct (relinks_dec b cop) as [Hrel|Hrel].
      * exfalso. destruct cop; cbn in Hrel; try done; subst.
        -- destruct a; cbn in Hc; try discriminate Hc. injection Hc as -> -> ->. rewrite Heq in Hb'. cbn [c_step] in Hb'.
           rewrite ab_brokers, lookup_insert in Hb'. injection Hb' as -> <- ->. apply Hnp. exists hh, (Task o (AAddBroker b c h :: l) op n).
           split; [done|]. apply adds_in. eexists _, _. split; [by left|reflexivity].
        -- rewrite Heq in Hb'. cbn [c_step] in Hb'. by rewrite rb_brokers, lookup_delete in Hb'.
      * pose proof (step_peer_map (m_conns m) cop b Hrel) as Hp. rewrite <- Heq, Hb', Hb in Hp. cbn in Hp.
        destruct cop; try (injection Hp as ->; by left). case_decide; [|injection Hp as ->; by left]. subst.
        destruct a; cbn in Hc; try discriminate Hc. injection Hc as -> ->. injection Hp as ->. right.
        exists hh, good, o, l, op, n, m0. done.
  - intros hh good o l op n d -> Ht. apply Happ. by rewrite (m_step_run _ _ _ _ _ _ _ _ Ht).
Qed.

(** A loop that is registered, or will be, over one step. *)
Lemma loop_step i es e h t :
  let m := m_run i es in let m' := m_run i (es ++ [e]) in
  m_tasks m !! h = Some t -> live m' h ->
  exists t', m_tasks m' !! h = Some t' /\
    ((t_frames t' = t_frames t /\ forall x, In x (t_acts t) -> In x (t_acts t') \/ exists good l, e = ERun h good /\ t_acts t = x :: l)
     \/ (exists raw hk, e = EFrame h raw hk /\ t_acts t = [] /\ t_frames t' = S (t_frames t) /\ t_acts t' = (loop_frame (t_owner t) raw hk).1)).
Proof.
  intros m m' Ht Hl. assert (Hlm : live m h) by (eapply live_back; [by exists t|exact Hl]).
  assert (Hna : ~ In h (aborted (m_conns m))).
  { destruct Hlm as [[o Hr]|Hu]; [by eapply registered_task|]. intros Ha. by eapply aborted_not_pending. }
  subst m'. rewrite m_run_snoc in *. fold m in Hl |- *.
  assert (Hsame : m_tasks (m_step m e) !! h = Some t ->
    exists t', m_tasks (m_step m e) !! h = Some t' /\
    ((t_frames t' = t_frames t /\ forall x, In x (t_acts t) -> In x (t_acts t') \/ exists good l, e = ERun h good /\ t_acts t = x :: l)
     \/ (exists raw hk, e = EFrame h raw hk /\ t_acts t = [] /\ t_frames t' = S (t_frames t) /\ t_acts t' = (loop_frame (t_owner t) raw hk).1))).
  { intros Ht'. exists t. split; [done|]. left. split; [done|]. by left. }
  destruct e as [h1 h2 v c1 ts|h1 h2 b c1|h2|h2 v|h1 raw hk|h1|h1 good|h1]; cbn [TaskModel.m_step] in *.
  - apply Hsame. case_decide as Hd; [|done]. destruct Hd as (_ & Hn1 & Hn2). cbn. by rewrite !lookup_insert_ne by congruence.
  - apply Hsame. case_decide as Hd; [|done]. destruct Hd as (_ & Hn1 & Hn2). cbn. by rewrite !lookup_insert_ne by congruence.
  - apply Hsame. destruct (m_tasks m !! h2) eqn:E; [done|]. cbn. by rewrite lookup_insert_ne by congruence.
  - apply Hsame. destruct (m_tasks m !! h2) eqn:E; [done|]. cbn. by rewrite lookup_insert_ne by congruence.
  - destruct (m_tasks m !! h1) as [[o [|? ?] [|] n]|] eqn:E; try (by apply Hsame).
    destruct (decide (h1 = h)) as [->|Hne].
    + rewrite Ht in E. injection E as ->. destruct (loop_frame o raw hk) as [acts go] eqn:El. eexists. cbn. rewrite lookup_insert. split; [done|].
      right. exists raw, hk. split; [done|]. split; [done|]. split; [done|]. by rewrite El.
    + apply Hsame. destruct (loop_frame o raw hk). cbn. by rewrite lookup_insert_ne.
  - destruct (m_tasks m !! h1) as [[o [|? ?] [|] n]|] eqn:E; try (by apply Hsame).
    destruct (decide (h1 = h)) as [->|Hne].
    + rewrite Ht in E. injection E as ->. eexists. cbn. rewrite lookup_insert. split; [done|]. left. done.
    + apply Hsame. cbn. by rewrite lookup_insert_ne.
  - destruct (m_tasks m !! h1) as [[o [|a l] op n]|] eqn:E; try (by apply Hsame).
    destruct (decide (h1 = h)) as [->|Hne].
    + rewrite Ht in E. injection E as ->. destruct (act_step (fun _ => good) (m_conns m) a) as [[s' nxt] sends] eqn:Ea. eexists. cbn. rewrite lookup_insert. split; [done|].
      left. split; [done|]. intros x [->|Hx]; [right; eauto|left]. apply in_app_iff. by right.
    + apply Hsame. destruct (act_step (fun _ => good) (m_conns m) a) as [[s' nxt] sends]. cbn. by rewrite lookup_insert_ne.
  - destruct (m_tasks m !! h1) as [[o l op n]|] eqn:E; [|by apply Hsame]. case_decide as Hd; [|by apply Hsame].
    apply Hsame. cbn. rewrite lookup_insert_ne; [done|]. intros ->. apply Hna. by apply elem_of_list_In.
Qed.

Lemma busy_registered i es h t :
  prompt i es -> live (m_run i es) h -> m_tasks (m_run i es) !! h = Some t -> t_acts t <> [] -> registered (m_conns (m_run i es)) h (t_owner t).
Proof.
  intros Hp [[o Hr]|Hu] Ht Hne.
  - destruct (registered_task deser dec_users dec_topics valid i es h o Hr) as [(t' & Ht' & Ho) _]. congruence.
  - destruct (loop_run deser dec_users dec_topics valid i es Hp) as [HU _]. destruct (HU h Hu) as (o & Ho & _). rewrite Ht in Ho. injection Ho as ->. done.
Qed.
End machine.

(** ** Merging what was told *)
Lemma apply_topic_entry s b m be :
  brokers s !! b = Some be ->
  brokers (c_apply_topic_sync s b m) = <[b := BrokerEntry (be_conn be) (vm_merge u32_gtb (be_topics be) m).1 (be_handle be)]> (brokers s).
Proof.
  intros Hb. rewrite (apply_topic_eq _ _ _ _ Hb).
  match goal with |- context [fold_left (c_apply_topic_change b) ?l ?s1] => pose proof (topic_changes_frame b l s1) as (_ & _ & -> & _) end. done.
Qed.

Lemma told_merge T R d : told T R -> told T d -> told T (vm_merge u32_gtb R d).1.
Proof.
  intros [HR1 HR2] [Hd1 Hd2]. split; [by rewrite merge_cid|]. intros t e. rewrite merge_lookup. unfold lww.
  destruct (entries d !! t) as [rv|] eqn:Hm; [|apply HR2].
  destruct (decide (remote_wins u32_gtb (cid d) (cid R) (entries R !! t) rv)) as [Hw|Hw]; [|apply HR2].
  unfold taken. destruct (val rv) eqn:Hv; [|done]. intros [= <-]. by apply Hd2.
Qed.

Definition plain (d : topic_map) : Prop := forall t e, entries d !! t = Some e -> val e <> None.
Lemma told_plain T d : told T d -> plain d.
Proof. intros [_ Ht] t e He. by destruct (Ht t e He). Qed.

Lemma merge_keeps (R d : topic_map) t e :
  plain d -> entries R !! t = Some e -> exists e', entries (vm_merge u32_gtb R d).1 !! t = Some e' /\ (ver e <= ver e')%N.
Proof.
  intros Hd2 He. rewrite merge_lookup. unfold lww. destruct (entries d !! t) as [rv|] eqn:Hm; [|exists e; split; [done|lia]].
  destruct (decide (remote_wins u32_gtb (cid d) (cid R) (entries R !! t) rv)) as [Hw|Hw]; [|exists e; split; [done|lia]].
  unfold taken. pose proof (Hd2 t rv Hm) as Hv. destruct (val rv) eqn:Hvr; [|done]. exists rv. split; [done|]. rewrite He in Hw. cbn in Hw. lia.
Qed.

Lemma merge_takes (R d : topic_map) t e :
  plain d -> entries d !! t = Some e -> exists e', entries (vm_merge u32_gtb R d).1 !! t = Some e' /\ (ver e <= ver e')%N.
Proof.
  intros Hd2 He. rewrite merge_lookup. unfold lww. rewrite He.
  destruct (decide (remote_wins u32_gtb (cid d) (cid R) (entries R !! t) e)) as [Hw|Hw].
  - unfold taken. pose proof (Hd2 t e He) as Hv. destruct (val e) eqn:Hvr; [|done]. exists e. split; [done|lia].
  - destruct (entries R !! t) as [lv|] eqn:HRe; [|by specialize (Hd2 t e He)]. exists lv. split; [done|]. cbn in Hw. lia.
Qed.

(** No action is followed by an application of a sync. *)
Definition is_apply (a : act) : bool := match a with AApplyTopicSync _ _ | AApplyUserSync _ => true | _ => false end.
Lemma act_step_no_apply ok s a s' nxt sends y : act_step ok s a = (s', nxt, sends) -> In y nxt -> is_apply y = true -> False.
Proof.
  intros Heq Hy.
  destruct a as [w raw only|ts raw only|w f0|w cw f0|b f0|b cb f0|f0|w|b|w cw ts h'|b cb h'|w ts|w ts|d|b d|b|b| |]; cbn [act_step] in *.
  - injection Heq as <- <- <-. unfold direct_next in Hy.
    destruct (c_get_broker_identifier_of_user s w); [case_decide; [|destruct only]|]; try done; by destruct Hy as [<-|[]].
  - injection Heq as <- <- <-. unfold broadcast_next in Hy.
    destruct (c_get_interested_by_topic s ts only). apply in_app_iff in Hy as [Hy|Hy]; by apply in_map_iff in Hy as (z & <- & _).
  - injection Heq as <- <- <-. destruct (c_get_user_connection s w); [|done]. by destruct Hy as [<-|[]].
  - destruct (ok cw); injection Heq as <- <- <-; [done|]. by destruct Hy as [<-|[]].
  - injection Heq as <- <- <-. destruct (c_get_broker_connection s b); [|done]. by destruct Hy as [<-|[]].
  - destruct (ok cb); injection Heq as <- <- <-; [done|]. by destruct Hy as [<-|[]].
  - injection Heq as <- <- <-. by apply in_map_iff in Hy as (z & <- & _).
  - by injection Heq as <- <- <-.
  - by injection Heq as <- <- <-.
  - by injection Heq as <- <- <-.
  - by injection Heq as <- <- <-.
  - by injection Heq as <- <- <-.
  - by injection Heq as <- <- <-.
  - by injection Heq as <- <- <-.
  - by injection Heq as <- <- <-.
  - injection Heq as <- <- <-. destruct (c_get_full_topic_sync s); [|done]. by destruct Hy as [<-|[]].
  - injection Heq as <- <- <-. destruct (c_get_full_user_sync s); [|done]. by destruct Hy as [<-|[]].
  - destruct (c_get_partial_topic_sync s) as [s1 [d|]]; injection Heq as <- <- <-; [|done]. by destruct Hy as [<-|[]].
  - destruct (c_get_partial_user_sync s) as [s1 [d|]]; injection Heq as <- <- <-; [|done]. by destruct Hy as [<-|[]].
Qed.

(** ** The network *)
Section net.
Variable deser : bytes -> option message.
Variable dec_users : bytes -> option direct_map.
Variable dec_topics : bytes -> option topic_map.
Variable valid : N -> bool.
Variable enc_users : direct_map -> bytes.
Variable enc_topics : topic_map -> bytes.
Hypothesis Hcodec : faithful_sync deser dec_users dec_topics enc_users enc_topics.
Notation m_step := (m_step deser dec_users dec_topics valid).
Notation m_run := (m_run deser dec_users dec_topics valid).
Notation m_run_snoc := (m_run_snoc deser dec_users dec_topics valid).
Notation loop_frame := (loop_frame deser dec_users dec_topics valid).
Notation prompt := (prompt deser dec_users dec_topics valid).
Notation broker_at := (broker_at deser dec_users dec_topics valid).
Notation fresh_pair := (fresh_pair deser dec_users dec_topics valid).
Notation n_step := (n_step deser dec_users dec_topics valid enc_users enc_topics).
Notation n_run := (n_run deser dec_users dec_topics valid enc_users enc_topics).
Notation n_run_snoc := (n_run_snoc deser dec_users dec_topics valid enc_users enc_topics).
Notation wire := (wire enc_users enc_topics).
Notation net_inv := (net_inv deser dec_users dec_topics valid enc_users enc_topics).
Notation loop_of := (loop_of deser dec_users dec_topics valid).
Notation conns_at n b := (m_conns (broker_at n b)).
Notation tasks_at n b := (m_tasks (broker_at n b)).

(** Loops receive only once registered, and the steps of a broker are fewer than 2^64. *)
Definition fine (n : net) : Prop := forall b, prompt b (trace n b) /\ short (trace n b).

Inductive possible (n : net) (b : bid) : event -> Prop :=
  | p_step e : receives_nothing e = true -> possible n b e
  | p_user h hh u c ts : fresh_pair n b h hh c -> possible n b (EUserAuthed h hh u c ts)
  | p_peer h hh a c : a <> b -> fresh_pair n b h hh c -> possible n b (EBrokerAuthed h hh a c)
  | p_frame h raw hk u c t : tasks_at n b !! h = Some t -> t_owner t = OUser u c -> hook_keeps hk -> possible n b (EFrame h raw hk)
  | p_deliver a c h hk t x : n_links n !! (a, c) = Some (b, h) -> tasks_at n b !! h = Some t -> sent_on (broker_at n a) c !! t_frames t = Some x ->
      hook_passes hk -> possible n b (EFrame h (wire (e_frame (s_what x))) hk).

Lemma possible_frame n b h raw hk :
  possible n b (EFrame h raw hk) ->
  (exists u c t, tasks_at n b !! h = Some t /\ t_owner t = OUser u c /\ hook_keeps hk)
  \/ (exists a c t x, n_links n !! (a, c) = Some (b, h) /\ tasks_at n b !! h = Some t /\ sent_on (broker_at n a) c !! t_frames t = Some x
       /\ hook_passes hk /\ raw = wire (e_frame (s_what x))).
Proof. inversion 1; subst; [done|left; eauto 7|right; eauto 10]. Qed.

Lemma fine_back n n' : (forall b, trace n' b = trace n b \/ exists e, trace n' b = trace n b ++ [e]) -> fine n' -> fine n.
Proof.
  intros Ht Hf b. destruct (Hf b) as [Hp Hs]. destruct (Ht b) as [Heq|[e Heq]]; rewrite Heq in Hp, Hs; [done|].
  split; [by eapply prompt_app|by eapply short_app].
Qed.
Lemma fine_extend n b e : fine (extend n b e) -> fine n.
Proof. apply fine_back. intros b'. rewrite trace_extend. case_decide; eauto. Qed.

Definition linked_up (n : net) a ha hha ca b hb hhb cb : net :=
  let n1 := extend (extend n a (EBrokerAuthed ha hha b ca)) b (EBrokerAuthed hb hhb a cb) in
  Net (n_trace n1) (<[(a, ca) := (b, hb)]> (<[(b, cb) := (a, ha)]> (n_links n1))).

Lemma net_induct (P : net -> Prop) es :
  hooks_pass es -> fine (n_run es) ->
  P (Net ∅ ∅) ->
  (forall n b e, net_inv n -> P n -> possible n b e -> fine (extend n b e) -> P (extend n b e)) ->
  (forall n a ha hha ca b hb hhb cb, net_inv n -> P n -> a <> b -> fresh_pair n a ha hha ca -> fresh_pair n b hb hhb cb ->
     fine (linked_up n a ha hha ca b hb hhb cb) ->
     P (extend (extend n a (EBrokerAuthed ha hha b ca)) b (EBrokerAuthed hb hhb a cb)) -> P (linked_up n a ha hha ca b hb hhb cb)) ->
  P (n_run es).
Proof.
  intros Hh Hf H0 Hext Hup. induction es as [|e es IH] using rev_ind; [done|].
  assert (Hh' : hooks_pass es).
  { destruct Hh as [H1 H2]. split; [intros a c hk Hin; apply (H1 a c)|intros b h raw hk Hin; apply (H2 b h raw)]; apply in_app_iff; by left. }
  rewrite n_run_snoc in *. assert (Hf' : fine (n_run es)) by (eapply fine_back; [|exact Hf]; intros b; apply trace_step).
  specialize (IH Hh' Hf'). pose proof (inv_run deser dec_users dec_topics valid enc_users enc_topics es) as Hi. set (n := n_run es) in *.
  assert (He : In e (es ++ [e])) by (apply in_app_iff; right; by left).
  destruct e as [b h hh u c ts|a ha hha ca b hb hhb cb|b h raw hk|a c hk|b e]; cbn [NetModel.n_step] in *.
  - case_decide as Hd; [|done]. apply Hext; [done|done|by constructor|done].
  - case_decide as Hd; [|done]. destruct Hd as (Hne & Ha & Hb). fold (linked_up n a ha hha ca b hb hhb cb) in *.
    set (n0 := extend n a (EBrokerAuthed ha hha b ca)) in *.
    assert (Hfn1 : fine (extend n0 b (EBrokerAuthed hb hhb a cb))) by (intros b'; exact (Hf b')).
    assert (Hi0 : net_inv n0). { apply inv_extend; [done| |done]. cbn. intros c' [<-|[]]. apply Ha. }
    apply Hup; try done. apply Hext; [done| | |done].
    + apply Hext; [done|done|by constructor|by eapply fine_extend].
    + constructor; [done|]. destruct Hb as (Hb1 & Hb2 & Hb3 & Hb4). unfold NetModel.fresh_pair.
      assert (Htb : trace (extend n a (EBrokerAuthed ha hha b ca)) b = trace n b) by (rewrite trace_extend; by rewrite decide_False).
      unfold NetModel.broker_at in *. rewrite Htb. done.
  - destruct (tasks_at n b !! h) as [[[u c|b' c|] acts op k]|] eqn:E; try done.
    apply Hext; [done|done| |done]. eapply p_frame; [exact E|done|]. destruct Hh as [_ H2]. by apply (H2 b h raw).
  - destruct (n_links n !! (a, c)) as [[b h]|] eqn:El; [|done].
    destruct (tasks_at n b !! h) as [t|] eqn:Et; [|done].
    destruct (sent_on (broker_at n a) c !! t_frames t) as [x|] eqn:Ex; [|done].
    apply Hext; [done|done| |done]. eapply p_deliver; [exact El|exact Et|exact Ex|]. destruct Hh as [H1 _]. by apply (H1 a c).
  - destruct (receives_nothing e) eqn:Hr; [|done]. apply Hext; [done|done|by constructor|done].
Qed.

Lemma run_extend n b e : broker_at (extend n b e) b = m_run b (trace n b ++ [e]).
Proof. unfold NetModel.broker_at. by rewrite trace_extend, decide_True. Qed.
Lemma run_other n b e b' : b <> b' -> broker_at (extend n b e) b' = broker_at n b'.
Proof. intros Hne. rewrite broker_extend. by rewrite decide_False. Qed.

(** *** What is held about another broker's topics is true, or was *)
Definition sound (n : net) : Prop :=
  (forall b r, In r (m_rcvd (broker_at n b)) -> hook_keeps (r_hook r))
  /\ (forall a h t b d, tasks_at n a !! h = Some t -> In (AApplyTopicSync b d) (t_acts t) -> told (topic_sync (conns_at n b)) d)
  /\ (forall a b be, brokers (conns_at n a) !! b = Some be -> told (topic_sync (conns_at n b)) (be_topics be)).

Lemma told_extend n b e b' d :
  fine (extend n b e) -> told (topic_sync (conns_at n b')) d -> told (topic_sync (conns_at (extend n b e) b')) d.
Proof.
  intros Hf Ht. destruct (decide (b = b')) as [<-|Hne].
  - rewrite run_extend. apply told_mono; [|exact Ht]. destruct (Hf b) as [_ Hs]. by rewrite trace_extend, decide_True in Hs.
  - by rewrite run_other.
Qed.

(** Which applications of topic syncs a step adds. *)
Lemma apply_new m e h t b d :
  m_tasks (m_step m e) !! h = Some t -> In (AApplyTopicSync b d) (t_acts t) ->
  (exists h0 t0, m_tasks m !! h0 = Some t0 /\ In (AApplyTopicSync b d) (t_acts t0))
  \/ exists raw hk t0, e = EFrame h raw hk /\ m_tasks m !! h = Some t0 /\ In (AApplyTopicSync b d) (loop_frame (t_owner t0) raw hk).1.
Proof.
  intros Ht Hin.
  assert (Hold : forall k tk, m_tasks m !! k = Some tk -> In (AApplyTopicSync b d) (t_acts tk) ->
     exists h0 t0, m_tasks m !! h0 = Some t0 /\ In (AApplyTopicSync b d) (t_acts t0)) by eauto.
  destruct e as [h1 h2 v c1 ts|h1 h2 b1 c1|h2|h2 v|h1 raw hk|h1|h1 good|h1]; cbn [TaskModel.m_step] in Ht.
  - left. case_decide; [|by eapply Hold]. cbn in Ht. apply lookup_insert_Some in Ht as [[<- <-]|[_ Ht]].
    { destruct Hin as [?|[?|[?|[]]]]; done. }
    apply lookup_insert_Some in Ht as [[<- <-]|[_ Ht]]; [done|by eapply Hold].
  - left. case_decide; [|by eapply Hold]. cbn in Ht. apply lookup_insert_Some in Ht as [[<- <-]|[_ Ht]].
    { destruct Hin as [?|[?|[?|[]]]]; done. }
    apply lookup_insert_Some in Ht as [[<- <-]|[_ Ht]]; [done|by eapply Hold].
  - left. destruct (m_tasks m !! h2); [by eapply Hold|]. cbn in Ht. apply lookup_insert_Some in Ht as [[<- <-]|[_ Ht]]; [|by eapply Hold].
    destruct Hin as [?|[?|[]]]; done.
  - left. destruct (m_tasks m !! h2); [by eapply Hold|]. cbn in Ht. apply lookup_insert_Some in Ht as [[<- <-]|[_ Ht]]; [|by eapply Hold].
    destruct Hin as [?|[]]; done.
  - destruct (m_tasks m !! h1) as [[o [|? ?] [|] n]|] eqn:E; try (left; by eapply Hold).
    destruct (loop_frame o raw hk) as [acts go] eqn:El. cbn in Ht. apply lookup_insert_Some in Ht as [[<- <-]|[_ Ht]]; [|left; by eapply Hold].
    right. exists raw, hk, (Task o [] true n). split; [done|]. split; [done|]. cbn. by rewrite El.
  - left. destruct (m_tasks m !! h1) as [[o [|? ?] [|] n]|] eqn:E; try (by eapply Hold). cbn in Ht.
    apply lookup_insert_Some in Ht as [[<- <-]|[_ Ht]]; [|by eapply Hold]. destruct o; cbn in Hin; try done; destruct Hin as [?|[]]; done.
  - left. destruct (m_tasks m !! h1) as [[o [|a l] op n]|] eqn:E; try (by eapply Hold).
    destruct (act_step (fun _ => good) (m_conns m) a) as [[s' nxt] sends] eqn:Ea. cbn in Ht.
    apply lookup_insert_Some in Ht as [[<- <-]|[_ Ht]]; [|by eapply Hold]. cbn [t_acts] in Hin. apply in_app_iff in Hin as [Hin|Hin].
    { exfalso. eapply act_step_no_apply; [exact Ea|exact Hin|done]. }
    eapply Hold; [exact E|]. by right.
  - left. destruct (m_tasks m !! h1) as [[o l op n]|] eqn:E; [|by eapply Hold]. case_decide; [|by eapply Hold]. cbn in Ht.
    apply lookup_insert_Some in Ht as [[<- <-]|[_ Ht]]; [done|by eapply Hold].
Qed.

Lemma told_same T d d' : entries d' = entries d -> cid d' = cid d -> told T d -> told T d'.
Proof. unfold told. by intros -> ->. Qed.

(** What a broker's loop makes of a sync message. *)
Lemma topic_frame_acts b d hk : hook_passes hk ->
  exists d', broker_frame deser dec_users dec_topics b (wire (FTopicSync d)) hk = ([AApplyTopicSync b d'], true) /\ entries d' = entries d /\ cid d' = cid d.
Proof.
  intros [_ Hk]. destruct Hcodec as [_ Hc]. destruct (Hc d) as (p & d' & Hd & Hp & He & Hi). exists d'. split; [|done].
  unfold broker_frame. cbn [NetModel.wire]. rewrite Hd. destruct (Hk p) as [_ ->]. by rewrite Hp.
Qed.
Lemma user_frame_acts b d hk : hook_passes hk ->
  exists d', broker_frame deser dec_users dec_topics b (wire (FUserSync d)) hk = ([AApplyUserSync d'], true) /\ entries d' = entries d /\ cid d' = cid d.
Proof.
  intros [_ Hk]. destruct Hcodec as [Hc _]. destruct (Hc d) as (p & d' & Hd & Hp & He & Hi). exists d'. split; [|done].
  unfold broker_frame. cbn [NetModel.wire]. rewrite Hd. destruct (Hk p) as [-> _]. by rewrite Hp.
Qed.
Lemma user_no_apply u raw hk x : In x (user_frame deser valid u raw hk).1 -> is_apply x = false.
Proof.
  unfold user_frame. destruct (deser raw) as [m0|]; [|by intros [<-|[]]]. destruct (hk m0) as [|m1|]; [done| |by intros [<-|[]]].
  destruct m1; try (by intros [<-|[]]); destruct (prune valid topics) as [? [|]]; by intros [<-|[]].
Qed.
(** Relayed frames are never taken for sync messages. *)
Lemma relay_no_apply n a x raw b hk y :
  (forall b r, In r (m_rcvd (broker_at n b)) -> hook_keeps (r_hook r)) ->
  In x (m_sent (broker_at n a)) -> e_frame (s_what x) = FRelay raw -> hook_passes hk ->
  In y (broker_frame deser dec_users dec_topics b raw hk).1 -> is_apply y = false.
Proof.
  intros Hr Hx Hw [Hk _] Hy. destruct (relay_received deser dec_users dec_topics valid a (trace n a) x raw Hx Hw) as (hk0 & m0 & msg & Hin & Hd & Hk0 & Hm).
  apply (Hr a) in Hin. cbn in Hin. apply Hin in Hk0. subst msg. unfold broker_frame in Hy. rewrite Hd in Hy.
  destruct (hk m0) as [|m1|] eqn:E; [done| |by destruct Hy as [<-|[]]]. apply Hk in E. subst m1.
  destruct Hm as [(r & body & ->)|(ts & body & ->)]; by destruct Hy as [<-|[]].
Qed.

Lemma delivered_acts n b h hk a c t x y :
  net_inv n -> (forall b r, In r (m_rcvd (broker_at n b)) -> hook_keeps (r_hook r)) ->
  n_links n !! (a, c) = Some (b, h) -> tasks_at n b !! h = Some t -> In x (m_sent (broker_at n a)) -> hook_passes hk ->
  In y (loop_frame (t_owner t) (wire (e_frame (s_what x))) hk).1 -> is_apply y = true ->
  (exists d d', e_frame (s_what x) = FTopicSync d /\ y = AApplyTopicSync a d' /\ entries d' = entries d /\ cid d' = cid d)
  \/ (exists d d', e_frame (s_what x) = FUserSync d /\ y = AApplyUserSync d' /\ entries d' = entries d /\ cid d' = cid d).
Proof.
  intros (I0 & _) Hr Hl Ht Hx Hk Hy Ha. destruct (I0 _ _ _ _ Hl) as (_ & _ & cb & t' & Ht' & Ho). rewrite Ht in Ht'. injection Ht' as <-.
  rewrite Ho in Hy. cbn [TaskModel.loop_frame] in Hy. destruct (e_frame (s_what x)) as [raw|d|d] eqn:Ef.
  - exfalso. rewrite (relay_no_apply n a x raw a hk y Hr Hx Ef Hk Hy) in Ha. done.
  - right. destruct (user_frame_acts a d hk Hk) as (d' & Heq & ? & ?). rewrite Heq in Hy. destruct Hy as [<-|[]]. eauto 7.
  - left. destruct (topic_frame_acts a d hk Hk) as (d' & Heq & ? & ?). rewrite Heq in Hy. destruct Hy as [<-|[]]. eauto 7.
Qed.

Lemma sent_on_elem m c k x : sent_on m c !! k = Some x -> In x (m_sent m) /\ e_conn (s_what x) = c.
Proof. intros Hx. apply elem_of_list_lookup_2, elem_of_list_filter in Hx as [Hc Hx]. split; [by apply elem_of_list_In|done]. Qed.

Lemma sound_empty : sound (Net ∅ ∅).
Proof.
  split; [|split].
  + intros b r. unfold NetModel.broker_at, trace. cbn. by rewrite lookup_empty.
  + intros a h t b d. unfold NetModel.broker_at, trace. cbn. by rewrite !lookup_empty.
  + intros a b be. unfold NetModel.broker_at, trace. cbn. by rewrite !lookup_empty.
Qed.
Lemma sound_extend n b e : net_inv n -> sound n -> possible n b e -> fine (extend n b e) -> sound (extend n b e).
Proof.
  intros Hi (S1 & S2 & S3) Hp Hf.
  assert (S2' : forall h t b' d, tasks_at (extend n b e) b !! h = Some t -> In (AApplyTopicSync b' d) (t_acts t) -> told (topic_sync (conns_at n b')) d).
  { intros h t b' d Ht Hin. rewrite broker_extend, decide_True in Ht by done.
    destruct (apply_new _ _ _ _ _ _ Ht Hin) as [(h0 & t0 & Ht0 & Hin0)|(raw & hk & t0 & -> & Ht0 & Hin0)]; [by eapply S2|].
    apply possible_frame in Hp as [(u & c & t1 & Ht1 & Ho & _)|(a & c & t1 & x & Hl & Ht1 & Hx & Hk & ->)]; rewrite Ht0 in Ht1; injection Ht1 as <-.
    - rewrite Ho in Hin0. cbn [TaskModel.loop_frame] in Hin0. by apply user_no_apply in Hin0.
    - apply sent_on_elem in Hx as [Hx _].
      destruct (delivered_acts n b h hk a c t0 x (AApplyTopicSync b' d) Hi S1 Hl Ht0 Hx Hk Hin0 eq_refl) as [(d0 & d' & Hfr & Hy & He & Hc)|(d0 & d' & _ & Hy & _)]; [|done].
      injection Hy as -> ->. eapply told_same; [exact He|exact Hc|].
      destruct (said_run deser dec_users dec_topics valid a (trace n a)) as [_ Hsaid]; [by apply (fine_extend _ _ _ Hf)|]. by eapply Hsaid. }
  split; [|split].
  + intros b' r Hin. destruct (decide (b = b')) as [<-|Hne]; [|rewrite run_other in Hin by done; by eapply S1].
    rewrite broker_extend, decide_True in Hin by done.
    destruct (step_rcvd deser dec_users dec_topics valid (broker_at n b) e) as [Heq|(h & raw & hk & t & -> & Ht & Heq)]; rewrite Heq in Hin; [by eapply S1|].
    apply in_app_iff in Hin as [Hin|[<-|[]]]; [by eapply S1|]. cbn.
    apply possible_frame in Hp as [(u & c & t1 & _ & _ & Hk)|(a & c & t1 & x & _ & _ & _ & [Hk _] & _)]; exact Hk.
  + intros a h t b' d Ht Hin. apply told_extend; [done|]. destruct (decide (b = a)) as [<-|Hne]; [by eapply S2'|]. rewrite run_other in Ht by done. by eapply S2.
  + intros a b' be Hbe. apply told_extend; [done|]. destruct (decide (b = a)) as [<-|Hne]; [|rewrite run_other in Hbe by done; by eapply S3].
    rewrite broker_extend, decide_True in Hbe by done.
    destruct (m_step_op deser dec_users dec_topics valid (broker_at n b) e) as [Heq|(hh & good & o & a & l & op & k & cop & -> & Ht & Hc & Heq)];
      rewrite Heq in Hbe; [by eapply S3|].
    destruct (relinks_dec b' cop) as [Hrel|Hrel].
    * destruct cop; cbn in Hrel; try done; subst; cbn [c_step] in Hbe.
      -- rewrite ab_brokers, lookup_insert in Hbe. injection Hbe as <-. split; [done|]. intros t e. cbn. by rewrite lookup_empty.
      -- by rewrite rb_brokers, lookup_delete in Hbe.
    * pose proof (step_peer_map (conns_at n b) cop b' Hrel) as Hpm. rewrite Hbe in Hpm. cbn [fmap option_fmap option_map] in Hpm.
      assert (Hold : Some (be_topics be) = be_topics <$> brokers (conns_at n b) !! b' -> told (topic_sync (conns_at n b')) (be_topics be)).
      { intros Hs. destruct (brokers (conns_at n b) !! b') as [be0|] eqn:Eb; [|done]. injection Hs as ->. by eapply S3. }
      destruct cop; try (by apply Hold). case_decide; [|by apply Hold]. subst.
      destruct (brokers (conns_at n b) !! b') as [be0|] eqn:Eb; [|done]. cbn in Hpm. injection Hpm as ->.
      destruct a; cbn in Hc; try discriminate Hc. injection Hc as -> ->. apply told_merge; [by eapply S3|]. eapply S2; [exact Ht|by left].
Qed.

(** *** A loop has received at most what was sent *)
Definition frames_le (n : net) : Prop :=
  forall b cb a ha t, n_links n !! (b, cb) = Some (a, ha) -> tasks_at n a !! ha = Some t -> t_frames t <= length (sent_on (broker_at n b) cb).

Lemma step_frames m e h t t' :
  m_tasks m !! h = Some t -> m_tasks (m_step m e) !! h = Some t' ->
  t_frames t' = t_frames t \/ t_frames t' = S (t_frames t) /\ exists raw hk, e = EFrame h raw hk.
Proof.
  intros Ht Ht'.
  destruct e as [h1 h2 v c1 ts|h1 h2 b1 c1|h2|h2 v|h1 raw hk|h1|h1 good|h1]; cbn [TaskModel.m_step] in Ht'.
  - case_decide as Hd; [|left; congruence]. destruct Hd as (_ & Hn1 & Hn2). cbn in Ht'. rewrite !lookup_insert_ne in Ht' by congruence. left; congruence.
  - case_decide as Hd; [|left; congruence]. destruct Hd as (_ & Hn1 & Hn2). cbn in Ht'. rewrite !lookup_insert_ne in Ht' by congruence. left; congruence.
  - destruct (m_tasks m !! h2) eqn:E; [left; congruence|]. cbn in Ht'. rewrite lookup_insert_ne in Ht' by congruence. left; congruence.
  - destruct (m_tasks m !! h2) eqn:E; [left; congruence|]. cbn in Ht'. rewrite lookup_insert_ne in Ht' by congruence. left; congruence.
  - destruct (m_tasks m !! h1) as [[o [|? ?] [|] n]|] eqn:E; try (left; congruence). destruct (loop_frame o raw hk). cbn in Ht'.
    apply lookup_insert_Some in Ht' as [[<- <-]|[_ Ht']]; [|left; congruence]. rewrite Ht in E. injection E as ->. right. cbn. eauto.
  - destruct (m_tasks m !! h1) as [[o [|? ?] [|] n]|] eqn:E; try (left; congruence). cbn in Ht'.
    apply lookup_insert_Some in Ht' as [[<- <-]|[_ Ht']]; [|left; congruence]. rewrite Ht in E. injection E as ->. by left.
  - destruct (m_tasks m !! h1) as [[o [|a l] op n]|] eqn:E; try (left; congruence).
    destruct (act_step (fun _ => good) (m_conns m) a) as [[s' nxt] sends]. cbn in Ht'.
    apply lookup_insert_Some in Ht' as [[<- <-]|[_ Ht']]; [|left; congruence]. rewrite Ht in E. injection E as ->. by left.
  - destruct (m_tasks m !! h1) as [[o l op n]|] eqn:E; [|left; congruence]. case_decide; [|left; congruence]. cbn in Ht'.
    apply lookup_insert_Some in Ht' as [[<- <-]|[_ Ht']]; [|left; congruence]. rewrite Ht in E. injection E as ->. by left.
Qed.

Lemma frames_le_extend n b0 e : net_inv n -> frames_le n -> possible n b0 e -> fine (extend n b0 e) -> frames_le (extend n b0 e).
Proof.
  intros Hi HP Hp Hf b cb a ha t' Hl Ht'. change (n_links n !! (b, cb) = Some (a, ha)) in Hl.
  destruct Hi as (I0 & I2 & _). destruct (I0 _ _ _ _ Hl) as (Hne & _ & c0 & t & Ht & Ho). specialize (HP _ _ _ _ _ Hl Ht).
  destruct (sent_on_extend deser dec_users dec_topics valid n b0 e b cb) as [l Hsl]. rewrite Hsl, app_length.
  destruct (decide (b0 = a)) as [->|Hna]; [|rewrite run_other in Ht' by done; rewrite Ht in Ht'; injection Ht' as <-; lia].
  rewrite broker_extend, decide_True in Ht' by done. destruct (step_frames _ _ _ _ _ Ht Ht') as [->|[-> (raw & hk & ->)]]; [lia|].
  apply possible_frame in Hp as [(u & c & t1 & Ht1 & Ho1 & _)|(a1 & c & t1 & x & Hl1 & Ht1 & Hx & _)]; rewrite Ht in Ht1; injection Ht1 as <-; [congruence|].
  destruct (I2 _ _ _ _ _ _ Hl Hl1) as [<- <-]. apply lookup_lt_Some in Hx. lia.
Qed.
Lemma frames_le_up n a ha hha ca b hb hhb cb :
  a <> b -> fresh_pair n a ha hha ca -> fresh_pair n b hb hhb cb ->
  frames_le (extend (extend n a (EBrokerAuthed ha hha b ca)) b (EBrokerAuthed hb hhb a cb)) -> frames_le (linked_up n a ha hha ca b hb hhb cb).
Proof.
  intros Hne Ha Hb HP. set (n1 := extend _ b _) in *.
  assert (Ha0 : forall t, tasks_at n1 a !! ha = Some t -> t_frames t = 0).
  { intros t. unfold n1. rewrite run_other by done. rewrite broker_extend, decide_True by done.
    rewrite m_step_broker_authed by apply Ha. by intros [= <-]. }
  assert (Hb0 : forall t, tasks_at n1 b !! hb = Some t -> t_frames t = 0).
  { intros t. unfold n1. rewrite broker_extend, decide_True by done. rewrite run_other by done.
    rewrite m_step_broker_authed by apply Hb. by intros [= <-]. }
  intros b' cb' a' ha' t Hl Ht. unfold linked_up in Hl. fold n1 in Hl. cbn [n_links] in Hl.
  change (tasks_at n1 a' !! ha' = Some t) in Ht. change (t_frames t <= length (sent_on (broker_at n1 b') cb')).
  apply lookup_insert_Some in Hl as [[Heq Hv]|[_ Hl]].
  { injection Hv as -> ->. rewrite (Hb0 t Ht). lia. }
  apply lookup_insert_Some in Hl as [[Heq Hv]|[_ Hl]].
  { injection Hv as -> ->. rewrite (Ha0 t Ht). lia. }
  by eapply HP.
Qed.

(** Induction with these two invariants at hand. *)
Lemma net_induct2 (P : net -> Prop) es :
  hooks_pass es -> fine (n_run es) ->
  P (Net ∅ ∅) ->
  (forall n b e, net_inv n -> sound n -> frames_le n -> P n -> possible n b e -> fine (extend n b e) -> P (extend n b e)) ->
  (forall n a ha hha ca b hb hhb cb, net_inv n -> sound n -> P n -> a <> b -> fresh_pair n a ha hha ca -> fresh_pair n b hb hhb cb ->
     fine (linked_up n a ha hha ca b hb hhb cb) ->
     P (extend (extend n a (EBrokerAuthed ha hha b ca)) b (EBrokerAuthed hb hhb a cb)) -> P (linked_up n a ha hha ca b hb hhb cb)) ->
  sound (n_run es) /\ frames_le (n_run es) /\ P (n_run es).
Proof.
  intros Hh Hf H0 Hext Hup. apply (net_induct (fun n => sound n /\ frames_le n /\ P n)); [done|done| | |].
  - split; [apply sound_empty|]. split; [|done]. intros b cb a ha t Hl. cbn in Hl. by rewrite lookup_empty in Hl.
  - intros n b e Hi (H1 & H2 & H3) Hp Hfe. split; [by apply sound_extend|]. split; [by apply frames_le_extend|by apply Hext].
  - intros n a ha hha ca b hb hhb cb Hi (H1 & H2 & H3) Hne Ha Hb Hfl (H4 & H5 & H6).
    split; [exact H4|]. split; [by apply frames_le_up|by apply Hup].
Qed.

(** *** Everything current is on its way or has arrived *)
Definition cov (tp : bool) (G : frame -> Prop) (App : act -> Prop) (A : conns -> Prop) (n : net) (b : bid) (cb : N) (a : bid) (ha : N) : Prop :=
  A (conns_at n a)
  \/ (exists t, tasks_at n a !! ha = Some t /\ in_transit cb G (broker_at n b) (t_frames t))
  \/ (exists t x, tasks_at n a !! ha = Some t /\ In x (t_acts t) /\ App x)
  \/ about_to a cb G tp (broker_at n b).

Lemma cov_step tp G App A n b0 e b cb a ha :
  net_inv n -> frames_le n -> possible n b0 e -> fine (extend n b0 e) -> n_links n !! (b, cb) = Some (a, ha) ->
  c_get_broker_connection (conns_at n b) a = Some cb -> c_get_broker_connection (conns_at (extend n b0 e) b) a = Some cb ->
  live (broker_at (extend n b0 e) a) ha ->
  full_ok G tp (conns_at n b) ->
  (forall f hk, G f -> hook_passes hk -> exists x, In x (broker_frame deser dec_users dec_topics b (wire f) hk).1 /\ App x) ->
  (forall x ca, App x -> registered (conns_at n a) ha (OBroker b ca) -> exists c, act_op x = Some c /\ A (c_step (conns_at n a) c)) ->
  (A (conns_at n a) -> A (conns_at (extend n b0 e) a)) ->
  cov tp G App A n b cb a ha -> cov tp G App A (extend n b0 e) b cb a ha.
Proof.
  intros (I0 & I2 & _) Hfl Hp Hf Hl Hc Hc' Hlive Hfull HG HApp HA Hcov.
  destruct (I0 _ _ _ _ Hl) as (Hne & _ & ca & t & Ht & Ho). specialize (Hfl _ _ _ _ _ Hl Ht).
  destruct (decide (b0 = b)) as [->|Hnb].
  - (* a step of the sender *)
    assert (Ha : broker_at (extend n b e) a = broker_at n a) by (by apply run_other).
    unfold cov. rewrite !Ha. destruct Hcov as [Hcov|[(t' & Ht' & Hcov)|[Hcov|Hcov]]].
    + by left.
    + right. left. exists t'. split; [done|]. rewrite broker_extend, decide_True by done. by apply in_transit_step.
    + right. right. by left.
    + rewrite run_extend in Hc' |- *.
      destruct (sender_step deser dec_users dec_topics valid a cb G tp b (trace n b) e (t_frames t) Hcov Hfull Hc) as [?|?]; [by rewrite Hc'|done| |].
      * right. right. by right.
      * right. left. by exists t.
  - assert (Hb : broker_at (extend n b0 e) b = broker_at n b) by (by apply run_other).
    destruct (decide (b0 = a)) as [->|Hna].
    2:{ assert (Ha : broker_at (extend n b0 e) a = broker_at n a) by (by apply run_other).
        unfold cov. rewrite !Ha, !Hb. exact Hcov. }
    (* a step of the receiver *)
    pose proof (fine_extend _ _ _ Hf a) as [Hprompt _].
    assert (Hlm : live (broker_at n a) ha).
    { rewrite run_extend in Hlive. eapply live_back; [|exact Hlive]. by exists t. }
    pose proof Hlive as Hlive'. rewrite run_extend in Hlive'.
    destruct (loop_step deser dec_users dec_topics valid a (trace n a) e ha t Ht Hlive') as (t2 & Ht2 & Hcase).
    rewrite <- run_extend in Ht2. unfold cov. rewrite !Hb.
    destruct Hcov as [Hcov|[(t' & Ht' & Hcov)|[(t' & x & Ht' & Hx & Happ)|Hcov]]].
    + left. by apply HA.
    + rewrite Ht in Ht'. injection Ht' as <-. destruct Hcase as [[Hfr _]|(raw & hk & -> & Hnil & Hfr & Hacts)].
      { right. left. exists t2. by rewrite Hfr. }
      destruct Hcov as (j & x & Hj & Hx & Hg). destruct (decide (j = t_frames t)) as [->|Hjne].
      * right. right. left.
        apply possible_frame in Hp as [(u & c & t1 & Ht1 & Ho1 & _)|(a1 & c & t1 & x1 & Hl1 & Ht1 & Hx1 & Hk & ->)]; rewrite Ht in Ht1; injection Ht1 as <-; [congruence|].
        destruct (I2 _ _ _ _ _ _ Hl Hl1) as [<- <-]. rewrite Hx in Hx1. injection Hx1 as <-.
        destruct (HG _ hk Hg Hk) as (y & Hy & Happ). exists t2, y. split; [done|]. split; [|done]. rewrite Hacts, Ho. exact Hy.
      * right. left. exists t2. split; [done|]. exists j, x. split; [lia|done].
    + rewrite Ht in Ht'. injection Ht' as <-. destruct Hcase as [[_ Hac]|(raw & hk & -> & Hnil & _)]; [|by rewrite Hnil in Hx].
      destruct (Hac x Hx) as [Hx2|(good & l & -> & Hl2)]; [right; right; left; by exists t2, x|].
      left. pose proof (busy_registered deser dec_users dec_topics valid a (trace n a) ha t Hprompt Hlm Ht) as Hreg. rewrite Ho in Hreg.
      destruct (HApp x ca Happ) as (c & Hop & HAc); [apply Hreg; by rewrite Hl2|].
      rewrite broker_extend, decide_True by done. destruct t as [ow ac op k]. cbn in Hl2. subst ac.
      rewrite (m_step_run deser dec_users dec_topics valid _ _ _ _ _ _ _ _ Ht), Hop. exact HAc.
    + right. right. by right.
Qed.

(** *** Topics *)
Definition topic_in (t : N) (cur : vval sub_status) (d : topic_map) : Prop := exists e, entries d !! t = Some e /\ (ver cur <= ver e)%N.
Definition t_G t cur (f : frame) : Prop := exists d, f = FTopicSync d /\ topic_in t cur d /\ plain d.
Definition t_App b t cur (x : act) : Prop := exists d, x = AApplyTopicSync b d /\ topic_in t cur d /\ plain d.
Definition t_A b ha t cur (s : conns) : Prop := exists c R, brokers s !! b = Some (BrokerEntry c R ha) /\ topic_in t cur R.

Definition topics_covered (n : net) : Prop :=
  forall b cb a ha, n_links n !! (b, cb) = Some (a, ha) -> c_get_broker_connection (conns_at n b) a = Some cb -> live (broker_at n a) ha ->
  forall t cur, entries (topic_sync (conns_at n b)) !! t = Some cur ->
  cov true (t_G t cur) (t_App b t cur) (t_A b ha t cur) n b cb a ha.

Lemma conns_extend_reg n b e a c :
  c_get_broker_connection (conns_at (extend n b e) b) a = Some c -> c_get_broker_connection (conns_at n b) a <> Some c ->
  forall G tp, about_to a c G tp (broker_at (extend n b e) b).
Proof.
  intros Hc' Hc G tp. rewrite run_extend in Hc' |- *. by apply (registration_tells deser dec_users dec_topics valid a c G tp b (trace n b) e).
Qed.

Lemma topics_covered_run es : hooks_pass es -> fine (n_run es) -> sound (n_run es) /\ frames_le (n_run es) /\ topics_covered (n_run es).
Proof.
  intros Hh Hf. apply net_induct2; [done|done| | |].
  - intros b cb a ha Hl. cbn in Hl. by rewrite lookup_empty in Hl.
  - clear es Hh Hf. intros n b0 e Hi Hs Hfl HP Hp Hf b cb a ha Hl Hc' Hlive t cur Hcur.
    change (n_links n !! (b, cb) = Some (a, ha)) in Hl.
    destruct (proj1 Hi _ _ _ _ Hl) as (Hne & _ & ca & ta & Hta & Hoa).
    destruct (decide (c_get_broker_connection (conns_at n b) a = Some cb)) as [Hc|Hc].
    2:{ right. right. right. destruct (decide (b0 = b)) as [->|Hnb]; [by apply conns_extend_reg|]. by rewrite run_other in Hc'. }
    assert (Hlm : live (broker_at n a) ha).
    { destruct (decide (b0 = a)) as [->|Hna]; [|by rewrite run_other in Hlive]. rewrite run_extend in Hlive. eapply live_back; [|exact Hlive]. by exists ta. }
    assert (Hcase : entries (topic_sync (conns_at n b)) !! t = Some cur \/ about_to a cb (t_G t cur) true (broker_at (extend n b0 e) b)).
    { destruct (decide (b0 = b)) as [->|Hnb]; [|left; by rewrite run_other in Hcur].
      rewrite run_extend in Hcur |- *. destruct (Hf b) as [_ Hsh]. rewrite trace_extend, decide_True in Hsh by done.
      destruct (topic_new deser dec_users dec_topics valid b (trace n b) e t cur Hsh Hcur) as [?|(h & good & o & l & op & k & d & -> & Ht & Hd & Hdt)]; [by left|right].
      eapply (delta_tells deser dec_users dec_topics valid a cb _ true b (trace n b) _ h good o l op k (FTopicSync d)); [done|exact Ht|by rewrite Hd|].
      exists d. split; [done|]. split; [exists cur; split; [done|lia]|].
      eapply told_plain, told_partial; [|exact Hd]. by eapply short_app. }
    destruct Hcase as [Hcur0|Hab]; [|right; right; by right].
    destruct (fine_extend _ _ _ Hf b) as [_ Hsh].
    destruct (topic_state deser dec_users dec_topics valid b (trace n b) Hsh) as (_ & _ & Hval & _).
    apply (cov_step true (t_G t cur) (t_App b t cur) (t_A b ha t cur) n b0 e b cb a ha); try done.
    + (* the full sync *) exists (topic_sync (conns_at n b)). split.
      * unfold c_get_full_topic_sync. rewrite decide_False; [done|]. intros He. by rewrite He in Hcur0.
      * eexists. split; [done|]. split; [exists cur; split; [done|lia]|]. intros t' e' He'. by rewrite (Hval t' e' He').
    + intros f hk (d & -> & (e1 & He1 & Hle) & Hpl) Hk. destruct (topic_frame_acts b d hk Hk) as (d' & Heq & He & _). rewrite Heq.
      eexists. split; [by left|]. exists d'. split; [done|]. unfold topic_in, plain. rewrite He. split; [by exists e1|done].
    + intros x c (d & -> & (e1 & He1 & Hle) & Hpl) (R & HR). eexists. split; [reflexivity|].
      destruct (merge_takes R d t e1 Hpl He1) as (e2 & He2 & Hle2).
      exists c, (vm_merge u32_gtb R d).1. split; [|exists e2; split; [done|lia]].
      cbn [c_step]. by rewrite (apply_topic_entry _ _ _ _ HR), lookup_insert.
    + intros (c & R & HR & e1 & He1 & Hle). destruct (decide (b0 = a)) as [->|Hna]; [|rewrite run_other by done; exists c, R; split; [done|by exists e1]].
      rewrite run_extend in Hlive |- *. destruct (peer_map_step deser dec_users dec_topics valid a (trace n a) e b c R ha HR Hlive) as (R' & HR' & Hcs & _).
      exists c, R'. split; [done|]. destruct Hcs as [->|(hh & good & o & l & op & k & d & -> & Ht & ->)]; [by exists e1|].
      destruct (merge_keeps R d t e1) as (e2 & He2 & Hle2); [|done|exists e2; split; [done|lia]].
      destruct Hs as (_ & S2 & _). eapply told_plain, S2; [exact Ht|by left].
    + by apply HP.
  - clear es Hh Hf. intros n a ha hha ca b hb hhb cb Hi Hs _ Hne Ha Hb Hf HP. set (n1 := extend _ b _) in *.
    intros b' cb' a' ha' Hl Hc Hlive. unfold linked_up in Hl. fold n1 in Hl. cbn [n_links] in Hl.
    change (c_get_broker_connection (conns_at n1 b') a' = Some cb') in Hc.
    assert (Hfresh : forall x y c, (x = a /\ c = ca \/ x = b /\ c = cb) -> c_get_broker_connection (conns_at n1 x) y <> Some c).
    { intros x y c Hx Hc1. 
      assert (Hsame : conns_at n1 x = conns_at n x).
      { unfold n1. rewrite broker_extend. case_decide; subst.
        - rewrite run_other by done. cbn [TaskModel.m_step]. by destruct (decide _).
        - rewrite broker_extend. case_decide; [|done]. subst. cbn [TaskModel.m_step]. by destruct (decide _). }
      rewrite Hsame in Hc1. assert (Hfr : c ∉ authed_conns (trace n x)) by (destruct Hx as [[-> ->]|[-> ->]]; [apply Ha|apply Hb]). apply Hfr.
      unfold c_get_broker_connection in Hc1. destruct (brokers (conns_at n x) !! y) as [be|] eqn:E; [|done]. cbn in Hc1. injection Hc1 as <-.
      destruct (reg_run deser dec_users dec_topics valid x (trace n x)) as [[_ Hr] _]. destruct (Hr _ _ E) as (hh & Hin).
      apply elem_of_list_In, in_concat. exists [be_conn be]. split; [|by left]. apply in_map_iff. eexists. split; [|exact Hin]. done. }
    apply lookup_insert_Some in Hl as [[Heq Hv]|[_ Hl]].
    { injection Heq as <- <-. exfalso. eapply Hfresh; [|exact Hc]. by left. }
    apply lookup_insert_Some in Hl as [[Heq Hv]|[_ Hl]].
    { injection Heq as <- <-. exfalso. eapply Hfresh; [|exact Hc]. by right. }
    by apply (HP b' cb' a' ha').
Qed.

(** *** At rest *)
(** The same link is registered at both ends. *)
Definition joined (n : net) (a b : bid) : Prop :=
  exists ca cb ha hb ta,
    c_get_broker_connection (conns_at n a) b = Some ca /\ c_get_broker_connection (conns_at n b) a = Some cb
    /\ n_links n !! (a, ca) = Some (b, hb) /\ n_links n !! (b, cb) = Some (a, ha)
    /\ tasks_at n a !! ha = Some ta /\ t_owner ta = OBroker b ca.

Lemma loop_authed i es h t b c : m_tasks (m_run i es) !! h = Some t -> t_owner t = OBroker b c -> exists hh, In (EBrokerAuthed h hh b c) es.
Proof.
  revert t. induction es as [|e es IH] using rev_ind; intros t Ht Ho; [cbn in Ht; by rewrite lookup_empty in Ht|].
  destruct (m_tasks (m_run i es) !! h) as [t0|] eqn:E.
  { destruct (step_owner deser dec_users dec_topics valid i es e h t0 E) as (t' & Ht' & Ho'). rewrite Ht in Ht'. injection Ht' as <-.
    destruct (IH t0 eq_refl) as [hh Hin]; [congruence|]. exists hh. apply in_app_iff. by left. }
  rewrite m_run_snoc in Ht. set (m := m_run i es) in *.
  destruct e as [h1 h2 v c1 ts|h1 h2 b1 c1|h2|h2 v|h1 raw hk|h1|h1 good|h1]; cbn [TaskModel.m_step] in Ht.
  - case_decide; [|congruence]. cbn in Ht. apply lookup_insert_Some in Ht as [[<- <-]|[_ Ht]]; [done|].
    apply lookup_insert_Some in Ht as [[<- <-]|[_ Ht]]; [done|congruence].
  - case_decide; [|congruence]. cbn in Ht. apply lookup_insert_Some in Ht as [[<- <-]|[_ Ht]]; [done|].
    apply lookup_insert_Some in Ht as [[<- <-]|[_ Ht]]; [|congruence]. cbn in Ho. injection Ho as -> ->. exists h2. apply in_app_iff. right. by left.
  - destruct (m_tasks m !! h2); [congruence|]. cbn in Ht. apply lookup_insert_Some in Ht as [[<- <-]|[_ Ht]]; [done|congruence].
  - destruct (m_tasks m !! h2); [congruence|]. cbn in Ht. apply lookup_insert_Some in Ht as [[<- <-]|[_ Ht]]; [done|congruence].
  - destruct (m_tasks m !! h1) as [[o [|? ?] [|] n]|] eqn:E1; try congruence. destruct (loop_frame o raw hk). cbn in Ht.
    apply lookup_insert_Some in Ht as [[<- <-]|[_ Ht]]; congruence.
  - destruct (m_tasks m !! h1) as [[o [|? ?] [|] n]|] eqn:E1; try congruence. cbn in Ht.
    apply lookup_insert_Some in Ht as [[<- <-]|[_ Ht]]; congruence.
  - destruct (m_tasks m !! h1) as [[o [|a l] op n]|] eqn:E1; try congruence.
    destruct (act_step (fun _ => good) (m_conns m) a) as [[s' nxt] sends]. cbn in Ht.
    apply lookup_insert_Some in Ht as [[<- <-]|[_ Ht]]; congruence.
  - destruct (m_tasks m !! h1) as [[o l op n]|] eqn:E1; [|congruence]. case_decide; [|congruence]. cbn in Ht.
    apply lookup_insert_Some in Ht as [[<- <-]|[_ Ht]]; congruence.
Qed.

(** The receiving end of a joined link is the registered loop. *)
Lemma joined_live n a b :
  net_inv n -> joined n a b ->
  exists ca cb ha R, c_get_broker_connection (conns_at n b) a = Some cb /\ n_links n !! (b, cb) = Some (a, ha)
    /\ brokers (conns_at n a) !! b = Some (BrokerEntry ca R ha) /\ live (broker_at n a) ha.
Proof.
  intros (_ & _ & _ & I4) (ca & cb & ha & hb & ta & Hca & Hcb & Hl1 & Hl2 & Hta & Hoa).
  unfold c_get_broker_connection in Hca. destruct (brokers (conns_at n a) !! b) as [[c0 R h0]|] eqn:E; [|done]. cbn in Hca. injection Hca as ->.
  destruct (reg_run deser dec_users dec_topics valid a (trace n a)) as [[_ Hr] _]. destruct (Hr _ _ E) as (hh0 & Hin0). cbn in Hin0.
  destruct (loop_authed _ _ _ _ _ _ Hta Hoa) as (hh & Hin).
  pose proof (authed_unique (trace n a) _ _ ca (I4 a) Hin0 Hin ltac:(by left) ltac:(by left)) as Heq. injection Heq as -> ->.
  exists ca, cb, ha, R. split; [done|]. split; [done|]. split; [done|]. left. exists (OBroker b ca), R. done.
Qed.

Notation at_rest := (at_rest deser dec_users dec_topics valid).
Notation subscribed_at := (subscribed_at deser dec_users dec_topics valid).

(** Nothing is pending or in transit at rest. *)
Lemma rest_cov tp G App A n b cb a ha ca R :
  fine n -> at_rest n -> n_links n !! (b, cb) = Some (a, ha) -> brokers (conns_at n a) !! b = Some (BrokerEntry ca R ha) ->
  cov tp G App A n b cb a ha -> A (conns_at n a).
Proof.
  intros Hf [Hr1 Hr2] Hl HR [Hcov|[(t & Ht & j & x & Hj & Hx & _)|[(t & x & Ht & Hx & _)|(h & t & x & Ht & _ & Hx & _)]]].
  - done.
  - exfalso. destruct (loop_run deser dec_users dec_topics valid a (trace n a) (proj1 (Hf a))) as [_ Hlr].
    destruct (Hlr ha (OBroker b ca)) as (t' & Ht' & _ & Hop); [by exists R|]. fold (broker_at n a) in Ht'.
    change (tasks_at n a !! ha = Some t') in Ht'. rewrite Ht in Ht'. injection Ht' as <-.
    destruct Hop as [Hop|(y & Hy & _)]; [|rewrite (Hr1 _ _ _ Ht) in Hy; done].
    rewrite (Hr2 _ _ _ _ _ Hl Ht Hop) in Hj. apply lookup_lt_Some in Hx. lia.
  - by rewrite (Hr1 _ _ _ Ht) in Hx.
  - by rewrite (Hr1 _ _ _ Ht) in Hx.
Qed.

Lemma subscribed_now n b t : t ∈ topics_now (conns_at n b) <-> exists v, subscribed_at n b v t.
Proof.
  unfold topics_now. rewrite elem_of_list_to_set. rewrite get_values_fwd by apply state_idx. unfold NetSynced.subscribed_at.
  split; intros [v Hv]; exists v.
  - apply interested_users; [apply state_idx|]. exists t. split; [by left|done].
  - apply interested_users in Hv as (t' & [<-|[]] & Hv); [done|apply state_idx].
Qed.

Lemma topics_settle es a b t :
  hooks_pass es -> let n := n_run es in fine n -> at_rest n -> joined n a b ->
  (c_get_partial_topic_sync (conns_at n b)).2 = None ->
  In b (c_get_interested_by_topic (conns_at n a) [t] false).1 <-> exists v, subscribed_at n b v t.
Proof.
  intros Hh n Hf Hr Hj Hnone. destruct (topics_covered_run es Hh Hf) as ((_ & _ & S3) & _ & Hcov). fold n in Hcov, S3.
  pose proof (inv_run deser dec_users dec_topics valid enc_users enc_topics es) as Hi. fold n in Hi.
  destruct (joined_live n a b Hi Hj) as (ca & cb & ha & R & Hcb & Hl & HR & Hlive).
  pose proof (S3 _ _ _ HR) as [_ Htold]. cbn [be_topics] in Htold.
  destruct (topic_state deser dec_users dec_topics valid b (trace n b) (proj2 (Hf b))) as (_ & Hmod & Hval & Hprev).
  change (m_run b (trace n b)) with (broker_at n b) in Hmod, Hval, Hprev.
  destruct (partial_topic_effect _ Hmod) as (_ & _ & _ & _ & E5). rewrite Hnone in E5.
  assert (Harr : forall cur, entries (topic_sync (conns_at n b)) !! t = Some cur -> entries R !! t = Some cur).
  { intros cur Hcur. pose proof (Hcov _ _ _ _ Hl Hcb Hlive t cur Hcur) as Hc.
    apply (rest_cov _ _ _ _ _ _ _ _ _ _ _ Hf Hr Hl HR) in Hc as (c1 & R1 & HR1 & e & He & Hle). rewrite HR in HR1. injection HR1 as <- <-.
    destruct (Htold t e He) as (_ & cur' & Hcur' & Hle'). rewrite Hcur in Hcur'. injection Hcur' as <-. destruct Hle' as [?| -> ]; [lia|done]. }
  rewrite <- subscribed_now, E5.
  destruct (conns_history deser dec_users dec_topics valid a (trace n a)) as (os & Hos & _). change (m_run a (trace n a)) with (broker_at n a) in Hos.
  rewrite Hos, interested_brokers_view, <- Hos.
  assert (Hview : view (conns_at n a) b t = vm_get R t) by (unfold view; by rewrite HR).
  split.
  - intros (_ & t' & [<-|[]] & Hv). rewrite Hview in Hv. unfold vm_get in Hv. destruct (entries R !! t) as [e|] eqn:He; [|done].
    destruct (Htold t e He) as (_ & cur & Hcur & _). pose proof (Harr cur Hcur) as Ha. injection Ha as <-.
    rewrite (Hval t e Hcur) in Hv. by case_decide.
  - intros Hp. destruct (Hprev t Hp) as [cur Hcur]. split; [done|]. exists t. split; [by left|]. rewrite Hview. unfold vm_get. rewrite (Harr cur Hcur).
    rewrite (Hval t cur Hcur). by rewrite decide_True.
Qed.
End net.
