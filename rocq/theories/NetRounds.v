(** A network at rest in which brokers do nothing but their periodic synchronisation. *)
From stdpp Require Import gmap fin_maps fin_sets list.
From Coq Require Import NArith ZArith Lia.
From Verif Require Import IdModel RelMapModel RelMapProofs VMapModel VMapSpec VMapProofs ConnModel ConnSpec ConnProofs ConnProofs2 ConnProofs3 ConnProofs4
  SyncSpec TopicSyncProofs SyncModel DirSyncProofs TopicModel MsgModel RouteModel TaskModel TaskProofs TaskOrder TaskHandles TaskSync
  NetModel NetProofs NetOrigin NetDelivery NetComplete NetSynced NetSettle NetSettleDir NetSettleAll.

(** Nobody connects, publishes or fails; periodic synchronisation may happen. *)
Definition tidy (e : nevent) : Prop :=
  match e with
  | NDeliver _ _ hk => hk = no_hook
  | NStep _ (ERun _ true) | NStep _ (ESync _) => True
  | _ => False
  end.
Lemma calm_tidy e : calm e -> tidy e.
Proof. by destruct e as [| | | |b []]. Qed.

(** ** The directory's unannounced entries are the broker's own *)
Definition mod_own (s : conns) : Prop :=
  forall k, k ∈ modified (direct s) -> exists e, entries (direct s) !! k = Some e /\ (val e = Some (identity s) \/ val e = None).

Lemma mod_own_remove s u : mod_own s -> mod_own (c_remove_user s u).
Proof.
  intros Hm k. rewrite ru_identity, ru_direct, rie_modified, rie_entries. intros [Hk|[<- Hg]].
  - case_decide as H; [|by apply Hm]. eexists. split; [done|]. by right.
  - rewrite decide_True by done. eexists. split; [done|]. by right.
Qed.
Lemma mod_own_removes s us : mod_own s -> mod_own (remove_users s us).
Proof. revert s. induction us as [|u us IH]; intros s Hm; [done|]. rewrite remove_users_cons. by apply IH, mod_own_remove. Qed.
Lemma rus_identity' s us : identity (remove_users s us) = identity s.
Proof. revert s. induction us as [|u us IH]; intros s; [done|]. by rewrite remove_users_cons, IH, ru_identity. Qed.
Lemma step_identity s o : identity (c_step s o) = identity s.
Proof.
  destruct o; cbn [c_step].
  - by rewrite au_identity.
  - by rewrite ru_identity.
  - by rewrite ab_identity.
  - by rewrite rb_identity.
  - done.
  - done.
  - rewrite apply_user_sync_eq. by rewrite rus_identity'.
  - by destruct (apply_topic_frame s b m) as (-> & _).
  - by rewrite partial_user_direct.
  - by destruct (partial_topic_frame s) as (-> & _).
Qed.
Lemma step_mod_own s o : mod_own s -> mod_own (c_step s o).
Proof.
  intros Hm. destruct (decide (neutral o)) as [Hn|Hn].
  { intros k. rewrite neutral_direct, step_identity by done. apply Hm. }
  destruct o; try (exfalso; by apply Hn); cbn [c_step].
  - intros k. rewrite add_user_modified, au_identity. pose proof (mod_own_remove s u Hm k) as Hr. rewrite ru_identity, ru_direct in Hr.
    rewrite au_direct. unfold vm_insert. rewrite modify_local_lookup. intros Hk. case_decide as Hd.
    + eexists. split; [reflexivity|]. left. destruct (entries _ !! u); [case_decide|]; done.
    + apply Hr. apply rie_modified. destruct Hk; [congruence|by left].
  - by apply mod_own_remove.
  - rewrite apply_user_sync_eq. apply mod_own_removes. intros k. cbn [set_direct direct identity]. rewrite merge_modified, merge_lookup.
    intros [Hk Hnw]. destruct (Hm k Hk) as (e & He & Hv). exists e. split; [|done]. rewrite He in *. unfold lww.
    destruct (entries m !! k) as [rv|] eqn:Hr; [|done]. case_decide as Hw; [|done]. exfalso. apply Hnw. eauto.
  - intros k. rewrite partial_user_direct. cbn. rewrite diff_rest_modified. set_solver.
Qed.
Lemma run_mod_own i os : mod_own (c_run i os).
Proof. induction os as [|o os IH] using rev_ind; [intros k; cbn; set_solver|]. rewrite c_run_snoc. by apply step_mod_own. Qed.

(** Applying what names no user of ours leaves nothing to announce. *)
Lemma rus_clean s us :
  modified (direct s) = ∅ -> (forall u, u ∈ us -> vm_get (direct s) u <> Some (identity s)) -> direct (remove_users s us) = direct s.
Proof.
  revert s. induction us as [|u us IH]; intros s Hm Hu; [done|]. rewrite remove_users_cons.
  assert (Hd : direct (c_remove_user s u) = direct s).
  { rewrite ru_direct. unfold vm_remove_if_equals. pose proof (Hu u ltac:(left)) as Hg. unfold vm_get in Hg.
    destruct (entries (direct s) !! u); [|done]. by rewrite decide_False. }
  rewrite IH; [done|by rewrite Hd|]. intros u' Hu'. rewrite Hd, ru_identity. apply Hu. by right.
Qed.
Lemma apply_user_clean s d :
  modified (direct s) = ∅ -> (forall k e, entries d !! k = Some e -> val e <> Some (identity s)) -> modified (direct (c_apply_user_sync s d)) = ∅.
Proof.
  intros Hm Hd. rewrite apply_user_sync_eq.
  assert (Hm' : modified (direct (set_direct (vm_merge bid_gtb (direct s) d).1 s)) = ∅).
  { apply elem_of_equiv_empty_L. intros k. cbn. rewrite merge_modified, Hm. set_solver. }
  rewrite rus_clean; [done|done|]. intros u Hu. cbn [set_direct direct identity].
  apply elem_of_list_In, in_map_iff in Hu as ([u' v] & <- & Hu). apply merge_changes in Hu as (rv & Hr & -> & Hw). cbn [fst].
  unfold vm_get. rewrite merge_lookup, Hr. unfold lww. rewrite decide_True by done. unfold taken. destruct (val rv) eqn:E; [|done]. rewrite E. rewrite <- E. by eapply Hd.
Qed.

Lemma diff_none (m : direct_map) : modified m = ∅ -> entries (vm_diff m).1 = ∅.
Proof. intros Hm. apply map_empty. intros k. rewrite diff_delta_lookup, Hm. by rewrite decide_False by set_solver. Qed.
Lemma partial_user_none s : modified (direct s) = ∅ -> (c_get_partial_user_sync s).2 = None.
Proof. intros Hm. rewrite partial_user_direct. cbn. unfold vm_is_empty. rewrite diff_none by done. by rewrite bool_decide_true. Qed.

Lemma partial_topic_previous s : previous_topics (c_get_partial_topic_sync s).1 = list_to_set (rm_get_values (bm_users s)).
Proof.
  unfold c_get_partial_topic_sync. set (now := list_to_set (rm_get_values (bm_users s))) in *.
  destruct (elements (now ∖ previous_topics s)) eqn:E1; [|by destruct (vm_diff _)].
  destruct (elements (previous_topics s ∖ now)) eqn:E2; [|by destruct (vm_diff _)]. cbn.
  apply elements_empty_inv in E1, E2. clearbody now. apply set_eq. intros x. destruct (decide (x ∈ now)), (decide (x ∈ previous_topics s)); set_solver.
Qed.
Lemma partial_topic_none s : previous_topics s = list_to_set (rm_get_values (bm_users s)) -> (c_get_partial_topic_sync s).2 = None.
Proof. intros Hp. unfold c_get_partial_topic_sync. rewrite Hp. by rewrite difference_diag_L, elements_empty. Qed.

Section net.
Variable deser : bytes -> option message.
Variable dec_users : bytes -> option direct_map.
Variable dec_topics : bytes -> option topic_map.
Variable valid : N -> bool.
Variable enc_users : direct_map -> bytes.
Variable enc_topics : topic_map -> bytes.
Hypothesis Hcodec : faithful_sync deser dec_users dec_topics enc_users enc_topics.
Notation m_step := (m_step deser dec_users dec_topics valid).
Notation m_run := (m_run deser dec_users dec_topics valid).
Notation m_run_snoc := (m_run_snoc deser dec_users dec_topics valid).
Notation loop_frame := (loop_frame deser dec_users dec_topics valid).
Notation broker_frame := (broker_frame deser dec_users dec_topics).
Notation broker_at := (broker_at deser dec_users dec_topics valid).
Notation n_step := (n_step deser dec_users dec_topics valid enc_users enc_topics).
Notation n_run := (n_run deser dec_users dec_topics valid enc_users enc_topics).
Notation n_run_snoc := (n_run_snoc deser dec_users dec_topics valid enc_users enc_topics).
Notation wire := (wire enc_users enc_topics).
Notation net_inv := (net_inv deser dec_users dec_topics valid enc_users enc_topics).
Notation loop_of := (loop_of deser dec_users dec_topics valid).
Notation conns_at n b := (m_conns (broker_at n b)).
Notation tasks_at n b := (m_tasks (broker_at n b)).
Notation at_rest := (at_rest deser dec_users dec_topics valid).
Notation joined := (joined deser dec_users dec_topics valid).
Notation nothing_due := (nothing_due deser dec_users dec_topics valid).

(** Broker [b] starts a round of its periodic synchronisation during [r]. *)
Definition sync_starts (es r : list nevent) (b : bid) : Prop :=
  exists r1 hh r2, r = r1 ++ NStep b (ESync hh) :: r2 /\ tasks_at (n_run (es ++ r1)) b !! hh = None.

(** ** One phase: a class of actions that keeps to itself *)
Section phase.
Variable good_act : bid -> act -> Prop.
Variable good_frame : bid -> frame -> Prop.
Variable good_state : conns -> Prop.
Hypothesis Hrun : forall b s a s' nxt sends,
  identity s = b -> good_state s -> good_act b a -> act_step (fun _ => true) s a = (s', nxt, sends) ->
  good_state s' /\ Forall (good_act b) nxt /\ Forall (fun e => good_frame b (e_frame e)) sends.
Hypothesis Hround : forall b, Forall (good_act b) sync_round.
Hypothesis Hrecv : forall a b f, a <> b -> good_frame a f -> exists acts, broker_frame a (wire f) no_hook = (acts, true) /\ Forall (good_act b) acts.

Definition pinv (n : net) : Prop :=
  (forall b, good_state (conns_at n b))
  /\ (forall b h t, tasks_at n b !! h = Some t -> Forall (good_act b) (t_acts t))
  /\ (forall a c b h t i x, n_links n !! (a, c) = Some (b, h) -> tasks_at n b !! h = Some t -> t_open t = true -> t_frames t <= i ->
        sent_on (broker_at n a) c !! i = Some x -> good_frame a (e_frame (s_what x))).

Lemma pinv_rest n : at_rest n -> (forall b, good_state (conns_at n b)) -> pinv n.
Proof.
  intros [Hr1 Hr2] Hs. split; [done|]. split.
  - intros b h t Ht. rewrite (Hr1 _ _ _ Ht). constructor.
  - intros a c b h t i x Hl Ht Ho Hi Hx. rewrite (Hr2 _ _ _ _ _ Hl Ht Ho) in Hi. apply lookup_lt_Some in Hx. lia.
Qed.

Lemma conns_identity n b : identity (conns_at n b) = b.
Proof.
  unfold NetModel.broker_at. destruct (machine_history deser dec_users dec_topics valid b (trace n b)) as [os ->]. apply run_identity.
Qed.

(** What one tidy step does. *)
Inductive tstep (n : net) : net -> Prop :=
  | ts_none n' : n_trace n' = n_trace n \/ (exists b e, n' = extend n b e /\ m_step (broker_at n b) e = broker_at n b) -> n_links n' = n_links n -> tstep n n'
  | ts_run b h o a l op k s' nxt sends : tasks_at n b !! h = Some (Task o (a :: l) op k) -> act_step (fun _ => true) (conns_at n b) a = (s', nxt, sends) ->
      tstep n (extend n b (ERun h true))
  | ts_sync b hh : tasks_at n b !! hh = None -> tstep n (extend n b (ESync hh))
  | ts_frame a c b h k x o : n_links n !! (a, c) = Some (b, h) -> tasks_at n b !! h = Some (Task o [] true k) ->
      sent_on (broker_at n a) c !! k = Some x -> tstep n (extend n b (EFrame h (wire (e_frame (s_what x))) no_hook)).

Lemma tidy_tstep n e : tidy e -> tstep n (n_step n e).
Proof.
  destruct e as [| | |a c hk|b e]; cbn; try done.
  - intros ->. assert (Hno : tstep n n) by (apply ts_none; [by left|done]).
    destruct (n_links n !! (a, c)) as [[b h]|] eqn:El; [|done].
    destruct (tasks_at n b !! h) as [t|] eqn:Et; [|done]. destruct (sent_on (broker_at n a) c !! t_frames t) as [x|] eqn:Ex; [|done].
    destruct t as [o acts op k]. cbn [t_frames] in Ex. destruct acts as [|]; [destruct op|].
    + by eapply ts_frame.
    + apply ts_none; [right; eexists _, _; split; [reflexivity|]|done]. by eapply frame_closed.
    + apply ts_none; [right; eexists _, _; split; [reflexivity|]|done]. by eapply frame_busy.
  - destruct e as [| |hh| | | |h good|]; cbn; try done.
    + intros _. destruct (tasks_at n b !! hh) eqn:E; [|by apply ts_sync].
      apply ts_none; [right; eexists _, _; split; [reflexivity|]|done]. cbn. by rewrite E.
    + destruct good; [|done]. intros _. destruct (tasks_at n b !! h) as [[o [|a l] op k]|] eqn:E.
      * apply ts_none; [right; eexists _, _; split; [reflexivity|]|done]. by eapply run_idle.
      * destruct (act_step (fun _ => true) (conns_at n b) a) as [[s' nxt] sends] eqn:Ea. by eapply ts_run.
      * apply ts_none; [right; eexists _, _; split; [reflexivity|]|done]. by eapply run_none.
Qed.

Lemma none_brokers n n' : n_trace n' = n_trace n \/ (exists b e, n' = extend n b e /\ m_step (broker_at n b) e = broker_at n b) ->
  forall d, broker_at n' d = broker_at n d.
Proof.
  intros [H|(b & e & -> & H)] d; [unfold NetModel.broker_at, trace; by rewrite H|].
  rewrite broker_extend. case_decide; [by subst|done].
Qed.
Lemma run_machine n b h o a l op k s' nxt sends :
  tasks_at n b !! h = Some (Task o (a :: l) op k) -> act_step (fun _ => true) (conns_at n b) a = (s', nxt, sends) ->
  broker_at (extend n b (ERun h true)) b = Machine s' (<[h := Task o (nxt ++ l) op k]> (tasks_at n b)) (m_sent (broker_at n b) ++ map (Sent h k) sends) (m_rcvd (broker_at n b)).
Proof. intros Ht Ha. rewrite broker_extend, decide_True by done. cbn [TaskModel.m_step]. by rewrite Ht, Ha. Qed.
Lemma sync_machine n b hh : tasks_at n b !! hh = None ->
  broker_at (extend n b (ESync hh)) b = set_task (broker_at n b) hh (Task OOther sync_round false 0).
Proof. intros Ht. rewrite broker_extend, decide_True by done. cbn [TaskModel.m_step]. by rewrite Ht. Qed.
Lemma frame_machine n b h o k raw acts go : tasks_at n b !! h = Some (Task o [] true k) -> loop_frame o raw no_hook = (acts, go) ->
  broker_at (extend n b (EFrame h raw no_hook)) b = Machine (conns_at n b) (<[h := Task o acts go (S k)]> (tasks_at n b)) (m_sent (broker_at n b))
    (m_rcvd (broker_at n b) ++ [Rcvd h (S k) raw no_hook]).
Proof. intros Ht Hl. rewrite broker_extend, decide_True by done. cbn [TaskModel.m_step]. by rewrite Ht, Hl. Qed.

(** A received frame is a good one. *)
Lemma good_receive n a c b h k x o :
  net_inv n -> pinv n -> n_links n !! (a, c) = Some (b, h) -> tasks_at n b !! h = Some (Task o [] true k) -> sent_on (broker_at n a) c !! k = Some x ->
  exists acts, loop_frame o (wire (e_frame (s_what x))) no_hook = (acts, true) /\ Forall (good_act b) acts.
Proof.
  intros (I1 & _) (_ & _ & P3) Hl Ht Hx. destruct (I1 _ _ _ _ Hl) as (Hne & _ & cb & t & Ht' & Ho).
  rewrite Ht in Ht'. injection Ht' as <-. cbn in Ho. subst o. cbn [TaskModel.loop_frame].
  apply (Hrecv a b); [done|]. by eapply P3.
Qed.

Lemma pinv_tstep n n' : net_inv n -> pinv n -> tstep n n' -> pinv n'.
Proof.
  intros Hi Hp Hs. pose proof Hi as (I1 & _). pose proof Hp as (P1 & P2 & P3).
  destruct Hs as [n' Hb Hl|b h o a l op k s' nxt sends Ht Ha|b hh Ht|a c b h k x o Hl Ht Hx].
  - pose proof (none_brokers _ _ Hb) as Hd. split; [intros b; rewrite Hd; apply P1|]. split.
    + intros b h t. rewrite Hd. apply P2.
    + intros a c b h t i x. rewrite Hl, !Hd. apply P3.
  - pose proof (run_machine _ _ _ _ _ _ _ _ _ _ _ Ht Ha) as Hm.
    pose proof (P2 _ _ _ Ht) as Hg. cbn in Hg. apply Forall_cons in Hg as [Hga Hgl].
    destruct (Hrun b _ _ _ _ _ (conns_identity n b) (P1 b) Hga Ha) as (Hs' & Hn & Hse). split; [|split].
    + intros d. destruct (decide (b = d)) as [<-|Hne]; [rewrite Hm; done|]. by rewrite extend_other.
    + intros d h' t'. destruct (decide (b = d)) as [<-|Hne]; [|rewrite extend_other by done; apply P2].
      rewrite Hm. cbn. rewrite lookup_insert_Some. intros [[<- <-]|[_ H']]; [|by eapply P2]. cbn. by apply Forall_app.
    + intros d c d' h' t' i x Hl Ht' Ho Hi' Hx. cbn in Hl.
      assert (Hold : exists t0, tasks_at n d' !! h' = Some t0 /\ t_open t0 = t_open t' /\ t_frames t0 = t_frames t').
      { destruct (decide (b = d')) as [<-|Hne]; [|rewrite extend_other in Ht' by done; eauto].
        rewrite Hm in Ht'. cbn in Ht'. apply lookup_insert_Some in Ht' as [[<- <-]|[_ H']]; eauto. }
      destruct Hold as (t0 & Ht0 & Ho0 & Hf0).
      destruct (decide (b = d)) as [<-|Hne]; [|rewrite extend_other in Hx by done; refine (P3 d c d' h' t0 i x Hl Ht0 _ _ Hx); [congruence|lia]].
      unfold sent_on in Hx. rewrite Hm in Hx. cbn [m_sent] in Hx. rewrite filter_app in Hx. apply lookup_app_Some in Hx as [Hx|[_ Hx]].
      * refine (P3 b c d' h' t0 i x Hl Ht0 _ _ Hx); [congruence|lia].
      * apply elem_of_list_lookup_2, elem_of_list_filter in Hx as [_ Hx]. apply elem_of_list_In, in_map_iff in Hx as (e & <- & He).
        cbn. exact (proj1 (List.Forall_forall _ _) Hse _ He).
  - pose proof (sync_machine _ _ _ Ht) as Hm.
    assert (Hc : forall d, conns_at (extend n b (ESync hh)) d = conns_at n d).
    { intros d. destruct (decide (b = d)) as [<-|Hne]; [by rewrite Hm|by rewrite extend_other]. }
    assert (Hse : forall d, m_sent (broker_at (extend n b (ESync hh)) d) = m_sent (broker_at n d)).
    { intros d. destruct (decide (b = d)) as [<-|Hne]; [by rewrite Hm|by rewrite extend_other]. }
    split; [intros d; rewrite Hc; apply P1|]. split.
    + intros d h' t'. destruct (decide (b = d)) as [<-|Hne]; [|rewrite extend_other by done; apply P2].
      rewrite Hm. cbn. rewrite lookup_insert_Some. intros [[<- <-]|[_ H']]; [apply Hround|by eapply P2].
    + intros d c d' h' t' i x Hl Ht' Ho Hi' Hx. cbn in Hl. unfold sent_on in Hx. rewrite Hse in Hx.
      eapply (P3 d c d' h'); try done. destruct (decide (b = d')) as [<-|Hne]; [|by rewrite extend_other in Ht'].
      rewrite Hm in Ht'. cbn in Ht'. apply lookup_insert_Some in Ht' as [[<- <-]|[_ H']]; done.
  - destruct (good_receive _ _ _ _ _ _ _ _ Hi Hp Hl Ht Hx) as (acts & Hf & Hga).
    pose proof (frame_machine _ _ _ _ _ _ _ _ Ht Hf) as Hm. set (n' := extend n b _) in *.
    assert (Hc : forall d, conns_at n' d = conns_at n d).
    { intros d. destruct (decide (b = d)) as [<-|Hne]; [by rewrite Hm|unfold n'; by rewrite extend_other]. }
    assert (Hse : forall d, m_sent (broker_at n' d) = m_sent (broker_at n d)).
    { intros d. destruct (decide (b = d)) as [<-|Hne]; [by rewrite Hm|unfold n'; by rewrite extend_other]. }
    split; [intros d; rewrite Hc; apply P1|]. split.
    + intros d h' t'. destruct (decide (b = d)) as [<-|Hne]; [|unfold n'; rewrite extend_other by done; apply P2].
      rewrite Hm. cbn. rewrite lookup_insert_Some. intros [[<- <-]|[_ H']]; [done|by eapply P2].
    + intros d c1 d' h' t' i y Hl' Ht' Ho Hi' Hy. cbn in Hl'. unfold sent_on in Hy. rewrite Hse in Hy.
      destruct (decide (b = d')) as [<-|Hne].
      * rewrite Hm in Ht'. cbn in Ht'. apply lookup_insert_Some in Ht' as [[<- <-]|[_ H']]; [|by eapply (P3 d c1 b h')].
        cbn in Hi'. refine (P3 d c1 b h _ i y Hl' Ht eq_refl _ Hy). cbn. lia.
      * unfold n' in Ht'. rewrite extend_other in Ht' by done. by eapply (P3 d c1 d' h').
Qed.

(** Loops and links stay. *)
Lemma keeps_tstep n n' : net_inv n -> pinv n -> tstep n n' ->
  n_links n' = n_links n /\ forall b h t, tasks_at n b !! h = Some t -> exists t', tasks_at n' b !! h = Some t' /\ t_owner t' = t_owner t /\ t_open t' = t_open t.
Proof.
  intros Hi Hp Hs. destruct Hs as [n' Hb Hl|b h o a l op k s' nxt sends Ht Ha|b hh Ht|a c b h k x o Hl Ht Hx].
  - split; [done|]. intros b h t Ht. rewrite (none_brokers _ _ Hb). eauto.
  - split; [done|]. intros d h' t' Ht'. destruct (decide (b = d)) as [<-|Hne]; [|rewrite extend_other by done; eauto].
    rewrite (run_machine _ _ _ _ _ _ _ _ _ _ _ Ht Ha). cbn. destruct (decide (h = h')) as [<-|Hne]; [|rewrite lookup_insert_ne by done; eauto].
    rewrite lookup_insert. rewrite Ht in Ht'. injection Ht' as <-. eauto.
  - split; [done|]. intros d h' t' Ht'. destruct (decide (b = d)) as [<-|Hne]; [|rewrite extend_other by done; eauto].
    rewrite (sync_machine _ _ _ Ht). cbn. rewrite lookup_insert_ne by congruence. eauto.
  - split; [done|]. destruct (good_receive _ _ _ _ _ _ _ _ Hi Hp Hl Ht Hx) as (acts & Hf & Hga).
    intros d h' t' Ht'. destruct (decide (b = d)) as [<-|Hne]; [|rewrite extend_other by done; eauto].
    rewrite (frame_machine _ _ _ _ _ _ _ _ Ht Hf). cbn. destruct (decide (h = h')) as [<-|Hne]; [|rewrite lookup_insert_ne by done; eauto].
    rewrite lookup_insert. rewrite Ht in Ht'. injection Ht' as <-. eauto.
Qed.

(** What every good action keeps, is kept. *)
Definition kept (Q : conns -> Prop) : Prop :=
  forall b s a s' nxt sends, identity s = b -> good_state s -> good_act b a -> act_step (fun _ => true) s a = (s', nxt, sends) -> Q s -> Q s'.
Lemma kept_tstep Q n n' b : kept Q -> net_inv n -> pinv n -> tstep n n' -> Q (conns_at n b) -> Q (conns_at n' b).
Proof.
  intros HQ Hi Hp Hs HQb. pose proof Hp as (P1 & P2 & P3).
  destruct Hs as [n' Hb Hl|d h o a l op k s' nxt sends Ht Ha|d hh Ht|a c d h k x o Hl Ht Hx].
  - by rewrite (none_brokers _ _ Hb).
  - destruct (decide (d = b)) as [<-|Hne]; [|by rewrite extend_other]. rewrite (run_machine _ _ _ _ _ _ _ _ _ _ _ Ht Ha). cbn.
    pose proof (P2 _ _ _ Ht) as Hg. cbn in Hg. apply Forall_cons in Hg as [Hga Hgl]. eapply HQ; [apply conns_identity|apply P1|exact Hga|exact Ha|exact HQb].
  - destruct (decide (d = b)) as [<-|Hne]; [|by rewrite extend_other]. by rewrite (sync_machine _ _ _ Ht).
  - destruct (good_receive _ _ _ _ _ _ _ _ Hi Hp Hl Ht Hx) as (acts & Hf & Hga).
    destruct (decide (d = b)) as [<-|Hne]; [|by rewrite extend_other]. by rewrite (frame_machine _ _ _ _ _ _ _ _ Ht Hf).
Qed.

(** What the round is to achieve. *)
Variable a0 : act.
Variable D : conns -> Prop.
Hypothesis Ha0 : In a0 sync_round.
Hypothesis HD : forall s s' nxt sends, act_step (fun _ => true) s a0 = (s', nxt, sends) -> D s'.
Hypothesis HDk : kept D.
Definition due (n : net) (b : bid) : Prop := D (conns_at n b) \/ exists h t, tasks_at n b !! h = Some t /\ In a0 (t_acts t).

Lemma due_tstep n n' b : net_inv n -> pinv n -> tstep n n' -> due n b -> due n' b.
Proof.
  intros Hi Hp Hs [Hd|(h0 & t0 & Ht0 & Hin)]; [left; by eapply kept_tstep|].
  destruct Hs as [n' Hb Hl|d h o a l op k s' nxt sends Ht Ha|d hh Ht|a c d h k x o Hl Ht Hx].
  - right. exists h0, t0. by rewrite (none_brokers _ _ Hb).
  - destruct (decide (d = b)) as [<-|Hne]; [|right; exists h0, t0; by rewrite extend_other].
    unfold due. rewrite (run_machine _ _ _ _ _ _ _ _ _ _ _ Ht Ha). cbn. destruct (decide (h = h0)) as [<-|Hne].
    + rewrite Ht in Ht0. injection Ht0 as <-. cbn in Hin. destruct Hin as [->|Hin]; [left; by eapply HD|].
      right. eexists h, _. rewrite lookup_insert. split; [done|]. cbn. apply in_app_iff. by right.
    + right. exists h0, t0. by rewrite lookup_insert_ne.
  - right. exists h0, t0. destruct (decide (d = b)) as [<-|Hne]; [|by rewrite extend_other].
    rewrite (sync_machine _ _ _ Ht). cbn. by rewrite lookup_insert_ne by congruence.
  - right. exists h0, t0. destruct (good_receive _ _ _ _ _ _ _ _ Hi Hp Hl Ht Hx) as (acts & Hf & Hga).
    destruct (decide (d = b)) as [<-|Hne]; [|by rewrite extend_other]. rewrite (frame_machine _ _ _ _ _ _ _ _ Ht Hf). cbn.
    rewrite lookup_insert_ne; [done|]. intros <-. rewrite Ht in Ht0. injection Ht0 as <-. done.
Qed.
Lemma due_start n b hh : tasks_at n b !! hh = None -> due (extend n b (ESync hh)) b.
Proof.
  intros Ht. right. eexists hh, _. rewrite (sync_machine _ _ _ Ht). cbn. rewrite lookup_insert. done.
Qed.

Lemma phase_run es r : Forall tidy r -> pinv (n_run es) ->
  pinv (n_run (es ++ r)) /\ n_links (n_run (es ++ r)) = n_links (n_run es)
  /\ (forall b h t, tasks_at (n_run es) b !! h = Some t -> exists t', tasks_at (n_run (es ++ r)) b !! h = Some t' /\ t_owner t' = t_owner t /\ t_open t' = t_open t)
  /\ (forall Q b, kept Q -> Q (conns_at (n_run es) b) -> Q (conns_at (n_run (es ++ r)) b))
  /\ (forall b, due (n_run es) b -> due (n_run (es ++ r)) b).
Proof.
  intros Hr Hp. induction r as [|e r IH] using rev_ind.
  { rewrite app_nil_r. split_and!; eauto. }
  apply Forall_app in Hr as [Hr He]. apply Forall_cons in He as [He _]. destruct (IH Hr) as (J1 & J2 & J3 & J4 & J5).
  rewrite app_assoc, n_run_snoc. pose proof (inv_run deser dec_users dec_topics valid enc_users enc_topics (es ++ r)) as Hi.
  pose proof (tidy_tstep (n_run (es ++ r)) e He) as Hs. destruct (keeps_tstep _ _ Hi J1 Hs) as [K1 K2]. split_and!.
  - by eapply pinv_tstep.
  - by rewrite K1.
  - intros b h t Ht. destruct (J3 _ _ _ Ht) as (t1 & Ht1 & Ho1 & Hop1). destruct (K2 _ _ _ Ht1) as (t2 & Ht2 & Ho2 & Hop2). exists t2. split_and!; [done|congruence|congruence].
  - intros Q b HQ Hb. exact (kept_tstep Q _ _ b HQ Hi J1 Hs (J4 Q b HQ Hb)).
  - intros b Hb. exact (due_tstep _ _ b Hi J1 Hs (J5 b Hb)).
Qed.

Lemma phase_done es r b : Forall tidy r -> pinv (n_run es) -> at_rest (n_run (es ++ r)) -> sync_starts es r b -> D (conns_at (n_run (es ++ r)) b).
Proof.
  intros Hr Hp [Hrest _] (r1 & hh & r2 & -> & Ht). apply Forall_app in Hr as [Hr1 Hr2]. apply Forall_cons in Hr2 as [He Hr2].
  destruct (phase_run es r1 Hr1 Hp) as (J1 & _).
  assert (Hn : n_run (es ++ r1 ++ [NStep b (ESync hh)]) = extend (n_run (es ++ r1)) b (ESync hh)) by (by rewrite app_assoc, n_run_snoc).
  destruct (phase_run es (r1 ++ [NStep b (ESync hh)])) as (J2 & _); [apply Forall_app; split; [done|by constructor]|done|].
  destruct (phase_run (es ++ r1 ++ [NStep b (ESync hh)]) r2 Hr2 J2) as (_ & _ & _ & _ & J5).
  assert (Hdue : due (n_run (es ++ r1 ++ [NStep b (ESync hh)])) b) by (rewrite Hn; by apply due_start).
  destruct (J5 b Hdue) as [Hd|(h & t & Ht' & Hin)].
  - by rewrite <- !app_assoc in Hd.
  - rewrite <- !app_assoc in Ht'. rewrite (Hrest _ _ _ Ht') in Hin. done.
Qed.
End phase.

(** ** The first round *)
Definition own_frame (b : bid) (f : frame) : Prop :=
  match f with
  | FTopicSync _ => True
  | FUserSync d => forall k e, entries d !! k = Some e -> val e = Some b \/ val e = None
  | FRelay _ => False
  end.
Definition sync_act (b : bid) (a : act) : Prop :=
  match a with
  | APartialTopicSync | APartialUserSync | AApplyTopicSync _ _ => True
  | ASendBrokers f | ALookupBroker _ f | ASendBroker _ _ f => own_frame b f
  | AApplyUserSync d => forall k e, entries d !! k = Some e -> val e <> Some b
  | _ => False
  end.

Lemma sync_act_run b s a s' nxt sends :
  identity s = b -> mod_own s -> sync_act b a -> act_step (fun _ => true) s a = (s', nxt, sends) ->
  mod_own s' /\ Forall (sync_act b) nxt /\ Forall (fun e => own_frame b (e_frame e)) sends.
Proof.
  intros Hid Hs Ha Heq. destruct a; cbn in Ha; try done; cbn [act_step] in Heq.
  - injection Heq as <- <- <-. split; [done|]. split; [|constructor]. destruct (c_get_broker_connection s b0); by repeat constructor.
  - injection Heq as <- <- <-. split; [done|]. split; [constructor|]. by repeat constructor.
  - injection Heq as <- <- <-. split; [done|]. split; [|constructor]. by apply Forall_map, Forall_true.
  - injection Heq as <- <- <-. split; [by apply (step_mod_own s (CApplyUserSync m))|]. split; constructor.
  - injection Heq as <- <- <-. split; [by apply (step_mod_own s (CApplyTopicSync b0 m))|]. split; constructor.
  - pose proof (step_mod_own s CPartialTopicSync Hs) as Hm. cbn [c_step] in Hm. destruct (c_get_partial_topic_sync s) as [s1 [d|]]; injection Heq as <- <- <-; split; try done; split; by repeat constructor.
  - pose proof (step_mod_own s CPartialUserSync Hs) as Hm. cbn [c_step] in Hm.
    rewrite partial_user_direct in Heq, Hm. cbn [fst] in Hm. injection Heq as <- <- <-. split; [done|]. split; [|constructor].
    destruct (vm_is_empty _); [constructor|]. constructor; [|constructor]. cbn. intros k e. rewrite diff_delta_lookup. case_decide as Hk; [|done].
    intros He. destruct (Hs k Hk) as (e' & He' & Hv). rewrite He in He'. injection He' as <-. by rewrite Hid in Hv.
Qed.
Lemma sync_act_round b : Forall (sync_act b) sync_round.
Proof. by repeat constructor. Qed.
Lemma own_frame_recv a b f : a <> b -> own_frame a f -> exists acts, broker_frame a (wire f) no_hook = (acts, true) /\ Forall (sync_act b) acts.
Proof.
  intros Hne Hf. destruct Hcodec as [Hu Ht]. destruct f as [raw|d|d]; cbn in Hf; [done| |]; cbn [NetModel.wire]; unfold RouteModel.broker_frame.
  - destruct (Hu d) as (p & d' & -> & Hd & He & _). cbn. rewrite Hd. eexists. split; [done|]. constructor; [|constructor]. cbn. intros k e. rewrite He. intros Hk.
    destruct (Hf _ _ Hk) as [->| ->]; congruence.
  - destruct (Ht d) as (p & d' & -> & Hd & He & _). cbn. rewrite Hd. eexists. split; [done|]. by repeat constructor.
Qed.
Definition announced (s : conns) : Prop := modified (direct s) = ∅.
Lemma announced_done s s' nxt sends : act_step (fun _ => true) s APartialUserSync = (s', nxt, sends) -> announced s'.
Proof. cbn. rewrite partial_user_direct. intros [= <- _ _]. cbn. apply diff_rest_modified. Qed.
Lemma announced_kept : kept sync_act mod_own announced.
Proof.
  intros b s a s' nxt sends Hid Hs Ha Heq Hk. destruct a; cbn in Ha; try done; cbn [act_step] in Heq; try (by injection Heq as <- _ _).
  - injection Heq as <- _ _. apply apply_user_clean; [done|]. by rewrite Hid.
  - injection Heq as <- _ _. unfold announced. by destruct (apply_topic_frame s b0 m) as (_ & _ & -> & _).
  - destruct (partial_topic_frame s) as (_ & _ & _ & Hd & _). destruct (c_get_partial_topic_sync s) as [s1 o]. injection Heq as <- _ _. unfold announced. cbn in Hd. by rewrite Hd.
  - by eapply announced_done.
Qed.
Lemma linked_kept p c : kept sync_act mod_own (fun s => c_get_broker_connection s p = Some c).
Proof.
  intros b s a s' nxt sends Hid Hs Ha Heq Hk. destruct a; cbn in Ha; try done; cbn [act_step] in Heq; try (by injection Heq as <- _ _).
  - injection Heq as <- _ _. rewrite apply_user_sync_eq. unfold c_get_broker_connection. by destruct (rus_frame (set_direct (vm_merge bid_gtb (direct s) m).1 s) (map fst (vm_merge bid_gtb (direct s) m).2)) as (_ & -> & _).
  - injection Heq as <- _ _. unfold c_get_broker_connection in *. destruct (brokers s !! b0) as [be|] eqn:Eb.
    + rewrite (apply_topic_entry _ _ _ _ Eb). destruct (decide (b0 = p)) as [->|Hne]; [|by rewrite lookup_insert_ne]. rewrite lookup_insert. by rewrite Eb in Hk.
    + unfold c_apply_topic_sync. rewrite Eb, rb_brokers. rewrite lookup_delete_ne; [done|]. intros ->. by rewrite Eb in Hk.
  - destruct (partial_topic_frame s) as (_ & _ & Hd & _). destruct (c_get_partial_topic_sync s) as [s1 o]. injection Heq as <- _ _. unfold c_get_broker_connection in *. cbn in Hd. by rewrite Hd.
  - rewrite partial_user_direct in Heq. injection Heq as <- _ _. done.
Qed.

(** ** The second round *)
Definition topic_frame (f : frame) : Prop := match f with FTopicSync _ => True | _ => False end.
Definition topic_act (a : act) : Prop :=
  match a with
  | APartialTopicSync | APartialUserSync | AApplyTopicSync _ _ => True
  | ASendBrokers f | ALookupBroker _ f | ASendBroker _ _ f => topic_frame f
  | _ => False
  end.
Lemma topic_act_run (b : bid) s a s' nxt sends :
  identity s = b -> announced s -> topic_act a -> act_step (fun _ => true) s a = (s', nxt, sends) ->
  announced s' /\ Forall topic_act nxt /\ Forall (fun e => topic_frame (e_frame e)) sends.
Proof.
  intros Hid Hs Ha Heq. destruct a; cbn in Ha; try done; cbn [act_step] in Heq.
  - injection Heq as <- <- <-. split; [done|]. split; [|constructor]. destruct (c_get_broker_connection s b0); by repeat constructor.
  - injection Heq as <- <- <-. split; [done|]. split; [constructor|]. by repeat constructor.
  - injection Heq as <- <- <-. split; [done|]. split; [|constructor]. by apply Forall_map, Forall_true.
  - injection Heq as <- <- <-. split; [|split; constructor]. unfold announced. by destruct (apply_topic_frame s b0 m) as (_ & _ & -> & _).
  - destruct (partial_topic_frame s) as (_ & _ & _ & Hd & _). cbn in Hd.
    destruct (c_get_partial_topic_sync s) as [s1 [d|]]; injection Heq as <- <- <-; cbn [fst] in Hd; unfold announced in *; rewrite Hd; split; try done; split; by repeat constructor.
  - pose proof (partial_user_none s Hs) as Hn. split; [by eapply announced_done|]. rewrite partial_user_direct in Heq, Hn. cbn in Hn. rewrite Hn in Heq. injection Heq as _ <- <-. split; constructor.
Qed.
Lemma topic_act_round : Forall topic_act sync_round.
Proof. by repeat constructor. Qed.
Lemma topic_frame_recv (a b : bid) f : a <> b -> topic_frame f -> exists acts, broker_frame a (wire f) no_hook = (acts, true) /\ Forall topic_act acts.
Proof.
  intros Hne Hf. destruct Hcodec as [_ Ht]. destruct f as [raw|d|d]; cbn in Hf; try done; cbn [NetModel.wire]; unfold RouteModel.broker_frame.
  destruct (Ht d) as (p & d' & -> & Hd & He & _). cbn. rewrite Hd. eexists. split; [done|]. by repeat constructor.
Qed.
Definition topics_told (s : conns) : Prop := previous_topics s = list_to_set (rm_get_values (bm_users s)).
Lemma topics_told_done s s' nxt sends : act_step (fun _ => true) s APartialTopicSync = (s', nxt, sends) -> topics_told s'.
Proof.
  cbn. pose proof (partial_topic_previous s) as Hp. destruct (partial_topic_frame s) as (_ & _ & _ & _ & Hb & _).
  destruct (c_get_partial_topic_sync s) as [s1 o]. intros [= <- _ _]. cbn in *. unfold topics_told. by rewrite Hp, Hb.
Qed.
Lemma topics_told_kept : kept (fun _ => topic_act) announced topics_told.
Proof.
  intros b s a s' nxt sends Hid Hs Ha Heq Hk. destruct a; cbn in Ha; try done; try (by injection Heq as <- _ _).
  - cbn in Heq. injection Heq as <- _ _. unfold topics_told. by destruct (apply_topic_frame s b0 m) as (_ & _ & _ & -> & _ & -> & _).
  - by eapply topics_told_done.
  - cbn in Heq. rewrite partial_user_direct in Heq. injection Heq as <- _ _. done.
Qed.
(** Whatever does not depend on what is known about other brokers stays. *)
Lemma local_kept (Q : conns -> Prop) :
  (forall s s', users s' = users s -> direct s' = direct s -> bm_users s' = bm_users s -> Q s -> Q s') -> kept (fun _ => topic_act) announced Q.
Proof.
  intros HQ b s a s' nxt sends Hid Hs Ha Heq Hk. destruct a; cbn in Ha; try done; try (by injection Heq as <- _ _).
  - cbn in Heq. injection Heq as <- _ _. destruct (apply_topic_frame s b0 m) as (_ & H1 & H2 & H3 & _). by apply (HQ s).
  - cbn in Heq. destruct (partial_topic_frame s) as (_ & H1 & _ & H2 & H3 & _). destruct (c_get_partial_topic_sync s) as [s1 o]. injection Heq as <- _ _. by apply (HQ s).
  - cbn in Heq. rewrite partial_user_direct in Heq. injection Heq as <- _ _. apply (HQ s); try done. cbn.
    unfold announced in Hs. destruct (direct s) as [es md ci]. cbn in Hs. subst md. unfold vm_diff, vm_diff_order. cbn [modified]. by rewrite elements_empty.
Qed.
Lemma linked_kept2 p c : kept (fun _ => topic_act) announced (fun s => c_get_broker_connection s p = Some c).
Proof.
  intros b s a s' nxt sends Hid Hs Ha Heq Hk. refine (linked_kept p c b s a s' nxt sends Hid _ _ Heq Hk).
  - intros k Hin. unfold announced in Hs. set_solver.
  - destruct a; try done; cbn in Ha; by destruct f.
Qed.

(** ** Two rounds *)
Lemma round_users : In APartialUserSync sync_round.
Proof. by left. Qed.
Lemma round_topics : In APartialTopicSync sync_round.
Proof. right. by left. Qed.
Lemma run_state_own n b : mod_own (conns_at n b).
Proof. unfold NetModel.broker_at. destruct (machine_history deser dec_users dec_topics valid b (trace n b)) as [os ->]. apply run_mod_own. Qed.

Lemma joined_keeps n n' :
  n_links n' = n_links n ->
  (forall b h t, tasks_at n b !! h = Some t -> exists t', tasks_at n' b !! h = Some t' /\ t_owner t' = t_owner t /\ t_open t' = t_open t) ->
  (forall b p c, c_get_broker_connection (conns_at n b) p = Some c -> c_get_broker_connection (conns_at n' b) p = Some c) ->
  forall a b, joined n a b -> joined n' a b.
Proof.
  intros Hl Ht Hc a b (ca & cb & ha & hb & ta & H1 & H2 & H3 & H4 & H5 & H6). destruct (Ht _ _ _ H5) as (t' & Ht' & Ho & _).
  exists ca, cb, ha, hb, t'. rewrite Hl. split_and!; auto. congruence.
Qed.

(** The brokers of the network. *)
Definition takes_part (n : net) (b : bid) : Prop := is_Some (n_trace n !! b).
Lemma absent_broker n b : ~ takes_part n b -> broker_at n b = m_init b.
Proof. intros H. unfold NetModel.broker_at, trace. destruct (n_trace n !! b) eqn:E; [|done]. exfalso. apply H. by eexists. Qed.
Lemma two_rounds es r1 r2 :
  Forall tidy r1 -> Forall tidy r2 -> at_rest (n_run es) -> at_rest (n_run (es ++ r1)) -> at_rest (n_run (es ++ r1 ++ r2)) ->
  (forall b, takes_part (n_run es) b -> sync_starts es r1 b) ->
  (forall b, takes_part (n_run (es ++ r1)) b -> sync_starts (es ++ r1) r2 b) ->
  (forall b, nothing_due (n_run (es ++ r1 ++ r2)) b)
  /\ (forall a b, joined (n_run es) a b -> joined (n_run (es ++ r1 ++ r2)) a b)
  /\ (forall b, users (conns_at (n_run (es ++ r1 ++ r2)) b) = users (conns_at (n_run (es ++ r1)) b)
              /\ bm_users (conns_at (n_run (es ++ r1 ++ r2)) b) = bm_users (conns_at (n_run (es ++ r1)) b)
              /\ direct (conns_at (n_run (es ++ r1 ++ r2)) b) = direct (conns_at (n_run (es ++ r1)) b)).
Proof.
  intros Hr1 Hr2 HR0 HR1 HR2 Hs1 Hs2.
  assert (P1 : pinv sync_act own_frame mod_own (n_run es)) by (apply pinv_rest; [done|apply run_state_own]).
  pose proof (phase_run sync_act own_frame mod_own sync_act_run sync_act_round own_frame_recv
    APartialUserSync announced announced_done announced_kept es r1 Hr1 P1) as (J1 & J2 & J3 & J4 & _).
  assert (Hann : forall b, announced (conns_at (n_run (es ++ r1)) b)).
  { intros b. destruct (n_trace (n_run es) !! b) as [tr|] eqn:E.
    - eapply (phase_done sync_act own_frame mod_own sync_act_run sync_act_round own_frame_recv APartialUserSync announced); try done;
        [apply round_users|apply announced_done|apply announced_kept|]. apply Hs1. by eexists.
    - apply (J4 announced); [apply announced_kept|]. rewrite absent_broker; [done|]. intros [? ?]. congruence. }
  assert (P2 : pinv (fun _ => topic_act) (fun _ => topic_frame) announced (n_run (es ++ r1))) by (apply pinv_rest; done).
  rewrite app_assoc in *.
  pose proof (phase_run (fun _ => topic_act) (fun _ => topic_frame) announced topic_act_run (fun _ => topic_act_round) topic_frame_recv
    APartialTopicSync topics_told topics_told_done topics_told_kept (es ++ r1) r2 Hr2 P2) as (K1 & K2 & K3 & K4 & _).
  split; [|split].
  - intros b. split; [apply partial_user_none, K1|]. apply partial_topic_none. destruct (n_trace (n_run (es ++ r1)) !! b) as [tr|] eqn:E.
    + eapply (phase_done (fun _ => topic_act) (fun _ => topic_frame) announced topic_act_run (fun _ => topic_act_round) topic_frame_recv APartialTopicSync topics_told); try done;
        [apply round_topics|apply topics_told_done|apply topics_told_kept|]. apply Hs2. by eexists.
    + apply (K4 topics_told); [apply topics_told_kept|]. rewrite absent_broker; [done|]. intros [? ?]. congruence.
  - intros a b Hj. apply (joined_keeps (n_run (es ++ r1))); [done|done| |].
    { intros x p c Hc. apply (K4 (fun s => c_get_broker_connection s p = Some c)); [apply linked_kept2|done]. }
    apply (joined_keeps (n_run es)); [done|done| |done].
    intros x p c Hc. apply (J4 (fun s => c_get_broker_connection s p = Some c)); [apply linked_kept|done].
  - intros b. split_and!.
    + apply (K4 (fun s => users s = users (conns_at (n_run (es ++ r1)) b))); [|done]. apply local_kept. by intros s s' -> _ _.
    + apply (K4 (fun s => bm_users s = bm_users (conns_at (n_run (es ++ r1)) b))); [|done]. apply local_kept. by intros s s' _ _ ->.
    + apply (K4 (fun s => direct s = direct (conns_at (n_run (es ++ r1)) b))); [|done]. apply local_kept. by intros s s' _ -> _.
Qed.
End net.
