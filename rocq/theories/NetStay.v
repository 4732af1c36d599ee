(** A user that logs in once, and whose session nothing ends, stays connected with its topics. *)
From stdpp Require Import gmap fin_maps fin_sets list.
From Coq Require Import NArith ZArith Lia.
From Verif Require Import IdModel RelMapModel RelMapProofs VMapModel VMapSpec VMapProofs ConnModel ConnSpec ConnProofs ConnProofs2 ConnProofs3 ConnProofs4
  SyncSpec SyncModel DirSyncProofs TopicSyncProofs TopicModel TopicProofs MsgModel RouteModel RouteProofs TaskModel TaskProofs TaskOrder TaskHandles TaskIsolation TaskSync TaskCheck TaskGuarded
  NetModel NetProofs NetOrigin NetDelivery NetComplete NetSynced NetSettle NetSettleDir StaySpec.

Section op.
Lemma op_stays i os o v c h :
  users (c_run i os) !! v = Some (c, h) ->
  (forall c' ts h', o <> CAddUser v c' ts h') -> o <> CRemoveUser v -> (forall ts, o <> CUnsubscribeUser v ts) ->
  (forall d, o = CApplyUserSync d -> ~ sync_overrides i d v (entries (direct (c_run i os)) !! v)) ->
  users (c_step (c_run i os) o) !! v = Some (c, h)
  /\ forall t, In v (c_get_interested_by_topic (c_run i os) [t] true).2 -> In v (c_get_interested_by_topic (c_step (c_run i os) o) [t] true).2.
Proof.
  intros Hu Hadd Hrem Huns Happ. rewrite run_current_user in Hu. rewrite <- c_run_snoc, run_current_user. split.
  - unfold current_user in *. rewrite rev_app_distr. cbn [rev app]. destruct o as [u' c1 ts h1|u'|b' c1 h1|b'|u' ts|u' ts|m|b' m| |]; cbn [current_user_rev]; try done.
    + rewrite decide_False; [done|]. intros ->. by eapply Hadd.
    + rewrite decide_False; [done|]. by intros ->.
    + rewrite rev_involutive, decide_False; [done|]. by apply Happ.
  - intros t. rewrite !interested_users_history. intros (t' & Ht & Hx). exists t'. split; [done|]. revert Hx. unfold user_topic. rewrite rev_app_distr. cbn [rev app].
    destruct o as [u' c1 ts h1|u'|b' c1 h1|b'|u' ts|u' ts|m|b' m| |]; cbn [user_topic_rev]; try done.
    + rewrite decide_False; [done|]. intros ->. by eapply Hadd.
    + split; [|done]. by intros ->.
    + by right.
    + split; [|done]. intros [-> _]. by eapply Huns.
    + rewrite rev_involutive. split; [|done]. by apply Happ.
Qed.
Lemma add_subscribes s i os v c ts h t : s = c_run i os -> In t ts -> In v (c_get_interested_by_topic (c_add_user s v c ts h) [t] true).2.
Proof.
  intros -> Ht. change (c_add_user (c_run i os) v c ts h) with (c_step (c_run i os) (CAddUser v c ts h)). rewrite <- c_run_snoc, interested_users_history.
  exists t. split; [by left|]. unfold user_topic. rewrite rev_app_distr. cbn. by rewrite decide_True.
Qed.
End op.

Section stay.
Variable deser : bytes -> option message.
Variable dec_users : bytes -> option direct_map.
Variable dec_topics : bytes -> option topic_map.
Variable valid : N -> bool.
Notation m_step := (m_step deser dec_users dec_topics valid).
Notation m_run := (m_run deser dec_users dec_topics valid).
Notation m_run_snoc := (m_run_snoc deser dec_users dec_topics valid).
Notation loop_frame := (loop_frame deser dec_users dec_topics valid).
Variables (v : ukey) (b : bid).
Notation harmless := (harmless deser valid).

(** No task is about to disconnect or unsubscribe [v]. *)
Definition no_end (m : machine) : Prop :=
  forall h t y, m_tasks m !! h = Some t -> In y (t_acts t) -> y <> ARemoveUser v /\ forall ts, y <> AUnsubscribe v ts.
Definition in_place (m : machine) (h c : N) (ts : list N) : Prop :=
  users (m_conns m) !! v = Some (c, h) /\ forall t, In t ts -> valid t = true -> In v (c_get_interested_by_topic (m_conns m) [t] true).2.
Definition open_loop (m : machine) (h c : N) : Prop := exists acts k, m_tasks m !! h = Some (Task (OUser v c) acts true k).
Definition held (tr : list event) (m : machine) : Prop :=
  forall h hh c ts, In (EUserAuthed h hh v c ts) tr -> open_loop m h c
    /\ (m_tasks m !! hh = Some (Task OOther (user_connected valid v c ts h) false 0) \/ in_place m h c ts).

Lemma act_step_ends ok s a s' nxt sends y : act_step ok s a = (s', nxt, sends) -> In y nxt ->
  (forall ts, y <> AUnsubscribe v ts) /\ (y = ARemoveUser v -> exists c f, a = ASendUser v c f /\ ok c = false).
Proof.
  destruct a as [w raw only|ts raw only|w f|w cw f|b' f|b' cb f|f|w|b'|w cw ts h'|b' cb h'|w ts|w ts|d|b' d|b'|b'| |]; cbn [act_step]; intros Heq Hy;
    try (injection Heq as <- <- <-; done).
  - injection Heq as <- <- <-. unfold direct_next in Hy. destruct (c_get_broker_identifier_of_user s w); [|done]. case_decide; [destruct Hy as [<-|[]]; done|].
    destruct only; [done|]. destruct Hy as [<-|[]]. done.
  - injection Heq as <- <- <-. unfold broadcast_next in Hy. destruct (c_get_interested_by_topic s ts only). apply in_app_iff in Hy as [Hy|Hy]; apply in_map_iff in Hy as (x & <- & _); done.
  - injection Heq as <- <- <-. destruct (c_get_user_connection s w); [|done]. destruct Hy as [<-|[]]; done.
  - destruct (ok cw) eqn:E; injection Heq as <- <- <-; [done|]. destruct Hy as [<-|[]]. split; [done|]. intros [= ->]. eauto.
  - injection Heq as <- <- <-. destruct (c_get_broker_connection s b'); [|done]. destruct Hy as [<-|[]]; done.
  - destruct (ok cb) eqn:E; injection Heq as <- <- <-; [done|]. destruct Hy as [<-|[]]; done.
  - injection Heq as <- <- <-. apply in_map_iff in Hy as (x & <- & _); done.
  - injection Heq as <- <- <-. destruct (c_get_full_topic_sync s); [|done]. destruct Hy as [<-|[]]; done.
  - injection Heq as <- <- <-. destruct (c_get_full_user_sync s); [|done]. destruct Hy as [<-|[]]; done.
  - destruct (c_get_partial_topic_sync s) as [s1 o]. injection Heq as <- <- <-. destruct o; [|done]. destruct Hy as [<-|[]]; done.
  - destruct (c_get_partial_user_sync s) as [s1 o]. injection Heq as <- <- <-. destruct o; [|done]. destruct Hy as [<-|[]]; done.
Qed.
Lemma plain_frame_acts u raw hk y : plain_frame deser valid raw hk -> In y (user_frame deser valid u raw hk).1 ->
  (forall w, y <> ARemoveUser w) /\ forall w ts, y <> AUnsubscribe w ts.
Proof.
  intros (m & Hd & Hm). unfold user_frame. rewrite Hd. destruct Hm as [->|[(r & body & ->)|(ts & t & Ht & Hv & Hm)]]; [done|by intros [<-|[]]|].
  assert (Hg : (prune valid ts).2 = true) by (apply prune_ok; eauto).
  destruct Hm as [[body ->]| ->]; destruct (prune valid ts) as [ts' good]; cbn in Hg; subst good; by intros [<-|[]].
Qed.
Lemma other_frame_acts o raw hk y : (forall c, o <> OUser v c) -> In y (loop_frame o raw hk).1 -> y <> ARemoveUser v /\ forall ts, y <> AUnsubscribe v ts.
Proof.
  intros Ho Hy. destruct o as [u c|b' c|]; [|by repeat (cbn in Hy; unfold broker_frame in Hy; case_match; try done); destruct Hy as [<-|[]]|done].
  assert (Hne : u <> v) by (intros ->; by eapply Ho). cbn in Hy. unfold user_frame in Hy.
  repeat (case_match; cbn in Hy; try done); (destruct Hy as [<-|[]]; split; [|intros ?]; congruence).
Qed.

Lemma plain_frame_goes u raw hk : plain_frame deser valid raw hk -> (user_frame deser valid u raw hk).2 = true.
Proof.
  intros (m & Hd & Hm). unfold user_frame. rewrite Hd. destruct Hm as [->|[(r & body & ->)|(ts & t & Ht & Hv & Hm)]]; [done|done|].
  assert (Hg : (prune valid ts).2 = true) by (apply prune_ok; eauto).
  destruct Hm as [[body ->]| ->]; destruct (prune valid ts) as [ts' good]; cbn in Hg; by subst good.
Qed.

Lemma no_end_step m e : harmless v b m e -> no_end m -> no_end (m_step m e).
Proof.
  intros He Hn h t y Ht Hy.
  assert (Hrecv : (exists h1, e = ERecvErr h1) \/ forall h1, e <> ERecvErr h1) by (destruct e; eauto).
  destruct Hrecv as [[h1 ->]|Hrecv].
  { cbn [TaskModel.m_step] in Ht. destruct (m_tasks m !! h1) as [[o [|? ?] [|] k]|] eqn:E; try (by eapply Hn).
    cbn in Ht. apply lookup_insert_Some in Ht as [[<- <-]|[_ Ht]]; [|by eapply Hn]. cbn in Hy, He.
    destruct o as [u c|b' c|]; cbn in Hy; [|by destruct Hy as [<-|[]]|done]. destruct Hy as [<-|[]]. split; [|done]. intros [= ->]. by eapply He. }
  destruct (acts_new _ _ _ _ _ _ _ _ _ Ht Hy) as [(t0 & Ht0 & Hy0)|[Hst|[(raw & hk & t0 & -> & Ht0 & Hy0)|(good & o & a & l & op & k & s' & nxt & sends & -> & Ht0 & Ha & Hy0)]]].
  - by eapply Hn.
  - destruct e as [h1 h2 w c1 ts1|h1 h2 b1 c1|h2|h2 w|h1 raw hk|h1|h1 good|h1]; cbn in Hst; try done.
    + by destruct Hst as [<-|[<-|[<-|[]]]].
    + by destruct Hst as [<-|[<-|[<-|[]]]].
    + by destruct Hst as [<-|[<-|[]]].
    + subst y. split; [|done]. intros [= ->]. by cbn in He.
    + by edestruct Hrecv.
  - cbn in He. destruct (t_owner t0) as [u c|b' c|] eqn:Eo.
    + destruct (decide (u = v)) as [->|Hne].
      * destruct (plain_frame_acts v raw hk y (He _ _ Ht0 Eo)) as [H1 H2]; [exact Hy0|]. auto.
      * eapply other_frame_acts; [|exact Hy0]. congruence.
    + eapply other_frame_acts; [|exact Hy0]. congruence.
    + done.
  - destruct (act_step_ends _ _ _ _ _ _ _ Ha Hy0) as [H1 H2]. split; [|done]. intros ->. destruct (H2 eq_refl) as (c & f & -> & Hg).
    specialize (He _ _ _ Ht0 eq_refl). cbn in He, Hg. rewrite He in Hg; done.
Qed.

Lemma open_step m e h c : harmless v b m e -> open_loop m h c -> h ∉ aborted (m_conns m) -> open_loop (m_step m e) h c.
Proof.
  intros He (acts & k & Ht) Hna. assert (Hsame : open_loop m h c) by (by exists acts, k).
  assert (Hset : forall h1 t0, m_tasks m !! h1 = None -> open_loop (set_task m h1 t0) h c).
  { intros h1 t0 Hnone. exists acts, k. cbn. rewrite lookup_insert_ne; [done|]. congruence. }
  destruct e as [h1 h2 w c1 ts1|h1 h2 b1 c1|h2|h2 w|h1 raw hk|h1|h1 good|h1]; cbn [TaskModel.m_step].
  - case_decide as Hd; [|done]. destruct Hd as (_ & H1 & H2). exists acts, k. cbn. rewrite !lookup_insert_ne by congruence. done.
  - case_decide as Hd; [|done]. destruct Hd as (_ & H1 & H2). exists acts, k. cbn. rewrite !lookup_insert_ne by congruence. done.
  - destruct (m_tasks m !! h2) eqn:E; [done|by apply Hset].
  - destruct (m_tasks m !! h2) eqn:E; [done|by apply Hset].
  - destruct (decide (h1 = h)) as [->|Hne].
    + rewrite Ht. destruct acts as [|? ?]; [|done]. destruct (loop_frame (OUser v c) raw hk) as [acts' go] eqn:El. cbn in He. specialize (He _ _ Ht eq_refl).
      pose proof (plain_frame_goes v raw hk He) as Hgo. cbn [TaskModel.loop_frame] in El. rewrite El in Hgo. cbn in Hgo. subst go.
      exists acts', (S k). cbn. by rewrite lookup_insert.
    + destruct (m_tasks m !! h1) as [[o [|? ?] [|] n]|] eqn:E; try done. destruct (loop_frame o raw hk). exists acts, k. cbn. by rewrite lookup_insert_ne.
  - destruct (decide (h1 = h)) as [->|Hne].
    + exfalso. cbn in He. by eapply He.
    + destruct (m_tasks m !! h1) as [[o [|? ?] [|] n]|] eqn:E; try done. exists acts, k. cbn. by rewrite lookup_insert_ne.
  - destruct (decide (h1 = h)) as [->|Hne].
    + rewrite Ht. destruct acts as [|a l]; [done|]. destruct (act_step (fun _ => good) (m_conns m) a) as [[s' nxt] sends]. exists (nxt ++ l), k. cbn. by rewrite lookup_insert.
    + destruct (m_tasks m !! h1) as [[o [|a l] op n]|] eqn:E; try done. destruct (act_step (fun _ => good) (m_conns m) a) as [[s' nxt] sends]. exists acts, k. cbn. by rewrite lookup_insert_ne.
  - destruct (m_tasks m !! h1) as [[o l op n]|] eqn:E; [|done]. case_decide; [|done]. exists acts, k. cbn. rewrite lookup_insert_ne; [done|]. congruence.
Qed.

Lemma pending_step i tr e hh acts : m_tasks (m_run i tr) !! hh = Some (Task OOther acts false 0) -> (forall good, e <> ERun hh good) ->
  m_tasks (m_step (m_run i tr) e) !! hh = Some (Task OOther acts false 0).
Proof.
  intros Ht Hne. pose proof (aborted_loop deser dec_users dec_topics valid i tr hh _ Ht) as Hab. set (m := m_run i tr) in *.
  destruct e as [h1 h2 w c1 ts1|h1 h2 b1 c1|h2|h2 w|h1 raw hk|h1|h1 good|h1]; cbn [TaskModel.m_step].
  - case_decide as Hd; [|done]. destruct Hd as (_ & H1 & H2). cbn. rewrite !lookup_insert_ne by congruence. done.
  - case_decide as Hd; [|done]. destruct Hd as (_ & H1 & H2). cbn. rewrite !lookup_insert_ne by congruence. done.
  - destruct (m_tasks m !! h2) eqn:E; [done|]. cbn. rewrite lookup_insert_ne by congruence. done.
  - destruct (m_tasks m !! h2) eqn:E; [done|]. cbn. rewrite lookup_insert_ne by congruence. done.
  - destruct (m_tasks m !! h1) as [[o [|? ?] [|] n]|] eqn:E; try done. destruct (loop_frame o raw hk). cbn. rewrite lookup_insert_ne by congruence. done.
  - destruct (m_tasks m !! h1) as [[o [|? ?] [|] n]|] eqn:E; try done. cbn. rewrite lookup_insert_ne by congruence. done.
  - destruct (m_tasks m !! h1) as [[o [|a l] op n]|] eqn:E; try done. destruct (act_step (fun _ => good) (m_conns m) a) as [[s' nxt] sends].
    cbn. rewrite lookup_insert_ne; [done|]. intros ->. by eapply Hne.
  - destruct (m_tasks m !! h1) as [[o l op n]|] eqn:E; [|done]. case_decide as Hd; [|done]. cbn. rewrite lookup_insert_ne; [done|].
    intros ->. apply elem_of_list_In in Hd. by apply (Hab Hd).
Qed.
End stay.

Section net.
Variable deser : bytes -> option message.
Variable dec_users : bytes -> option direct_map.
Variable dec_topics : bytes -> option topic_map.
Variable valid : N -> bool.
Variable enc_users : direct_map -> bytes.
Variable enc_topics : topic_map -> bytes.
Hypothesis Hcodec : faithful_sync deser dec_users dec_topics enc_users enc_topics.
Notation m_step := (m_step deser dec_users dec_topics valid).
Notation m_run := (m_run deser dec_users dec_topics valid).
Notation m_run_snoc := (m_run_snoc deser dec_users dec_topics valid).
Notation broker_at := (broker_at deser dec_users dec_topics valid).
Notation n_run := (n_run deser dec_users dec_topics valid enc_users enc_topics).
Notation fine := (fine deser dec_users dec_topics valid).
Notation possible := (possible deser dec_users dec_topics valid enc_users enc_topics).
Notation broker_extend := (broker_extend deser dec_users dec_topics valid).
Notation run_other := (run_other deser dec_users dec_topics valid).
Notation run_extend := (run_extend deser dec_users dec_topics valid).
Notation harmless := (harmless deser valid).
Notation in_place := (in_place valid).
Notation held := (held valid).
Notation conns_at n b := (m_conns (broker_at n b)).
Notation tasks_at n b := (m_tasks (broker_at n b)).
Variables (v : ukey) (b : bid).

Notation undisturbed := (undisturbed deser dec_users dec_topics valid v b).
Lemma undisturbed_extend n b0 ev : undisturbed (extend n b0 ev) -> undisturbed n /\ (b0 = b -> harmless v b (broker_at n b) ev).
Proof.
  intros Hu. split.
  - intros es1 e es2 Ht. destruct (decide (b0 = b)) as [->|Hne].
    + apply (Hu es1 e (es2 ++ [ev])). rewrite trace_extend, decide_True, Ht, <- app_assoc by done. done.
    + apply (Hu es1 e es2). by rewrite trace_extend, decide_False.
  - intros ->. apply (Hu (trace n b) ev []). by rewrite trace_extend, decide_True.
Qed.

Definition staying (n : net) : Prop := no_end v (broker_at n b) /\ held v (trace n b) (broker_at n b).

Lemma staying_extend n b0 ev :
  (clean deser dec_users dec_topics valid v n \/ up deser dec_users dec_topics valid v b n) ->
  possible n b0 ev -> solo v b (extend n b0 ev) -> undisturbed (extend n b0 ev) -> staying n -> staying (extend n b0 ev).
Proof.
  intros Hph Hp Hsolo Hun [Hn Hh]. destruct (undisturbed_extend _ _ _ Hun) as [Hun0 Hhl]. pose proof (solo_extend _ _ _ _ _ Hsolo) as Hsolo0.
  destruct (decide (b0 = b)) as [->|Hne]; [|split; [by rewrite run_other|rewrite run_other, trace_extend, decide_False by done; exact Hh]].
  specialize (Hhl eq_refl). unfold staying. rewrite broker_extend, decide_True by done. split; [by eapply no_end_step|].
  rewrite trace_extend, decide_True by done. intros h hh c ts Hin. apply in_app_iff in Hin as [Hin|[->|[]]].
  2:{ inversion Hp; subst; [done|]. match goal with H : fresh_pair _ _ _ _ _ _ _ _ _ |- _ => destruct H as (H1 & H2 & H3 & _) end.
      cbn [TaskModel.m_step]. rewrite decide_True by done. split; [exists [], 0|left]; cbn; [rewrite lookup_insert_ne, lookup_insert by done; done|by rewrite lookup_insert]. }
  destruct (Hh h hh c ts Hin) as [Hop Hst].
  assert (Hna : h ∉ aborted (conns_at n b)).
  { intros Hab. apply elem_of_list_In in Hab. destruct Hst as [Ht|[Hu _]].
    - eapply (aborted_not_pending deser dec_users dec_topics valid b (trace n b) h Hab). exists hh, (Task OOther (user_connected valid v c ts h) false 0). split; [exact Ht|by left].
    - destruct (registered_task deser dec_users dec_topics valid b (trace n b) h (OUser v c) Hu) as [_ Hna]. by apply Hna. }
  split; [by eapply open_step|]. destruct Hst as [Ht|[Hu Hsub]].
  - assert (Hcase : (exists good, ev = ERun hh good) \/ forall good, ev <> ERun hh good).
    { destruct ev as [| | | | | |h1 g|]; try (right; done). destruct (decide (h1 = hh)) as [->|]; [left; eauto|right; congruence]. }
    destruct Hcase as [[good ->]|Hne]; [|left; by apply pending_step]. right. cbn [TaskModel.m_step]. rewrite Ht. cbn. split.
    + cbn. rewrite au_users. by rewrite lookup_insert.
    + intros t Hit Hv. cbn. destruct (machine_history deser dec_users dec_topics valid b (trace n b)) as [os Hos].
      eapply add_subscribes; [exact Hos|]. by apply prune_in.
  - right. destruct (m_step_op deser dec_users dec_topics valid (broker_at n b) ev) as [Heq|(h1 & good & o & a & l & op & k & cop & -> & Ht & Hc & Heq)].
    { split; rewrite Heq; [done|]. done. }
    destruct (machine_history deser dec_users dec_topics valid b (trace n b)) as [os Hos].
    change (m_run b (trace n b)) with (broker_at n b) in Hos. rewrite Hos in Hu, Hsub, Heq. unfold in_place. rewrite Heq.
    destruct (op_stays b os cop v c h Hu) as [H1 H2].
    + intros c' ts' h' ->. destruct a; cbn in Hc; try done. injection Hc as -> -> -> ->.
      rewrite <- Hos in Hu. pose proof (registered_authed deser dec_users dec_topics valid v n b c h Hu) as Hau.
      pose proof (pending_authed deser dec_users dec_topics valid v n b h1 _ c' ts' h' Ht (or_introl eq_refl)) as Hau'.
      destruct (solo_unique v b n b h' c' h c Hsolo0 Hau' Hau) as (_ & -> & ->).
      eapply (registered_not_pending deser dec_users dec_topics valid b (trace n b) h (OUser v c)); [exact Hu|].
      eexists h1, _. split; [exact Ht|]. apply adds_in. eexists _, _. split; [by left|reflexivity].
    + intros ->. destruct a; cbn in Hc; try done. injection Hc as ->. by destruct (Hn _ _ (ARemoveUser v) Ht (or_introl eq_refl)) as [? _].
    + intros ts' ->. destruct a; cbn in Hc; try done. injection Hc as -> ->. destruct (Hn _ _ (AUnsubscribe v ts') Ht (or_introl eq_refl)) as [_ Hx]. by apply (Hx ts').
    + intros d ->. destruct a; cbn in Hc; try done. injection Hc as ->. unfold sync_overrides. destruct (entries d !! v) as [e|] eqn:He; [|tauto].
      cbn in Hhl. specialize (Hhl _ _ _ Ht eq_refl). cbn in Hhl. rewrite He in Hhl. specialize (Hhl ltac:(discriminate)).
      destruct Hph as [Hcl|(U1 & U2 & U3 & _)].
      * exfalso. by eapply (only_apply _ _ _ _ _ _ _ _ _ _ _ _ _ _ _ Hcl).
      * assert (e = home b) as -> by (by eapply (only_apply _ _ _ _ _ _ _ _ _ _ _ _ _ _ _ U1)).
        rewrite <- Hos. unfold d_in in U3. rewrite U3. cbn. intros [?|[_ ?]]; [lia|congruence].
    + split; [exact H1|]. intros t Hit Hv. apply H2. by apply Hsub.
Qed.

Lemma staying_run es : hooks_pass es -> fine (n_run es) -> solo v b (n_run es) -> undisturbed (n_run es) -> staying (n_run es).
Proof.
  intros Hh Hf Hsolo Hun.
  set (P := fun n => solo v b n -> phase deser dec_users dec_topics valid v b n /\ (undisturbed n -> staying n)).
  destruct (net_induct2 deser dec_users dec_topics valid enc_users enc_topics Hcodec P es Hh Hf) as (_ & _ & HP); [| | |by apply HP].
  - intros _. split; [apply phase_empty|]. intros _. split.
    + intros h t y Ht. unfold NetModel.broker_at, trace in Ht. cbn in Ht. by rewrite !lookup_empty in Ht.
    + intros h hh c ts Hin. unfold trace in Hin. cbn in Hin. by rewrite lookup_empty in Hin.
  - intros n b0 ev Hi Hs Hfl IH Hp Hfe Hso. destruct (IH (solo_extend _ _ _ _ _ Hso)) as [Hph Hst]. split; [by eapply phase_extend|]. intros Hu.
    destruct (undisturbed_extend _ _ _ Hu) as [Hu0 _]. specialize (Hst Hu0). apply staying_extend; try done.
    destruct Hph as [?|[?|((c & h & hh & ts & Hin) & Hg & Hna)]]; [by left|by right|exfalso]. destruct Hst as [_ Hh']. destruct (Hh' h hh c ts Hin) as [_ [Ht|[Hx _]]].
    + eapply (Hna hh _ c (prune valid ts).1 h); [exact Ht|by left].
    + by rewrite Hg in Hx.
  - intros n a ha hha ca b' hb hhb cb Hi Hs _ Hne Ha Hb Hfl HP Hso. destruct (HP Hso) as [Hph Hst]. split; [by eapply phase_linked|exact Hst].
Qed.
End net.

(** * A decision procedure, used by the examples *)
Section check.
Variable deser : bytes -> option message.
Variable dec_users : bytes -> option direct_map.
Variable dec_topics : bytes -> option topic_map.
Variable valid : N -> bool.
Definition plain_b (raw : bytes) (hk : hook) : bool :=
  match deser raw with
  | Some m =>
      match hk m with
      | HSkip | HProcess (MDirect _ _) => true
      | HProcess (MBroadcast ts _) | HProcess (MSubscribe ts) => existsb valid ts
      | _ => false
      end
  | None => false
  end.
Definition harmless_b (v : ukey) (b : bid) (m : machine) (e : event) : bool :=
  match e with
  | EKick _ u => bool_decide (u <> v)
  | ERecvErr h => match m_tasks m !! h with Some (Task (OUser u _) _ _ _) => bool_decide (u <> v) | _ => true end
  | EFrame h raw hk => match m_tasks m !! h with Some (Task (OUser u _) _ _ _) => if bool_decide (u = v) then plain_b raw hk else true | _ => true end
  | ERun h good =>
      match m_tasks m !! h with
      | Some (Task _ (ASendUser u _ _ :: _) _ _) => if bool_decide (u = v) then good else true
      | Some (Task _ (AApplyUserSync d :: _) _ _) => match entries d !! v with Some _ => negb (bid_gtb (cid d) b) | None => true end
      | _ => true
      end
  | _ => true
  end.
Lemma plain_check raw hk : plain_b raw hk = true -> plain_frame deser valid raw hk.
Proof.
  unfold plain_b. destruct (deser raw) as [m|] eqn:Ed; [|done]. intros H. exists m. split; [done|].
  destruct (hk m) as [|msg|] eqn:Eh; [by left| |done]. right.
  destruct msg; try done; [left; eauto|right|right]; apply existsb_exists in H as (t & Hi & Hv); eauto 10.
Qed.
Lemma harmless_check v b m e : harmless_b v b m e = true -> harmless deser valid v b m e.
Proof.
  destruct e as [| | |h u|h raw hk|h|h good|h]; cbn; try done.
  - apply bool_decide_eq_true_1.
  - intros H t c Ht Ho. rewrite Ht in H. destruct t as [o acts op n]. cbn in Ho. subst o. rewrite bool_decide_eq_true_2 in H by done. by apply plain_check.
  - intros H t c Ht Ho. rewrite Ht in H. destruct t as [o acts op n]. cbn in Ho. subst o. by apply bool_decide_eq_true in H.
  - intros H t a l Ht Ha. rewrite Ht in H. destruct t as [o acts op n]. cbn in Ha. subst acts. destruct a; try done.
    + intros ->. by rewrite bool_decide_eq_true_2 in H.
    + destruct (entries m0 !! v); [|done]. intros _. by apply negb_true_iff in H.
Qed.
Lemma undisturbed_check v b n :
  all_ev deser dec_users dec_topics valid (harmless_b v b) (m_init b) (trace n b) = true -> undisturbed deser dec_users dec_topics valid v b n.
Proof. intros H es1 e es2 Ht. rewrite Ht in H. apply all_ev_split in H. by apply harmless_check. Qed.
End check.
