(** Proofs: news of users and topics reaches a broker that is kept busy, and messages get through it. *)
From stdpp Require Import gmap fin_maps fin_sets list.
From Coq Require Import NArith ZArith Lia.
From Verif Require Import IdModel RelMapModel RelMapProofs VMapModel VMapSpec VMapProofs ConnModel ConnSpec ConnProofs ConnProofs2 ConnProofs3 ConnProofs4
  SyncSpec SyncModel DirSyncProofs TopicSyncProofs TopicModel TopicProofs MsgModel RouteModel RouteProofs TaskModel TaskProofs TaskOrder TaskHandles TaskIsolation TaskSync
  NetModel NetProofs NetOrigin NetDelivery NetComplete NetSynced NetConcurrent NetSettle NetSettleDir FifoSpec FifoProofs FifoComplete BusySpec BusyProofs.

Section busy.
Variable deser : bytes -> option message.
Variable dec_users : bytes -> option direct_map.
Variable dec_topics : bytes -> option topic_map.
Variable valid : N -> bool.
Variable enc_users : direct_map -> bytes.
Variable enc_topics : topic_map -> bytes.
Hypothesis Hcodec : faithful_sync deser dec_users dec_topics enc_users enc_topics.
Notation m_step := (m_step deser dec_users dec_topics valid).
Notation m_run := (m_run deser dec_users dec_topics valid).
Notation m_run_snoc := (m_run_snoc deser dec_users dec_topics valid).
Notation loop_frame := (loop_frame deser dec_users dec_topics valid).
Notation broker_at := (broker_at deser dec_users dec_topics valid).
Notation loop_of := (loop_of deser dec_users dec_topics valid).
Notation n_run := (n_run deser dec_users dec_topics valid enc_users enc_topics).
Notation n_run_snoc := (n_run_snoc deser dec_users dec_topics valid enc_users enc_topics).
Notation wire := (wire enc_users enc_topics).
Notation fine := (fine deser dec_users dec_topics valid).
Notation inv_run := (inv_run deser dec_users dec_topics valid enc_users enc_topics).
Notation comes_from := (comes_from deser dec_users dec_topics valid).
Notation sent_once := (sent_once deser dec_users dec_topics valid).
Notation subscribed_at := (subscribed_at deser dec_users dec_topics valid).
Notation user_told := (user_told deser dec_users dec_topics valid).
Notation topic_told := (topic_told deser dec_users dec_topics valid).
Notation done_with := (done_with deser dec_users dec_topics valid).
Notation caught_up := (caught_up deser dec_users dec_topics valid).
Notation tied := (tied deser dec_users dec_topics valid).
Notation conns_at n b := (m_conns (broker_at n b)).
Notation tasks_at n b := (m_tasks (broker_at n b)).
Notation sent_at n b := (m_sent (broker_at n b)).



(** ** Users *)
Lemma tied_reg es a ca ha b cb hb : tied (n_run es) a ca ha b cb hb ->
  registered (conns_at (n_run es) a) ha (OBroker b ca) /\ registered (conns_at (n_run es) b) hb (OBroker a cb).
Proof.
  intros (Hca & Hla & Hcb & Hlb & _). split.
  - destruct (peer_registered deser dec_users dec_topics valid _ _ _ _ Hca) as [h Hr].
    by rewrite <- (peer_handle deser dec_users dec_topics valid enc_users enc_topics es a b ca h ha Hr Hla).
  - destruct (peer_registered deser dec_users dec_topics valid _ _ _ _ Hcb) as [h Hr].
    by rewrite <- (peer_handle deser dec_users dec_topics valid enc_users enc_topics es b a cb h hb Hr Hlb).
Qed.
Lemma frames_le_run es : hooks_pass es -> fine (n_run es) -> frames_le deser dec_users dec_topics valid (n_run es).
Proof. intros Hh Hf. by destruct (topics_covered_run deser dec_users dec_topics valid enc_users enc_topics Hcodec es Hh Hf) as (_ & ? & _). Qed.

Lemma links_later p q a c x : p `prefix_of` q -> n_links (n_run p) !! (a, c) = Some x -> n_links (n_run q) !! (a, c) = Some x.
Proof.
  intros Hpq Hl. apply (later_ind (fun q => n_links (n_run q) !! (a, c) = Some x) p q Hpq Hl). clear Hl. intros r e _ Hl. rewrite n_run_snoc.
  destruct (inv_run r) as (I0 & _). set (n := n_run r) in *. destruct x as [b h]. destruct (I0 _ _ _ _ Hl) as (_ & (h1 & h2 & Hin) & _).
  assert (Hc : c ∈ authed_conns (trace n a)).
  { apply elem_of_list_In, in_concat. exists [c]. split; [|by left]. apply in_map_iff. eexists. split; [|exact Hin]. reflexivity. }
  destruct e as [b0 h0 hh0 u0 c0 ts0|a0 ha0 hha0 ca0 b0 hb0 hhb0 cb0|b0 h0 raw0 hk0|a0 c0 hk0|b0 e0]; cbn [NetModel.n_step].
  - by case_decide.
  - case_decide as Hd; [|done]. destruct Hd as (_ & (_ & _ & _ & Hn1) & (_ & _ & _ & Hn2)). cbn [n_links].
    rewrite lookup_insert_ne by (intros [= -> ->]; done). by rewrite lookup_insert_ne by (intros [= -> ->]; done).
  - destruct (tasks_at n b0 !! h0) as [[[] ? ? ?]|]; done.
  - destruct (n_links n !! (a0, c0)) as [[b1 h3]|]; [|done]. destruct (tasks_at n b1 !! h3); [|done]. by destruct (sent_on _ _ !! _).
  - by destruct (receives_nothing e0).
Qed.
(** What is tied at two moments is tied all the time in between. *)
Lemma tied_between p q a ca ha b cb hb : p `prefix_of` q -> tied (n_run p) a ca ha b cb hb -> tied (n_run q) a ca ha b cb hb ->
  forall r, p `prefix_of` r -> r `prefix_of` q -> tied (n_run r) a ca ha b cb hb.
Proof.
  intros Hpq (A1 & A2 & A3 & A4 & A5 & A6) (B1 & _ & B3 & _) r Hpr Hrq.
  assert (Hlo : forall x h o, loop_of (n_run p) x h o -> loop_of (n_run r) x h o).
  { intros x h o (t & Ht & Ho). destruct (task_later deser dec_users dec_topics valid enc_users enc_topics p r x h t Hpr Ht) as (t' & Ht' & Ho' & _). exists t'. split; [done|congruence]. }
  split; [by eapply (peer_between deser dec_users dec_topics valid enc_users enc_topics p q)|]. split; [by apply Hlo|].
  split; [by eapply (peer_between deser dec_users dec_topics valid enc_users enc_topics p q)|]. split; [by apply Hlo|].
  split; by eapply links_later.
Qed.

Section user.
Variables (v : ukey) (b : bid) (c : N).

Lemma known_stays es1 es a : es1 `prefix_of` es -> hooks_pass es -> fine (n_run es) -> admitted_once (n_run es) v ->
  c_get_user_connection (conns_at (n_run es1) b) v = Some c -> c_get_user_connection (conns_at (n_run es) b) v = Some c ->
  d_in v b (direct (conns_at (n_run es1) a)) -> forall p, es1 `prefix_of` p -> p `prefix_of` es -> d_in v b (direct (conns_at (n_run p) a)).
Proof.
  intros H1 Hh Hf Hone Hc1 Hc Hd. pose proof (once_solo deser dec_users dec_topics valid enc_users enc_topics v b es Hone ltac:(eauto)) as Hs.
  pose proof (user_between deser dec_users dec_topics valid enc_users enc_topics _ _ _ _ _ H1 Hc1 Hc) as Hcon.
  apply between_ind; [done|]. intros p e Hp Hpe IH. assert (Hpes : p `prefix_of` es) by (etrans; [|exact Hpe]; by apply prefix_app_r).
  pose proof (solo_before deser dec_users dec_topics valid enc_users enc_topics v b p es Hpes Hs) as Hsp.
  eapply known_step; [|exact Hsp| |exact IH].
  - eapply connected_up; [exact Hcodec|by eapply hooks_before|by eapply fine_before|exact Hsp|by apply Hcon].
  - apply Hcon; [|done]. etrans; [exact Hp|]. by apply prefix_app_r.
Qed.

Lemma known_told es1 es a ca ha cb hb : es1 `prefix_of` es -> hooks_pass es -> fine (n_run es) -> admitted_once (n_run es) v ->
  c_get_user_connection (conns_at (n_run es1) b) v = Some c -> c_get_user_connection (conns_at (n_run es) b) v = Some c ->
  tied (n_run es1) a ca ha b cb hb -> tied (n_run es) a ca ha b cb hb ->
  user_told (n_run es1) b a v -> caught_up (n_run es1) (n_run es) b cb a ha -> d_in v b (direct (conns_at (n_run es) a)).
Proof.
  intros H1 Hh Hf Hone Hc1 Hc Ht1 Ht [Htd Htk] Hcu.
  pose proof (once_solo deser dec_users dec_topics valid enc_users enc_topics v b es Hone ltac:(eauto)) as Hs.
  pose proof (user_between deser dec_users dec_topics valid enc_users enc_topics _ _ _ _ _ H1 Hc1 Hc) as Hcon.
  pose proof (hooks_before _ _ H1 Hh) as Hh1. pose proof (fine_before deser dec_users dec_topics valid enc_users enc_topics _ _ H1 Hf) as Hf1.
  destruct (tied_reg _ _ _ _ _ _ _ Ht) as [Hra _]. destruct (tied_reg _ _ _ _ _ _ _ Ht1) as [Hra1 _].
  destruct Ht1 as (_ & (t1 & Ht1 & Ho1) & Hcb1 & _ & _ & Hl1). destruct Ht as (_ & _ & _ & _ & _ & Hl).
  destruct (inv_run es) as (I0 & _). destruct (I0 _ _ _ _ Hl) as (Hne & _).
  assert (Hup : forall p, es1 `prefix_of` p -> p `prefix_of` es -> up deser dec_users dec_topics valid v b (n_run p) /\ solo v b (n_run p)).
  { intros p Hp Hpes. pose proof (solo_before deser dec_users dec_topics valid enc_users enc_topics v b p es Hpes Hs) as Hsp. split; [|done].
    eapply connected_up; [exact Hcodec|by eapply hooks_before|by eapply fine_before|exact Hsp|by apply Hcon]. }
  apply (arrives deser dec_users dec_topics valid enc_users enc_topics (d_G v b) (d_App v b) (d_A v b) es1 es a ha ca b cb H1 Hh Hf Hl Hra); [by exists t1| | | | |exact Hcu].
  - intros f hk (d & -> & Hin) Hk. destruct (user_frame_acts deser dec_users dec_topics enc_users enc_topics Hcodec b d hk Hk) as (d' & Heq & He & _). rewrite Heq.
    eexists. split; [by left|]. exists d'. split; [done|]. unfold d_in. by rewrite He.
  - intros p x Hp Hpes (d & -> & Hin) _. eexists. split; [reflexivity|]. unfold d_A, d_in.
    destruct (Hup p Hp Hpes) as [(Hon & _) _].
    destruct (op_keeps v b (conns_at (n_run p) a) (CApplyUserSync d)) as (_ & _ & K & _); [done| | | |by apply (K d)].
    + intros m e [= <-] He. unfold d_in in Hin. congruence.
    + intros e He. exact (only_direct deser dec_users dec_topics valid v _ (n_run p) a e Hon He).
    + left. rewrite (identity_at deser dec_users dec_topics valid). congruence.
  - intros p e Hp Hpe HA. assert (Hpes : p `prefix_of` es) by (etrans; [|exact Hpe]; by apply prefix_app_r). destruct (Hup p Hp Hpes) as [Hu Hsp].
    eapply known_step; [exact Hu|exact Hsp| |exact HA]. apply Hcon; [|done]. etrans; [exact Hp|]. by apply prefix_app_r.
  - destruct (Hup es1 ltac:(done) H1) as [(_ & _ & Hd & _ & Hcov) _].
    destruct (Hcov cb a ha Hl1 Hcb1) as [Hm|[?|[(t & Ht & j & x & Hj & Hx & Hg)|[(t & x & Ht & Hx & Ha)|(h & t & x & Ht & _ & Hx & Htl)]]]].
    + left. by exists (OBroker b ca).
    + exfalso. destruct (partial_in_out _ _ _ Hm Hd) as (d & Hd1 & Hd2). specialize (Htd d Hd1). congruence.
    + by left.
    + right. left. by exists t, j, x.
    + right. right. exists t, x. split; [done|]. split; [|done]. eapply frames_le_run; [exact Hh1|exact Hf1|exact Hl1|exact Ht].
    + exfalso. apply (Htk h t x Ht Hx). destruct x; cbn in Htl |- *; try done.
      * destruct Htl as (-> & (d & -> & Hin) & _). split; [done|]. by exists (home b).
      * destruct Htl as (-> & _ & (d & -> & Hin) & _). split; [done|]. by exists (home b).
      * destruct Htl as ((d & -> & Hin) & _). by exists (home b).
      * by destruct Htl.
      * by destruct Htl.
Qed.
End user.


(** ** Topics *)
(** A topic that is announced and stays needed keeps its announcement. *)
Lemma topic_stays es1 es b t cur : es1 `prefix_of` es -> fine (n_run es) ->
  (forall p, es1 `prefix_of` p -> p `prefix_of` es -> t ∈ topics_now (conns_at (n_run p) b)) ->
  t ∈ previous_topics (conns_at (n_run es1) b) -> entries (topic_sync (conns_at (n_run es1) b)) !! t = Some cur ->
  forall p, es1 `prefix_of` p -> p `prefix_of` es ->
  t ∈ previous_topics (conns_at (n_run p) b) /\ entries (topic_sync (conns_at (n_run p) b)) !! t = Some cur.
Proof.
  intros H1 Hf Hnow Hp1 Hc1. apply between_ind; [done|]. intros p e Hp Hpe [IH1 IH2].
  assert (Hpes : p `prefix_of` es) by (etrans; [|exact Hpe]; by apply prefix_app_r). pose proof (Hnow p Hp Hpes) as Hn.
  destruct (step_at deser dec_users dec_topics valid enc_users enc_topics p e b) as [->|(ev & _ & Heq)]; [done|]. rewrite Heq, m_run_snoc.
  change (m_run b (trace (n_run p) b)) with (broker_at (n_run p) b).
  destruct (m_step_op deser dec_users dec_topics valid (broker_at (n_run p) b) ev) as [->|(h & good & o & x & l & op & k & cop & -> & Ht & Ha & Hs)]; [done|]. rewrite Hs.
  destruct (is_topic_round cop) eqn:Hr.
  - destruct cop; try discriminate Hr. cbn [c_step].
    pose proof (fine_before deser dec_users dec_topics valid enc_users enc_topics p es Hpes Hf b) as [_ Hsh].
    destruct (topic_state deser dec_users dec_topics valid b (trace (n_run p) b) Hsh) as (_ & Hmod & _).
    destruct (partial_topic_effect _ Hmod) as (E1 & _ & _ & E4 & _). change (m_run b (trace (n_run p) b)) with (broker_at (n_run p) b) in *.
    rewrite E1, E4. split; [done|]. rewrite decide_False by tauto. by rewrite decide_False by tauto.
  - destruct (step_topic_frame (conns_at (n_run p) b) cop Hr) as [-> ->]. done.
Qed.

(** Once [a] knows the announcement, it goes on knowing it. *)
Lemma heard_step p e a ha b t cur : hooks_pass p -> fine (n_run (p ++ [e])) -> live (broker_at (n_run (p ++ [e])) a) ha ->
  t_A b ha t cur (conns_at (n_run p) a) -> t_A b ha t cur (conns_at (n_run (p ++ [e])) a).
Proof.
  intros Hh Hf Hl (c & R & HR & e1 & He1 & Hle).
  destruct (step_at deser dec_users dec_topics valid enc_users enc_topics p e a) as [Heq|(ev & _ & Heq)]; [rewrite Heq; exists c, R; split; [done|by exists e1]|].
  rewrite Heq in Hl |- *. destruct (peer_map_step deser dec_users dec_topics valid a (trace (n_run p) a) ev b c R ha HR Hl) as (R' & HR' & Hcs & _).
  exists c, R'. split; [done|]. destruct Hcs as [->|(hh & good & o & l & op & k & d & -> & Ht & ->)]; [by exists e1|].
  destruct (merge_keeps R d t e1) as (e2 & He2 & Hle2); [|done|exists e2; split; [done|lia]].
  destruct (topics_covered_run deser dec_users dec_topics valid enc_users enc_topics Hcodec p Hh) as ((_ & S2 & _) & _).
  { eapply fine_before; [|exact Hf]. by apply prefix_app_r. }
  eapply told_plain, S2; [exact Ht|by left].
Qed.

(** What [a] has heard of a topic that [b] needs makes it forward. *)
Lemma heard_forwards es a b ha t cur : hooks_pass es -> fine (n_run es) ->
  t ∈ previous_topics (conns_at (n_run es) b) -> entries (topic_sync (conns_at (n_run es) b)) !! t = Some cur ->
  t_A b ha t cur (conns_at (n_run es) a) -> In b (c_get_interested_by_topic (conns_at (n_run es) a) [t] false).1.
Proof.
  intros Hh Hf Hprev Hcur (c & R & HR & e & He & Hle). destruct (topics_covered_run deser dec_users dec_topics valid enc_users enc_topics Hcodec es Hh Hf) as ((_ & _ & S3) & _).
  pose proof (S3 _ _ _ HR) as [_ Htold]. cbn [be_topics] in Htold. destruct (Htold t e He) as (_ & cur' & Hcur' & Hle'). rewrite Hcur in Hcur'. injection Hcur' as <-.
  destruct Hle' as [?| -> ]; [lia|]. destruct (topic_state deser dec_users dec_topics valid b (trace (n_run es) b) (proj2 (Hf b))) as (_ & _ & Hval & _).
  specialize (Hval t cur Hcur). rewrite decide_True in Hval by done.
  destruct (conns_history deser dec_users dec_topics valid a (trace (n_run es) a)) as (os & Hos & _). change (m_run a (trace (n_run es) a)) with (broker_at (n_run es) a) in Hos.
  rewrite Hos, interested_brokers_view, <- Hos. split; [done|]. exists t. split; [by left|]. unfold view. rewrite HR. cbn [be_topics]. unfold vm_get. by rewrite He.
Qed.

Lemma topic_heard es1 es2 es a ca ha b cb hb v t : es1 `prefix_of` es2 -> es2 `prefix_of` es -> hooks_pass es -> fine (n_run es) ->
  (forall p, es1 `prefix_of` p -> p `prefix_of` es -> subscribed_at (n_run p) b v t) ->
  tied (n_run es1) a ca ha b cb hb -> tied (n_run es) a ca ha b cb hb ->
  topic_told (n_run es1) b a t -> caught_up (n_run es1) (n_run es2) b cb a ha ->
  forall p, es2 `prefix_of` p -> p `prefix_of` es -> In b (c_get_interested_by_topic (conns_at (n_run p) a) [t] false).1.
Proof.
  intros H12 H2 Hh Hf Hsub Ht1 Ht [Htd Htk] Hcu.
  assert (H1 : es1 `prefix_of` es) by (etrans; [exact H12|exact H2]).
  assert (Hnow : forall p, es1 `prefix_of` p -> p `prefix_of` es -> t ∈ topics_now (conns_at (n_run p) b)).
  { intros p Hp Hpes. apply subscribed_now. exists v. by apply Hsub. }
  pose proof (hooks_before _ _ H1 Hh) as Hh1. pose proof (fine_before deser dec_users dec_topics valid enc_users enc_topics _ _ H1 Hf) as Hf1.
  destruct (tied_reg _ _ _ _ _ _ _ Ht) as [Hra _]. destruct (tied_reg _ _ _ _ _ _ _ Ht1) as [Hra1 _].
  assert (Hlive : live (broker_at (n_run es) a) ha) by (left; by exists (OBroker b ca)).
  assert (Hreg : forall p, es1 `prefix_of` p -> p `prefix_of` es -> registered (conns_at (n_run p) a) ha (OBroker b ca)).
  { intros p Hp Hpes. by eapply (registered_between deser dec_users dec_topics valid enc_users enc_topics es1 es). }
  destruct Ht1 as (_ & (t1 & Ht1 & Ho1) & Hcb1 & _ & _ & Hl1).
  destruct (topic_state deser dec_users dec_topics valid b (trace (n_run es1) b) (proj2 (Hf1 b))) as (_ & Hmod & Hval & Hprev).
  change (m_run b (trace (n_run es1) b)) with (broker_at (n_run es1) b) in Hmod, Hval, Hprev.
  assert (Hp1 : t ∈ previous_topics (conns_at (n_run es1) b)).
  { destruct (partial_topic_effect _ Hmod) as (_ & _ & _ & E4 & E5). pose proof (Hnow es1 ltac:(done) H1) as Hn.
    destruct (decide (t ∈ previous_topics (conns_at (n_run es1) b))) as [?|Hnp]; [done|exfalso].
    destruct (c_get_partial_topic_sync (conns_at (n_run es1) b)).2 as [d|] eqn:Ed; [|rewrite E5 in Hn; done].
    destruct E5 as (_ & _ & _ & E5). specialize (Htd d eq_refl). rewrite E5, decide_False in Htd by tauto. rewrite E4, decide_True in Htd by tauto. done. }
  destruct (Hprev t Hp1) as [cur Hcur].
  pose proof (topic_stays es1 es b t cur H1 Hf Hnow Hp1 Hcur) as Hst.
  assert (Hstep : forall p e, es1 `prefix_of` p -> p ++ [e] `prefix_of` es -> t_A b ha t cur (conns_at (n_run p) a) -> t_A b ha t cur (conns_at (n_run (p ++ [e])) a)).
  { intros p e Hp Hpe HA. assert (Hpes : p `prefix_of` es) by (etrans; [|exact Hpe]; by apply prefix_app_r).
    eapply heard_step; [by eapply hooks_before|by eapply fine_before| |exact HA]. left. exists (OBroker b ca). apply Hreg; [|done]. etrans; [exact Hp|]. by apply prefix_app_r. }
  assert (HA2 : t_A b ha t cur (conns_at (n_run es2) a)).
  { destruct Ht as (_ & _ & _ & _ & _ & Hl).
    assert (Hl2 : n_links (n_run es2) !! (b, cb) = Some (a, ha)) by (by eapply links_later).
    apply (arrives deser dec_users dec_topics valid enc_users enc_topics (t_G t cur) (t_App b t cur) (t_A b ha t cur) es1 es2 a ha ca b cb H12); [by eapply hooks_before|by eapply fine_before|exact Hl2|by apply Hreg|by exists t1| | | | |exact Hcu].
    - intros f hk (d & -> & (e1 & He1 & Hle) & Hpl) Hk. destruct (topic_frame_acts deser dec_users dec_topics enc_users enc_topics Hcodec b d hk Hk) as (d' & Heq & He & _). rewrite Heq.
      eexists. split; [by left|]. exists d'. split; [done|]. unfold topic_in, plain. rewrite He. split; [by exists e1|done].
    - intros p x _ _ (d & -> & (e1 & He1 & Hle) & Hpl) (R & HR). eexists. split; [reflexivity|].
      destruct (merge_takes R d t e1 Hpl He1) as (e2 & He2 & Hle2).
      exists ca, (vm_merge u32_gtb R d).1. split; [|exists e2; split; [done|lia]].
      cbn [c_step]. by rewrite (apply_topic_entry _ _ _ _ HR), lookup_insert.
    - intros p e Hp Hpe. apply Hstep; [done|]. etrans; [exact Hpe|exact H2].
    - destruct (topics_covered_run deser dec_users dec_topics valid enc_users enc_topics Hcodec es1 Hh1 Hf1) as (_ & Hfl & Hcov).
      destruct (Hcov b cb a ha Hl1 Hcb1 ltac:(left; by exists (OBroker b ca)) t cur Hcur) as [?|[(tt & Htt & j & x & Hj & Hx & Hg)|[(tt & x & Htt & Hx & Ha)|(h & tt & x & Htt & _ & Hx & Htl)]]].
      + by left.
      + right. left. by exists tt, j, x.
      + right. right. exists tt, x. split; [done|]. split; [|done]. by eapply Hfl.
      + exfalso. apply (Htk h tt x Htt Hx). destruct x; cbn in Htl |- *; try done.
        * destruct Htl as (-> & (d & -> & (e1 & He1 & _) & _) & _). split; [done|]. by exists e1.
        * destruct Htl as (-> & _ & (d & -> & (e1 & He1 & _) & _) & _). split; [done|]. by exists e1.
        * destruct Htl as ((d & -> & (e1 & He1 & _) & _) & _). by exists e1.
        * by destruct Htl.
        * by destruct Htl. }
  assert (HA : forall p, es2 `prefix_of` p -> p `prefix_of` es -> t_A b ha t cur (conns_at (n_run p) a)).
  { apply between_ind; [done|]. intros p e Hp Hpe. apply Hstep; [etrans; [exact H12|exact Hp]|done]. }
  intros p Hp Hpes. destruct (Hst p ltac:(etrans; [exact H12|exact Hp]) Hpes) as [Hpp Hpc].
  eapply heard_forwards; [by eapply hooks_before|by eapply fine_before|exact Hpp|exact Hpc|by apply HA].
Qed.

End busy.
