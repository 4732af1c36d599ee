(** Complete delivery in a synchronised network. *)
From stdpp Require Import gmap fin_maps list.
From Coq Require Import NArith Lia.
From Verif Require Import IdModel VMapModel ConnModel ConnSpec ConnProofs ConnProofs2 ConnProofs3 TopicModel TopicProofs MsgModel RouteModel RouteProofs
  TaskModel TaskProofs TaskOrder NetModel NetProofs NetOrigin NetComplete.

(** ** Copies for one peer among distinct copies *)
Lemma filter_none {A} (P : A -> Prop) `{!forall x, Decision (P x)} (l : list A) : (forall x, P x -> x ∈ l -> False) -> filter P l = [].
Proof.
  induction l as [|x l IH]; [done|]. intros Hn. rewrite filter_cons_False; [|intros Hx; apply (Hn x Hx); left].
  apply IH. intros y Hy Hin. apply (Hn y Hy). by right.
Qed.
Lemma copies_one h k (E : list emission) e :
  NoDup (map e_to E) -> In e E -> filter (fun x => e_to (s_what x) = e_to e) (map (Sent h k) E) = [Sent h k e].
Proof.
  induction E as [|e' E IH]; [done|]. cbn [map]. intros Hnd [->|Hin]; apply NoDup_cons in Hnd as [Hni Hnd].
  - rewrite filter_cons_True by done. f_equal. apply filter_none. intros x Hx Hin.
    apply elem_of_list_In, in_map_iff in Hin as (e1 & <- & He1). cbn in Hx. apply Hni. rewrite <- Hx. apply elem_of_list_In, in_map. done.
  - rewrite filter_cons_False; [by apply IH|]. cbn. intros Heq. apply Hni. rewrite Heq. apply elem_of_list_In, in_map. done.
Qed.
Lemma copies_none h k (E : list emission) T :
  (forall e, In e E -> e_to e <> T) -> filter (fun x => e_to (s_what x) = T) (map (Sent h k) E) = [].
Proof.
  intros Hn. apply filter_none. intros x Hx Hin. apply elem_of_list_In, in_map_iff in Hin as (e1 & <- & He1). by apply (Hn e1).
Qed.

Section synced.
Variable deser : bytes -> option message.
Variable dec_users : bytes -> option direct_map.
Variable dec_topics : bytes -> option topic_map.
Variable valid : N -> bool.
Variable enc_users : direct_map -> bytes.
Variable enc_topics : topic_map -> bytes.
Notation broker_at := (broker_at deser dec_users dec_topics valid).
Notation n_run := (n_run deser dec_users dec_topics valid enc_users enc_topics).
Notation conns_at n b := (m_conns (broker_at n b)).
Notation tasks_at n b := (m_tasks (broker_at n b)).
Notation sent_at n b := (m_sent (broker_at n b)).
Notation at_rest := (at_rest deser dec_users dec_topics valid).

(** User [v] is subscribed to topic [t] at broker [b]. *)
Definition subscribed_at (n : net) (b : bid) (v : ukey) (t : N) : Prop :=
  In v (c_get_interested_by_topic (conns_at n b) [t] true).2.

(** Seen from broker [a]: it is linked with every broker that has users, knows where these
    users are and which topics their brokers need; and subscriptions are to known topics
    by connected users. *)
Definition synchronised (n : net) (a : bid) : Prop :=
  (forall b v c, b <> a -> c_get_user_connection (conns_at n b) v = Some c ->
     c_get_broker_identifier_of_user (conns_at n a) v = Some b
     /\ exists cl hb t, c_get_broker_connection (conns_at n a) b = Some cl /\ n_links n !! (a, cl) = Some (b, hb)
          /\ tasks_at n b !! hb = Some t /\ t_open t = true)
  /\ (forall b v t, b <> a -> subscribed_at n b v t -> In b (c_get_interested_by_topic (conns_at n a) [t] false).1)
  /\ (forall b v t, subscribed_at n b v t -> valid t = true /\ exists c, c_get_user_connection (conns_at n b) v = Some c).

(** What broker [b] sent to user [v] between two moments. *)
Definition copies (n n' : net) (b : bid) (v : ukey) : list sent :=
  filter (fun x => e_to (s_what x) = inl v) (drop (length (sent_at n b)) (sent_at n' b)).

Lemma state_idx n b : idx_inv (conns_at n b).
Proof. unfold NetModel.broker_at. destruct (machine_history deser dec_users dec_topics valid b (trace n b)) as [os ->]. apply run_idx. Qed.
Lemma state_identity n b : identity (conns_at n b) = b.
Proof. unfold NetModel.broker_at. apply machine_identity. Qed.
Lemma state_directory n b v : c_get_broker_identifier_of_user (conns_at n b) v = Some b <-> exists c, c_get_user_connection (conns_at n b) v = Some c.
Proof. unfold NetModel.broker_at. destruct (machine_history deser dec_users dec_topics valid b (trace n b)) as [os ->]. apply directory_iff_connected. Qed.

Lemma interested_split n b ts only v :
  In v (c_get_interested_by_topic (conns_at n b) ts only).2 <-> exists t, In t ts /\ subscribed_at n b v t.
Proof.
  unfold subscribed_at. rewrite interested_users by apply state_idx. split.
  - intros (t & Ht & Hf). exists t. split; [done|]. apply interested_users; [apply state_idx|]. exists t. split; [by left|done].
  - intros (t & Ht & Hs). apply interested_users in Hs as (t' & [<-|[]] & Hf); [|apply state_idx]. eauto.
Qed.
Lemma interested_brokers_split n a ts b :
  In b (c_get_interested_by_topic (conns_at n a) ts false).1 <-> exists t, In t ts /\ In b (c_get_interested_by_topic (conns_at n a) [t] false).1.
Proof.
  rewrite interested_brokers by apply state_idx. split.
  - intros (_ & t & Ht & Hf). exists t. split; [done|]. apply interested_brokers; [apply state_idx|]. split; [done|]. exists t. split; [by left|done].
  - intros (t & Ht & Hs). apply interested_brokers in Hs as (_ & t' & [<-|[]] & Hf); [|apply state_idx]. eauto.
Qed.

Lemma broadcast_complete es0 es1 a h u cu k0 raw ts body :
  let n := n_run es0 in
  let n' := n_run (es0 ++ NPublish a h raw no_hook :: es1) in
  deser raw = Some (MBroadcast ts body) -> (exists t, In t ts /\ valid t = true) ->
  at_rest n -> synchronised n a -> tasks_at n a !! h = Some (Task (OUser u cu) [] true k0) ->
  Forall calm es1 -> at_rest n' ->
  forall b v,
    ((exists t, In t ts /\ subscribed_at n b v t) ->
       exists x c, copies n n' b v = [x] /\ c_get_user_connection (conns_at n b) v = Some c /\ s_what x = Emit (inl v) c (FRelay raw))
    /\ (~ (exists t, In t ts /\ subscribed_at n b v t) -> copies n n' b v = []).
Proof.
  intros n n' Hd Hval Hrest (Hs1 & Hs2 & Hs3) Hpub Hcalm Hrest' b v.
  set (ts' := (prune valid ts).1).
  set (A0 := ABroadcast ts' raw false). set (AB := ABroadcast ts raw true).
  assert (HA0 : user_frame deser valid u raw no_hook = ([A0], true)).
  { unfold user_frame. rewrite Hd. cbn [no_hook]. unfold no_hook. apply prune_ok in Hval. unfold A0, ts'. destruct (prune valid ts) as [l g]. cbn in Hval. by rewrite Hval. }
  assert (HAB : forall b', broker_frame deser dec_users dec_topics b' raw no_hook = ([AB], true)).
  { intros b'. unfold broker_frame. rewrite Hd. done. }
  assert (HoA : forall s, NoDup (map e_to (ems s [A0]))).
  { intros s. unfold A0. rewrite ems_broadcast. apply broadcast_once. }
  assert (HfA : forall s e, In e (ems s [A0]) -> e_frame e = FRelay raw).
  { intros s e. unfold A0. rewrite ems_broadcast, broadcast_emissions. by intros [(b' & c & _ & _ & _ & ->)|(u' & c & _ & _ & _ & ->)]. }
  assert (HuB : forall s e, In e (ems s [AB]) -> exists v, e_to e = inl v).
  { intros s e. unfold AB. rewrite ems_broadcast, broadcast_emissions. intros [(b' & c & Hin & _)|(u' & c & _ & _ & _ & ->)]; [|by exists u'].
    unfold c_get_interested_by_topic in Hin. cbn [fst] in Hin. rewrite fold_const in Hin. by rewrite elements_empty in Hin. }
  destruct (complete_run deser dec_users dec_topics valid enc_users enc_topics es0 Hrest a h u cu k0 raw Hpub A0 AB HA0 HAB eq_refl eq_refl HoA HfA HuB es1 Hcalm Hrest')
    as (Ha & Hoth & Hreach). fold n n' in Ha, Hoth, Hreach.
  unfold Ea, Eb in Ha, Hoth, Hreach. fold n in Ha, Hoth, Hreach.
  unfold copies. destruct (decide (b = a)) as [->|Hne].
  - rewrite Ha, drop_app. split.
    + intros (t & Ht & Hsub). destruct (Hs3 _ _ _ Hsub) as (Hvt & c & Hc).
      assert (Hin : In (Emit (inl v) c (FRelay raw)) (ems (conns_at n a) [A0])).
      { unfold A0. rewrite ems_broadcast, broadcast_emissions. right. exists v, c. split; [|done].
        apply interested_split. exists t. split; [by apply prune_in|done]. }
      exists (Sent h (1 + k0) (Emit (inl v) c (FRelay raw))), c. split; [|done].
      exact (copies_one h (1 + k0) _ _ (HoA _) Hin).
    + intros Hno. apply copies_none. intros e He. unfold A0 in He. rewrite ems_broadcast, broadcast_emissions in He.
      destruct He as [(b' & c & _ & _ & _ & ->)|(u' & c & Hin & _ & _ & ->)]; [done|]. cbn. intros [= ->]. apply Hno.
      apply interested_split in Hin as (t & Ht & Hsub). exists t. split; [|done]. by apply prune_in in Ht as [Ht _].
  - assert (Hdel : In v (c_get_interested_by_topic (conns_at n b) ts true).2 -> forall c, c_get_user_connection (conns_at n b) v = Some c ->
        In (Emit (inl v) c (FRelay raw)) (ems (conns_at n b) [AB])).
    { intros Hin c Hc. unfold AB. rewrite ems_broadcast, broadcast_emissions. right. by exists v, c. }
    assert (HoB : NoDup (map e_to (ems (conns_at n b) [AB]))).
    { unfold AB. rewrite ems_broadcast. apply broadcast_once. }
    split.
    + intros (t & Ht & Hsub). destruct (Hs3 _ _ _ Hsub) as (Hvt & c & Hc).
      destruct (Hs1 b v c Hne Hc) as (_ & cl & hb & tb & Hcl & Hlk & Htb & Hop).
      assert (HinA : In (Emit (inr b) cl (FRelay raw)) (ems (conns_at n a) [A0])).
      { unfold A0. rewrite ems_broadcast, broadcast_emissions. left. exists b, cl. split; [|done].
        apply interested_brokers_split. exists t. split; [by apply prune_in|]. by eapply Hs2. }
      destruct (Hreach b cl hb tb Hne HinA Hlk Htb Hop) as (hb' & k & Heq). rewrite Heq, drop_app.
      exists (Sent hb' k (Emit (inl v) c (FRelay raw))), c. split; [|done].
      apply (copies_one hb' k _ (Emit (inl v) c (FRelay raw)) HoB). apply Hdel; [|done]. apply interested_split. eauto.
    + intros Hno. destruct (Hoth b Hne) as [(hb' & k & Heq)|Heq]; rewrite Heq; [|by rewrite drop_all].
      rewrite drop_app. apply copies_none. intros e He. unfold AB in He. rewrite ems_broadcast, broadcast_emissions in He.
      destruct He as [(b' & c & _ & _ & _ & ->)|(u' & c & Hin & _ & _ & ->)]; [done|]. cbn. intros [= ->]. apply Hno.
      by apply interested_split in Hin.
Qed.

Lemma direct_complete es0 es1 a h u cu k0 raw r body :
  let n := n_run es0 in
  let n' := n_run (es0 ++ NPublish a h raw no_hook :: es1) in
  deser raw = Some (MDirect r body) ->
  at_rest n -> synchronised n a -> tasks_at n a !! h = Some (Task (OUser u cu) [] true k0) ->
  Forall calm es1 -> at_rest n' ->
  forall b v,
    (forall c, v = r -> c_get_user_connection (conns_at n b) v = Some c ->
       exists x, copies n n' b v = [x] /\ s_what x = Emit (inl v) c (FRelay raw))
    /\ (v <> r \/ c_get_user_connection (conns_at n b) v = None -> copies n n' b v = []).
Proof.
  intros n n' Hd Hrest (Hs1 & Hs2 & Hs3) Hpub Hcalm Hrest' b v.
  set (A0 := ADirect r raw false). set (AB := ADirect r raw true).
  assert (HA0 : user_frame deser valid u raw no_hook = ([A0], true)).
  { unfold user_frame. rewrite Hd. done. }
  assert (HAB : forall b', broker_frame deser dec_users dec_topics b' raw no_hook = ([AB], true)).
  { intros b'. unfold broker_frame. rewrite Hd. done. }
  assert (HinA : forall s e, In e (ems s [A0]) ->
    (c_get_broker_identifier_of_user s r = Some (identity s) /\ exists c, c_get_user_connection s r = Some c /\ e = Emit (inl r) c (FRelay raw))
    \/ exists b' c, e = Emit (inr b') c (FRelay raw)).
  { intros s e. unfold A0. rewrite ems_direct. destruct (c_get_broker_identifier_of_user s r) as [b'|]; [|done]. case_decide as Hb'.
    - unfold emit_user. destruct (c_get_user_connection s r) as [c|]; [|done]. intros [<-|[]]. left. subst b'. eauto.
    - unfold emit_broker. destruct (c_get_broker_connection s b') as [c|]; [|done]. intros [<-|[]]. right. eauto. }
  assert (HlA : forall s o, length (ems s [ADirect r raw o]) <= 1).
  { intros s o. rewrite ems_direct. destruct (c_get_broker_identifier_of_user s r) as [b'|]; [|cbn; lia]. case_decide; [|destruct o; [cbn; lia|]].
    - unfold emit_user. destruct (c_get_user_connection s r); cbn; lia.
    - unfold emit_broker. destruct (c_get_broker_connection s b'); cbn; lia. }
  assert (Hnd : forall s o, NoDup (map e_to (ems s [ADirect r raw o]))).
  { intros s o. specialize (HlA s o). destruct (ems s [ADirect r raw o]) as [|e [|e' l]]; [constructor|apply NoDup_singleton|cbn in HlA; lia]. }
  assert (HfA : forall s e, In e (ems s [A0]) -> e_frame e = FRelay raw).
  { intros s e He. destruct (HinA s e He) as [(_ & c & _ & ->)|(b' & c & ->)]; done. }
  assert (HinB : forall s e, In e (ems s [AB]) -> exists c, c_get_user_connection s r = Some c /\ e = Emit (inl r) c (FRelay raw)).
  { intros s e. unfold AB. rewrite ems_direct. destruct (c_get_broker_identifier_of_user s r) as [b'|]; [|done]. case_decide; [|done].
    unfold emit_user. destruct (c_get_user_connection s r) as [c|]; [|done]. intros [<-|[]]. eauto. }
  assert (HuB : forall s e, In e (ems s [AB]) -> exists v, e_to e = inl v).
  { intros s e He. destruct (HinB s e He) as (c & _ & ->). by exists r. }
  assert (Hloc : forall b' c o, c_get_user_connection (conns_at n b') r = Some c -> In (Emit (inl r) c (FRelay raw)) (ems (conns_at n b') [ADirect r raw o])).
  { intros b' c o Hc. rewrite ems_direct. rewrite (proj2 (state_directory n b' r)) by eauto. rewrite decide_True by (by rewrite state_identity).
    unfold emit_user. rewrite Hc. by left. }
  destruct (complete_run deser dec_users dec_topics valid enc_users enc_topics es0 Hrest a h u cu k0 raw Hpub A0 AB HA0 HAB eq_refl eq_refl (fun s => Hnd s false) HfA HuB es1 Hcalm Hrest')
    as (Ha & Hoth & Hreach). fold n n' in Ha, Hoth, Hreach.
  unfold Ea, Eb in Ha, Hoth, Hreach. fold n in Ha, Hoth, Hreach.
  unfold copies. destruct (decide (b = a)) as [->|Hne].
  - rewrite Ha, drop_app. split.
    + intros c -> Hc. exists (Sent h (1 + k0) (Emit (inl r) c (FRelay raw))). split; [|done].
      exact (copies_one h (1 + k0) _ _ (Hnd _ _) (Hloc a c false Hc)).
    + intros Hno. apply copies_none. intros e He. destruct (HinA _ e He) as [(_ & c & Hc & ->)|(b' & c & ->)]; [|done].
      cbn. intros [= <-]. destruct Hno as [Hno|Hno]; [done|congruence].
  - split.
    + intros c -> Hc. destruct (Hs1 b r c Hne Hc) as (Hdir & cl & hb & tb & Hcl & Hlk & Htb & Hop).
      assert (HinE : In (Emit (inr b) cl (FRelay raw)) (ems (conns_at n a) [A0])).
      { unfold A0. rewrite ems_direct, Hdir. rewrite decide_False by (rewrite state_identity; done). unfold emit_broker. rewrite Hcl. by left. }
      destruct (Hreach b cl hb tb Hne HinE Hlk Htb Hop) as (hb' & k & Heq). rewrite Heq, drop_app.
      exists (Sent hb' k (Emit (inl r) c (FRelay raw))). split; [|done].
      exact (copies_one hb' k _ _ (Hnd _ _) (Hloc b c true Hc)).
    + intros Hno. destruct (Hoth b Hne) as [(hb' & k & Heq)|Heq]; rewrite Heq; [|by rewrite drop_all].
      rewrite drop_app. apply copies_none. intros e He. destruct (HinB _ e He) as (c & Hc & ->).
      cbn. intros [= <-]. destruct Hno as [Hno|Hno]; [done|congruence].
Qed.
(** Such a publication is always finished: whatever has happened so far, some calm
    continuation brings the network to rest. *)
Lemma broadcast_finishes es0 es1 a h u cu k0 raw ts body :
  deser raw = Some (MBroadcast ts body) -> (exists t, In t ts /\ valid t = true) ->
  at_rest (n_run es0) -> tasks_at (n_run es0) a !! h = Some (Task (OUser u cu) [] true k0) -> Forall calm es1 ->
  exists es2, Forall calm es2 /\ at_rest (n_run (es0 ++ NPublish a h raw no_hook :: es1 ++ es2)).
Proof.
  intros Hd Hval Hrest Hpub Hcalm.
  set (ts' := (prune valid ts).1).
  set (A0 := ABroadcast ts' raw false). set (AB := ABroadcast ts raw true).
  assert (HA0 : user_frame deser valid u raw no_hook = ([A0], true)).
  { unfold user_frame. rewrite Hd. cbn [no_hook]. unfold no_hook. apply prune_ok in Hval. unfold A0, ts'. destruct (prune valid ts) as [l g]. cbn in Hval. by rewrite Hval. }
  assert (HAB : forall b', broker_frame deser dec_users dec_topics b' raw no_hook = ([AB], true)).
  { intros b'. unfold broker_frame. rewrite Hd. done. }
  assert (HoA : forall s, NoDup (map e_to (ems s [A0]))).
  { intros s. unfold A0. rewrite ems_broadcast. apply broadcast_once. }
  assert (HfA : forall s e, In e (ems s [A0]) -> e_frame e = FRelay raw).
  { intros s e. unfold A0. rewrite ems_broadcast, broadcast_emissions. by intros [(b' & c & _ & _ & _ & ->)|(u' & c & _ & _ & _ & ->)]. }
  assert (HuB : forall s e, In e (ems s [AB]) -> exists v, e_to e = inl v).
  { intros s e. unfold AB. rewrite ems_broadcast, broadcast_emissions. intros [(b' & c & Hin & _)|(u' & c & _ & _ & _ & ->)]; [|by exists u'].
    unfold c_get_interested_by_topic in Hin. cbn [fst] in Hin. rewrite fold_const in Hin. by rewrite elements_empty in Hin. }
  exact (progress deser dec_users dec_topics valid enc_users enc_topics es0 Hrest a h u cu k0 raw Hpub A0 AB HA0 HAB eq_refl eq_refl HoA HfA HuB es1 Hcalm).
Qed.
Lemma direct_finishes es0 es1 a h u cu k0 raw r body :
  deser raw = Some (MDirect r body) ->
  at_rest (n_run es0) -> tasks_at (n_run es0) a !! h = Some (Task (OUser u cu) [] true k0) -> Forall calm es1 ->
  exists es2, Forall calm es2 /\ at_rest (n_run (es0 ++ NPublish a h raw no_hook :: es1 ++ es2)).
Proof.
  intros Hd Hrest Hpub Hcalm.
  set (A0 := ADirect r raw false). set (AB := ADirect r raw true).
  assert (HA0 : user_frame deser valid u raw no_hook = ([A0], true)).
  { unfold user_frame. rewrite Hd. done. }
  assert (HAB : forall b', broker_frame deser dec_users dec_topics b' raw no_hook = ([AB], true)).
  { intros b'. unfold broker_frame. rewrite Hd. done. }
  assert (HinA : forall s e, In e (ems s [A0]) ->
    (c_get_broker_identifier_of_user s r = Some (identity s) /\ exists c, c_get_user_connection s r = Some c /\ e = Emit (inl r) c (FRelay raw))
    \/ exists b' c, e = Emit (inr b') c (FRelay raw)).
  { intros s e. unfold A0. rewrite ems_direct. destruct (c_get_broker_identifier_of_user s r) as [b'|]; [|done]. case_decide as Hb'.
    - unfold emit_user. destruct (c_get_user_connection s r) as [c|]; [|done]. intros [<-|[]]. left. subst b'. eauto.
    - unfold emit_broker. destruct (c_get_broker_connection s b') as [c|]; [|done]. intros [<-|[]]. right. eauto. }
  assert (HlA : forall s o, length (ems s [ADirect r raw o]) <= 1).
  { intros s o. rewrite ems_direct. destruct (c_get_broker_identifier_of_user s r) as [b'|]; [|cbn; lia]. case_decide; [|destruct o; [cbn; lia|]].
    - unfold emit_user. destruct (c_get_user_connection s r); cbn; lia.
    - unfold emit_broker. destruct (c_get_broker_connection s b'); cbn; lia. }
  assert (Hnd : forall s o, NoDup (map e_to (ems s [ADirect r raw o]))).
  { intros s o. specialize (HlA s o). destruct (ems s [ADirect r raw o]) as [|e [|e' l]]; [constructor|apply NoDup_singleton|cbn in HlA; lia]. }
  assert (HfA : forall s e, In e (ems s [A0]) -> e_frame e = FRelay raw).
  { intros s e He. destruct (HinA s e He) as [(_ & c & _ & ->)|(b' & c & ->)]; done. }
  assert (HinB : forall s e, In e (ems s [AB]) -> exists c, c_get_user_connection s r = Some c /\ e = Emit (inl r) c (FRelay raw)).
  { intros s e. unfold AB. rewrite ems_direct. destruct (c_get_broker_identifier_of_user s r) as [b'|]; [|done]. case_decide; [|done].
    unfold emit_user. destruct (c_get_user_connection s r) as [c|]; [|done]. intros [<-|[]]. eauto. }
  assert (HuB : forall s e, In e (ems s [AB]) -> exists v, e_to e = inl v).
  { intros s e He. destruct (HinB s e He) as (c & _ & ->). by exists r. }
  exact (progress deser dec_users dec_topics valid enc_users enc_topics es0 Hrest a h u cu k0 raw Hpub A0 AB HA0 HAB eq_refl eq_refl (fun s => Hnd s false) HfA HuB es1 Hcalm).
Qed.
End synced.
