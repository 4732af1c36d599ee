(** What every copy delivered to a user anywhere in the network satisfies. *)
From stdpp Require Import gmap fin_maps list.
From Coq Require Import NArith Lia.
From Verif Require Import IdModel VMapModel ConnModel ConnSpec ConnProofs3 TopicModel MsgModel RouteModel TaskModel TaskProofs TaskOrder
  NetModel NetProofs NetOrigin NetSynced.

(** A hook that never changes a message (it may drop it or fail). *)
Definition hook_keeps (hk : hook) : Prop := forall m msg, hk m = HProcess msg -> msg = m.
Definition hooks_keep (es : list nevent) : Prop :=
  (forall a c hk, In (NDeliver a c hk) es -> hook_keeps hk) /\ (forall b h raw hk, In (NPublish b h raw hk) es -> hook_keeps hk).

Lemma hooks_keep_weaken es : hooks_keep es -> hooks_keep_sync es.
Proof.
  intros [H _] a c hk Hin m msg Hm Hk. specialize (H _ _ _ Hin _ _ Hk). subst m. destruct Hm as [[p ->]|[p ->]]; split; intros; discriminate.
Qed.

Section delivery.
Variable deser : bytes -> option message.
Variable dec_users : bytes -> option direct_map.
Variable dec_topics : bytes -> option topic_map.
Variable valid : N -> bool.
Variable enc_users : direct_map -> bytes.
Variable enc_topics : topic_map -> bytes.
Notation m_run := (m_run deser dec_users dec_topics valid).
Notation broker_at := (broker_at deser dec_users dec_topics valid).
Notation n_step := (n_step deser dec_users dec_topics valid enc_users enc_topics).
Notation n_run := (n_run deser dec_users dec_topics valid enc_users enc_topics).
Notation loop_of := (loop_of deser dec_users dec_topics valid).
Notation comes_from := (comes_from deser dec_users dec_topics valid).
Notation subscribed_at := (subscribed_at deser dec_users dec_topics valid).
Notation n_run_snoc := (n_run_snoc deser dec_users dec_topics valid enc_users enc_topics).
Notation conns_at n b := (m_conns (broker_at n b)).

Lemma user_event es b h hh u c ts : In (EUserAuthed h hh u c ts) (trace (n_run es) b) -> In (NUser b h hh u c ts) es.
Proof.
  induction es as [|e es IH] using rev_ind; [unfold trace; cbn; by rewrite lookup_empty|].
  rewrite n_run_snoc. intros Hin. apply in_app_iff. set (n := n_run es) in *.
  assert (Hext : forall b' ev, (b' = b -> ev = EUserAuthed h hh u c ts -> In (NUser b h hh u c ts) [e]) ->
    In (EUserAuthed h hh u c ts) (trace (extend n b' ev) b) -> In (NUser b h hh u c ts) es \/ In (NUser b h hh u c ts) [e]).
  { intros b' ev Hev Hin'. rewrite trace_extend in Hin'. case_decide as Hb; [|by left; apply IH].
    apply in_app_iff in Hin' as [Hin'|[Heq|[]]]; [left; apply IH; by subst|right; by apply Hev]. }
  destruct e as [b' h1 hh1 u1 c1 ts1|a ha hha ca b' hb hhb cb|b' h1 raw hk|a c1 hk|b' e]; cbn [NetModel.n_step] in Hin.
  - case_decide; [|left; by apply IH]. revert Hin. apply Hext. intros -> [= -> -> -> -> ->]. by left.
  - case_decide; [|left; by apply IH].
    change (In (EUserAuthed h hh u c ts) (trace (extend (extend n a (EBrokerAuthed ha hha b' ca)) b' (EBrokerAuthed hb hhb a cb)) b)) in Hin.
    rewrite trace_extend in Hin. case_decide as Hb.
    + apply in_app_iff in Hin as [Hin|[Heq|[]]]; [|done]. subst b'. revert Hin. apply Hext. intros; done.
    + revert Hin. apply Hext. intros; done.
  - destruct (m_tasks (broker_at n b') !! h1) as [[[u1 c1|b1 c1|] acts op k]|]; try (left; by apply IH). revert Hin. apply Hext. intros; done.
  - destruct (n_links n !! (a, c1)) as [[b1 h1]|]; [|left; by apply IH].
    destruct (m_tasks (broker_at n b1) !! h1) as [t|]; [|left; by apply IH].
    destruct (sent_on (broker_at n a) c1 !! t_frames t); [|left; by apply IH]. revert Hin. apply Hext. intros; done.
  - destruct (receives_nothing e) eqn:E; [|left; by apply IH]. revert Hin. apply Hext. intros _ ->. done.
Qed.

Hypothesis Hcodec : sync_codec deser enc_users enc_topics.

Lemma network_delivery es b x u c f :
  hooks_keep_sync es -> In x (m_sent (broker_at (n_run es) b)) -> s_what x = Emit (inl u) c f ->
  (exists h hh ts, In (NUser b h hh u c ts) es /\ In (EUserAuthed h hh u c ts) (trace (n_run es) b)
     /\ forall e, In e (trace (n_run es) b) -> In c (authed_conn e) -> e = EUserAuthed h hh u c ts)
  /\ exists raw, f = FRelay raw
    /\ (exists a h k v cv hk, comes_from (n_run es) b x a h k /\ loop_of (n_run es) a h (OUser v cv)
          /\ In (Rcvd h k raw hk) (m_rcvd (broker_at (n_run es) a)) /\ In (NPublish a h raw hk) es)
    /\ exists hk m0 msg es1 es2, deser raw = Some m0 /\ hk m0 = HProcess msg /\ es = es1 ++ es2
         /\ ((exists h', In (NPublish b h' raw hk) es) \/ exists a' c', In (NDeliver a' c' hk) es)
         /\ In (Rcvd (s_task x) (s_frame x) raw hk) (m_rcvd (broker_at (n_run es1) b))
         /\ ((exists body, msg = MDirect u body /\ exists c1, c_get_user_connection (conns_at (n_run es1) b) u = Some c1)
             \/ (exists ts body t, msg = MBroadcast ts body /\ In t ts /\ subscribed_at (n_run es1) b u t)).
Proof.
  intros Hh Hin Hw. split.
  { pose proof (sent_authed deser dec_users dec_topics valid b (trace (n_run es) b) x Hin) as Ha. rewrite Hw in Ha. cbn [e_to e_conn] in Ha.
    destruct Ha as (h & hh & ts & He). exists h, hh, ts. split; [by apply user_event|]. split; [done|].
    intros e Hine Hc. destruct (inv_run deser dec_users dec_topics valid enc_users enc_topics es) as (_ & _ & _ & I4).
    apply (authed_unique _ _ _ c (I4 b) Hine He); [done|by left]. }
  destruct (prov_run deser dec_users dec_topics valid b (trace (n_run es) b)) as [_ Hs].
  rewrite Forall_forall in Hs. specialize (Hs x (proj2 (elem_of_list_In _ _) Hin)). unfold sent_ok in Hs. rewrite Hw in Hs.
  destruct f as [raw| |]; [|done|done]. exists raw. split; [done|]. split.
  { apply (delivered_origin deser dec_users dec_topics valid enc_users enc_topics Hcodec es b x u raw Hh Hin); by rewrite Hw. }
  destruct Hs as [(msg & _ & Hwhy) _].
  assert (Hpre : forall t1 t2 hk m0 (P : conns -> Prop), trace (n_run es) b = t1 ++ t2 ->
    In (Rcvd (s_task x) (s_frame x) raw hk) (m_rcvd (m_run b t1)) -> deser raw = Some m0 -> hk m0 = HProcess msg -> P (m_conns (m_run b t1)) ->
    exists es1 es2, es = es1 ++ es2 /\ ((exists h', In (NPublish b h' raw hk) es) \/ exists a' c', In (NDeliver a' c' hk) es)
      /\ In (Rcvd (s_task x) (s_frame x) raw hk) (m_rcvd (broker_at (n_run es1) b)) /\ P (conns_at (n_run es1) b)).
  { intros t1 t2 hk m0 P Ht Hr Hd Hk HP.
    destruct (trace_prefix deser dec_users dec_topics valid enc_users enc_topics es b t1 t2 Ht) as (es1 & es2 & -> & Hes1).
    exists es1, es2. unfold NetModel.broker_at. rewrite Hes1. split; [done|]. split; [|done].
    assert (Hr' : In (Rcvd (s_task x) (s_frame x) raw hk) (m_rcvd (broker_at (n_run es1) b))) by (unfold NetModel.broker_at; by rewrite Hes1).
    destruct (rcv_run deser dec_users dec_topics valid enc_users enc_topics es1 b _ Hr') as [(v & cv & _ & Hp)|(a & cb & a' & c' & _ & Hp)]; cbn [r_task r_raw r_hook] in Hp.
    - left. eexists. apply in_app_iff. by left.
    - right. exists a', c'. apply in_app_iff. by left. }
  destruct Hwhy as [(body & -> & t1 & t2 & Ht & (hk & m0 & Hr & Hd & Hk) & H)
                   |(ts & body & t & -> & Hin' & t1 & t2 & Ht & (hk & m0 & Hr & Hd & Hk) & H)].
  - destruct (Hpre t1 t2 hk m0 (fun s => c_get_broker_identifier_of_user s u = Some b) Ht Hr Hd Hk H) as (es1 & es2 & He & Ho & Hr' & HP).
    exists hk, m0, (MDirect u body), es1, es2. do 5 (split; [done|]). left. exists body. split; [done|].
    by apply state_directory.
  - destruct (Hpre t1 t2 hk m0 (fun s => In u (c_get_interested_by_topic s [t] true).2) Ht Hr Hd Hk H) as (es1 & es2 & He & Ho & Hr' & HP).
    exists hk, m0, (MBroadcast ts body), es1, es2. do 5 (split; [done|]). right. exists ts, body, t. done.
Qed.

(** With hooks that do not rewrite messages, the published message itself names the user or
    a topic to which the user is subscribed. *)
Lemma network_delivery_plain es b x u c raw m :
  hooks_keep es -> In x (m_sent (broker_at (n_run es) b)) -> s_what x = Emit (inl u) c (FRelay raw) -> deser raw = Some m ->
  exists es1 es2, es = es1 ++ es2
    /\ (exists hk, In (Rcvd (s_task x) (s_frame x) raw hk) (m_rcvd (broker_at (n_run es1) b)))
    /\ ((exists body, m = MDirect u body /\ exists c1, c_get_user_connection (conns_at (n_run es1) b) u = Some c1)
        \/ (exists ts body t, m = MBroadcast ts body /\ In t ts /\ subscribed_at (n_run es1) b u t)).
Proof.
  intros Hh Hin Hw Hd. destruct (network_delivery es b x u c (FRelay raw) (hooks_keep_weaken _ Hh) Hin Hw) as [_ (raw' & [= <-] & _ & H)].
  destruct H as (hk & m0 & msg & es1 & es2 & Hd' & Hk & He & Ho & Hr & Hwhy). rewrite Hd in Hd'. injection Hd' as <-.
  assert (hook_keeps hk) as Hkk. { destruct Hh as [H1 H2]. destruct Ho as [[h' Ho]|(a' & c' & Ho)]; eauto. }
  apply Hkk in Hk. subst msg. exists es1, es2. split; [done|]. split; [by exists hk|]. done.
Qed.
End delivery.
