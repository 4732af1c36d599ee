(** Property theorems: the whole system, from logins to deliveries.

    C70 (who reads and who writes) puts together C25 (deliveries), C67 (logins) and the
    whitelist; C71 (whoever logs in is connected, and gets the messages) C66 (logins), C65
    (settling), C64 and C69 (deliveries, with the real encoding), and that a session ends only
    for the reasons of C52.

    [archived]: what rkyv writes is bytes and is read back. *)
From stdpp Require Import gmap fin_maps list.
From Coq Require Import NArith Lia.
From Verif Require Import IdModel RelMapModel VMapModel ConnModel ConnSpec TopicModel MsgModel DiscModel AuthModel AuthSpec LoginModel LoginSpec LoginProofs
  RouteModel TaskModel TaskProofs TaskOrder TaskHandles TaskGuarded TaskCheck TaskSync NetModel NetProofs NetOrigin NetDelivery NetComplete NetSynced NetConcurrent NetCheck
  NetSettle NetSettleDir NetSettleAll NetRounds NetRest WireModel WireSpec CodecModel CodecSafe CodecMsg EndModel EndProofs StaySpec NetStay SystemModel SystemSpec SystemProofs SystemLive
  PropertiesAuth PropertiesLogin PropertiesNet PropertiesSettle PropertiesRest PropertiesEnd.

(** * C70 *)
Section c70.
Context (pk : Type) (D : EqDecision pk) (pk_deser : bytes -> option pk) (pk_ser : pk -> option bytes) (verify : pk -> bytes -> bytes -> bool).
Context (debug global redis : bool) (u_key : N -> bytes) (u_sign : N -> bytes -> bytes) (u_topics : N -> list N).
Context (deser : bytes -> option message) (dec_users : bytes -> option direct_map) (dec_topics : bytes -> option topic_map) (valid : N -> bool).
Context (enc_users : direct_map -> bytes) (enc_topics : topic_map -> bytes).
Notation s_run := (s_run pk_deser pk_ser verify debug global redis u_key u_sign u_topics deser dec_users dec_topics valid enc_users enc_topics).
Notation admitted := (admitted pk_deser pk_ser verify debug global redis u_key u_sign u_topics).
Notation kept := (kept pk_deser pk_ser verify debug global redis u_key u_sign u_topics).
Notation dialled := (dialled pk_deser pk_ser verify debug global redis u_key u_sign u_topics).
Notation l_run := (l_run pk_deser pk_ser verify debug global redis u_key u_sign u_topics).
Notation broker_at := (broker_at deser dec_users dec_topics valid).
Notation comes_from := (comes_from deser dec_users dec_topics valid).
Notation loop_of := (loop_of deser dec_users dec_topics valid).

(** Every copy that a broker sends to a user went to a connection on which that key had been admitted,
    and is the bytes of a frame published on a connection on which some key had been admitted. *)
Theorem C70_only_admitted_keys_take_part : forall es b x k c f,
  sync_codec deser enc_users enc_topics -> (forall a c hk, In (SNet (NDeliver a c hk)) es -> hook_keeps_sync hk) ->
  In x (m_sent (broker_at (s_net (s_run es)) b)) -> s_what x = Emit (inl k) c f ->
  (exists ts, admitted (logins es) c b k ts)
  /\ exists a h n v cv tsv raw hk, f = FRelay raw /\ admitted (logins es) cv a v tsv
       /\ loop_of (s_net (s_run es)) a h (OUser v cv) /\ comes_from (s_net (s_run es)) b x a h n
       /\ In (Rcvd h n raw hk) (m_rcvd (broker_at (s_net (s_run es)) a)) /\ In (SNet (NPublish a h raw hk)) es.
Proof. intros es b x k c f Hc Hh Hin Hw. by eapply system_delivery. Qed.

(** If key [k] is kept, then every copy for it went to a connection made by the honest user with
    this key, who reports being connected on it. *)
Theorem C70_only_the_owner_reads : forall es b x k c f,
  sync_codec deser enc_users enc_topics -> (forall a c hk, In (SNet (NDeliver a c hk)) es -> hook_keeps_sync hk) ->
  In x (m_sent (broker_at (s_net (s_run es)) b)) -> s_what x = Emit (inl k) c f -> kept (logins es) k ->
  exists u p, k = u_key u /\ dialled (logins es) u c b p /\ l_users (l_run (logins es)) !! u = Some (UConnected c).
Proof.
  intros es b x k c f Hc Hh Hin Hw Hk. destruct (system_delivery pk_deser pk_ser verify debug global redis u_key u_sign u_topics deser dec_users dec_topics valid enc_users enc_topics Hc es b x k c f Hh Hin Hw) as [[ts Ha] _].
  destruct (only_own_admitted pk_deser pk_ser verify debug global redis u_key u_sign u_topics _ _ _ _ _ Ha Hk) as (u & p & -> & _ & Hd & Hu). eauto.
Qed.
(** If the keys of all sessions are kept, then whatever anybody receives was sent by an honest
    user over the connection it reports being connected on. *)
Theorem C70_only_owners_write : forall es b x k c f,
  sync_codec deser enc_users enc_topics -> (forall a c hk, In (SNet (NDeliver a c hk)) es -> hook_keeps_sync hk) ->
  In x (m_sent (broker_at (s_net (s_run es)) b)) -> s_what x = Emit (inl k) c f -> (forall v, kept (logins es) v) ->
  exists a h n w cw pw raw hk, f = FRelay raw /\ dialled (logins es) w cw a pw /\ l_users (l_run (logins es)) !! w = Some (UConnected cw)
    /\ loop_of (s_net (s_run es)) a h (OUser (u_key w) cw) /\ comes_from (s_net (s_run es)) b x a h n /\ In (SNet (NPublish a h raw hk)) es.
Proof.
  intros es b x k c f Hc Hh Hin Hw Hk. destruct (system_delivery pk_deser pk_ser verify debug global redis u_key u_sign u_topics deser dec_users dec_topics valid enc_users enc_topics Hc es b x k c f Hh Hin Hw)
    as [_ (a & h & n & v & cv & tsv & raw & hk & -> & Ha & Hl & Hf & _ & Hp)].
  destruct (only_own_admitted pk_deser pk_ser verify debug global redis u_key u_sign u_topics _ _ _ _ _ Ha (Hk v)) as (w & p & -> & _ & Hd & Hu).
  exists a, h, n, w, cv, p, raw, hk. done.
Qed.
End c70.
Print Assumptions C70_only_admitted_keys_take_part.
Print Assumptions C70_only_the_owner_reads.
Print Assumptions C70_only_owners_write.

(** ** Two users of one broker *)
Notation sx_run lg := (s_run ex_pk_deser ex_pk_ser ex_verify false false false ex_ukey ex_usign ex_utopics
  net_decode wx_dec_users wx_dec_topics nx_valid (net_enc_users wx_pack_users) (net_enc_topics wx_pack_topics) lg).
Definition quiet (ls : list lev) : list sev := map (fun e => SLogin e 0 0) ls.
Definition sx_es : list sev :=
  quiet (take 29 ex_logins) ++ SLogin (LBrokerTopics 11) 1 2 :: map SNet (goes ex_broker 2 6)
  ++ quiet (drop 30 (take 33 ex_logins)) ++ SLogin (LBrokerTopics 21) 3 4 :: map SNet (goes ex_broker 4 6).
Definition sx_raw : bytes := default [] (CodecModel.encode (MBroadcast [9; 30] [42])%N).
Definition sx_sends : list sev := SNet (NPublish ex_broker 3 sx_raw no_hook) :: map SNet (goes ex_broker 3 9).
Lemma sx_logins : logins (sx_es ++ sx_sends) = ex_logins.
Proof. vm_compute. reflexivity. Qed.
Lemma sx_kept : kept ex_pk_deser ex_pk_ser ex_verify false false false ex_ukey ex_usign ex_utopics (logins (sx_es ++ sx_sends)) [7]%N.
Proof.
  rewrite sx_logins. destruct C67_nonvacuous_hypotheses as (H1 & H2 & H3). split; [exact H2|]. split; [|exact H1]. intros u h now p b0 hb _ Hi. by eapply H3.
Qed.
Example C70_example :
  sync_codec net_decode (net_enc_users wx_pack_users) (net_enc_topics wx_pack_topics)
  /\ (forall a c hk, In (SNet (NDeliver a c hk)) (sx_es ++ sx_sends) -> hook_keeps_sync hk)
  /\ map s_what (m_sent (broker_at net_decode wx_dec_users wx_dec_topics nx_valid (s_net (sx_run (sx_es ++ sx_sends))) ex_broker))
       = [Emit (inl [7]%N) 11 (FRelay sx_raw); Emit (inl [8]%N) 21 (FRelay sx_raw)]
  /\ kept ex_pk_deser ex_pk_ser ex_verify false false false ex_ukey ex_usign ex_utopics (logins (sx_es ++ sx_sends)) [7]%N.
Proof.
  split; [apply (faithful_codec _ _ wx_dec_users wx_dec_topics); apply wx_archived|].
  split; [|split; [vm_compute; reflexivity|exact sx_kept]].
  intros a c hk Hin.
  assert (Hno : forallb (fun e => match e with SNet (NDeliver _ _ _) => false | _ => true end) (sx_es ++ sx_sends) = true) by (vm_compute; reflexivity).
  rewrite forallb_forall in Hno. specialize (Hno _ Hin). done.
Qed.

(** The premises are needed: a stranger who guesses the number issued to user 1 receives what is
    sent to this user, without ever having presented a key. *)
Definition gx_es : list sev :=
  (quiet (ex_setup ++
    [LStart 1 10 998; LStart 2 20 997; LMarshalRecv 20 999; LMarshalRecv 10 1000; LMarshalWhitelist 20; LMarshalWhitelist 10; LMarshalPlace 20 1000; LMarshalPlace 10 1001;
     LMarshalIssue 20 1001 56; LMarshalIssue 10 1001 55; LForeignB 31 ex_broker; LSendB 31 (MAuthWithPermit 55); LSendB 31 (MSubscribe [5]); LBrokerRecv 31; LBrokerValidate 31 1002])
   ++ SLogin (LBrokerTopics 31) 1 2 :: map SNet (goes ex_broker 2 6)
   ++ quiet [LUserPermit 2; LDial 2 21 ex_broker; LBrokerRecv 21; LBrokerValidate 21 1005; LUserAccepted 2]
   ++ SLogin (LBrokerTopics 21) 3 4 :: map SNet (goes ex_broker 4 6)
   ++ SNet (NPublish ex_broker 3 (default [] (CodecModel.encode (MDirect (ex_ukey 1) [42]))) no_hook) :: map SNet (goes ex_broker 3 9))%N.
Theorem C70_guessed_number_refuted :
  exists es x f, let s := sx_run es in
    In x (m_sent (broker_at net_decode wx_dec_users wx_dec_topics nx_valid (s_net s) ex_broker)) /\ s_what x = Emit (inl (ex_ukey 1)) 31 f
    /\ 31%N ∈ l_foreign_b (s_login s) /\ (forall u, l_users (s_login s) !! u <> Some (UConnected 31))
    /\ (forall h m, ~ In (LSendM h m) (logins es)).
Proof.
  exists gx_es, (Sent 3 1 (Emit (inl [7]%N) 31 (FRelay (default [] (CodecModel.encode (MDirect [7]%N [42]%N)))))). eexists. cbv zeta.
  split; [vm_compute; left; reflexivity|]. split; [reflexivity|]. split; [apply (bool_decide_unpack _); vm_compute; exact I|]. split.
  - intros u Hu.
    assert (Hall : map_Forall (fun _ x => x <> UConnected 31) (l_users (s_login (sx_run gx_es)))) by (apply map_Forall_to_list; vm_compute; repeat constructor; discriminate).
    by apply (Hall u _ Hu).
  - intros h m Hin. assert (Hno : forallb (fun e => match e with LSendM _ _ => false | _ => true end) (logins gx_es) = true) by (vm_compute; reflexivity).
    rewrite forallb_forall in Hno. by specialize (Hno _ Hin).
Qed.
Print Assumptions C70_guessed_number_refuted.

(** * C71 *)
Section c71.
Context (pk : Type) (D : EqDecision pk) (pk_deser : bytes -> option pk) (pk_ser : pk -> option bytes) (verify : pk -> bytes -> bytes -> bool).
Context (debug global redis : bool) (u_key : N -> bytes) (u_sign : N -> bytes -> bytes) (u_topics : N -> list N).
Notation l_run := (l_run pk_deser pk_ser verify debug global redis u_key u_sign u_topics).
Notation logs_in := (logs_in pk_deser pk_ser verify debug global redis u_key u_sign u_topics).
Notation net_events := (net_events pk_deser pk_ser verify debug global redis u_key u_sign u_topics).

Section codec.
Context (deser : bytes -> option message) (dec_users : bytes -> option direct_map) (dec_topics : bytes -> option topic_map) (valid : N -> bool).
Context (enc_users : direct_map -> bytes) (enc_topics : topic_map -> bytes).
Notation s_run := (s_run pk_deser pk_ser verify debug global redis u_key u_sign u_topics deser dec_users dec_topics valid enc_users enc_topics).
Notation broker_at := (broker_at deser dec_users dec_topics valid).
Notation fresh_pair := (fresh_pair deser dec_users dec_topics valid).

(** A user who logs in is told so and its connection is registered, with its key and its topics, by a broker
    that starts tasks [x] and [xx] for it. *)
Theorem C71_login_registers : forall es u h c b,
  logs_in (logins es) u h c b ->
  (forall es1 x xx es2, es = es1 ++ SLogin (LBrokerTopics c) x xx :: es2 -> fresh_pair (s_net (s_run es1)) b x xx c) ->
  l_users (l_run (logins es)) !! u = Some (UConnected c)
  /\ exists x xx, In (SLogin (LBrokerTopics c) x xx) es /\ In (EUserAuthed x xx (u_key u) c (u_topics u)) (trace (s_net (s_run es)) b).
Proof.
  intros es u h c b (t0 & t1 & t2 & t3 & permit & t4 & p & canon & Hes & Hd & Hs & Hv & H1 & H2 & Hw & Hl & H3 & Hone & Hg & Hc & H4) Hfresh.
  destruct (C66_honest_user_admitted pk D pk_deser pk_ser verify debug global redis u_key u_sign u_topics u h c b t0 t1 t2 t3 permit t4 p canon (logins es)
    Hes Hd Hs Hv H1 H2 Hw Hl H3 Hone Hg Hc H4) as [(ls1 & ls2 & Heq & Ha) Hu].
  split; [exact Hu|]. by eapply login_registers.
Qed.

(** ... and if it is admitted once and nothing disturbs its session, it is connected there once nothing
    is under way, on this connection, subscribed to all its topics, and the broker waits for its
    next message. *)
Theorem C71_logged_in_is_connected : forall es u h c b,
  faithful_sync deser dec_users dec_topics enc_users enc_topics ->
  logs_in (logins es) u h c b ->
  (forall es1 x xx es2, es = es1 ++ SLogin (LBrokerTopics c) x xx :: es2 -> fresh_pair (s_net (s_run es1)) b x xx c) ->
  hooks_pass (net_events es) -> let n := s_net (s_run es) in fine deser dec_users dec_topics valid n -> at_rest deser dec_users dec_topics valid n ->
  admitted_once n (u_key u) -> undisturbed deser dec_users dec_topics valid (u_key u) b n ->
  l_users (l_run (logins es)) !! u = Some (UConnected c)
  /\ c_get_user_connection (m_conns (broker_at n b)) (u_key u) = Some c
  /\ (forall t, In t (u_topics u) -> valid t = true -> subscribed_at deser dec_users dec_topics valid n b (u_key u) t)
  /\ exists x xx k, In (SLogin (LBrokerTopics c) x xx) es /\ m_tasks (broker_at n b) !! x = Some (Task (OUser (u_key u) c) [] true k).
Proof.
  intros es u h c b Hcodec Hlog Hfresh Hh n Hf Hr Hone Hun. destruct (C71_login_registers es u h c b Hlog Hfresh) as (Hu & x & xx & Hin & Htr). fold n in Htr.
  assert (Hn : n = n_run deser dec_users dec_topics valid enc_users enc_topics (net_events es)) by apply s_net_events.
  clearbody n. subst n.
  destruct (connected_at_rest deser dec_users dec_topics valid enc_users enc_topics Hcodec (net_events es) b (u_key u) x xx c (u_topics u) Hh Hf Hr Hone Hun Htr) as (H1 & H2 & k & H3).
  split; [done|]. split; [done|]. split; [done|]. by exists x, xx, k.
Qed.
End codec.

Section encoded.
Context (pack_users : direct_map -> bytes) (pack_topics : topic_map -> bytes).
Context (dec_users : bytes -> option direct_map) (dec_topics : bytes -> option topic_map) (valid : N -> bool).
Notation s_run := (s_run pk_deser pk_ser verify debug global redis u_key u_sign u_topics net_decode dec_users dec_topics valid (net_enc_users pack_users) (net_enc_topics pack_topics)).
Notation broker_at := (broker_at net_decode dec_users dec_topics valid).
Notation fresh_pair := (fresh_pair net_decode dec_users dec_topics valid).
Notation undisturbed := (undisturbed net_decode dec_users dec_topics valid).
Notation at_rest := (at_rest net_decode dec_users dec_topics valid).

(** User [u] has logged in at broker [b] over connection [c], and its session has not been
    disturbed until network [n]. *)
Definition in_session (es : list sev) (n : net) (u h c : N) (b : bid) : Prop :=
  logs_in (logins es) u h c b
  /\ (forall es1 x xx es2, es = es1 ++ SLogin (LBrokerTopics c) x xx :: es2 -> fresh_pair (s_net (s_run es1)) b x xx c)
  /\ admitted_once n (u_key u) /\ undisturbed (u_key u) b n.

Lemma tidy_no_user ns : Forall tidy ns -> Forall no_user ns.
Proof. apply List.Forall_impl. by intros []. Qed.
Lemma calm_no_user ns : Forall calm ns -> Forall no_user ns.
Proof. apply List.Forall_impl. by intros []. Qed.
Lemma in_session_connected es r1 r2 a n u h c b :
  archived pack_users dec_users -> archived pack_topics dec_topics -> synced_by pack_users pack_topics dec_users dec_topics valid (net_events es) r1 r2 a ->
  n = s_net (s_run (es ++ map SNet (r1 ++ r2))) -> in_session es n u h c b ->
  c_get_user_connection (m_conns (broker_at n b)) (u_key u) = Some c
  /\ (forall t, In t (u_topics u) -> valid t = true -> subscribed_at net_decode dec_users dec_topics valid n b (u_key u) t)
  /\ exists x xx k, In (SLogin (LBrokerTopics c) x xx) es /\ m_tasks (broker_at n b) !! x = Some (Task (OUser (u_key u) c) [] true k).
Proof.
  intros Hpu Hpt Hsy -> (Hlog & Hfresh & Hone & Hun).
  destruct (synced_settled _ _ _ _ valid _ r1 r2 a Hpu Hpt Hsy) as [Hh _]. destruct Hsy as (_ & T1 & T2 & _ & _ & R2 & _ & _ & Hf & _).
  assert (Hns : Forall no_user (r1 ++ r2)) by (apply Forall_app; split; by apply tidy_no_user).
  destruct (C71_login_registers net_decode dec_users dec_topics valid (net_enc_users pack_users) (net_enc_topics pack_topics) es u h c b Hlog Hfresh) as (Hu & x & xx & Hin & Htr).
  rewrite s_net_events in Htr. rewrite s_net_events, net_events_app in Hone, Hun |- * by done.
  destruct (connected_at_rest net_decode dec_users dec_topics valid _ _ (net_faithful _ _ _ _ Hpu Hpt) _ b (u_key u) x xx c (u_topics u) Hh Hf R2 Hone Hun) as (H1 & H2 & k & H3).
  - unfold n_run. rewrite fold_left_app. by apply trace_fold.
  - split; [done|]. split; [done|]. by exists x, xx, k.
Qed.

(** Users [w] and [u] have logged in, at brokers [a] and [b]; two rounds of synchronisation have
    taken place. Then [w] sends a broadcast that names one of [u]'s topics: it can be encoded, and once it has been
    passed on, [u] reads exactly this message from the connection over which it logged in. *)
Theorem C71_broadcast_between_users : forall es r1 r2 a b w hw cw u h c ts body t,
  archived pack_users dec_users -> archived pack_topics dec_topics -> synced_by pack_users pack_topics dec_users dec_topics valid (net_events es) r1 r2 a ->
  let n := s_net (s_run (es ++ map SNet (r1 ++ r2))) in
  in_session es n w hw cw a -> in_session es n u h c b ->
  (msg_size (MBroadcast ts body) + 104 <= size_limit)%N -> octets ts -> octets body -> In t ts -> In t (u_topics u) -> valid t = true ->
  exists raw x xx, CodecModel.encode (MBroadcast ts body) = Some raw /\ In (SLogin (LBrokerTopics cw) x xx) es
    /\ forall es1, let n' := s_net (s_run (es ++ map SNet ((r1 ++ r2) ++ NPublish a x raw no_hook :: es1))) in
       Forall calm es1 -> at_rest n' ->
       Forall (fun y => e_conn (s_what y) = c) (copies net_decode dec_users dec_topics valid n n' b (u_key u))
       /\ client_reads pack_users pack_topics (copies net_decode dec_users dec_topics valid n n' b (u_key u)) = Some [MBroadcast ts body].
Proof.
  intros es r1 r2 a b w hw cw u h c ts body t Hpu Hpt Hsy n Hw Hu Hs Hot Hob Hit Hiu Hvt.
  destruct (in_session_connected es r1 r2 a n w hw cw a Hpu Hpt Hsy eq_refl Hw) as (_ & _ & x & xx & k & Hin & Ht).
  destruct (in_session_connected es r1 r2 a n u h c b Hpu Hpt Hsy eq_refl Hu) as (Hcon & Hsub & _).
  assert (Hns : Forall no_user (r1 ++ r2)) by (destruct Hsy as (_ & T1 & T2 & _); apply Forall_app; split; by apply tidy_no_user).
  assert (Hn : n = n_run net_decode dec_users dec_topics valid (net_enc_users pack_users) (net_enc_topics pack_topics) (net_events es ++ r1 ++ r2)).
  { unfold n. by rewrite s_net_events, net_events_app. }
  rewrite Hn in Ht. destruct (C69_broadcast_end_to_end pack_users pack_topics dec_users dec_topics valid (net_events es) r1 r2 a x (u_key w) cw k ts body
    Hpu Hpt Hs Hot Hob (ex_intro _ t (conj Hit Hvt)) Hsy Ht) as (raw & He & _ & Hall).
  exists raw, x, xx. split; [done|]. split; [done|]. intros es1 n' Hcalm Hr.
  assert (Hn' : n' = n_run net_decode dec_users dec_topics valid (net_enc_users pack_users) (net_enc_topics pack_topics) ((net_events es ++ r1 ++ r2) ++ NPublish a x raw no_hook :: es1)).
  { unfold n'. rewrite s_net_events, net_events_app; [by rewrite app_assoc|]. apply Forall_app. split; [done|]. constructor; [done|by apply calm_no_user]. }
  clearbody n n'. rewrite Hn' in Hr. rewrite Hn in Hcon, Hsub. rewrite Hn, Hn'.
  destruct (Hall es1 Hcalm Hr b (u_key u)) as [(Hc & Hread) _]; [exists t; split; [done|by apply Hsub]|].
  destruct Hc as (c1 & Hc1 & Hf). rewrite Hcon in Hc1. injection Hc1 as <-. done.
Qed.

(** Likewise for a direct message to [u], whatever its topics. *)
Theorem C71_direct_between_users : forall es r1 r2 a b w hw cw u h c body,
  archived pack_users dec_users -> archived pack_topics dec_topics -> synced_by pack_users pack_topics dec_users dec_topics valid (net_events es) r1 r2 a ->
  let n := s_net (s_run (es ++ map SNet (r1 ++ r2))) in
  in_session es n w hw cw a -> in_session es n u h c b ->
  (msg_size (MDirect (u_key u) body) + 104 <= size_limit)%N -> octets (u_key u) -> octets body ->
  exists raw x xx, CodecModel.encode (MDirect (u_key u) body) = Some raw /\ In (SLogin (LBrokerTopics cw) x xx) es
    /\ forall es1, let n' := s_net (s_run (es ++ map SNet ((r1 ++ r2) ++ NPublish a x raw no_hook :: es1))) in
       Forall calm es1 -> at_rest n' ->
       Forall (fun y => e_conn (s_what y) = c) (copies net_decode dec_users dec_topics valid n n' b (u_key u))
       /\ client_reads pack_users pack_topics (copies net_decode dec_users dec_topics valid n n' b (u_key u)) = Some [MDirect (u_key u) body].
Proof.
  intros es r1 r2 a b w hw cw u h c body Hpu Hpt Hsy n Hw Hu Hs Hok Hob.
  destruct (in_session_connected es r1 r2 a n w hw cw a Hpu Hpt Hsy eq_refl Hw) as (_ & _ & x & xx & k & Hin & Ht).
  destruct (in_session_connected es r1 r2 a n u h c b Hpu Hpt Hsy eq_refl Hu) as (Hcon & _).
  assert (Hns : Forall no_user (r1 ++ r2)) by (destruct Hsy as (_ & T1 & T2 & _); apply Forall_app; split; by apply tidy_no_user).
  assert (Hn : n = n_run net_decode dec_users dec_topics valid (net_enc_users pack_users) (net_enc_topics pack_topics) (net_events es ++ r1 ++ r2)).
  { unfold n. by rewrite s_net_events, net_events_app. }
  rewrite Hn in Ht. destruct (C69_direct_end_to_end pack_users pack_topics dec_users dec_topics valid (net_events es) r1 r2 a x (u_key w) cw k (u_key u) body
    Hpu Hpt Hs Hok Hob Hsy Ht) as (raw & He & _ & Hall).
  exists raw, x, xx. split; [done|]. split; [done|]. intros es1 n' Hcalm Hr.
  assert (Hn' : n' = n_run net_decode dec_users dec_topics valid (net_enc_users pack_users) (net_enc_topics pack_topics) ((net_events es ++ r1 ++ r2) ++ NPublish a x raw no_hook :: es1)).
  { unfold n'. rewrite s_net_events, net_events_app; [by rewrite app_assoc|]. apply Forall_app. split; [done|]. constructor; [done|by apply calm_no_user]. }
  clearbody n n'. rewrite Hn' in Hr. rewrite Hn in Hcon. rewrite Hn, Hn'.
  destruct (Hall es1 Hcalm Hr b (u_key u)) as [Hyes _]. by apply Hyes.
Qed.
End encoded.
End c71.
Print Assumptions C71_login_registers.
Print Assumptions C71_logged_in_is_connected.
Print Assumptions C71_broadcast_between_users.
Print Assumptions C71_direct_between_users.

(** ** Two users of two brokers *)
Definition dx_l1 : list lev :=
  (ex_setup ++ [LStart 1 10 998; LMarshalRecv 10 1000; LMarshalWhitelist 10; LMarshalPlace 10 1001; LMarshalIssue 10 1001 55; LUserPermit 1;
    LDial 1 11 ex_broker; LBrokerRecv 11; LBrokerValidate 11 1003; LUserAccepted 1])%N.
Definition dx_l2 : list lev :=
  [LHeartbeat 1000 1000 ex_broker 1 60; LHeartbeat 1000 1000 ex_broker2 0 60; LStart 2 20 1010; LMarshalRecv 20 1011; LMarshalWhitelist 20; LMarshalPlace 20 1011;
   LMarshalIssue 20 1012 56; LUserPermit 2; LDial 2 21 ex_broker2; LBrokerRecv 21; LBrokerValidate 21 1013; LUserAccepted 2]%N.
Definition dx_es : list sev :=
  quiet dx_l1 ++ SLogin (LBrokerTopics 11) 1 2 :: map SNet (goes ex_broker 2 6)
  ++ map SNet (NUp ex_broker 5 6 105 ex_broker2 5 6 105 :: goes ex_broker 6 8 ++ goes ex_broker2 6 8
       ++ [NDeliver ex_broker 105 no_hook] ++ goes ex_broker2 5 2 ++ [NDeliver ex_broker 105 no_hook] ++ goes ex_broker2 5 2)
  ++ quiet dx_l2 ++ SLogin (LBrokerTopics 21) 1 2 :: map SNet (goes ex_broker2 2 12
       ++ [NDeliver ex_broker2 105 no_hook] ++ goes ex_broker 5 2 ++ [NDeliver ex_broker2 105 no_hook] ++ goes ex_broker 5 2).
Notation dx_events := (net_events ex_pk_deser ex_pk_ser ex_verify false false false ex_ukey ex_usign ex_utopics).
Notation dx_ns := (dx_events dx_es).
Definition dx_r1 : list nevent := NStep ex_broker (ESync 20) :: goes ex_broker 20 10 ++ NStep ex_broker2 (ESync 20) :: goes ex_broker2 20 10.
Definition dx_r2 : list nevent := NStep ex_broker (ESync 21) :: goes ex_broker 21 10 ++ NStep ex_broker2 (ESync 21) :: goes ex_broker2 21 10.
Notation dx_all := (dx_ns ++ dx_r1 ++ dx_r2).

Section login_check.
Notation run := (ex_lrun false ex_ukey ex_usign ex_utopics).
Lemma login_check ls u h c b t0 t1 t2 t3 permit t4 p canon :
  List.filter (concerns u h c) ls = login u h c b t0 t1 t2 t3 permit t4 ->
  ex_pk_deser (ex_ukey u) = Some p -> ex_pk_ser p = Some canon -> p = (u + 6)%N ->
  (5 <= t1 < 2 ^ 64)%N -> (t0 <= t1 <= t0 + 5)%N -> (1 < permit < 2 ^ 32)%N -> (t4 < t3 + 30)%N ->
  forallb (fun n => match ls !! n with Some (LMarshalWhitelist h') => if (h' =? h)%N then d_whitelisted false false (w_disc (l_w (run (take n ls)))) canon else true | _ => true end) (seq 0 (length ls)) = true ->
  forallb (fun n => match ls !! n with Some (LMarshalPlace h' _) => if (h' =? h)%N then bool_decide (d_least false false (w_disc (l_w (run (take n ls)))) t2 = Some b) else true | _ => true end) (seq 0 (length ls)) = true ->
  forallb (fun e => match e with LMarshalIssue h' _ p => if (p =? permit)%N then (h' =? h)%N else true | LSendB _ (MAuthWithPermit p) => negb (p =? permit)%N
    | LClean t | LMarshalPlace _ t => (t <=? t3 + 30)%N | _ => true end) ls = true ->
  logs_in ex_pk_deser ex_pk_ser ex_verify false false false ex_ukey ex_usign ex_utopics ls u h c b.
Proof.
  intros Hf Hd Hs Hp H1 H2 H3 H4 Hw Hl Ha. rewrite forallb_forall in Ha. exists t0, t1, t2, t3, permit, t4, p, canon.
  assert (Hat : forall (f : nat -> bool) ls1 e ls2, ls = ls1 ++ e :: ls2 -> forallb f (seq 0 (length ls)) = true -> f (length ls1) = true /\ ls !! length ls1 = Some e /\ take (length ls1) ls = ls1).
  { intros f ls1 e ls2 Heq Hall. rewrite forallb_forall in Hall. split; [apply Hall, in_seq; rewrite Heq, app_length; cbn; lia|].
    rewrite Heq, list_lookup_middle, take_app by done. done. }
  split; [exact Hf|]. split; [exact Hd|]. split; [exact Hs|]. split; [intros m; subst p; by apply bool_decide_eq_true|]. split; [exact H1|]. split; [exact H2|].
  split; [|split; [|split; [exact H3|split; [|split; [|split; [|exact H4]]]]]].
  - intros ls1 ls2 Heq. destruct (Hat _ _ _ _ Heq Hw) as (Hx & He & Ht). cbv beta in Hx. rewrite He, Ht, N.eqb_refl in Hx. exact Hx.
  - intros ls1 ls2 Heq. destruct (Hat _ _ _ _ Heq Hl) as (Hx & He & Ht). cbv beta in Hx. rewrite He, Ht, N.eqb_refl in Hx. by apply bool_decide_eq_true in Hx.
  - intros h' t Hin. specialize (Ha _ Hin). cbv beta iota in Ha. rewrite N.eqb_refl in Ha. by apply N.eqb_eq.
  - intros h' Hin. specialize (Ha _ Hin). cbv beta iota in Ha. by rewrite N.eqb_refl in Ha.
  - intros ls1 ls2 ls3 Heq t Ht. apply N.leb_le.
    destruct Ht as [Hin|[h' Hin]]; [apply (Ha (LClean t))|apply (Ha (LMarshalPlace h' t))]; rewrite Heq; apply in_app_iff; right; right; apply in_app_iff; by left.
Qed.
End login_check.
Lemma dx_login1 : logs_in ex_pk_deser ex_pk_ser ex_verify false false false ex_ukey ex_usign ex_utopics (logins dx_es) 1 10 11 ex_broker.
Proof. apply (login_check _ 1 10 11 ex_broker 998 1000 1001 1001 55 1003 7 [7]%N); [vm_compute; reflexivity|reflexivity|reflexivity|reflexivity|lia|lia|lia|lia|vm_compute; reflexivity..]. Qed.
Lemma dx_login2 : logs_in ex_pk_deser ex_pk_ser ex_verify false false false ex_ukey ex_usign ex_utopics (logins dx_es) 2 20 21 ex_broker2.
Proof. apply (login_check _ 2 20 21 ex_broker2 1010 1011 1011 1012 56 1013 8 [8]%N); [vm_compute; reflexivity|reflexivity|reflexivity|reflexivity|lia|lia|lia|lia|vm_compute; reflexivity..]. Qed.
Lemma fresh_check es c b :
  forallb (fun n => match es !! n with Some (SLogin (LBrokerTopics c') x xx) => if (c' =? c)%N then bool_decide (fresh_pair net_decode wx_dec_users wx_dec_topics nx_valid (s_net (sx_run (take n es))) b x xx c) else true | _ => true end) (seq 0 (length es)) = true ->
  forall es1 x xx es2, es = es1 ++ SLogin (LBrokerTopics c) x xx :: es2 -> fresh_pair net_decode wx_dec_users wx_dec_topics nx_valid (s_net (sx_run es1)) b x xx c.
Proof.
  intros Hall es1 x xx es2 Heq. rewrite forallb_forall in Hall. specialize (Hall (length es1)).
  rewrite Heq, list_lookup_middle, take_app, N.eqb_refl in Hall by done. apply (bool_decide_eq_true_1 _), Hall, in_seq. rewrite app_length. cbn. lia.
Qed.
Lemma sx_net es ns : Forall no_user ns -> s_net (sx_run (es ++ map SNet ns)) = wx_run (dx_events es ++ ns).
Proof. intros H. rewrite s_net_events. f_equal. by apply net_events_app. Qed.
Lemma dx_net : s_net (sx_run (dx_es ++ map SNet (dx_r1 ++ dx_r2))) = wx_run dx_all.
Proof. apply sx_net. vm_compute. repeat constructor. Qed.
Lemma dx_session1 : in_session N ex_pk_deser ex_pk_ser ex_verify false false false ex_ukey ex_usign ex_utopics wx_pack_users wx_pack_topics wx_dec_users wx_dec_topics nx_valid dx_es (wx_run dx_all) 1 10 11 ex_broker.
Proof.
  split; [exact dx_login1|]. split; [apply fresh_check; vm_compute; reflexivity|]. split; [apply once_check; vm_compute; lia|].
  apply undisturbed_check. vm_compute. reflexivity.
Qed.
Lemma dx_session2 : in_session N ex_pk_deser ex_pk_ser ex_verify false false false ex_ukey ex_usign ex_utopics wx_pack_users wx_pack_topics wx_dec_users wx_dec_topics nx_valid dx_es (wx_run dx_all) 2 20 21 ex_broker2.
Proof.
  split; [exact dx_login2|]. split; [apply fresh_check; vm_compute; reflexivity|]. split; [apply once_check; vm_compute; lia|].
  apply undisturbed_check. vm_compute. reflexivity.
Qed.
Lemma dx_who es b : is_Some (n_trace (wx_run es) !! b) -> (map_to_list (n_trace (wx_run es))).*1 = [ex_broker; ex_broker2] \/ (map_to_list (n_trace (wx_run es))).*1 = [ex_broker2; ex_broker] -> b = ex_broker \/ b = ex_broker2.
Proof. intros [tr Htr] Hl. apply key_among in Htr. destruct Hl as [Hl|Hl]; rewrite Hl in Htr; clear - Htr; set_solver. Qed.
Lemma dx_starts1 b : takes_part (wx_run dx_ns) b -> wx_starts dx_ns dx_r1 b.
Proof.
  intros Hb. apply dx_who in Hb as [->| ->]; [| |vm_compute; tauto].
  - exists [], 20%N. eexists. split; [reflexivity|]. vm_compute. reflexivity.
  - exists (NStep ex_broker (ESync 20) :: goes ex_broker 20 10), 20%N. eexists. split; [reflexivity|]. vm_compute. reflexivity.
Qed.
Lemma dx_starts2 b : takes_part (wx_run (dx_ns ++ dx_r1)) b -> wx_starts (dx_ns ++ dx_r1) dx_r2 b.
Proof.
  intros Hb. apply dx_who in Hb as [->| ->]; [| |vm_compute; tauto].
  - exists [], 21%N. eexists. split; [reflexivity|]. vm_compute. reflexivity.
  - exists (NStep ex_broker (ESync 21) :: goes ex_broker 21 10), 21%N. eexists. split; [reflexivity|]. vm_compute. reflexivity.
Qed.
Lemma dx_joined : joined net_decode wx_dec_users wx_dec_topics nx_valid (wx_run dx_ns) ex_broker2 ex_broker.
Proof.
  exists 105%N, 105%N, 5%N, 5%N. eexists. split; [vm_compute; reflexivity|]. split; [vm_compute; reflexivity|].
  split; [vm_compute; reflexivity|]. split; [vm_compute; reflexivity|]. split; [vm_compute; reflexivity|reflexivity].
Qed.
Lemma dx_keys : (map_to_list (n_trace (wx_run dx_all))).*1 = [ex_broker; ex_broker2] \/ (map_to_list (n_trace (wx_run dx_all))).*1 = [ex_broker2; ex_broker].
Proof. vm_compute. tauto. Qed.
Lemma dx_users v p : users (m_conns (wx_at (wx_run dx_all) ex_broker)) !! v = Some p -> v = [7]%N.
Proof.
  intros E. apply key_among in E.
  assert (Hl : (map_to_list (users (m_conns (wx_at (wx_run dx_all) ex_broker)))).*1 = [[7]]%N) by (vm_compute; reflexivity).
  rewrite Hl in E. clear - E. set_solver.
Qed.
Lemma dx_linked b v c : b <> ex_broker2 -> c_get_user_connection (m_conns (wx_at (wx_run dx_all) b)) v = Some c ->
  joined net_decode wx_dec_users wx_dec_topics nx_valid (wx_run dx_ns) ex_broker2 b /\ admitted_once (wx_run dx_all) v.
Proof.
  intros Hne Hc. destruct (wx_somewhere _ _ _ _ Hc) as [Hb (p & Hp)]. clear Hc.
  destruct (dx_who _ _ Hb dx_keys) as [Hb'|Hb']; [|exfalso; exact (Hne Hb')]. clear Hb. subst b.
  split; [exact dx_joined|]. rewrite (dx_users v p Hp). apply dx_session1.
Qed.
Lemma dx_synced : synced_by wx_pack_users wx_pack_topics wx_dec_users wx_dec_topics nx_valid dx_ns dx_r1 dx_r2 ex_broker2.
Proof.
  split; [apply plain_pass; unfold plain_b; vm_compute; repeat constructor|].
  split; [vm_compute; repeat constructor|]. split; [vm_compute; repeat constructor|].
  split; [apply rest_check; vm_compute; reflexivity|]. split; [apply rest_check; vm_compute; reflexivity|]. split; [apply rest_check; vm_compute; reflexivity|].
  split; [exact dx_starts1|]. split; [exact dx_starts2|].
  split; [apply wx_fine_check; vm_compute; reflexivity|]. split; [apply wx_subs_check; vm_compute; reflexivity|].
  intros b v c Hne Hc. exact (dx_linked b v c Hne Hc).
Qed.
Definition dx_raw : bytes := default [] (CodecModel.encode (MBroadcast [1; 40] [42])%N).
Definition dx_bcast : list nevent := goes ex_broker2 1 6 ++ [NDeliver ex_broker2 105 no_hook] ++ goes ex_broker 5 6.
Example C71_example :
  archived wx_pack_users wx_dec_users /\ archived wx_pack_topics wx_dec_topics
  /\ synced_by wx_pack_users wx_pack_topics wx_dec_users wx_dec_topics nx_valid (dx_events dx_es) dx_r1 dx_r2 ex_broker2
  /\ (let n := s_net (sx_run (dx_es ++ map SNet (dx_r1 ++ dx_r2))) in
      let session := in_session N ex_pk_deser ex_pk_ser ex_verify false false false ex_ukey ex_usign ex_utopics wx_pack_users wx_pack_topics wx_dec_users wx_dec_topics nx_valid dx_es n in
      session 2%N 20%N 21%N ex_broker2 /\ session 1%N 10%N 11%N ex_broker
      /\ let n' := s_net (sx_run (dx_es ++ map SNet ((dx_r1 ++ dx_r2) ++ NPublish ex_broker2 1 dx_raw no_hook :: dx_bcast))) in
         Forall calm dx_bcast /\ wx_rest n'
         /\ client_reads wx_pack_users wx_pack_topics (copies net_decode wx_dec_users wx_dec_topics nx_valid n n' ex_broker [7]%N) = Some [MBroadcast [1; 40] [42]]%N).
Proof.
  split; [apply wx_archived|]. split; [apply wx_archived|]. split; [exact dx_synced|]. cbv zeta. rewrite dx_net.
  split; [exact dx_session2|]. split; [exact dx_session1|]. split; [vm_compute; repeat constructor|]. split; [apply rest_check; vm_compute; reflexivity|].
  vm_compute. reflexivity.
Qed.

(** The last condition on sessions is needed: user 1 logs in, a broker with a greater identifier links up, and the two exchange what
    they know. Nothing is wrong with the user's connection, nobody asks for it to be closed and the
    user is admitted nowhere else; yet its broker drops it. *)
Definition bx_es : list sev :=
  quiet dx_l1 ++ SLogin (LBrokerTopics 11) 1 2 :: map SNet (goes ex_broker 2 6)
  ++ map SNet (NUp ex_broker 5 6 105 ex_broker2 5 6 105 :: goes ex_broker 6 8 ++ goes ex_broker2 6 1
       ++ [NDeliver ex_broker 105 no_hook] ++ goes ex_broker2 5 2 ++ [NDeliver ex_broker 105 no_hook] ++ goes ex_broker2 5 2
       ++ goes ex_broker2 6 8 ++ [NDeliver ex_broker2 105 no_hook] ++ goes ex_broker 5 2).
Theorem C71_echo_drops_user_refuted :
  exists es u h c b, let n := s_net (sx_run es) in
  faithful_sync net_decode wx_dec_users wx_dec_topics (net_enc_users wx_pack_users) (net_enc_topics wx_pack_topics)
  /\ logs_in ex_pk_deser ex_pk_ser ex_verify false false false ex_ukey ex_usign ex_utopics (logins es) u h c b
  /\ (forall es1 x xx es2, es = es1 ++ SLogin (LBrokerTopics c) x xx :: es2 -> fresh_pair net_decode wx_dec_users wx_dec_topics nx_valid (s_net (sx_run es1)) b x xx c)
  /\ hooks_pass (dx_events es) /\ fine net_decode wx_dec_users wx_dec_topics nx_valid n /\ wx_rest n /\ admitted_once n (ex_ukey u)
  (* the only events are logins, deliveries, a link and steps that succeed *)
  /\ (forall e, In (SNet e) es -> match e with NDeliver _ _ _ | NUp _ _ _ _ _ _ _ _ | NStep _ (ERun _ true) => True | _ => False end)
  /\ l_users (s_login (sx_run es)) !! u = Some (UConnected c)
  /\ c_get_user_connection (m_conns (wx_at n b)) (ex_ukey u) = None.
Proof.
  exists bx_es, 1%N, 10%N, 11%N, ex_broker. cbv zeta.
  split; [apply net_faithful; apply wx_archived|]. split; [|split; [apply fresh_check; vm_compute; reflexivity|]].
  { apply (login_check _ 1 10 11 ex_broker 998 1000 1001 1001 55 1003 7 [7]%N); [vm_compute; reflexivity|reflexivity|reflexivity|reflexivity|lia|lia|lia|lia|vm_compute; reflexivity..]. }
  split; [apply plain_pass; unfold plain_b; vm_compute; repeat constructor|]. split; [apply wx_fine_check; vm_compute; reflexivity|].
  split; [apply rest_check; vm_compute; reflexivity|]. split; [apply once_check; vm_compute; lia|]. split; [|split; vm_compute; reflexivity].
  intros e Hin.
  assert (Hall : forallb (fun e => match e with SNet (NDeliver _ _ _) | SNet (NUp _ _ _ _ _ _ _ _) | SNet (NStep _ (ERun _ true)) | SLogin _ _ _ => true | _ => false end) bx_es = true) by (vm_compute; reflexivity).
  rewrite forallb_forall in Hall. specialize (Hall _ Hin). cbv beta iota in Hall. repeat case_match; done.
Qed.
Print Assumptions C71_echo_drops_user_refuted.
