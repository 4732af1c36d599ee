(** Property theorems: from one client's call to the other client's result, with the real encoding
    (C69). They put together C26, C64, C65 (network), C45 (encoding) and C39 (framing).

    [archived]: what rkyv writes is bytes and is read back. The other hypotheses are those of
    PropertiesSettle.v and PropertiesRest.v. *)
From stdpp Require Import gmap fin_maps list countable.
From Coq Require Import NArith Lia.
From Verif Require Import IdModel RelMapModel VMapModel ConnModel ConnSpec ConnProofs3 TopicModel MsgModel RouteModel
  TaskModel TaskProofs TaskOrder TaskHandles TaskGuarded TaskCheck TaskSync NetModel NetProofs NetOrigin NetComplete NetSynced NetConcurrent NetDelivery NetCheck
  NetSettle NetSettleDir NetSettleAll NetRounds NetRest WireModel WireSpec CodecModel CodecSafe CodecMsg EndModel EndProofs
  PropertiesWire PropertiesCodec PropertiesNet PropertiesSettle PropertiesRest.

(** * C69 *)
Section end_to_end.
Context (pack_users : direct_map -> bytes) (pack_topics : topic_map -> bytes).
Context (dec_users : bytes -> option direct_map) (dec_topics : bytes -> option topic_map) (valid : N -> bool).
Notation run := (n_run net_decode dec_users dec_topics valid (net_enc_users pack_users) (net_enc_topics pack_topics)).
Notation starts := (sync_starts net_decode dec_users dec_topics valid (net_enc_users pack_users) (net_enc_topics pack_topics)).
Notation rest := (at_rest net_decode dec_users dec_topics valid).
Notation at_ n b := (broker_at net_decode dec_users dec_topics valid n b).
Notation reads := (client_reads pack_users pack_topics).

(** Two full rounds of synchronisation after whatever history [es], seen from broker [a], which is
    linked to every broker that has users; users are admitted once. *)
Definition synced_by (es r1 r2 : list nevent) (a : bid) : Prop :=
  hooks_pass es /\ Forall tidy r1 /\ Forall tidy r2
  /\ rest (run es) /\ rest (run (es ++ r1)) /\ rest (run (es ++ r1 ++ r2))
  /\ (forall b, takes_part (run es) b -> starts es r1 b)
  /\ (forall b, takes_part (run (es ++ r1)) b -> starts (es ++ r1) r2 b)
  /\ fine net_decode dec_users dec_topics valid (run (es ++ r1 ++ r2))
  /\ (forall b, subscribes_connected net_decode dec_users dec_topics valid b (trace (run (es ++ r1 ++ r2)) b))
  /\ (forall b v c, b <> a -> c_get_user_connection (m_conns (at_ (run (es ++ r1 ++ r2)) b)) v = Some c ->
        joined net_decode dec_users dec_topics valid (run es) a b /\ admitted_once (run (es ++ r1 ++ r2)) v).

Lemma synced_settled es r1 r2 a :
  archived pack_users dec_users -> archived pack_topics dec_topics -> synced_by es r1 r2 a ->
  hooks_pass (es ++ r1 ++ r2) /\ settled net_decode dec_users dec_topics valid (run (es ++ r1 ++ r2)) a.
Proof.
  intros Hpu Hpt (Hh & T1 & T2 & R0 & R1 & R2 & S1 & S2 & Hf & Hsc & Hj).
  pose proof (net_faithful pack_users pack_topics dec_users dec_topics Hpu Hpt) as Hc.
  destruct (C65_two_rounds_settle _ _ _ valid _ _ es r1 r2 Hc Hh T1 T2 R0 R1 R2 S1 S2 Hf) as [Hd Hk].
  split.
  - destruct Hh as [Hh1 Hh2]. assert (Htt : Forall tidy (r1 ++ r2)) by (by apply Forall_app). rewrite List.Forall_forall in Htt. split.
    + intros a' c hk Hin. apply in_app_iff in Hin as [Hin|Hin]; [by eapply Hh1|]. specialize (Htt _ Hin). cbn in Htt. subst hk. apply no_hook_passes.
    + intros b h raw hk Hin. apply in_app_iff in Hin as [Hin|Hin]; [by eapply Hh2|]. by specialize (Htt _ Hin).
  - split; [done|]. intros b v c Hne Hcon. destruct (Hj b v c Hne Hcon) as [Hab Hone]. destruct (Hk a b Hab) as (Hab' & _).
    split; [done|]. split; [|done]. exact (Hd b).
Qed.
End end_to_end.

(** A client of broker [a] sends a broadcast. It can be encoded, the broker reads it from the stream
    as sent; and once it has been passed on, every user subscribed to one of its topics, at whatever
    broker, reads exactly this message from its connection, and no other user reads anything. *)
Theorem C69_broadcast_end_to_end :
  forall pack_users pack_topics dec_users dec_topics valid es r1 r2 a h u cu k0 ts body,
  archived pack_users dec_users -> archived pack_topics dec_topics ->
  (msg_size (MBroadcast ts body) + 104 <= size_limit)%N -> octets ts -> octets body -> (exists t, In t ts /\ valid t = true) ->
  let run := n_run net_decode dec_users dec_topics valid (net_enc_users pack_users) (net_enc_topics pack_topics) in
  let n := run (es ++ r1 ++ r2) in
  synced_by pack_users pack_topics dec_users dec_topics valid es r1 r2 a ->
  m_tasks (broker_at net_decode dec_users dec_topics valid n a) !! h = Some (Task (OUser u cu) [] true k0) ->
  exists raw, CodecModel.encode (MBroadcast ts body) = Some raw /\ (read_stream (stream_of [raw])).2 = [raw]
    /\ forall es1, let n' := run ((es ++ r1 ++ r2) ++ NPublish a h raw no_hook :: es1) in
       Forall calm es1 -> at_rest net_decode dec_users dec_topics valid n' ->
       forall b v,
         ((exists t, In t ts /\ subscribed_at net_decode dec_users dec_topics valid n b v t) ->
            (exists c, c_get_user_connection (m_conns (broker_at net_decode dec_users dec_topics valid n b)) v = Some c
               /\ Forall (fun x => e_conn (s_what x) = c) (copies net_decode dec_users dec_topics valid n n' b v))
            /\ client_reads pack_users pack_topics (copies net_decode dec_users dec_topics valid n n' b v) = Some [MBroadcast ts body])
         /\ (~ (exists t, In t ts /\ subscribed_at net_decode dec_users dec_topics valid n b v t) ->
            copies net_decode dec_users dec_topics valid n n' b v = []).
Proof.
  intros pack_users pack_topics dec_users dec_topics valid es r1 r2 a h u cu k0 ts body Hpu Hpt Hs Hot Hob Hv run n Hsy Ht.
  destruct (small_encodes (MBroadcast ts body) I Hs) as (raw & He & Hd & Hl). exists raw. split; [done|].
  split; [apply C39_framing_lossless; by constructor|]. intros es1 n' Hcalm Hr b v.
  destruct (synced_settled _ _ _ _ valid es r1 r2 a Hpu Hpt Hsy) as [Hh Hset].
  assert (Hnd : net_decode raw = Some (MBroadcast ts body)) by (apply net_decode_encode; [done|by split|done]).
  pose proof (net_faithful pack_users pack_topics dec_users dec_topics Hpu Hpt) as Hc.
  destruct Hsy as (_ & _ & _ & _ & _ & _ & _ & _ & Hf & Hsc & _).
  destruct (C64_settled_broadcast_complete _ _ _ valid _ _ (es ++ r1 ++ r2) es1 a h u cu k0 raw ts body Hc Hh Hf Hsc Hset Hnd Hv Ht Hcalm Hr b v) as [H1 H2].
  split; [|exact H2]. intros Hsub. destruct (H1 Hsub) as (x & c & Hcp & Hcon & Hx). split.
  - exists c. split; [done|]. refine (eq_ind_r (Forall _) _ Hcp). constructor; [by rewrite Hx|constructor].
  - eapply reads_one; [exact Hcp| |exact Hl|exact Hd]. by rewrite Hx.
Qed.
Print Assumptions C69_broadcast_end_to_end.

(** Likewise a direct message: its addressee, at whatever broker it is connected, reads it once, nobody
    else reads anything. *)
Theorem C69_direct_end_to_end :
  forall pack_users pack_topics dec_users dec_topics valid es r1 r2 a h u cu k0 r body,
  archived pack_users dec_users -> archived pack_topics dec_topics ->
  (msg_size (MDirect r body) + 104 <= size_limit)%N -> octets r -> octets body ->
  let run := n_run net_decode dec_users dec_topics valid (net_enc_users pack_users) (net_enc_topics pack_topics) in
  let n := run (es ++ r1 ++ r2) in
  synced_by pack_users pack_topics dec_users dec_topics valid es r1 r2 a ->
  m_tasks (broker_at net_decode dec_users dec_topics valid n a) !! h = Some (Task (OUser u cu) [] true k0) ->
  exists raw, CodecModel.encode (MDirect r body) = Some raw /\ (read_stream (stream_of [raw])).2 = [raw]
    /\ forall es1, let n' := run ((es ++ r1 ++ r2) ++ NPublish a h raw no_hook :: es1) in
       Forall calm es1 -> at_rest net_decode dec_users dec_topics valid n' ->
       forall b v,
         (forall c, v = r -> c_get_user_connection (m_conns (broker_at net_decode dec_users dec_topics valid n b)) v = Some c ->
            Forall (fun x => e_conn (s_what x) = c) (copies net_decode dec_users dec_topics valid n n' b v)
            /\ client_reads pack_users pack_topics (copies net_decode dec_users dec_topics valid n n' b v) = Some [MDirect r body])
         /\ (v <> r \/ c_get_user_connection (m_conns (broker_at net_decode dec_users dec_topics valid n b)) v = None ->
            copies net_decode dec_users dec_topics valid n n' b v = []).
Proof.
  intros pack_users pack_topics dec_users dec_topics valid es r1 r2 a h u cu k0 r body Hpu Hpt Hs Hor Hob run n Hsy Ht.
  destruct (small_encodes (MDirect r body) I Hs) as (raw & He & Hd & Hl). exists raw. split; [done|].
  split; [apply C39_framing_lossless; by constructor|]. intros es1 n' Hcalm Hr b v.
  destruct (synced_settled _ _ _ _ valid es r1 r2 a Hpu Hpt Hsy) as [Hh Hset].
  assert (Hnd : net_decode raw = Some (MDirect r body)) by (apply net_decode_encode; [done|by split|done]).
  pose proof (net_faithful pack_users pack_topics dec_users dec_topics Hpu Hpt) as Hc.
  destruct Hsy as (_ & _ & _ & _ & _ & _ & _ & _ & Hf & Hsc & _).
  destruct (C64_settled_direct_complete _ _ _ valid _ _ (es ++ r1 ++ r2) es1 a h u cu k0 raw r body Hc Hh Hf Hsc Hset Hnd Ht Hcalm Hr b v) as [H1 H2].
  split; [|exact H2]. intros c Hv Hcon. destruct (H1 c Hv Hcon) as (x & Hcp & Hx). split.
  - refine (eq_ind_r (Forall _) _ Hcp). constructor; [by rewrite Hx|constructor].
  - eapply reads_one; [exact Hcp| |exact Hl|exact Hd]. by rewrite Hx.
Qed.
Print Assumptions C69_direct_end_to_end.

(** Without any assumption about the history (hooks do not rewrite messages; brokers read only frames
    within the limit): whatever a user reads from its connection decodes, and is a message that a user
    published, addressed to this user or to a topic it was subscribed to. *)
Theorem C69_only_published_messages :
  forall pack_users pack_topics dec_users dec_topics valid es b c v,
  archived pack_users dec_users -> archived pack_topics dec_topics -> hooks_keep es ->
  let run := n_run net_decode dec_users dec_topics valid (net_enc_users pack_users) (net_enc_topics pack_topics) in
  (forall a h raw hk, In (NPublish a h raw hk) es -> octets raw /\ (blen raw <= size_limit)%N) ->
  (exists h hh ts, In (EUserAuthed h hh v c ts) (trace (run es) b)) ->
  exists ms, client_reads pack_users pack_topics (sent_on (broker_at net_decode dec_users dec_topics valid (run es) b) c) = Some ms
    /\ forall m, In m ms ->
       (exists a h raw hk, In (NPublish a h raw hk) es /\ CodecModel.decode raw = Some m)
       /\ exists es1 es2, es = es1 ++ es2 /\
          ((exists body, m = MDirect v body) \/ (exists ts body t, m = MBroadcast ts body /\ In t ts
              /\ subscribed_at net_decode dec_users dec_topics valid (run es1) b v t)).
Proof.
  intros pack_users pack_topics dec_users dec_topics valid es b c v Hpu Hpt Hh run Hpub (h0 & hh0 & ts0 & Hau).
  pose proof (faithful_codec pack_users pack_topics dec_users dec_topics Hpu Hpt) as Hc.
  assert (Hall : forall x, In x (sent_on (broker_at net_decode dec_users dec_topics valid (run es) b) c) ->
    exists raw m, s_what x = Emit (inl v) c (FRelay raw) /\ (blen raw <= size_limit)%N /\ CodecModel.decode raw = Some m
      /\ (exists a h hk, In (NPublish a h raw hk) es)
      /\ exists es1 es2, es = es1 ++ es2 /\
          ((exists body, m = MDirect v body) \/ (exists ts body t, m = MBroadcast ts body /\ In t ts
              /\ subscribed_at net_decode dec_users dec_topics valid (run es1) b v t))).
  { intros x Hx. unfold sent_on in Hx. apply elem_of_list_In, elem_of_list_filter in Hx as [Hec Hx]. apply elem_of_list_In in Hx.
    destruct (s_what x) as [to c' f] eqn:Hw. cbn in Hec. subst c'.
    assert (to = inl v) as ->.
    { destruct (inv_run net_decode dec_users dec_topics valid (net_enc_users pack_users) (net_enc_topics pack_topics) es) as (_ & _ & _ & Hnd).
      pose proof (sent_authed net_decode dec_users dec_topics valid b (trace (run es) b) x Hx) as Ha. rewrite Hw in Ha. cbn in Ha. destruct to as [u|b'].
      - destruct Ha as (h & hh & ts & Ha).
        assert (Heq := authed_unique _ _ _ c (Hnd b) Ha Hau (or_introl eq_refl) (or_introl eq_refl)). by injection Heq as -> -> -> ->.
      - destruct Ha as (h & hh & Ha).
        assert (Heq := authed_unique _ _ _ c (Hnd b) Ha Hau (or_introl eq_refl) (or_introl eq_refl)). done. }
    destruct (C25_network_delivery _ _ _ valid _ _ es b x v c f Hc (hooks_keep_weaken es Hh) Hx Hw) as (_ & raw & -> & (a & h & k & u & cu & hk & _ & _ & _ & Hp) & (hk' & m0 & msg & _ & _ & Hd & _)).
    destruct (Hpub _ _ _ _ Hp) as [Ho Hl].
    destruct (C25_network_recipient _ _ _ valid _ _ es b x v c raw m0 Hc Hh Hx Hw Hd) as (es1 & es2 & Hes & _ & Hwho).
    exists raw, m0. split; [done|]. split; [done|]. rewrite net_decode_octets in Hd by done. split; [done|]. split; [by exists a, h, hk|].
    exists es1, es2. split; [done|]. destruct Hwho as [(body & -> & _)|H]; [left; eauto|by right]. }
  destruct (reads_all pack_users pack_topics (sent_on (broker_at net_decode dec_users dec_topics valid (run es) b) c)) as (ms & Hms & Hf).
  { intros x Hx. destruct (Hall x Hx) as (raw & m & Hw & Hl & Hd & _). exists raw, m. by rewrite Hw. }
  exists ms. split; [done|]. intros m Hm. apply elem_of_list_In, elem_of_list_lookup in Hm as [i Hi].
  destruct (Forall2_lookup_r _ _ _ _ _ Hf Hi) as (x & Hx & raw & Hw & Hd).
  destruct (Hall x) as (raw' & m' & Hw' & _ & Hd' & (a & h & hk & Hp) & Hwho); [apply elem_of_list_In; by eapply elem_of_list_lookup_2|].
  rewrite Hw' in Hw. cbn in Hw. injection Hw as ->. rewrite Hd in Hd'. injection Hd' as <-. split; [by exists a, h, raw, hk|done].
Qed.
Print Assumptions C69_only_published_messages.

(** ** The network of PropertiesNet.v with the real encoding *)
(** Maps are archived bit by bit. *)
Fixpoint bits (p : positive) : bytes := match p with xH => [] | xO q => 0%N :: bits q | xI q => 1%N :: bits q end.
Fixpoint unbits (l : bytes) : positive := match l with [] => xH | 0%N :: l' => xO (unbits l') | _ :: l' => xI (unbits l') end.
Lemma unbits_bits p : unbits (bits p) = p.
Proof. induction p; cbn; congruence. Qed.
Lemma bits_octets p : octets (bits p).
Proof. induction p; cbn; [constructor; [lia|done]|constructor; [lia|done]|constructor]. Qed.
Definition wx_pack_users (d : direct_map) : bytes := bits (pack_users d).
Definition wx_pack_topics (d : topic_map) : bytes := bits (pack_topics d).
Definition wx_dec_users (p : bytes) : option direct_map := unpack_users (unbits p).
Definition wx_dec_topics (p : bytes) : option topic_map := unpack_topics (unbits p).
Lemma wx_archived : archived wx_pack_users wx_dec_users /\ archived wx_pack_topics wx_dec_topics.
Proof.
  destruct nx_faithful as [Hu Ht]. split; intros d; (split; [apply bits_octets|]).
  - destruct (Hu d) as (p & d' & [= <-] & Hd & He). exists d'. split; [|done]. unfold wx_dec_users, wx_pack_users. rewrite unbits_bits. exact Hd.
  - destruct (Ht d) as (p & d' & [= <-] & Hd & He). exists d'. split; [|done]. unfold wx_dec_topics, wx_pack_topics. rewrite unbits_bits. exact Hd.
Qed.
Notation wx_run := (n_run net_decode wx_dec_users wx_dec_topics nx_valid (net_enc_users wx_pack_users) (net_enc_topics wx_pack_topics)).
Notation wx_at := (broker_at net_decode wx_dec_users wx_dec_topics nx_valid).
Notation wx_rest := (at_rest net_decode wx_dec_users wx_dec_topics nx_valid).
Notation wx_starts := (sync_starts net_decode wx_dec_users wx_dec_topics nx_valid (net_enc_users wx_pack_users) (net_enc_topics wx_pack_topics)).
Definition wx_r1 : list nevent := NStep nA (ESync 20) :: goes nA 20 10 ++ NStep nB (ESync 20) :: goes nB 20 10.
Definition wx_r2 : list nevent := NStep nA (ESync 21) :: goes nA 21 10 ++ NStep nB (ESync 21) :: goes nB 21 10.
Definition wx_all : list nevent := nx_setup ++ wx_r1 ++ wx_r2.

Lemma wx_fine_check n :
  forallb (fun '(b, es) => all_ev net_decode wx_dec_users wx_dec_topics nx_valid prompt_ev (m_init b) es && (N.of_nat (length es) <? 2 ^ 64)%N) (map_to_list (n_trace n)) = true ->
  fine net_decode wx_dec_users wx_dec_topics nx_valid n.
Proof.
  intros Hb b. unfold trace. destruct (n_trace n !! b) as [es|] eqn:E; cbn.
  - apply (forallb_map (fun b es => all_ev net_decode wx_dec_users wx_dec_topics nx_valid prompt_ev (m_init b) es && (N.of_nat (length es) <? 2 ^ 64)%N) _ _ _ Hb) in E.
    apply andb_prop in E as [E1 E2]. split; [by apply prompt_check|]. by apply N.ltb_lt in E2.
  - split; [by apply prompt_check|]. done.
Qed.
Lemma wx_subs_check n :
  forallb (fun '(b, es) => all_ev net_decode wx_dec_users wx_dec_topics nx_valid subs_ev (m_init b) es) (map_to_list (n_trace n)) = true ->
  forall b, subscribes_connected net_decode wx_dec_users wx_dec_topics nx_valid b (trace n b).
Proof.
  intros Hb b. unfold trace. destruct (n_trace n !! b) as [es|] eqn:E; cbn.
  - apply (forallb_map (fun b es => all_ev net_decode wx_dec_users wx_dec_topics nx_valid subs_ev (m_init b) es) _ _ _ Hb) in E. by apply subs_check.
  - by apply subs_check.
Qed.
Lemma wx_fine : fine net_decode wx_dec_users wx_dec_topics nx_valid (wx_run wx_all).
Proof. apply wx_fine_check. vm_compute. reflexivity. Qed.
Lemma wx_subs b : subscribes_connected net_decode wx_dec_users wx_dec_topics nx_valid b (trace (wx_run wx_all) b).
Proof. revert b. apply wx_subs_check. vm_compute. reflexivity. Qed.
Lemma wx_rest0 : wx_rest (wx_run nx_setup).
Proof. apply rest_check. vm_compute. reflexivity. Qed.
Lemma wx_rest1 : wx_rest (wx_run (nx_setup ++ wx_r1)).
Proof. apply rest_check. vm_compute. reflexivity. Qed.
Lemma wx_rest2 : wx_rest (wx_run wx_all).
Proof. apply rest_check. vm_compute. reflexivity. Qed.
Lemma wx_who es b : is_Some (n_trace (wx_run es) !! b) -> (map_to_list (n_trace (wx_run es))).*1 = [nA; nB] \/ (map_to_list (n_trace (wx_run es))).*1 = [nB; nA] -> b = nA \/ b = nB.
Proof.
  intros [tr Htr] Hl. apply key_among in Htr. destruct Hl as [Hl|Hl]; rewrite Hl in Htr; clear - Htr; set_solver.
Qed.
Lemma wx_starts1 b : takes_part (wx_run nx_setup) b -> wx_starts nx_setup wx_r1 b.
Proof.
  intros Hb. apply wx_who in Hb as [->| ->]; [| |vm_compute; tauto].
  - exists [], 20%N. eexists. split; [reflexivity|]. vm_compute. reflexivity.
  - exists (NStep nA (ESync 20) :: goes nA 20 10), 20%N. eexists. split; [reflexivity|]. vm_compute. reflexivity.
Qed.
Lemma wx_starts2 b : takes_part (wx_run (nx_setup ++ wx_r1)) b -> wx_starts (nx_setup ++ wx_r1) wx_r2 b.
Proof.
  intros Hb. apply wx_who in Hb as [->| ->]; [| |vm_compute; tauto].
  - exists [], 21%N. eexists. split; [reflexivity|]. vm_compute. reflexivity.
  - exists (NStep nA (ESync 21) :: goes nA 21 10), 21%N. eexists. split; [reflexivity|]. vm_compute. reflexivity.
Qed.
Lemma wx_joined : joined net_decode wx_dec_users wx_dec_topics nx_valid (wx_run nx_setup) nA nB.
Proof.
  exists 105%N, 105%N, 5%N, 5%N. eexists. split; [vm_compute; reflexivity|]. split; [vm_compute; reflexivity|].
  split; [vm_compute; reflexivity|]. split; [vm_compute; reflexivity|]. split; [vm_compute; reflexivity|reflexivity].
Qed.
Lemma wx_users v p : users (m_conns (wx_at (wx_run wx_all) nB)) !! v = Some p -> v = [2]%N \/ v = [3]%N.
Proof.
  intros E. apply key_among in E.
  assert (Hl : (map_to_list (users (m_conns (wx_at (wx_run wx_all) nB)))).*1 = [[2]; [3]]%N \/ (map_to_list (users (m_conns (wx_at (wx_run wx_all) nB)))).*1 = [[3]; [2]]%N) by (vm_compute; tauto).
  destruct Hl as [Hl|Hl]; rewrite Hl in E; clear - E; set_solver.
Qed.
Lemma wx_once v : v = [2]%N \/ v = [3]%N -> admitted_once (wx_run wx_all) v.
Proof. intros Hv. apply once_check. destruct Hv as [->| ->]; vm_compute; lia. Qed.
Lemma wx_somewhere es b v c : c_get_user_connection (m_conns (wx_at (wx_run es) b)) v = Some c ->
  is_Some (n_trace (wx_run es) !! b) /\ exists p, users (m_conns (wx_at (wx_run es) b)) !! v = Some p.
Proof.
  intros Hc. split.
  - destruct (n_trace (wx_run es) !! b) as [l|] eqn:E; [by exists l|]. exfalso. rewrite (untouched _ _ _ _ _ _ E) in Hc.
    unfold c_get_user_connection in Hc. cbn in Hc. by rewrite lookup_empty in Hc.
  - unfold c_get_user_connection in Hc. destruct (users (m_conns (wx_at (wx_run es) b)) !! v) as [p|]; [by exists p|done].
Qed.
Lemma wx_keys : (map_to_list (n_trace (wx_run wx_all))).*1 = [nA; nB] \/ (map_to_list (n_trace (wx_run wx_all))).*1 = [nB; nA].
Proof. vm_compute. tauto. Qed.
Lemma wx_linked b v c : b <> nA -> c_get_user_connection (m_conns (wx_at (wx_run wx_all) b)) v = Some c ->
  joined net_decode wx_dec_users wx_dec_topics nx_valid (wx_run nx_setup) nA b /\ admitted_once (wx_run wx_all) v.
Proof.
  intros Hne Hc. destruct (wx_somewhere _ _ _ _ Hc) as [Hb (p & Hp)]. clear Hc.
  destruct (wx_who _ _ Hb wx_keys) as [Hb'|Hb']; [exfalso; exact (Hne Hb')|]. clear Hb. subst b.
  split; [exact wx_joined|]. exact (wx_once v (wx_users v p Hp)).
Qed.
Lemma wx_synced : synced_by wx_pack_users wx_pack_topics wx_dec_users wx_dec_topics nx_valid nx_setup wx_r1 wx_r2 nA.
Proof.
  split; [apply plain_pass; unfold plain_b; vm_compute; repeat constructor|].
  split; [vm_compute; repeat constructor|]. split; [vm_compute; repeat constructor|].
  split; [exact wx_rest0|]. split; [exact wx_rest1|]. split; [exact wx_rest2|]. split; [exact wx_starts1|]. split; [exact wx_starts2|].
  split; [exact wx_fine|]. split; [exact wx_subs|]. exact wx_linked.
Qed.
Lemma wx_publisher : m_tasks (wx_at (wx_run wx_all) nA) !! 1%N = Some (Task (OUser [1]%N 101) [] true 0).
Proof. vm_compute. reflexivity. Qed.
Definition wx_raw : bytes := default [] (CodecModel.encode (MBroadcast [7; 9] [42])%N).
Definition wx_done : list nevent := wx_all ++ NPublish nA 1 wx_raw no_hook :: nx_bcast.
Example C69_example :
  archived wx_pack_users wx_dec_users /\ archived wx_pack_topics wx_dec_topics
  /\ synced_by wx_pack_users wx_pack_topics wx_dec_users wx_dec_topics nx_valid nx_setup wx_r1 wx_r2 nA
  /\ m_tasks (wx_at (wx_run wx_all) nA) !! 1%N = Some (Task (OUser [1]%N 101) [] true 0)
  /\ Forall calm nx_bcast /\ wx_rest (wx_run wx_done)
  /\ subscribed_at net_decode wx_dec_users wx_dec_topics nx_valid (wx_run wx_all) nB [3]%N 9
  /\ client_reads wx_pack_users wx_pack_topics (copies net_decode wx_dec_users wx_dec_topics nx_valid (wx_run wx_all) (wx_run wx_done) nB [3]%N) = Some [MBroadcast [7; 9] [42]]%N.
Proof.
  split; [apply wx_archived|]. split; [apply wx_archived|]. split; [exact wx_synced|]. split; [exact wx_publisher|].
  split; [vm_compute; repeat constructor|]. split; [apply rest_check; vm_compute; reflexivity|].
  split; [vm_compute; left; reflexivity|]. vm_compute. reflexivity.
Qed.
Example C69_only_published_example :
  hooks_keep wx_done
  /\ (exists h hh ts, In (EUserAuthed h hh [3]%N 103 ts) (trace (wx_run wx_done) nB))
  /\ client_reads wx_pack_users wx_pack_topics (sent_on (wx_at (wx_run wx_done) nB) 103) = Some [MBroadcast [7; 9] [42]]%N.
Proof.
  split; [apply plain_keeps; unfold plain_b; vm_compute; repeat constructor|]. split; [|vm_compute; reflexivity].
  exists 3%N, 4%N, [9]%N. vm_compute. repeat (first [left; reflexivity|right]).
Qed.
