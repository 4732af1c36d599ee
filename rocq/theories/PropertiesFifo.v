(** Property C86: what one client reads is, for every session that published, a part of what that
    session sent, in the order sent, with the real encoding and framing. The proofs are in
    FifoProofs.v. [archived]: what rkyv writes is bytes and is read back. *)
From stdpp Require Import gmap fin_maps list countable.
From Coq Require Import NArith Lia.
From Verif Require Import IdModel RelMapModel VMapModel ConnModel TopicModel MsgModel RouteModel
  TaskModel TaskProofs TaskOrder NetModel NetProofs NetOrigin NetComplete NetDelivery NetCheck
  WireModel WireSpec CodecModel CodecSafe CodecMsg EndModel EndProofs NetSynced NetConcurrent FifoSpec FifoProofs FifoComplete PropertiesWire PropertiesCodec PropertiesNet PropertiesSettle PropertiesRest PropertiesEnd.

(** * C86 *)
(** Everything user [v] reads from its connection [c] with broker [b] can be put down to sessions so
    that from every session it reads no message more often than the session sent it, and, if there
    has only ever been one link from that session's broker to [b] (or it is [b]), in the order sent. *)
Theorem C86_reads_follow_sends :
  forall pack_users pack_topics dec_users dec_topics valid es b c v,
  archived pack_users dec_users -> archived pack_topics dec_topics -> hooks_keep es ->
  let run := n_run net_decode dec_users dec_topics valid (net_enc_users pack_users) (net_enc_topics pack_topics) in
  (forall a h raw hk, In (NPublish a h raw hk) es -> octets raw /\ (blen raw <= size_limit)%N) ->
  (exists h hh ts, In (EUserAuthed h hh v c ts) (trace (run es) b)) ->
  exists ms src, client_reads pack_users pack_topics (sent_on (broker_at net_decode dec_users dec_topics valid (run es) b) c) = Some ms
    /\ length src = length ms
    /\ forall a h, from_session src ms (a, h) ⊆+ messages (published es a h)
       /\ (linked_once (run es) a b -> from_session src ms (a, h) `sublist_of` messages (published es a h)).
Proof.
  intros pack_users pack_topics dec_users dec_topics valid es b c v Hpu Hpt Hh run Hpub (h0 & hh0 & ts0 & Hau).
  pose proof (faithful_codec pack_users pack_topics dec_users dec_topics Hpu Hpt) as Hc.
  assert (Hall : forall x, In x (sent_on (broker_at net_decode dec_users dec_topics valid (run es) b) c) ->
    exists raw m, s_what x = Emit (inl v) c (FRelay raw) /\ (blen raw <= size_limit)%N /\ CodecModel.decode raw = Some m).
  { intros x Hx. unfold sent_on in Hx. apply elem_of_list_In, elem_of_list_filter in Hx as [Hec Hx]. apply elem_of_list_In in Hx.
    destruct (s_what x) as [to c' f] eqn:Hw. cbn in Hec. subst c'.
    assert (to = inl v) as ->.
    { destruct (inv_run net_decode dec_users dec_topics valid (net_enc_users pack_users) (net_enc_topics pack_topics) es) as (_ & _ & _ & Hnd).
      pose proof (sent_authed net_decode dec_users dec_topics valid b (trace (run es) b) x Hx) as Ha. rewrite Hw in Ha. cbn in Ha. destruct to as [u|b'].
      - destruct Ha as (h & hh & ts & Ha).
        assert (Heq := authed_unique _ _ _ c (Hnd b) Ha Hau (or_introl eq_refl) (or_introl eq_refl)). by injection Heq as -> -> -> ->.
      - destruct Ha as (h & hh & Ha).
        assert (Heq := authed_unique _ _ _ c (Hnd b) Ha Hau (or_introl eq_refl) (or_introl eq_refl)). done. }
    destruct (C25_network_delivery _ _ _ valid _ _ es b x v c f Hc (hooks_keep_weaken es Hh) Hx Hw) as (_ & raw & -> & (a & h & k & u & cu & hk & _ & _ & _ & Hp) & (hk' & m0 & msg & _ & _ & Hd & _)).
    destruct (Hpub _ _ _ _ Hp) as [Ho Hl]. rewrite net_decode_octets in Hd by done. exists raw, m0. done. }
  destruct (carried net_decode dec_users dec_topics valid (net_enc_users pack_users) (net_enc_topics pack_topics) Hc es b c v (hooks_keep_weaken es Hh)) as (T & HT & Hses).
  { intros x Hx. destruct (Hall x Hx) as (raw & m & Hw & _). by exists raw. }
  destruct (reads_all pack_users pack_topics (sent_on (broker_at net_decode dec_users dec_topics valid (run es) b) c)) as (ms & Hms & Hf).
  { intros x Hx. destruct (Hall x Hx) as (raw & m & Hw & Hl & Hd). exists raw, m. by rewrite Hw. }
  assert (HTm : Forall2 (fun (t : bid * N * nat * bytes) m => CodecModel.decode t.2 = Some m) T ms).
  { apply Forall2_same_length_lookup_2.
    - rewrite <- (Forall2_length _ _ _ HT). by apply Forall2_length in Hf.
    - intros i t m Ht Hm. destruct (Forall2_lookup_r _ _ _ _ _ HT Ht) as (x & Hx & Hw).
      destruct (Forall2_lookup_lr _ _ _ _ _ _ Hf Hx Hm) as (raw & Hw' & Hd). rewrite Hw in Hw'. cbn in Hw'. by injection Hw' as ->. }
  exists ms, (map (fun t => t.1.1) T). split; [done|]. split; [rewrite map_length; by eapply Forall2_length|].
  intros a h. destruct (Hses a h) as [H1 H2].
  assert (Heq : from_session (map (fun t => t.1.1) T) ms (a, h) = messages (map snd (filter (fun t : bid * N * nat * bytes => t.1.1 = (a, h)) T))).
  { clear - HTm. unfold from_session, messages. induction HTm as [|t m T ms Hd _ IH]; [done|]. cbn [map zip zip_with]. rewrite !filter_cons. cbn [fst].
    case_decide; [|exact IH]. cbn [map]. rewrite IH. cbn. by rewrite Hd. }
  rewrite Heq. split; [by apply submseteq_omap|]. intros Hone. apply sublist_omap. by apply H2.
Qed.
Print Assumptions C86_reads_follow_sends.

(** Nothing is missing either. From a network at rest: publications by any users anywhere, deliveries
    over links and steps of tasks, in any interleaving, until the network is at rest again. What the
    client of a connected user [v] reads meanwhile ([ms1], after the [ms0] it had read before) can be
    put down to sessions so that from every session at a broker [a] which is synchronised and has had
    one link to [b], it is exactly the messages read from that session that are meant for [v] (direct
    messages to [v] and broadcasts to a topic that [v] is subscribed to), in the order sent. *)
Theorem C86_conversation_complete :
  forall pack_users pack_topics dec_users dec_topics valid es0 es1 b c v,
  archived pack_users dec_users -> archived pack_topics dec_topics -> hooks_keep es0 ->
  let run := n_run net_decode dec_users dec_topics valid (net_enc_users pack_users) (net_enc_topics pack_topics) in
  let at_ := broker_at net_decode dec_users dec_topics valid in
  let n := run es0 in let n' := run (es0 ++ es1) in
  (forall a h raw hk, In (NPublish a h raw hk) (es0 ++ es1) -> octets raw /\ (blen raw <= size_limit)%N) ->
  at_rest net_decode dec_users dec_topics valid n -> Forall (quiet net_decode valid) es1 -> at_rest net_decode dec_users dec_topics valid n' ->
  c_get_user_connection (m_conns (at_ n b)) v = Some c ->
  exists ms0 ms1 src P, client_reads pack_users pack_topics (sent_on (at_ n b) c) = Some ms0
    /\ client_reads pack_users pack_topics (sent_on (at_ n' b) c) = Some (ms0 ++ ms1)
    /\ length src = length ms1
    /\ (forall m, P m = true <-> (exists body, m = MDirect v body)
          \/ (exists ts body t, m = MBroadcast ts body /\ In t ts /\ subscribed_at net_decode dec_users dec_topics valid n b v t))
    /\ forall a h u cu t0, synchronised net_decode dec_users dec_topics valid n a -> linked_once n a b ->
         m_tasks (at_ n a) !! h = Some t0 -> t_owner t0 = OUser u cu ->
         from_session src ms1 (a, h) = List.filter P (messages (accepted (at_ n a) (at_ n' a) h)).
Proof.
  intros pack_users pack_topics dec_users dec_topics valid es0 es1 b c v Hpu Hpt Hh0 run at_ n n' Hpub Hrest Hq Hrest' Hconn.
  pose proof (faithful_codec pack_users pack_topics dec_users dec_topics Hpu Hpt) as Hc.
  pose proof (quiet_hooks net_decode valid es0 es1 (hooks_keep_weaken es0 Hh0) Hq) as Hh.
  set (es := es0 ++ es1) in *.
  assert (Hau : exists h hh ts, In (EUserAuthed h hh v c ts) (trace n' b)).
  { unfold c_get_user_connection in Hconn.
    assert (Hsame : m_conns (at_ n' b) = m_conns (at_ n b)) by exact (conns_same net_decode dec_users dec_topics valid _ _ es0 Hrest es1 Hq b).
    rewrite <- Hsame in Hconn. destruct (users (m_conns (at_ n' b)) !! v) as [[c0 h1]|] eqn:E; [|done]. cbn in Hconn. injection Hconn as ->.
    destruct (reg_run net_decode dec_users dec_topics valid b (trace n' b)) as [[Hu _] _]. destruct (Hu _ _ _ E) as (hh & ts & Hin). by exists h1, hh, ts. }
  destruct Hau as (h0 & hh0 & ts0 & Hau).
  assert (Hall : forall x, In x (sent_on (at_ n' b) c) ->
    exists raw m, s_what x = Emit (inl v) c (FRelay raw) /\ (blen raw <= size_limit)%N /\ CodecModel.decode raw = Some m).
  { intros x Hx. unfold sent_on in Hx. apply elem_of_list_In, elem_of_list_filter in Hx as [Hec Hx]. apply elem_of_list_In in Hx.
    destruct (s_what x) as [to c' f] eqn:Hw. cbn in Hec. subst c'.
    assert (to = inl v) as ->.
    { destruct (inv_run net_decode dec_users dec_topics valid (net_enc_users pack_users) (net_enc_topics pack_topics) es) as (_ & _ & _ & Hnd).
      pose proof (sent_authed net_decode dec_users dec_topics valid b (trace n' b) x Hx) as Ha. rewrite Hw in Ha. cbn in Ha. destruct to as [u|b'].
      - destruct Ha as (h & hh & ts & Ha).
        assert (Heq := authed_unique _ _ _ c (Hnd b) Ha Hau (or_introl eq_refl) (or_introl eq_refl)). by injection Heq as -> -> -> ->.
      - destruct Ha as (h & hh & Ha).
        assert (Heq := authed_unique _ _ _ c (Hnd b) Ha Hau (or_introl eq_refl) (or_introl eq_refl)). done. }
    destruct (C25_network_delivery _ _ _ valid _ _ es b x v c f Hc Hh Hx Hw) as (_ & raw & -> & (a & h & k & u & cu & hk & _ & _ & _ & Hp) & (hk' & m0 & msg & _ & _ & Hd & _)).
    destruct (Hpub _ _ _ _ Hp) as [Ho Hl]. rewrite net_decode_octets in Hd by done. exists raw, m0. done. }
  destruct (carried_all net_decode dec_users dec_topics valid (net_enc_users pack_users) (net_enc_topics pack_topics) Hc es0 es1 b c v (hooks_keep_weaken es0 Hh0) Hrest Hq Hrest' Hconn) as (T & HT & Hses).
  { intros x Hx. destruct (Hall x Hx) as (raw & m & Hw & _). by exists raw. }
  change (n_run net_decode dec_users dec_topics valid (net_enc_users pack_users) (net_enc_topics pack_topics) (es0 ++ es1)) with n' in HT, Hses.
  change (n_run net_decode dec_users dec_topics valid (net_enc_users pack_users) (net_enc_topics pack_topics) es0) with n in HT, Hses.
  change (broker_at net_decode dec_users dec_topics valid) with at_ in HT, Hses.
  assert (Hon : sent_on (at_ n' b) c = sent_on (at_ n b) c ++ drop (length (sent_on (at_ n b) c)) (sent_on (at_ n' b) c)).
  { destruct (sent_split net_decode dec_users dec_topics valid (net_enc_users pack_users) (net_enc_topics pack_topics) es0 Hrest es1 Hq b) as (new & Hs & _).
    assert (Ho : sent_on (at_ n' b) c = sent_on (at_ n b) c ++ filter (fun x => e_conn (s_what x) = c) new).
    { unfold sent_on, at_, n', es, run. rewrite Hs. apply list.filter_app. }
    rewrite Ho. by rewrite drop_app. }
  set (L0 := sent_on (at_ n b) c) in *. set (L1 := drop (length L0) (sent_on (at_ n' b) c)) in *. rewrite Hon in Hall. rewrite Hon. clearbody L0 L1. clear Hon.
  destruct (reads_all pack_users pack_topics L0) as (ms0 & Hms0 & Hf0).
  { intros x Hx. destruct (Hall x) as (raw & m & Hw & Hl & Hd); [apply in_app_iff; by left|]. exists raw, m. by rewrite Hw. }
  destruct (reads_all pack_users pack_topics (L0 ++ L1)) as (ms & Hms & Hf).
  { intros x Hx. destruct (Hall x Hx) as (raw & m & Hw & Hl & Hd). exists raw, m. by rewrite Hw. }
  apply Forall2_app_inv_l in Hf as (ms0' & ms1 & Hf0' & Hf1 & ->).
  assert (ms0' = ms0) as ->.
  { clear - Hf0 Hf0'. revert ms0' Hf0'. induction Hf0 as [|x m l ms (raw & Hr & Hd) _ IH]; intros ms' H'; inversion_clear H' as [|? ? ? ? (raw' & Hr' & Hd') Hf]; [done|].
    rewrite Hr in Hr'. injection Hr' as <-. rewrite Hd in Hd'. injection Hd' as <-. f_equal. by apply IH. }
  assert (HTm : Forall2 (fun (t : bid * N * nat * bytes) m => CodecModel.decode t.2 = Some m) T ms1).
  { apply Forall2_same_length_lookup_2.
    - rewrite <- (Forall2_length _ _ _ HT). by apply Forall2_length in Hf1.
    - intros i t m Ht Hm. destruct (Forall2_lookup_r _ _ _ _ _ HT Ht) as (x & Hx & Hw).
      destruct (Forall2_lookup_lr _ _ _ _ _ _ Hf1 Hx Hm) as (raw & Hw' & Hd). rewrite Hw in Hw'. cbn in Hw'. by injection Hw' as ->. }
  set (P := fun m : message => match m with
    | MDirect r _ => bool_decide (r = v)
    | MBroadcast ts _ => existsb (fun t => bool_decide (v ∈ (c_get_interested_by_topic (m_conns (at_ n b)) [t] true).2)) ts
    | _ => false end).
  assert (HP : forall m, P m = true <-> (exists body, m = MDirect v body)
          \/ (exists ts body t, m = MBroadcast ts body /\ In t ts /\ subscribed_at net_decode dec_users dec_topics valid n b v t)).
  { intros m. split.
    - destruct m as [| | |r body|ts body| | | |]; try done; cbn [P].
      + intros Hr%bool_decide_eq_true. subst r. left. by exists body.
      + intros (t & Ht & Hs)%existsb_exists. apply bool_decide_eq_true in Hs. right. exists ts, body, t. split; [done|]. split; [done|]. by apply elem_of_list_In.
    - intros [(body & ->)|(ts & body & t & -> & Ht & Hs)]; cbn [P]; [by apply bool_decide_eq_true|].
      apply existsb_exists. exists t. split; [done|]. apply bool_decide_eq_true. by apply elem_of_list_In. }
  exists ms0, ms1, (map (fun t => t.1.1) T), P. split; [done|]. split; [done|]. split; [rewrite map_length; by eapply Forall2_length|]. split; [exact HP|].
  intros a h u cu t0 Hsyn Hone Ht0 Hown.
  assert (Heq : from_session (map (fun t => t.1.1) T) ms1 (a, h) = messages (map snd (filter (fun t : bid * N * nat * bytes => t.1.1 = (a, h)) T))).
  { clear - HTm. unfold from_session, messages. induction HTm as [|t m T ms Hd _ IH]; [done|]. cbn [map zip zip_with]. rewrite !filter_cons. cbn [fst].
    case_decide; [|exact IH]. cbn [map]. rewrite IH. cbn. by rewrite Hd. }
  rewrite Heq.
  rewrite (Hses a h u cu t0 Hsyn Hone Ht0 Hown (fun raw => match net_decode raw with Some m => P m | None => false end)).
  2:{ intros raw. destruct (net_decode raw) as [m|]; [|by split]. rewrite HP. destruct m as [| | |r body|ts body| | | |]; split; try done;
      try (by intros [(?&?)|(?&?&?&?&_)]).
      - intros [(body' & [= -> _])|(?&?&?&?&_)]; done.
      - intros ->. left. by exists body.
      - intros [(body' & ?)|(ts' & body' & t & [= <- _] & Ht & Hs)]; [done|]. by exists t.
      - intros (t & Ht & Hs). right. by exists ts, body, t. }
  assert (Hoct : Forall octets (accepted (at_ n a) (at_ n' a) h)).
  { apply List.Forall_forall. intros raw Hraw. unfold accepted in Hraw. apply in_map_iff in Hraw as (r & <- & Hr).
    assert (Hr' : In r (got (at_ n' a) h)) by (apply elem_of_list_In; eapply elem_of_submseteq; [apply elem_of_list_In; exact Hr|apply sublist_submseteq, sublist_drop]).
    assert (Hp : r_raw r ∈ published es a h).
    { eapply elem_of_submseteq; [|apply sublist_submseteq, (pub_run net_decode dec_users dec_topics valid (net_enc_users pack_users) (net_enc_topics pack_topics) es a h)].
      - apply elem_of_list_In, in_map. exact Hr'.
      - intros t Ht. destruct (loop_before net_decode dec_users dec_topics valid (net_enc_users pack_users) (net_enc_topics pack_topics) es0 Hrest es1 Hq a h (OUser u cu)) as (t' & Ht' & Ho'); [by exists t0|].
        exists u, cu. unfold es in Ht. congruence. }
    unfold published in Hp. apply elem_of_list_omap in Hp as (e & He & Hp). destruct e as [| |a' h' raw hk| | ]; try done.
    case_decide; [|done]. injection Hp as <-. apply elem_of_list_In in He. by destruct (Hpub _ _ _ _ He). }
  clear - Hoct. unfold messages. induction Hoct as [|raw l Ho _ IH]; [done|]. cbn [List.filter]. rewrite (net_decode_octets raw Ho). cbn [omap list_omap].
  destruct (CodecModel.decode raw) as [m|] eqn:Ed; [|exact IH]. cbn [List.filter]. destruct (P m); [|exact IH]. cbn [omap list_omap]. rewrite Ed. f_equal. exact IH.
Qed.
Print Assumptions C86_conversation_complete.

(** Two messages that overtake each other on two links (C24), seen by the client: the only session
    that publishes anything sends [m1], then [m2]; user [v] reads [m2], then [m1]. *)
Definition fx_m (x : N) : message := MDirect [2]%N [x].
Definition fx_raw (x : N) : bytes := default [] (CodecModel.encode (fx_m x)).
Definition fx_overtake : list nevent :=
  nx_setup ++ NPublish nA 1 (fx_raw 1) no_hook :: goes nA 1 3 ++ [NDeliver nA 105 no_hook]
  ++ NUp nA 7 8 107 nB 7 8 107 :: goes nA 8 1
  ++ NPublish nA 1 (fx_raw 2) no_hook :: goes nA 1 3 ++ [NDeliver nA 107 no_hook] ++ goes nB 7 3 ++ goes nB 5 3.
Definition pub_of (e : nevent) : option (bid * N * bytes) := match e with NPublish a h raw _ => Some (a, h, raw) | _ => None end.
Lemma pubs_in es a h raw hk : In (NPublish a h raw hk) es -> In (a, h, raw) (omap pub_of es).
Proof. intros H. apply elem_of_list_In, elem_of_list_omap. eexists. split; [by apply elem_of_list_In|done]. Qed.
Theorem C86_two_links_refuted :
  let reads := fun es b c => client_reads wx_pack_users wx_pack_topics (sent_on (wx_at (wx_run es) b) c) in
  archived wx_pack_users wx_dec_users /\ archived wx_pack_topics wx_dec_topics /\
  exists es b c v a h m1 m2,
    hooks_keep es /\ (exists h0 hh ts, In (EUserAuthed h0 hh v c ts) (trace (wx_run es) b))
    /\ (forall a' h' raw hk, In (NPublish a' h' raw hk) es -> octets raw /\ (blen raw <= size_limit)%N /\ a' = a /\ h' = h)
    /\ messages (published es a h) = [m1; m2] /\ reads es b c = Some [m2; m1] /\ m1 <> m2.
Proof.
  intros reads. split; [apply wx_archived|]. split; [apply wx_archived|].
  exists fx_overtake, nB, 101%N, [2]%N, nA, 1%N, (fx_m 1), (fx_m 2).
  split; [apply plain_keeps; unfold plain_b; vm_compute; repeat constructor|].
  split; [exists 1%N, 2%N, [7]%N; vm_compute; repeat (first [left; reflexivity|right])|].
  split.
  { intros a' h' raw hk Hin. apply pubs_in in Hin.
    assert (Heq : omap pub_of fx_overtake = [(nA, 1, fx_raw 1); (nA, 1, fx_raw 2)]%N) by (vm_compute; reflexivity). rewrite Heq in Hin.
    assert (Ho : forall x, x = 1%N \/ x = 2%N -> octets (fx_raw x) /\ (blen (fx_raw x) <= size_limit)%N).
    { intros x [-> | ->]; (split; [vm_compute; repeat constructor|by vm_compute]). }
    destruct Hin as [Hin|[Hin|[]]]; injection Hin as <- <- <-; [destruct (Ho 1%N (or_introl eq_refl)) as [Ha Hb]|destruct (Ho 2%N (or_intror eq_refl)) as [Ha Hb]];
      (split; [exact Ha|]; split; [exact Hb|]; split; reflexivity). }
  split; [vm_compute; reflexivity|]. split; [vm_compute; reflexivity|]. done.
Qed.
Print Assumptions C86_two_links_refuted.

(** The hypotheses are met, and three messages of one session arrive over one link in order. *)
Definition fx_three : list nevent :=
  nx_setup ++ NPublish nA 1 (fx_raw 1) no_hook :: goes nA 1 3 ++ NPublish nA 1 (fx_raw 2) no_hook :: goes nA 1 3
  ++ [NDeliver nA 105 no_hook] ++ goes nB 5 3 ++ NPublish nA 1 (fx_raw 1) no_hook :: goes nA 1 3
  ++ [NDeliver nA 105 no_hook] ++ goes nB 5 3 ++ [NDeliver nA 105 no_hook] ++ goes nB 5 3.
Example C86_example :
  hooks_keep fx_three /\ (exists h0 hh ts, In (EUserAuthed h0 hh [2]%N 101 ts) (trace (wx_run fx_three) nB))
  /\ (forall a h raw hk, In (NPublish a h raw hk) fx_three -> octets raw /\ (blen raw <= size_limit)%N)
  /\ linked_once (wx_run fx_three) nA nB
  /\ messages (published fx_three nA 1) = [fx_m 1; fx_m 2; fx_m 1]
  /\ client_reads wx_pack_users wx_pack_topics (sent_on (wx_at (wx_run fx_three) nB) 101) = Some [fx_m 1; fx_m 2; fx_m 1].
Proof.
  split; [apply plain_keeps; unfold plain_b; vm_compute; repeat constructor|].
  split; [exists 1%N, 2%N, [7]%N; vm_compute; repeat (first [left; reflexivity|right])|].
  split.
  { intros a' h' raw hk Hin. apply pubs_in in Hin.
    assert (Heq : omap pub_of fx_three = [(nA, 1, fx_raw 1); (nA, 1, fx_raw 2); (nA, 1, fx_raw 1)]%N) by (vm_compute; reflexivity). rewrite Heq in Hin.
    assert (Ho : forall x, x = 1%N \/ x = 2%N -> octets (fx_raw x) /\ (blen (fx_raw x) <= size_limit)%N).
    { intros x [-> | ->]; (split; [vm_compute; repeat constructor|by vm_compute]). }
    destruct Hin as [Hin|[Hin|[Hin|[]]]]; injection Hin as <- <- <-; apply Ho; auto. }
  split.
  { assert (Hl : map_to_list (n_links (wx_run fx_three)) = [((nA, 105%N), (nB, 5%N)); ((nB, 105%N), (nA, 5%N))]
            \/ map_to_list (n_links (wx_run fx_three)) = [((nB, 105%N), (nA, 5%N)); ((nA, 105%N), (nB, 5%N))]) by (vm_compute; tauto).
    assert (H1 : forall c h, n_links (wx_run fx_three) !! (nA, c) = Some (nB, h) -> c = 105%N).
    { intros c h Hc. apply elem_of_map_to_list in Hc.
      destruct Hl as [Hl|Hl]; rewrite Hl in Hc; rewrite !elem_of_cons, elem_of_nil in Hc;
        destruct Hc as [Hc|[Hc|[]]]; try discriminate Hc; injection Hc; intros; assumption. }
    intros c1 h1 c2 h2 Hc1 Hc2. rewrite (H1 _ _ Hc1), (H1 _ _ Hc2). reflexivity. }
  split; vm_compute; reflexivity.
Qed.

(** Two sessions write to user 3 at B at the same time: user 1 at A (a broadcast, a direct message
    to user 2 and one to user 3) and user 2 at B (a direct message). *)
Definition gx_raw (m : message) : bytes := default [] (CodecModel.encode m).
Definition gx_m1 : message := (MBroadcast [7; 9] [42])%N.
Definition gx_m2 : message := (MDirect [2] [43])%N.
Definition gx_m3 : message := (MDirect [3] [44])%N.
Definition gx_m4 : message := (MDirect [3] [45])%N.
Definition gx_traffic : list nevent :=
  NPublish nA 1 (gx_raw gx_m1) no_hook :: goes nA 1 8 ++ NPublish nA 1 (gx_raw gx_m2) no_hook :: NDeliver nA 105 no_hook :: goes nA 1 3
  ++ NPublish nB 1 (gx_raw gx_m4) no_hook :: goes nB 1 2 ++ goes nB 5 8 ++ NPublish nA 1 (gx_raw gx_m3) no_hook :: goes nA 1 3 ++ goes nB 1 1
  ++ NDeliver nA 105 no_hook :: goes nB 5 3 ++ NDeliver nA 105 no_hook :: goes nB 5 3.
Lemma gx_quiet : Forall (quiet net_decode nx_valid) gx_traffic.
Proof.
  assert (Hg : forall v m, v = net_decode (gx_raw m) -> v = Some m ->
    match m with MDirect _ _ => True | MBroadcast ts _ => existsb nx_valid ts = true | _ => False end -> good_raw net_decode nx_valid (gx_raw m)).
  { intros w m -> Hm Hk. destruct m as [| | |r body|ts body| | | |]; try exact (False_ind _ Hk).
    - left. exists r, body. exact Hm.
    - right. exists ts, body. split; [exact Hm|]. apply existsb_exists in Hk as (t & Ht & Hv). by exists t. }
  assert (H1 : good_raw net_decode nx_valid (gx_raw gx_m1)) by (eapply Hg; [reflexivity|vm_compute; reflexivity|vm_compute; reflexivity]).
  assert (H2 : good_raw net_decode nx_valid (gx_raw gx_m2)) by (eapply Hg; [reflexivity|vm_compute; reflexivity|exact I]).
  assert (H3 : good_raw net_decode nx_valid (gx_raw gx_m3)) by (eapply Hg; [reflexivity|vm_compute; reflexivity|exact I]).
  assert (H4 : good_raw net_decode nx_valid (gx_raw gx_m4)) by (eapply Hg; [reflexivity|vm_compute; reflexivity|exact I]).
  unfold gx_traffic, goes. cbn [repeat app]. revert H1 H2 H3 H4. clear Hg.
  generalize (gx_raw gx_m1) (gx_raw gx_m2) (gx_raw gx_m3) (gx_raw gx_m4). intros r1 r2 r3 r4 H1 H2 H3 H4.
  repeat (constructor; [first [exact I|reflexivity|split; [reflexivity|first [exact H1|exact H2|exact H3|exact H4]]]|]). constructor.
Qed.
Example C86_conversation_example :
  hooks_keep nx_setup
  /\ (forall a h raw hk, In (NPublish a h raw hk) (nx_setup ++ gx_traffic) -> octets raw /\ (blen raw <= size_limit)%N)
  /\ wx_rest (wx_run nx_setup) /\ Forall (quiet net_decode nx_valid) gx_traffic /\ wx_rest (wx_run (nx_setup ++ gx_traffic))
  /\ c_get_user_connection (m_conns (wx_at (wx_run nx_setup) nB)) [3]%N = Some 103%N
  /\ synchronised net_decode wx_dec_users wx_dec_topics nx_valid (wx_run nx_setup) nA
  /\ synchronised net_decode wx_dec_users wx_dec_topics nx_valid (wx_run nx_setup) nB
  /\ linked_once (wx_run nx_setup) nA nB /\ linked_once (wx_run nx_setup) nB nB
  /\ m_tasks (wx_at (wx_run nx_setup) nA) !! 1%N = Some (Task (OUser [1]%N 101) [] true 0)
  /\ m_tasks (wx_at (wx_run nx_setup) nB) !! 1%N = Some (Task (OUser [2]%N 101) [] true 0)
  /\ messages (accepted (wx_at (wx_run nx_setup) nA) (wx_at (wx_run (nx_setup ++ gx_traffic)) nA) 1) = [gx_m1; gx_m2; gx_m3]
  /\ messages (accepted (wx_at (wx_run nx_setup) nB) (wx_at (wx_run (nx_setup ++ gx_traffic)) nB) 1) = [gx_m4]
  /\ client_reads wx_pack_users wx_pack_topics (sent_on (wx_at (wx_run (nx_setup ++ gx_traffic)) nB) 103) = Some [gx_m1; gx_m4; gx_m3].
Proof.
  split; [apply plain_keeps; unfold plain_b; vm_compute; repeat constructor|].
  split.
  { intros a' h' raw hk Hin. apply pubs_in in Hin.
    assert (Heq : omap pub_of (nx_setup ++ gx_traffic) = [(nA, 1, gx_raw gx_m1); (nA, 1, gx_raw gx_m2); (nB, 1, gx_raw gx_m4); (nA, 1, gx_raw gx_m3)]%N) by (vm_compute; reflexivity). rewrite Heq in Hin.
    assert (Ho : forall m, In m [gx_m1; gx_m2; gx_m3; gx_m4] -> octets (gx_raw m) /\ (blen (gx_raw m) <= size_limit)%N).
    { intros m [<-|[<-|[<-|[<-|[]]]]]; (split; [vm_compute; repeat constructor|by vm_compute]). }
    destruct Hin as [Hin|[Hin|[Hin|[Hin|[]]]]]; injection Hin as <- <- <-;
      [exact (Ho gx_m1 (or_introl eq_refl))|exact (Ho gx_m2 (or_intror (or_introl eq_refl)))
      |exact (Ho gx_m4 (or_intror (or_intror (or_intror (or_introl eq_refl)))))|exact (Ho gx_m3 (or_intror (or_intror (or_introl eq_refl))))]. }
  split; [apply rest_check; vm_compute; reflexivity|]. split; [exact gx_quiet|]. split; [apply rest_check; vm_compute; reflexivity|].
  split; [vm_compute; reflexivity|]. split; [apply sync_check; vm_compute; reflexivity|]. split; [apply sync_check; vm_compute; reflexivity|].
  assert (Hl : map_to_list (n_links (wx_run nx_setup)) = [((nA, 105%N), (nB, 5%N)); ((nB, 105%N), (nA, 5%N))]
            \/ map_to_list (n_links (wx_run nx_setup)) = [((nB, 105%N), (nA, 5%N)); ((nA, 105%N), (nB, 5%N))]) by (vm_compute; tauto).
  assert (H1 : forall a c h, n_links (wx_run nx_setup) !! (a, c) = Some (nB, h) -> a = nA /\ c = 105%N).
  { intros a c h Hc. apply elem_of_map_to_list in Hc.
    destruct Hl as [Hl|Hl]; rewrite Hl in Hc; rewrite !elem_of_cons, elem_of_nil in Hc;
      destruct Hc as [Hc|[Hc|[]]]; try discriminate Hc; injection Hc; intros; split; assumption. }
  split; [intros c1 h1 c2 h2 Hc1 Hc2; destruct (H1 _ _ _ Hc1) as [_ ->]; destruct (H1 _ _ _ Hc2) as [_ ->]; reflexivity|].
  split; [intros c1 h1 c2 h2 Hc1 Hc2; destruct (H1 _ _ _ Hc1) as [Hx _]; discriminate Hx|].
  split; [vm_compute; reflexivity|]. split; [vm_compute; reflexivity|]. split; [vm_compute; reflexivity|]. split; vm_compute; reflexivity.
Qed.
