(** Property theorems: users that move from one broker to another, any number of times
    (NetModel.v). PropertiesSettle.v (C64) is about users admitted once in the whole network,
    PropertiesReturn.v (C83) about users that come back to the same broker.

    Hypotheses as in PropertiesSettle.v, and: when the user came to the new broker, that broker
    had heard where the user was before; the old broker kept its connection with the user until
    it heard of the move ([kept_until_heard]); and the network comes to rest after each move.
    Without [kept_until_heard] the claim is false: the old broker's note that the user has gone
    and the new broker's note that it has come carry the same version number, and the identities
    of the brokers decide which of them counts ([C90_farewell_refuted]). The new broker may even
    close its connection with the user because of that ([C90_farewell_disconnects_refuted]). *)
From stdpp Require Import gmap fin_maps list countable.
From Coq Require Import NArith Lia.
From Verif Require Import IdModel RelMapModel VMapModel ConnModel ConnSpec ConnProofs3 TopicModel MsgModel RouteModel
  TaskModel TaskProofs TaskOrder TaskHandles TaskGuarded TaskCheck TaskSync NetModel NetProofs NetOrigin NetComplete NetSynced NetConcurrent NetDelivery NetCheck
  NetSettle NetSettleDir NetSettleAll ReturnSpec ReturnProofs MoveSpec MoveProofs PropertiesNet PropertiesSettle PropertiesReturn.

(** * C90: a user that moves to another broker is found there *)
Theorem C90_found_after_moving :
  forall deser dec_users dec_topics valid enc_users enc_topics es0 es v k b0 b c,
  faithful_sync deser dec_users dec_topics enc_users enc_topics -> es0 `prefix_of` es -> hooks_pass es ->
  let n0 := n_run deser dec_users dec_topics valid enc_users enc_topics es0 in
  let n := n_run deser dec_users dec_topics valid enc_users enc_topics es in
  fine deser dec_users dec_topics valid n ->
  (* before: the user is at [b0] and [b] knows it *)
  at_rest deser dec_users dec_topics valid n0 -> on_record deser dec_users dec_topics valid v (Some (k, b0)) n0 -> (k + 1 < u64_modulus)%N ->
  c_get_broker_identifier_of_user (m_conns (broker_at deser dec_users dec_topics valid n0 b)) v = Some b0 -> b <> b0 ->
  (c_get_partial_user_sync (m_conns (broker_at deser dec_users dec_topics valid n0 b))).2 = None ->
  (* meanwhile it moves to [b] *)
  kept_until_heard deser dec_users dec_topics valid enc_users enc_topics v b0 b es0 es -> moved_to v b n0 n ->
  (* after: everything is said and done *)
  at_rest deser dec_users dec_topics valid n ->
  (c_get_partial_user_sync (m_conns (broker_at deser dec_users dec_topics valid n b))).2 = None ->
  c_get_user_connection (m_conns (broker_at deser dec_users dec_topics valid n b)) v = Some c ->
  forall x, joined deser dec_users dec_topics valid n x b ->
    c_get_broker_identifier_of_user (m_conns (broker_at deser dec_users dec_topics valid n x)) v = Some b
    /\ (x <> b -> c_get_user_connection (m_conns (broker_at deser dec_users dec_topics valid n x)) v = None).
Proof.
  intros deser dec_users dec_topics valid enc_users enc_topics es0 es v k b0 b c Hcodec Hpre Hh n0 n Hf Hr0 Hon Hk Hd Hne Hnone Hkept Hmv Hr Hn Hc x Hj.
  assert (Hrec : record_at deser dec_users dec_topics valid v n0 b = Some (VVal k (Some b0))).
  { unfold c_get_broker_identifier_of_user, vm_get in Hd. unfold record_at. fold n0 in Hon |- *.
    destruct (entries (direct (m_conns (broker_at deser dec_users dec_topics valid n0 b))) !! v) as [e|] eqn:E; [|done].
    destruct (Hon b e) as (k' & b' & [= <- <-] & ->); [exact E|]. done. }
  assert (H : record_at deser dec_users dec_topics valid v n x = Some (new_of (Some (k, b0)) b)).
  { apply (move_settles deser dec_users dec_topics valid enc_users enc_topics Hcodec v b (Some (k, b0)) es0 es x); try done.
    - intros k' b' [= <- <-]. split; [done|congruence].
    - intros k' b' [= <- <-]. done.
    - by exists c.
    - by right. }
  assert (Hdir : c_get_broker_identifier_of_user (m_conns (broker_at deser dec_users dec_topics valid n x)) v = Some b).
  { unfold record_at in H. unfold c_get_broker_identifier_of_user, vm_get. by rewrite H. }
  split; [exact Hdir|]. intros Hxb.
  destruct (c_get_user_connection (m_conns (broker_at deser dec_users dec_topics valid n x)) v) as [c'|] eqn:E; [|done]. exfalso. apply Hxb.
  assert (Hs : c_get_broker_identifier_of_user (m_conns (broker_at deser dec_users dec_topics valid n x)) v = Some x) by (apply state_directory; by exists c').
  rewrite Hdir in Hs. by injection Hs.
Qed.
Print Assumptions C90_found_after_moving.

(** However often the user moves: every broker that shares a link with its broker knows where
    it is, and it is connected to no other broker. *)
Theorem C90_however_often :
  forall deser dec_users dec_topics valid enc_users enc_topics es v k b,
  faithful_sync deser dec_users dec_topics enc_users enc_topics -> hooks_pass es ->
  let n := n_run deser dec_users dec_topics valid enc_users enc_topics es in
  fine deser dec_users dec_topics valid n ->
  travels deser dec_users dec_topics valid enc_users enc_topics v es k b -> (k < u64_modulus)%N ->
  (forall x, joined deser dec_users dec_topics valid n x b ->
     c_get_broker_identifier_of_user (m_conns (broker_at deser dec_users dec_topics valid n x)) v = Some b)
  /\ (forall x c, c_get_user_connection (m_conns (broker_at deser dec_users dec_topics valid n x)) v = Some c -> x = b).
Proof. intros. by eapply travels_found. Qed.
Print Assumptions C90_however_often.

(** [settled] of C64, where the other brokers' users were admitted once, or came back to the
    same broker, or moved between brokers. *)
Definition settled_moved deser dec_users dec_topics valid enc_users enc_topics (es : list nevent) (a : bid) : Prop :=
  let n := n_run deser dec_users dec_topics valid enc_users enc_topics es in
  at_rest deser dec_users dec_topics valid n
  /\ forall b v c, b <> a -> c_get_user_connection (m_conns (broker_at deser dec_users dec_topics valid n b)) v = Some c ->
       joined deser dec_users dec_topics valid n a b /\ nothing_due deser dec_users dec_topics valid n b
       /\ (admitted_once n v
           \/ (admitted_at v b n /\ not_overtaken deser dec_users dec_topics valid v b n /\ stops_when_told deser dec_users dec_topics valid a b n)
           \/ exists k b', travels deser dec_users dec_topics valid enc_users enc_topics v es k b' /\ (k < u64_modulus)%N).

Theorem C90_settled_is_synchronised :
  forall deser dec_users dec_topics valid enc_users enc_topics es a,
  faithful_sync deser dec_users dec_topics enc_users enc_topics -> hooks_pass es ->
  let n := n_run deser dec_users dec_topics valid enc_users enc_topics es in
  fine deser dec_users dec_topics valid n ->
  (forall b, subscribes_connected deser dec_users dec_topics valid b (trace n b)) ->
  settled_moved deser dec_users dec_topics valid enc_users enc_topics es a -> synchronised deser dec_users dec_topics valid n a.
Proof.
  intros deser dec_users dec_topics valid enc_users enc_topics es a Hcodec Hh n Hf Hsc [Hr Hset]. fold n in Hr, Hset.
  pose proof (inv_run deser dec_users dec_topics valid enc_users enc_topics es) as Hi. fold n in Hi.
  pose proof (paired_run deser dec_users dec_topics valid enc_users enc_topics es Hh Hf) as HP. fold n in HP.
  assert (Hcon : forall b v t, subscribed_at deser dec_users dec_topics valid n b v t -> exists c, c_get_user_connection (m_conns (broker_at deser dec_users dec_topics valid n b)) v = Some c).
  { intros b v t Hs. by eapply guarded_users_connected. }
  split; [|split].
  - intros b v c Hne Hc. destruct (Hset b v c Hne Hc) as (Hj & [Hd1 Hd2] & Hone). split; [|by eapply joined_open].
    destruct Hone as [Hone|[(Hat & Hno & Hst)|(k & b' & Htr & Hk)]]; [by eapply directory_settles; eauto|by eapply returning_known; eauto|].
    destruct (travels_found deser dec_users dec_topics valid enc_users enc_topics Hcodec v es k b' Htr Hk Hh Hf) as [Hd Hon].
    fold n in Hd, Hon. rewrite <- (Hon b c Hc) in Hd. by apply Hd.
  - intros b v t Hne Hs. destruct (Hcon b v t Hs) as [c Hc]. destruct (Hset b v c Hne Hc) as (Hj & [Hd1 Hd2] & _).
    eapply topics_settle; eauto.
  - intros b v t Hs. split; [|by eapply Hcon]. apply interested_users in Hs as (t' & [<-|[]] & Hs'); [|apply state_idx].
    eapply (known_run deser dec_users dec_topics valid b (trace n b)). exact Hs'.
Qed.
Print Assumptions C90_settled_is_synchronised.

(** A direct message published in such a network reaches its recipient exactly once, on its
    connection at the broker it moved to, and nobody else. *)
Theorem C90_moved_user_reached :
  forall deser dec_users dec_topics valid enc_users enc_topics es0 es1 a h u cu k0 raw r body,
  faithful_sync deser dec_users dec_topics enc_users enc_topics -> hooks_pass es0 ->
  let n := n_run deser dec_users dec_topics valid enc_users enc_topics es0 in
  let n' := n_run deser dec_users dec_topics valid enc_users enc_topics (es0 ++ NPublish a h raw no_hook :: es1) in
  fine deser dec_users dec_topics valid n ->
  (forall b, subscribes_connected deser dec_users dec_topics valid b (trace n b)) ->
  settled_moved deser dec_users dec_topics valid enc_users enc_topics es0 a ->
  deser raw = Some (MDirect r body) ->
  m_tasks (broker_at deser dec_users dec_topics valid n a) !! h = Some (Task (OUser u cu) [] true k0) ->
  Forall calm es1 -> at_rest deser dec_users dec_topics valid n' ->
  forall b v,
    (forall c, v = r -> c_get_user_connection (m_conns (broker_at deser dec_users dec_topics valid n b)) v = Some c ->
       exists x, copies deser dec_users dec_topics valid n n' b v = [x] /\ s_what x = Emit (inl v) c (FRelay raw))
    /\ (v <> r \/ c_get_user_connection (m_conns (broker_at deser dec_users dec_topics valid n b)) v = None ->
       copies deser dec_users dec_topics valid n n' b v = []).
Proof.
  intros deser dec_users dec_topics valid enc_users enc_topics es0 es1 a h u cu k0 raw r body Hc Hh n n' Hf Hsc Hset Hd Ht Hcalm Hr.
  eapply C26_direct_complete; try done; [by destruct Hset|]. by eapply C90_settled_is_synchronised.
Qed.
Print Assumptions C90_moved_user_reached.

(** And a broadcast reaches every user with the topic, at whichever broker it is now, exactly
    once, and nobody else. *)
Theorem C90_moved_user_hears_broadcasts :
  forall deser dec_users dec_topics valid enc_users enc_topics es0 es1 a h u cu k0 raw ts body,
  faithful_sync deser dec_users dec_topics enc_users enc_topics -> hooks_pass es0 ->
  let n := n_run deser dec_users dec_topics valid enc_users enc_topics es0 in
  let n' := n_run deser dec_users dec_topics valid enc_users enc_topics (es0 ++ NPublish a h raw no_hook :: es1) in
  fine deser dec_users dec_topics valid n ->
  (forall b, subscribes_connected deser dec_users dec_topics valid b (trace n b)) ->
  settled_moved deser dec_users dec_topics valid enc_users enc_topics es0 a ->
  deser raw = Some (MBroadcast ts body) -> (exists t, In t ts /\ valid t = true) ->
  m_tasks (broker_at deser dec_users dec_topics valid n a) !! h = Some (Task (OUser u cu) [] true k0) ->
  Forall calm es1 -> at_rest deser dec_users dec_topics valid n' ->
  forall b v,
    ((exists t, In t ts /\ subscribed_at deser dec_users dec_topics valid n b v t) ->
       exists x c, copies deser dec_users dec_topics valid n n' b v = [x]
         /\ c_get_user_connection (m_conns (broker_at deser dec_users dec_topics valid n b)) v = Some c
         /\ s_what x = Emit (inl v) c (FRelay raw))
    /\ (~ (exists t, In t ts /\ subscribed_at deser dec_users dec_topics valid n b v t) ->
       copies deser dec_users dec_topics valid n n' b v = []).
Proof.
  intros deser dec_users dec_topics valid enc_users enc_topics es0 es1 a h u cu k0 raw ts body Hc Hh n n' Hf Hsc Hset Hd Hv Ht Hcalm Hr.
  eapply C26_broadcast_complete; try done; [by destruct Hset|]. by eapply C90_settled_is_synchronised.
Qed.
Print Assumptions C90_moved_user_hears_broadcasts.

(** * Boolean checks *)
Notation nx_travels := (travels nx_deser nx_dec_users nx_dec_topics nx_valid nx_enc_users nx_enc_topics).
Notation nx_with := (settled_with nx_deser nx_dec_users nx_dec_topics nx_valid).
Notation nx_record := (record_at nx_deser nx_dec_users nx_dec_topics nx_valid).
Notation nx_kept := (kept_until_heard nx_deser nx_dec_users nx_dec_topics nx_valid nx_enc_users nx_enc_topics).
Definition moved_b (v : ukey) (b : bid) (n0 n : net) : bool :=
  match List.filter (fun p => length (trace n0 p.1) <=? p.2) (admissions n v) with
  | [] => true
  | [p] => bool_decide (p.1 = b)
  | _ => false
  end.
Lemma moved_check v b n0 n : moved_b v b n0 n = true -> moved_to v b n0 n.
Proof.
  unfold moved_b. intros Hb x i h hh c ts Hi Hle. apply admission_in in Hi.
  assert (Hin : forall x i, In (x, i) (admissions n v) -> length (trace n0 x) <= i -> In (x, i) (List.filter (fun p => length (trace n0 p.1) <=? p.2) (admissions n v))).
  { intros y j Hy Hj. apply filter_In. split; [done|]. cbn [fst snd]. by apply Nat.leb_le. }
  pose proof (Hin x i Hi Hle) as Hx.
  destruct (List.filter (fun p => length (trace n0 p.1) <=? p.2) (admissions n v)) as [|p [|]] eqn:El; [done| |done].
  apply bool_decide_eq_true in Hb. destruct Hx as [->|[]]. cbn in Hb. split; [done|]. intros j h' hh' c' ts' Hj Hlj. apply admission_in in Hj.
  destruct (Hin _ _ Hj Hlj) as [E|[]]. by injection E.
Qed.
Definition joined_b (n : net) (a b : bid) : bool :=
  match c_get_broker_connection (m_conns (nx_at n a)) b, c_get_broker_connection (m_conns (nx_at n b)) a with
  | Some ca, Some cb =>
      match n_links n !! (a, ca), n_links n !! (b, cb) with
      | Some (b', hb), Some (a', ha) =>
          match m_tasks (nx_at n a) !! ha with
          | Some (Task (OBroker o c) _ _ _) => bool_decide (b' = b) && bool_decide (a' = a) && bool_decide (o = b) && (c =? ca)%N
          | _ => false
          end
      | _, _ => false
      end
  | _, _ => false
  end.
Lemma joined_check n a b : joined_b n a b = true -> nx_joined n a b.
Proof.
  unfold joined_b, joined. intros H.
  destruct (c_get_broker_connection (m_conns (nx_at n a)) b) as [ca|] eqn:E1; [|done].
  destruct (c_get_broker_connection (m_conns (nx_at n b)) a) as [cb|] eqn:E2; [|done].
  destruct (n_links n !! (a, ca)) as [[b' hb]|] eqn:E3; [|done]. destruct (n_links n !! (b, cb)) as [[a' ha]|] eqn:E4; [|done].
  destruct (m_tasks (nx_at n a) !! ha) as [t|] eqn:E5; [|done]. destruct t as [[|o c|] acts op k]; try done.
  apply andb_prop in H as [H Hc]. apply andb_prop in H as [H Ho]. apply andb_prop in H as [Hb Ha].
  apply bool_decide_eq_true in Hb, Ha, Ho. apply N.eqb_eq in Hc. subst b' a' o c.
  exists ca, cb, ha, hb, (Task (OBroker b ca) acts op k). done.
Qed.
Definition isn {A} (o : option A) : bool := match o with None => true | _ => false end.
Definition with_b (v : ukey) (b : bid) (n : net) : bool :=
  rest_b nx_deser nx_dec_users nx_dec_topics nx_valid n && negb (isn (c_get_user_connection (m_conns (nx_at n b)) v))
  && isn (c_get_partial_user_sync (m_conns (nx_at n b))).2
  && forallb (fun '(x, _) => bool_decide (x = b) || joined_b n x b || isn (nx_record v n x)) (map_to_list (n_trace n)).
Lemma with_check v b n : with_b v b n = true -> nx_with v b n.
Proof.
  unfold with_b. intros H. apply andb_prop in H as [H Hall]. apply andb_prop in H as [H Hn]. apply andb_prop in H as [Hr Hc].
  split; [by apply rest_check|]. split; [destruct (c_get_user_connection (m_conns (nx_at n b)) v); eauto; done|].
  split; [by destruct (c_get_partial_user_sync (m_conns (nx_at n b))).2|]. intros x. destruct (n_trace n !! x) as [l|] eqn:E.
  - apply (forallb_map (fun x _ => bool_decide (x = b) || joined_b n x b || isn (nx_record v n x)) _ _ _ Hall) in E.
    apply orb_prop in E as [E|E]; [apply orb_prop in E as [E|E]|]; [left; by apply bool_decide_eq_true in E|right; left; by apply joined_check|right; right].
    by destruct (nx_record v n x).
  - right. right. unfold record_at. rewrite (untouched _ _ _ _ _ _ E). reflexivity.
Qed.
Definition kept_b (v : ukey) (b0 b : bid) (es0 l : list nevent) : bool :=
  forallb (fun i => let s := m_conns (nx_at (nx_run (es0 ++ take i l)) b0) in
    negb (isn (c_get_user_connection s v)) || bool_decide (c_get_broker_identifier_of_user s v = Some b)) (seq 0 (S (length l))).
Lemma kept_check v b0 b es0 l : kept_b v b0 b es0 l = true -> nx_kept v b0 b es0 (es0 ++ l).
Proof.
  unfold kept_b. intros H p [q ->] Hq. apply prefix_app_inv in Hq. destruct Hq as [q' ->]. rewrite forallb_forall in H.
  specialize (H (length q)). rewrite take_app in H. cbv zeta in H.
  assert (Hin : In (length q) (seq 0 (S (length (q ++ q'))))) by (apply in_seq; rewrite app_length; lia).
  apply H in Hin. apply orb_prop in Hin as [Hc|Hd]; [left|right; by apply bool_decide_eq_true in Hd].
  destruct (c_get_user_connection _ v); eauto; done.
Qed.
Definition record_b (v : ukey) (k : N) (b : bid) (n : net) : bool :=
  forallb (fun '(x, _) => match nx_record v n x with None => true | Some (VVal k' (Some b')) => (k' =? k)%N && bool_decide (b' = b) | _ => false end) (map_to_list (n_trace n)).
Lemma record_check v k b n : record_b v k b n = true -> on_record nx_deser nx_dec_users nx_dec_topics nx_valid v (Some (k, b)) n.
Proof.
  intros H x e He. destruct (n_trace n !! x) as [l|] eqn:E.
  - apply (forallb_map (fun x _ => match nx_record v n x with None => true | Some (VVal k' (Some b')) => (k' =? k)%N && bool_decide (b' = b) | _ => false end) _ _ _ H) in E.
    rewrite He in E. destruct e as [k' [b'|]]; [|done]. apply andb_prop in E as [E1 E2]. apply N.eqb_eq in E1. apply bool_decide_eq_true in E2. subst. eauto.
  - unfold record_at in He. rewrite (untouched _ _ _ _ _ _ E) in He. done.
Qed.
Definition untroubled_b (b : bid) (n0 n : net) : bool :=
  forallb (fun e => match e with ERecvErr _ | EKick _ _ | ERun _ false => false | _ => true end) (drop (length (trace n0 b)) (trace n b)).
Lemma untroubled_check b n0 n : untroubled_b b n0 n = true -> untroubled b n0 n.
Proof.
  unfold untroubled_b, untroubled. intros H. apply Forall_forall. intros e He. rewrite forallb_forall in H. specialize (H e He).
  destruct e as [| | | | | |h [|]|]; done.
Qed.

(** * Examples *)
(** Three brokers, each linked with the others; users 1 (topic 7) at A, 2 (topic 7) and 3
    (topic 9) at B. User 3 moves to C, later to A; then user 2 at B sends user 3 a direct
    message. *)
Definition nC : bid := Bid [3]%N [3]%N.
Definition mv_start : list nevent :=
  NUser nA 1 2 [1]%N 101 [7]%N :: goes nA 2 6
  ++ NUser nB 1 2 [2]%N 101 [7]%N :: goes nB 2 6
  ++ NUser nB 3 4 [3]%N 103 [9]%N :: goes nB 4 6
  ++ NUp nA 5 6 105 nB 5 6 105 :: goes nA 6 8 ++ goes nB 6 8
  ++ NUp nA 7 8 107 nC 7 8 107 :: goes nA 8 8 ++ goes nC 8 8
  ++ NUp nB 9 10 109 nC 9 10 109 :: goes nB 10 8 ++ goes nC 10 8
  ++ passes nA nB 5 105 3 ++ passes nB nA 5 105 3 ++ passes nA nC 7 107 3 ++ passes nC nA 7 107 3 ++ passes nB nC 9 109 3 ++ passes nC nB 9 109 3.
Definition mv_to_C : list nevent :=
  NUser nC 11 12 [3]%N 111 [9]%N :: goes nC 12 24 ++ passes nC nA 7 107 3 ++ passes nC nB 9 109 3 ++ [NStep nB (ECancel 3)]
  ++ NStep nB (ESync 30) :: goes nB 30 24 ++ passes nB nA 5 105 2 ++ passes nB nC 9 109 2.
Definition mv_to_A : list nevent :=
  NUser nA 13 14 [3]%N 113 [9]%N :: goes nA 14 24 ++ passes nA nB 5 105 3 ++ passes nA nC 7 107 3 ++ [NStep nC (ECancel 11)]
  ++ NStep nC (ESync 31) :: goes nC 31 24 ++ passes nC nA 7 107 2 ++ passes nC nB 9 109 2.
Definition mv_there : list nevent := mv_start ++ mv_to_C.
Definition mv_all : list nevent := mv_there ++ mv_to_A.
Lemma mv_start_travels : nx_travels [3]%N mv_start 1 nB.
Proof.
  apply (t_comes _ _ _ _ _ _ _ []); [apply prefix_nil|apply rest_check; vm_compute; reflexivity| | |apply moved_check; vm_compute; reflexivity|apply with_check; vm_compute; reflexivity].
  - intros x. unfold record_at. rewrite (untouched _ _ _ _ _ x); reflexivity.
  - rewrite (untouched _ _ _ _ _ nB); reflexivity.
Qed.
Lemma mv_there_kept : nx_kept [3]%N nB nC mv_start mv_there.
Proof. apply kept_check. vm_compute. reflexivity. Qed.
Lemma mv_there_travels : nx_travels [3]%N mv_there 2 nC.
Proof.
  refine (t_moves _ _ _ _ _ _ _ mv_start 1 nB _ nC mv_start_travels _ _ _ _ _ _ _); [eexists; reflexivity|discriminate|apply joined_check; vm_compute; reflexivity| |exact mv_there_kept
    |apply moved_check; vm_compute; reflexivity|apply with_check; vm_compute; reflexivity].
  vm_compute. reflexivity.
Qed.
Lemma mv_all_travels : nx_travels [3]%N mv_all 3 nA.
Proof.
  refine (t_moves _ _ _ _ _ _ _ mv_there 2 nC _ nA mv_there_travels _ _ _ _ _ _ _); [eexists; reflexivity|discriminate|apply joined_check; vm_compute; reflexivity| |apply kept_check; vm_compute; reflexivity
    |apply moved_check; vm_compute; reflexivity|apply with_check; vm_compute; reflexivity].
  vm_compute. reflexivity.
Qed.
Lemma users_check (f : bid -> ukey -> bool) es :
  forallb (fun '(b, _) => forallb (fun '(v, _) => f b v) (map_to_list (users (m_conns (nx_at (nx_run es) b))))) (map_to_list (n_trace (nx_run es))) = true ->
  forall b v c, c_get_user_connection (m_conns (nx_at (nx_run es) b)) v = Some c -> f b v = true.
Proof.
  intros H b v c Hc. destruct (user_somewhere _ _ _ _ Hc) as [(l & Hl) (p & Hp)].
  apply (forallb_map (fun b _ => forallb (fun '(v, _) => f b v) (map_to_list (users (m_conns (nx_at (nx_run es) b))))) _ _ _ H) in Hl.
  exact (forallb_map (fun v _ => f b v) _ _ _ Hl Hp).
Qed.
Lemma mv_all_users b v c : c_get_user_connection (m_conns (nx_at (nx_run mv_all) b)) v = Some c -> b = nB \/ b = nA /\ (v = [1]%N \/ v = [3]%N).
Proof.
  intros Hc. apply (users_check (fun b v => bool_decide (b = nB) || (bool_decide (b = nA) && (bool_decide (v = [1]%N) || bool_decide (v = [3]%N))))) in Hc; [|vm_compute; reflexivity].
  apply orb_prop in Hc as [Hc|Hc]; [left; by apply bool_decide_eq_true in Hc|right]. apply andb_prop in Hc as [Hb Hv]. apply bool_decide_eq_true in Hb. split; [done|].
  apply orb_prop in Hv as [Hv|Hv]; apply bool_decide_eq_true in Hv; auto.
Qed.
Lemma mv_all_settled : settled_moved nx_deser nx_dec_users nx_dec_topics nx_valid nx_enc_users nx_enc_topics mv_all nB.
Proof.
  split; [apply rest_check; vm_compute; reflexivity|]. intros b v c Hne Hc. destruct (mv_all_users b v c Hc) as [Hb|[Hb Hv]]; [exfalso; exact (Hne Hb)|]. clear Hc. subst b.
  split; [apply joined_check; vm_compute; reflexivity|]. split; [split; vm_compute; reflexivity|].
  destruct Hv as [->| ->]; [left; apply once_check; vm_compute; lia|right; right]. exists 3%N, nA. split; [exact mv_all_travels|reflexivity].
Qed.
Definition mv_msg : list nevent := goes nB 1 3 ++ [NDeliver nB 105 no_hook] ++ goes nA 5 3.
Example C90_nonvacuous :
  faithful_sync nx_deser nx_dec_users nx_dec_topics nx_enc_users nx_enc_topics /\ hooks_pass mv_all
  /\ fine nx_deser nx_dec_users nx_dec_topics nx_valid (nx_run mv_all)
  /\ (forall b, subscribes_connected nx_deser nx_dec_users nx_dec_topics nx_valid b (trace (nx_run mv_all) b))
  /\ nx_travels [3]%N mv_all 3 nA /\ nx_joined (nx_run mv_all) nB nA /\ nx_joined (nx_run mv_all) nC nA
  (* the hypotheses of the first theorem about the first move *)
  /\ on_record nx_deser nx_dec_users nx_dec_topics nx_valid [3]%N (Some (1%N, nB)) (nx_run mv_start)
  /\ c_get_broker_identifier_of_user (m_conns (nx_at (nx_run mv_start) nC)) [3]%N = Some nB
  /\ (c_get_partial_user_sync (m_conns (nx_at (nx_run mv_start) nC))).2 = None
  /\ nx_kept [3]%N nB nC mv_start mv_there /\ moved_to [3]%N nC (nx_run mv_start) (nx_run mv_there) /\ nx_with [3]%N nC (nx_run mv_there)
  (* the messages *)
  /\ settled_moved nx_deser nx_dec_users nx_dec_topics nx_valid nx_enc_users nx_enc_topics mv_all nB
  /\ nx_deser [3;3;43]%N = Some (MDirect [3]%N [43]%N) /\ nx_deser [4;9;9;42]%N = Some (MBroadcast [9;9]%N [42]%N) /\ nx_valid 9 = true
  /\ subscribed_at nx_deser nx_dec_users nx_dec_topics nx_valid (nx_run mv_all) nA [3]%N 9
  /\ m_tasks (nx_at (nx_run mv_all) nB) !! 1%N = Some (Task (OUser [2]%N 101) [] true 0)
  /\ Forall calm mv_msg /\ nx_rest (nx_run (mv_all ++ NPublish nB 1 [3;3;43]%N no_hook :: mv_msg))
  /\ nx_rest (nx_run (mv_all ++ NPublish nB 1 [4;9;9;42]%N no_hook :: mv_msg)).
Proof.
  split; [exact nx_faithful|]. split; [apply plain_pass; unfold plain_b; vm_compute; repeat constructor|].
  split; [apply fine_check; vm_compute; reflexivity|]. split; [apply subs_check_all; vm_compute; reflexivity|].
  split; [exact mv_all_travels|]. split; [apply joined_check; vm_compute; reflexivity|]. split; [apply joined_check; vm_compute; reflexivity|].
  split; [apply record_check; vm_compute; reflexivity|]. split; [vm_compute; reflexivity|]. split; [vm_compute; reflexivity|].
  split; [exact mv_there_kept|]. split; [apply moved_check; vm_compute; reflexivity|]. split; [apply with_check; vm_compute; reflexivity|].
  split; [exact mv_all_settled|]. split; [reflexivity|]. split; [reflexivity|]. split; [reflexivity|]. split; [vm_compute; tauto|].
  split; [vm_compute; reflexivity|].
  split; [unfold mv_msg; vm_compute; repeat constructor|]. split; apply rest_check; vm_compute; reflexivity.
Qed.

(** * C90: what goes wrong otherwise *)
(** User 3 leaves B, which notices, and comes to C; B's sync task announces that the user has
    gone, C that it has come; A hears C first. *)
Definition fw_left : list nevent := NStep nB (ERecvErr 3) :: goes nB 3 1.
Definition fw_run : list nevent :=
  mv_start ++ fw_left ++ NUser nC 11 12 [3]%N 111 [9]%N :: goes nC 12 24 ++ NStep nB (ESync 30) :: goes nB 30 24
  ++ passes nC nA 7 107 3 ++ passes nB nA 5 105 3 ++ passes nC nB 9 109 3 ++ passes nB nC 9 109 3.
(** All hypotheses but [kept_until_heard] hold: everything is said and done, the user is
    connected to C, and A does not know it. *)
Theorem C90_farewell_refuted :
  ~ (forall deser dec_users dec_topics valid enc_users enc_topics es0 es v k b0 b c,
  faithful_sync deser dec_users dec_topics enc_users enc_topics -> es0 `prefix_of` es -> hooks_pass es ->
  let n0 := n_run deser dec_users dec_topics valid enc_users enc_topics es0 in
  let n := n_run deser dec_users dec_topics valid enc_users enc_topics es in
  fine deser dec_users dec_topics valid n ->
  at_rest deser dec_users dec_topics valid n0 -> on_record deser dec_users dec_topics valid v (Some (k, b0)) n0 -> (k + 1 < u64_modulus)%N ->
  c_get_broker_identifier_of_user (m_conns (broker_at deser dec_users dec_topics valid n0 b)) v = Some b0 -> b <> b0 ->
  (c_get_partial_user_sync (m_conns (broker_at deser dec_users dec_topics valid n0 b))).2 = None ->
  moved_to v b n0 n ->
  at_rest deser dec_users dec_topics valid n ->
  (c_get_partial_user_sync (m_conns (broker_at deser dec_users dec_topics valid n b))).2 = None ->
  c_get_user_connection (m_conns (broker_at deser dec_users dec_topics valid n b)) v = Some c ->
  forall x, joined deser dec_users dec_topics valid n x b ->
    c_get_broker_identifier_of_user (m_conns (broker_at deser dec_users dec_topics valid n x)) v = Some b).
Proof.
  intros H.
  assert (E : c_get_broker_identifier_of_user (m_conns (nx_at (nx_run fw_run) nA)) [3]%N = Some nC).
  { eapply (H _ _ _ _ _ _ mv_start fw_run [3]%N 1%N nB nC 111%N nx_faithful).
    - eexists. reflexivity.
    - apply plain_pass. unfold plain_b. vm_compute. repeat constructor.
    - apply fine_check. vm_compute. reflexivity.
    - apply rest_check. vm_compute. reflexivity.
    - apply record_check. vm_compute. reflexivity.
    - reflexivity.
    - vm_compute. reflexivity.
    - discriminate.
    - vm_compute. reflexivity.
    - apply moved_check. vm_compute. reflexivity.
    - apply rest_check. vm_compute. reflexivity.
    - vm_compute. reflexivity.
    - vm_compute. reflexivity.
    - apply joined_check. vm_compute. reflexivity. }
  vm_compute in E. discriminate E.
Qed.
Print Assumptions C90_farewell_refuted.

(** User 3 leaves B, which notices, and comes to A; B's sync task announces that the user has
    gone, and A believes it: *)
Definition fd_run : list nevent :=
  mv_start ++ fw_left ++ NUser nA 13 14 [3]%N 113 [9]%N :: goes nA 14 24 ++ NStep nB (ESync 30) :: goes nB 30 24
  ++ passes nA nC 7 107 3 ++ passes nA nB 5 105 3 ++ passes nB nA 5 105 3 ++ passes nB nC 9 109 3
  ++ NStep nA (ECancel 13) :: NStep nA (ESync 31) :: goes nA 31 24 ++ passes nA nC 7 107 3 ++ passes nA nB 5 105 3.
(** It closes its connection with the user, though nothing went wrong at A since the user came
    and the user is connected nowhere else. *)
Theorem C90_farewell_disconnects_refuted :
  ~ (forall deser dec_users dec_topics valid enc_users enc_topics es0 es v k b0 b,
  faithful_sync deser dec_users dec_topics enc_users enc_topics -> es0 `prefix_of` es -> hooks_pass es ->
  let n0 := n_run deser dec_users dec_topics valid enc_users enc_topics es0 in
  let n := n_run deser dec_users dec_topics valid enc_users enc_topics es in
  fine deser dec_users dec_topics valid n ->
  at_rest deser dec_users dec_topics valid n0 -> on_record deser dec_users dec_topics valid v (Some (k, b0)) n0 -> (k + 1 < u64_modulus)%N ->
  c_get_broker_identifier_of_user (m_conns (broker_at deser dec_users dec_topics valid n0 b)) v = Some b0 -> b <> b0 ->
  (c_get_partial_user_sync (m_conns (broker_at deser dec_users dec_topics valid n0 b))).2 = None ->
  moved_to v b n0 n -> untroubled b n0 n ->
  (exists h hh c ts, In (EUserAuthed h hh v c ts) (drop (length (trace n0 b)) (trace n b))) ->
  (forall x c, c_get_user_connection (m_conns (broker_at deser dec_users dec_topics valid n x)) v = Some c -> x = b) ->
  at_rest deser dec_users dec_topics valid n ->
  exists c, c_get_user_connection (m_conns (broker_at deser dec_users dec_topics valid n b)) v = Some c).
Proof.
  intros H.
  assert (E : exists c, c_get_user_connection (m_conns (nx_at (nx_run fd_run) nA)) [3]%N = Some c).
  { eapply (H _ _ _ _ _ _ mv_start fd_run [3]%N 1%N nB nA nx_faithful).
    - eexists. reflexivity.
    - apply plain_pass. unfold plain_b. vm_compute. repeat constructor.
    - apply fine_check. vm_compute. reflexivity.
    - apply rest_check. vm_compute. reflexivity.
    - apply record_check. vm_compute. reflexivity.
    - reflexivity.
    - vm_compute. reflexivity.
    - discriminate.
    - vm_compute. reflexivity.
    - apply moved_check. vm_compute. reflexivity.
    - apply untroubled_check. vm_compute. reflexivity.
    - exists 13%N, 14%N, 113%N, [9]%N. vm_compute. tauto.
    - intros x c Hc. exfalso. apply (users_check (fun _ v => bool_decide (v <> [3]%N))) in Hc; [|vm_compute; reflexivity]. by apply bool_decide_eq_true in Hc.
    - apply rest_check. vm_compute. reflexivity. }
  destruct E as [c E]. vm_compute in E. discriminate E.
Qed.
Print Assumptions C90_farewell_disconnects_refuted.

(** The user has lost its connection and the other brokers keep sending its messages to A. *)
Example C90_farewell_aftermath :
  c_get_user_connection (m_conns (nx_at (nx_run fd_run) nA)) [3]%N = None
  /\ c_get_broker_identifier_of_user (m_conns (nx_at (nx_run fd_run) nB)) [3]%N = Some nA
  /\ c_get_broker_identifier_of_user (m_conns (nx_at (nx_run fd_run) nC)) [3]%N = Some nA
  /\ c_get_broker_identifier_of_user (m_conns (nx_at (nx_run fd_run) nA)) [3]%N = None.
Proof. repeat split; vm_compute; reflexivity. Qed.
