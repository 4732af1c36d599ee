(** Property theorems: users that leave their broker and come back to it, any number of times
    (NetModel.v). PropertiesSettle.v (C64) is about users admitted once in the whole network.

    Hypotheses as in PropertiesSettle.v, and: [admitted_at]: all admissions of the user were
    at the one broker. [not_overtaken]: that broker never drew up a list of users while an
    older list which says that the user has gone was still being sent. [stops_when_told]: at
    the other broker, receive loops that were told to stop did nothing more. Without either of
    the last two the claim is false ([C83_late_farewell_refuted], [C83_stale_loop_refuted]). *)
From stdpp Require Import gmap fin_maps list countable.
From Coq Require Import NArith Lia.
From Verif Require Import IdModel RelMapModel VMapModel ConnModel ConnSpec ConnProofs3 TopicModel MsgModel RouteModel
  TaskModel TaskProofs TaskOrder TaskHandles TaskGuarded TaskCheck TaskSync NetModel NetProofs NetOrigin NetComplete NetSynced NetConcurrent NetDelivery NetCheck
  NetSettle NetSettleDir NetSettleAll ReturnSpec ReturnProofs PropertiesNet PropertiesSettle.

(** * C83: a user that came back to its broker is known to the others *)
Theorem C83_returning_user_known :
  forall deser dec_users dec_topics valid enc_users enc_topics es a b v c,
  faithful_sync deser dec_users dec_topics enc_users enc_topics -> hooks_pass es ->
  let n := n_run deser dec_users dec_topics valid enc_users enc_topics es in
  fine deser dec_users dec_topics valid n -> at_rest deser dec_users dec_topics valid n -> joined deser dec_users dec_topics valid n a b ->
  admitted_at v b n -> not_overtaken deser dec_users dec_topics valid v b n -> stops_when_told deser dec_users dec_topics valid a b n ->
  (c_get_partial_user_sync (m_conns (broker_at deser dec_users dec_topics valid n b))).2 = None ->
  c_get_user_connection (m_conns (broker_at deser dec_users dec_topics valid n b)) v = Some c ->
  c_get_broker_identifier_of_user (m_conns (broker_at deser dec_users dec_topics valid n a)) v = Some b.
Proof. intros. eapply returning_known; eauto. Qed.
Print Assumptions C83_returning_user_known.

(** [settled] of C64, where the other brokers' users were admitted once or came back to the
    same broker. *)
Definition settled_back deser dec_users dec_topics valid (n : net) (a : bid) : Prop :=
  at_rest deser dec_users dec_topics valid n
  /\ forall b v c, b <> a -> c_get_user_connection (m_conns (broker_at deser dec_users dec_topics valid n b)) v = Some c ->
       joined deser dec_users dec_topics valid n a b /\ nothing_due deser dec_users dec_topics valid n b
       /\ (admitted_once n v
           \/ admitted_at v b n /\ not_overtaken deser dec_users dec_topics valid v b n /\ stops_when_told deser dec_users dec_topics valid a b n).

Theorem C83_settled_is_synchronised :
  forall deser dec_users dec_topics valid enc_users enc_topics es a,
  faithful_sync deser dec_users dec_topics enc_users enc_topics -> hooks_pass es ->
  let n := n_run deser dec_users dec_topics valid enc_users enc_topics es in
  fine deser dec_users dec_topics valid n ->
  (forall b, subscribes_connected deser dec_users dec_topics valid b (trace n b)) ->
  settled_back deser dec_users dec_topics valid n a -> synchronised deser dec_users dec_topics valid n a.
Proof.
  intros deser dec_users dec_topics valid enc_users enc_topics es a Hcodec Hh n Hf Hsc [Hr Hset].
  pose proof (inv_run deser dec_users dec_topics valid enc_users enc_topics es) as Hi. fold n in Hi.
  pose proof (paired_run deser dec_users dec_topics valid enc_users enc_topics es Hh Hf) as HP. fold n in HP.
  assert (Hcon : forall b v t, subscribed_at deser dec_users dec_topics valid n b v t -> exists c, c_get_user_connection (m_conns (broker_at deser dec_users dec_topics valid n b)) v = Some c).
  { intros b v t Hs. by eapply guarded_users_connected. }
  split; [|split].
  - intros b v c Hne Hc. destruct (Hset b v c Hne Hc) as (Hj & [Hd1 Hd2] & Hone). split; [|by eapply joined_open].
    destruct Hone as [Hone|(Hat & Hno & Hst)]; [by eapply directory_settles; eauto|by eapply returning_known; eauto].
  - intros b v t Hne Hs. destruct (Hcon b v t Hs) as [c Hc]. destruct (Hset b v c Hne Hc) as (Hj & [Hd1 Hd2] & _).
    eapply topics_settle; eauto.
  - intros b v t Hs. split; [|by eapply Hcon]. apply interested_users in Hs as (t' & [<-|[]] & Hs'); [|apply state_idx].
    eapply (known_run deser dec_users dec_topics valid b (trace n b)). exact Hs'.
Qed.
Print Assumptions C83_settled_is_synchronised.

(** A direct message published in such a network reaches its recipient, on the connection of
    its last admission, exactly once, and nobody else. *)
Theorem C83_returning_user_reached :
  forall deser dec_users dec_topics valid enc_users enc_topics es0 es1 a h u cu k0 raw r body,
  faithful_sync deser dec_users dec_topics enc_users enc_topics -> hooks_pass es0 ->
  let n := n_run deser dec_users dec_topics valid enc_users enc_topics es0 in
  let n' := n_run deser dec_users dec_topics valid enc_users enc_topics (es0 ++ NPublish a h raw no_hook :: es1) in
  fine deser dec_users dec_topics valid n ->
  (forall b, subscribes_connected deser dec_users dec_topics valid b (trace n b)) ->
  settled_back deser dec_users dec_topics valid n a ->
  deser raw = Some (MDirect r body) ->
  m_tasks (broker_at deser dec_users dec_topics valid n a) !! h = Some (Task (OUser u cu) [] true k0) ->
  Forall calm es1 -> at_rest deser dec_users dec_topics valid n' ->
  forall b v,
    (forall c, v = r -> c_get_user_connection (m_conns (broker_at deser dec_users dec_topics valid n b)) v = Some c ->
       exists x, copies deser dec_users dec_topics valid n n' b v = [x] /\ s_what x = Emit (inl v) c (FRelay raw))
    /\ (v <> r \/ c_get_user_connection (m_conns (broker_at deser dec_users dec_topics valid n b)) v = None ->
       copies deser dec_users dec_topics valid n n' b v = []).
Proof.
  intros deser dec_users dec_topics valid enc_users enc_topics es0 es1 a h u cu k0 raw r body Hc Hh n n' Hf Hsc Hset Hd Ht Hcalm Hr.
  eapply C26_direct_complete; try done; [by destruct Hset|]. by eapply C83_settled_is_synchronised.
Qed.
Print Assumptions C83_returning_user_reached.

(** * Boolean checks *)
Notation nx_overtaken := (not_overtaken nx_deser nx_dec_users nx_dec_topics nx_valid).
Notation nx_stops := (stops_when_told nx_deser nx_dec_users nx_dec_topics nx_valid).
Lemma admitted_at_check v b n : forallb (fun p => bool_decide (p.1 = b)) (admissions n v) = true -> admitted_at v b n.
Proof.
  intros Hf x h hh c ts Hin. apply elem_of_list_In, elem_of_list_lookup in Hin as [i Hi]. apply admission_in in Hi.
  rewrite forallb_forall in Hf. specialize (Hf _ Hi). by apply bool_decide_eq_true in Hf.
Qed.
Definition draws_up_b (a : act) : bool := match a with APartialUserSync | AFullUserSync _ => true | _ => false end.
Definition gone_b (v : ukey) (d : direct_map) : bool := match entries d !! v with Some (VVal _ None) => true | _ => false end.
Definition sends_gone_b (v : ukey) (y : act) : bool := match to_send y with Some (FUserSync d) => gone_b v d | _ => false end.
Definition overtaken_ev (v : ukey) (m : machine) (e : event) : bool :=
  match e with
  | ERun h _ =>
      match m_tasks m !! h with
      | Some (Task _ (y :: _) _ _) =>
          if draws_up_b y then forallb (fun p => negb (existsb (sends_gone_b v) (t_acts p.2))) (map_to_list (m_tasks m)) else true
      | _ => true
      end
  | _ => true
  end.
Definition stops_ev (b : bid) (m : machine) (e : event) : bool :=
  match e with
  | ERun h _ =>
      match m_tasks m !! h with
      | Some (Task (OBroker b' _) _ _ _) => if decide (b' = b) then bool_decide (h ∉ aborted (m_conns m)) else true
      | _ => true
      end
  | _ => true
  end.
Lemma overtaken_check v b n :
  all_ev nx_deser nx_dec_users nx_dec_topics nx_valid (overtaken_ev v) (m_init b) (trace n b) = true -> nx_overtaken v b n.
Proof.
  intros Ha es1 h good es2 o y l op k Htr m Ht Hd (h2 & t2 & y2 & d2 & Ht2 & Hy2 & Hs2 & [k2 Hg]). rewrite Htr in Ha. apply all_ev_split in Ha.
  cbn in Ha. unfold m, m_run in Ht, Ht2. rewrite Ht in Ha. replace (draws_up_b y) with true in Ha by (by destruct y).
  rewrite forallb_forall in Ha. specialize (Ha (h2, t2)). rewrite <- elem_of_list_In, elem_of_map_to_list in Ha. specialize (Ha Ht2). cbn in Ha.
  apply negb_true_iff in Ha. enough (existsb (sends_gone_b v) (t_acts t2) = true) by congruence.
  apply existsb_exists. exists y2. split; [done|]. unfold sends_gone_b, gone_b. by rewrite Hs2, Hg.
Qed.
Lemma stops_check a b n :
  all_ev nx_deser nx_dec_users nx_dec_topics nx_valid (stops_ev b) (m_init a) (trace n a) = true -> nx_stops a b n.
Proof.
  intros Ha es1 h good es2 t c Htr m Ht Ho Hin. rewrite Htr in Ha. apply all_ev_split in Ha.
  cbn in Ha. unfold m, m_run in Ht, Hin. rewrite Ht in Ha. destruct t as [o ac op k]. cbn in Ho. subst o.
  rewrite decide_True in Ha by done. apply bool_decide_eq_true in Ha. by apply Ha, elem_of_list_In.
Qed.

(** * Examples *)
(** The network of PropertiesNet.v; user 3 leaves B, which tells A; the user comes back to B,
    which tells A; then user 1 at A sends user 3 a direct message. *)
Definition rt_left : list nevent := nx_setup ++ NStep nB (ERecvErr 3) :: goes nB 3 1.
Definition passes (a b : bid) (h c : N) (k : nat) : list nevent := concat (repeat (NDeliver a c no_hook :: goes b h 3) k).
Definition rt_back : list nevent :=
  rt_left ++ NStep nB (ESync 20) :: goes nB 20 12 ++ passes nB nA 5 105 2
  ++ NUser nB 7 8 [3]%N 107 [9]%N :: goes nB 8 12 ++ passes nB nA 5 105 2.
Definition rt_msg : list nevent := goes nA 1 3 ++ [NDeliver nA 105 no_hook] ++ goes nB 5 3.
Lemma rt_back_joined : nx_joined (nx_run rt_back) nA nB.
Proof.
  exists 105%N, 105%N, 5%N, 5%N. eexists. split; [vm_compute; reflexivity|]. split; [vm_compute; reflexivity|].
  split; [vm_compute; reflexivity|]. split; [vm_compute; reflexivity|]. split; [vm_compute; reflexivity|reflexivity].
Qed.
Lemma rt_back_brokers b l : n_trace (nx_run rt_back) !! b = Some l -> b = nA \/ b = nB.
Proof.
  intros E. apply key_among in E.
  assert (Hl : (map_to_list (n_trace (nx_run rt_back))).*1 = [nA; nB] \/ (map_to_list (n_trace (nx_run rt_back))).*1 = [nB; nA]) by (vm_compute; tauto).
  destruct Hl as [Hl|Hl]; rewrite Hl in E; clear - E; set_solver.
Qed.
Lemma rt_back_users v p : users (m_conns (nx_at (nx_run rt_back) nB)) !! v = Some p -> v = [2]%N \/ v = [3]%N.
Proof.
  intros E. apply key_among in E.
  assert (Hl : (map_to_list (users (m_conns (nx_at (nx_run rt_back) nB)))).*1 = [[2]; [3]]%N \/ (map_to_list (users (m_conns (nx_at (nx_run rt_back) nB)))).*1 = [[3]; [2]]%N) by (vm_compute; tauto).
  destruct Hl as [Hl|Hl]; rewrite Hl in E; clear - E; set_solver.
Qed.
Lemma rt_back_settled : settled_back nx_deser nx_dec_users nx_dec_topics nx_valid (nx_run rt_back) nA.
Proof.
  split; [apply rest_check; vm_compute; reflexivity|]. intros b v c Hne Hc. destruct (user_somewhere _ _ _ _ Hc) as [(l & Hl) (p & Hp)]. clear Hc.
  destruct (rt_back_brokers _ _ Hl) as [Hb|Hb]; [exfalso; exact (Hne Hb)|]. clear Hl. subst b.
  split; [exact rt_back_joined|]. split; [split; vm_compute; reflexivity|].
  destruct (rt_back_users v p Hp) as [->| ->].
  - left. apply once_check. vm_compute. lia.
  - right. split; [apply admitted_at_check; vm_compute; reflexivity|].
    split; [apply overtaken_check; vm_compute; reflexivity|apply stops_check; vm_compute; reflexivity].
Qed.
Example C83_example :
  faithful_sync nx_deser nx_dec_users nx_dec_topics nx_enc_users nx_enc_topics /\ hooks_pass rt_back
  /\ fine nx_deser nx_dec_users nx_dec_topics nx_valid (nx_run rt_back)
  /\ (forall b, subscribes_connected nx_deser nx_dec_users nx_dec_topics nx_valid b (trace (nx_run rt_back) b))
  /\ nx_rest (nx_run rt_back) /\ nx_joined (nx_run rt_back) nA nB /\ nx_due (nx_run rt_back) nB
  /\ admitted_at [3]%N nB (nx_run rt_back) /\ nx_overtaken [3]%N nB (nx_run rt_back) /\ nx_stops nA nB (nx_run rt_back)
  /\ settled_back nx_deser nx_dec_users nx_dec_topics nx_valid (nx_run rt_back) nA
  /\ c_get_user_connection (m_conns (nx_at (nx_run rt_back) nB)) [3]%N = Some 107%N
  (* the user was admitted twice, and A was told in between that it had gone *)
  /\ length (admissions (nx_run rt_back) [3]%N) = 2
  /\ c_get_broker_identifier_of_user (m_conns (nx_at (nx_run (rt_left ++ NStep nB (ESync 20) :: goes nB 20 12 ++ passes nB nA 5 105 2)) nA)) [3]%N = None
  (* a message to it *)
  /\ m_tasks (nx_at (nx_run rt_back) nA) !! 1%N = Some (Task (OUser [1]%N 101) [] true 0)
  /\ Forall calm rt_msg /\ nx_rest (nx_run (rt_back ++ NPublish nA 1 [3;3;43]%N no_hook :: rt_msg)).
Proof.
  split; [exact nx_faithful|]. split; [apply plain_pass; unfold plain_b; vm_compute; repeat constructor|].
  split; [apply fine_check; vm_compute; reflexivity|]. split; [apply subs_check_all; vm_compute; reflexivity|].
  split; [apply rest_check; vm_compute; reflexivity|]. split; [exact rt_back_joined|]. split; [split; vm_compute; reflexivity|].
  split; [apply admitted_at_check; vm_compute; reflexivity|]. split; [apply overtaken_check; vm_compute; reflexivity|].
  split; [apply stops_check; vm_compute; reflexivity|]. split; [exact rt_back_settled|]. split; [vm_compute; reflexivity|].
  split; [vm_compute; reflexivity|]. split; [vm_compute; reflexivity|]. split; [vm_compute; reflexivity|].
  split; [unfold rt_msg; vm_compute; repeat constructor|apply rest_check; vm_compute; reflexivity].
Qed.

(** * C83: what goes wrong otherwise *)
(** User 3 leaves B; B's sync task draws up the list which says so, but before it sends it the
    user is back, and the connection handler draws up and sends a list which says that. *)
Definition rt_race : list nevent :=
  rt_left ++ NStep nB (ESync 20) :: goes nB 20 1
  ++ NUser nB 7 8 [3]%N 107 [9]%N :: goes nB 8 12 ++ goes nB 20 12 ++ passes nB nA 5 105 3.
(** All hypotheses but [not_overtaken] hold; nothing is under way and B has nothing to announce;
    and A does not know where the user is: a direct message to the user from A is lost. *)
Theorem C83_late_farewell_refuted :
  ~ (forall deser dec_users dec_topics valid enc_users enc_topics es a b v c,
  faithful_sync deser dec_users dec_topics enc_users enc_topics -> hooks_pass es ->
  let n := n_run deser dec_users dec_topics valid enc_users enc_topics es in
  fine deser dec_users dec_topics valid n -> at_rest deser dec_users dec_topics valid n -> joined deser dec_users dec_topics valid n a b ->
  admitted_at v b n -> stops_when_told deser dec_users dec_topics valid a b n ->
  (c_get_partial_user_sync (m_conns (broker_at deser dec_users dec_topics valid n b))).2 = None ->
  c_get_user_connection (m_conns (broker_at deser dec_users dec_topics valid n b)) v = Some c ->
  c_get_broker_identifier_of_user (m_conns (broker_at deser dec_users dec_topics valid n a)) v = Some b).
Proof.
  intros H.
  assert (E : c_get_broker_identifier_of_user (m_conns (nx_at (nx_run rt_race) nA)) [3]%N = Some nB).
  { eapply (H _ _ _ _ _ _ rt_race nA nB [3]%N 107%N nx_faithful).
    - apply plain_pass. unfold plain_b. vm_compute. repeat constructor.
    - apply fine_check. vm_compute. reflexivity.
    - apply rest_check. vm_compute. reflexivity.
    - exists 105%N, 105%N, 5%N, 5%N. eexists. split; [vm_compute; reflexivity|]. split; [vm_compute; reflexivity|].
      split; [vm_compute; reflexivity|]. split; [vm_compute; reflexivity|]. split; [vm_compute; reflexivity|reflexivity].
    - apply admitted_at_check. vm_compute. reflexivity.
    - apply stops_check. vm_compute. reflexivity.
    - vm_compute. reflexivity.
    - vm_compute. reflexivity. }
  vm_compute in E. discriminate E.
Qed.
Print Assumptions C83_late_farewell_refuted.

(** The message to the user from A: everything has come to rest and B sent the user nothing. *)
Theorem C83_late_farewell_loses_messages :
  exists es es1, let n := nx_run es in let n' := nx_run (es ++ NPublish nA 1 [3;3;43]%N no_hook :: es1) in
  fine nx_deser nx_dec_users nx_dec_topics nx_valid n /\ nx_rest n /\ nx_joined n nA nB /\ nx_due n nB
  /\ admitted_at [3]%N nB n /\ nx_stops nA nB n
  /\ c_get_user_connection (m_conns (nx_at n nB)) [3]%N = Some 107%N
  /\ m_tasks (nx_at n nA) !! 1%N = Some (Task (OUser [1]%N 101) [] true 0)
  /\ nx_deser [3;3;43]%N = Some (MDirect [3]%N [43]%N) /\ nx_rest n'
  /\ (exists r, In r (m_rcvd (nx_at n' nA)) /\ r_raw r = [3;3;43]%N)
  /\ copies nx_deser nx_dec_users nx_dec_topics nx_valid n n' nB [3]%N = [].
Proof.
  exists rt_race, rt_msg. cbv zeta. split; [apply fine_check; vm_compute; reflexivity|]. split; [apply rest_check; vm_compute; reflexivity|].
  split. { exists 105%N, 105%N, 5%N, 5%N. eexists. split; [vm_compute; reflexivity|]. split; [vm_compute; reflexivity|].
      split; [vm_compute; reflexivity|]. split; [vm_compute; reflexivity|]. split; [vm_compute; reflexivity|reflexivity]. }
  split; [split; vm_compute; reflexivity|]. split; [apply admitted_at_check; vm_compute; reflexivity|]. split; [apply stops_check; vm_compute; reflexivity|].
  split; [vm_compute; reflexivity|]. split; [vm_compute; reflexivity|]. split; [reflexivity|]. split; [apply rest_check; vm_compute; reflexivity|].
  split; [|vm_compute; reflexivity].
  exists (Rcvd 1 1 [3;3;43]%N no_hook). split; [|reflexivity]. vm_compute. tauto.
Qed.
Print Assumptions C83_late_farewell_loses_messages.

(** User 3 leaves B; A's receive loop has accepted the list which says so and not yet applied it
    when the brokers connect anew; the user comes back and A is told; then the old loop, told to
    stop meanwhile, applies what it had accepted. *)
Definition rt_stale : list nevent :=
  rt_left ++ NStep nB (ESync 20) :: goes nB 20 12 ++ [NDeliver nB 105 no_hook]
  ++ NUp nA 15 16 115 nB 15 16 115 :: goes nA 16 12 ++ goes nB 16 12
  ++ NUser nB 7 8 [3]%N 107 [9]%N :: goes nB 8 12
  ++ passes nB nA 15 115 4 ++ passes nA nB 15 115 4
  ++ goes nA 5 4 ++ [NStep nA (ECancel 5); NStep nB (ECancel 5)].
Theorem C83_stale_loop_refuted :
  ~ (forall deser dec_users dec_topics valid enc_users enc_topics es a b v c,
  faithful_sync deser dec_users dec_topics enc_users enc_topics -> hooks_pass es ->
  let n := n_run deser dec_users dec_topics valid enc_users enc_topics es in
  fine deser dec_users dec_topics valid n -> at_rest deser dec_users dec_topics valid n -> joined deser dec_users dec_topics valid n a b ->
  admitted_at v b n -> not_overtaken deser dec_users dec_topics valid v b n ->
  (c_get_partial_user_sync (m_conns (broker_at deser dec_users dec_topics valid n b))).2 = None ->
  c_get_user_connection (m_conns (broker_at deser dec_users dec_topics valid n b)) v = Some c ->
  c_get_broker_identifier_of_user (m_conns (broker_at deser dec_users dec_topics valid n a)) v = Some b).
Proof.
  intros H.
  assert (E : c_get_broker_identifier_of_user (m_conns (nx_at (nx_run rt_stale) nA)) [3]%N = Some nB).
  { eapply (H _ _ _ _ _ _ rt_stale nA nB [3]%N 107%N nx_faithful).
    - apply plain_pass. unfold plain_b. vm_compute. repeat constructor.
    - apply fine_check. vm_compute. reflexivity.
    - apply rest_check. vm_compute. reflexivity.
    - exists 115%N, 115%N, 15%N, 15%N. eexists. split; [vm_compute; reflexivity|]. split; [vm_compute; reflexivity|].
      split; [vm_compute; reflexivity|]. split; [vm_compute; reflexivity|]. split; [vm_compute; reflexivity|reflexivity].
    - apply admitted_at_check. vm_compute. reflexivity.
    - apply overtaken_check. vm_compute. reflexivity.
    - vm_compute. reflexivity.
    - vm_compute. reflexivity. }
  vm_compute in E. discriminate E.
Qed.
Print Assumptions C83_stale_loop_refuted.
