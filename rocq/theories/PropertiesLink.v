(** Property theorems: links between brokers (C82).

    [linked_once a b]: [a] was linked to [b] at most once so far. [unbroken a b]: no connection to
    [b] failed at [a], neither receiving nor sending. [hooks_accept]: hooks refuse no message on a
    link (one that does makes the broker drop the link, broker/handler.rs 139-145). *)
From stdpp Require Import gmap fin_maps list countable.
From Coq Require Import NArith Lia.
From Verif Require Import IdModel RelMapModel VMapModel ConnModel ConnSpec ConnProofs3 TopicModel MsgModel RouteModel
  TaskModel TaskProofs TaskOrder TaskHandles TaskIsolation TaskGuarded TaskCheck TaskSync NetModel NetProofs NetOrigin NetComplete NetSynced NetConcurrent NetDelivery NetCheck
  NetSettle NetSettleDir NetSettleAll LinkSpec LinkProofs PropertiesNet PropertiesSettle.

(** * C82 *)
(** The link of a broker to [p] is dropped only if a new link to [p] replaces it, or if a removal is
    performed that was caused by: its own receive loop, a message to [p] that could not be sent, or
    the receive loop of another link to [p]. *)
Theorem C82_why_a_link_goes :
  forall deser dec_users dec_topics valid i es e h p c,
  let run := m_run deser dec_users dec_topics valid i in
  registered (m_conns (run es)) h (OBroker p c) ->
  ~ registered (m_conns (run (es ++ [e]))) h (OBroker p c) ->
  exists hh good t a l, e = ERun hh good /\ m_tasks (run es) !! hh = Some t /\ t_acts t = a :: l /\
    ((exists c' h', a = AAddBroker p c' h')
     \/ (a = ARemoveBroker p /\
          (hh = h
           \/ (exists cp es1 es2 o f l' op k, es = es1 ++ ERun hh false :: es2 /\ m_tasks (run es1) !! hh = Some (Task o (ASendBroker p cp f :: l') op k))
           \/ (hh <> h /\ (exists c', t_owner t = OBroker p c') /\ (In hh (aborted (m_conns (run es))) \/ unregistered (run es) hh))))).
Proof.
  intros deser dec_users dec_topics valid i es e h p c run Hr Hn.
  destruct (why_link_gone deser dec_users dec_topics valid i es e h p c Hr Hn) as (hh & good & t & a & l & He & Ht & Ha & Hc).
  exists hh, good, t, a, l. split; [done|]. split; [done|]. split; [done|]. destruct Hc as [Hc|(Hrm & [Hc|[Hc|Hc]])]; [by left| | |]; right; (split; [done|]); [by left| |by right; right].
  right. left. destruct Hc as (cp & es1 & es2 & o & f & l' & op & k & H1 & H2). by exists cp, es1, es2, o, f, l', op, k.
Qed.
Print Assumptions C82_why_a_link_goes.

(** Two brokers that are linked once, and whose link nothing breaks, stay linked: at every moment
    the receive loop of the link is running, and either its registration is the next thing its
    task will do, or it is registered. *)
Theorem C82_link_stays :
  forall deser dec_users dec_topics valid enc_users enc_topics es a p h hh c,
  faithful_sync deser dec_users dec_topics enc_users enc_topics -> hooks_pass es -> hooks_accept es ->
  let n := n_run deser dec_users dec_topics valid enc_users enc_topics es in
  linked_once a p n -> unbroken deser dec_users dec_topics valid a p n ->
  In (EBrokerAuthed h hh p c) (trace n a) ->
  let m := broker_at deser dec_users dec_topics valid n a in
  (exists acts k, m_tasks m !! h = Some (Task (OBroker p c) acts true k))
  /\ ((exists acts k, m_tasks m !! hh = Some (Task OOther (AAddBroker p c h :: acts) false k)) \/ c_get_broker_connection (m_conns m) p = Some c).
Proof.
  intros deser dec_users dec_topics valid enc_users enc_topics es a p h hh c Hc Hh Ha n Ho Hu Hin m.
  destruct (link_stays deser dec_users dec_topics valid enc_users enc_topics Hc es a p Hh Ha Ho Hu) as [_ Hl].
  destruct (Hl _ _ _ Hin) as [Hop [Hp|[tm Hr]]]; (split; [exact Hop|]); [left; eexists _, _; exact Hp|right].
  unfold c_get_broker_connection, m, n. by rewrite Hr.
Qed.
Print Assumptions C82_link_stays.

(** Hence, once neither of the two has anything left to do, each end has registered this link:
    [joined], which C64, C65, C69 and C71 assume. *)
Theorem C82_linked_once_joined :
  forall deser dec_users dec_topics valid enc_users enc_topics es a b ca hb,
  faithful_sync deser dec_users dec_topics enc_users enc_topics -> hooks_pass es -> hooks_accept es ->
  let n := n_run deser dec_users dec_topics valid enc_users enc_topics es in
  n_links n !! (a, ca) = Some (b, hb) ->
  linked_once a b n -> linked_once b a n -> unbroken deser dec_users dec_topics valid a b n -> unbroken deser dec_users dec_topics valid b a n ->
  (forall x h t, x = a \/ x = b -> m_tasks (broker_at deser dec_users dec_topics valid n x) !! h = Some t -> t_acts t = []) ->
  c_get_broker_connection (m_conns (broker_at deser dec_users dec_topics valid n a)) b = Some ca /\ joined deser dec_users dec_topics valid n a b.
Proof.
  intros deser dec_users dec_topics valid enc_users enc_topics es a b ca hb Hc Hh Ha n Hl O1 O2 U1 U2 Hr.
  apply (link_joined deser dec_users dec_topics valid enc_users enc_topics Hc es a b ca hb Hh Ha Hl O1 O2 U1 U2); intros h t; apply Hr; tauto.
Qed.
Print Assumptions C82_linked_once_joined.

(** And what they announce reaches the other: broker [a] forwards what is published on a topic to
    [b] if and only if some user at [b] is subscribed to it. *)
Theorem C82_linked_once_topics :
  forall deser dec_users dec_topics valid enc_users enc_topics es a b ca hb t,
  faithful_sync deser dec_users dec_topics enc_users enc_topics -> hooks_pass es -> hooks_accept es ->
  let n := n_run deser dec_users dec_topics valid enc_users enc_topics es in
  n_links n !! (a, ca) = Some (b, hb) ->
  linked_once a b n -> linked_once b a n -> unbroken deser dec_users dec_topics valid a b n -> unbroken deser dec_users dec_topics valid b a n ->
  fine deser dec_users dec_topics valid n -> at_rest deser dec_users dec_topics valid n ->
  (c_get_partial_topic_sync (m_conns (broker_at deser dec_users dec_topics valid n b))).2 = None ->
  In b (c_get_interested_by_topic (m_conns (broker_at deser dec_users dec_topics valid n a)) [t] false).1
  <-> exists v, subscribed_at deser dec_users dec_topics valid n b v t.
Proof.
  intros deser dec_users dec_topics valid enc_users enc_topics es a b ca hb t Hc Hh Ha n Hl O1 O2 U1 U2 Hf Hr Hd.
  destruct (C82_linked_once_joined deser dec_users dec_topics valid enc_users enc_topics es a b ca hb Hc Hh Ha Hl O1 O2 U1 U2) as [_ Hj].
  { intros x h t0 _. apply Hr. }
  by eapply C64_topics_settle.
Qed.
Print Assumptions C82_linked_once_topics.

(** The network of PropertiesNet.v meets the hypotheses. *)
Lemma plain_accepts es : plain_b es -> hooks_accept es.
Proof. intros Hp a c hk m Hin. unfold plain_b in Hp. rewrite Forall_forall in Hp. specialize (Hp _ Hin). cbn in Hp. by subst hk. Qed.
Lemma lx_once1 : linked_once nA nB (nx_run nx_setup).
Proof. apply linked_once_check. vm_compute. lia. Qed.
Lemma lx_once2 : linked_once nB nA (nx_run nx_setup).
Proof. apply linked_once_check. vm_compute. lia. Qed.
Lemma lx_whole1 : unbroken nx_deser nx_dec_users nx_dec_topics nx_valid nA nB (nx_run nx_setup).
Proof. apply unbroken_check. vm_compute. reflexivity. Qed.
Lemma lx_whole2 : unbroken nx_deser nx_dec_users nx_dec_topics nx_valid nB nA (nx_run nx_setup).
Proof. apply unbroken_check. vm_compute. reflexivity. Qed.
Lemma lx_plain : plain_b nx_setup.
Proof. unfold plain_b. vm_compute. repeat constructor. Qed.
Example C82_example :
  faithful_sync nx_deser nx_dec_users nx_dec_topics nx_enc_users nx_enc_topics /\ hooks_pass nx_setup /\ hooks_accept nx_setup
  /\ n_links (nx_run nx_setup) !! (nA, 105%N) = Some (nB, 5%N) /\ In (EBrokerAuthed 5 6 nB 105) (trace (nx_run nx_setup) nA)
  /\ linked_once nA nB (nx_run nx_setup) /\ linked_once nB nA (nx_run nx_setup)
  /\ unbroken nx_deser nx_dec_users nx_dec_topics nx_valid nA nB (nx_run nx_setup) /\ unbroken nx_deser nx_dec_users nx_dec_topics nx_valid nB nA (nx_run nx_setup)
  /\ fine nx_deser nx_dec_users nx_dec_topics nx_valid (nx_run nx_setup) /\ nx_rest (nx_run nx_setup)
  /\ (c_get_partial_topic_sync (m_conns (nx_at (nx_run nx_setup) nB))).2 = None
  /\ subscribed_at nx_deser nx_dec_users nx_dec_topics nx_valid (nx_run nx_setup) nB [3]%N 9.
Proof.
  split; [exact nx_faithful|]. split; [exact (plain_pass _ lx_plain)|]. split; [exact (plain_accepts _ lx_plain)|].
  split; [vm_compute; reflexivity|]. split; [vm_compute; tauto|].
  split; [exact lx_once1|]. split; [exact lx_once2|]. split; [exact lx_whole1|]. split; [exact lx_whole2|]. split; [exact nx_setup_fine|]. split; [exact nx_setup_rest|].
  split; [vm_compute; reflexivity|]. vm_compute. left. reflexivity.
Qed.

(** ** Brokers that are linked twice *)
(** No send fails, nobody is kicked, and a broker fails to receive from a link only after the other
    broker has itself stopped the receive loop of its end (which drops the connection). *)
Definition own_failures (es : list nevent) : Prop :=
  forall es1 b e es2, es = es1 ++ NStep b e :: es2 ->
    match e with
    | ERun _ good => good = true
    | ERecvErr h => exists a c cb ha, n_links (nx_run es1) !! (a, c) = Some (b, h) /\ n_links (nx_run es1) !! (b, cb) = Some (a, ha)
                      /\ In ha (aborted (m_conns (nx_at (nx_run es1) a)))
    | ECancel h => In h (aborted (m_conns (nx_at (nx_run es1) b)))
    | _ => True
    end.
(** A second dial is made while the first is under way (the heartbeat leaves out only brokers that
    are registered already, heartbeat.rs 69-73, and does not wait for its dials, 87-105). [nA]
    registers the first link, then the second; [nB] the second, then the first. *)
Definition lx_twice : list nevent :=
  [NUp nA 1 2 101 nB 1 2 101; NUp nA 3 4 103 nB 3 4 103]
  ++ goes nA 2 3 ++ goes nA 4 3 ++ goes nB 4 3 ++ goes nB 2 3
  ++ [NStep nA (ECancel 1); NStep nB (ECancel 3)].
Definition lx_crossed : list nevent :=
  lx_twice ++ [NStep nB (ERecvErr 1); NStep nA (ERecvErr 3)] ++ goes nB 1 1 ++ goes nA 3 1.

Fixpoint own_b (pre es : list nevent) : bool :=
  match es with
  | [] => true
  | e :: es' =>
      match e with
      | NStep b (ERun _ good) => good
      | NStep b (ECancel h) => bool_decide (h ∈ aborted (m_conns (nx_at (nx_run pre) b)))
      | NStep b (ERecvErr h) =>
          existsb (fun '(a, c, (b', h')) => bool_decide (b' = b) && bool_decide (h' = h)
            && existsb (fun '(b2, cb, (a2, ha)) => bool_decide (b2 = b) && bool_decide (a2 = a) && bool_decide (ha ∈ aborted (m_conns (nx_at (nx_run pre) a))))
                 (map_to_list (n_links (nx_run pre)))) (map_to_list (n_links (nx_run pre)))
      | _ => true
      end && own_b (pre ++ [e]) es'
  end.
Lemma own_check es : own_b [] es = true -> own_failures es.
Proof.
  intros H es1 b e es2 ->.
  assert (Hg : forall pre l, own_b pre (l ++ NStep b e :: es2) = true -> own_b (pre ++ l) (NStep b e :: es2) = true).
  { intros pre l. revert pre. induction l as [|x l IH]; intros pre Hb; [by rewrite app_nil_r|]. cbn [app own_b] in Hb. apply andb_prop in Hb as [_ Hb].
    specialize (IH _ Hb). by rewrite <- app_assoc in IH. }
  specialize (Hg [] es1 H). cbn [app own_b] in Hg. apply andb_prop in Hg as [Hg _].
  destruct e as [| | | | |h|h good|h]; try done.
  - apply existsb_exists in Hg as ([[a c] [b' h']] & Hin & Hg). apply andb_prop in Hg as [Hg Hg3]. apply andb_prop in Hg as [Hg1 Hg2].
    apply bool_decide_eq_true in Hg1, Hg2. subst b' h'. apply existsb_exists in Hg3 as ([[b2 cb] [a2 ha]] & Hin2 & Hg). apply andb_prop in Hg as [Hg Hg3]. apply andb_prop in Hg as [Hg1 Hg2].
    apply bool_decide_eq_true in Hg1, Hg2, Hg3. subst b2 a2. exists a, c, cb, ha. split; [by apply elem_of_map_to_list, elem_of_list_In|].
    split; [by apply elem_of_map_to_list, elem_of_list_In|]. by apply elem_of_list_In.
  - apply bool_decide_eq_true in Hg. by apply elem_of_list_In.
Qed.

(** Two brokers that are linked twice may lose both links, although the network broke neither: each
    keeps the link whose other end the other broker has stopped. *)
Theorem C82_crossed_dials_refuted :
  own_failures lx_crossed /\ plain_b lx_crossed
  /\ (* both dials succeeded, and each broker then has one link, but not the same one *)
     c_get_broker_connection (m_conns (nx_at (nx_run lx_twice) nA)) nB = Some 103%N
  /\ c_get_broker_connection (m_conns (nx_at (nx_run lx_twice) nB)) nA = Some 101%N
  /\ n_links (nx_run lx_twice) !! (nA, 103%N) = Some (nB, 3%N) /\ n_links (nx_run lx_twice) !! (nB, 101%N) = Some (nA, 1%N)
  /\ ~ nx_joined (nx_run lx_twice) nA nB
  /\ (* in the end nobody has a link, and nothing is going on *)
     c_get_broker_identifiers (m_conns (nx_at (nx_run lx_crossed) nA)) = [] /\ c_get_broker_identifiers (m_conns (nx_at (nx_run lx_crossed) nB)) = []
  /\ nx_rest (nx_run lx_crossed).
Proof.
  split; [apply own_check; vm_compute; reflexivity|]. split; [unfold plain_b; vm_compute; repeat constructor|].
  split; [vm_compute; reflexivity|]. split; [vm_compute; reflexivity|]. split; [vm_compute; reflexivity|]. split; [vm_compute; reflexivity|].
  split; [|split; [vm_compute; reflexivity|split; [vm_compute; reflexivity|apply rest_check; vm_compute; reflexivity]]].
  intros (ca & cb & ha & hb & ta & Hca & Hcb & Hl1 & Hl2 & Hta & Hoa).
  assert (H1 : c_get_broker_connection (m_conns (nx_at (nx_run lx_twice) nB)) nA = Some 101%N) by (vm_compute; reflexivity).
  assert (H2 : n_links (nx_run lx_twice) !! (nB, 101%N) = Some (nA, 1%N)) by (vm_compute; reflexivity).
  assert (H3 : c_get_broker_connection (m_conns (nx_at (nx_run lx_twice) nA)) nB = Some 103%N) by (vm_compute; reflexivity).
  assert (H4 : option_map t_owner (m_tasks (nx_at (nx_run lx_twice) nA) !! 1%N) = Some (OBroker nB 101)) by (vm_compute; reflexivity).
  revert Hca Hcb Hl2 Hta H1 H2 H3 H4. generalize (m_conns (nx_at (nx_run lx_twice) nB)) (m_conns (nx_at (nx_run lx_twice) nA)) (n_links (nx_run lx_twice)) (m_tasks (nx_at (nx_run lx_twice) nA)).
  intros sB sA ls ts Hca Hcb Hl2 Hta H1 H2 H3 H4. rewrite H1 in Hcb. injection Hcb as <-. rewrite H2 in Hl2. injection Hl2 as <-.
  rewrite H3 in Hca. injection Hca as <-. rewrite Hta in H4. cbn in H4. rewrite Hoa in H4. discriminate H4.
Qed.
Print Assumptions C82_crossed_dials_refuted.
(** Its last step is one of those C82_why_a_link_goes is about. *)
Example C82_why_example :
  let run := m_run nx_deser nx_dec_users nx_dec_topics nx_valid nA in
  exists es e, trace (nx_run lx_crossed) nA = es ++ [e] /\ registered (m_conns (run es)) 3 (OBroker nB 103) /\ ~ registered (m_conns (run (es ++ [e]))) 3 (OBroker nB 103).
Proof.
  cbn zeta. exists (removelast (trace (nx_run lx_crossed) nA)), (ERun 3 true). split; [vm_compute; reflexivity|].
  split; [eexists; vm_compute; reflexivity|]. intros [tm H].
  assert (H0 : brokers (m_conns (m_run nx_deser nx_dec_users nx_dec_topics nx_valid nA (removelast (trace (nx_run lx_crossed) nA) ++ [ERun 3 true]))) !! nB = None) by (vm_compute; reflexivity).
  congruence.
Qed.
