(** Property theorems: users that log in at brokers that know where they were (NetModel.v).
    PropertiesHome.v (C95) is about users that log in anywhere, PropertiesMove.v (C90) about users
    that move when everybody has heard where they are.

    Hypotheses as in PropertiesHome.v. [informed]: whenever a broker took the user on, no broker
    had anything newer about the user on record. Others may not have heard of the last logins yet.
    Without it the theorem is false ([C95_found_refuted]), and without [never_lost] too
    ([C96_found_refuted]). *)
From stdpp Require Import gmap fin_maps list countable.
From Coq Require Import NArith Lia.
From Verif Require Import IdModel RelMapModel VMapModel ConnModel ConnSpec ConnProofs3 TopicModel MsgModel RouteModel
  TaskModel TaskProofs TaskOrder TaskHandles TaskGuarded TaskCheck TaskSync NetModel NetProofs NetOrigin NetComplete NetSynced NetConcurrent NetDelivery NetCheck
  NetSettle NetSettleDir NetSettleAll ReturnSpec ReturnProofs MoveSpec MoveProofs HomeSpec HomeProofs InformSpec HomeProofs2
  PropertiesNet PropertiesSettle PropertiesReturn PropertiesMove PropertiesHome.

(** * C96: a user that logs in at brokers that know where it was is found where it is *)
Theorem C96_found_where_it_is :
  forall deser dec_users dec_topics valid enc_users enc_topics es v x y c,
  faithful_sync deser dec_users dec_topics enc_users enc_topics -> hooks_pass es ->
  let n := n_run deser dec_users dec_topics valid enc_users enc_topics es in
  fine deser dec_users dec_topics valid n ->
  never_lost deser dec_users dec_topics valid v n -> below_wrap deser dec_users dec_topics valid v n ->
  informed deser dec_users dec_topics valid enc_users enc_topics v es ->
  (* everything is said and done *)
  at_rest deser dec_users dec_topics valid n ->
  joined deser dec_users dec_topics valid n x y -> all_announced deser dec_users dec_topics valid n y ->
  c_get_user_connection (m_conns (broker_at deser dec_users dec_topics valid n y)) v = Some c ->
  (* brokers at which the user is as well are linked with [y] *)
  (forall z c', c_get_user_connection (m_conns (broker_at deser dec_users dec_topics valid n z)) v = Some c' -> z <> y ->
     joined deser dec_users dec_topics valid n y z /\ joined deser dec_users dec_topics valid n z y /\ all_announced deser dec_users dec_topics valid n z) ->
  c_get_broker_identifier_of_user (m_conns (broker_at deser dec_users dec_topics valid n x)) v = Some y
  /\ forall z c', c_get_user_connection (m_conns (broker_at deser dec_users dec_topics valid n z)) v = Some c' -> z = y.
Proof.
  intros deser dec_users dec_topics valid enc_users enc_topics es v x y c Hcodec Hh n Hf H1 H2 Hin Hr Hj Hy Hc Hz.
  assert (Hone : forall z c', c_get_user_connection (m_conns (broker_at deser dec_users dec_topics valid n z)) v = Some c' -> z = y).
  { intros z c' Hc'. destruct (decide (z = y)) as [|Hne]; [done|exfalso]. destruct (Hz z c' Hc' Hne) as (Hyz & Hzy & Hza).
    exact (one_home deser dec_users dec_topics valid enc_users enc_topics Hcodec v es z y Hh Hf H1 H2 Hr Hne Hzy Hyz Hza Hy c' c Hc' Hc). }
  split; [|exact Hone].
  exact (informed_found deser dec_users dec_topics valid enc_users enc_topics Hcodec v es x y Hh Hf H1 H2 Hin Hr Hj Hy c Hc Hone).
Qed.
Print Assumptions C96_found_where_it_is.

(** [settled] of C64, where each user of the other brokers was admitted once, or roamed as above. *)
Definition settled_roaming deser dec_users dec_topics valid enc_users enc_topics (es : list nevent) (a : bid) : Prop :=
  let n := n_run deser dec_users dec_topics valid enc_users enc_topics es in
  at_rest deser dec_users dec_topics valid n
  /\ forall b v c, b <> a -> c_get_user_connection (m_conns (broker_at deser dec_users dec_topics valid n b)) v = Some c ->
       joined deser dec_users dec_topics valid n a b /\ nothing_due deser dec_users dec_topics valid n b
       /\ (admitted_once n v
           \/ (never_lost deser dec_users dec_topics valid v n /\ below_wrap deser dec_users dec_topics valid v n
               /\ informed deser dec_users dec_topics valid enc_users enc_topics v es
               /\ forall z c', c_get_user_connection (m_conns (broker_at deser dec_users dec_topics valid n z)) v = Some c' -> z <> b ->
                    joined deser dec_users dec_topics valid n b z /\ joined deser dec_users dec_topics valid n z b /\ all_announced deser dec_users dec_topics valid n z)).

Theorem C96_settled_is_synchronised :
  forall deser dec_users dec_topics valid enc_users enc_topics es a,
  faithful_sync deser dec_users dec_topics enc_users enc_topics -> hooks_pass es ->
  let n := n_run deser dec_users dec_topics valid enc_users enc_topics es in
  fine deser dec_users dec_topics valid n ->
  (forall b, subscribes_connected deser dec_users dec_topics valid b (trace n b)) ->
  settled_roaming deser dec_users dec_topics valid enc_users enc_topics es a -> synchronised deser dec_users dec_topics valid n a.
Proof.
  intros deser dec_users dec_topics valid enc_users enc_topics es a Hcodec Hh n Hf Hsc [Hr Hset]. fold n in Hr, Hset.
  pose proof (inv_run deser dec_users dec_topics valid enc_users enc_topics es) as Hi. fold n in Hi.
  pose proof (paired_run deser dec_users dec_topics valid enc_users enc_topics es Hh Hf) as HP. fold n in HP.
  assert (Hcon : forall b v t, subscribed_at deser dec_users dec_topics valid n b v t -> exists c, c_get_user_connection (m_conns (broker_at deser dec_users dec_topics valid n b)) v = Some c).
  { intros b v t Hs. by eapply guarded_users_connected. }
  split; [|split].
  - intros b v c Hne Hc. destruct (Hset b v c Hne Hc) as (Hj & [Hd1 Hd2] & Hone). split; [|by eapply joined_open].
    destruct Hone as [Hone|(H1 & H2 & Hin & Hz)]; [by eapply directory_settles; eauto|].
    exact (proj1 (C96_found_where_it_is deser dec_users dec_topics valid enc_users enc_topics es v a b c Hcodec Hh Hf H1 H2 Hin Hr Hj Hd1 Hc Hz)).
  - intros b v t Hne Hs. destruct (Hcon b v t Hs) as [c Hc]. destruct (Hset b v c Hne Hc) as (Hj & [Hd1 Hd2] & _).
    eapply topics_settle; eauto.
  - intros b v t Hs. split; [|by eapply Hcon]. apply interested_users in Hs as (t' & [<-|[]] & Hs'); [|apply state_idx].
    eapply (known_run deser dec_users dec_topics valid b (trace n b)). exact Hs'.
Qed.
Print Assumptions C96_settled_is_synchronised.

(** A direct message published in such a network reaches its recipient exactly once, on its
    connection at the broker where it is now, and nobody else. *)
Theorem C96_roaming_user_reached :
  forall deser dec_users dec_topics valid enc_users enc_topics es0 es1 a h u cu k0 raw r body,
  faithful_sync deser dec_users dec_topics enc_users enc_topics -> hooks_pass es0 ->
  let n := n_run deser dec_users dec_topics valid enc_users enc_topics es0 in
  let n' := n_run deser dec_users dec_topics valid enc_users enc_topics (es0 ++ NPublish a h raw no_hook :: es1) in
  fine deser dec_users dec_topics valid n ->
  (forall b, subscribes_connected deser dec_users dec_topics valid b (trace n b)) ->
  settled_roaming deser dec_users dec_topics valid enc_users enc_topics es0 a ->
  deser raw = Some (MDirect r body) ->
  m_tasks (broker_at deser dec_users dec_topics valid n a) !! h = Some (Task (OUser u cu) [] true k0) ->
  Forall calm es1 -> at_rest deser dec_users dec_topics valid n' ->
  forall b v,
    (forall c, v = r -> c_get_user_connection (m_conns (broker_at deser dec_users dec_topics valid n b)) v = Some c ->
       exists x, copies deser dec_users dec_topics valid n n' b v = [x] /\ s_what x = Emit (inl v) c (FRelay raw))
    /\ (v <> r \/ c_get_user_connection (m_conns (broker_at deser dec_users dec_topics valid n b)) v = None ->
       copies deser dec_users dec_topics valid n n' b v = []).
Proof.
  intros deser dec_users dec_topics valid enc_users enc_topics es0 es1 a h u cu k0 raw r body Hc Hh n n' Hf Hsc Hset Hd Ht Hcalm Hr.
  eapply C26_direct_complete; try done; [by destruct Hset|]. by eapply C96_settled_is_synchronised.
Qed.
Print Assumptions C96_roaming_user_reached.

(** And a broadcast reaches every user with the topic, wherever it is now, exactly once, and
    nobody else. *)
Theorem C96_roaming_user_hears_broadcasts :
  forall deser dec_users dec_topics valid enc_users enc_topics es0 es1 a h u cu k0 raw ts body,
  faithful_sync deser dec_users dec_topics enc_users enc_topics -> hooks_pass es0 ->
  let n := n_run deser dec_users dec_topics valid enc_users enc_topics es0 in
  let n' := n_run deser dec_users dec_topics valid enc_users enc_topics (es0 ++ NPublish a h raw no_hook :: es1) in
  fine deser dec_users dec_topics valid n ->
  (forall b, subscribes_connected deser dec_users dec_topics valid b (trace n b)) ->
  settled_roaming deser dec_users dec_topics valid enc_users enc_topics es0 a ->
  deser raw = Some (MBroadcast ts body) -> (exists t, In t ts /\ valid t = true) ->
  m_tasks (broker_at deser dec_users dec_topics valid n a) !! h = Some (Task (OUser u cu) [] true k0) ->
  Forall calm es1 -> at_rest deser dec_users dec_topics valid n' ->
  forall b v,
    ((exists t, In t ts /\ subscribed_at deser dec_users dec_topics valid n b v t) ->
       exists x c, copies deser dec_users dec_topics valid n n' b v = [x]
         /\ c_get_user_connection (m_conns (broker_at deser dec_users dec_topics valid n b)) v = Some c
         /\ s_what x = Emit (inl v) c (FRelay raw))
    /\ (~ (exists t, In t ts /\ subscribed_at deser dec_users dec_topics valid n b v t) ->
       copies deser dec_users dec_topics valid n n' b v = []).
Proof.
  intros deser dec_users dec_topics valid enc_users enc_topics es0 es1 a h u cu k0 raw ts body Hc Hh n n' Hf Hsc Hset Hd Hv Ht Hcalm Hr.
  eapply C26_broadcast_complete; try done; [by destruct Hset|]. by eapply C96_settled_is_synchronised.
Qed.
Print Assumptions C96_roaming_user_hears_broadcasts.

(** * Boolean check *)
Notation nx_informed := (informed nx_deser nx_dec_users nx_dec_topics nx_valid nx_enc_users nx_enc_topics).
Notation nx_step := (n_step nx_deser nx_dec_users nx_dec_topics nx_valid nx_enc_users nx_enc_topics).
Notation nx_record := (record_at nx_deser nx_dec_users nx_dec_topics nx_valid).
Definition record_ver (o : option (vval bid)) : N := match o with Some e => ver e + 1 | None => 0 end.
(** What the brokers have on record: only brokers to which something happened have anything. *)
Definition step_b (v : ukey) (n n' : net) : bool :=
  forallb (fun '(b, _) => match nx_record v n' b with
     | Some e => negb (bool_decide (val e = Some b)) || bool_decide (nx_record v n b = Some e)
                 || forallb (fun '(z, _) => (record_ver (nx_record v n z) <=? record_ver (nx_record v n b))%N) (map_to_list (n_trace n))
     | None => true end) (map_to_list (n_trace n')).
Fixpoint informed_b (v : ukey) (n : net) (es : list nevent) : bool :=
  match es with [] => true | e :: es => let n' := nx_step n e in step_b v n n' && informed_b v n' es end.
Lemma touched v n b e : nx_record v n b = Some e -> exists l, n_trace n !! b = Some l.
Proof.
  intros H. destruct (n_trace n !! b) as [l|] eqn:E; [eauto|]. unfold record_at in H. rewrite (untouched _ _ _ _ _ _ E) in H.
  change ((∅ : gmap ukey (vval bid)) !! v = Some e) in H. by rewrite lookup_empty in H.
Qed.
Lemma step_sound v n n' : step_b v n n' = true -> forall b, takes_on nx_deser nx_dec_users nx_dec_topics nx_valid v b n n' ->
  forall z r, nx_record v n z = Some r -> exists r', nx_record v n b = Some r' /\ (ver r <= ver r')%N.
Proof.
  intros H b (e & He & Hv & Hne) z r Hz. destruct (touched _ _ _ _ He) as [l Hl]. destruct (touched _ _ _ _ Hz) as [lz Hlz].
  unfold step_b in H. rewrite forallb_forall in H. specialize (H (b, l)). cbn beta iota in H. rewrite He in H.
  assert (Hb : In (b, l) (map_to_list (n_trace n'))) by (by apply elem_of_list_In, elem_of_map_to_list).
  specialize (H Hb). apply orb_prop in H as [H|H].
  { apply orb_prop in H as [H|H]; [apply negb_true_iff, bool_decide_eq_false in H; done|apply bool_decide_eq_true in H; done]. }
  rewrite forallb_forall in H. specialize (H (z, lz)). cbn beta iota in H. rewrite Hz in H.
  assert (Hzi : In (z, lz) (map_to_list (n_trace n))) by (by apply elem_of_list_In, elem_of_map_to_list).
  specialize (H Hzi). apply N.leb_le in H. destruct (nx_record v n b) as [r'|]; cbn [record_ver] in H; [|lia]. exists r'. split; [done|lia].
Qed.
Lemma informed_sound v es : forall n, informed_b v n es = true -> forall p e, p ++ [e] `prefix_of` es ->
  step_b v (fold_left nx_step p n) (nx_step (fold_left nx_step p n) e) = true.
Proof.
  induction es as [|e0 es IH]; intros n H p e Hp.
  - apply prefix_nil_inv in Hp. by destruct p.
  - cbn [informed_b] in H. apply andb_prop in H as [H1 H2]. destruct p as [|e1 p]; cbn [app fold_left] in *.
    + by rewrite (prefix_cons_inv_1 _ _ _ _ Hp).
    + rewrite (prefix_cons_inv_1 _ _ _ _ Hp). apply (IH _ H2). by apply prefix_cons_inv_2 in Hp.
Qed.
Lemma informed_check v es : informed_b v (Net ∅ ∅) es = true -> nx_informed v es.
Proof.
  intros H p e Hp b Hto. rewrite (n_run_snoc nx_deser nx_dec_users nx_dec_topics nx_valid nx_enc_users nx_enc_topics) in Hto.
  apply (step_sound v _ _ (informed_sound v es _ H p e Hp) b Hto).
Qed.

(** * Examples *)
(** User 3 logs in at A, and everybody hears of it. Then it logs in at C, and B hears of it; then
    it logs in at B. Only then A hears of the two logins, and C of the last one. *)
Definition if_start : list nevent :=
  hm_start ++ NUser nA 11 12 [3]%N 111 [9]%N :: goes nA 12 24 ++ passes nA nB 5 105 3 ++ passes nA nC 7 107 3.
Definition if_moves : list nevent :=
  if_start ++ NUser nC 13 14 [3]%N 113 [9]%N :: goes nC 14 24 ++ passes nC nB 9 109 3
  ++ NUser nB 15 16 [3]%N 115 [9]%N :: goes nB 16 24.
Definition if_end : list nevent :=
  if_moves ++ passes nC nA 7 107 3 ++ passes nB nA 5 105 3 ++ passes nB nC 9 109 3 ++ NStep nA (ECancel 11) :: NStep nC (ECancel 13)
  :: NStep nA (ESync 30) :: goes nA 30 24 ++ NStep nC (ESync 31) :: goes nC 31 24 ++ passes nA nB 5 105 3 ++ passes nA nC 7 107 3 ++ passes nC nA 7 107 3 ++ passes nC nB 9 109 3.
Example C96_nonvacuous :
  faithful_sync nx_deser nx_dec_users nx_dec_topics nx_enc_users nx_enc_topics /\ hooks_pass if_end
  /\ fine nx_deser nx_dec_users nx_dec_topics nx_valid (nx_run if_end)
  /\ nx_lost [3]%N (nx_run if_end) /\ nx_below [3]%N (nx_run if_end) /\ nx_informed [3]%N if_end
  /\ nx_rest (nx_run if_end) /\ (forall x, nx_announced (nx_run if_end) x)
  /\ nx_joined (nx_run if_end) nA nB /\ nx_joined (nx_run if_end) nC nB
  (* when the user has logged in at B it is connected to all three of them *)
  /\ c_get_user_connection (m_conns (nx_at (nx_run if_moves) nA)) [3]%N = Some 111%N
  /\ c_get_user_connection (m_conns (nx_at (nx_run if_moves) nC)) [3]%N = Some 113%N
  /\ c_get_user_connection (m_conns (nx_at (nx_run if_moves) nB)) [3]%N = Some 115%N
  (* and in the end to B alone *)
  /\ c_get_user_connection (m_conns (nx_at (nx_run if_end) nB)) [3]%N = Some 115%N
  /\ (forall z c, c_get_user_connection (m_conns (nx_at (nx_run if_end) z)) [3]%N = Some c -> z = nB).
Proof.
  split; [exact nx_faithful|]. split; [apply plain_pass; unfold plain_b; vm_compute; repeat constructor|].
  split; [apply fine_check; vm_compute; reflexivity|].
  pose proof (never_check [3]%N (nx_run if_end) ltac:(vm_compute; reflexivity)) as [H1 H2]. split; [exact H1|]. split; [exact H2|].
  split; [apply informed_check; vm_compute; reflexivity|].
  split; [apply rest_check; vm_compute; reflexivity|]. split; [apply announced_check; vm_compute; reflexivity|].
  split; [apply joined_check; vm_compute; reflexivity|]. split; [apply joined_check; vm_compute; reflexivity|].
  do 4 (split; [vm_compute; reflexivity|]). intros z c Hc.
  apply (users_check (fun b v => bool_decide (b = nB))) in Hc; [|vm_compute; reflexivity]. by apply bool_decide_eq_true in Hc.
Qed.

(** The messages: users 1 and 2 stay at A and B; user 3 goes from B to C, and on to A, which has
    heard of it, before B has. Then user 2 sends. *)
Definition ro_all : list nevent :=
  mv_start ++ NUser nC 11 12 [3]%N 111 [9]%N :: goes nC 12 24 ++ passes nC nA 7 107 3 ++ NUser nA 13 14 [3]%N 113 [9]%N :: goes nA 14 24
  ++ passes nA nB 5 105 3 ++ passes nC nB 9 109 3 ++ passes nA nC 7 107 3 ++ NStep nB (ECancel 3) :: NStep nC (ECancel 11)
  :: NStep nB (ESync 30) :: goes nB 30 24 ++ NStep nC (ESync 31) :: goes nC 31 24
  ++ passes nB nA 5 105 3 ++ passes nB nC 9 109 3 ++ passes nC nA 7 107 3 ++ passes nC nB 9 109 3.
Lemma ro_users b v c : c_get_user_connection (m_conns (nx_at (nx_run ro_all) b)) v = Some c -> b = nB \/ b = nA /\ (v = [1]%N \/ v = [3]%N).
Proof.
  intros Hc. apply (users_check (fun b v => bool_decide (b = nB) || (bool_decide (b = nA) && (bool_decide (v = [1]%N) || bool_decide (v = [3]%N))))) in Hc; [|vm_compute; reflexivity].
  apply orb_prop in Hc as [Hc|Hc]; [left; by apply bool_decide_eq_true in Hc|right]. apply andb_prop in Hc as [Hb Hv]. apply bool_decide_eq_true in Hb. split; [done|].
  apply orb_prop in Hv as [Hv|Hv]; apply bool_decide_eq_true in Hv; auto.
Qed.
Lemma ro_three z c : c_get_user_connection (m_conns (nx_at (nx_run ro_all) z)) [3]%N = Some c -> z = nA.
Proof.
  intros Hc. apply (users_check (fun b v => negb (bool_decide (v = [3]%N)) || bool_decide (b = nA))) in Hc; [|vm_compute; reflexivity].
  apply orb_prop in Hc as [Hc|Hc]; [by rewrite bool_decide_eq_true_2 in Hc|by apply bool_decide_eq_true in Hc].
Qed.
Lemma ro_settled : settled_roaming nx_deser nx_dec_users nx_dec_topics nx_valid nx_enc_users nx_enc_topics ro_all nB.
Proof.
  split; [apply rest_check; vm_compute; reflexivity|]. intros b v c Hne Hc. destruct (ro_users b v c Hc) as [Hb|[Hb Hv]]; [exfalso; exact (Hne Hb)|]. clear Hc. subst b.
  split; [apply joined_check; vm_compute; reflexivity|]. split; [split; vm_compute; reflexivity|].
  destruct Hv as [->| ->]; [left; apply once_check; vm_compute; lia|right].
  pose proof (never_check [3]%N (nx_run ro_all) ltac:(vm_compute; reflexivity)) as [H1 H2]. split; [exact H1|]. split; [exact H2|].
  split; [apply informed_check; vm_compute; reflexivity|]. intros z c' Hc' Hz. exfalso. exact (Hz (ro_three z c' Hc')).
Qed.
Example C96_messages_nonvacuous :
  hooks_pass ro_all /\ fine nx_deser nx_dec_users nx_dec_topics nx_valid (nx_run ro_all)
  /\ (forall b, subscribes_connected nx_deser nx_dec_users nx_dec_topics nx_valid b (trace (nx_run ro_all) b))
  /\ settled_roaming nx_deser nx_dec_users nx_dec_topics nx_valid nx_enc_users nx_enc_topics ro_all nB
  /\ c_get_user_connection (m_conns (nx_at (nx_run ro_all) nA)) [3]%N = Some 113%N /\ length (admissions (nx_run ro_all) [3]%N) = 3
  /\ nx_deser [3;3;43]%N = Some (MDirect [3]%N [43]%N) /\ nx_deser [4;9;9;42]%N = Some (MBroadcast [9;9]%N [42]%N) /\ nx_valid 9 = true
  /\ subscribed_at nx_deser nx_dec_users nx_dec_topics nx_valid (nx_run ro_all) nA [3]%N 9
  /\ m_tasks (nx_at (nx_run ro_all) nB) !! 1%N = Some (Task (OUser [2]%N 101) [] true 0)
  /\ Forall calm mv_msg /\ nx_rest (nx_run (ro_all ++ NPublish nB 1 [3;3;43]%N no_hook :: mv_msg))
  /\ nx_rest (nx_run (ro_all ++ NPublish nB 1 [4;9;9;42]%N no_hook :: mv_msg)).
Proof.
  split; [apply plain_pass; unfold plain_b; vm_compute; repeat constructor|].
  split; [apply fine_check; vm_compute; reflexivity|]. split; [apply subs_check_all; vm_compute; reflexivity|].
  split; [exact ro_settled|]. split; [vm_compute; reflexivity|]. split; [vm_compute; reflexivity|].
  split; [reflexivity|]. split; [reflexivity|]. split; [reflexivity|]. split; [vm_compute; tauto|].
  split; [vm_compute; reflexivity|].
  split; [unfold mv_msg; vm_compute; repeat constructor|]. split; apply rest_check; vm_compute; reflexivity.
Qed.

(** * C96: what goes wrong otherwise *)
(** User 3 comes to C from B, where everybody knew it was; its connection with B breaks before B
    has heard of it. A hears C's claim first and then B's note, with the same version number. *)
Definition if_breaks : list nevent :=
  mv_start ++ NUser nC 11 12 [3]%N 111 [9]%N :: goes nC 12 24 ++ fw_left ++ NStep nB (ESync 30) :: goes nB 30 24
  ++ passes nC nA 7 107 3 ++ passes nB nA 5 105 3 ++ passes nC nB 9 109 3 ++ passes nB nC 9 109 3.
(** All hypotheses but [never_lost] hold: everything is said and done, the user is at C alone, and
    A does not know it. *)
Theorem C96_found_refuted :
  ~ (forall deser dec_users dec_topics valid enc_users enc_topics es v x y c,
  faithful_sync deser dec_users dec_topics enc_users enc_topics -> hooks_pass es ->
  let n := n_run deser dec_users dec_topics valid enc_users enc_topics es in
  fine deser dec_users dec_topics valid n ->
  informed deser dec_users dec_topics valid enc_users enc_topics v es ->
  at_rest deser dec_users dec_topics valid n ->
  joined deser dec_users dec_topics valid n x y -> (forall z, all_announced deser dec_users dec_topics valid n z) ->
  c_get_user_connection (m_conns (broker_at deser dec_users dec_topics valid n y)) v = Some c ->
  (forall z c', c_get_user_connection (m_conns (broker_at deser dec_users dec_topics valid n z)) v = Some c' -> z = y) ->
  c_get_broker_identifier_of_user (m_conns (broker_at deser dec_users dec_topics valid n x)) v = Some y).
Proof.
  intros H.
  assert (E : c_get_broker_identifier_of_user (m_conns (nx_at (nx_run if_breaks) nA)) [3]%N = Some nC).
  { eapply (H _ _ _ _ _ _ if_breaks [3]%N nA nC 111%N nx_faithful).
    - apply plain_pass. unfold plain_b. vm_compute. repeat constructor.
    - apply fine_check. vm_compute. reflexivity.
    - apply informed_check. vm_compute. reflexivity.
    - apply rest_check. vm_compute. reflexivity.
    - apply joined_check. vm_compute. reflexivity.
    - apply announced_check. vm_compute. reflexivity.
    - vm_compute. reflexivity.
    - intros z c' Hc. apply (users_check (fun b v => negb (bool_decide (v = [3]%N)) || bool_decide (b = nC))) in Hc; [|vm_compute; reflexivity].
      apply orb_prop in Hc as [Hc|Hc]; [by rewrite bool_decide_eq_true_2 in Hc|by apply bool_decide_eq_true in Hc]. }
  vm_compute in E. discriminate E.
Qed.
Print Assumptions C96_found_refuted.
