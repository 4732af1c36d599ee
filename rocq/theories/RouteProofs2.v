(** Routing of one frame from a reachable state: who receives it, and what is left alone. *)
From stdpp Require Import gmap fin_maps fin_sets list.
From Coq Require Import NArith ZArith Lia.
From Verif Require Import IdModel RelMapModel RelMapProofs VMapModel VMapSpec VMapProofs ConnModel ConnSpec
  ConnProofs ConnProofs2 ConnProofs3 ConnProofs4 TopicModel TopicProofs MsgModel RouteModel RouteProofs RouteSpec.

(** ** What peers have advertised *)
Lemma current_none_word os b t : current_broker_rev os b = None -> peer_word_rev os b t = None.
Proof.
  induction os as [|o os IH]; [done|].
  destruct o as [u' c ts h|u'|b' c h|b'|u' ts|u' ts|m|b' m| |]; cbn [current_broker_rev peer_word_rev]; auto.
  - case_decide; [done|auto].
  - case_decide; [done|auto].
  - intros Hc. case_decide as Hd; [|auto]. destruct Hd as [_ Hd]. done.
Qed.

Lemma run_peer_word i os b t :
  match brokers (c_run i os) !! b with
  | Some be => entries (be_topics be) !! t = peer_word os b t /\ cid (be_topics be) = 0%N
  | None => peer_word os b t = None
  end.
Proof.
  unfold peer_word. induction os as [|o os IH] using rev_ind; [cbn; by rewrite lookup_empty|].
  pose proof (run_current_broker i os b) as Hcur. unfold current_broker in Hcur.
  rewrite c_run_snoc, rev_app_distr. cbn [rev app].
  destruct o as [u' c ts h|u'|b' c h|b'|u' ts|u' ts|m|b' m| |]; cbn [c_step peer_word_rev].
  - by rewrite au_brokers.
  - by rewrite ru_brokers.
  - rewrite ab_brokers. destruct (decide (b' = b)) as [->|Hne]; [rewrite lookup_insert; cbn; by rewrite lookup_empty|by rewrite lookup_insert_ne].
  - rewrite rb_brokers. destruct (decide (b' = b)) as [->|Hne]; [by rewrite lookup_delete|by rewrite lookup_delete_ne].
  - done.
  - done.
  - rewrite apply_user_sync_eq. destruct (rus_frame (set_direct (vm_merge bid_gtb (direct (c_run i os)) m).1 (c_run i os)) (map fst (vm_merge bid_gtb (direct (c_run i os)) m).2)) as (_ & -> & _). done.
  - destruct (brokers (c_run i os) !! b') as [be|] eqn:E.
    + rewrite (apply_topic_eq _ _ _ _ E).
      match goal with |- context [fold_left (c_apply_topic_change b') ?l ?s1] => pose proof (topic_changes_frame b' l s1) as (_ & _ & -> & _) end.
      cbn. destruct (decide (b' = b)) as [->|Hne].
      * rewrite lookup_insert. cbn. rewrite E in IH. destruct IH as [IH1 IH2]. rewrite E in Hcur. cbn in Hcur.
        rewrite decide_True by (split; [done|congruence]). rewrite merge_lookup, merge_cid, IH1, IH2. done.
      * rewrite lookup_insert_ne by done. rewrite decide_False by naive_solver. done.
    + unfold c_apply_topic_sync. rewrite E, rb_brokers. destruct (decide (b' = b)) as [->|Hne].
      * rewrite lookup_delete. rewrite E in Hcur. cbn in Hcur. rewrite decide_False by (intros [_ H]; congruence). by rewrite E in IH.
      * rewrite lookup_delete_ne by done. rewrite decide_False by naive_solver. done.
  - rewrite partial_user_direct. done.
  - destruct (partial_topic_frame (c_run i os)) as (_ & _ & -> & _). done.
Qed.

Lemma view_advertised i os b t : view (c_run i os) b t = Some Subscribed <-> advertised os b t.
Proof.
  unfold view, advertised. pose proof (run_peer_word i os b t) as Hw.
  destruct (brokers (c_run i os) !! b) as [be|].
  - destruct Hw as [Hw _]. unfold vm_get. rewrite Hw. destruct (peer_word os b t) as [[v x]|]; cbn.
    + split; [intros ->; eauto|]. by intros [v' [= <- ->]].
    + split; [done|]. by intros [? ?].
  - rewrite Hw. split; [done|]. by intros [? ?].
Qed.

(** ** Frames of removals and subscriptions *)
Lemma ops_frame_user i os ops u :
  Forall (fun o => match o with CRemoveUser x | CSubscribeUser x _ | CUnsubscribeUser x _ => x <> u | CRemoveBroker _ => True | _ => False end) ops ->
  let s := c_run i os in let s' := fold_left c_step ops s in
  c_get_user_connection s' u = c_get_user_connection s u
  /\ c_get_broker_identifier_of_user s' u = c_get_broker_identifier_of_user s u
  /\ forall ts only, In u (c_get_interested_by_topic s' ts only).2 <-> In u (c_get_interested_by_topic s ts only).2.
Proof.
  intros Hf s s'; subst s s'. revert os; induction ops as [|o ops IH]; intros os; [done|].
  apply Forall_cons in Hf as [Ho Hf]. cbn [fold_left]. specialize (IH Hf (os ++ [o])). rewrite c_run_snoc in IH.
  destruct IH as (H1 & H2 & H3).
  assert (Hone : c_get_user_connection (c_step (c_run i os) o) u = c_get_user_connection (c_run i os) u
    /\ c_get_broker_identifier_of_user (c_step (c_run i os) o) u = c_get_broker_identifier_of_user (c_run i os) u
    /\ forall ts only, In u (c_get_interested_by_topic (c_step (c_run i os) o) ts only).2 <-> In u (c_get_interested_by_topic (c_run i os) ts only).2).
  { destruct o as [|x| |b|x ts'|x ts'| | | |]; try done; cbn [c_step].
    - destruct (remove_user_frame i os x) as (_ & _ & _ & Hx & _). by apply Hx.
    - destruct (remove_broker_frame i os b) as (_ & _ & _ & Hx & Hy). destruct (Hx u). auto.
    - split; [done|]. split; [done|]. intros ts only. change (c_subscribe_user_to (c_run i os) x ts') with (c_step (c_run i os) (CSubscribeUser x ts')).
      rewrite <- c_run_snoc, !interested_users_history. unfold user_topic. rewrite rev_app_distr. cbn. split; intros (t & Ht & Hx); exists t; naive_solver.
    - split; [done|]. split; [done|]. intros ts only. change (c_unsubscribe_user_from (c_run i os) x ts') with (c_step (c_run i os) (CUnsubscribeUser x ts')).
      rewrite <- c_run_snoc, !interested_users_history. unfold user_topic. rewrite rev_app_distr. cbn. split; intros (t & Ht & Hx); exists t; naive_solver. }
  destruct Hone as (K1 & K2 & K3). split; [congruence|]. split; [congruence|]. intros ts only. by rewrite H3, K3.
Qed.

Lemma ops_frame_broker i os ops b :
  Forall (fun o => match o with CRemoveBroker x => x <> b | CRemoveUser _ | CSubscribeUser _ _ | CUnsubscribeUser _ _ => True | _ => False end) ops ->
  let s := c_run i os in let s' := fold_left c_step ops s in
  c_get_broker_connection s' b = c_get_broker_connection s b
  /\ forall ts only, In b (c_get_interested_by_topic s' ts only).1 <-> In b (c_get_interested_by_topic s ts only).1.
Proof.
  intros Hf s s'; subst s s'. revert os; induction ops as [|o ops IH]; intros os; [done|].
  apply Forall_cons in Hf as [Ho Hf]. cbn [fold_left]. specialize (IH Hf (os ++ [o])). rewrite c_run_snoc in IH.
  destruct IH as (H1 & H2).
  assert (Hone : c_get_broker_connection (c_step (c_run i os) o) b = c_get_broker_connection (c_run i os) b
    /\ forall ts only, In b (c_get_interested_by_topic (c_step (c_run i os) o) ts only).1 <-> In b (c_get_interested_by_topic (c_run i os) ts only).1).
  { destruct o as [|x| |b'|x ts'|x ts'| | | |]; try done; cbn [c_step].
    - destruct (remove_user_frame i os x) as (_ & _ & _ & _ & Hx & Hy). auto.
    - destruct (remove_broker_frame i os b') as (_ & _ & Hx & _). by apply Hx. }
  destruct Hone as (K1 & K2). split; [congruence|]. intros ts only. by rewrite H2, K2.
Qed.

Section frames.
Variable deser : bytes -> option message.
Variable dec_users : bytes -> option direct_map.
Variable dec_topics : bytes -> option topic_map.
Variable valid : N -> bool.
Variable ok : N -> bool.
Notation user_frame := (user_frame deser valid).
Notation broker_frame := (broker_frame deser dec_users dec_topics).

(** ** Broadcasts *)
Lemma user_frame_broadcast u raw hk ts body msg :
  deser raw = Some msg -> hk msg = HProcess (MBroadcast ts body) -> (exists t, In t ts /\ valid t = true) ->
  user_frame u raw hk = ([ABroadcast (prune valid ts).1 raw false], true).
Proof.
  intros Hd Hh Hv. unfold RouteModel.user_frame. rewrite Hd, Hh.
  apply prune_ok in Hv. destruct (prune valid ts) as [ts' good]. cbn in Hv. by subst good.
Qed.

Lemma broadcast_from_user i os u raw hk ts body msg :
  deser raw = Some msg -> hk msg = HProcess (MBroadcast ts body) -> (exists t, In t ts /\ valid t = true) ->
  let out := (exec ok depth (c_run i os) (user_frame u raw hk).1).2 in
  (forall e, In e out <->
     (exists b c, (exists t, In t ts /\ valid t = true /\ advertised os b t)
        /\ c_get_broker_connection (c_run i os) b = Some c /\ ok c = true /\ e = Emit (inr b) c (FRelay raw))
     \/ (exists v c, (exists t, In t ts /\ valid t = true /\ user_topic i os v t)
        /\ c_get_user_connection (c_run i os) v = Some c /\ ok c = true /\ e = Emit (inl v) c (FRelay raw)))
  /\ NoDup (map e_to out).
Proof.
  intros Hd Hh Hv out. subst out. rewrite (user_frame_broadcast u raw hk ts body msg Hd Hh Hv). cbn [fst].
  split; [|apply broadcast_once]. intros e. rewrite broadcast_emissions.
  setoid_rewrite interested_brokers_view. setoid_rewrite interested_users_history. setoid_rewrite prune_in. setoid_rewrite view_advertised.
  split.
  - intros [(b & c & (_ & t & [H1 H2] & H3) & Hr)|(v & c & (t & [H1 H2] & H3) & Hr)]; [left; exists b, c|right; exists v, c]; split; eauto.
  - intros [(b & c & (t & H1 & H2 & H3) & Hr)|(v & c & (t & H1 & H2 & H3) & Hr)]; [left; exists b, c|right; exists v, c]; split; eauto.
Qed.

Lemma broadcast_from_broker i os b raw hk ts body msg :
  deser raw = Some msg -> hk msg = HProcess (MBroadcast ts body) ->
  let out := (exec ok depth (c_run i os) (broker_frame b raw hk).1).2 in
  (forall e, In e out <->
     exists v c, (exists t, In t ts /\ user_topic i os v t)
        /\ c_get_user_connection (c_run i os) v = Some c /\ ok c = true /\ e = Emit (inl v) c (FRelay raw))
  /\ NoDup (map e_to out).
Proof.
  intros Hd Hh out. subst out. unfold RouteModel.broker_frame. rewrite Hd, Hh. cbn [fst].
  split; [|apply broadcast_once]. intros e. rewrite broadcast_emissions.
  setoid_rewrite interested_brokers_view. setoid_rewrite interested_users_history.
  split.
  - intros [(b0 & c & (? & _) & _)|?]; done.
  - intros ?. by right.
Qed.

(** A broadcast without any valid topic costs the sender its connection and reaches nobody. *)
Lemma broadcast_invalid i os u raw hk ts body msg :
  deser raw = Some msg -> hk msg = HProcess (MBroadcast ts body) -> (forall t, In t ts -> valid t = false) ->
  exec ok depth (c_run i os) (user_frame u raw hk).1 = (c_remove_user (c_run i os) u, []).
Proof.
  intros Hd Hh Hv. unfold RouteModel.user_frame. rewrite Hd, Hh.
  destruct (prune valid ts) as [ts' good] eqn:E. destruct good; [|done]. exfalso.
  assert (Hp : (prune valid ts).2 = true) by by rewrite E. apply prune_ok in Hp as (t & Ht & Hvt). rewrite Hv in Hvt by done. done.
Qed.

(** ** Direct messages *)
Lemma direct_out i os u raw only e :
  In e (exec ok depth (c_run i os) [ADirect u raw only]).2 <->
  (exists c, c_get_user_connection (c_run i os) u = Some c /\ ok c = true /\ e = Emit (inl u) c (FRelay raw))
  \/ (only = false /\ c_get_user_connection (c_run i os) u = None
      /\ exists b c, c_get_broker_identifier_of_user (c_run i os) u = Some b
           /\ c_get_broker_connection (c_run i os) b = Some c /\ ok c = true /\ e = Emit (inr b) c (FRelay raw)).
Proof.
  rewrite (exec_direct ok 5) by lia. rewrite run_identity.
  pose proof (directory_iff_connected i os u) as Hdir.
  destruct (c_get_broker_identifier_of_user (c_run i os) u) as [b|] eqn:Eb.
  - case_decide as Hb.
    + subst b. cbn [snd]. unfold emit_user. destruct (proj1 Hdir eq_refl) as [c Hc]. rewrite Hc. destruct (ok c) eqn:Hok; cbn.
      * split; [intros [<-|[]]; left; eauto|]. intros [(c' & [= <-] & _ & ->)|(_ & ? & _)]; [by left|done].
      * split; [done|]. intros [(c' & [= <-] & Hok' & ->)|(_ & ? & _)]; [congruence|done].
    + assert (Hn : c_get_user_connection (c_run i os) u = None).
      { destruct (c_get_user_connection (c_run i os) u) as [c|] eqn:Ec; [|done]. exfalso. apply Hb.
        assert (Some b = Some i) by (apply Hdir; eauto). congruence. }
      rewrite Hn. destruct only; cbn [snd].
      * split; [done|]. by intros [(? & ? & _)|(? & _)].
      * unfold emit_broker. destruct (c_get_broker_connection (c_run i os) b) as [c|] eqn:Ec.
        -- destruct (ok c) eqn:Hok; cbn.
           ++ split; [intros [<-|[]]; right; split; [done|]; split; [done|]; eauto 10|].
              intros [(? & ? & _)|(_ & _ & b' & c' & [= <-] & Hc' & _ & ->)]; [done|]. rewrite Ec in Hc'. injection Hc' as ->. by left.
           ++ split; [done|]. intros [(? & ? & _)|(_ & _ & b' & c' & [= <-] & Hc' & Hok' & ->)]; [done|]. rewrite Ec in Hc'. injection Hc' as ->. congruence.
        -- cbn. split; [done|]. intros [(? & ? & _)|(_ & _ & b' & c' & [= <-] & Hc' & _)]; [done|]. congruence.
  - cbn [snd]. split; [done|]. intros [(c & Hc & _)|(_ & _ & b & c & ? & _)]; [|done].
    assert (None = Some i) by (apply Hdir; eauto). done.
Qed.

Lemma direct_len i os u raw only : length (exec ok depth (c_run i os) [ADirect u raw only]).2 <= 1.
Proof.
  rewrite (exec_direct ok 5) by lia. destruct (c_get_broker_identifier_of_user (c_run i os) u) as [b|]; [|cbn; lia].
  case_decide; [|destruct only]; cbn; try lia.
  - unfold emit_user. destruct (c_get_user_connection _ u); [destruct (ok _)|]; cbn; lia.
  - unfold emit_broker. destruct (c_get_broker_connection _ b); [destruct (ok _)|]; cbn; lia.
Qed.

Lemma user_frame_direct u raw hk r body msg :
  deser raw = Some msg -> hk msg = HProcess (MDirect r body) -> user_frame u raw hk = ([ADirect r raw false], true).
Proof. intros Hd Hh. unfold RouteModel.user_frame. by rewrite Hd, Hh. Qed.
Lemma broker_frame_direct b raw hk r body msg :
  deser raw = Some msg -> hk msg = HProcess (MDirect r body) -> broker_frame b raw hk = ([ADirect r raw true], true).
Proof. intros Hd Hh. unfold RouteModel.broker_frame. by rewrite Hd, Hh. Qed.

Lemma direct_from_user i os u raw hk r body msg e :
  deser raw = Some msg -> hk msg = HProcess (MDirect r body) ->
  let s := c_run i os in
  (In e (exec ok depth s (user_frame u raw hk).1).2 <->
  (exists c, c_get_user_connection s r = Some c /\ ok c = true /\ e = Emit (inl r) c (FRelay raw))
  \/ (c_get_user_connection s r = None
      /\ exists b c, c_get_broker_identifier_of_user s r = Some b
           /\ c_get_broker_connection s b = Some c /\ ok c = true /\ e = Emit (inr b) c (FRelay raw)))
  /\ length (exec ok depth s (user_frame u raw hk).1).2 <= 1.
Proof.
  intros Hd Hh s. subst s. rewrite (user_frame_direct u raw hk r body msg Hd Hh). cbn [fst]. split; [|apply direct_len].
  rewrite direct_out. naive_solver.
Qed.

Lemma direct_from_broker i os b raw hk r body msg e :
  deser raw = Some msg -> hk msg = HProcess (MDirect r body) ->
  let s := c_run i os in
  (In e (exec ok depth s (broker_frame b raw hk).1).2 <->
  (exists c, c_get_user_connection s r = Some c /\ ok c = true /\ e = Emit (inl r) c (FRelay raw)))
  /\ length (exec ok depth s (broker_frame b raw hk).1).2 <= 1.
Proof.
  intros Hd Hh s. subst s. rewrite (broker_frame_direct b raw hk r body msg Hd Hh). cbn [fst]. split; [|apply direct_len].
  rewrite direct_out. naive_solver.
Qed.

(** ** Any frame at all *)

(** The calls a user's frame can cause. *)
Definition calls (s : conns) (u : ukey) (o : conn_op) : Prop :=
  match o with
  | CRemoveUser x => x = u \/ dead_user ok s x = true
  | CSubscribeUser x _ | CUnsubscribeUser x _ => x = u
  | CRemoveBroker b => dead_broker ok s b = true
  | _ => False
  end.

Lemma fold_remove_users us s : fold_left c_step (map CRemoveUser us) s = remove_users s us.
Proof. revert s; induction us as [|u us IH]; intros s; [done|]. cbn [map fold_left c_step]. rewrite IH. by rewrite remove_users_cons. Qed.
Lemma fold_remove_brokers bs s : fold_left c_step (map CRemoveBroker bs) s = remove_brokers s bs.
Proof. revert s; induction bs as [|u us IH]; intros s; [done|]. cbn. by rewrite IH. Qed.

Lemma user_frame_calls s u raw hk :
  exists ops, (exec ok depth s (user_frame u raw hk).1).1 = fold_left c_step ops s /\ Forall (calls s u) ops.
Proof.
  unfold RouteModel.user_frame.
  assert (Hrem : exists ops, (exec ok depth s [ARemoveUser u]).1 = fold_left c_step ops s /\ Forall (calls s u) ops).
  { exists [CRemoveUser u]. split; [done|]. apply Forall_singleton. by left. }
  destruct (deser raw) as [m|]; [|exact Hrem]. destruct (hk m) as [|m'|]; [by exists []| |exact Hrem].
  destruct m' as [?|?|?|r body|ts body|ts|ts|?|?]; try exact Hrem.
  - cbn [fst]. rewrite (exec_direct ok 5) by lia. destruct (c_get_broker_identifier_of_user s r) as [b|]; [|by exists []].
    case_decide; cbn [fst].
    + destruct (dead_user ok s r) eqn:E; [|by exists []]. exists [CRemoveUser r]. split; [done|]. apply Forall_singleton. by right.
    + destruct (dead_broker ok s b) eqn:E; [|by exists []]. exists [CRemoveBroker b]. split; [done|]. repeat constructor. done.
  - destruct (prune valid ts) as [ts' [|]]; [|exact Hrem]. cbn [fst]. rewrite (exec_broadcast ok 5) by lia. cbn zeta. cbn [fst].
    exists (map CRemoveBroker (List.filter (dead_broker ok s) (c_get_interested_by_topic s ts' false).1) ++ map CRemoveUser (List.filter (dead_user ok s) (c_get_interested_by_topic s ts' false).2)).
    split; [rewrite fold_left_app, fold_remove_brokers, fold_remove_users; done|].
    apply Forall_app. split; apply Forall_forall; intros o Ho; apply elem_of_list_In, in_map_iff in Ho as (x & <- & Hx); apply filter_In in Hx as [_ Hx]; cbn; auto.
  - destruct (prune valid ts) as [ts' [|]]; [|exact Hrem]. exists [CSubscribeUser u ts']. split; [done|]. repeat constructor.
  - destruct (prune valid ts) as [ts' [|]]; [|exact Hrem]. exists [CUnsubscribeUser u ts']. split; [done|]. repeat constructor.
Qed.

Lemma user_frame_isolated i os u raw hk :
  let s := c_run i os in
  let s' := (exec ok depth s (user_frame u raw hk).1).1 in
  (forall v, v <> u -> (forall c, c_get_user_connection s v = Some c -> ok c = true) ->
     c_get_user_connection s' v = c_get_user_connection s v
     /\ c_get_broker_identifier_of_user s' v = c_get_broker_identifier_of_user s v
     /\ forall ts only, In v (c_get_interested_by_topic s' ts only).2 <-> In v (c_get_interested_by_topic s ts only).2)
  /\ (forall b, (forall c, c_get_broker_connection s b = Some c -> ok c = true) ->
     c_get_broker_connection s' b = c_get_broker_connection s b
     /\ forall ts only, In b (c_get_interested_by_topic s' ts only).1 <-> In b (c_get_interested_by_topic s ts only).1).
Proof.
  intros s s'; subst s'. destruct (user_frame_calls s u raw hk) as (ops & -> & Hc). subst s. split.
  - intros v Hne Hal. apply ops_frame_user. eapply Forall_impl; [exact Hc|]. intros o Ho. destruct o; cbn in *; try done; try congruence.
    destruct Ho as [->|Hd]; [congruence|]. intros ->. unfold dead_user in Hd. destruct (c_get_user_connection (c_run i os) v) as [c|]; [|done].
    rewrite Hal in Hd by done. done.
  - intros b Hal. apply ops_frame_broker. eapply Forall_impl; [exact Hc|]. intros o Ho. destruct o; cbn in *; try done.
    intros ->. unfold dead_broker in Ho. destruct (c_get_broker_connection (c_run i os) b) as [c|]; [|done].
    rewrite Hal in Ho by done. done.
Qed.

(** Everything emitted because of a frame is that frame, and a frame from a broker is
    never sent to a broker. *)
Lemma user_frame_bytes i os u raw hk e :
  In e (exec ok depth (c_run i os) (user_frame u raw hk).1).2 -> e_frame e = FRelay raw.
Proof.
  unfold RouteModel.user_frame. destruct (deser raw) as [m|]; [|done]. destruct (hk m) as [|m'|]; [done| |done].
  destruct m' as [?|?|?|r body|ts body|ts|ts|?|?]; try done.
  - cbn [fst]. rewrite direct_out. naive_solver.
  - destruct (prune valid ts) as [ts' [|]]; [|done]. cbn [fst]. rewrite broadcast_emissions. naive_solver.
  - by destruct (prune valid ts) as [ts' [|]].
  - by destruct (prune valid ts) as [ts' [|]].
Qed.

Lemma broker_frame_bytes i os b raw hk e :
  In e (exec ok depth (c_run i os) (broker_frame b raw hk).1).2 ->
  e_frame e = FRelay raw /\ exists u, e_to e = inl u.
Proof.
  unfold RouteModel.broker_frame. destruct (deser raw) as [m|]; [|done]. destruct (hk m) as [|m'|]; [done| |done].
  destruct m' as [?|?|?|r body|ts body|ts|ts|p|p]; try done.
  - cbn [fst]. rewrite direct_out. naive_solver.
  - cbn [fst]. rewrite broadcast_emissions. setoid_rewrite interested_brokers_view. naive_solver.
  - by destruct (dec_users p).
  - by destruct (dec_topics p).
Qed.
End frames.
