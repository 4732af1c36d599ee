(** Message handling run without interruption: who receives what, and what changes. *)
From stdpp Require Import gmap fin_maps fin_sets list.
From Coq Require Import NArith ZArith Lia.
From Verif Require Import IdModel IdProofs RelMapModel RelMapProofs VMapModel VMapSpec VMapProofs
  ConnModel ConnSpec ConnProofs ConnProofs2 ConnProofs3 ConnProofs4 TopicModel TopicProofs MsgModel RouteModel.

Section exec.
Variable ok : N -> bool.

Lemma exec_nil n s : exec ok n s [] = (s, []).
Proof. by destruct n. Qed.

Lemma exec_fold_acc n s es l :
  fold_left (fun '(s, es) a =>
        let '(s1, nxt, e1) := act_step ok s a in
        let '(s2, e2) := exec ok n s1 nxt in
        (s2, es ++ e1 ++ e2)) l (s, es)
  = let '(s', es') := exec ok (S n) s l in (s', es ++ es').
Proof.
  cbn [exec]. revert s es. induction l as [|a l IH]; intros s es; cbn [fold_left]; [by rewrite app_nil_r|].
  destruct (act_step ok s a) as [[s1 nxt] e1]. destruct (exec ok n s1 nxt) as [s2 e2].
  rewrite IH. rewrite (IH s2 ([] ++ e1 ++ e2)).
  destruct (fold_left _ l (s2, [])) as [s3 e3]. by rewrite app_nil_l, <- !app_assoc.
Qed.

Lemma exec_cons n s a l :
  exec ok (S n) s (a :: l) =
  let '(s1, nxt, e1) := act_step ok s a in
  let '(s2, e2) := exec ok n s1 nxt in
  let '(s3, e3) := exec ok (S n) s2 l in (s3, e1 ++ e2 ++ e3).
Proof.
  cbn [exec fold_left]. destruct (act_step ok s a) as [[s1 nxt] e1]. destruct (exec ok n s1 nxt) as [s2 e2].
  rewrite exec_fold_acc. cbn [exec]. destruct (fold_left _ l (s2, [])) as [s3 e3]. by rewrite app_nil_l, <- !app_assoc.
Qed.

Lemma exec_app n s l1 l2 :
  exec ok (S n) s (l1 ++ l2) =
  let '(s1, e1) := exec ok (S n) s l1 in
  let '(s2, e2) := exec ok (S n) s1 l2 in (s2, e1 ++ e2).
Proof.
  revert s; induction l1 as [|a l1 IH]; intros s; [cbn [app]; rewrite exec_nil; by destruct (exec ok (S n) s l2)|].
  cbn [app]. rewrite !exec_cons. destruct (act_step ok s a) as [[s1 nxt] e1]. destruct (exec ok n s1 nxt) as [s2 e2].
  rewrite IH. destruct (exec ok (S n) s2 l1) as [s3 e3]. destruct (exec ok (S n) s3 l2) as [s4 e4]. by rewrite !app_assoc.
Qed.

(** Sending to one user, in one go. *)
Definition dead_user (s : conns) (u : ukey) : bool :=
  match c_get_user_connection s u with Some c => negb (ok c) | None => false end.
Definition emit_user (s : conns) (f : frame) (u : ukey) : list emission :=
  match c_get_user_connection s u with Some c => if ok c then [Emit (inl u) c f] else [] | None => [] end.
Definition dead_broker (s : conns) (b : bid) : bool :=
  match c_get_broker_connection s b with Some c => negb (ok c) | None => false end.
Definition emit_broker (s : conns) (f : frame) (b : bid) : list emission :=
  match c_get_broker_connection s b with Some c => if ok c then [Emit (inr b) c f] else [] | None => [] end.

Definition remove_brokers (s : conns) (bs : list bid) : conns := fold_left c_remove_broker bs s.

Lemma exec_lookup_user n s u f l :
  3 <= S n ->
  exec ok (S n) s (ALookupUser u f :: l) =
  let '(s', es) := exec ok (S n) (if dead_user s u then c_remove_user s u else s) l in (s', emit_user s f u ++ es).
Proof.
  intros Hn. destruct n as [|[|n]]; [lia|lia|]. rewrite exec_cons. cbn [act_step].
  unfold dead_user, emit_user. destruct (c_get_user_connection s u) as [c|].
  - rewrite exec_cons. cbn [act_step]. destruct (ok c); cbn [negb].
    + rewrite !exec_nil. destruct (exec ok _ s l). done.
    + rewrite exec_cons. cbn [act_step]. rewrite !exec_nil. destruct (exec ok _ (c_remove_user s u) l). done.
  - rewrite exec_nil. destruct (exec ok _ s l). done.
Qed.

Lemma exec_lookup_broker n s b f l :
  3 <= S n ->
  exec ok (S n) s (ALookupBroker b f :: l) =
  let '(s', es) := exec ok (S n) (if dead_broker s b then c_remove_broker s b else s) l in (s', emit_broker s f b ++ es).
Proof.
  intros Hn. destruct n as [|[|n]]; [lia|lia|]. rewrite exec_cons. cbn [act_step].
  unfold dead_broker, emit_broker. destruct (c_get_broker_connection s b) as [c|].
  - rewrite exec_cons. cbn [act_step]. destruct (ok c); cbn [negb].
    + rewrite !exec_nil. destruct (exec ok _ s l). done.
    + rewrite exec_cons. cbn [act_step]. rewrite !exec_nil. destruct (exec ok _ (c_remove_broker s b) l). done.
  - rewrite exec_nil. destruct (exec ok _ s l). done.
Qed.

Lemma conn_remove_other s u u' : u' <> u -> c_get_user_connection (c_remove_user s u) u' = c_get_user_connection s u'.
Proof. intros. unfold c_get_user_connection. by rewrite ru_users, lookup_delete_ne. Qed.
Lemma bconn_remove_other s b b' : b' <> b -> c_get_broker_connection (c_remove_broker s b) b' = c_get_broker_connection s b'.
Proof. intros. unfold c_get_broker_connection. by rewrite rb_brokers, lookup_delete_ne. Qed.

(** Fan-out to distinct users: one attempt each; only dead ones are removed. *)
Lemma exec_users n f us : 3 <= S n -> forall s, NoDup us ->
  exec ok (S n) s (map (fun u => ALookupUser u f) us) =
  (remove_users s (List.filter (dead_user s) us), concat (map (emit_user s f) us)).
Proof.
  intros Hn. induction us as [|u us IH]; intros s Hnd; [by rewrite exec_nil|].
  apply NoDup_cons in Hnd as [Hni Hnd]. cbn [map]. rewrite exec_lookup_user by done.
  rewrite IH by done. cbn [List.filter concat].
  assert (Heq : forall u', In u' us -> c_get_user_connection (if dead_user s u then c_remove_user s u else s) u' = c_get_user_connection s u').
  { intros u' Hin. destruct (dead_user s u); [|done]. apply conn_remove_other. intros ->. apply Hni. by apply elem_of_list_In. }
  assert (Hf : List.filter (dead_user (if dead_user s u then c_remove_user s u else s)) us = List.filter (dead_user s) us).
  { apply filter_ext_in. intros u' Hin. unfold dead_user at 1. rewrite (Heq u' Hin). done. }
  assert (He : map (emit_user (if dead_user s u then c_remove_user s u else s) f) us = map (emit_user s f) us).
  { apply map_ext_in. intros u' Hin. unfold emit_user. by rewrite (Heq u' Hin). }
  rewrite Hf, He. destruct (dead_user s u); [by rewrite remove_users_cons|done].
Qed.

Lemma exec_brokers n f bs : 3 <= S n -> forall s, NoDup bs ->
  exec ok (S n) s (map (fun b => ALookupBroker b f) bs) =
  (remove_brokers s (List.filter (dead_broker s) bs), concat (map (emit_broker s f) bs)).
Proof.
  intros Hn. induction bs as [|b bs IH]; intros s Hnd; [by rewrite exec_nil|].
  apply NoDup_cons in Hnd as [Hni Hnd]. cbn [map]. rewrite exec_lookup_broker by done.
  rewrite IH by done. cbn [List.filter concat].
  assert (Heq : forall b', In b' bs -> c_get_broker_connection (if dead_broker s b then c_remove_broker s b else s) b' = c_get_broker_connection s b').
  { intros b' Hin. destruct (dead_broker s b); [|done]. apply bconn_remove_other. intros ->. apply Hni. by apply elem_of_list_In. }
  assert (Hf : List.filter (dead_broker (if dead_broker s b then c_remove_broker s b else s)) bs = List.filter (dead_broker s) bs).
  { apply filter_ext_in. intros b' Hin. unfold dead_broker at 1. rewrite (Heq b' Hin). done. }
  assert (He : map (emit_broker (if dead_broker s b then c_remove_broker s b else s) f) bs = map (emit_broker s f) bs).
  { apply map_ext_in. intros b' Hin. unfold emit_broker. by rewrite (Heq b' Hin). }
  rewrite Hf, He. destruct (dead_broker s b); done.
Qed.

(** Frame of removing brokers. *)
Lemma remove_brokers_frame bs : forall s,
  users (remove_brokers s bs) = users s /\ bm_users (remove_brokers s bs) = bm_users s
  /\ direct (remove_brokers s bs) = direct s /\ identity (remove_brokers s bs) = identity s.
Proof.
  induction bs as [|b bs IH]; intros s; [done|]. unfold remove_brokers; cbn [fold_left]. destruct (IH (c_remove_broker s b)) as (H1 & H2 & H3 & H4).
  unfold remove_brokers in *. by rewrite H1, H2, H3, H4, rb_users, rb_bm_users, rb_direct, rb_identity.
Qed.

(** The recipients of a broadcast, whole run. *)
Lemma exec_broadcast n s ts raw only :
  4 <= S n ->
  exec ok (S n) s [ABroadcast ts raw only] =
  let bs := (c_get_interested_by_topic s ts only).1 in
  let us := (c_get_interested_by_topic s ts only).2 in
  (remove_users (remove_brokers s (List.filter (dead_broker s) bs)) (List.filter (dead_user s) us),
   concat (map (emit_broker s (FRelay raw)) bs) ++ concat (map (emit_user s (FRelay raw)) us)).
Proof.
  intros Hn. destruct n as [|n]; [lia|]. rewrite exec_cons. cbn [act_step]. unfold broadcast_next.
  destruct (interested_nodup s ts only) as [Hb Hu].
  destruct (c_get_interested_by_topic s ts only) as [bs us]. cbn [fst snd] in *.
  rewrite exec_app, exec_brokers by (done || lia).
  rewrite exec_users by (done || lia). rewrite exec_nil. cbn zeta.
  destruct (remove_brokers_frame (List.filter (dead_broker s) bs) s) as (H1 & _).
  assert (Hc : forall u, c_get_user_connection (remove_brokers s (List.filter (dead_broker s) bs)) u = c_get_user_connection s u).
  { intros u. unfold c_get_user_connection. by rewrite H1. }
  f_equal.
  - f_equal. apply filter_ext_in. intros u _. unfold dead_user. by rewrite Hc.
  - rewrite app_nil_r. cbn [app]. f_equal. f_equal. apply map_ext_in. intros u _. unfold emit_user. by rewrite Hc.
Qed.

Lemma exec_direct n s u raw only :
  4 <= S n ->
  exec ok (S n) s [ADirect u raw only] =
  match c_get_broker_identifier_of_user s u with
  | Some b =>
      if decide (b = identity s) then (if dead_user s u then c_remove_user s u else s, emit_user s (FRelay raw) u)
      else if only then (s, [])
      else (if dead_broker s b then c_remove_broker s b else s, emit_broker s (FRelay raw) b)
  | None => (s, [])
  end.
Proof.
  intros Hn. destruct n as [|n]; [lia|]. rewrite exec_cons. cbn [act_step]. unfold direct_next.
  destruct (c_get_broker_identifier_of_user s u) as [b|]; [|by rewrite !exec_nil].
  case_decide.
  - rewrite exec_lookup_user by lia. rewrite !exec_nil. cbn. by rewrite !app_nil_r.
  - destruct only; [by rewrite !exec_nil|]. rewrite exec_lookup_broker by lia. rewrite !exec_nil. cbn. by rewrite !app_nil_r.
Qed.

Lemma in_emit_users s f us e :
  In e (concat (map (emit_user s f) us)) <->
  exists u c, In u us /\ c_get_user_connection s u = Some c /\ ok c = true /\ e = Emit (inl u) c f.
Proof.
  rewrite in_concat. setoid_rewrite in_map_iff. split.
  - intros (l & (u & <- & Hu) & He). unfold emit_user in He. destruct (c_get_user_connection s u) as [c|] eqn:E; [|done].
    destruct (ok c) eqn:Ek; [|done]. destruct He as [<-|[]]. eauto 6.
  - intros (u & c & Hu & Hc & Hk & ->). exists (emit_user s f u). split; [eauto|]. unfold emit_user. rewrite Hc, Hk. by left.
Qed.
Lemma in_emit_brokers s f bs e :
  In e (concat (map (emit_broker s f) bs)) <->
  exists b c, In b bs /\ c_get_broker_connection s b = Some c /\ ok c = true /\ e = Emit (inr b) c f.
Proof.
  rewrite in_concat. setoid_rewrite in_map_iff. split.
  - intros (l & (u & <- & Hu) & He). unfold emit_broker in He. destruct (c_get_broker_connection s u) as [c|] eqn:E; [|done].
    destruct (ok c) eqn:Ek; [|done]. destruct He as [<-|[]]. eauto 6.
  - intros (u & c & Hu & Hc & Hk & ->). exists (emit_broker s f u). split; [eauto|]. unfold emit_broker. rewrite Hc, Hk. by left.
Qed.

Lemma nodup_emit_users s f us : NoDup us -> NoDup (map e_to (concat (map (emit_user s f) us))).
Proof.
  induction us as [|u us IH]; intros Hnd; [constructor|]. apply NoDup_cons in Hnd as [Hni Hnd].
  cbn [map concat]. rewrite map_app. unfold emit_user at 1. destruct (c_get_user_connection s u) as [c|]; [|by apply IH].
  destruct (ok c); [|by apply IH]. cbn. apply NoDup_cons. split; [|by apply IH].
  rewrite elem_of_list_In, in_map_iff. intros (e & He & Hin). apply in_emit_users in Hin as (u' & c' & Hu' & _ & _ & ->).
  cbn in He. injection He as ->. apply Hni. by apply elem_of_list_In.
Qed.
Lemma nodup_emit_brokers s f bs : NoDup bs -> NoDup (map e_to (concat (map (emit_broker s f) bs))).
Proof.
  induction bs as [|u us IH]; intros Hnd; [constructor|]. apply NoDup_cons in Hnd as [Hni Hnd].
  cbn [map concat]. rewrite map_app. unfold emit_broker at 1. destruct (c_get_broker_connection s u) as [c|]; [|by apply IH].
  destruct (ok c); [|by apply IH]. cbn. apply NoDup_cons. split; [|by apply IH].
  rewrite elem_of_list_In, in_map_iff. intros (e & He & Hin). apply in_emit_brokers in Hin as (u' & c' & Hu' & _ & _ & ->).
  cbn in He. injection He as ->. apply Hni. by apply elem_of_list_In.
Qed.

(** Everything a broadcast causes, for an arbitrary state. *)
Lemma broadcast_emissions s ts raw only e :
  In e (exec ok depth s [ABroadcast ts raw only]).2 <->
  (exists b c, In b (c_get_interested_by_topic s ts only).1 /\ c_get_broker_connection s b = Some c /\ ok c = true /\ e = Emit (inr b) c (FRelay raw))
  \/ (exists u c, In u (c_get_interested_by_topic s ts only).2 /\ c_get_user_connection s u = Some c /\ ok c = true /\ e = Emit (inl u) c (FRelay raw)).
Proof.
  rewrite (exec_broadcast 5) by lia. cbn zeta. cbn [snd]. rewrite in_app_iff, in_emit_users, in_emit_brokers. done.
Qed.

Lemma broadcast_once s ts raw only : NoDup (map e_to (exec ok depth s [ABroadcast ts raw only]).2).
Proof.
  rewrite (exec_broadcast 5) by lia. cbn zeta. cbn [snd]. rewrite map_app. destruct (interested_nodup s ts only) as [Hb Hu].
  apply NoDup_app. split; [by apply nodup_emit_brokers|]. split; [|by apply nodup_emit_users].
  intros x Hx Hx'. rewrite elem_of_list_In, in_map_iff in Hx, Hx'. destruct Hx as (e & <- & He), Hx' as (e' & He' & Hin').
  apply in_emit_brokers in He as (b & c & _ & _ & _ & ->). apply in_emit_users in Hin' as (u & c' & _ & _ & _ & ->). done.
Qed.
End exec.
