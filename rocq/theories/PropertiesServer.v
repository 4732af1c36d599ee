(** Properties of the main loops of the servers (ServerModel.v). *)
From stdpp Require Import list.
From Coq Require Import NArith Lia.
From Verif Require Import ServerModel.

(** ** C76: servers keep serving *)
(** No listener failed, and no task that [start] waits for panicked. *)
Definition healthy (es : list sev) : Prop :=
  forall e, In e es -> match e with SAccept _ None | SPanic _ => False | _ => True end.
(** The connections accepted and not ended since. *)
Fixpoint open_after (es : list sev) (l : list N) : list N :=
  match es with
  | [] => l
  | SAccept (TUsers | TBrokers) (Some c) :: r => open_after r (l ++ [c])
  | SEnd c :: r => open_after r (List.filter (fun x => negb (N.eqb x c)) l)
  | _ :: r => open_after r l
  end.
(** The rounds of the periodic tasks. *)
Fixpoint rounds (es : list sev) : list task :=
  match es with
  | [] => []
  | SRound ((THeartbeat | TSync | TWhitelist) as k) :: r => k :: rounds r
  | _ :: r => rounds r
  end.

Lemma filter_dec c (l : list N) : List.filter (fun x => negb (bool_decide (x = c))) l = List.filter (fun x => negb (N.eqb x c)) l.
Proof.
  induction l as [|x l IH]; [done|]. simpl. rewrite IH. destruct (N.eqb_spec x c) as [->|Hn];
    [rewrite bool_decide_true by done|rewrite bool_decide_false by done]; done.
Qed.

(** However connections end, as long as no listener fails and no task panics, a broker's [start] does not return, all its tasks run, every connection accepted is handled until it ends, and every round is done. *)
Theorem C76_healthy_broker_serves exits es :
  healthy es ->
  let s := s_run broker_tasks exits (s_init broker_tasks) es in
  v_main s = true /\ v_tasks s = broker_tasks /\ v_conns s = open_after es [] /\ v_rounds s = rev (rounds es).
Proof.
  intros H. unfold s_init.
  assert (forall l q, healthy es ->
    let s := s_run broker_tasks exits (Server broker_tasks true l q) es in
    v_main s = true /\ v_tasks s = broker_tasks /\ v_conns s = open_after es l /\ v_rounds s = rev (rounds es) ++ q) as Hg.
  { clear H. induction es as [|e es IH]; intros l q H; [done|].
    assert (healthy es) as H' by (intros x Hx; apply H; by right).
    specialize (H e ltac:(by left)). unfold s_run. cbn [fold_left].
    destruct e as [k [c|]|k|k|c|]; try done.
    - destruct k; try (apply (IH l q H')); apply (IH (l ++ [c]) q H').
    - destruct k; try (apply (IH l q H'));
        (cbn [rounds open_after]; cbn [rev]; rewrite <- app_assoc; apply (IH l (_ :: q) H')).
    - unfold s_step. cbn [v_tasks v_main v_conns v_rounds]. rewrite filter_dec. apply (IH _ q H').
    - apply (IH l q H'). }
  destruct (Hg [] [] H) as (? & ? & ? & ?). rewrite app_nil_r in *. done.
Qed.
Print Assumptions C76_healthy_broker_serves.

Theorem C76_healthy_marshal_serves exits es :
  healthy es -> (forall k r, In (SAccept k r) es -> k = TUsers) ->
  let s := s_run marshal_tasks exits (s_init marshal_tasks) es in
  v_main s = true /\ v_tasks s = marshal_tasks /\ v_conns s = open_after es [].
Proof.
  intros H HU. unfold s_init.
  assert (forall l q, healthy es -> (forall k r, In (SAccept k r) es -> k = TUsers) ->
    let s := s_run marshal_tasks exits (Server marshal_tasks true l q) es in
    v_main s = true /\ v_tasks s = marshal_tasks /\ v_conns s = open_after es l) as Hg.
  { clear H HU. induction es as [|e es IH]; intros l q H HU; [done|].
    assert (healthy es) as H' by (intros x Hx; apply H; by right).
    assert (forall k r, In (SAccept k r) es -> k = TUsers) as HU' by (intros k r Hk; eapply HU; by right).
    specialize (H e ltac:(by left)). unfold s_run. cbn [fold_left].
    destruct e as [k [c|]|k|k|c|]; try done.
    - rewrite (HU k (Some c) ltac:(by left)). apply (IH (l ++ [c]) q H' HU').
    - destruct k; apply (IH l q H' HU').
    - unfold s_step. cbn [v_tasks v_main v_conns v_rounds]. rewrite filter_dec. apply (IH _ q H' HU').
    - apply (IH l q H' HU'). }
  apply (Hg [] [] H HU).
Qed.
Print Assumptions C76_healthy_marshal_serves.

Definition vx_es : list sev :=
  [SAccept TUsers (Some 1%N); SRound THeartbeat; SAccept TBrokers (Some 2%N); SPoll; SEnd 1%N; SRound TSync; SAccept TUsers (Some 3%N); SPoll].
Example C76_example :
  healthy vx_es /\ open_after vx_es [] = [2%N; 3%N] /\ rounds vx_es = [THeartbeat; TSync] /\
  v_conns (s_run broker_tasks true (s_init broker_tasks) vx_es) = [2%N; 3%N].
Proof.
  split; [|vm_compute; done]. intros e H. simpl in H. repeat (destruct H as [<-|H]; [done|]). done.
Qed.
Example C76_example_marshal :
  let es := [SAccept TUsers (Some 1%N); SPoll; SAccept TUsers (Some 2%N); SEnd 1%N; SPoll] in
  healthy es /\ (forall k r, In (SAccept k r) es -> k = TUsers) /\ open_after es [] = [2%N].
Proof.
  simpl. split; [|split; [|vm_compute; done]].
  - intros e H. simpl in H. repeat (destruct H as [<-|H]; [done|]). done.
  - intros k r H. repeat (destruct H as [H|H]; [congruence|]). done.
Qed.

(** "A server keeps serving when accepting one connection fails" is false: it then does no more rounds and accepts nobody, *)
Lemma stopped_stays ts exits es : forall s, v_tasks s = [] -> v_main s = false ->
  let s' := s_run ts exits s es in
  v_tasks s' = [] /\ v_main s' = false /\ v_rounds s' = v_rounds s /\ (forall c, In c (v_conns s') <-> In c (v_conns s) /\ ~ In (SEnd c) es).
Proof.
  induction es as [|e es IH]; intros s HT HM; [simpl; split; [done|split; [done|split; [done|]]]; intros c; tauto|].
  assert (forall x, v_tasks x = [] -> v_main x = false -> v_rounds x = v_rounds s ->
    (forall c, In c (v_conns x) <-> In c (v_conns s) /\ e <> SEnd c) -> s_step ts exits s e = x ->
    let s' := s_run ts exits s (e :: es) in
    v_tasks s' = [] /\ v_main s' = false /\ v_rounds s' = v_rounds s /\ (forall c, In c (v_conns s') <-> In c (v_conns s) /\ ~ In (SEnd c) (e :: es))) as Hx.
  { intros x H1 H2 H3 H4 E. unfold s_run. cbn [fold_left]. rewrite E. destruct (IH x H1 H2) as (A & B & C & D).
    split; [done|]. split; [done|]. split; [rewrite <- H3; done|]. intros c. rewrite D, H4. cbn [In]. tauto. }
  destruct e as [k r|k|k|c|]; cbn [s_step].
  - eapply Hx; cycle 4; [cbn [s_step]; rewrite HT, bool_decide_false by (by apply not_elem_of_nil); rewrite andb_false_r; done|done|done|done|].
    intros c. split; [|tauto]. intros ?. split; [done|congruence].
  - eapply Hx; cycle 4; [cbn [s_step]; rewrite HT; done|done|done|done|]. intros c. cbn [v_conns]. split; [|tauto]. intros ?. split; [done|congruence].
  - eapply Hx; cycle 4; [cbn [s_step]; rewrite HT, bool_decide_false by (by apply not_elem_of_nil); rewrite andb_false_r; done|done|done|done|].
    intros c. split; [|tauto]. intros ?. split; [done|congruence].
  - eapply Hx; cycle 4; [cbn [s_step]; done|done|done|done|]. intros d. cbn [v_conns]. rewrite filter_In. split.
    + intros [H1 H2]. split; [done|]. intros [= ->]. rewrite bool_decide_true in H2 by done. done.
    + intros [H1 H2]. split; [done|]. rewrite bool_decide_false; [done|]. intros ->. done.
  - eapply Hx; cycle 4; [cbn [s_step poll]; unfold poll; rewrite HM; done|done|done|done|].
    intros c. split; [|tauto]. intros ?. split; [done|congruence].
Qed.
Theorem C76_failed_accept_stops_refuted exits es k es' :
  healthy es -> k = TUsers \/ k = TBrokers ->
  let s := s_run broker_tasks exits (s_init broker_tasks) es in
  let s' := s_run broker_tasks exits (s_init broker_tasks) (es ++ SAccept k None :: SPoll :: es') in
  v_main s = true /\ v_main s' = false /\ v_tasks s' = [] /\ v_rounds s' = v_rounds s /\
  (* those connected stay connected to it, unless the process ends *)
  (forall c, In c (v_conns s') <-> exits = false /\ In c (v_conns s) /\ ~ In (SEnd c) es').
Proof.
  intros H HK s s'. destruct (C76_healthy_broker_serves exits es H) as (H1 & H2 & H3 & H4). fold s in H1, H2, H3, H4.
  assert (s' = s_run broker_tasks exits (Server [] false (if exits then [] else v_conns s) (v_rounds s)) es') as E.
  { unfold s', s_run. rewrite fold_left_app. cbn [fold_left]. fold (s_run broker_tasks exits (s_init broker_tasks) es). fold s.
    f_equal. destruct s as [ts m l q]. simpl in *. subst ts m. destruct HK as [-> | ->]; done. }
  destruct (stopped_stays broker_tasks exits es' (Server [] false (if exits then [] else v_conns s) (v_rounds s)) eq_refl eq_refl) as (A & B & C & D).
  rewrite E. split; [done|]. split; [done|]. split; [done|]. split; [done|]. intros c. rewrite D. cbn [v_conns]. destruct exits; simpl; split; try tauto.
  intros (? & _). done.
Qed.
Print Assumptions C76_failed_accept_stops_refuted.
(** a marshal likewise. *)
Theorem C76_failed_accept_stops_marshal_refuted exits es' :
  let s' := s_run marshal_tasks exits (s_init marshal_tasks) (SAccept TUsers None :: SPoll :: es') in
  v_main s' = false /\ v_conns s' = [].
Proof.
  destruct (stopped_stays marshal_tasks exits es' (Server [] false [] []) eq_refl eq_refl) as (A & B & C & D).
  assert (s_run marshal_tasks exits (s_init marshal_tasks) (SAccept TUsers None :: SPoll :: es') =
    s_run marshal_tasks exits (Server [] false [] []) es') as -> by (destruct exits; done).
  split; [done|]. destruct (v_conns (s_run marshal_tasks exits (Server [] false [] []) es')) as [|c l] eqn:E; [done|].
  exfalso. destruct (proj1 (D c)) as [[] _]. first [rewrite E; by left|by left].
Qed.
Print Assumptions C76_failed_accept_stops_marshal_refuted.
