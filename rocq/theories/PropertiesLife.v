(** Properties of the life of a connection in time (LifeModel.v). *)
From stdpp Require Import list.
From Coq Require Import NArith Lia.
From Verif Require Import LifeModel LifeSpec LifeProofs.
Local Open Scope N_scope.

(** ** C74: connections that do not log in are closed *)
(** A broker: whoever has not logged in within the limit of the set-up and another 5 s is gone, for good, with the memory it held. *)
Theorem C74_stranger_is_gone fl li t0 h es t e es' :
  t0 + h + 5 < t ->
  (forall u, In (u, FAuth true) es -> t0 + h + 5 < u) ->
  let s := f_run fl false li (f_init t0 h) (es ++ (t, e) :: es') in
  f_phase s = PGone /\ f_held s = 0 /\ ~ sendable s.
Proof.
  intros Ht HA s.
  pose proof (init_shape t0 h) as HS. pose proof (init_pinv false t0 h) as HP.
  assert (s = f_run fl false li (f_run fl false li (f_init t0 h) (es ++ [(t, e)])) es') as Es.
  { unfold s. rewrite <- f_run_app, <- app_assoc. done. }
  assert (f_phase (f_run fl false li (f_init t0 h) (es ++ [(t, e)])) = PGone) as HG.
  { pose proof (run_pinv fl false li _ es _ _ t e HS HP) as Hp. unfold pinv in Hp.
    destruct (f_phase (f_run fl false li (f_init t0 h) (es ++ [(t, e)]))) eqn:P; try done; try lia.
    exfalso. destruct (run_served fl false li _ (es ++ [(t, e)]) t0 _ HS HP ltac:(done) P) as (u & Hu & Hle).
    apply in_app_or in Hu as [Hu|[Hu|[]]]; [specialize (HA u Hu); lia|]. injection Hu as -> ->. lia. }
  assert (f_phase s = PGone) as HGs by (rewrite Es; apply run_gone; [by apply run_shape|done]).
  assert (shape s) as HSs by (by apply run_shape).
  destruct (shape_gone_held s HSs HGs) as [H0 HW]. split; [done|]. split; [done|]. intros [_ Hs]. done.
Qed.
Print Assumptions C74_stranger_is_gone.

(** A marshal: every connection is gone 10 s per message the marshal sent, and the time the stream takes to close, after these limits, if flushing does not wait and
    no write fails. Missing: if a write fails while the connection is being closed (shown false below). *)
Theorem C74_marshal_closes_partial li t0 h es t e es' :
  t0 + h + 5 + 10 * sent (es ++ [(t, e)]) + li < t ->
  let s := f_run false true li (f_init t0 h) (es ++ [(t, e)]) in
  let s' := f_run false true li (f_init t0 h) (es ++ (t, e) :: es') in
  (f_phase s' = PGone /\ f_held s' = 0) \/ (f_phase s = PClosing /\ f_writer s = WDead).
Proof.
  intros Ht s s'.
  pose proof (init_shape t0 h) as HS. pose proof (init_pinv true t0 h) as HP.
  assert (s' = f_run false true li s es') as Es.
  { unfold s, s'. rewrite <- f_run_app, <- app_assoc. done. }
  assert (f_phase s = PGone \/ (f_phase s = PClosing /\ f_writer s = WDead)) as [HG|HG]; [|left|by right].
  { pose proof (run_pinv false true li _ es _ _ t e HS HP) as Hp.
    pose proof (run_minv (t0 + h + 5) li (es ++ [(t, e)]) 0 t0 _ HS ltac:(done) HP ltac:(done) t) as Hm.
    assert (wlive t s) as HL by (unfold s; rewrite f_run_app; apply step_live).
    fold s in Hp, Hm. unfold pinv, minv, wlive in *.
    destruct (f_phase s) eqn:P; try (by left); try done; try lia.
    right. split; [done|]. destruct (f_writer s); try done; lia. }
  assert (f_phase s' = PGone) as HGs by (rewrite Es; apply run_gone; [by apply run_shape|done]).
  assert (shape s') as HSs by (by apply run_shape).
  split; [done|]. by destruct (shape_gone_held s' HSs HGs).
Qed.
Print Assumptions C74_marshal_closes_partial.

(** A stranger at a TLS broker that sends half a message: there after 6 s, gone after 11. *)
Definition lx_half : list (N * fev) := [(103, FReady true); (104, FHeader 1000); (104, FMemory); (106, FPass)].
Example C74_example_broker :
  f_phase (f_run true false 0 (f_init 100 5) lx_half) = PAuth 108 /\ f_held (f_run true false 0 (f_init 100 5) lx_half) = 1000 /\
  (forall u, In (u, FAuth true) lx_half -> 100 + 5 + 5 < u) /\
  f_phase (f_run true false 0 (f_init 100 5) (lx_half ++ [(111, FPass)])) = PGone /\
  f_held (f_run true false 0 (f_init 100 5) (lx_half ++ [(111, FPass)])) = 0.
Proof.
  split; [vm_compute; done|]. split; [vm_compute; done|]. split; [|split; vm_compute; done].
  intros u H. simpl in H. destruct H as [H|[H|[H|[H|[]]]]]; congruence.
Qed.
(** A user at a QUIC marshal: the answer is written at 4, and the connection closed by 8. *)
Definition lx_marshal : list (N * fev) := [(2, FReady true); (3, FSend 7); (3, FAuth true); (4, FLength true); (4, FBytes true)].
Example C74_example_marshal :
  f_phase (f_run false true 3 (f_init 0 5) lx_marshal) = PClosing /\ f_written (f_run false true 3 (f_init 0 5) lx_marshal) = [7] /\
  f_phase (f_run false true 3 (f_init 0 5) (lx_marshal ++ [(8, FPass)])) = PGone /\
  (0 + 5 + 5 + 10 * sent (lx_marshal ++ [(24, FPass)]) + 3 < 24).
Proof. vm_compute. done. Qed.

(** "Who has not logged in takes no memory" is false: a stranger takes as much as the pool grants, *)
Definition lx_message (n : N) : list (N * fev) := [(0, FHeader n); (0, FMemory); (0, FBody true)].
Theorem C74_stranger_takes_memory_refuted fl ma li ns :
  List.Forall (fun n => n <= f_max) ns ->
  exists es, (forall u b, ~ In (u, FAuth b) es) /\ List.Forall (fun te => fst te = 0) es /\
    f_phase (f_run fl ma li (f_init 0 0) es) = PAuth 5 /\ f_held (f_run fl ma li (f_init 0 0) es) = fold_right N.add 0 ns.
Proof.
  intros H. exists ((0, FReady true) :: concat (map lx_message ns)).
  assert (forall l, ~ (exists u b, In (u, FAuth b) (concat (map lx_message l)))) as HN.
  { induction l as [|n l IH]; [intros (u & b & [])|]. intros (u & b & Hu). simpl in Hu. destruct Hu as [?|[?|[?|Hu]]]; try congruence. apply IH. eauto. }
  split; [intros u b [Hu|Hu]; [congruence|eapply HN; eauto]|].
  split; [constructor; [done|]; clear; induction ns as [|n ns IH]; simpl; repeat constructor; done|].
  assert (forall l i, List.Forall (fun n => n <= f_max) l ->
    f_run fl ma li (Life (PAuth 5) WIdle [] [] RLength i) (concat (map lx_message l)) = Life (PAuth 5) WIdle [] [] RLength (i ++ l)) as Hr.
  { induction l as [|n l IH]; intros i Hl; [simpl; rewrite app_nil_r; done|]. inversion Hl as [|? ? Hn Hl']; subst.
    cbn [map concat]. rewrite f_run_app.
    assert (f_run fl ma li (Life (PAuth 5) WIdle [] [] RLength i) (lx_message n) = Life (PAuth 5) WIdle [] [] RLength (i ++ [n])) as ->.
    { unfold lx_message, f_run. cbn [fold_left]. unfold f_step at 3. cbn [timers f_phase f_writer f_reader w_expire r_expire p_expire]. cbn [N.ltb N.compare].
      cbn [f_act f_reader set_reader f_phase f_writer f_queue f_written f_inbox].
      destruct (N.ltb_spec f_max n); [lia|]. unfold pick. done. }
    rewrite IH by done. rewrite <- app_assoc. done. }
  assert (f_run fl ma li (f_init 0 0) ((0, FReady true) :: concat (map lx_message ns)) = Life (PAuth 5) WIdle [] [] RLength ns) as ->.
  { change (f_run fl ma li (f_init 0 0) ((0, FReady true) :: concat (map lx_message ns))) with
      (f_run fl ma li (Life (PAuth 5) WIdle [] [] RLength []) (concat (map lx_message ns))). apply (Hr ns [] H). }
  split; [done|]. done.
Qed.
Print Assumptions C74_stranger_takes_memory_refuted.
(** and 536870911 bytes with the four of one header. *)
Theorem C74_header_takes_memory_refuted fl ma li :
  f_held (f_run fl ma li (f_init 0 0) [(0, FReady true); (0, FHeader f_max); (0, FMemory); (5, FPass)]) = 536870911.
Proof. destruct fl, ma; vm_compute; done. Qed.
Print Assumptions C74_header_takes_memory_refuted.
(** but, at any moment, of anybody's connection, no more than that for the message that is arriving and for each one nobody has taken. *)
Theorem C74_memory_bounded fl ma li t0 h es :
  let s := f_run fl ma li (f_init t0 h) es in
  f_held s <= 536870911 * (1 + N.of_nat (length (f_inbox s))).
Proof. intros s. apply sized_held, run_sized. split; [done|by constructor]. Qed.
Print Assumptions C74_memory_bounded.
(** The header above reaches the bound. *)
Example C74_memory_example fl ma li :
  let s := f_run fl ma li (f_init 0 0) [(0, FReady true); (0, FHeader 536870911); (0, FMemory); (5, FPass)] in
  f_held s = 536870911 * (1 + N.of_nat (length (f_inbox s))).
Proof. destruct fl, ma; vm_compute; done. Qed.

(** When writing the answer fails, a marshal never drops the connection: the soft close that waits behind the answer is never answered. A stranger, of any
    protocol, then keeps all the memory the pool grants it. *)
Lemma lx_receive fl ma li w wr p l : forall i, List.Forall (fun n => n <= f_max) l ->
  (w = WDead \/ w = WIdle) -> (p = PClosing \/ p = PServed) ->
  f_run fl ma li (Life p w [] wr RLength i) (concat (map lx_message l)) = Life p w [] wr RLength (i ++ l).
Proof.
  induction l as [|n l IH]; intros i Hl Hw Hp; [simpl; rewrite app_nil_r; done|]. inversion Hl as [|? ? Hn Hl']; subst.
  cbn [map concat]. rewrite f_run_app.
  assert (f_run fl ma li (Life p w [] wr RLength i) (lx_message n) = Life p w [] wr RLength (i ++ [n])) as ->.
  { unfold lx_message, f_run. cbn [fold_left]. unfold f_step at 3.
    destruct Hw as [-> | ->], Hp as [-> | ->]; cbn [timers f_phase f_writer f_reader w_expire r_expire p_expire f_act set_reader f_queue f_written f_inbox];
    (destruct (N.ltb_spec f_max n); [lia|]); done. }
  rewrite IH by done. rewrite <- app_assoc. done.
Qed.
Theorem C74_failed_answer_stays_refuted fl li ns T :
  List.Forall (fun n => n <= f_max) ns ->
  let es := [(0, FReady true); (0, FSend 1); (0, FAuth false); (0, FLength false)] ++ concat (map lx_message ns) ++ [(T, FPass)] in
  let s := f_run fl true li (f_init 0 5) es in
  f_phase s = PClosing /\ f_held s = fold_right N.add 0 ns /\ f_reader s = RLength.
Proof.
  intros H es s. unfold s, es. rewrite !f_run_app.
  change (f_run fl true li (f_init 0 5) [(0, FReady true); (0, FSend 1); (0, FAuth false); (0, FLength false)]) with (Life PClosing WDead [] [] RLength []).
  rewrite lx_receive; [|done|by left|by left]. done.
Qed.
Print Assumptions C74_failed_answer_stays_refuted.
(** Likewise when the peer does not read the answer for 5 s. *)
Theorem C74_unread_answer_stays_refuted fl li T :
  5 < T ->
  let s := f_run fl true li (f_init 0 5) [(0, FReady true); (0, FSend 1); (0, FAuth false); (T, FPass)] in
  f_phase s = PClosing /\ f_writer s = WDead /\ f_reader s = RLength.
Proof.
  intros HT s. unfold s. 
  change (f_run fl true li (f_init 0 5) [(0, FReady true); (0, FSend 1); (0, FAuth false); (T, FPass)]) with
    (f_step fl true li (Life PClosing (WLength 1 5) [None] [] RLength []) (T, FPass)).
  unfold f_step, timers. cbn [f_phase p_expire]. unfold p_expire, w_expire. cbn [f_phase f_writer]. destruct (N.ltb_spec 5 T); [|lia]. done.
Qed.
Print Assumptions C74_unread_answer_stays_refuted.

(** A flush that waits keeps a marshal's connection, and its memory, for as long as it likes. *)
Theorem C74_marshal_flush_refuted li T :
  5 < T ->
  let s := f_run true true li (f_init 0 0) [(0, FReady true); (0, FSend 1); (0, FLength true); (0, FBytes true);
    (0, FHeader 1000); (0, FMemory); (0, FBody true); (T, FPass)] in
  f_phase s = PClosing /\ f_held s = 1000.
Proof.
  intros HT s. unfold s, f_run. cbn [fold_left].
  change (f_step true true li _ (0, FReady true)) with (Life (PAuth 5) WIdle [] [] RLength []).
  change (f_step true true li _ (0, FSend 1)) with (Life (PAuth 5) (WLength 1 5) [] [] RLength []).
  change (f_step true true li _ (0, FLength true)) with (Life (PAuth 5) (WBytes 1 5) [] [] RLength []).
  change (f_step true true li _ (0, FBytes true)) with (Life (PAuth 5) (WFlush 1) [] [] RLength []).
  change (f_step true true li _ (0, FHeader 1000)) with (Life (PAuth 5) (WFlush 1) [] [] (RMemory 1000) []).
  change (f_step true true li _ (0, FMemory)) with (Life (PAuth 5) (WFlush 1) [] [] (RBytes 1000 5) []).
  change (f_step true true li _ (0, FBody true)) with (Life (PAuth 5) (WFlush 1) [] [] RLength [1000]).
  unfold f_step, timers. cbn [f_phase]. destruct (N.ltb_spec 5 T); [|lia].
  unfold p_expire, w_expire. cbn [f_phase f_writer]. destruct (N.ltb_spec 5 T); [|lia]. vm_compute. done.
Qed.
Print Assumptions C74_marshal_flush_refuted.

(** ** C75: peers that stop reading are cut off *)
(** What has been accepted for sending at [t1] is written within 10 s for each message waiting, in its order and nothing in between, or the connection takes no more; if flushing does not wait. *)
Theorem C75_written_or_closed ma li t0 h es1 t1 es2 t2 e2 :
  let s1 := f_run false ma li (f_init t0 h) es1 in
  let s2 := f_run false ma li s1 (es2 ++ [(t2, e2)]) in
  List.Forall (fun te => fst te <= t1) es1 ->
  (forall d, f_phase s1 <> PSetup d) ->
  t1 + 10 * N.of_nat (length (unwritten s1)) < t2 ->
  f_writer s2 = WDead \/ (f_written s1 ++ unwritten s1) `prefix_of` f_written s2.
Proof.
  intros s1 s2 H1 HP Ht.
  assert (shape s1) as HS by (apply run_shape, init_shape).
  assert (noflush s1) as HF by (by apply run_noflush).
  assert (wsoon t1 s1) as Hs by (by apply run_soon).
  assert (idle_empty s1) as Hi by (apply run_idle; done).
  assert (wrest (f_written s1 ++ unwritten s1) (t1 + 10 * N.of_nat (length (unwritten s1))) s1) as Hw.
  { intros t. split; [done|]. destruct (f_writer s1) eqn:W; [right|right|right|exfalso; by eapply HF|right|by left].
    - split; [exists []; by rewrite app_nil_r|]. left. unfold unwritten. rewrite W, (Hi W). rewrite app_length. simpl. lia.
    - split; [exists []; by rewrite app_nil_r|]. right. unfold fin. rewrite W. unfold wsoon in Hs. rewrite W in Hs. rewrite app_length.
      replace (length (f_written s1) + length (unwritten s1) - length (f_written s1))%nat with (length (unwritten s1)) by lia. lia.
    - split; [exists []; by rewrite app_nil_r|]. right. unfold fin. rewrite W. unfold wsoon in Hs. rewrite W in Hs. rewrite app_length.
      replace (length (f_written s1) + length (unwritten s1) - length (f_written s1))%nat with (length (unwritten s1)) by lia. lia.
    - split; [exists []; by rewrite app_nil_r|]. left. destruct HS as [HS _]. rewrite W in HS. unfold unwritten. rewrite W, (proj1 HS). rewrite app_length. simpl. lia. }
  eapply rest_done; [exact Ht| |apply run_rest; done]. unfold s2. rewrite f_run_app. apply step_live.
Qed.
Print Assumptions C75_written_or_closed.

(** A message sent while the connection takes messages is accepted, after those before it. *)
Theorem C75_accepted fl ma li t0 h es t m :
  let s1 := f_run fl ma li (f_init t0 h) (es ++ [(t, FPass)]) in
  let s2 := f_run fl ma li s1 [(t, FSend m)] in
  sendable s1 -> f_written s2 ++ unwritten s2 = f_written s1 ++ unwritten s1 ++ [m] /\ sendable s2.
Proof.
  intros s1 s2 [HP HW].
  assert (shape s1) as HS by (apply run_shape, init_shape).
  pose proof (run_pinv fl ma li _ es _ _ t FPass (init_shape t0 h) (init_pinv ma t0 h)) as Hp. fold s1 in Hp.
  assert (wlive t s1) as HL by (unfold s1; rewrite f_run_app; apply step_live).
  assert (idle_empty s1) as Hi by (apply run_idle; done).
  assert (forall x, f_writer (r_expire t x) = f_writer x /\ f_queue (r_expire t x) = f_queue x /\ f_written (r_expire t x) = f_written x /\ f_phase (r_expire t x) = f_phase x) as Hr.
  { intros x. destruct (r_expire_same t x) as (? & ? & ? & ?). done. }
  assert (w_expire t s1 = s1) as Ew.
  { unfold w_expire, wlive in *. destruct (f_writer s1) eqn:W; try done; destruct (N.ltb_spec limit t); try done; lia. }
  assert (timers ma li t s1 = r_expire t s1) as Et.
  { unfold timers. unfold pinv in Hp. destruct HP as [HP|[d HP]]; rewrite HP in *.
    - unfold p_expire. rewrite HP, Ew. done.
    - destruct (N.ltb_spec d t); [lia|]. rewrite Ew. done. }
  set (x := r_expire t s1) in *. destruct (Hr s1) as (X1 & X2 & X3 & X4). fold x in X1, X2, X3, X4.
  assert (s2 = pick li t (enqueue (Some m) x)) as Es.
  { unfold s2, f_run. cbn [fold_left]. unfold f_step. rewrite Et. cbn [f_act]. rewrite X1, X4.
    destruct HP as [HP|[d HP]]; rewrite HP; destruct (f_writer s1); try done. }
  rewrite Es. unfold pick. cbn [f_writer f_queue enqueue f_phase f_written]. unfold sendable, unwritten. rewrite X1, X2, X3, X4.
  destruct (f_writer s1) eqn:W; try done.
  - rewrite (Hi W). csimpl. split; [done|]. split; done.
  - cbn [f_writer f_queue enqueue f_phase f_written]. rewrite ?X1, ?X2, ?X3, ?X4, ?W, omap_app_id. csimpl. split; [by rewrite ?app_assoc|]. split; [done|congruence].
  - cbn [f_writer f_queue enqueue f_phase f_written]. rewrite ?X1, ?X2, ?X3, ?X4, ?W, omap_app_id. csimpl. split; [by rewrite ?app_assoc|]. split; [done|congruence].
  - cbn [f_writer f_queue enqueue f_phase f_written]. rewrite ?X1, ?X2, ?X3, ?X4, ?W, omap_app_id. csimpl. split; [by rewrite ?app_assoc|]. split; [done|congruence].
  - destruct HS as [HS _]. rewrite W in HS. destruct HS as [_ HS], HP as [HP|[d HP]]; congruence.
Qed.
Print Assumptions C75_accepted.

(** The memory for a message of which the rest does not come is given back within 5 s. *)
Theorem C75_unfinished_message fl ma li t0 h es t e n d :
  f_reader (f_run fl ma li (f_init t0 h) (es ++ [(t, e)])) = RBytes n d ->
  n <= f_max /\ exists u, In (u, FMemory) (es ++ [(t, e)]) /\ t <= u + 5.
Proof.
  intros H. rewrite f_run_app in H.
  destruct (step_rfrom fl ma li _ t e es (run_rfrom fl ma li es (f_init t0 h) I)) as [H1 H2].
  unfold rfrom, rlive in *. change (f_run fl ma li ?s [(t, e)]) with (f_step fl ma li s (t, e)) in H. rewrite H in *.
  destruct H1 as [? (u & ? & ->)]. split; [done|]. exists u. done.
Qed.
Print Assumptions C75_unfinished_message.

(** A user of a TCP broker that reads one message and no more: the second is given up at 10. *)
Definition lx_user : list (N * fev) := [(0, FReady true); (1, FAuth true); (2, FSend 1); (2, FSend 2); (3, FLength true); (4, FBytes true); (5, FLength true)].
Example C75_example :
  let s1 := f_run false false 0 (f_init 0 0) (take 4 lx_user) in
  let s2 := f_run false false 0 (f_init 0 0) lx_user in
  sendable s1 /\ unwritten s1 = [1; 2] /\ f_written s2 = [1] /\ unwritten s2 = [2] /\ sendable s2 /\
  f_writer (f_run false false 0 s2 [(11, FPass)]) = WDead /\
  f_written (f_run false false 0 s2 [(6, FBytes true)]) = [1; 2].
Proof. vm_compute. repeat split; try done; by left. Qed.
Example C75_example_reader :
  f_reader (f_run false false 0 (f_init 0 0) [(0, FReady true); (0, FAuth true); (1, FHeader 100); (2, FMemory); (7, FPass)]) = RBytes 100 7 /\
  f_reader (f_run false false 0 (f_init 0 0) [(0, FReady true); (0, FAuth true); (1, FHeader 100); (2, FMemory); (8, FPass)]) = RDead.
Proof. vm_compute. done. Qed.

(** With TCP+TLS, whose flushes wait, a user that stops reading is never cut off: any number of messages waits for any time. *)
Theorem C75_flush_hangs_refuted ma li T ms :
  ma = false ->
  let s := f_run true ma li (f_init 0 5) ([(0, FReady true); (0, FAuth true); (0, FSend 0); (0, FLength true); (0, FBytes true)]
    ++ map (fun m => (0, FSend m)) ms ++ [(T, FPass)]) in
  f_phase s = PServed /\ sendable s /\ f_written s = [] /\ unwritten s = 0 :: ms.
Proof.
  intros -> s.
  assert (forall l q, f_run true false li (Life PServed (WFlush 0) q [] RLength []) (map (fun m => (0, FSend m)) l) =
    Life PServed (WFlush 0) (q ++ (Some <$> l)) [] RLength []) as Hr.
  { induction l as [|m l IH]; intros q; [simpl; rewrite app_nil_r; done|].
    change (f_run true false li (Life PServed (WFlush 0) q [] RLength []) (map (fun m => (0, FSend m)) (m :: l))) with
      (f_run true false li (Life PServed (WFlush 0) (q ++ [Some m]) [] RLength []) (map (fun m => (0, FSend m)) l)).
    rewrite IH. rewrite <- app_assoc. done. }
  assert (s = Life PServed (WFlush 0) (Some <$> ms) [] RLength []) as ->.
  { unfold s. rewrite !f_run_app.
    change (f_run true false li (f_init 0 5) [(0, FReady true); (0, FAuth true); (0, FSend 0); (0, FLength true); (0, FBytes true)])
      with (Life PServed (WFlush 0) [] [] RLength []). rewrite Hr. done. }
  unfold sendable, unwritten. simpl. rewrite omap_some. split; [done|]. split; [|done]. split; [by left|done].
Qed.
Print Assumptions C75_flush_hangs_refuted.
(** A user that neither sends nor is sent anything stays for any time, whether it still exists or not. *)
Theorem C75_silent_peer_stays_refuted fl li T :
  f_phase (f_run fl false li (f_init 0 5) [(0, FReady true); (0, FAuth true); (T, FPass)]) = PServed.
Proof. done. Qed.
Print Assumptions C75_silent_peer_stays_refuted.
