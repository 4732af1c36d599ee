(** Property theorems: clients connect although brokers die (FailModel.v). *)
From stdpp Require Import gmap fin_maps list.
From Coq Require Import NArith Lia.
From Verif Require Import IdModel DiscModel DiscSpec DiscProofs3 DialModel HeartModel HeartSpec HeartProofs RetryModel FailModel FailSpec PropertiesDisc PropertiesHeart PropertiesRetry.

(** * C99: clients connect although brokers die *)
Lemma span_total l : span l = total l.
Proof. done. Qed.
Lemma total_app l l' : total (l ++ l') = (total l + total l')%N.
Proof. induction l as [|x l IH]; [done|]. cbn [app total fold_right]. fold (total (l ++ l')). rewrite IH. fold (total l). lia. Qed.

Lemma failover choice pre ask auth reach T dm db r t :
  (dm + db <= 10000)%N ->
  (forall u, fine (pre u) /\ (ask u <= auth u)%N /\ (total (pre u) + auth u <= dm)%N) ->
  (forall u, (resolving (f_world pre ask auth reach choice u) <= r)%N) ->
  (forall v, (T <= v)%N -> exists b, choice v = Some b /\ forall u, (T <= u)%N -> fine (reach u b) /\ (total (reach u b) <= db)%N) ->
  exists n e, snd (retry (f_world pre ask auth reach choice) n t) = Some e /\ (e <= N.max t (T + 12000 + r) + (dm + db))%N.
Proof.
  intros Hd Hm Hr Hc. apply C77_connects; [done|done|]. intros u Hu. destruct (Hm u) as (Hp & Ha & Ht).
  destruct (Hc (asked pre ask u)) as (b & Eb & Hb); [unfold asked; lia|]. destruct (Hb (u + span (pre u) + auth u)%N ltac:(lia)) as [Hf Hs].
  unfold f_world. rewrite Eb. split.
  - apply List.Forall_app. split; [exact Hp|]. constructor; [by split|exact Hf].
  - rewrite total_app. cbn [total fold_right x_time]. fold (total (reach (u + span (pre u) + auth u)%N b)). lia.
Qed.

(** Broker [g] keeps running. Every other broker either can be reached from [T] on or has written
    no heartbeat since [T]. Then every client gets in, seventy-two seconds after [T] or (if it
    begins later) at once. SQLite. *)
Theorem C99_embedded_failover : forall hist pre ask auth reach g T dm db r t,
  (dm + db <= 10000)%N ->
  (forall u, fine (pre u) /\ (ask u <= auth u)%N /\ (total (pre u) + auth u <= dm)%N) ->
  (forall u, (resolving (f_world pre ask auth reach (e_choice hist) u) <= r)%N) ->
  (forall v, Forall (fun u => (u <= v)%N) (times (hist v)) /\ ids_ok (hist v) /\ (forall n b p ttl k, In (DIssue n b p ttl k) (hist v) -> (p < 2 ^ 32)%N)) ->
  id_ok g -> (forall v, (T <= v)%N -> beating hist g v) ->
  (forall v n1 n2 b n ttl, In (DHeartbeat n1 n2 b n ttl) (hist v) ->
     ttl = 60000%N /\ ((n2 <= T)%N \/ forall u, (T <= u)%N -> fine (reach u b) /\ (total (reach u b) <= db)%N)) ->
  exists n e, snd (retry (f_world pre ask auth reach (e_choice hist)) n t) = Some e /\ (e <= N.max t (T + 72001 + r) + (dm + db))%N.
Proof.
  intros hist pre ask auth reach g T dm db r t Hd Hm Hr Hh Hg Hrun Hb.
  destruct (failover (e_choice hist) pre ask auth reach (T + 60001) dm db r t Hd Hm Hr) as (n & e & Hn & He); [|exists n, e; split; [done|]; lia].
  intros v Hv. destruct (Hh v) as (Ht & Hok & Hp). destruct (Hrun v ltac:(lia)) as (t0 & xs & Hs & Hu & Hend & Heq & Hne).
  pose proof (C37_embedded_least (hist v) v Ht Hok Hp) as H. unfold e_choice. destruct (e_least (e_run false (hist v)) v).2 as [b|].
  - destruct H as (Hib & m & S & (e & Hl & Hle) & _). exists b. split; [done|]. apply last_beat_in in Hl as (n1 & n2 & b' & ttl & Hin & Hpr & -> & _).
    assert (b' = b) as -> by (apply print_inj_ok; [by eapply Hok|done|done]). destruct (Hb _ _ _ _ _ _ Hin) as (-> & [Hold|Hup]); [lia|]. intros u Hu'. apply Hup. lia.
  - exfalso. destruct (C68_running_broker_alive 1000 1 5000 g t0 xs (hist v) v) as [(m & Ha) _]; try done.
    { intros x Hx. destruct (times_5 1000 x). split; [done|]. split; [done|]. by apply Hu. }
    by apply (H g m Hg).
Qed.
Print Assumptions C99_embedded_failover.

(** Redis. *)
Theorem C99_redis_failover : forall global hist pre ask auth reach g T dm db r t,
  (dm + db <= 10000)%N ->
  (forall u, fine (pre u) /\ (ask u <= auth u)%N /\ (total (pre u) + auth u <= dm)%N) ->
  (forall u, (resolving (f_world pre ask auth reach (r_choice global hist) u) <= r)%N) ->
  (forall v, ids_ok (hist v) /\ (forall n1 n2 b n ttl, In (DHeartbeat n1 n2 b n ttl) (hist v) -> (n < 2 ^ 64 - 1)%N)) ->
  id_ok g -> (forall v, (T <= v)%N -> beating hist g v) ->
  (forall v n1 n2 b n ttl, In (DHeartbeat n1 n2 b n ttl) (hist v) ->
     ttl = 60000%N /\ ((n2 <= T)%N \/ forall u, (T <= u)%N -> fine (reach u b) /\ (total (reach u b) <= db)%N)) ->
  exists n e, snd (retry (f_world pre ask auth reach (r_choice global hist)) n t) = Some e /\ (e <= N.max t (T + 72000 + r) + (dm + db))%N.
Proof.
  intros global hist pre ask auth reach g T dm db r t Hd Hm Hr Hh Hg Hrun Hb.
  destruct (failover (r_choice global hist) pre ask auth reach (T + 60000) dm db r t Hd Hm Hr) as (n & e & Hn & He); [|exists n, e; split; [done|]; lia].
  intros v Hv. destruct (Hh v) as (Hok & Hp). destruct (Hrun v ltac:(lia)) as (t0 & xs & Hs & Hu & Hend & Heq & Hne).
  pose proof (C37_redis_least_connections_partial global (hist v) v Hok Hp) as H. unfold r_choice. destruct (r_least (r_run global (hist v)) v) as [b|].
  - destruct H as (Hib & m & (e & Hl & Hle) & _). exists b. split; [done|]. apply last_beat_in in Hl as (n1 & n2 & b' & ttl & Hin & Hpr & -> & _).
    assert (b' = b) as -> by (apply print_inj_ok; [by eapply Hok|done|done]). destruct (Hb _ _ _ _ _ _ Hin) as (-> & [Hold|Hup]); [lia|]. intros u Hu'. apply Hup. lia.
  - exfalso. destruct (C68_running_broker_alive 1000 1 5000 g t0 xs (hist v) v) as [_ (m & Ha)]; try done.
    { intros x Hx. destruct (times_5 1000 x). split; [done|]. split; [done|]. by apply Hu. }
    by apply (H g m).
Qed.
Print Assumptions C99_redis_failover.

(** * Examples *)
(** Brokers 1 and 2. Broker 2 wrote a heartbeat at 0, with no users, and died; broker 1 has five
    users and writes a heartbeat every ten seconds, for ever. *)
Definition fx_g : bid := Bid [49]%N [50]%N.
Definition fx_dead : bid := Bid [51]%N [52]%N.
Definition fx_round : hround := HRound 5 0 (Some (0, 0))%N 0 true.
Definition fx_rounds (v : N) : list hround := repeat fx_round (N.to_nat (v / 10000 + 1)).
Definition fx_hist (v : N) : list dop := DHeartbeat 0 0 fx_dead 0 60000 :: happened v (beats 1000 fx_g 0 (fx_rounds v)).
Definition fx_pre (u : N) : list stepx := [Step KResolve 0 true; Step KDial 20 true].
Definition fx_reach (v : N) (b : bid) : list stepx :=
  if bool_decide (b = fx_g) then [Step KResolve 0 true; Step KDial 20 true; Step KAuth 30 true] else [Step KResolve 0 true; Step KDial 20 false].
Definition fx_world (choice : N -> option bid) : N -> list stepx := f_world fx_pre (fun _ => 10%N) (fun _ => 30%N) fx_reach choice.

Lemma fx_in v o : In o (fx_hist v) -> o = DHeartbeat 0 0 fx_dead 0 60000 \/ exists a, o = DHeartbeat a a fx_g 5 60000 /\ (a <= v)%N.
Proof.
  intros [<-|Hin]; [by left|]. right. unfold happened in Hin. apply in_map_iff in Hin as ([m o'] & <- & Hin). apply filter_In in Hin as [Hin Hle%N.leb_le]. cbn in Hle.
  apply beats_shape in Hin as (a & x & -> & Hx & Ha & _). apply repeat_spec in Hx as ->. exists a. split; [done|]. lia.
Qed.
Lemma filter_all {A} (f : A -> bool) l : (forall x, In x l -> f x = true) -> List.filter f l = l.
Proof. induction l as [|x l IH]; intros H; [done|]. cbn. rewrite H by (by left). f_equal. apply IH. intros y Hy. apply H. by right. Qed.
Lemma fx_loop_end t n : loop_end 1000 t (repeat fx_round n) = (t + N.of_nat n * 10000)%N.
Proof. revert t. induction n as [|n IH]; intros t; cbn [repeat loop_end]; [lia|]. rewrite IH. change (round_end 1000 t fx_round) with (t + 0 + 0 + 10000)%N. lia. Qed.
Lemma fx_beating v : beating fx_hist fx_g v.
Proof.
  exists 0%N, (fx_rounds v). split; [|split; [|split; [|split]]].
  - apply (steady_elim _ 1 0); [lia|]. unfold fx_rounds. generalize (N.to_nat (v / 10000 + 1)). induction n as [|n IH]; [exact I|]. cbn [repeat steady]. left. split; [discriminate|exact IH].
  - intros x Hx. apply repeat_spec in Hx as ->. vm_compute. reflexivity.
  - unfold fx_rounds. rewrite fx_loop_end. pose proof (N.mod_lt v 10000 ltac:(lia)). pose proof (N.div_mod v 10000 ltac:(lia)). lia.
  - unfold beats_in, fx_hist. change (List.filter (beat_of fx_g) (DHeartbeat 0 0 fx_dead 0 60000 :: happened v (beats 1000 fx_g 0 (fx_rounds v)))) with (List.filter (beat_of fx_g) (happened v (beats 1000 fx_g 0 (fx_rounds v)))).
    apply filter_all. intros o Hin. unfold happened in Hin. apply in_map_iff in Hin as ([m o'] & <- & Hin). apply filter_In in Hin as [Hin _].
    apply beats_shape in Hin as (a & x & -> & _). cbn [snd beat_of]. by apply bool_decide_eq_true.
  - unfold fx_hist, fx_rounds. destruct (N.to_nat (v / 10000 + 1)) as [|n] eqn:En; [generalize dependent (v / 10000)%N; intros; lia|]. cbn [repeat beats]. rewrite happened_app.
    assert (E : happened v (round_beat 1000 fx_g 0 fx_round) = [DHeartbeat 0 0 fx_g 5 60000]%N).
    { unfold round_beat, happened. change (written 1000 fx_round) with (Some (0, 0)%N). cbn [List.filter fst map snd]. change (0 + 0)%N with 0%N. destruct (N.leb_spec 0 v); [done|lia]. }
    rewrite E. unfold beats_in. cbn [app]. change (List.filter (beat_of fx_g) (DHeartbeat 0 0 fx_dead 0 60000 :: DHeartbeat 0 0 fx_g 5 60000 :: happened v (beats 1000 fx_g (round_end 1000 0 fx_round) (repeat fx_round n))))%N
      with (DHeartbeat 0 0 fx_g 5 60000 :: List.filter (beat_of fx_g) (happened v (beats 1000 fx_g (round_end 1000 0 fx_round) (repeat fx_round n))))%N. discriminate.
Qed.
Lemma fx_ids v : ids_ok (fx_hist v).
Proof. intros n1 n2 b n ttl [H|(a & H & _)]%fx_in; injection H as _ _ -> _ _; unfold id_ok; cbn; intuition discriminate. Qed.
Lemma fx_times v : Forall (fun u => (u <= v)%N) (times (fx_hist v)).
Proof.
  apply List.Forall_forall. intros u Hu. unfold times in Hu. apply in_concat in Hu as (l & Hl & Hu). apply in_map_iff in Hl as (o & <- & Ho).
  apply fx_in in Ho as [->|(a & -> & Ha)]; cbn in Hu; destruct Hu as [<-|[<-|[]]]; lia.
Qed.
Lemma fx_reached u : fine (fx_reach u fx_g) /\ (total (fx_reach u fx_g) <= 50)%N.
Proof. unfold fx_reach. rewrite bool_decide_true by done. split; [|cbn; lia]. repeat constructor; cbn; intros m [= <-]; lia. Qed.
Lemma fx_resolving choice u : (resolving (fx_world choice u) <= 0)%N.
Proof. unfold fx_world, f_world, fx_pre, fx_reach. destruct (choice _) as [b|]; [|cbn; lia]. destruct (bool_decide (b = fx_g)); cbn; lia. Qed.
Lemma fx_marshal (u : N) : fine (fx_pre u) /\ (10 <= 30)%N /\ (total (fx_pre u) + 30 <= 50)%N.
Proof. split; [|cbn; lia]. repeat constructor; cbn; intros m [= <-]; lia. Qed.
Example C99_nonvacuous : forall global t,
  (exists n e, snd (retry (fx_world (e_choice fx_hist)) n t) = Some e /\ (e <= N.max t (0 + 72001 + 0) + (50 + 50))%N)
  /\ (exists n e, snd (retry (fx_world (r_choice global fx_hist)) n t) = Some e /\ (e <= N.max t (0 + 72000 + 0) + (50 + 50))%N).
Proof.
  intros global t.
  assert (Hb : forall v n1 n2 b n ttl, In (DHeartbeat n1 n2 b n ttl) (fx_hist v) -> ttl = 60000%N /\ ((n2 <= 0)%N \/ forall u, (0 <= u)%N -> fine (fx_reach u b) /\ (total (fx_reach u b) <= 50)%N)).
  { intros v n1 n2 b n ttl [H|(a & H & _)]%fx_in; injection H as _ -> -> _ ->; (split; [done|]); [left; lia|]. right. intros u _. apply fx_reached. }
  assert (Hid : id_ok fx_g) by (unfold id_ok; cbn; intuition discriminate).
  split.
  - apply (C99_embedded_failover fx_hist fx_pre (fun _ => 10%N) (fun _ => 30%N) fx_reach fx_g); [lia|exact fx_marshal|apply fx_resolving| |exact Hid|intros v _; apply fx_beating|exact Hb].
    intros v. split; [apply fx_times|]. split; [apply fx_ids|]. intros n b p ttl k [H|(a & H & _)]%fx_in; discriminate.
  - apply (C99_redis_failover global fx_hist fx_pre (fun _ => 10%N) (fun _ => 30%N) fx_reach fx_g); [lia|exact fx_marshal|apply fx_resolving| |exact Hid|intros v _; apply fx_beating|exact Hb].
    intros v. split; [apply fx_ids|]. intros n1 n2 b n ttl [H|(a & H & _)]%fx_in; injection H as _ _ _ -> _; vm_compute; reflexivity.
Qed.

(** * C99: it may take a minute *)
Lemma retry_det w n m : forall t e e', snd (retry w n t) = Some e -> snd (retry w m t) = Some e' -> e = e'.
Proof.
  revert m. induction n as [|n IH]; intros m t e e' H H'; [done|]. destruct m as [|m]; [done|]. cbn [retry] in H, H'.
  destruct (attempt t (w t)) as [x ok]. destruct ok; cbn [snd] in *; [congruence|].
  destruct (retry w n (x + 2000)) as [l y] eqn:E. destruct (retry w m (x + 2000)) as [l' y'] eqn:E'. cbn [snd] in *. apply (IH m (x + 2000)%N); by rewrite ?E, ?E'.
Qed.
(** One broker out of two dies; a client that comes a second later does not get in for a minute,
    although the other broker can be reached all the time: the marshal keeps sending it to the one
    that has died, which had fewer users. *)
Theorem C99_at_once_refuted :
  (forall v, beating fx_hist fx_g v) /\ (forall u, fine (fx_reach u fx_g) /\ (total (fx_reach u fx_g) <= 50)%N)
  /\ (forall n e, snd (retry (fx_world (e_choice fx_hist)) n 1000) = Some e -> (60000 < e)%N)
  /\ (forall n e, snd (retry (fx_world (r_choice false fx_hist)) n 1000) = Some e -> (60000 < e)%N).
Proof.
  split; [exact fx_beating|]. split; [exact fx_reached|]. split.
  - intros n e H. assert (E : snd (retry (fx_world (e_choice fx_hist)) 40 1000) = Some 61130%N) by (vm_compute; reflexivity).
    rewrite (retry_det _ _ _ _ _ _ H E). lia.
  - intros n e H. assert (E : snd (retry (fx_world (r_choice false fx_hist)) 40 1000) = Some 61130%N) by (vm_compute; reflexivity).
    rewrite (retry_det _ _ _ _ _ _ H E). lia.
Qed.
Print Assumptions C99_at_once_refuted.
