(** Property theorems: machines whose clocks differ (SkewModel.v). Times in hypotheses and
    conclusions are true ones; [off i] is what the clock of machine [i] is ahead of the slowest. *)
From stdpp Require Import gmap fin_maps list.
From Coq Require Import NArith Lia.
From Verif Require Import IdModel IdProofs DecModel DiscModel DiscSpec DiscProofs DiscProofs2 DiscProofs3 SkewModel SkewProofs.

(** * C97: clocks that differ a little do no harm *)
(** SQLite, machine [i] (broker [self]) lists the others at [now]. *)
Theorem C97_embedded_listing : forall global off d h i now self,
  (forall i j, (off i <= off j + d)%N) ->
  ids_ok (truly h) -> Forall (fun t => (t <= now)%N) (times (truly h)) ->
  exists S, (e_other_brokers (e_run global (own_clocks off h)) (now + off i) self).2 = Some S
    /\ (forall b n e, b <> self -> id_ok b -> last_beat (Some (2 ^ 32)%N) (truly h) (bid_print b) = Some (n, e) -> (now + d <= e)%N -> b ∈ S)
    /\ (forall b, b ∈ S -> exists n e, last_beat (Some (2 ^ 32)%N) (truly h) (bid_print b) = Some (n, e) /\ (now <= e + d)%N).
Proof.
  intros global off d h i now self Hd Hok Hm. destruct (e_others_rows global (own_clocks off h) (now + off i) self) as (S & HS & Hb); [by apply (ids_ahead (fun y => off y.1))|].
  exists S. split; [done|]. split.
  - intros b n e Hne Hid Hl He. apply Hb. split; [done|]. split; [done|]. destruct (row_kept global off d Hd h i now _ n e Hm Hl He) as [e' Hr]. by eexists.
  - intros b Hin. apply Hb in Hin as (_ & _ & r & Hr). apply (row_fresh global off d Hd) in Hr as (e & Hl & He). eauto.
Qed.
Print Assumptions C97_embedded_listing.

(** SQLite, the marshal on machine [i] looks for a broker at [now]. *)
Theorem C97_embedded_choice : forall off d h i now,
  (forall i j, (off i <= off j + d)%N) ->
  ids_ok (truly h) -> (forall n b p ttl k, In (DIssue n b p ttl k) (truly h) -> (p < 2 ^ 32)%N) ->
  Forall (fun t => (t <= now)%N) (times (truly h)) ->
  match (e_least (e_run false (own_clocks off h)) (now + off i)).2 with
  | Some b => id_ok b /\ exists n e, last_beat (Some (2 ^ 32)%N) (truly h) (bid_print b) = Some (n, e) /\ (now <= e + d)%N
  | None => forall b n e, last_beat (Some (2 ^ 32)%N) (truly h) (bid_print b) = Some (n, e) -> (e < now + d)%N
  end.
Proof. intros off d h i now Hd. by apply skew_choice. Qed.
Print Assumptions C97_embedded_choice.

(** SQLite: machine [i] issued a permit at [t]; machine [j] (broker [b]) validates it, that is
    cleans up at [now] and then asks. *)
Theorem C97_embedded_permit_accepted : forall global off d h1 i t b p ttl k h2 j now now',
  (forall i j, (off i <= off j + d)%N) ->
  (p < 2 ^ 32)%N -> e_permits (e_run global (own_clocks off h1)) !! p = None ->
  (forall n b', ~ In (DTake n b' p) (truly h2)) -> Forall (fun t => (t <= now)%N) (times (truly h2)) ->
  (now + d <= t + ttl)%N ->
  e_answer global (own_clocks off (h1 ++ (i, DIssue t b p ttl k) :: h2 ++ [(j, DPrune now)])) (ahead (off j) (DTake now' b p)) = Some k.
Proof.
  intros global off d h1 i t b p ttl k h2 j now now' Hd Hp Hfree Hno Hm He. cbn [ahead]. apply e_take_answer. split; [done|].
  rewrite (permit_kept global off d Hd h1 i t b p ttl k (h2 ++ [(j, DPrune now)]) now Hfree).
  - eexists. split; [done|]. cbn. split; [done|]. destruct global; auto.
  - unfold truly. rewrite map_app. cbn [map snd]. rewrite times_snoc. apply Forall_app. split; [exact Hm|]. cbn. by repeat constructor.
  - done.
  - intros n b' Hin. unfold truly in Hin. rewrite map_app in Hin. apply in_app_iff in Hin as [Hin|[Hin|[]]]; [by apply (Hno n b')|done].
Qed.
Print Assumptions C97_embedded_permit_accepted.

(** Whatever is accepted was issued, and has not been expired for longer than the clocks differ. *)
Theorem C97_embedded_permit_lapses : forall off d h j now now' b p k,
  (forall i j, (off i <= off j + d)%N) -> id_ok b ->
  e_answer false (own_clocks off (h ++ [(j, DPrune now)])) (ahead (off j) (DTake now' b p)) = Some k ->
  exists t b0 ttl, In (DIssue t b0 p ttl k) (truly h) /\ bid_print b0 = bid_print b /\ (now <= t + ttl + d)%N.
Proof.
  intros off d h j now now' b p k Hd Hb H. cbn [ahead] in H. apply (e_accept_reason false) in H as (os1 & t & b0 & ttl & os2 & Heq & [?|Hp] & Hpr & _); [done|].
  unfold own_clocks in Heq. rewrite map_app in Heq. cbn [map fst snd ahead] in Heq.
  assert (Hin : In (DPrune (now + off j)) os2 /\ In (DIssue t b0 p ttl k) (own_clocks off h)).
  { apply list_snoc_inv in Heq as [(? & ? & _)|(l & -> & Hl)]; [done|]. split; [apply in_app_iff; right; by left|]. unfold own_clocks. rewrite Hl. apply in_app_iff. right. by left. }
  destruct Hin as [Hin1 Hin2]. specialize (Hpr _ Hin1). unfold own_clocks in Hin2. apply in_map_iff in Hin2 as ([i o] & Ho & Hin2). destruct o; cbn in Ho; try discriminate.
  injection Ho as <- -> -> -> ->. exists now0, b0, ttl. split; [unfold truly; apply in_map_iff; eexists; split; [|exact Hin2]; done|]. split; [done|]. cbn [fst] in *. specialize (Hd i j). lia.
Qed.
Print Assumptions C97_embedded_permit_lapses.

(** Redis: nobody's clock matters, not even that of the server. *)
Theorem C97_redis_clocks : forall global d h,
  (forall o, r_answer global (server_clock d h) (ahead d o) = r_answer global (truly h) o)
  /\ (forall now self, ids_ok (truly h) -> id_ok self ->
        exists S, r_other_brokers (r_run global (server_clock d h)) (now + d) self = Some S
          /\ forall b, b ∈ S <-> b <> self /\ id_ok b /\ exists n, r_alive (truly h) now b n)
  /\ (forall now, ids_ok (truly h) -> (forall n1 n2 b n ttl, In (DHeartbeat n1 n2 b n ttl) (truly h) -> (n < 2 ^ 64 - 1)%N) ->
        match r_least (r_run global (server_clock d h)) (now + d) with
        | Some b => id_ok b /\ exists n, r_alive (truly h) now b n /\ forall b' n', r_alive (truly h) now b' n' -> (n <= n')%N
        | None => forall b n, ~ r_alive (truly h) now b n
        end).
Proof.
  intros global d h. split; [|split].
  - intros o. unfold r_answer. rewrite later_run. apply later_step.
  - intros now self Hok Hs. destruct (r_others global (server_clock d h) (now + d) self) as (S & HS & Hb); [by apply (ids_ahead (fun _ => d))|done|].
    exists S. split; [done|]. intros b. rewrite Hb. split; intros (H1 & H2 & n & Hn); (split; [done|]); (split; [done|]).
    + exists n. apply (alive_server d). exact Hn.
    + exists n. apply (alive_server d) in Hn. exact Hn.
  - intros now Hok Hlim. pose proof (r_least_spec global (server_clock d h) (now + d)) as Hl.
    assert (Hok' : ids_ok (server_clock d h)) by (by apply (ids_ahead (fun _ => d))).
    assert (Hlim' : forall n1 n2 b n ttl, In (DHeartbeat n1 n2 b n ttl) (server_clock d h) -> (n < 2 ^ 64 - 1)%N).
    { intros n1 n2 b n ttl Hin. apply in_map_iff in Hin as ([i o] & Heq & Hin). destruct o; cbn in Heq; try discriminate. injection Heq as <- <- <- <- <-.
      eapply Hlim. unfold truly. apply in_map_iff. eexists. split; [|exact Hin]. done. }
    specialize (Hl Hok' Hlim'). destruct (r_least (r_run global (server_clock d h)) (now + d)) as [b|].
    + destruct Hl as (Hb & n & Hn & Hmin). split; [done|]. exists n. split; [by apply (alive_server d)|]. intros b' n' Hn'. apply (Hmin b'). by apply (alive_server d).
    + intros b n Hn. apply (Hl b n). by apply (alive_server d).
Qed.
Print Assumptions C97_redis_clocks.

(** * Examples *)
(** Brokers 1 (machine 1, clock right) and 2 (machine 2, ten seconds ahead); the marshal's
    machine 3 is four seconds ahead. *)
Definition sk_b1 : bid := Bid [98;49]%N [112;49]%N.
Definition sk_b2 : bid := Bid [98;50]%N [112;50]%N.
Definition sk_off (i : N) : N := match i with 2 => 10 | 3 => 4 | _ => 0 end%N.
Definition sk_h : history :=
  [(1, DHeartbeat 100 100 sk_b1 5 60); (2, DHeartbeat 105 105 sk_b2 3 60); (1, DPruneBrokers 105); (3, DPruneBrokers 108); (3, DIssue 108 sk_b2 7 30 [9]); (1, DHeartbeat 120 120 sk_b1 6 60)]%N.
Lemma ids_listed l : forallb (fun o => match o with DHeartbeat _ _ b _ _ => forallb (fun x => negb (x =? slash)%N) (bpub b) && forallb (fun x => negb (x =? slash)%N) (bpriv b) | _ => true end) l = true -> ids_ok l.
Proof.
  intros H n1 n2 b n ttl Hin. rewrite forallb_forall in H. specialize (H _ Hin). cbn in H. apply andb_prop in H as [H1 H2]. rewrite forallb_forall in H1, H2.
  split; intros Hs; [apply H1 in Hs|apply H2 in Hs]; by rewrite N.eqb_refl in Hs.
Qed.
Lemma sk_ids : ids_ok (truly sk_h).
Proof. apply ids_listed. by vm_compute. Qed.
Example C97_nonvacuous :
  (forall i j, (sk_off i <= sk_off j + 10)%N) /\ ids_ok (truly sk_h) /\ Forall (fun t => (t <= 125)%N) (times (truly sk_h))
  /\ (forall n b p ttl k, In (DIssue n b p ttl k) (truly sk_h) -> (p < 2 ^ 32)%N)
  /\ last_beat (Some (2 ^ 32)%N) (truly sk_h) (bid_print sk_b1) = Some (6, 180)%N /\ last_beat (Some (2 ^ 32)%N) (truly sk_h) (bid_print sk_b2) = Some (3, 165)%N
  /\ elements <$> (e_other_brokers (e_run false (own_clocks sk_off sk_h)) (125 + sk_off 2) sk_b2).2 = Some [sk_b1]
  /\ (e_least (e_run false (own_clocks sk_off sk_h)) (125 + sk_off 3)).2 = Some sk_b2
  /\ e_answer false (own_clocks sk_off (sk_h ++ [(2, DPrune 125)]%N)) (ahead (sk_off 2) (DTake 125 sk_b2 7)) = Some [9]%N
  (* eight seconds later the permit has lapsed for the broker, five seconds early *)
  /\ e_answer false (own_clocks sk_off (sk_h ++ [(2, DPrune 133)]%N)) (ahead (sk_off 2) (DTake 133 sk_b2 7)) = None.
Proof.
  split.
  { intros i j. unfold sk_off. destruct i as [|[[?|?|]|[?|?|]|]]; destruct j as [|[[?|?|]|[?|?|]|]]; lia. }
  split; [exact sk_ids|]. split; [apply (bool_decide_unpack _); by vm_compute|].
  split. { intros n b p ttl k Hin. unfold truly, sk_h in Hin. cbn in Hin. repeat destruct Hin as [Hin|Hin]; try discriminate; [|done]. injection Hin as <- <- <- <- <-. done. }
  repeat (split; [by vm_compute|]). by vm_compute.
Qed.

(** * C97: what goes wrong otherwise *)
(** A machine whose clock is more than a minute ahead lists the brokers; all of them vanish, for
    machines with the right time as well. *)
Theorem C97_fast_clock_erases_refuted :
  ~ (forall off h i now self b n e,
  ids_ok (truly h) -> Forall (fun t => (t <= now)%N) (times (truly h)) -> off i = 0%N -> (forall j o, In (j, o) h -> o <> DPruneBrokers now -> off j = 0%N) ->
  b <> self -> id_ok b -> last_beat (Some (2 ^ 32)%N) (truly h) (bid_print b) = Some (n, e) -> (now + 60 <= e)%N ->
  exists S, (e_other_brokers (e_run false (own_clocks off h)) (now + off i) self).2 = Some S /\ b ∈ S).
Proof.
  intros H. set (h := [(1, DHeartbeat 100 100 sk_b1 5 60); (2, DPruneBrokers 100)]%N : history).
  destruct (H (fun j => if (j =? 2)%N then 61%N else 0%N) h 3%N 100%N sk_b2 sk_b1 5%N 160%N) as (S & HS & Hin).
  - apply ids_listed. by vm_compute.
  - apply (bool_decide_unpack _). by vm_compute.
  - done.
  - intros j o [Heq|[Heq|[]]]; injection Heq as <- <-; done.
  - done.
  - unfold id_ok. cbn. intuition discriminate.
  - by vm_compute.
  - lia.
  - assert (E : elements <$> (e_other_brokers (e_run false (own_clocks (fun j => if (j =? 2)%N then 61%N else 0%N) h)) (100 + 0) sk_b2).2 = Some []) by (by vm_compute).
    cbn beta in HS. change (if (3 =? 2)%N then 61%N else 0%N) with 0%N in HS. rewrite HS in E. cbn in E. injection E as E. apply elements_empty_iff in E. set_solver.
Qed.
Print Assumptions C97_fast_clock_erases_refuted.

(** A broker whose clock is more than half a minute ahead of the marshal's refuses a permit that
    was issued this very second for this broker; a user can never log in there. *)
Theorem C97_fast_broker_refuses_refuted :
  ~ (forall off i j t b p k,
  (p < 2 ^ 32)%N -> id_ok b ->
  e_answer false (own_clocks off ([(i, DIssue t b p 30 k)] ++ [(j, DPrune t)])) (ahead (off j) (DTake t b p)) = Some k).
Proof.
  intros H. specialize (H (fun j => if (j =? 2)%N then 31%N else 0%N) 1%N 2%N 100%N sk_b1 7%N [9]%N ltac:(done) ltac:(unfold id_ok; cbn; intuition discriminate)).
  vm_compute in H. discriminate H.
Qed.
Print Assumptions C97_fast_broker_refuses_refuted.
