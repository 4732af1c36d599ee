(** Property theorems: clients connect although brokers die and clocks differ (FailModel.v, SkewModel.v). *)
From stdpp Require Import gmap fin_maps list.
From Coq Require Import NArith Lia.
From Verif Require Import IdModel DiscModel DiscSpec DiscProofs3 DialModel HeartModel HeartSpec HeartProofs RetryModel FailModel FailSpec SkewModel SkewHeartProofs PropertiesSkew PropertiesRetry PropertiesFail.

(** * C99, for clocks that differ by at most [d], which is less than fifteen seconds *)
Theorem C99_skewed_failover : forall off i d hist pre ask auth reach g T dm db r t,
  (forall i j, (off i <= off j + d)%N) -> (d < 15000)%N ->
  (dm + db <= 10000)%N ->
  (forall u, fine (pre u) /\ (ask u <= auth u)%N /\ (total (pre u) + auth u <= dm)%N) ->
  (forall u, (resolving (f_world pre ask auth reach (s_choice off i hist) u) <= r)%N) ->
  (forall v, Forall (fun u => (u <= v)%N) (times (truly (hist v))) /\ ids_ok (truly (hist v)) /\ (forall n b p ttl k, In (DIssue n b p ttl k) (truly (hist v)) -> (p < 2 ^ 32)%N)) ->
  (forall v, (T <= v)%N -> beating (fun v => truly (hist v)) g v) ->
  (forall v n1 n2 b n ttl, In (DHeartbeat n1 n2 b n ttl) (truly (hist v)) ->
     ttl = 60000%N /\ ((n2 <= T)%N \/ forall u, (T <= u)%N -> fine (reach u b) /\ (total (reach u b) <= db)%N)) ->
  exists n e, snd (retry (f_world pre ask auth reach (s_choice off i hist)) n t) = Some e /\ (e <= N.max t (T + 72001 + d + r) + (dm + db))%N.
Proof.
  intros off i d hist pre ask auth reach g T dm db r t Hoff Hd15 Hd Hm Hr Hh Hrun Hb.
  destruct (failover (s_choice off i hist) pre ask auth reach (T + 60001 + d) dm db r t Hd Hm Hr) as (n & e & Hn & He); [|exists n, e; split; [done|]; lia].
  intros v Hv. destruct (Hh v) as (Ht & Hok & Hp). destruct (Hrun v ltac:(lia)) as (t0 & xs & Hs & Hu & Hend & Heq & Hne).
  pose proof (C97_embedded_choice off d (hist v) i v Hoff Hok Hp Ht) as H. unfold s_choice. destruct (e_least (e_run false (own_clocks off (hist v))) (v + off i)).2 as [b|].
  - destruct H as (Hib & m & e & Hl & Hle). exists b. split; [done|]. apply last_beat_in in Hl as (n1 & n2 & b' & ttl & Hin & Hpr & -> & _).
    assert (b' = b) as -> by (apply print_inj_ok; [by eapply Hok|done|done]). destruct (Hb _ _ _ _ _ _ Hin) as (-> & [Hold|Hup]); [lia|]. intros u Hu'. apply Hup. lia.
  - exfalso. cbn beta in Heq, Hne. apply steady_intro in Hs; [|apply wrote_dec]. rewrite Heq in Hne.
    destruct (margin_start 1000 g 1 5000 (Some (2 ^ 32)%N) d ltac:(lia) 0 t0 xs v) as (n & e & Hl & He); try done; [|lia|].
    { apply List.Forall_forall. intros x Hx. destruct (times_5 1000 x). split; [done|]. split; [done|]. by apply Hu. }
    specialize (H g n e). rewrite last_beat_filter, Heq in H. specialize (H Hl). lia.
Qed.
Print Assumptions C99_skewed_failover.

(** * Example: the brokers of PropertiesFail.v on machine 1, the marshal's machine 2 fourteen seconds ahead *)
Definition sf_off (i : N) : N := if (i =? 2)%N then 14000%N else 0%N.
Definition sf_hist (v : N) : history := map (fun o => (1%N, o)) (fx_hist v).
Lemma sf_truly v : truly (sf_hist v) = fx_hist v.
Proof. unfold truly, sf_hist. rewrite map_map. cbn [snd]. apply map_id. Qed.
Example C99_skewed_nonvacuous : forall t,
  exists n e, snd (retry (fx_world (s_choice sf_off 2 sf_hist)) n t) = Some e /\ (e <= N.max t (0 + 72001 + 14000 + 0) + (50 + 50))%N.
Proof.
  intros t. apply (C99_skewed_failover sf_off 2 14000 sf_hist fx_pre (fun _ => 10%N) (fun _ => 30%N) fx_reach fx_g);
    [intros i j; unfold sf_off; destruct (i =? 2)%N, (j =? 2)%N; lia|lia|lia|exact fx_marshal|apply fx_resolving|..].
  - intros v. rewrite sf_truly. split; [apply fx_times|]. split; [apply fx_ids|]. intros n b p ttl k [H|(a & H & _)]%fx_in; discriminate.
  - intros v _. pose proof (fx_beating v) as (t0 & xs & H). exists t0, xs. rewrite sf_truly. exact H.
  - intros v n1 n2 b n ttl. rewrite sf_truly. intros [H|(a & H & _)]%fx_in; injection H as _ -> -> _ ->; (split; [done|]); [left; lia|]. right. intros u _. apply fx_reached.
Qed.
