(** Proofs about the spread of users over brokers. *)
From stdpp Require Import gmap list.
From Coq Require Import NArith Lia.
From Verif Require Import IdModel DiscModel DiscSpec DiscProofs DiscProofs2 DiscProofs3 LoadModel LoadSpec.

Lemma w_run_snoc be es e : w_run be (es ++ [e]) = w_step be (w_run be es) e.
Proof. unfold w_run. by rewrite fold_left_app. Qed.

(** * Permit rows of a broker *)
Definition row (be : backend) (h : list dop) (b : bid) (p : N) : Prop :=
  match be with
  | Embedded => exists r, e_permits (e_run false h) !! p = Some r /\ pr_ident r = bid_print b
  | Redis => is_Some (r_keys (r_run false h) !! permit_key false b p)
  end.

Lemma row_snoc be h o b p :
  row be (h ++ [o]) b p ->
  row be h b p \/ exists now b0 ttl key, o = DIssue now b0 p ttl key /\ bid_print b0 = bid_print b.
Proof.
  destruct be; cbn [row].
  - intros (r & Hr & Hi). rewrite e_run_snoc, e_step_permit in Hr.
    destruct o as [now b0 p0 ttl key|now|now b0 p0|? ? ? ? ?|now|l]; try (left; by exists r).
    + case_decide as Hd; [subst|left; by exists r]. destruct (e_permits _ !! p) as [r0|] eqn:E.
      * injection Hr as <-. left. by exists r0.
      * injection Hr as <-. cbn in Hi. right. by exists now, b0, ttl, key.
    + destruct (e_permits _ !! p) as [r0|] eqn:E; [|done]. destruct (_ <? _)%N; [done|]. injection Hr as <-. left. by exists r0.
    + case_decide; [|left; by exists r]. destruct (e_step _ _ _).2; [done|]. left. by exists r.
  - rewrite r_run_snoc. intros H. rewrite r_step_permit in H.
    destruct o as [now b0 p0 ttl key|now|now b0 p0|? ? ? ? ?|now|l]; try (by left).
    + case_decide as Hd; [|by left]. apply permit_key_inj in Hd as [Hb ->]. right. by exists now, b0, ttl, key.
    + case_decide; [|by left]. by destruct H.
Qed.

Lemma row_keep be h o b p : (forall now b0 ttl key, o <> DIssue now b0 p ttl key) -> row be (h ++ [o]) b p -> row be h b p.
Proof. intros Hn [?|(now & b0 & ttl & key & -> & _)]%row_snoc; [done|]. by edestruct Hn. Qed.

Lemma validates_row be h now b p key : validates be h now b p = Some key -> row be h b p.
Proof.
  destruct be; cbn [validates row].
  - intros (_ & r & ? & _ & [?|?])%e_take_answer; [done|]. by exists r.
  - intros (e & -> & _)%r_take_answer. done.
Qed.

Lemma taken_row be h now b p key : validates be h now b p = Some key -> ~ row be (h ++ [DTake now b p]) b p.
Proof.
  destruct be; cbn [validates row].
  - intros Ha (r & Hr & _). rewrite e_run_snoc, e_step_permit, decide_True in Hr by done.
    unfold e_answer in Ha. by rewrite Ha in Hr.
  - intros _. rewrite r_run_snoc, r_step_permit, decide_True by done. by intros [? ?].
Qed.

(** * The history of a run *)
Lemma hist_step be w e : exists l, w_hist (w_step be w e) = w_hist w ++ l /\ (w_now w <= w_now (w_step be w e))%N
  /\ Forall (fun t => t = w_now w) (times l)
  /\ (forall n1 n2 b n ttl, In (DHeartbeat n1 n2 b n ttl) l -> e = WBeat b /\ n = connected w b)
  /\ (forall n b p ttl k, In (DIssue n b p ttl k) l -> exists h, e = WIssue h k p /\ w_pend w !! h = Some b /\ n = w_now w /\ ttl = 30%N).
Proof.
  assert (Hno : exists l, w_hist w = w_hist w ++ l /\ (w_now w <= w_now w)%N /\ Forall (fun t => t = w_now w) (times l)
    /\ (forall n1 n2 b n ttl, In (DHeartbeat n1 n2 b n ttl) l -> e = WBeat b /\ n = connected w b)
    /\ (forall n b p ttl k, In (DIssue n b p ttl k) l -> exists h, e = WIssue h k p /\ w_pend w !! h = Some b /\ n = w_now w /\ ttl = 30%N)).
  { exists []. rewrite app_nil_r. split; [done|]. split; [lia|]. split; [constructor|]. split; intros ? ? ? ? ? []. }
  destruct e as [d|h|h key p|b p|b|b key]; cbn [w_step].
  - exists []. cbn. rewrite app_nil_r. repeat split; try done; lia.
  - unfold choose. destruct (w_pend w !! h); [exact Hno|].
    destruct (choice be (w_hist w) (w_now w)) as [b|];
      exists [DPruneBrokers (w_now w); DPrune (w_now w)]; cbn [w_hist w_now];
      (split; [done|]; split; [lia|]; split; [repeat constructor|];
       split; intros ? ? ? ? ? [?|[?|[]]]; discriminate).
  - unfold issue. destruct (w_pend w !! h) as [b|] eqn:Ep; [|exact Hno].
    destruct (issues _ _ _ _ _ _); cbn [w_hist w_now]; [|exact Hno].
    exists [DIssue (w_now w) b p 30 key]. split; [done|]. split; [lia|]. split; [repeat constructor|]. split.
    + intros ? ? ? ? ? [?|[]]; discriminate.
    + intros ? ? ? ? ? [H|[]]. injection H as <- <- <- <- <-. by exists h.
  - unfold present. cbn [w_hist w_now]. exists [DPrune (w_now w); DTake (w_now w) b p].
    split; [by rewrite <- app_assoc|]. split; [lia|]. split; [repeat constructor|].
    split; intros ? ? ? ? ? [?|[?|[]]]; discriminate.
  - unfold beat. cbn [w_hist w_now]. exists [DHeartbeat (w_now w) (w_now w) b (N.of_nat (size (users_at w b))) 60].
    split; [done|]. split; [lia|]. split; [repeat constructor|]. split.
    + intros ? ? ? ? ? [H|[]]. by injection H as <- <- <- <- <-.
    + intros ? ? ? ? ? [?|[]]; discriminate.
  - exists []. cbn. rewrite app_nil_r. repeat split; try done; lia.
Qed.

Lemma users_insert w b s b' n h q x :
  users_at (World n h (<[b := s]> (w_users w)) q x) b' = if decide (b = b') then s else users_at w b'.
Proof.
  unfold users_at. cbn [w_users]. case_decide as Hd; [subst; by rewrite lookup_insert|by rewrite lookup_insert_ne].
Qed.

(** One event adds at most one user, and only a presented permit does. *)
Lemma users_step be w e b :
  users_at (w_step be w e) b = users_at w b
  \/ (exists p key, e = WPresent b p /\ validates be (w_hist w ++ [DPrune (w_now w)]) (w_now w) b p = Some key
        /\ users_at (w_step be w e) b = {[ key ]} ∪ users_at w b)
  \/ (exists key, e = WLeave b key /\ users_at (w_step be w e) b = users_at w b ∖ {[ key ]}).
Proof.
  destruct e as [d|h|h key p|b0 p|b0|b0 key]; cbn [w_step]; try (by left).
  - left. unfold choose. by repeat case_match.
  - left. unfold issue. by destruct (w_pend w !! h).
  - unfold present. destruct (validates _ _ _ _ _) as [key|] eqn:E; [|by left].
    rewrite users_insert. case_decide as Hd; [subst|by left]. right. left. by exists p, key.
  - unfold leave. rewrite users_insert. case_decide as Hd; [subst|by left]. right. right. by exists key.
Qed.

Lemma size_add (x : bytes) (s : gset bytes) : size ({[ x ]} ∪ s) <= S (size s).
Proof. rewrite size_union_alt, size_singleton. pose proof (subseteq_size (s ∖ {[ x ]}) s ltac:(set_solver)). lia. Qed.

Lemma connected_step be w e b : (connected (w_step be w e) b <= connected w b + 1)%N.
Proof.
  unfold connected. destruct (users_step be w e b) as [->|[(p & key & -> & _ & ->)|(key & -> & ->)]].
  - lia.
  - pose proof (size_add key (users_at w b)). lia.
  - pose proof (subseteq_size (users_at w b ∖ {[ key ]}) (users_at w b) ltac:(set_solver)). lia.
Qed.

Lemma connected_len be es b : (connected (w_run be es) b <= N.of_nat (length es))%N.
Proof.
  induction es as [|e es IH] using rev_ind; [by vm_compute|].
  rewrite w_run_snoc, app_length. cbn [length]. pose proof (connected_step be (w_run be es) e b). lia.
Qed.

Lemma times_app l1 l2 : times (l1 ++ l2) = times l1 ++ times l2.
Proof. unfold times. by rewrite map_app, concat_app. Qed.

Record sound (B : gset bid) (k : nat) (w : world) : Prop := {
  so_times : Forall (fun t => (t <= w_now w)%N) (times (w_hist w));
  so_beats : forall n1 n2 b n ttl, In (DHeartbeat n1 n2 b n ttl) (w_hist w) -> b ∈ B /\ (n <= N.of_nat k)%N;
  so_permits : forall n b p ttl k, In (DIssue n b p ttl k) (w_hist w) -> (p < 2 ^ 32)%N;
}.

Lemma sound_run be B es : among B es -> sound B (length es) (w_run be es).
Proof.
  intros [HB He]. induction es as [|e es IH] using rev_ind.
  { split; cbn; [constructor|done|done]. }
  apply Forall_app in He as [He He1]. rewrite Forall_singleton in He1.
  destruct (IH He) as [H1 H2 H3]. clear IH. rewrite w_run_snoc.
  pose proof (connected_len be es) as Hlen.
  destruct (hist_step be (w_run be es) e) as (l & Hl & Hnow & Ht & Hb & Hi). split.
  - rewrite Hl, times_app. apply Forall_app. split.
    + eapply Forall_impl; [exact H1|]. cbn. lia.
    + eapply Forall_impl; [exact Ht|]. cbn. lia.
  - intros n1 n2 b n ttl. rewrite Hl, in_app_iff, app_length. cbn [length]. intros [H|H].
    + apply H2 in H as [? ?]. split; [done|lia].
    + apply Hb in H as [He' ->]. rewrite He' in He1. split; [exact He1|]. specialize (Hlen b). lia.
  - intros n b p ttl key. rewrite Hl, in_app_iff. intros [H|H]; [by eapply H3|]. apply Hi in H as (h & He' & _). rewrite He' in He1. exact He1.
Qed.

Lemma among_app_l B es1 es2 : among B (es1 ++ es2) -> among B es1.
Proof. intros [? ?%Forall_app]. split; [done|tauto]. Qed.

(** * What discovery answers *)
Lemma alive_member B k w b limit n e :
  (forall b, b ∈ B -> id_ok b) -> sound B k w -> id_ok b -> last_beat limit (w_hist w) (bid_print b) = Some (n, e) -> b ∈ B.
Proof.
  intros HB Hs Hb Hl. apply last_beat_in in Hl as (n1 & n2 & b0 & ttl & Hin & Hp & _).
  apply (so_beats _ _ _ Hs) in Hin as [Hin _]. assert (b0 = b) as <-; [|done]. apply print_inj_ok; auto.
Qed.

Lemma outstanding_unique h now x S S' : (exists b, bid_print b = x) -> outstanding false h now x S -> outstanding false h now x S' -> S = S'.
Proof. intros [b Hb] H H'. apply set_eq. intros p. by rewrite (H p b Hb), (H' p b Hb). Qed.

Lemma known_unique be w b m m' : known_users be w b m -> known_users be w b m' -> m = m'.
Proof.
  destruct be; cbn.
  - intros (n & S & (e & H1 & _) & H2 & ->) (n' & S' & (e' & H1' & _) & H2' & ->).
    rewrite H1 in H1'. injection H1' as -> ->. by rewrite (outstanding_unique _ _ _ _ _ ltac:(by exists b) H2 H2').
  - intros (e & H1 & _) (e' & H1' & _). rewrite H1 in H1'. by injection H1' as -> ->.
Qed.

Lemma choice_spec be B k w :
  (forall b, b ∈ B -> id_ok b) -> sound B k w -> (be = Redis -> (N.of_nat k < 2 ^ 64 - 1)%N) ->
  match choice be (w_hist w) (w_now w) with
  | Some b => b ∈ B /\ exists m, known_users be w b m /\ forall b' m', b' ∈ B -> known_users be w b' m' -> (m <= m')%N
  | None => forall b m, b ∈ B -> ~ known_users be w b m
  end.
Proof.
  intros HB Hs Hk. assert (Hids : ids_ok (w_hist w)).
  { intros n1 n2 b n ttl Hin. apply (so_beats _ _ _ Hs) in Hin as [? _]. auto. }
  destruct be; cbn [choice known_users].
  - pose proof (e_least_spec false (w_hist w) (w_now w) eq_refl (so_times _ _ _ Hs) Hids (so_permits _ _ _ Hs)) as H.
    destruct (e_least (e_run false (w_hist w)) (w_now w)).2 as [b|].
    + destruct H as (Hb & n & S & Ha & Ho & Hmin). split.
      { destruct Ha as (e & Ha & _). by eapply alive_member. }
      exists (n + N.of_nat (size S))%N. split; [by exists n, S|].
      intros b' m' Hb' (n' & S' & Ha' & Ho' & ->). apply (Hmin b' n' S'); auto.
    + intros b m Hb (n & S & Ha & _). by apply (H b n (HB b Hb)).
  - pose proof (r_least_spec false (w_hist w) (w_now w) Hids) as H.
    assert (Hlt : forall n1 n2 b n ttl, In (DHeartbeat n1 n2 b n ttl) (w_hist w) -> (n < 2 ^ 64 - 1)%N).
    { intros n1 n2 b n ttl Hin. apply (so_beats _ _ _ Hs) in Hin as [_ ?]. specialize (Hk eq_refl). lia. }
    specialize (H Hlt). destruct (r_least (r_run false (w_hist w)) (w_now w)) as [b|].
    + destruct H as (Hb & n & Ha & Hmin). split.
      { destruct Ha as (e & Ha & _). by eapply alive_member. }
      exists n. split; [done|]. intros b' m' _. apply Hmin.
    + intros b m _. apply H.
Qed.

(** * Nobody is counted twice *)
Lemma sent_snoc n h u q s b b' : sent (World n h u q (s ++ [b])) b' = (sent (World n h u q s) b' + if decide (b = b') then 1 else 0)%N.
Proof.
  unfold sent. cbn [w_sent]. rewrite count_occ_app. cbn [count_occ].
  destruct (bid_eq_dec b b') as [->|Hne]; [rewrite decide_True by done|rewrite decide_False by done]; lia.
Qed.

(** The logins under way towards [b]. *)
Definition coming (w : world) (b : bid) : N := N.of_nat (size (filter (fun kv : N * bid => kv.2 = b) (w_pend w))).
Lemma coming_insert (m : gmap N bid) h b0 b : m !! h = None ->
  size (filter (fun kv : N * bid => kv.2 = b) (<[h := b0]> m)) = size (filter (fun kv : N * bid => kv.2 = b) m) + (if decide (b0 = b) then 1 else 0).
Proof.
  intros Hm. case_decide as Hd.
  - rewrite map_filter_insert_True by done. rewrite map_size_insert_None; [lia|].
    apply map_filter_lookup_None. by left.
  - rewrite map_filter_insert_not'; [lia|done|]. intros y Hy. congruence.
Qed.
Lemma coming_delete (m : gmap N bid) h b0 b : m !! h = Some b0 ->
  size (filter (fun kv : N * bid => kv.2 = b) m) = size (filter (fun kv : N * bid => kv.2 = b) (delete h m)) + (if decide (b0 = b) then 1 else 0).
Proof.
  intros Hm. rewrite <- (insert_delete m h b0 Hm) at 1. apply coming_insert. apply lookup_delete.
Qed.
Lemma coming_all w b : (coming w b <= N.of_nat (size (w_pend w)))%N.
Proof. unfold coming. pose proof (map_subseteq_size (filter (fun kv : N * bid => kv.2 = b) (w_pend w)) (w_pend w) (map_filter_subseteq _ _)). lia. Qed.

Definition accounted (be : backend) (w : world) (b : bid) : Prop :=
  exists P : gset N, (forall p, row be (w_hist w) b p -> p ∈ P) /\ (connected w b + N.of_nat (size P) + coming w b <= sent w b)%N.

(** Brokers settled on are among [B]. *)
Definition within (B : gset bid) (w : world) : Prop := forall h b, w_pend w !! h = Some b -> b ∈ B.

Lemma within_step be B k w e :
  (forall b, b ∈ B -> id_ok b) -> sound B k w -> (be = Redis -> (N.of_nat k < 2 ^ 64 - 1)%N) ->
  within B w -> within B (w_step be w e).
Proof.
  intros HB Hs Hk Hw. pose proof (choice_spec be B k w HB Hs Hk) as Hc.
  destruct e as [d|h|h key p|b0 p|b0|b0 key]; cbn [w_step]; try exact Hw.
  - unfold choose. destruct (w_pend w !! h) as [b1|] eqn:Ep; [exact Hw|].
    destruct (choice be (w_hist w) (w_now w)) as [b0|]; [|exact Hw].
    intros h' b. cbn [w_pend]. destruct (decide (h = h')) as [->|Hne].
    + rewrite lookup_insert. intros [= <-]. by destruct Hc.
    + rewrite lookup_insert_ne by done. apply Hw.
  - unfold issue. destruct (w_pend w !! h) as [b1|] eqn:Ep; [|exact Hw].
    intros h' b. cbn [w_pend]. rewrite lookup_delete_Some. intros [_ H]. by eapply Hw.
Qed.
Lemma within_run be B es :
  among B es -> (be = Redis -> (N.of_nat (length es) < 2 ^ 64 - 1)%N) -> within B (w_run be es).
Proof.
  intros Ha Hlen. induction es as [|e es IH] using rev_ind.
  { intros h b H. cbn in H. by rewrite lookup_empty in H. }
  rewrite app_length in Hlen. cbn [length] in Hlen. pose proof (among_app_l _ _ _ Ha) as Ha1.
  rewrite w_run_snoc. apply (within_step be B (length es)); [apply Ha1|by apply sound_run|intros Hb; specialize (Hlen Hb); lia|].
  apply IH; [done|]. intros Hb; specialize (Hlen Hb); lia.
Qed.

Lemma accounted_step be B k w e b :
  (forall b, b ∈ B -> id_ok b) -> sound B k w -> within B w -> b ∈ B ->
  ~ is_leave e -> accounted be w b -> accounted be (w_step be w e) b.
Proof.
  intros HB Hs Hw Hb He (P & HP & Hle).
  destruct e as [d|h|h key p|b0 p|b0|b0 key]; cbn [w_step]; [..|by destruct He].
  - by exists P.
  - unfold choose. destruct (w_pend w !! h) as [b1|] eqn:Ep; [by exists P|].
    assert (Htidy : forall q, row be (w_hist w ++ [DPruneBrokers (w_now w); DPrune (w_now w)]) b q -> q ∈ P).
    { intros q Hq. change [DPruneBrokers (w_now w); DPrune (w_now w)] with ([DPruneBrokers (w_now w)] ++ [DPrune (w_now w)]) in Hq.
      rewrite app_assoc in Hq. apply row_keep in Hq; [|discriminate]. apply row_keep in Hq; [|discriminate]. auto. }
    destruct (choice be (w_hist w) (w_now w)) as [b0|]; [|by exists P].
    exists P. split; [exact Htidy|]. rewrite sent_snoc. change (connected _ b) with (connected w b) at 1.
    change (sent _ b) with (sent w b). unfold coming in *. cbn [w_pend]. rewrite coming_insert by done. case_decide; lia.
  - unfold issue. destruct (w_pend w !! h) as [b0|] eqn:Ep; [|by exists P].
    pose proof (coming_delete _ h b0 b Ep) as Hd. unfold coming in Hle.
    destruct (issues _ _ _ _ _ _).
    + destruct (decide (b0 = b)) as [->|Hne].
      * exists ({[ p ]} ∪ P). split.
        -- intros q Hq. cbn [w_hist] in Hq. apply row_snoc in Hq as [Hq|(now & b1 & ttl & k1 & Heq & _)].
           ++ set_solver.
           ++ injection Heq as _ _ -> _ _. set_solver.
        -- change (connected _ b) with (connected w b) at 1. change (sent _ b) with (sent w b). unfold coming. cbn [w_pend].
           rewrite size_union_alt, size_singleton. pose proof (subseteq_size (P ∖ {[ p ]}) P ltac:(set_solver)). lia.
      * exists P. split.
        -- intros q Hq. cbn [w_hist] in Hq. apply row_snoc in Hq as [Hq|(now & b1 & ttl & k1 & Heq & Hp)]; [auto|].
           injection Heq as _ -> _ _ _. exfalso. apply Hne. apply print_inj_ok; eauto.
        -- change (connected _ b) with (connected w b) at 1. change (sent _ b) with (sent w b). unfold coming. cbn [w_pend]. lia.
    + exists P. split; [done|]. change (connected _ b) with (connected w b) at 1. change (sent _ b) with (sent w b). unfold coming. cbn [w_pend]. lia.
  - assert (Hkeep : forall q, row be ((w_hist w ++ [DPrune (w_now w)]) ++ [DTake (w_now w) b0 p]) b q -> q ∈ P).
    { intros q Hq. apply row_keep in Hq; [|discriminate]. apply row_keep in Hq; [|discriminate]. auto. }
    unfold present. destruct (validates _ _ _ _ _) as [key|] eqn:E.
    + destruct (decide (b0 = b)) as [->|Hne].
      * exists (P ∖ {[ p ]}). split.
        -- intros q Hq. cbn [w_hist] in Hq. destruct (decide (q = p)) as [->|Hqp].
           ++ exfalso. by eapply taken_row.
           ++ apply Hkeep in Hq. set_solver.
        -- assert (Hp : p ∈ P). { apply HP. apply validates_row in E. apply row_keep in E; [done|discriminate]. }
           unfold connected in *. rewrite users_insert, decide_True by done.
           pose proof (size_add key (users_at w b)). change (sent _ b) with (sent w b). change (coming _ b) with (coming w b).
           assert (Hd : size (P ∖ {[ p ]}) = size P - 1).
           { rewrite size_difference by set_solver. by rewrite size_singleton. }
           rewrite Hd.
           assert (0 < size P). { destruct (decide (size P = 0)) as [H0|]; [|lia]. apply size_empty_inv in H0. set_solver. }
           lia.
      * exists P. split; [done|]. unfold connected in *. rewrite users_insert, decide_False by done.
        change (sent _ b) with (sent w b). change (coming _ b) with (coming w b). lia.
    + exists P. split; [done|]. change (connected _ b) with (connected w b) at 1. change (sent _ b) with (sent w b).
      change (coming _ b) with (coming w b). lia.
  - exists P. split; [|done]. intros q Hq. apply row_keep in Hq; [auto|discriminate].
Qed.

Lemma accounted_run be B es b :
  among B es -> stays es -> (be = Redis -> (N.of_nat (length es) < 2 ^ 64 - 1)%N) -> b ∈ B -> accounted be (w_run be es) b.
Proof.
  intros Ha Hst Hlen Hb. induction es as [|e es IH] using rev_ind.
  { exists ∅. split; [|by vm_compute]. destruct be; cbn.
    - intros p (r & Hr & _). by rewrite lookup_empty in Hr.
    - intros p [r Hr]. by rewrite lookup_empty in Hr. }
  pose proof (among_app_l _ _ _ Ha) as Ha1. apply Forall_app in Hst as [Hst He]. rewrite Forall_singleton in He.
  rewrite app_length in Hlen. cbn [length] in Hlen.
  assert (Hlen1 : be = Redis -> (N.of_nat (length es) < 2 ^ 64 - 1)%N) by (intros Hx; specialize (Hlen Hx); lia).
  rewrite w_run_snoc. eapply (accounted_step be B (length es)); [apply Ha1|by apply sound_run|by apply within_run|done|done|].
  apply IH; [done|done|]. intros ->. specialize (Hlen eq_refl). lia.
Qed.

(** A heartbeat never overstates, as long as nobody leaves. *)
Lemma beat_below be B es b limit n e :
  among B es -> stays es -> b ∈ B -> last_beat limit (w_hist (w_run be es)) (bid_print b) = Some (n, e) -> (n <= connected (w_run be es) b)%N.
Proof.
  intros Ha Hst Hb. revert n e. induction es as [|ev es IH] using rev_ind; intros n e; [done|].
  pose proof (among_app_l _ _ _ Ha) as Ha1. apply Forall_app in Hst as [Hst He]. rewrite Forall_singleton in He.
  destruct Ha as [HB Ha]. apply Forall_app in Ha as [_ Hev]. rewrite Forall_singleton in Hev.
  specialize (IH Ha1 Hst). rewrite w_run_snoc. set (w := w_run be es) in *.
  assert (Hmono : (connected w b <= connected (w_step be w ev) b)%N).
  { unfold connected. destruct (users_step be w ev b) as [->|[(p & key & -> & _ & ->)|(key & -> & _)]]; [lia| |by destruct He].
    pose proof (subseteq_size (users_at w b) ({[ key ]} ∪ users_at w b) ltac:(set_solver)). lia. }
  assert (Hno : last_beat limit (w_hist (w_step be w ev)) (bid_print b) = last_beat limit (w_hist w) (bid_print b) ->
    last_beat limit (w_hist (w_step be w ev)) (bid_print b) = Some (n, e) -> (n <= connected (w_step be w ev) b)%N).
  { intros -> H. apply IH in H. lia. }
  destruct ev as [d|h|h key p|b0 p|b0|b0 key]; [..|by destruct He]; cbn [w_step] in *.
  - by apply Hno.
  - apply Hno. unfold choose. destruct (w_pend w !! h); [done|]. destruct (choice _ _ _); cbn [w_hist];
      change [DPruneBrokers (w_now w); DPrune (w_now w)] with ([DPruneBrokers (w_now w)] ++ [DPrune (w_now w)]);
      by rewrite ?app_assoc, !last_beat_snoc.
  - apply Hno. unfold issue. destruct (w_pend w !! h); [|done]. destruct (issues _ _ _ _ _ _); cbn [w_hist]; [|done].
    by rewrite last_beat_snoc.
  - apply Hno. unfold present. cbn [w_hist]. by rewrite !last_beat_snoc.
  - unfold beat. cbn [w_hist]. rewrite last_beat_snoc. change (connected (World _ _ _ _ _) b) with (connected w b).
    destruct (bool_decide (bid_print b0 = bid_print b) && _) eqn:E.
    + intros [= <- _]. apply andb_prop in E as [E _]. apply bool_decide_eq_true in E.
      assert (b0 = b) as ->; [|unfold connected; lia]. apply print_inj_ok; auto.
    + intros H. by apply IH in H.
Qed.

Lemma outstanding_row h now b S p : outstanding false h now (bid_print b) S -> p ∈ S -> row Embedded h b p.
Proof.
  intros Ho Hp. apply (Ho p b eq_refl) in Hp as [key Hp]. apply (validates_row Embedded) in Hp. apply row_keep in Hp; [done|discriminate].
Qed.

Lemma known_below be B es b m :
  among B es -> stays es -> (be = Redis -> (N.of_nat (length es) < 2 ^ 64 - 1)%N) -> b ∈ B ->
  known_users be (w_run be es) b m -> (m <= sent (w_run be es) b)%N.
Proof.
  intros Ha Hst Hlen Hb Hm. destruct (accounted_run be B es b Ha Hst Hlen Hb) as (P & HP & Hle).
  destruct be; cbn in Hm.
  - destruct Hm as (n & S & (e & Hl & _) & Ho & ->). apply (beat_below _ B) in Hl; [|done..].
    assert (S ⊆ P) as Hsub. { intros p Hp. apply HP. by eapply outstanding_row. }
    apply subseteq_size in Hsub. lia.
  - destruct Hm as (e & Hl & _). apply (beat_below _ B) in Hl; [|done..]. lia.
Qed.

(** * The spread *)
Lemma sent_step be w e :
  (forall b, sent (w_step be w e) b = sent w b)
  \/ exists h b0, e = WChoose h /\ choice be (w_hist w) (w_now w) = Some b0
      /\ forall b, sent (w_step be w e) b = (sent w b + if decide (b0 = b) then 1 else 0)%N.
Proof.
  destruct e as [d|h|h key p|b0 p|b0|b0 key]; try (by left); cbn [w_step].
  - unfold choose. destruct (w_pend w !! h); [by left|].
    destruct (choice be (w_hist w) (w_now w)) as [b0|] eqn:E; [|by left].
    right. exists h, b0. split; [done|]. split; [done|]. intros b. rewrite sent_snoc. done.
  - left. unfold issue. by destruct (w_pend w !! h).
Qed.

Lemma timely_app_l be B k es1 es2 : timely be B k (es1 ++ es2) -> timely be B k es1.
Proof. intros H es h es3 ->. apply (H es h (es3 ++ es2)). by rewrite <- app_assoc. Qed.

Lemma spread be B k es :
  among B es -> stays es -> (be = Redis -> (N.of_nat (length es) < 2 ^ 64 - 1)%N) -> timely be B k es ->
  forall b b', b ∈ B -> b' ∈ B -> (sent (w_run be es) b <= sent (w_run be es) b' + k + 1)%N.
Proof.
  induction es as [|e es IH] using rev_ind; intros Ha Hst Hlen Ht b b' Hb Hb'; [cbn; lia|].
  pose proof (among_app_l _ _ _ Ha) as Ha1. pose proof Hst as [Hst1 _]%Forall_app.
  pose proof (timely_app_l _ _ _ _ _ Ht) as Ht1.
  assert (Hlen1 : be = Redis -> (N.of_nat (length es) < 2 ^ 64 - 1)%N).
  { intros ->. specialize (Hlen eq_refl). rewrite app_length in Hlen. cbn [length] in Hlen. lia. }
  specialize (IH Ha1 Hst1 Hlen1 Ht1 b b' Hb Hb'). rewrite w_run_snoc.
  destruct (sent_step be (w_run be es) e) as [Heq|(h & b0 & -> & Hc & Heq)]; rewrite !Heq; [done|].
  destruct (decide (b0 = b)) as [->|]; [|destruct (decide (b0 = b')); lia].
  pose proof (choice_spec be B (length es) _ (proj1 Ha1) (sound_run be B es Ha1) Hlen1) as Hs.
  rewrite Hc in Hs. destruct Hs as (_ & m & Hm & Hmin).
  pose proof (Ht es h [] eq_refl) as Hu.
  destruct (Hu b Hb) as (m1 & Hm1 & Hle1). rewrite (known_unique _ _ _ _ _ Hm1 Hm) in Hle1.
  destruct (Hu b' Hb') as (m2 & Hm2 & _). pose proof (Hmin b' m2 Hb' Hm2).
  pose proof (known_below be B es b' m2 Ha1 Hst1 Hlen1 Hb' Hm2). lia.
Qed.
