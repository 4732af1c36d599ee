(** More proofs about the spread of users over brokers: a rush of logins, one login, and runs in
    which everybody is sent to the same broker. *)
From stdpp Require Import gmap list.
From Coq Require Import NArith Lia.
From Verif Require Import IdModel DiscModel DiscSpec DiscProofs DiscProofs2 DiscProofs3 LoadModel LoadSpec LoadProofs.

(** * A rush with SQLite *)
Definition rush_ev (B : gset bid) (e : wev) : Prop :=
  match e with WTick _ | WChoose _ => True | WIssue _ _ p => (p < 2 ^ 32)%N | WBeat b => b ∈ B | _ => False end.

Definition erow (h : list dop) (b : bid) (p : N) : Prop :=
  exists r, e_permits (e_run false h) !! p = Some r /\ pr_ident r = bid_print b /\ (30 <= pr_expiry r)%N.

Definition calm (o : dop) : Prop :=
  match o with DPrune now => (now <= 30)%N | DTake _ _ _ => False | _ => True end.

Lemma erow_snoc h o b p : calm o -> erow h b p -> erow (h ++ [o]) b p.
Proof.
  intros Ho (r & Hr & Hi & He). exists r. split; [|done]. rewrite e_run_snoc, e_step_permit, Hr.
  destruct o; try done.
  - by case_decide.
  - cbn in Ho. destruct (N.ltb_spec (pr_expiry r) now); [lia|done].
Qed.

Record rushing (B : gset bid) (D : list N) (w : world) : Prop := {
  ru_users : forall b, users_at w b = ∅;
  ru_permits : forall b, b ∈ B -> exists P : gset N, (forall p, p ∈ P -> erow (w_hist w) b p) /\ (N.of_nat (size P) + coming w b = sent w b)%N;
  ru_drawn : forall now b p ttl k, In (DIssue now b p ttl k) (w_hist w) -> p ∈ D;
}.

Lemma rushing_step B D w e :
  (w_now w <= 30)%N -> rush_ev B e -> (forall p, p ∈ drawn [e] -> p ∉ D) -> rushing B D w -> rushing B (D ++ drawn [e]) (w_step Embedded w e).
Proof.
  intros Hnow He Hfresh [Hu Hp Hd].
  assert (Hd' : forall now b p ttl k, In (DIssue now b p ttl k) (w_hist (w_step Embedded w e)) -> p ∈ D ++ drawn [e]).
  { intros now b p ttl k Hin. destruct (hist_step Embedded w e) as (l & Heq & _ & _ & _ & Hi). rewrite Heq in Hin.
    apply elem_of_app. rewrite in_app_iff in Hin. destruct Hin as [Hin|Hin]; [left; by eapply Hd|].
    apply Hi in Hin as (h & -> & _). right. by left. }
  split; [..|exact Hd']; clear Hd'; (destruct e as [d|h|h key p|b0 p|b0|b0 key]; [ | | |destruct He| |destruct He]; cbn [w_step]).
  - exact Hu.
  - intros b. unfold choose. repeat case_match; exact (Hu b).
  - intros b. unfold issue. destruct (w_pend w !! h); exact (Hu b).
  - exact Hu.
  - exact Hp.
  - intros b Hb. destruct (Hp b Hb) as (P & HP & Hs).
    unfold choose. destruct (w_pend w !! h) as [b1|] eqn:Ep; [by exists P|].
    set (tidy := w_hist w ++ [DPruneBrokers (w_now w); DPrune (w_now w)]).
    assert (Htidy : forall q, q ∈ P -> erow tidy b q).
    { intros q Hq. unfold tidy. change [DPruneBrokers (w_now w); DPrune (w_now w)] with ([DPruneBrokers (w_now w)] ++ [DPrune (w_now w)]).
      rewrite app_assoc. apply erow_snoc; [done|]. apply erow_snoc; [done|]. auto. }
    destruct (choice Embedded (w_hist w) (w_now w)) as [b0|]; [|by exists P].
    exists P. split; [exact Htidy|]. rewrite sent_snoc. change (sent _ b) with (sent w b). unfold coming in *. cbn [w_pend].
    rewrite coming_insert by done. case_decide; lia.
  - intros b Hb. destruct (Hp b Hb) as (P & HP & Hs).
    unfold issue. destruct (w_pend w !! h) as [b0|] eqn:Ep; [|by exists P].
    pose proof (coming_delete _ h b0 b Ep) as Hdel. unfold coming in Hs.
    assert (Hnone : e_permits (e_run false (w_hist w)) !! p = None).
    { destruct (e_permits (e_run false (w_hist w)) !! p) as [r|] eqn:E; [|done]. exfalso.
      apply e_permit_numbers in E as (now & b1 & ttl & Hin). apply (Hfresh p); [by left|]. by eapply Hd. }
    assert (Hi : issues Embedded (w_hist w) (w_now w) b0 p key = true) by (cbn [issues]; unfold e_issue; by rewrite Hnone).
    rewrite Hi. destruct (decide (b0 = b)) as [->|Hne].
    + exists ({[ p ]} ∪ P). split.
      * intros q. rewrite elem_of_union, elem_of_singleton. intros [->|Hq]; cbn [w_hist].
        -- eexists. split; [rewrite e_run_snoc, e_step_permit, decide_True by done; by rewrite Hnone|]. cbn. split; [done|lia].
        -- apply erow_snoc; [done|]. auto.
      * change (sent _ b) with (sent w b). unfold coming. cbn [w_pend].
        assert (p ∉ P). { intros Hin. apply HP in Hin as (r & Hr & _). rewrite Hnone in Hr. discriminate. }
        rewrite size_union by set_solver. rewrite size_singleton. lia.
    + exists P. split.
      * intros q Hq. cbn [w_hist]. apply erow_snoc; [done|]. auto.
      * change (sent _ b) with (sent w b). unfold coming. cbn [w_pend]. lia.
  - intros b Hb. destruct (Hp b Hb) as (P & HP & Hs). exists P. split; [|exact Hs].
    intros q Hq. cbn [w_hist beat]. apply erow_snoc; [done|]. auto.
Qed.

Lemma now_step be w e : (w_now w <= w_now (w_step be w e))%N.
Proof. by destruct (hist_step be w e) as (l & _ & ? & _). Qed.

Lemma now_app be es1 es2 : (w_now (w_run be es1) <= w_now (w_run be (es1 ++ es2)))%N.
Proof.
  induction es2 as [|e es2 IH] using rev_ind; [rewrite app_nil_r; lia|].
  rewrite app_assoc, w_run_snoc. etransitivity; [exact IH|]. apply now_step.
Qed.

Lemma drawn_app es1 es2 : drawn (es1 ++ es2) = drawn es1 ++ drawn es2.
Proof. apply omap_app. Qed.
Lemma rushing_run B es : Forall (rush_ev B) es -> NoDup (drawn es) -> (w_now (w_run Embedded es) <= 30)%N -> rushing B (drawn es) (w_run Embedded es).
Proof.
  induction es as [|e es IH] using rev_ind; intros He Hd Hn.
  { split; [done| |]; [|intros ? ? ? ? ? []]. intros b _. exists ∅. split; [set_solver|by vm_compute]. }
  apply Forall_app in He as [He He1]. rewrite Forall_singleton in He1.
  rewrite drawn_app in *. apply NoDup_app in Hd as (Hd1 & Hd2 & _).
  rewrite w_run_snoc in *. assert (w_now (w_run Embedded es) <= 30)%N.
  { pose proof (now_step Embedded (w_run Embedded es) e). lia. }
  apply rushing_step; auto. intros p H1 H2. by eapply Hd2.
Qed.

(** The last heartbeat of a broker says that it has no user, and is not about to expire. *)
Lemma rush_beat B es b :
  Forall (rush_ev B) es -> NoDup (drawn es) -> (w_now (w_run Embedded es) <= 30)%N -> In (WBeat b) es ->
  exists e, last_beat (Some (2 ^ 32)%N) (w_hist (w_run Embedded es)) (bid_print b) = Some (0%N, e) /\ (60 <= e)%N.
Proof.
  induction es as [|ev es IH] using rev_ind; intros He Hd Hn Hin; [destruct Hin|].
  apply Forall_app in He as [He He1]. rewrite Forall_singleton in He1. rewrite w_run_snoc in *.
  rewrite drawn_app in Hd. apply NoDup_app in Hd as (Hd1 & _ & _).
  assert (Hn1 : (w_now (w_run Embedded es) <= 30)%N).
  { pose proof (now_step Embedded (w_run Embedded es) ev). lia. }
  specialize (IH He Hd1 Hn1). pose proof (rushing_run B es He Hd1 Hn1) as Hr. set (w := w_run Embedded es) in *.
  rewrite in_app_iff in Hin.
  destruct ev as [d|h|h key p|b0 p|b0|b0 key]; try (by destruct He1); cbn [w_step] in *.
  - destruct Hin as [Hin|[?|[]]]; [|discriminate]. by apply IH.
  - destruct Hin as [Hin|[?|[]]]; [|discriminate]. destruct (IH Hin) as (e & Hl & Hle). exists e. split; [|done].
    unfold choose. destruct (w_pend w !! h); [exact Hl|]. destruct (choice _ _ _); cbn [w_hist];
      change [DPruneBrokers (w_now w); DPrune (w_now w)] with ([DPruneBrokers (w_now w)] ++ [DPrune (w_now w)]);
      rewrite ?app_assoc, !last_beat_snoc; exact Hl.
  - destruct Hin as [Hin|[?|[]]]; [|discriminate]. destruct (IH Hin) as (e & Hl & Hle). exists e. split; [|done].
    unfold issue. destruct (w_pend w !! h); [|exact Hl]. destruct (issues _ _ _ _ _ _); cbn [w_hist]; [|exact Hl].
    rewrite last_beat_snoc. exact Hl.
  - unfold beat. cbn [w_hist]. rewrite last_beat_snoc. rewrite (ru_users _ _ _ Hr b0), size_empty.
    change (N.of_nat 0 <? 2 ^ 32)%N with true. rewrite andb_true_r. case_bool_decide as Hdd.
    + eexists. split; [reflexivity|lia].
    + destruct Hin as [Hin|[Hin|[]]]; [by apply IH|]. injection Hin as ->. by destruct Hdd.
Qed.

Lemma rush_timely l es c :
  Forall (fun b => id_ok b) l -> Forall (rush_ev (list_to_set l)) es -> NoDup (drawn es) ->
  (w_now (w_run Embedded (map WBeat l ++ es)) <= 30)%N ->
  at_once Embedded c (map WBeat l ++ es) ->
  timely Embedded (list_to_set l) c (map WBeat l ++ es).
Proof.
  intros Hl He Hd Hn Hc es1 h es2 Heq b Hb. apply elem_of_list_to_set, elem_of_list_In in Hb.
  set (B := list_to_set l : gset bid) in *.
  assert (Hall : Forall (rush_ev B) (map WBeat l ++ es)).
  { apply Forall_app. split; [|done]. apply List.Forall_map, List.Forall_forall. intros x Hx. cbn. by apply elem_of_list_to_set, elem_of_list_In. }
  assert (Hdall : NoDup (drawn (map WBeat l ++ es))).
  { rewrite drawn_app. replace (drawn (map WBeat l)) with (@nil N); [done|]. clear. by induction l. }
  assert (Hin : In (WBeat b) es1).
  { assert (Hpre : exists m, es1 = map WBeat l ++ m).
    { clear -Heq. revert es1 Heq. induction l as [|x l IH]; intros es1 Heq; [by exists es1|].
      destruct es1 as [|y es1]; cbn in Heq; [discriminate|]. injection Heq as <- Heq. destruct (IH _ Heq) as [m ->]. by exists m. }
    destruct Hpre as [m ->]. rewrite in_app_iff. left. by apply in_map. }
  pose proof (Hc es1 h es2 Heq) as Hp1.
  rewrite Heq in Hall, Hn, Hdall. apply Forall_app in Hall as [Hall _].
  rewrite drawn_app in Hdall. apply NoDup_app in Hdall as (Hd1 & _ & _).
  assert (Hn1 : (w_now (w_run Embedded es1) <= 30)%N).
  { pose proof (now_app Embedded es1 (WChoose h :: es2)). lia. }
  destruct (rush_beat B es1 b Hall Hd1 Hn1 Hin) as (e & Hbt & Hle).
  destruct (rushing_run B es1 Hall Hd1 Hn1) as [_ Hp _]. destruct (Hp b ltac:(by apply elem_of_list_to_set, elem_of_list_In)) as (P & HP & Hs).
  destruct (outstanding_exists false (w_hist (w_run Embedded es1)) (w_now (w_run Embedded es1)) (bid_print b) ltac:(by exists b)) as [S HS].
  exists (0 + N.of_nat (size S))%N. split; [exists 0%N, S; split; [exists e; split; [done|lia]|done]|].
  assert (P ⊆ S) as Hsub; [|apply subseteq_size in Hsub; pose proof (coming_all (w_run Embedded es1) b); lia].
  intros q Hq. apply (HS q b eq_refl). apply HP in Hq as (r & Hr & Hi & Hx). exists (pr_key r).
  apply e_take_answer. split.
  - apply e_permit_numbers in Hr as (now & b0 & ttl & Hin2). eapply (so_permits B (length es1)); [|exact Hin2].
    apply sound_run. split.
    + intros b1 Hb1. apply elem_of_list_to_set, elem_of_list_In in Hb1. by eapply List.Forall_forall in Hl.
    + eapply Forall_impl; [exact Hall|]. intros ev. by destruct ev.
  - exists r. rewrite e_run_snoc, e_step_permit, Hr. destruct (N.ltb_spec (pr_expiry r) (w_now (w_run Embedded es1))); [lia|]. auto.
Qed.

Lemma rush_spread l es c :
  Forall (fun b => id_ok b) l -> Forall (rush_ev (list_to_set l)) es -> NoDup (drawn es) ->
  (w_now (w_run Embedded (map WBeat l ++ es)) <= 30)%N ->
  at_once Embedded c (map WBeat l ++ es) ->
  forall b b', In b l -> In b' l ->
    (sent (w_run Embedded (map WBeat l ++ es)) b <= sent (w_run Embedded (map WBeat l ++ es)) b' + c + 1)%N.
Proof.
  intros Hl He Hd Hn Hc b b' Hb Hb'.
  assert (Hall : Forall (rush_ev (list_to_set l)) (map WBeat l ++ es)).
  { apply Forall_app. split; [|done]. apply List.Forall_map, List.Forall_forall. intros x Hx. cbn. by apply elem_of_list_to_set, elem_of_list_In. }
  apply (spread Embedded (list_to_set l) c (map WBeat l ++ es)).
  - split; [|eapply Forall_impl; [exact Hall|]; intros ev; by destruct ev].
    intros b1 Hb1. apply elem_of_list_to_set, elem_of_list_In in Hb1. by eapply List.Forall_forall in Hl.
  - eapply Forall_impl; [exact Hall|]. intros ev. destruct ev; cbn; tauto.
  - discriminate.
  - by apply rush_timely.
  - by apply elem_of_list_to_set, elem_of_list_In.
  - by apply elem_of_list_to_set, elem_of_list_In.
Qed.

(** * One login *)
Lemma next_user B es b n S k1 k2 :
  among B es -> choice Embedded (w_hist (w_run Embedded es)) (w_now (w_run Embedded es)) = Some b ->
  e_alive (w_hist (w_run Embedded es)) (w_now (w_run Embedded es)) b n ->
  outstanding false (w_hist (w_run Embedded es)) (w_now (w_run Embedded es)) (bid_print b) S ->
  (connected (w_run Embedded es) b <= n + k1)%N ->
  forall b' n' S', b' ∈ B ->
    e_alive (w_hist (w_run Embedded es)) (w_now (w_run Embedded es)) b' n' ->
    outstanding false (w_hist (w_run Embedded es)) (w_now (w_run Embedded es)) (bid_print b') S' ->
    (n' <= connected (w_run Embedded es) b' + k2)%N ->
    (connected (w_run Embedded es) b + N.of_nat (size S) <= connected (w_run Embedded es) b' + N.of_nat (size S') + k1 + k2)%N.
Proof.
  intros Ha Hc Hal Ho Hk1 b' n' S' Hb' Hal' Ho' Hk2.
  pose proof (choice_spec Embedded B (length es) _ (proj1 Ha) (sound_run Embedded B es Ha) ltac:(discriminate)) as Hs.
  rewrite Hc in Hs. destruct Hs as (_ & m & Hm & Hmin).
  assert (m = (n + N.of_nat (size S))%N) as -> by (eapply known_unique; [exact Hm|by exists n, S]).
  pose proof (Hmin b' (n' + N.of_nat (size S'))%N Hb' ltac:(by exists n', S')). lia.
Qed.

Lemma next_user_redis B es b n k1 k2 :
  among B es -> (N.of_nat (length es) < 2 ^ 64 - 1)%N ->
  choice Redis (w_hist (w_run Redis es)) (w_now (w_run Redis es)) = Some b ->
  r_alive (w_hist (w_run Redis es)) (w_now (w_run Redis es)) b n ->
  (connected (w_run Redis es) b <= n + k1)%N ->
  forall b' n', b' ∈ B ->
    r_alive (w_hist (w_run Redis es)) (w_now (w_run Redis es)) b' n' ->
    (n' <= connected (w_run Redis es) b' + k2)%N ->
    (connected (w_run Redis es) b <= connected (w_run Redis es) b' + k1 + k2)%N.
Proof.
  intros Ha Hlen Hc Hal Hk1 b' n' Hb' Hal' Hk2.
  pose proof (choice_spec Redis B (length es) _ (proj1 Ha) (sound_run Redis B es Ha) ltac:(done)) as Hs.
  rewrite Hc in Hs. destruct Hs as (_ & m & Hm & Hmin).
  assert (m = n) as -> by (eapply (known_unique Redis); [exact Hm|exact Hal]).
  pose proof (Hmin b' n' Hb' Hal'). lia.
Qed.

(** * Everybody to the same broker *)
Lemma prune_b0 s : e_prune_brokers s 0 = s.
Proof.
  destruct s as [bs ps wl]. unfold e_prune_brokers. cbn [e_brokers e_permits e_whitelist]. f_equal. apply map_filter_id.
  intros i x _. cbn. by destruct (br_expiry x).
Qed.
Lemma prune_p0 s : e_prune_permits s 0 = s.
Proof.
  destruct s as [bs ps wl]. unfold e_prune_permits. cbn [e_brokers e_permits e_whitelist]. f_equal. apply map_filter_id.
  intros i x _. cbn. by destruct (pr_expiry x).
Qed.

(** At moment 0, nobody is logging in, the data base has nothing under permit number 7 for [b], and
    [b] is chosen. *)
Definition ready (be : backend) (w : world) (b : bid) : Prop :=
  w_now w = 0%N /\ w_pend w = ∅ /\ choice be (w_hist w) 0 = Some b
  /\ match be with
     | Embedded => e_permits (e_run false (w_hist w)) !! 7%N = None
     | Redis => r_keys (r_run false (w_hist w)) !! permit_key false b 7 = None
     end.

Lemma turn be w b key :
  ready be w b ->
  exists w', w_step be (w_step be (w_step be w (WChoose 0)) (WIssue 0 key 7)) (WPresent b 7) = w' /\ ready be w' b
    /\ w_sent w' = w_sent w ++ [b] /\ users_at w' b = {[ key ]} ∪ users_at w b
    /\ (forall b', b' <> b -> users_at w' b' = users_at w b').
Proof.
  intros (Hn & Hq & Hc & Hp). eexists. split; [reflexivity|].
  destruct w as [now h u q s]. cbn [w_now w_hist w_users w_pend w_sent] in *. subst now q.
  set (tidy := h ++ [DPruneBrokers 0; DPrune 0]).
  set (w1 := World 0 (tidy ++ [DIssue 0 b 7 30 key]) u ∅ (s ++ [b])).
  set (h2 := (tidy ++ [DIssue 0 b 7 30 key]) ++ [DPrune 0]).
  assert (Hi : issues be tidy 0 b 7 key = true /\ validates be h2 0 b 7 = Some key
    /\ match be with
       | Embedded => e_run false (h2 ++ [DTake 0 b 7]) = e_run false h
       | Redis => r_run false (h2 ++ [DTake 0 b 7]) = r_run false h end).
  { destruct be; cbn [issues validates].
    - assert (Ht : e_run false tidy = e_run false h).
      { unfold tidy. change [DPruneBrokers 0; DPrune 0] with ([DPruneBrokers 0] ++ [DPrune 0]).
        rewrite app_assoc, !e_run_snoc. cbn [e_step fst]. by rewrite prune_b0, prune_p0. }
      assert (H1 : e_run false h2 = Edb (e_brokers (e_run false h)) (<[7%N := PermitRow (bid_print b) key 30]> (e_permits (e_run false h))) (e_whitelist (e_run false h))).
      { unfold h2. rewrite !e_run_snoc, Ht. cbn [e_step fst]. rewrite prune_p0. unfold e_issue. by rewrite Hp. }
      split; [rewrite Ht; unfold e_issue; by rewrite Hp|]. split.
      + unfold e_answer. rewrite H1. cbn [e_step]. unfold e_take. cbn [e_permits].
        change (7 <? 2 ^ 32)%N with true. cbn [negb]. rewrite lookup_insert. cbn [pr_ident pr_key]. rewrite decide_True by tauto. done.
      + rewrite e_run_snoc, H1. cbn [e_step fst]. unfold e_take. cbn [e_permits e_brokers e_whitelist].
        change (7 <? 2 ^ 32)%N with true. rewrite lookup_insert. cbn [pr_ident pr_key]. rewrite decide_True by tauto. cbn [fst].
        rewrite delete_insert by done. by destruct (e_run false h).
    - assert (H1 : r_run false h2 = Rdb (<[permit_key false b 7 := (key, 30%N)]> (r_keys (r_run false h))) (r_brokers (r_run false h)) (r_whitelist (r_run false h))).
      { unfold h2, tidy. change [DPruneBrokers 0; DPrune 0] with ([DPruneBrokers 0] ++ [DPrune 0]).
        rewrite app_assoc, !r_run_snoc. done. }
      split; [done|]. split.
      + unfold r_answer. rewrite H1. cbn [r_step]. unfold r_take, r_get. cbn [r_keys snd]. rewrite lookup_insert. done.
      + rewrite r_run_snoc, H1. cbn [r_step]. unfold r_take. cbn [fst r_keys r_brokers r_whitelist].
        rewrite delete_insert by done. by destruct (r_run false h). }
  destruct Hi as (Hi & Hv & Hr).
  assert (Hs1 : w_step be (w_step be (World 0 h u ∅ s) (WChoose 0)) (WIssue 0 key 7) = w1).
  { cbn [w_step]. unfold choose. cbn [w_now w_hist w_users w_pend w_sent]. rewrite lookup_empty, Hc. fold tidy.
    unfold issue. cbn [w_now w_hist w_users w_pend w_sent]. rewrite lookup_insert, Hi. by rewrite delete_insert. }
  rewrite Hs1. cbn [w_step]. unfold present. cbn [w_now w_hist w_users w_sent w1]. fold h2. rewrite Hv.
  split.
  - split; [done|]. cbn [w_hist]. split; [done|]. split.
    + destruct be; cbn [choice] in *; by rewrite Hr.
    + destruct be; by rewrite Hr.
  - split; [done|]. split.
    + unfold users_at. cbn [w_users]. rewrite lookup_insert. done.
    + intros b' Hb'. unfold users_at. cbn [w_users]. by rewrite lookup_insert_ne.
Qed.

(** [n] users, one after the other. *)
Definition queue (b : bid) (n : nat) : list wev :=
  concat (map (fun i => [WChoose 0; WIssue 0 [N.of_nat i] 7; WPresent b 7]) (seq 0 n)).

Lemma queue_run be es b n :
  ready be (w_run be es) b -> users_at (w_run be es) b = ∅ ->
  ready be (w_run be (es ++ queue b n)) b
  /\ w_sent (w_run be (es ++ queue b n)) = w_sent (w_run be es) ++ replicate n b
  /\ users_at (w_run be (es ++ queue b n)) b = list_to_set (map (fun i => [N.of_nat i]) (seq 0 n))
  /\ (forall b', b' <> b -> users_at (w_run be (es ++ queue b n)) b' = users_at (w_run be es) b').
Proof.
  intros Hr Hu. induction n as [|n (IH1 & IH2 & IH3 & IH4)].
  { unfold queue. cbn [seq map concat replicate]. rewrite !app_nil_r. cbn [list_to_set]. done. }
  assert (Hq : queue b (S n) = queue b n ++ [WChoose 0; WIssue 0 [N.of_nat n] 7; WPresent b 7]).
  { unfold queue. rewrite seq_S, map_app, concat_app. done. }
  rewrite Hq. change [WChoose 0; WIssue 0 [N.of_nat n] 7; WPresent b 7] with ([WChoose 0] ++ [WIssue 0 [N.of_nat n] 7] ++ [WPresent b 7]).
  rewrite !app_assoc, !w_run_snoc.
  destruct (turn be (w_run be (es ++ queue b n)) b [N.of_nat n] IH1) as (w' & -> & H1 & H2 & H3 & H4).
  split; [done|]. split.
  - rewrite H2, IH2, replicate_S_end. by rewrite app_assoc.
  - split.
    + rewrite H3, IH3, seq_S, map_app, list_to_set_app_L. cbn [map list_to_set]. set_solver.
    + intros b' Hb'. rewrite (H4 b' Hb'). auto.
Qed.

Lemma queue_size n : size (list_to_set (map (fun i => [N.of_nat i]) (seq 0 n)) : gset bytes) = n.
Proof.
  rewrite size_list_to_set; [by rewrite map_length, seq_length|].
  assert (Inj eq eq (fun i : nat => [N.of_nat i])) by (intros i j [= ?]; lia).
  apply (NoDup_fmap_2 (fun i => [N.of_nat i])). apply NoDup_seq.
Qed.

(** * A rush with Redis *)
Lemma r_totals_same s s' now l :
  (forall x, r_keys s' !! conns_key x = r_keys s !! conns_key x) -> r_totals s' now l = r_totals s now l.
Proof.
  intros Hs. induction l as [|x l IH]; [done|]. cbn [r_totals]. unfold r_get. by rewrite Hs, IH.
Qed.
Lemma r_least_issue h now b p ttl key now' :
  r_least (r_run false (h ++ [DIssue now b p ttl key])) now' = r_least (r_run false h) now'.
Proof.
  rewrite r_run_snoc. cbn [r_step fst]. unfold r_least, r_issue.
  assert (Hm : r_members (Rdb (<[permit_key false b p := (key, (now + ttl)%N)]> (r_keys (r_run false h))) (r_brokers (r_run false h)) (r_whitelist (r_run false h))) now'
    = r_members (r_run false h) now') by done.
  rewrite Hm. destruct (r_members (r_run false h) now') as [|x0 l0]; [done|].
  rewrite (r_totals_same (r_run false h)); [done|].
  intros x. cbn [r_keys]. apply lookup_insert_ne. intros Heq. by apply (conns_permit_ne false x b p).
Qed.
Lemma r_run_tidy h now : r_run false (h ++ [DPruneBrokers now; DPrune now]) = r_run false h.
Proof.
  change [DPruneBrokers now; DPrune now] with ([DPruneBrokers now] ++ [DPrune now]).
  by rewrite app_assoc, !r_run_snoc.
Qed.

Definition crowd (n : nat) : list wev := concat (map (fun i => [WChoose 0; WIssue 0 [N.of_nat i] (N.of_nat i)]) (seq 0 n)).
Lemma crowd_run es b n :
  w_pend (w_run Redis es) = ∅ ->
  choice Redis (w_hist (w_run Redis es)) (w_now (w_run Redis es)) = Some b ->
  w_now (w_run Redis (es ++ crowd n)) = w_now (w_run Redis es)
  /\ w_pend (w_run Redis (es ++ crowd n)) = ∅
  /\ choice Redis (w_hist (w_run Redis (es ++ crowd n))) (w_now (w_run Redis es)) = Some b
  /\ w_sent (w_run Redis (es ++ crowd n)) = w_sent (w_run Redis es) ++ replicate n b
  /\ w_users (w_run Redis (es ++ crowd n)) = w_users (w_run Redis es).
Proof.
  intros Hq Hc. induction n as [|n (IH1 & IHq & IH2 & IH3 & IH4)].
  { unfold crowd. cbn [seq map concat replicate]. by rewrite !app_nil_r. }
  assert (Hs : crowd (S n) = crowd n ++ [WChoose 0] ++ [WIssue 0 [N.of_nat n] (N.of_nat n)]).
  { unfold crowd. by rewrite seq_S, map_app, concat_app. }
  rewrite Hs, !app_assoc, !w_run_snoc. cbn [w_step]. unfold choose. rewrite IHq, lookup_empty, IH1, IH2.
  unfold issue. cbn [w_pend issues w_now w_hist w_sent w_users]. rewrite lookup_insert. cbn [w_pend w_now w_hist w_sent w_users].
  split; [done|]. split; [by rewrite delete_insert|]. split; [|split].
  - cbn [choice] in *. rewrite r_least_issue, r_run_tidy. exact IH2.
  - rewrite IH3, replicate_S_end. by rewrite app_assoc.
  - done.
Qed.

Lemma crowd_one_by_one es b n :
  Forall (fun e => match e with WChoose _ => False | _ => True end) es ->
  w_pend (w_run Redis es) = ∅ ->
  choice Redis (w_hist (w_run Redis es)) (w_now (w_run Redis es)) = Some b ->
  at_once Redis 0 (es ++ crowd n).
Proof.
  intros Hes Hq Hc. induction n as [|n IH].
  { unfold crowd. cbn [seq map concat]. rewrite app_nil_r. intros es1 h es2 ->. apply Forall_app in Hes as [_ H]. by inversion H. }
  assert (Hs : crowd (S n) = crowd n ++ [WChoose 0] ++ [WIssue 0 [N.of_nat n] (N.of_nat n)]).
  { unfold crowd. by rewrite seq_S, map_app, concat_app. }
  rewrite Hs, app_assoc. intros es1 h es2 Heq.
  destruct es2 as [|e2 es2 _] using rev_ind.
  { rewrite app_assoc in Heq. apply app_inj_tail in Heq as [_ ?]. discriminate. }
  rewrite app_assoc in Heq. change (es1 ++ WChoose h :: es2 ++ [e2]) with (es1 ++ (WChoose h :: es2) ++ [e2]) in Heq.
  rewrite app_assoc in Heq. apply app_inj_tail in Heq as [Heq _].
  destruct es2 as [|e3 es2 _] using rev_ind.
  - apply app_inj_tail in Heq as [<- _]. destruct (crowd_run es b n Hq Hc) as (_ & -> & _). by vm_compute.
  - change (es1 ++ WChoose h :: es2 ++ [e3]) with (es1 ++ (WChoose h :: es2) ++ [e3]) in Heq.
    rewrite app_assoc in Heq. apply app_inj_tail in Heq as [Heq _]. by eapply IH.
Qed.

(** * Logins that look for a broker before any of them has its permit *)
Definition herd (n : nat) : list wev := map (fun i => WChoose (N.of_nat i)) (seq 0 n).
Lemma herd_run be es b n :
  w_now (w_run be es) = 0%N -> w_pend (w_run be es) = ∅ -> choice be (w_hist (w_run be es)) 0 = Some b ->
  w_now (w_run be (es ++ herd n)) = 0%N
  /\ (forall i, n <= i -> w_pend (w_run be (es ++ herd n)) !! N.of_nat i = None)
  /\ choice be (w_hist (w_run be (es ++ herd n))) 0 = Some b
  /\ w_sent (w_run be (es ++ herd n)) = w_sent (w_run be es) ++ replicate n b
  /\ w_users (w_run be (es ++ herd n)) = w_users (w_run be es).
Proof.
  intros Hn Hq Hc. induction n as [|n (IH1 & IHq & IH2 & IH3 & IH4)].
  { unfold herd. cbn [seq map replicate]. rewrite !app_nil_r. split; [done|]. split; [|done]. intros i _. by rewrite Hq. }
  assert (Hs : herd (S n) = herd n ++ [WChoose (N.of_nat n)]).
  { unfold herd. by rewrite seq_S, map_app. }
  rewrite Hs, !app_assoc, !w_run_snoc. cbn [w_step]. unfold choose. rewrite (IHq n) by lia. rewrite IH1, IH2.
  cbn [w_pend w_now w_hist w_sent w_users]. split; [done|]. split; [|split; [|split; [|done]]].
  - intros i Hi. rewrite lookup_insert_ne by lia. apply IHq. lia.
  - destruct be; cbn [choice] in *.
    + change [DPruneBrokers 0; DPrune 0] with ([DPruneBrokers 0] ++ [DPrune 0]).
      rewrite app_assoc, !e_run_snoc. cbn [e_step fst]. by rewrite prune_b0, prune_p0.
    + by rewrite r_run_tidy.
  - rewrite IH3, replicate_S_end. by rewrite app_assoc.
Qed.

(** * Heartbeats stay until the next one *)
Lemma last_beat_app_none limit h l x :
  (forall n1 n2 b n ttl, ~ In (DHeartbeat n1 n2 b n ttl) l) -> last_beat limit (h ++ l) x = last_beat limit h x.
Proof.
  induction l as [|o l IH] using rev_ind; intros Hn; [by rewrite app_nil_r|].
  rewrite app_assoc, last_beat_snoc. rewrite IH.
  - destruct o; try done. exfalso. eapply Hn. rewrite in_app_iff. right. by left.
  - intros n1 n2 b n ttl Hin. eapply Hn. rewrite in_app_iff. by left.
Qed.
Lemma last_beat_quiet be es es' limit x :
  Forall (fun e => forall b, e <> WBeat b) es' ->
  last_beat limit (w_hist (w_run be (es ++ es'))) x = last_beat limit (w_hist (w_run be es)) x.
Proof.
  induction es' as [|e es' IH] using rev_ind; intros He; [by rewrite app_nil_r|].
  apply Forall_app in He as [He He1]. rewrite Forall_singleton in He1. rewrite app_assoc, w_run_snoc.
  destruct (hist_step be (w_run be (es ++ es')) e) as (l & -> & _ & _ & Hb & _).
  rewrite last_beat_app_none; [by apply IH|]. intros n1 n2 b n ttl Hin. apply Hb in Hin as [? _]. by eapply He1.
Qed.
Lemma queue_quiet b n : Forall (fun e => forall b', e <> WBeat b') (queue b n).
Proof. unfold queue. apply List.Forall_concat, List.Forall_map, List.Forall_forall. intros i _. repeat constructor; discriminate. Qed.
Lemma crowd_quiet n : Forall (fun e => forall b', e <> WBeat b') (crowd n).
Proof. unfold crowd. apply List.Forall_concat, List.Forall_map, List.Forall_forall. intros i _. repeat constructor; discriminate. Qed.
Lemma herd_quiet n : Forall (fun e => forall b', e <> WBeat b') (herd n).
Proof. unfold herd. apply List.Forall_map, List.Forall_forall. intros i _ b'. discriminate. Qed.

(** A living broker is known, whatever the back end. *)
Lemma known_exists be w b n e :
  last_beat None (w_hist w) (bid_print b) = Some (n, e) -> last_beat (Some (2 ^ 32)%N) (w_hist w) (bid_print b) = Some (n, e) ->
  (w_now w < e)%N -> exists m, known_users be w b m.
Proof.
  intros H1 H2 He. destruct be; cbn [known_users].
  - destruct (outstanding_exists false (w_hist w) (w_now w) (bid_print b) ltac:(by exists b)) as [S HS].
    exists (n + N.of_nat (size S))%N, n, S. split; [exists e; split; [done|lia]|done].
  - exists n, e. done.
Qed.
