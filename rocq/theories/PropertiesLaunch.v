(** Property theorems: starting and stopping brokers and marshals (LaunchModel.v). *)
From stdpp Require Import gmap fin_maps list.
From Coq Require Import NArith Lia.
From Verif Require Import DecModel IdModel DiscModel DiscSpec DiscProofs3 StartModel LaunchModel LaunchSpec LaunchProofs PropertiesDisc.

(** * C98: a broker is named only when it listens *)
Lemma running_started place evs i p : w_procs (l_run place evs) !! i = Some p -> p_running p = true -> In (LStart i) evs.
Proof.
  revert p. induction evs as [|e evs IH] using rev_ind; intros p; [cbn; by rewrite lookup_empty|]. rewrite run_snoc. intros Hp Hr. apply in_app_iff.
  assert (Hold : forall q, w_procs (l_run place evs) !! i = Some q -> p_running q = true -> In (LStart i) evs \/ In (LStart i) [e]) by (intros q ? ?; left; by apply (IH q)).
  destruct e as [j c|j ip ok|j|j now n|j|o]; cbn [l_step] in Hp.
  - destruct (w_procs (l_run place evs) !! j) eqn:E; [by apply (Hold p)|]. cbn [w_procs] in Hp. destruct (decide (j = i)) as [->|]; [|rewrite lookup_insert_ne in Hp by done; by apply (Hold p)].
    rewrite lookup_insert in Hp. by injection Hp as <-.
  - destruct (w_procs (l_run place evs) !! j) as [q|] eqn:E; [|by apply (Hold p)]. destruct (l_next place (l_run place evs) q ip ok) as [q'|] eqn:En; cbn [w_procs] in Hp.
    + destruct (decide (j = i)) as [->|]; [|rewrite lookup_insert_ne in Hp by done; by apply (Hold p)]. rewrite lookup_insert in Hp. injection Hp as ->.
      destruct (wi_procs place _ (run_inv place evs) i q E) as [Hi _]. destruct (next_inv place _ _ _ _ _ Hi En) as (_ & _ & Hrr). apply (Hold q); [done|congruence].
    + apply lookup_delete_Some in Hp as [_ Hp]. by apply (Hold p).
  - destruct (w_procs (l_run place evs) !! j) as [q|] eqn:E; [|by apply (Hold p)]. destruct (p_todo q); [|by apply (Hold p)]. cbn [w_procs] in Hp.
    destruct (decide (j = i)) as [->|]; [right; by left|]. rewrite lookup_insert_ne in Hp by done. by apply (Hold p).
  - destruct (w_procs (l_run place evs) !! j) as [q|] eqn:E; [|by apply (Hold p)]. destruct (p_running q && c_broker (p_cfg q)); by apply (Hold p).
  - cbn [w_procs] in Hp. apply lookup_delete_Some in Hp as [_ Hp]. by apply (Hold p).
  - destruct o; by apply (Hold p).
Qed.

(** Every heartbeat in the history of the discovery service was written by a broker that was
    listening, for users and for brokers, and is good for a minute. *)
Theorem C98_named_when_listening : forall place evs n1 n2 b n ttl,
  In (DHeartbeat n1 n2 b n ttl) (w_log (l_run place evs)) -> was_listening place evs b n2 /\ ttl = 60%N.
Proof.
  intros place evs n1 n2 b n ttl Hin. apply log_beat in Hin as (pre & i & post & p & -> & _ & -> & Hp & Hr & Hb & Hid). split; [|done].
  destruct (wi_procs place _ (run_inv place pre) i p Hp) as [Hi Hn]. destruct (ready_broker place p Hi (pi_run place p Hi Hr) Hb) as (r1 & r2 & H1 & H2 & Hh & _).
  exists pre, i, n, post, p, r1, r2. split; [done|]. split; [by apply (running_started place pre i p)|]. split; [done|].
  unfold p_place, p_endpoint in H1, H2. unfold p_identity, p_endpoint in Hid. rewrite Hb in *. split; [done|]. split; [done|]. split; [done|]. split; [done|].
  rewrite Hh in Hn. apply NoDup_cons in Hn as [Hn _]. intros ->. apply Hn. by left.
Qed.
Print Assumptions C98_named_when_listening.

(** So whatever a broker or a marshal is told by the discovery service was listening at some time
    in the last minute. *)
Theorem C98_listed_was_listening : forall place evs global now,
  let os := w_log (l_run place evs) in
  ids_ok os ->
  (Forall (fun t => (t <= now)%N) (times os) ->
     (forall self S b, (e_other_brokers (e_run global os) now self).2 = Some S -> b ∈ S -> exists t, was_listening place evs b t /\ (now <= t + 60)%N)
     /\ ((forall n b p ttl k, In (DIssue n b p ttl k) os -> (p < 2 ^ 32)%N) ->
         forall b, (e_least (e_run false os) now).2 = Some b -> exists t, was_listening place evs b t /\ (now <= t + 60)%N))
  /\ (forall self S b, id_ok self -> r_other_brokers (r_run global os) now self = Some S -> b ∈ S -> exists t, was_listening place evs b t /\ (now < t + 60)%N)
  /\ ((forall n1 n2 b n ttl, In (DHeartbeat n1 n2 b n ttl) os -> (n < 2 ^ 64 - 1)%N) ->
      forall b, r_least (r_run global os) now = Some b -> exists t, was_listening place evs b t /\ (now < t + 60)%N).
Proof.
  intros place evs global now os Hok.
  assert (He : forall b n, id_ok b -> e_alive os now b n -> exists t, was_listening place evs b t /\ (now <= t + 60)%N).
  { intros b n Hib (e & Hl & Hle). apply last_beat_in in Hl as (n1 & n2 & b' & ttl & Hin & Hpr & -> & _). specialize (Hok _ _ _ _ _ Hin) as Hib'.
    assert (b' = b) as -> by (by apply print_inj_ok). destruct (C98_named_when_listening _ _ _ _ _ _ _ Hin) as [Hw ->]. by exists n2. }
  assert (Hr : forall b n, id_ok b -> r_alive os now b n -> exists t, was_listening place evs b t /\ (now < t + 60)%N).
  { intros b n Hib (e & Hl & Hle). apply last_beat_in in Hl as (n1 & n2 & b' & ttl & Hin & Hpr & -> & _). specialize (Hok _ _ _ _ _ Hin) as Hib'.
    assert (b' = b) as -> by (by apply print_inj_ok). destruct (C98_named_when_listening _ _ _ _ _ _ _ Hin) as [Hw ->]. by exists n2. }
  split; [|split].
  - intros Ht. split.
    + intros self S b HS Hin. destruct (C55_embedded_membership global os now self Ht Hok) as (S' & HS' & Hb). rewrite HS in HS'. injection HS' as <-.
      apply Hb in Hin as (_ & Hib & n & Ha). by apply (He b n).
    + intros Hp b Hb. pose proof (C37_embedded_least os now Ht Hok Hp) as H. rewrite Hb in H. destruct H as (Hib & n & S0 & Ha & _). by apply (He b n).
  - intros self S b Hs HS Hin. destruct (C55_redis_membership global os now self Hok Hs) as (S' & HS' & Hb). rewrite HS in HS'. injection HS' as <-.
    apply Hb in Hin as (_ & Hib & n & Ha). by apply (Hr b n).
  - intros Hp b Hb. pose proof (C37_redis_least_connections_partial global os now Hok Hp) as H. rewrite Hb in H. destruct H as (Hib & n & Ha & _). by apply (Hr b n).
Qed.
Print Assumptions C98_listed_was_listening.

(** No two processes listen on the same socket. *)
Theorem C98_exclusive : forall place evs i j p q r,
  w_procs (l_run place evs) !! i = Some p -> w_procs (l_run place evs) !! j = Some q -> r ∈ p_held p -> r ∈ p_held q -> i = j.
Proof. intros place evs. apply (wi_excl place _ (run_inv place evs)). Qed.
Print Assumptions C98_exclusive.

(** Brokers whose advertised endpoints lead to what they bind have different names. *)
Theorem C98_names_differ : forall place leads evs i j p q,
  w_procs (l_run place evs) !! i = Some p -> w_procs (l_run place evs) !! j = Some q ->
  p_running p = true -> p_running q = true -> c_broker (p_cfg p) = true -> c_broker (p_cfg q) = true ->
  well_advertised place leads p -> well_advertised place leads q ->
  (p_endpoint p (c_public (p_cfg p)) = p_endpoint q (c_public (p_cfg q)) \/ p_endpoint p (c_private (p_cfg p)) = p_endpoint q (c_private (p_cfg q))) ->
  i = j.
Proof.
  intros place leads evs i j p q Hp Hq Hrp Hrq Hbp Hbq Hap Haq Heq. pose proof (run_inv place evs) as Hw.
  destruct (wi_procs place _ Hw i p Hp) as [Hip _], (wi_procs place _ Hw j q Hq) as [Hiq _].
  destruct (ready_broker place p Hip (pi_run place p Hip Hrp) Hbp) as (r1 & r2 & H1 & H2 & Hh & _).
  destruct (ready_broker place q Hiq (pi_run place q Hiq Hrq) Hbq) as (s1 & s2 & G1 & G2 & Gh & _).
  unfold p_place, p_endpoint in *. rewrite Hbp in *. rewrite Hbq in *. destruct Hap as [A1 A2], Haq as [B1 B2].
  destruct Heq as [E|E].
  - apply (wi_excl place _ Hw i j p q r1 Hp Hq); [rewrite Hh; by left|]. assert (r1 = s1) as ->; [|rewrite Gh; by left]. congruence.
  - apply (wi_excl place _ Hw i j p q r2 Hp Hq); [rewrite Hh; right; by left|]. assert (r2 = s2) as ->; [|rewrite Gh; right; by left]. congruence.
Qed.
Print Assumptions C98_names_differ.

(** A start that fails leaves nothing: no name, and no socket that anybody holds. *)
Theorem C98_nothing_left : forall place evs i p ip ok,
  w_procs (l_run place evs) !! i = Some p -> w_procs (l_run place (evs ++ [LStep i ip ok])) !! i = None ->
  w_log (l_run place (evs ++ [LStep i ip ok])) = w_log (l_run place evs)
  /\ p_running p = false
  /\ forall r j q, r ∈ p_held p -> w_procs (l_run place (evs ++ [LStep i ip ok])) !! j = Some q -> r ∉ p_held q.
Proof.
  intros place evs i p ip ok Hp. rewrite run_snoc. cbn [l_step]. rewrite Hp. pose proof (run_inv place evs) as Hw. destruct (wi_procs place _ Hw i p Hp) as [Hi _].
  destruct (l_next place (l_run place evs) p ip ok) as [p'|] eqn:En; cbn [w_procs]; [by rewrite lookup_insert|]. intros _. split; [done|]. split.
  - destruct (p_running p) eqn:Er; [|done]. pose proof (pi_run place p Hi Er) as Ht. unfold l_next in En. by rewrite Ht in En.
  - intros r j q Hr Hq Hrq. apply lookup_delete_Some in Hq as [Hne Hq]. apply Hne. by apply (wi_excl place _ Hw i j p q r).
Qed.
Print Assumptions C98_nothing_left.

(** It does fail: when a step cannot be done, and when somebody else has the socket. *)
Theorem C98_start_fails : forall place evs i p ip ok,
  w_procs (l_run place evs) !! i = Some p ->
  match p_todo p with
  | [] => False
  | LIp :: _ => ip = None
  | LMetrics :: _ => c_metrics (p_cfg p) = Some None \/ exists l, c_metrics (p_cfg p) = Some (Some l) /\ Forall (fun a => fst a = V6) l
  | LBind users :: _ =>
      ok = false \/ p_place place p users = None
      \/ exists r j q, p_place place p users = Some r /\ w_procs (l_run place evs) !! j = Some q /\ r ∈ p_held q
  | _ => ok = false
  end ->
  w_procs (l_run place (evs ++ [LStep i ip ok])) !! i = None.
Proof.
  intros place evs i p ip ok Hp H. rewrite run_snoc. cbn [l_step]. rewrite Hp.
  assert (En : l_next place (l_run place evs) p ip ok = None); [|rewrite En; cbn [w_procs]; by rewrite lookup_delete].
  unfold l_next. destruct (p_todo p) as [|[| | | |u|] s]; [done|by rewrite H|by rewrite H|by rewrite H|by rewrite H|..].
  - destruct H as [->|[->|(r & j & q & -> & Hq & Hr)]]; [by destruct (p_place place p u)|done|].
    destruct (taken (l_run place evs) r) eqn:E; [by rewrite andb_false_r|]. by destruct (taken_false _ r j q E Hq).
  - destruct H as [->|(l & -> & Hl)]; [done|]. assert (E : first_v4 l = None); [|by rewrite E]. induction Hl as [|[f a] l Hf Hl IH]; [done|]. cbn in Hf. subst f. exact IH.
Qed.
Print Assumptions C98_start_fails.

(** A broker that has ended can be started again at once, on the same host and with the same
    configuration, and is then what it was. *)
Theorem C98_restart : forall place evs i p j,
  w_procs (l_run place evs) !! i = Some p -> p_running p = true -> c_broker (p_cfg p) = true ->
  (j = i \/ w_procs (l_run place evs) !! j = None) ->
  exists q, w_procs (l_run place (evs ++ [LEnd i; LNew j (p_cfg p)] ++ repeat (LStep j (Some (p_ip p)) true) 7 ++ [LStart j])) !! j = Some q
    /\ p_running q = true /\ p_identity q = p_identity p /\ p_held q = p_held p /\ p_metrics q = p_metrics p.
Proof.
  intros place evs i p j Hp Hr Hb Hj. pose proof (run_inv place evs) as Hw. destruct (wi_procs place _ Hw i p Hp) as [Hi Hn].
  destruct (ready_broker place p Hi (pi_run place p Hi Hr) Hb) as (r1 & r2 & H1 & H2 & Hh & Hm & Hres).
  assert (Hne : r1 <> r2). { rewrite Hh in Hn. apply NoDup_cons in Hn as [Hn _]. intros ->. apply Hn. by left. }
  unfold l_run. rewrite foldl_app. change (foldl (l_step place) (World ∅ []) evs) with (l_run place evs).
  set (w := l_run place evs) in *.
  set (M := delete i (w_procs w)).
  assert (HM : M !! j = None). { unfold M. destruct Hj as [->|Hj]; [by rewrite lookup_delete|]. by rewrite lookup_delete_None; right. }
  assert (Hfree : forall q l r, (r = r1 \/ r = r2) -> r ∉ p_held q -> taken (World (<[j := q]> M) l) r = false).
  { intros q l r Hrr Hnq. destruct (taken (World (<[j := q]> M) l) r) eqn:E; [|done]. exfalso. unfold taken in E. apply existsb_exists in E as ([k x] & Hin & Hx).
    apply elem_of_list_In, elem_of_map_to_list in Hin. cbn [snd w_procs] in Hin, Hx. apply bool_decide_eq_true in Hx.
    destruct (decide (k = j)) as [->|Hkj]; [rewrite lookup_insert in Hin; injection Hin as <-; done|]. rewrite lookup_insert_ne in Hin by done.
    unfold M in Hin. apply lookup_delete_Some in Hin as [Hki Hin]. apply Hki. apply (wi_excl place _ Hw i k p x r Hp Hin); [|done]. rewrite Hh. destruct Hrr as [-> | ->]; set_solver. }
  assert (Hstep : forall q q' l, l_next place (World (<[j := q]> M) l) q (Some (p_ip p)) true = Some q' ->
    l_step place (World (<[j := q]> M) l) (LStep j (Some (p_ip p)) true) = World (<[j := q']> M) l).
  { intros q q' l E. cbn [l_step w_procs w_log]. rewrite lookup_insert, E. by rewrite insert_insert. }
  unfold p_place, p_endpoint in H1, H2. rewrite Hb in H1, H2.
  cbn [foldl app repeat]. change (l_step place w (LEnd i)) with (World M (w_log w)).
  replace (l_step place (World M (w_log w)) (LNew j (p_cfg p))) with (World (<[j := Proc (p_cfg p) broker_new [] [] None false]> M) (w_log w)) by (cbn [l_step w_procs w_log]; by rewrite HM, Hb).
  unfold broker_new.
  rewrite (Hstep _ (Proc (p_cfg p) [LDiscovery; LCa; LCert; LBind true; LBind false; LMetrics] (p_ip p) [] None false)) by done.
  rewrite (Hstep _ (Proc (p_cfg p) [LCa; LCert; LBind true; LBind false; LMetrics] (p_ip p) [] None false)) by done.
  rewrite (Hstep _ (Proc (p_cfg p) [LCert; LBind true; LBind false; LMetrics] (p_ip p) [] None false)) by done.
  rewrite (Hstep _ (Proc (p_cfg p) [LBind true; LBind false; LMetrics] (p_ip p) [] None false)) by done.
  rewrite (Hstep _ (Proc (p_cfg p) [LBind false; LMetrics] (p_ip p) [r1] None false)).
  2: { unfold l_next, p_place, p_endpoint. cbn [p_todo p_cfg p_ip p_held p_metrics p_running]. rewrite Hb, H1, Hfree; [done|by left|cbn; set_solver]. }
  rewrite (Hstep _ (Proc (p_cfg p) [LMetrics] (p_ip p) [r1; r2] None false)).
  2: { unfold l_next, p_place, p_endpoint. cbn [p_todo p_cfg p_ip p_held p_metrics p_running]. rewrite Hb, H2, Hfree; [done|by right|cbn; set_solver]. }
  rewrite (Hstep _ (Proc (p_cfg p) [] (p_ip p) [r1; r2] (p_metrics p) false)).
  2: { unfold l_next. cbn [p_todo p_cfg p_ip p_held p_metrics p_running]. unfold resolves in Hres. rewrite Hm. unfold wanted. destruct (c_metrics (p_cfg p)) as [[l|]|]; [|done|done]. by destruct (first_v4 l). }
  cbn [l_step w_procs w_log]. rewrite lookup_insert. cbn [p_todo w_procs]. rewrite lookup_insert. eexists. split; [done|]. cbn. unfold p_identity, p_endpoint. cbn. by rewrite Hh.
Qed.
Print Assumptions C98_restart.

(** Metrics are served at the first IPv4 address of the endpoint given for them; a server does not
    start if there is none. *)
Theorem C98_metrics_address : forall place evs i p,
  w_procs (l_run place evs) !! i = Some p -> p_running p = true ->
  match c_metrics (p_cfg p) with
  | None => p_metrics p = None
  | Some None => False
  | Some (Some l) => exists l1 a l2, l = l1 ++ (V4, a) :: l2 /\ Forall (fun x => fst x = V6) l1 /\ p_metrics p = Some (V4, a)
  end.
Proof.
  intros place evs i p Hp Hr. destruct (wi_procs place _ (run_inv place evs) i p Hp) as [Hi _]. pose proof (pi_run place p Hi Hr) as Ht.
  assert (H : p_metrics p = wanted (p_cfg p) /\ resolves (p_cfg p)).
  { destruct (c_broker (p_cfg p)) eqn:Hb.
    - by destruct (ready_broker place p Hi Ht Hb) as (? & ? & _ & _ & _ & H).
    - by destruct (ready_marshal place p Hi Ht Hb) as (? & _ & _ & H). }
  destruct H as [Hm Hres]. unfold wanted, resolves in *. destruct (c_metrics (p_cfg p)) as [[l|]|]; [|done|done]. rewrite Hm. clear Hm.
  induction l as [|[[|] a] l IH]; cbn in *; [done|by exists [], a, l|]. destruct (IH Hres) as (l1 & b & l2 & -> & Hl & ->). exists ((V6, a) :: l1), b, l2. split; [done|]. split; [by constructor|done].
Qed.
Print Assumptions C98_metrics_address.

(** A running marshal listens where its configuration says. *)
Theorem C98_marshal_listens : forall place evs i p,
  w_procs (l_run place evs) !! i = Some p -> p_running p = true -> c_broker (p_cfg p) = false ->
  exists r, place (c_host (p_cfg p)) true (c_bind_users (p_cfg p)) = Some r /\ p_held p = [r].
Proof.
  intros place evs i p Hp Hr Hb. destruct (wi_procs place _ (run_inv place evs) i p Hp) as [Hi _].
  destruct (ready_marshal place p Hi (pi_run place p Hi Hr) Hb) as (r & H1 & H2 & _). exists r. unfold p_place, p_endpoint in H1. by rewrite Hb in H1.
Qed.
Print Assumptions C98_marshal_listens.

(** * Examples *)
(** Hosts 1 and 2, a broker on each with the same configuration, a marshal on host 2. An endpoint
    is an address (one byte), or "local_ip", a colon and a port (one byte). Address 48 is every
    address of a host. *)
Definition lx_place (host : N) (users : bool) (e : bytes) : option N :=
  match e with [a; _; port] => if (a =? 48)%N || (a =? host)%N then Some (host * 1000 + port)%N else None | _ => None end.
Definition lx_leads (users : bool) (e : bytes) : option N := match e with [a; _; port] => Some (a * 1000 + port)%N | _ => None end.
Definition lx_broker (host : N) : lconfig :=
  LConfig true host [48; 58; 7]%N [48; 58; 8]%N (local_ip ++ [58; 7])%N (local_ip ++ [58; 8])%N (Some (Some [(V6, 1); (V4, 2); (V4, 3)]))%N.
Definition lx_marshal : lconfig := LConfig false 2 [48; 58; 9]%N [] [] [] None.
Definition lx_up (i host : N) (c : lconfig) : list lev := LNew i c :: repeat (LStep i (Some [host]) true) 7 ++ [LStart i].
Definition lx_evs : list lev :=
  lx_up 1 1 (lx_broker 1) ++ [LBeat 1 100 5] ++ lx_up 2 2 (lx_broker 2) ++ lx_up 3 2 lx_marshal
  (* a second broker on host 1 does not get its socket *)
  ++ lx_up 4 1 (lx_broker 1) ++ [LBeat 4 101 0; LBeat 2 103 0]%N.
Definition lx_b (h : N) : bid := Bid [h; 58; 7]%N [h; 58; 8]%N.
Example C98_nonvacuous :
  w_log (l_run lx_place lx_evs) = [DHeartbeat 100 100 (lx_b 1) 5 60; DHeartbeat 103 103 (lx_b 2) 0 60]%N
  /\ p_held <$> w_procs (l_run lx_place lx_evs) !! 1%N = Some [1007; 1008]%N
  /\ p_held <$> w_procs (l_run lx_place lx_evs) !! 2%N = Some [2007; 2008]%N
  /\ p_held <$> w_procs (l_run lx_place lx_evs) !! 3%N = Some [2009]%N
  /\ (fun p => (p_running p, p_metrics p)) <$> w_procs (l_run lx_place lx_evs) !! 1%N = Some (true, Some (V4, 2%N))
  /\ w_procs (l_run lx_place lx_evs) !! 4%N = None
  (* the hypotheses of C98_nothing_left, for process 4 when it tries to bind *)
  /\ (let pre := lx_up 1 1 (lx_broker 1) ++ LNew 4 (lx_broker 1) :: repeat (LStep 4 (Some [1]) true) 4 in
      p_todo <$> w_procs (l_run lx_place pre) !! 4 = Some [LBind true; LBind false; LMetrics]
      /\ w_procs (l_run lx_place (pre ++ [LStep 4 (Some [1]) true])) !! 4 = None)%N
  /\ elements <$> (e_other_brokers (e_run false (w_log (l_run lx_place lx_evs))) 110 (lx_b 2)).2 = Some [lx_b 1]
  /\ (e_least (e_run false (w_log (l_run lx_place lx_evs))) 110).2 = Some (lx_b 2).
Proof. repeat (split; [by vm_compute|]). by vm_compute. Qed.
Example C98_well_advertised_nonvacuous : forall i p, i = 1%N \/ i = 2%N -> w_procs (l_run lx_place lx_evs) !! i = Some p ->
  well_advertised lx_place lx_leads p /\ p_running p = true /\ c_broker (p_cfg p) = true.
Proof.
  intros i p [-> | ->] Hp; unfold well_advertised.
  - assert (E : (fun p => (p_cfg p, p_ip p, p_running p)) <$> w_procs (l_run lx_place lx_evs) !! 1%N = Some (lx_broker 1, [1]%N, true)) by (by vm_compute).
    rewrite Hp in E. cbn [fmap option_fmap option_map] in E. clear Hp. injection E as -> -> ->. repeat split; vm_compute; reflexivity.
  - assert (E : (fun p => (p_cfg p, p_ip p, p_running p)) <$> w_procs (l_run lx_place lx_evs) !! 2%N = Some (lx_broker 2, [2]%N, true)) by (by vm_compute).
    rewrite Hp in E. cbn [fmap option_fmap option_map] in E. clear Hp. injection E as -> -> ->. repeat split; vm_compute; reflexivity.
Qed.

(** * C98: what does not hold *)
(** A broker that the discovery service names may have gone. *)
Theorem C98_listed_is_up_refuted : exists place evs now b,
  let os := w_log (l_run place evs) in
  ids_ok os /\ Forall (fun t => (t <= now)%N) (times os)
  /\ (e_least (e_run false os) now).2 = Some b /\ r_least (r_run false os) now = Some b
  /\ w_procs (l_run place evs) = ∅.
Proof.
  exists lx_place, (lx_up 1 1 (lx_broker 1) ++ [LBeat 1 100 5; LEnd 1])%N, 159%N, (lx_b 1).
  split. { intros n1 n2 b n ttl Hin. assert (E : w_log (l_run lx_place (lx_up 1 1 (lx_broker 1) ++ [LBeat 1 100 5; LEnd 1])%N) = [DHeartbeat 100 100 (lx_b 1) 5 60]%N) by (by vm_compute).
    rewrite E in Hin. destruct Hin as [Hin|[]]. injection Hin as _ _ <- _ _. unfold id_ok. cbn. intuition discriminate. }
  split; [apply (bool_decide_unpack _); by vm_compute|]. split; [by vm_compute|]. split; [by vm_compute|].
  apply map_eq. intros k. rewrite lookup_empty.
  assert (E : map_to_list (w_procs (l_run lx_place (lx_up 1 1 (lx_broker 1) ++ [LBeat 1 100 5; LEnd 1])%N)) = []) by (by vm_compute).
  apply map_to_list_empty_iff in E. rewrite E. apply lookup_empty.
Qed.
Print Assumptions C98_listed_is_up_refuted.

(** Brokers on two hosts that advertise the same endpoints have the same name. *)
Theorem C98_names_differ_refuted : exists place evs i j p q,
  w_procs (l_run place evs) !! i = Some p /\ w_procs (l_run place evs) !! j = Some q /\ i <> j
  /\ p_running p = true /\ p_running q = true /\ c_broker (p_cfg p) = true /\ c_broker (p_cfg q) = true /\ p_identity p = p_identity q.
Proof.
  set (c h := LConfig true h [48; 58; 7]%N [48; 58; 8]%N [5; 58; 7]%N [5; 58; 8]%N None).
  exists lx_place, (lx_up 1 1 (c 1) ++ lx_up 2 2 (c 2))%N, 1%N, 2%N, (Proc (c 1%N) [] [1]%N [1007; 1008]%N None true), (Proc (c 2%N) [] [2]%N [2007; 2008]%N None true).
  split; [by vm_compute|]. split; [by vm_compute|]. done.
Qed.
Print Assumptions C98_names_differ_refuted.
