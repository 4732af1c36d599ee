(** Proofs about machines whose clocks differ. *)
From stdpp Require Import gmap fin_maps list.
From Coq Require Import NArith Lia.
From Verif Require Import IdModel IdProofs DecModel DiscModel DiscSpec DiscProofs DiscProofs2 DiscProofs3 SkewModel.

Lemma last_beat_ahead limit (f : N * dop -> N) h x :
  match last_beat limit (truly h) x with
  | Some (n, e) => exists i o, In (i, o) h /\ last_beat limit (map (fun y => ahead (f y) y.2) h) x = Some (n, (e + f (i, o))%N)
  | None => last_beat limit (map (fun y => ahead (f y) y.2) h) x = None
  end.
Proof.
  induction h as [|[i o] h IH] using rev_ind; [done|]. unfold truly in *. rewrite !map_app. cbn [map snd]. rewrite !last_beat_snoc.
  assert (Hold : match last_beat limit (map snd h) x with
    | Some (n, e) => exists i0 o0, In (i0, o0) (h ++ [(i, o)]) /\ last_beat limit (map (fun y => ahead (f y) y.2) h) x = Some (n, (e + f (i0, o0))%N)
    | None => last_beat limit (map (fun y => ahead (f y) y.2) h) x = None end).
  { destruct (last_beat limit (map snd h) x) as [[n e]|]; [|done]. destruct IH as (i0 & o0 & Hi & He). exists i0, o0. split; [apply in_app_iff; by left|done]. }
  destruct o as [now b p ttl key|now|now b p|n1 n2 b n ttl|now|l]; cbn [ahead]; try exact Hold.
  destruct (bool_decide (bid_print b = x) && match limit with Some l => (n <? l)%N | None => true end); [|exact Hold].
  eexists i, _. split; [apply in_app_iff; right; by left|]. f_equal. f_equal. lia.
Qed.

Lemma times_ahead (f : N * dop -> N) h t : In t (times (map (fun y => ahead (f y) y.2) h)) -> exists y t0, In y h /\ In t0 (times (truly h)) /\ t = (t0 + f y)%N.
Proof.
  unfold times, truly. rewrite !map_map. intros Hin. apply in_concat in Hin as (l & Hl & Ht). apply in_map_iff in Hl as (y & <- & Hy).
  assert (Ho : exists t0, In t0 (op_times y.2) /\ t = (t0 + f y)%N).
  { destruct y as [i [now b p ttl key|now|now b p|n1 n2 b n ttl|now|l]]; cbn in Ht |- *; try (destruct Ht as [<-|[]]; eexists; split; [by left|done]); [|done].
    destruct Ht as [<-|[<-|[]]]; eexists; (split; [|reflexivity]); [by left|right; by left]. }
  destruct Ho as (t0 & Ht0 & ->). exists y, t0. split; [done|]. split; [|done]. apply in_concat. exists (op_times y.2). split; [|done].
  apply in_map_iff. by exists y.
Qed.

Lemma ids_ahead (f : N * dop -> N) h : ids_ok (truly h) -> ids_ok (map (fun y => ahead (f y) y.2) h).
Proof.
  intros Hok n1 n2 b n ttl Hin. apply in_map_iff in Hin as ([i o] & Heq & Hin). cbn in Heq.
  destruct o; cbn in Heq; try discriminate. injection Heq as <- <- <- <- <-. eapply Hok. unfold truly. apply in_map_iff. exists (i, DHeartbeat now1 now2 b0 n0 ttl0). eauto.
Qed.

(** The listing, whatever the clocks show. *)
Lemma e_others_rows global os now self : ids_ok os ->
  exists S, (e_other_brokers (e_run global os) now self).2 = Some S
    /\ forall b, b ∈ S <-> b <> self /\ id_ok b /\ is_Some (e_brokers (e_prune_brokers (e_run global os) now) !! bid_print b).
Proof.
  intros Hok. unfold e_other_brokers. cbn [snd]. set (s := e_prune_brokers (e_run global os) now).
  assert (Hin : forall x, In x (map fst (map_to_list (e_brokers s))) <-> is_Some (e_brokers s !! x)).
  { intros x. rewrite in_map_iff. split.
    - intros ([y r] & <- & Hi). apply elem_of_list_In, elem_of_map_to_list in Hi. by exists r.
    - intros [r Hr]. exists (x, r). split; [done|]. by apply elem_of_list_In, elem_of_map_to_list. }
  destruct (parse_all_ok (map fst (map_to_list (e_brokers s)))) as (r & Hr & Hb).
  { intros x Hx. apply Hin in Hx as [r Hx]. unfold s in Hx. rewrite e_prune_brokers_lookup in Hx. unfold pruned in Hx.
    destruct (e_brokers (e_run global os) !! x) as [r0|] eqn:E; [|done]. eapply beat_id_ok; [exact Hok|]. by apply (e_row_beat global). }
  rewrite Hr. eexists. split; [done|]. intros b. rewrite elem_of_difference, elem_of_list_to_set, elem_of_list_In, not_elem_of_singleton, Hb, Hin. tauto.
Qed.

Section skew.
Variables (global : bool) (off : N -> N) (d : N).
Hypothesis Hd : forall i j, (off i <= off j + d)%N.

Lemma row_kept h i now x n e :
  Forall (fun t => (t <= now)%N) (times (truly h)) -> last_beat (Some (2 ^ 32)%N) (truly h) x = Some (n, e) -> (now + d <= e)%N ->
  exists e', e_brokers (e_prune_brokers (e_run global (own_clocks off h)) (now + off i)) !! x = Some (BrokerRow n e').
Proof.
  intros Hm Hb He. pose proof (last_beat_ahead (Some (2 ^ 32)%N) (fun y => off y.1) h x) as Hl. rewrite Hb in Hl. destruct Hl as (j & o & _ & Hl). cbn [fst] in Hl.
  exists (e + off j)%N. rewrite e_prune_brokers_lookup.
  destruct (e_beat_row global _ x n _ Hl) as [Hr|(t & Ht & Het)].
  - change (map (fun y => ahead (off y.1) y.2) h) with (own_clocks off h) in Hr. rewrite Hr. cbn. destruct (N.ltb_spec (e + off j) (now + off i)); [|done].
    specialize (Hd i j). lia.
  - exfalso. apply (times_ahead (fun y => off y.1)) in Ht as (y & t0 & _ & Ht0 & ->). rewrite List.Forall_forall in Hm. specialize (Hm t0 Ht0). specialize (Hd y.1 j). lia.
Qed.
Lemma row_fresh h i now x r :
  e_brokers (e_prune_brokers (e_run global (own_clocks off h)) (now + off i)) !! x = Some r ->
  exists e, last_beat (Some (2 ^ 32)%N) (truly h) x = Some (br_conns r, e) /\ (now <= e + d)%N.
Proof.
  rewrite e_prune_brokers_lookup. unfold pruned. destruct (e_brokers _ !! x) as [r0|] eqn:E; [|done]. destruct (N.ltb_spec (br_expiry r0) (now + off i)); [done|]. intros [= ->].
  apply e_row_beat in E. pose proof (last_beat_ahead (Some (2 ^ 32)%N) (fun y => off y.1) h x) as Hl. cbn beta in Hl.
  change (map (fun y => ahead (off y.1) y.2) h) with (own_clocks off h) in Hl. rewrite E in Hl.
  destruct (last_beat (Some (2 ^ 32)%N) (truly h) x) as [[n e]|]; [|done]. destruct Hl as (j & o & _ & Hl). injection Hl as Hn He. exists e. split; [by rewrite Hn|].
  cbn [fst] in He. specialize (Hd j i). lia.
Qed.

Lemma skew_choice h i now :
  global = false -> ids_ok (truly h) -> (forall n b p ttl k, In (DIssue n b p ttl k) (truly h) -> (p < 2 ^ 32)%N) ->
  Forall (fun t => (t <= now)%N) (times (truly h)) ->
  match (e_least (e_run global (own_clocks off h)) (now + off i)).2 with
  | Some b => id_ok b /\ exists n e, last_beat (Some (2 ^ 32)%N) (truly h) (bid_print b) = Some (n, e) /\ (now <= e + d)%N
  | None => forall b n e, last_beat (Some (2 ^ 32)%N) (truly h) (bid_print b) = Some (n, e) -> (e < now + d)%N
  end.
Proof.
  intros Hg Hok Hp Hm. unfold e_least. cbn [snd]. set (s := e_prune_permits (e_prune_brokers (e_run global (own_clocks off h)) (now + off i)) (now + off i)).
  set (l := map _ (map_to_list (e_brokers s))).
  assert (Hl : forall x t, In (x, t) l <-> exists r, e_brokers (e_prune_brokers (e_run global (own_clocks off h)) (now + off i)) !! x = Some r /\ t = (br_conns r + e_count_permits s x)%N).
  { intros x t. unfold l. rewrite in_map_iff. split.
    - intros ([y r] & Heq & Hi). cbn in Heq. injection Heq as <- <-. apply elem_of_list_In, elem_of_map_to_list in Hi. by exists r.
    - intros (r & Hr & ->). exists (x, r). split; [done|]. by apply elem_of_list_In, elem_of_map_to_list. }
  assert (Hcount : forall x, (e_count_permits s x <= 2 ^ 32)%N).
  { intros x. unfold e_count_permits. rewrite <- (size_dom (D := gset N)).
    apply size_below. intros p Hp'. apply elem_of_dom in Hp' as [r Hr]. apply map_filter_lookup_Some in Hr as [Hr _].
    unfold s in Hr. cbn in Hr. apply map_filter_lookup_Some in Hr as [Hr _]. apply e_permit_numbers in Hr as (n & b' & ttl & Hin).
    unfold own_clocks in Hin. apply in_map_iff in Hin as ([j o] & Heq & Hin). destruct o; cbn in Heq; try discriminate. injection Heq as <- <- <- <- ->.
    eapply Hp. unfold truly. apply in_map_iff. eexists. split; [|exact Hin]. reflexivity. }
  destruct (decide (l = [])) as [Hnil|Hnil].
  - rewrite Hnil. cbn. intros b n e Hb. destruct (N.ltb_spec e (now + d)) as [|Hge]; [done|exfalso].
    destruct (row_kept h i now _ n e Hm Hb Hge) as [e' Hr]. assert (Hin : In (bid_print b, (n + e_count_permits s (bid_print b))%N) l) by (apply Hl; eauto). by rewrite Hnil in Hin.
  - destruct (least_spec l Hnil) as (x & t & Hin & _ & ->).
    { intros [x t] Hin. apply Hl in Hin as (r & Hr & ->). apply row_fresh in Hr as (e & Hb & _). apply last_beat_in in Hb as (_ & _ & _ & _ & _ & _ & _ & Hn). cbn [snd].
      specialize (Hcount x). lia. }
    apply Hl in Hin as (r & Hr & _). apply row_fresh in Hr as (e & Hb & He). pose proof (beat_id_ok _ _ _ _ _ Hok Hb) as (b & [Hb1 Hb2] & <-).
    rewrite bid_roundtrip by done. split; [done|]. eauto.
Qed.

(** Permits. *)
Lemma permit_kept h1 i t b p ttl k h2 now :
  e_permits (e_run global (own_clocks off h1)) !! p = None ->
  Forall (fun t => (t <= now)%N) (times (truly h2)) -> (now + d <= t + ttl)%N -> (forall n b', ~ In (DTake n b' p) (truly h2)) ->
  e_permits (e_run global (own_clocks off (h1 ++ (i, DIssue t b p ttl k) :: h2))) !! p = Some (PermitRow (if global then [] else bid_print b) k (t + off i + ttl)).
Proof.
  intros Hfree Hm He Hno. induction h2 as [|[j o] h2 IH] using rev_ind.
  - unfold own_clocks. rewrite map_app. cbn [map fst snd ahead]. rewrite e_run_snoc, e_step_permit, decide_True by done.
    change (map (fun x => ahead (off x.1) x.2) h1) with (own_clocks off h1). by rewrite Hfree.
  - rewrite app_comm_cons, app_assoc. unfold own_clocks in *. rewrite map_app. cbn [map fst snd]. rewrite e_run_snoc, e_step_permit.
    assert (Hm' : Forall (fun t => (t <= now)%N) (times (truly h2)) /\ Forall (fun t => (t <= now)%N) (op_times o)).
    { unfold truly in Hm. rewrite map_app in Hm. cbn [map snd] in Hm. rewrite times_snoc in Hm. by apply Forall_app in Hm. }
    rewrite IH; [|apply Hm'|intros n b' Hin; apply (Hno n b'); unfold truly in *; rewrite map_app; apply in_app_iff; by left].
    destruct Hm' as [_ Hm']. destruct o as [now0 b0 p0 ttl0 key0|now0|now0 b0 p0|n1 n2 b0 n ttl0|now0|l]; cbn [ahead op_times] in *; try done.
    + by case_decide.
    + cbn [pr_expiry]. destruct (N.ltb_spec (t + off i + ttl) (now0 + off j)); [|done]. inversion_clear Hm'. specialize (Hd j i). lia.
    + case_decide as Hp; [|done]. subst p0. exfalso. apply (Hno now0 b0). unfold truly. rewrite map_app. apply in_app_iff. right. by left.
Qed.
End skew.

(** *** Redis: the state shifted in time *)
Definition later (d : N) (s : rdb) : rdb := Rdb ((fun ve : bytes * N => (ve.1, (ve.2 + d)%N)) <$> r_keys s) ((fun e => (e + d)%N) <$> r_brokers s) (r_whitelist s).
Lemma ltb_shift a b d : ((a + d <? b + d) = (a <? b))%N.
Proof. destruct (N.ltb_spec (a + d) (b + d)), (N.ltb_spec a b); lia || done. Qed.
Lemma later_get d s now k : r_get (later d s) (now + d) k = r_get s now k.
Proof.
  unfold r_get, later. cbn [r_keys]. rewrite lookup_fmap. destruct (r_keys s !! k) as [[v e]|]; [|done]. cbn. by rewrite ltb_shift.
Qed.
Lemma later_step g d s o : (r_step g (later d s) (ahead d o)).1 = later d (r_step g s o).1 /\ (r_step g (later d s) (ahead d o)).2 = (r_step g s o).2.
Proof.
  destruct o as [now b p ttl key|now|now b p|n1 n2 b n ttl|now|l]; cbn [ahead r_step fst snd]; try done.
  - split; [|done]. unfold r_issue, later. cbn. f_equal. rewrite fmap_insert. cbn. by replace (now + d + ttl)%N with (now + ttl + d)%N by lia.
  - unfold r_take. cbn [fst snd]. split; [|by apply later_get]. unfold later. cbn. by rewrite fmap_delete.
  - split; [|done]. unfold r_heartbeat, later. cbn. replace (n2 + d + ttl)%N with (n2 + ttl + d)%N by lia. f_equal; by rewrite fmap_insert.
Qed.
Lemma later_run g d h : r_run g (server_clock d h) = later d (r_run g (truly h)).
Proof.
  induction h as [|[i o] h IH] using rev_ind.
  - unfold r_run, later. cbn. by rewrite !fmap_empty.
  - unfold server_clock, truly in *. rewrite !map_app. cbn [map snd]. rewrite !r_run_snoc, IH. apply later_step.
Qed.
Lemma alive_server d h now b n : r_alive (server_clock d h) (now + d) b n <-> r_alive (truly h) now b n.
Proof.
  unfold r_alive. pose proof (last_beat_ahead None (fun _ => d) h (bid_print b)) as Hl. cbn beta in Hl.
  change (map (fun y => ahead d y.2) h) with (server_clock d h) in Hl. destruct (last_beat None (truly h) (bid_print b)) as [[m e]|].
  - destruct Hl as (_ & _ & _ & ->). split; intros (e' & [= <- <-] & He); eexists; (split; [done|lia]).
  - rewrite Hl. split; by intros (e' & ? & _).
Qed.
