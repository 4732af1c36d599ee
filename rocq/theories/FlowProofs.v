(** Proofs about the memory of a running broker. *)
From stdpp Require Import list gmap.
From Coq Require Import NArith Lia.
From Verif Require Import WireModel PoolModel PoolSpec PoolProofs FlowModel FlowSpec.
Local Arguments N.add : simpl never.
Local Arguments N.sub : simpl never.
Local Arguments N.leb : simpl never.

(** * Copies of a message, a waiting request counting as one *)
Definition cp (p : pool) (id : nat) : nat :=
  match p_live p !! id with
  | Some v => v.2
  | None => if decide (id ∈ wids (p_wait p)) then 1 else 0
  end.
Record pok (P : N) (p : pool) : Prop := {
  po_inv : pinv P p;
  po_counted : forall id n c, p_live p !! id = Some (n, c) -> 1 <= c;
}.

Lemma add_live_in live ws id : id ∈ wids ws -> exists n, add_live live ws !! id = Some (n, 1).
Proof.
  unfold add_live. revert live. induction ws as [|w ws IH] using rev_ind; intros live H; [by apply elem_of_nil in H|].
  rewrite fold_left_app. cbn [fold_left]. unfold wids in H. rewrite fmap_app in H. apply elem_of_app in H as [H|H].
  - destruct (decide (w_id w = id)) as [<-|Hne]; [rewrite lookup_insert; by eexists|]. rewrite lookup_insert_ne by done. by apply IH.
  - apply elem_of_list_singleton in H as ->. rewrite lookup_insert. by eexists.
Qed.

Lemma release_cp P p k id : pinv P p ->
  cp (release p k) id = cp p id
  /\ (forall v, p_live p !! id = Some v -> p_live (release p k) !! id = Some v)
  /\ (forall n c, p_live (release p k) !! id = Some (n, c) -> p_live p !! id = Some (n, c) \/ c = 1).
Proof.
  intros [Hsum Hs Hw Hh Hnd Hf]. unfold release, cp. destruct (hand_out k (p_wait p)) as [[r dn] rest] eqn:E. cbn [p_live p_wait].
  destruct (hand_out_spec _ _ _ _ _ E Hs) as (H1 & H2 & H3 & H4 & H5).
  rewrite H2 in Hnd. apply NoDup_app in Hnd as (N1 & N2 & N3).
  destruct (decide (id ∈ wids dn)) as [Hd|Hd].
  - assert (p_live p !! id = None) as Hl.
    { assert (id ∈ wids (p_wait p)) as Hi by (rewrite H2; apply elem_of_app; by left).
      apply elem_of_list_fmap in Hi as (w & -> & Hin). by apply Hf. }
    destruct (add_live_in (p_live p) dn id Hd) as (n & Hn). rewrite Hn, Hl.
    rewrite decide_True by (rewrite H2; apply elem_of_app; by left). split_and!; [done|done|]. intros n' c [= <- <-]. by right.
  - rewrite (add_live_lookup _ _ _ Hd). split_and!; [|done|by left]. destruct (p_live p !! id); [done|].
    assert (id ∈ wids (p_wait p) <-> id ∈ wids rest) as Hiff by (rewrite H2, elem_of_app; tauto).
    destruct (decide (id ∈ wids rest)), (decide (id ∈ wids (p_wait p))); tauto.
Qed.

Lemma alloc_cp P p id n : pok P p -> p_known p id = false ->
  pok P (pstep p (PAlloc id n)) /\ (forall j, cp (pstep p (PAlloc id n)) j = cp p j + if decide (j = id) then 1 else 0)
  /\ (forall j v, p_live p !! j = Some v -> p_live (pstep p (PAlloc id n)) !! j = Some v).
Proof.
  intros [Hi Hc] Hk. split; [split; [by apply pstep_inv|]|].
  - intros j m c. cbn [pstep]. rewrite Hk. destruct (n <=? p_avail p)%N; cbn [p_live]; [|apply Hc].
    destruct (decide (j = id)) as [->|Hne]; [rewrite lookup_insert; intros [= _ <-]; lia|]. rewrite lookup_insert_ne by done. apply Hc.
  - destruct (known_false _ _ Hk) as [Hl Hw]. unfold cp. cbn [pstep]. rewrite Hk. destruct (n <=? p_avail p)%N; cbn [p_live p_wait].
    + split.
      * intros j. destruct (decide (j = id)) as [->|Hne]; [rewrite lookup_insert, Hl, decide_False by done; done|].
        rewrite lookup_insert_ne by done. lia.
      * intros j v Hv. rewrite lookup_insert_ne; [done|]. intros ->. congruence.
    + split; [|done]. intros j. destruct (p_live p !! j) as [v|] eqn:Ej.
      * rewrite decide_False; [lia|]. intros ->. congruence.
      * assert (j ∈ wids (p_wait p ++ [Waiter id n (p_avail p)]) <-> j ∈ wids (p_wait p) \/ j = id) as Hiff.
        { unfold wids. rewrite fmap_app, elem_of_app. cbn [fmap list_fmap w_id]. rewrite elem_of_list_singleton. done. }
        destruct (decide (j ∈ wids (p_wait p ++ _))), (decide (j ∈ wids (p_wait p))), (decide (j = id)); subst; tauto || done.
Qed.

Lemma clone_cp P p id : pok P p -> is_Some (p_live p !! id) ->
  pok P (pstep p (PClone id)) /\ (forall j, cp (pstep p (PClone id)) j = cp p j + if decide (j = id) then 1 else 0)
  /\ (forall j, is_Some (p_live p !! j) -> is_Some (p_live (pstep p (PClone id)) !! j)).
Proof.
  intros [Hi Hc] [[n c] Hl]. split; [split; [by apply pstep_inv|]|].
  - intros j m d. cbn [pstep]. rewrite Hl. cbn [p_live]. destruct (decide (j = id)) as [->|Hne]; [rewrite lookup_insert; intros [= _ <-]; lia|].
    rewrite lookup_insert_ne by done. apply Hc.
  - unfold cp. cbn [pstep]. rewrite Hl. cbn [p_live p_wait]. split.
    + intros j. destruct (decide (j = id)) as [->|Hne]; [rewrite lookup_insert, Hl; cbn [snd]; lia|]. rewrite lookup_insert_ne by done. lia.
    + intros j Hj. destruct (decide (j = id)) as [->|Hne]; [rewrite lookup_insert; by eexists|]. by rewrite lookup_insert_ne.
Qed.

Lemma drop_cp P p id : pok P p -> is_Some (p_live p !! id) ->
  pok P (pstep p (PDrop id)) /\ (forall j, cp p j = cp (pstep p (PDrop id)) j + if decide (j = id) then 1 else 0)
  /\ (forall j, is_Some (p_live p !! j) -> (1 < cp p j \/ j <> id) -> is_Some (p_live (pstep p (PDrop id)) !! j))
  /\ (1 < cp p id -> p_avail (pstep p (PDrop id)) = p_avail p /\ p_wait (pstep p (PDrop id)) = p_wait p /\ dom (p_live (pstep p (PDrop id))) = dom (p_live p)).
Proof.
  intros [Hi Hc] [[n c] Hl]. pose proof (Hc _ _ _ Hl) as H1.
  assert (cp p id = c) as Hcp by (unfold cp; by rewrite Hl).
  destruct c as [|[|c]]; [lia| |].
  - set (p0 := Pool (p_avail p) (p_wait p) (delete id (p_live p))).
    assert (pstep p (PDrop id) = release p0 n) as E by (cbn [pstep]; by rewrite Hl). rewrite E.
    assert (pinv (P - n) p0) as Hp0.
    { destruct Hi as [Hsum Hs Hw Hh Hnd Hf]. pose proof (held_delete _ _ _ _ Hl) as Hd. constructor; cbn [p0 p_avail p_wait p_live]; try done; [lia|].
      intros w Hin. destruct (decide (w_id w = id)) as [->|Hne]; [apply lookup_delete|]. rewrite lookup_delete_ne by done. by apply Hf. }
    assert (id ∉ wids (p_wait p)) as Hnw.
    { intros Hin. apply elem_of_list_fmap in Hin as (w & -> & Hin). rewrite (pi_fresh _ _ Hi w Hin) in Hl. done. }
    split; [split|split_and!].
    + rewrite <- E. by apply pstep_inv.
    + intros j m d Hj. apply (release_cp _ _ _ _ Hp0) in Hj as [Hj| ->]; [|lia]. cbn [p0 p_live] in Hj.
      apply lookup_delete_Some in Hj as [_ Hj]. by eapply Hc.
    + intros j. rewrite (proj1 (release_cp _ _ n j Hp0)). unfold cp at 2. cbn [p0 p_live p_wait]. destruct (decide (j = id)) as [->|Hne].
      * rewrite lookup_delete, decide_False by done. lia.
      * rewrite lookup_delete_ne by done. fold (cp p j). unfold cp. lia.
    + intros j [v Hj] Hor. destruct (decide (j = id)) as [->|Hne]; [lia|].
      eexists. apply (release_cp _ _ n j Hp0). cbn [p0 p_live]. by rewrite lookup_delete_ne.
    + lia.
  - assert (pstep p (PDrop id) = Pool (p_avail p) (p_wait p) (<[id := (n, S c)]> (p_live p))) as E by (cbn [pstep]; by rewrite Hl). 
    split; [split|split_and!].
    + by apply pstep_inv.
    + rewrite E. cbn [p_live]. intros j m d. destruct (decide (j = id)) as [->|Hne]; [rewrite lookup_insert; intros [= _ <-]; lia|].
      rewrite lookup_insert_ne by done. apply Hc.
    + rewrite E. intros j. unfold cp. cbn [p_live p_wait]. destruct (decide (j = id)) as [->|Hne]; [rewrite lookup_insert, Hl; cbn [snd]; lia|].
      rewrite lookup_insert_ne by done. lia.
    + rewrite E. intros j Hj _. cbn [p_live]. destruct (decide (j = id)) as [->|Hne]; [rewrite lookup_insert; by eexists|]. by rewrite lookup_insert_ne.
    + intros _. rewrite E. cbn [p_avail p_wait p_live]. split_and!; [done|done|]. rewrite dom_insert_lookup_L; [done|by eexists].
Qed.

Lemma find_waiting (ws : list waiter) id : id ∈ wids ws -> is_Some (List.find (fun w => w_id w =? id) ws).
Proof.
  induction ws as [|w ws IH]; intros H; [by apply elem_of_nil in H|]. cbn [List.find]. destruct (w_id w =? id) eqn:E; [by eexists|].
  apply Nat.eqb_neq in E. unfold wids in H. cbn in H. apply elem_of_cons in H as [H|H]; [congruence|by apply IH].
Qed.
Lemma cancel_cp P p id : pok P p -> id ∈ wids (p_wait p) ->
  pok P (pstep p (PCancel id)) /\ (forall j, cp p j = cp (pstep p (PCancel id)) j + if decide (j = id) then 1 else 0)
  /\ (forall j, is_Some (p_live p !! j) -> is_Some (p_live (pstep p (PCancel id)) !! j)).
Proof.
  intros [Hi Hc] Hin. destruct (find_waiting _ _ Hin) as [w Hfd].
  pose proof Hi as [Hsum Hs Hw Hh Hnd Hf].
  destruct (find_split _ _ _ Hfd Hnd) as (a & b & Ew & Hid & Efil).
  set (p0 := Pool (p_avail p) (a ++ b) (p_live p)).
  assert (pstep p (PCancel id) = release p0 (w_got w)) as E by (cbn [pstep]; by rewrite Hfd, Efil).
  assert (pinv (P - w_got w) p0) as Hp0.
  { rewrite Ew in Hsum, Hs, Hh, Hnd, Hf, Hw. rewrite collected_app, collected_cons in Hsum. constructor; cbn [p0 p_avail p_wait p_live].
    + rewrite collected_app. lia.
    + apply Forall_app in Hs as [Ha Hb]. apply Forall_cons in Hb as [_ Hb]. by apply Forall_app.
    + intros _. apply Hw. by destruct a.
    + by eapply tail_zero_app.
    + unfold wids in *. rewrite fmap_app in *. cbn in Hnd. apply NoDup_app in Hnd as (N1 & N2 & N3). apply NoDup_cons in N3 as [_ N3].
      apply NoDup_app. split_and!; [done| |done]. intros x Hx. specialize (N2 x Hx). apply not_elem_of_cons in N2 as [_ N2]. exact N2.
    + intros v Hv. apply Hf. apply elem_of_app in Hv as [Hv|Hv]; apply elem_of_app; [by left|right; by right]. }
  assert (p_live p !! id = None) as Hl.
  { apply elem_of_list_fmap in Hin as (w' & -> & Hin). by apply Hf. }
  split; [split|split].
  - by apply pstep_inv.
  - intros j m d Hj. rewrite E in Hj. apply (release_cp _ _ _ _ Hp0) in Hj as [Hj| ->]; [by eapply Hc|lia].
  - intros j. rewrite E, (proj1 (release_cp _ _ _ j Hp0)). unfold cp. cbn [p0 p_live p_wait].
    assert (j ∈ wids (p_wait p) <-> j ∈ wids (a ++ b) \/ j = id) as Hiff.
    { rewrite Ew. unfold wids. rewrite !fmap_app, !elem_of_app. cbn. rewrite elem_of_cons, Hid. tauto. }
    assert (id ∉ wids (a ++ b)) as Hnin.
    { rewrite Ew in Hnd. unfold wids in *. rewrite fmap_app in *. cbn in Hnd. rewrite Hid in Hnd. apply NoDup_app in Hnd as (N1 & N2 & N3).
      apply NoDup_cons in N3 as [N3 _]. rewrite elem_of_app. intros [H|H]; [|done]. apply (N2 _ H). left. }
    destruct (decide (j = id)) as [->|Hne].
    + rewrite Hl. destruct (decide (id ∈ wids (p_wait p))), (decide (id ∈ wids (a ++ b))); tauto || done.
    + destruct (p_live p !! j); [lia|]. destruct (decide (j ∈ wids (p_wait p))), (decide (j ∈ wids (a ++ b))); tauto || done.
  - intros j [v Hv]. rewrite E. eexists. by apply (release_cp _ _ _ _ Hp0).
Qed.

(** * Where the copies are *)
Definition cnt (id : nat) (l : list nat) : nat := count_occ Nat.eq_dec l id.
Definition occ (id : nat) (x : fconn) : nat :=
  cnt id (fc_queue x) + cnt id (fc_recv x) + match fc_read x with FMem j => if decide (j = id) then 1 else 0 | _ => 0 end.
Definition tot (m : gmap N fconn) (id : nat) : nat := map_fold (fun _ x a => occ id x + a) 0 m.

Lemma tot_empty id : tot ∅ id = 0.
Proof. unfold tot. by rewrite map_fold_empty. Qed.
Lemma tot_insert m c x id : m !! c = None -> tot (<[c := x]> m) id = occ id x + tot m id.
Proof. intros H. unfold tot. rewrite map_fold_insert_L; [done| |done]. intros. lia. Qed.
Lemma tot_delete m c x id : m !! c = Some x -> tot m id = occ id x + tot (delete c m) id.
Proof. intros H. rewrite <- (insert_delete m c x H) at 1. apply tot_insert, lookup_delete. Qed.
Lemma tot_update m c x y id : m !! c = Some x -> tot (<[c := y]> m) id + occ id x = tot m id + occ id y.
Proof.
  intros H. rewrite (tot_delete m c x id H). rewrite <- insert_delete_insert, tot_insert by apply lookup_delete. lia.
Qed.
Lemma tot_ge m c x id : m !! c = Some x -> occ id x <= tot m id.
Proof. intros H. rewrite (tot_delete m c x id H). lia. Qed.

Lemma cnt_app id a b : cnt id (a ++ b) = cnt id a + cnt id b.
Proof. apply count_occ_app. Qed.
Lemma cnt_cons id j l : cnt id (j :: l) = (if decide (id = j) then 1 else 0) + cnt id l.
Proof. unfold cnt. cbn [count_occ]. destruct (Nat.eq_dec j id), (decide (id = j)); congruence || lia. Qed.
Lemma cnt_in id l : In id l <-> 0 < cnt id l.
Proof. unfold cnt. rewrite (count_occ_In Nat.eq_dec l id). unfold gt. done. Qed.
Lemma cnt_nil id : cnt id [] = 0.
Proof. done. Qed.

(** Held: queued or received, not being read. *)
Definition held_by (id : nat) (x : fconn) : Prop := In id (fc_queue x) \/ In id (fc_recv x).
Record finv (P : N) (s : flow) (X : list nat) : Prop := {
  fi_pool : pok P (f_pool s);
  fi_cp : forall id, cp (f_pool s) id = tot (f_conns s) id + cnt id X;
  fi_held : forall c x id, f_conns s !! c = Some x -> held_by id x -> is_Some (p_live (f_pool s) !! id);
  fi_out : forall id, In id X -> is_Some (p_live (f_pool s) !! id);
  fi_next : forall id, f_next s <= id -> cp (f_pool s) id = 0;
}.

Lemma finv_new P : finv P (flow_new P) [].
Proof.
  constructor; try done. split; [apply (pool_inv P [])|done].
Qed.

Lemma cp_zero p id : cp p id = 0 -> (forall n c, p_live p !! id = Some (n, c) -> 1 <= c) -> p_known p id = false.
Proof.
  unfold cp, p_known. intros H Hc. destruct (p_live p !! id) as [[n c]|] eqn:E; cbn in H; [specialize (Hc _ _ eq_refl); lia|].
  rewrite bool_decide_eq_false_2 by (intros [? ?]; congruence). cbn [orb]. destruct (decide (id ∈ wids (p_wait p))) as [|Hn]; [lia|].
  apply not_true_is_false. intros Hex. apply existsb_exists in Hex as (w & Hin & Hw). apply Nat.eqb_eq in Hw. apply Hn.
  apply elem_of_list_fmap. exists w. split; [done|]. by apply elem_of_list_In.
Qed.

(** Moving what is outside: dropping one. *)
Lemma finv_drop P s id X : finv P s (id :: X) -> finv P (on_pool s (PDrop id)) X.
Proof.
  intros [Hp Hcp Hh Ho Hn]. assert (is_Some (p_live (f_pool s) !! id)) as Hl by (apply Ho; by left).
  destruct (drop_cp _ _ _ Hp Hl) as (D1 & D2 & D3 & _). constructor; cbn [on_pool f_pool f_conns f_next].
  - done.
  - intros j. specialize (Hcp j). specialize (D2 j). rewrite cnt_cons in Hcp. lia.
  - intros c x j Hc Hb. apply D3; [by eapply Hh|]. destruct (decide (j = id)) as [->|]; [|by right]. left. rewrite Hcp, cnt_cons, decide_True by done.
    pose proof (tot_ge _ _ _ id Hc) as Hg. unfold occ in Hg. destruct Hb as [Hb|Hb]; apply cnt_in in Hb; lia.
  - intros j Hj. apply D3; [apply Ho; by right|]. destruct (decide (j = id)) as [->|]; [|by right]. left. rewrite Hcp, cnt_cons, decide_True by done.
    apply cnt_in in Hj. lia.
  - intros j Hj. specialize (Hn j Hj). specialize (D2 j). lia.
Qed.
Lemma finv_drop_all P ids : forall s X, finv P s (ids ++ X) -> finv P (drop_all s ids) X.
Proof.
  induction ids as [|id ids IH]; intros s X H; [done|]. unfold drop_all in *. cbn [fold_left]. apply IH. by apply finv_drop.
Qed.

Lemma drop_all_conns ids : forall s, f_conns (drop_all s ids) = f_conns s /\ f_next (drop_all s ids) = f_next s.
Proof. induction ids as [|id ids IH]; intros s; [done|]. unfold drop_all in *. cbn [fold_left]. destruct (IH (on_pool s (PDrop id))) as [-> ->]. done. Qed.

(** A copy that is being read, or waited for, given up. *)
Lemma finv_give_up P s id X : 
  pok P (f_pool s) ->
  (forall j, cp (f_pool s) j = tot (f_conns s) j + cnt j X + if decide (id = j) then 1 else 0) ->
  (forall c x j, f_conns s !! c = Some x -> held_by j x -> is_Some (p_live (f_pool s) !! j)) ->
  (forall j, In j X -> is_Some (p_live (f_pool s) !! j)) ->
  (forall j, f_next s <= j -> cp (f_pool s) j = 0) ->
  finv P (if in_memory s id then on_pool s (PDrop id) else on_pool s (PCancel id)) X.
Proof.
  intros Hp Hcp Hh Ho Hn. unfold in_memory. destruct (bool_decide _) eqn:E.
  - apply bool_decide_eq_true in E. apply finv_drop. constructor; try done.
    + intros j. rewrite Hcp, cnt_cons. destruct (decide (id = j)), (decide (j = id)); congruence || lia.
    + intros j [<-|Hj]; [done|by apply Ho].
  - apply bool_decide_eq_false in E.
    assert (id ∈ wids (p_wait (f_pool s))) as Hw.
    { specialize (Hcp id). rewrite decide_True in Hcp by done. unfold cp in Hcp. destruct (p_live (f_pool s) !! id); [exfalso; apply E; by eexists|].
      destruct (decide (id ∈ wids (p_wait (f_pool s)))); [done|lia]. }
    destruct (cancel_cp _ _ _ Hp Hw) as (C1 & C2 & C3). constructor; cbn [on_pool f_pool f_conns f_next].
    + done.
    + intros j. specialize (Hcp j). specialize (C2 j). destruct (decide (id = j)), (decide (j = id)); congruence || lia.
    + intros c x j Hc Hb. apply C3. by eapply Hh.
    + intros j Hj. by apply C3, Ho.
    + intros j Hj. specialize (Hn j Hj). specialize (C2 j). lia.
Qed.

Lemma finv_remove P s c X : finv P s X -> finv P (f_remove s c) X.
Proof.
  intros H. unfold f_remove. destruct (f_conns s !! c) as [x|] eqn:Ec; [|done].
  set (s0 := Flow (f_pool s) (delete c (f_conns s)) (f_next s)). destruct H as [Hp Hcp Hh Ho Hn].
  assert (forall j, f_conns s0 !! j = delete c (f_conns s) !! j) as Hs0 by done.
  assert (forall c' x' j, f_conns s0 !! c' = Some x' -> held_by j x' -> is_Some (p_live (f_pool s) !! j)) as Hh0.
  { intros c' x' j Hc' Hb. cbn [s0 f_conns] in Hc'. apply lookup_delete_Some in Hc' as [_ Hc']. by eapply Hh. }
  assert (forall j, In j (fc_queue x ++ fc_recv x) -> is_Some (p_live (f_pool s) !! j)) as Hx.
  { intros j Hj. eapply (Hh c x j Ec). apply in_app_or in Hj. exact Hj. }
  destruct (fc_read x) as [|id|] eqn:Er.
  - apply finv_drop_all. constructor; try done.
    + intros j. rewrite Hcp, (tot_delete _ _ _ j Ec). unfold occ. rewrite Er, !cnt_app. cbn [s0 f_conns]. lia.
    + intros j Hj. apply in_app_or in Hj as [Hj|Hj]; [by apply Hx|by apply Ho].
  - (* the one being read goes last; it is not necessarily in memory *)
    assert (forall ids s1, pok P (f_pool s1) ->
      (forall j, cp (f_pool s1) j = tot (f_conns s1) j + cnt j (ids ++ X) + if decide (id = j) then 1 else 0) ->
      (forall c x j, f_conns s1 !! c = Some x -> held_by j x -> is_Some (p_live (f_pool s1) !! j)) ->
      (forall j, In j (ids ++ X) -> is_Some (p_live (f_pool s1) !! j)) ->
      (forall j, f_next s1 <= j -> cp (f_pool s1) j = 0) ->
      finv P (if in_memory (drop_all s1 ids) id then on_pool (drop_all s1 ids) (PDrop id) else on_pool (drop_all s1 ids) (PCancel id)) X) as Hind.
    { induction ids as [|i ids IH]; intros s1 Hp1 Hcp1 Hh1 Ho1 Hn1; [by apply finv_give_up|].
      unfold drop_all in *. cbn [fold_left]. cbn [app] in *.
      assert (is_Some (p_live (f_pool s1) !! i)) as Hl by (apply Ho1; by left).
      destruct (drop_cp _ _ _ Hp1 Hl) as (D1 & D2 & D3 & _). apply IH; cbn [on_pool f_pool f_conns f_next].
      + done.
      + intros j. specialize (Hcp1 j). specialize (D2 j). rewrite cnt_cons in Hcp1. lia.
      + intros c' x' j Hc Hb. apply D3; [by eapply Hh1|]. destruct (decide (j = i)) as [->|]; [|by right]. left. rewrite Hcp1, cnt_cons, decide_True by done.
        pose proof (tot_ge _ _ _ i Hc) as Hg. unfold occ in Hg. destruct Hb as [Hb|Hb]; apply cnt_in in Hb; lia.
      + intros j Hj. apply D3; [apply Ho1; by right|]. destruct (decide (j = i)) as [->|]; [|by right]. left. rewrite Hcp1, cnt_cons, decide_True by done.
        apply cnt_in in Hj. lia.
      + intros j Hj. specialize (Hn1 j Hj). specialize (D2 j). lia. }
    apply Hind; cbn [s0 f_pool f_conns f_next]; try done.
    + intros j. rewrite Hcp, (tot_delete _ _ _ j Ec). unfold occ. rewrite Er, !cnt_app. lia.
    + intros j Hj. apply in_app_or in Hj as [Hj|Hj]; [by apply Hx|by apply Ho].
  - apply finv_drop_all. constructor; try done.
    + intros j. rewrite Hcp, (tot_delete _ _ _ j Ec). unfold occ. rewrite Er, !cnt_app. cbn [s0 f_conns]. lia.
    + intros j Hj. apply in_app_or in Hj as [Hj|Hj]; [by apply Hx|by apply Ho].
Qed.

(** Replacing a connection, with copies moved to or from outside. *)
Lemma finv_move P s c x y X Y : finv P s X -> f_conns s !! c = Some x ->
  (forall id, occ id x + cnt id X = occ id y + cnt id Y) ->
  (forall id, held_by id y \/ In id Y -> is_Some (p_live (f_pool s) !! id)) ->
  finv P (set_conn s c y) Y.
Proof.
  intros [Hp Hcp Hh Ho Hn] Hc Hocc Hl. constructor; cbn [set_conn f_pool f_conns f_next].
  - done.
  - intros id. pose proof (tot_update _ _ _ y id Hc) as Hu. specialize (Hocc id). rewrite Hcp. lia.
  - intros c' x' id. destruct (decide (c' = c)) as [->|Hne].
    + rewrite lookup_insert. intros [= <-] Hb. apply Hl. by left.
    + rewrite lookup_insert_ne by done. by apply Hh.
  - intros id Hid. apply Hl. by right.
  - done.
Qed.

Lemma finv_send P s id c X : finv P s (id :: X) -> finv P (f_send id s c) (id :: X).
Proof.
  intros H. unfold f_send. destruct (f_conns s !! c) as [x|] eqn:Ec; [|done]. destruct (fc_alive x); [|by apply finv_remove].
  destruct H as [Hp Hcp Hh Ho Hn]. assert (is_Some (p_live (f_pool s) !! id)) as Hl by (apply Ho; by left).
  destruct (clone_cp _ _ _ Hp Hl) as (C1 & C2 & C3). constructor; cbn [set_conn on_pool f_pool f_conns f_next].
  - done.
  - intros j. pose proof (tot_update _ _ _ (FConn (fc_read x) (fc_recv x) (fc_queue x ++ [id]) true) j Ec) as Hu.
    specialize (C2 j). specialize (Hcp j). unfold occ in Hu. cbn [fc_queue fc_recv fc_read] in Hu. rewrite cnt_app, cnt_cons, cnt_nil in Hu.
    lia.
  - intros c' x' j. destruct (decide (c' = c)) as [->|Hne].
    + rewrite lookup_insert. intros [= <-] [Hb|Hb]; cbn [fc_queue fc_recv] in Hb.
      * apply in_app_or in Hb as [Hb|[<-|[]]]; apply C3; [|done]. eapply (Hh c x j Ec). by left.
      * apply C3. eapply (Hh c x j Ec). by right.
    + rewrite lookup_insert_ne by done. intros Hc' Hb. apply C3. by eapply Hh.
  - intros j Hj. by apply C3, Ho.
  - intros j Hj. specialize (Hn j Hj). specialize (C2 j). destruct (decide (j = id)) as [->|]; [|lia].
    exfalso. destruct Hl as [[n k] Hl]. pose proof (po_counted _ _ Hp _ _ _ Hl). unfold cp in Hn. rewrite Hl in Hn. cbn in Hn. lia.
Qed.
Lemma finv_sends P id to : forall s X, finv P s (id :: X) -> finv P (fold_left (f_send id) to s) (id :: X).
Proof. induction to as [|c to IH]; intros s X H; [done|]. cbn [fold_left]. by apply IH, finv_send. Qed.

Lemma finv_step P s e : finv P s [] -> finv P (fstep s e).1 [].
Proof.
  intros H. destruct e as [c|c n|c|c to|c|c|c|c|c]; cbn [fstep].
  - destruct (f_conns s !! c) eqn:Ec; [done|]. cbn [fst]. destruct H as [Hp Hcp Hh Ho Hn].
    constructor; cbn [set_conn f_pool f_conns f_next]; try done.
    + intros id. rewrite tot_insert by done. rewrite Hcp. done.
    + intros c' x' id. destruct (decide (c' = c)) as [->|Hne]; [rewrite lookup_insert; intros [= <-] [[]|[]]|].
      rewrite lookup_insert_ne by done. by apply Hh.
  - destruct (f_conns s !! c) as [[r rq q al]|] eqn:Ec; [|done]. destruct r; try done. destruct (n <=? max_message_size)%N; cbn [fst].
    + destruct H as [Hp Hcp Hh Ho Hn].
      assert (p_known (f_pool s) (f_next s) = false) as Hk by (apply cp_zero; [by apply Hn|intros; by eapply po_counted]).
      destruct (alloc_cp _ _ _ n Hp Hk) as (A1 & A2 & A3). constructor; cbn [f_pool f_conns f_next].
      * done.
      * intros j. pose proof (tot_update _ _ _ (FConn (FMem (f_next s)) rq q al) j Ec) as Hu. unfold occ in Hu. cbn [fc_queue fc_recv fc_read] in Hu.
        specialize (A2 j). specialize (Hcp j). destruct (decide (f_next s = j)), (decide (j = f_next s)); congruence || lia.
      * intros c' x' j Hc Hb. destruct (decide (c' = c)) as [->|Hne].
        { rewrite lookup_insert in Hc. injection Hc as <-. destruct (Hh c _ j Ec) as [v Hv]; [exact Hb|]. eexists. by apply A3. }
        rewrite lookup_insert_ne in Hc by done. destruct (Hh c' _ j Hc) as [v Hv]; [exact Hb|]. eexists. by apply A3.
      * intros j [].
      * intros j Hj. specialize (A2 j). rewrite decide_False in A2 by lia. rewrite A2, Hn by lia. done.
    + eapply finv_move; [done|done|done|]. intros id [Hb|[]]. eapply (fi_held _ _ _ H); [exact Ec|exact Hb].
  - destruct (f_conns s !! c) as [[r rq q al]|] eqn:Ec; [|done]. destruct r as [|id|]; try done. unfold in_memory. destruct (bool_decide _) eqn:E; [|done]. cbn [fst].
    apply bool_decide_eq_true in E. eapply finv_move; [done|done| |].
    + intros j. unfold occ. cbn [fc_queue fc_recv fc_read]. rewrite cnt_app, cnt_cons, cnt_nil. destruct (decide (id = j)), (decide (j = id)); congruence || lia.
    + intros j [[Hb|Hb]|[]]; cbn [fc_queue fc_recv] in Hb; [eapply (fi_held _ _ _ H); [exact Ec|by left]|].
      apply in_app_or in Hb as [Hb|[<-|[]]]; [|done]. eapply (fi_held _ _ _ H); [exact Ec|by right].
  - destruct (f_conns s !! c) as [[r [|id rq] q al]|] eqn:Ec; try done. cbn [fst]. apply finv_drop, finv_sends. eapply finv_move; [done|done| |].
    + intros j. unfold occ. cbn [fc_queue fc_recv fc_read]. rewrite !cnt_cons, cnt_nil. lia.
    + intros j Hj. eapply (fi_held _ _ _ H); [exact Ec|]. destruct Hj as [[Hb|Hb]|[<-|[]]]; cbn [fc_queue fc_recv] in *; [by left|right; by right|right; by left].
  - destruct (f_conns s !! c) as [[r rq q al]|] eqn:Ec; [|done]. destruct r as [|id|]; try done.
    + eapply finv_move; [done|done|done|]. intros id [Hb|[]]. eapply (fi_held _ _ _ H); [exact Ec|exact Hb].
    + unfold in_memory. destruct (bool_decide _) eqn:E; [|done]. cbn [fst]. apply bool_decide_eq_true in E. apply finv_drop. eapply finv_move; [done|done| |].
      * intros j. unfold occ. cbn [fc_queue fc_recv fc_read]. rewrite !cnt_cons, cnt_nil. destruct (decide (id = j)), (decide (j = id)); congruence || lia.
      * intros j [Hb|[<-|[]]]; [|done]. eapply (fi_held _ _ _ H); [exact Ec|exact Hb].
  - destruct (f_conns s !! c) as [[r rq q al]|] eqn:Ec; [|done]. destruct r, rq; try done. by apply finv_remove.
  - destruct (f_conns s !! c) as [[r rq [|id q] [|]]|] eqn:Ec; try done. cbn [fst]. apply finv_drop. eapply finv_move; [done|done| |].
    + intros j. unfold occ. cbn [fc_queue fc_recv fc_read]. rewrite !cnt_cons, cnt_nil. lia.
    + intros j Hj. eapply (fi_held _ _ _ H); [exact Ec|]. destruct Hj as [[Hb|Hb]|[<-|[]]]; cbn [fc_queue fc_recv] in *; [left; by right|by right|left; by left].
  - destruct (f_conns s !! c) as [[r rq [|id q] [|]]|] eqn:Ec; try done. cbn [fst]. apply finv_drop. eapply finv_move; [done|done| |].
    + intros j. unfold occ. cbn [fc_queue fc_recv fc_read]. rewrite !cnt_cons, cnt_nil. lia.
    + intros j Hj. eapply (fi_held _ _ _ H); [exact Ec|]. destruct Hj as [[Hb|Hb]|[<-|[]]]; cbn [fc_queue fc_recv] in *; [left; by right|by right|left; by left].
  - by apply finv_remove.
Qed.

Lemma frun_app s a b : frun s (a ++ b) = let '(s1, n) := frun s a in let '(s2, m) := frun s1 b in (s2, n + m).
Proof.
  assert (forall es s k, fold_left (fun sn e => let '(s', b) := fstep sn.1 e in (s', if b : bool then S sn.2 else sn.2)) es (s, k)
    = ((frun s es).1, k + (frun s es).2)) as Hk.
  { induction es as [|e es IH]; intros s0 k; cbn [fold_left]; [cbn; f_equal; lia|]. unfold frun at 1 2. cbn [fold_left fst snd].
    destruct (fstep s0 e) as [s' b']. rewrite !IH. cbn [fst snd]. f_equal. destruct b'; lia. }
  unfold frun at 1. rewrite fold_left_app. fold (frun s a). destruct (frun s a) as [s1 n].
  rewrite Hk. destruct (frun s1 b) as [s2 m]. done.
Qed.
Lemma frun_snoc s es e : (frun s (es ++ [e])).1 = (fstep (frun s es).1 e).1.
Proof. rewrite frun_app. destruct (frun s es) as [s1 n]. unfold frun. cbn [fold_left fst snd]. by destruct (fstep s1 e). Qed.
Lemma frun_inv P es : finv P (frun (flow_new P) es).1 [].
Proof.
  induction es as [|e es IH] using rev_ind; [apply finv_new|]. rewrite frun_snoc. by apply finv_step.
Qed.

(** * What readers wait for *)
Definition sub_needs (p q : pool) : Prop := forall w, w ∈ p_wait q -> exists w', w' ∈ p_wait p /\ w_need w' = w_need w.
Lemma sub_needs_refl p : sub_needs p p.
Proof. intros w H. by exists w. Qed.
Lemma sub_needs_trans p q r : sub_needs p q -> sub_needs q r -> sub_needs p r.
Proof. intros H1 H2 w Hw. destruct (H2 w Hw) as (w1 & Hw1 & E1). destruct (H1 w1 Hw1) as (w2 & Hw2 & E2). exists w2. split; [done|congruence]. Qed.
Lemma sub_needs_pstep p o : (forall id n, o <> PAlloc id n) -> sub_needs p (pstep p o).
Proof. intros H w Hw. apply pstep_needs in Hw as [Hw|[id ->]]; [done|]. by destruct (H id (w_need w)). Qed.
Lemma sub_needs_drop_all ids : forall s, sub_needs (f_pool s) (f_pool (drop_all s ids)).
Proof.
  induction ids as [|id ids IH]; intros s; [apply sub_needs_refl|]. unfold drop_all in *. cbn [fold_left].
  eapply sub_needs_trans; [|apply IH]. cbn [on_pool f_pool]. by apply sub_needs_pstep.
Qed.
Lemma sub_needs_remove s c : sub_needs (f_pool s) (f_pool (f_remove s c)).
Proof.
  unfold f_remove. destruct (f_conns s !! c) as [x|]; [|apply sub_needs_refl].
  pose proof (sub_needs_drop_all (fc_queue x ++ fc_recv x) (Flow (f_pool s) (delete c (f_conns s)) (f_next s))) as H. cbn [f_pool] in H.
  destruct (fc_read x) as [|id|]; [done| |done]. destruct (in_memory _ id); cbn [on_pool f_pool]; (eapply sub_needs_trans; [exact H|by apply sub_needs_pstep]).
Qed.
Lemma sub_needs_sends id to : forall s, sub_needs (f_pool s) (f_pool (fold_left (f_send id) to s)).
Proof.
  induction to as [|c to IH]; intros s; [apply sub_needs_refl|]. cbn [fold_left]. eapply sub_needs_trans; [|apply IH].
  unfold f_send. destruct (f_conns s !! c) as [x|]; [|apply sub_needs_refl]. destruct (fc_alive x); [|apply sub_needs_remove].
  cbn [set_conn on_pool f_pool]. by apply sub_needs_pstep.
Qed.
Lemma fstep_needs s e w : w ∈ p_wait (f_pool (fstep s e).1) ->
  (exists w', w' ∈ p_wait (f_pool s) /\ w_need w' = w_need w) \/ exists c, e = FAnnounce c (w_need w).
Proof.
  destruct e as [c|c n|c|c to|c|c|c|c|c]; cbn [fstep].
  all: try (destruct (f_conns s !! c) as [[r rq q al]|]; [|intros Hw; left; exact (sub_needs_refl _ w Hw)]).
  all: try (intros Hw; left; exact (sub_needs_refl _ w Hw)).
  - destruct r; try (intros Hw; left; exact (sub_needs_refl _ w Hw)). destruct (n <=? _)%N; cbn [fst f_pool set_conn]; [|intros Hw; left; exact (sub_needs_refl _ w Hw)].
    intros Hw. apply pstep_needs in Hw as [Hw|(id & E)]; [by left|]. injection E as _ ->. right. by eexists.
  - destruct r; try (intros Hw; left; exact (sub_needs_refl _ w Hw)). destruct (in_memory s id); intros Hw; left; exact (sub_needs_refl _ w Hw).
  - destruct rq as [|id rq]; [intros Hw; left; exact (sub_needs_refl _ w Hw)|]. cbn [fst on_pool f_pool]. intros Hw. left.
    refine (sub_needs_trans _ _ _ (sub_needs_sends id to (set_conn s c (FConn r rq q al))) (sub_needs_pstep _ (PDrop id) _) w Hw). done.
  - destruct r as [|id|]; try (intros Hw; left; exact (sub_needs_refl _ w Hw)). destruct (in_memory s id); cbn [fst on_pool f_pool set_conn]; intros Hw; left; [|exact (sub_needs_refl _ w Hw)].
    eapply sub_needs_pstep; [|exact Hw]. done.
  - destruct r, rq; try (intros Hw; left; exact (sub_needs_refl _ w Hw)). intros Hw. left. by apply sub_needs_remove in Hw.
  - destruct q as [|id q], al; try (intros Hw; left; exact (sub_needs_refl _ w Hw)). cbn [fst on_pool f_pool set_conn]. intros Hw. left.
    eapply sub_needs_pstep; [|exact Hw]. done.
  - destruct q as [|id q], al; try (intros Hw; left; exact (sub_needs_refl _ w Hw)). cbn [fst on_pool f_pool set_conn]. intros Hw. left.
    eapply sub_needs_pstep; [|exact Hw]. done.
  - intros Hw. left. by apply sub_needs_remove in Hw.
Qed.
Lemma frun_needs P es w : w ∈ p_wait (f_pool (frun (flow_new P) es).1) -> exists c, In (FAnnounce c (w_need w)) es.
Proof.
  revert w. induction es as [|e es IH] using rev_ind; intros w Hw; [by apply elem_of_nil in Hw|]. rewrite frun_snoc in Hw.
  apply fstep_needs in Hw as [(w' & Hw' & <-)|[c ->]].
  - destruct (IH _ Hw') as [c Hc]. exists c. apply in_or_app. by left.
  - exists c. apply in_or_app. right. by left.
Qed.

(** * Memory comes back *)
Lemma tot_zero m id : (forall c x, m !! c = Some x -> occ id x = 0) -> tot m id = 0.
Proof.
  induction m as [|c x m Hc IH] using map_ind; intros H; [apply tot_empty|]. rewrite tot_insert by done.
  rewrite (H c x) by apply lookup_insert. apply IH. intros c' x' Hx. apply (H c'). rewrite lookup_insert_ne; [done|]. intros ->. congruence.
Qed.
Lemma cp_pos P p id : pok P p -> (is_Some (p_live p !! id) \/ id ∈ wids (p_wait p)) -> 0 < cp p id.
Proof.
  intros Hp H. unfold cp. destruct (p_live p !! id) as [[n c]|] eqn:E; [pose proof (po_counted _ _ Hp _ _ _ E); cbn; lia|].
  destruct H as [[? ?]|H]; [congruence|]. rewrite decide_True by done. lia.
Qed.
Lemma idle_pool P s : finv P s [] -> (forall c x, f_conns s !! c = Some x -> idle x) ->
  p_wait (f_pool s) = [] /\ p_live (f_pool s) = ∅ /\ p_avail (f_pool s) = P.
Proof.
  intros H Hi. assert (forall id, cp (f_pool s) id = 0) as Hz.
  { intros id. rewrite (fi_cp _ _ _ H), cnt_nil, tot_zero; [done|]. intros c x Hx. destruct (Hi c x Hx) as (E1 & E2 & E3).
    unfold occ. rewrite E1, E2, cnt_nil. destruct (fc_read x) as [|j|]; [done| |done]. by destruct (E3 j). }
  pose proof (fi_pool _ _ _ H) as Hp.
  assert (p_live (f_pool s) = ∅) as Hl.
  { apply map_eq. intros id. rewrite lookup_empty. destruct (p_live (f_pool s) !! id) eqn:E; [|done].
    pose proof (cp_pos _ _ id Hp (or_introl (mk_is_Some _ _ E))) as Hc. rewrite Hz in Hc. lia. }
  assert (p_wait (f_pool s) = []) as Hw.
  { destruct (p_wait (f_pool s)) as [|w ws] eqn:E; [done|].
    assert (w_id w ∈ wids (p_wait (f_pool s))) as Hin by (rewrite E; left).
    pose proof (cp_pos _ _ (w_id w) Hp (or_intror Hin)) as Hc. rewrite Hz in Hc. lia. }
  split_and!; [done|done|]. pose proof (pi_sum _ _ (po_inv _ _ Hp)) as Hs. rewrite Hl, Hw, held_empty, collected_nil in Hs. lia.
Qed.

(** Who holds what. *)
Lemma tot_pos m id : 0 < tot m id -> exists c x, m !! c = Some x /\ 0 < occ id x.
Proof.
  induction m as [|c x m Hc IH] using map_ind; intros H; [rewrite tot_empty in H; lia|]. rewrite tot_insert in H by done.
  destruct (decide (0 < occ id x)) as [Hx|Hx]; [exists c, x; split; [apply lookup_insert|done]|].
  destruct IH as (c' & x' & Hc' & Hx'); [lia|]. exists c', x'. split; [|done]. rewrite lookup_insert_ne; [done|]. intros ->. congruence.
Qed.
Lemma live_held P s id : finv P s [] -> is_Some (p_live (f_pool s) !! id) ->
  exists c x, f_conns s !! c = Some x /\ (In id (fc_queue x) \/ In id (fc_recv x) \/ fc_read x = FMem id).
Proof.
  intros H Hl. pose proof (cp_pos _ _ id (fi_pool _ _ _ H) (or_introl Hl)) as Hc. rewrite (fi_cp _ _ _ H), cnt_nil, Nat.add_0_r in Hc.
  apply tot_pos in Hc as (c & x & Hx & Ho). exists c, x. split; [done|]. unfold occ in Ho.
  destruct (decide (0 < cnt id (fc_queue x))) as [Hq|Hq]; [left; by apply cnt_in|].
  destruct (decide (0 < cnt id (fc_recv x))) as [Hr|Hr]; [right; left; by apply cnt_in|]. right; right.
  destruct (fc_read x) as [|j|]; [lia| |lia]. destruct (decide (j = id)) as [->|]; [done|lia].
Qed.

(** * Work that is left *)
Definition work1 (K : nat) (x : fconn) : nat :=
  length (fc_queue x) + (1 + K) * length (fc_recv x) + match fc_read x with FMem _ => 2 + K | _ => 0 end.
Definition work (K : nat) (m : gmap N fconn) : nat := map_fold (fun _ x a => work1 K x + a) 0 m.
Lemma work_insert K m c x : m !! c = None -> work K (<[c := x]> m) = work1 K x + work K m.
Proof. intros H. unfold work. rewrite map_fold_insert_L; [done| |done]. intros. lia. Qed.
Lemma work_update K m c x y : m !! c = Some x -> work K (<[c := y]> m) + work1 K x = work K m + work1 K y.
Proof.
  intros H. rewrite <- (insert_delete m c x H) at 2. rewrite <- insert_delete_insert, !work_insert by apply lookup_delete. lia.
Qed.
Lemma sends_work K id to : forall s, all_alive s ->
  all_alive (fold_left (f_send id) to s) /\ work K (f_conns (fold_left (f_send id) to s)) <= work K (f_conns s) + length to.
Proof.
  induction to as [|c to IH]; intros s Ha; [split; [done|cbn; lia]|]. cbn [fold_left length].
  assert (all_alive (f_send id s c) /\ work K (f_conns (f_send id s c)) <= work K (f_conns s) + 1) as [H1 H2].
  { unfold f_send. destruct (f_conns s !! c) as [x|] eqn:Ec; [|split; [done|lia]]. rewrite (Ha c x Ec). split.
    - intros c' x'. cbn [set_conn on_pool f_conns]. destruct (decide (c' = c)) as [->|]; [rewrite lookup_insert; by intros [= <-]|].
      rewrite lookup_insert_ne by done. apply Ha.
    - cbn [set_conn on_pool f_conns]. pose proof (work_update K _ _ _ (FConn (fc_read x) (fc_recv x) (fc_queue x ++ [id]) true) Ec) as Hu.
      unfold work1 in Hu. cbn [fc_queue fc_recv fc_read] in Hu. rewrite app_length in Hu. cbn [length] in Hu. lia. }
  destruct (IH _ H1) as [H3 H4]. split; [done|lia].
Qed.

Lemma own_work_step K s e : all_alive s -> own_work K e ->
  (fstep s e).1 = s \/ (all_alive (fstep s e).1 /\ work K (f_conns (fstep s e).1) < work K (f_conns s)).
Proof.
  intros Ha He. destruct e as [c|c n|c|c to|c|c|c|c|c]; try done; cbn [fstep].
  - destruct (f_conns s !! c) as [[r rq q al]|] eqn:Ec; [|by left]. destruct r as [|id|]; try by left. destruct (in_memory s id); [|by left]. right. cbn [fst set_conn f_conns].
    split.
    + intros c' x'. cbn [set_conn f_conns]. destruct (decide (c' = c)) as [->|]; [rewrite lookup_insert; intros [= <-]; by apply (Ha c _ Ec)|].
      rewrite lookup_insert_ne by done. apply Ha.
    + pose proof (work_update K _ _ _ (FConn FHeader (rq ++ [id]) q al) Ec) as Hu. unfold work1 in Hu. cbn [fc_queue fc_recv fc_read] in Hu.
      rewrite app_length in Hu. cbn [length] in Hu. lia.
  - destruct (f_conns s !! c) as [[r [|id rq] q al]|] eqn:Ec; try by left. right. cbn [fst on_pool f_conns].
    assert (all_alive (set_conn s c (FConn r rq q al))) as Ha1.
    { intros c' x'. cbn [set_conn f_conns]. destruct (decide (c' = c)) as [->|]; [rewrite lookup_insert; intros [= <-]; by apply (Ha c _ Ec)|].
      rewrite lookup_insert_ne by done. apply Ha. }
    destruct (sends_work K id to _ Ha1) as [H1 H2]. split; [exact H1|].
    pose proof (work_update K _ _ _ (FConn r rq q al) Ec) as Hu. unfold work1 in Hu. cbn [fc_queue fc_recv fc_read length] in Hu.
    cbn [set_conn f_conns] in H2. cbn [own_work] in He. lia.
  - destruct (f_conns s !! c) as [[r rq [|id q] [|]]|] eqn:Ec; try by left. right. cbn [fst on_pool set_conn f_conns]. split.
    + intros c' x'. cbn [on_pool set_conn f_conns]. destruct (decide (c' = c)) as [->|]; [rewrite lookup_insert; by intros [= <-]|].
      rewrite lookup_insert_ne by done. apply Ha.
    + pose proof (work_update K _ _ _ (FConn r rq q true) Ec) as Hu. unfold work1 in Hu. cbn [fc_queue fc_recv fc_read length] in Hu. lia.
Qed.

(** Nothing left to do: all memory is back. *)
Lemma own_work_done P K s : finv P s [] -> all_alive s -> (forall w, w ∈ p_wait (f_pool s) -> (w_need w <= P)%N) ->
  (forall e, own_work K e -> (fstep s e).1 = s) -> p_wait (f_pool s) = [] /\ p_avail (f_pool s) = P.
Proof.
  intros H Ha Hn Hq. apply (idle_no_wait P); [exact (po_inv _ _ (fi_pool _ _ _ H))| |exact Hn].
  apply map_eq. intros id. rewrite lookup_empty. destruct (p_live (f_pool s) !! id) eqn:E; [|done]. exfalso.
  destruct (live_held _ _ id H) as (c & x & Hc & Hor); [by eexists|]. pose proof (Ha c x Hc) as Hal. destruct x as [r rq q al]. cbn [fc_queue fc_recv fc_read fc_alive] in *. subst al.
  destruct Hor as [Hin|[Hin|Hr]].
  - destruct q as [|j q]; [done|]. specialize (Hq (FWritten c) I). cbn [fstep] in Hq. rewrite Hc in Hq. cbn [fst on_pool set_conn] in Hq.
    apply (f_equal f_conns) in Hq. cbn [f_conns] in Hq. assert (f_conns s !! c = Some (FConn r rq q true)) as Hx by (rewrite <- Hq; apply lookup_insert).
    rewrite Hc in Hx. injection Hx as Hx. apply (f_equal length) in Hx. cbn in Hx. lia.
  - destruct rq as [|j rq]; [done|]. specialize (Hq (FHandle c []) (le_0_n K)). cbn [fstep] in Hq. rewrite Hc in Hq. cbn [fst fold_left on_pool set_conn] in Hq.
    apply (f_equal f_conns) in Hq. cbn [f_conns] in Hq. assert (f_conns s !! c = Some (FConn r rq q true)) as Hx by (rewrite <- Hq; apply lookup_insert).
    rewrite Hc in Hx. injection Hx as Hx. apply (f_equal length) in Hx. cbn in Hx. lia.
  - subst r. specialize (Hq (FBody c) I). cbn [fstep] in Hq. rewrite Hc in Hq. unfold in_memory in Hq. rewrite bool_decide_eq_true_2 in Hq by (by eexists).
    cbn [fst set_conn] in Hq. apply (f_equal f_conns) in Hq. cbn [f_conns] in Hq.
    assert (f_conns s !! c = Some (FConn FHeader (rq ++ [id]) q true)) as Hx by (rewrite <- Hq; apply lookup_insert). congruence.
Qed.

Lemma frun_cons s e es : (frun s (e :: es)).1 = (frun (fstep s e).1 es).1.
Proof. change (e :: es) with ([e] ++ es). rewrite frun_app. unfold frun at 1. cbn [fold_left fst]. destruct (fstep s e) as [s' b]. cbn [fst]. by destruct (frun s' es). Qed.
Lemma busy_bound K es : forall s, all_alive s -> Forall (own_work K) es -> busy s es ->
  all_alive (frun s es).1 /\ length es <= work K (f_conns s).
Proof.
  induction es as [|e es IH]; intros s Ha Hf Hb; [split; [done|cbn; lia]|]. apply Forall_cons in Hf as [He Hf]. destruct Hb as [Hne Hb].
  destruct (own_work_step K s e Ha He) as [|[Ha' Hw]]; [done|]. destruct (IH _ Ha' Hf Hb) as [H1 H2]. rewrite frun_cons. split; [done|]. cbn [length]. lia.
Qed.

Lemma own_work_ends P es K : (forall c n, In (FAnnounce c n) es -> (n <= P)%N) -> all_alive (frun (flow_new P) es).1 ->
  exists B, forall es', Forall (own_work K) es' -> busy (frun (flow_new P) es).1 es' ->
    length es' <= B
    /\ ((forall e, own_work K e -> (fstep (frun (flow_new P) (es ++ es')).1 e).1 = (frun (flow_new P) (es ++ es')).1) ->
        p_wait (f_pool (frun (flow_new P) (es ++ es')).1) = [] /\ p_avail (f_pool (frun (flow_new P) (es ++ es')).1) = P).
Proof.
  intros Hs Ha. exists (work K (f_conns (frun (flow_new P) es).1)). intros es' Hf Hb. destruct (busy_bound K es' _ Ha Hf Hb) as [H1 H2]. split; [done|].
  intros Hq. apply (own_work_done P K); [apply frun_inv| | |exact Hq].
  - rewrite frun_app. destruct (frun (flow_new P) es) as [s1 n1]. cbn [fst] in H1. by destruct (frun s1 es').
  - intros w Hw. apply frun_needs in Hw as [c Hc]. apply in_app_or in Hc as [Hc|Hc]; [by eapply Hs|].
    rewrite Forall_forall in Hf. exfalso. apply (Hf _ (proj2 (elem_of_list_In _ _) Hc)).
Qed.

(** * A user that stops reading *)
Lemma hand_out_none g ws k r dn rest : hand_out k ws = (r, dn, rest) -> Forall (fun w => (g < w_need w)%N) ws ->
  (k + collected ws <= g)%N -> dn = [] /\ Forall (fun w => (g < w_need w)%N) rest /\ (r + collected rest = k + collected ws)%N.
Proof.
  destruct ws as [|w ws]; cbn [hand_out]; intros E Hf Hs.
  - injection E as <- <- <-. split_and!; [done|done|lia].
  - apply Forall_cons in Hf as [Hw Hf]. rewrite collected_cons in Hs. destruct (_ <=? k)%N eqn:El.
    + apply N.leb_le in El. lia.
    + injection E as <- <- <-. split_and!; [done|by apply Forall_cons|]. rewrite !collected_cons. cbn [w_got]. lia.
Qed.

Record stuck (g : N) (S : N) (s : flow) : Prop := {
  st_conn : exists x, f_conns s !! S = Some x /\ fc_alive x = false /\ fc_read x <> FStopped /\ forall id, is_Some (p_live (f_pool s) !! id) -> id < f_next s;
  st_idle : forall c x, f_conns s !! c = Some x -> fc_recv x = [] /\ (c <> S -> fc_queue x = []) /\ forall id, fc_read x = FMem id -> p_live (f_pool s) !! id = None;
  st_short : Forall (fun w => (g < w_need w)%N) (p_wait (f_pool s));
  st_left : (p_avail (f_pool s) + collected (p_wait (f_pool s)) <= g)%N;
}.

Lemma stuck_remove g S s c : stuck g S s -> c <> S -> stuck g S (f_remove s c).
Proof.
  intros [(x0 & H1 & H2 & H3 & H4) Hi Hs Hl] Hne. unfold f_remove. destruct (f_conns s !! c) as [x|] eqn:Ec; [|split; [exists x0; done|done|done|done]].
  destruct (Hi c x Ec) as (E1 & E2 & E3). rewrite E1, (E2 Hne). cbn [app]. unfold drop_all. cbn [fold_left].
  assert (stuck g S (Flow (f_pool s) (delete c (f_conns s)) (f_next s))) as H0.
  { split; cbn [f_pool f_conns f_next]; [exists x0; rewrite lookup_delete_ne by done; done| |done|done].
    intros c' x' Hc'. apply lookup_delete_Some in Hc' as [_ Hc']. by apply Hi. }
  destruct (fc_read x) as [|id|] eqn:Er; [exact H0| |exact H0].
  unfold in_memory. cbn [f_pool]. rewrite (E3 id eq_refl), bool_decide_eq_false_2 by (intros [? ?]; done).
  unfold on_pool. cbn [f_pool f_conns f_next pstep]. destruct (List.find _ (p_wait (f_pool s))) as [w|] eqn:Ef; [|destruct (f_pool s); exact H0].
  destruct H0 as [K1 K2 K3 K4]. cbn [f_pool f_conns f_next] in K1, K2, K3, K4.
  set (ws := List.filter (fun w => negb (w_id w =? id)) (p_wait (f_pool s))).
  assert (Forall (fun w => (g < w_need w)%N) ws) as Hws.
  { rewrite Forall_forall in *. intros v Hv. apply Hs. apply elem_of_list_In, filter_In in Hv as [Hv _]. by apply elem_of_list_In. }
  assert (w_got w + collected ws <= collected (p_wait (f_pool s)))%N as Hc.
  { clear -Ef. subst ws. induction (p_wait (f_pool s)) as [|v vs IH]; [done|]. cbn [List.find List.filter] in *. rewrite collected_cons.
    assert (N.le (collected (List.filter (fun w => negb (w_id w =? id)) vs)) (collected vs)) as Hle.
    { clear. induction vs as [|u us IHu]; [done|]. cbn [List.filter]. destruct (negb _); rewrite ?collected_cons; lia. }
    destruct (w_id v =? id) eqn:Ev; cbn [negb].
    - injection Ef as <-. lia.
    - rewrite collected_cons. specialize (IH Ef). lia. }
  unfold release. cbn [p_avail p_wait p_live]. destruct (hand_out (w_got w) ws) as [[r dn] rest] eqn:E.
  destruct (hand_out_none g _ _ _ _ _ E Hws) as (-> & F1 & F2); [lia|]. cbn [add_live fold_left].
  split; cbn [f_pool f_conns f_next p_avail p_wait p_live]; [exact K1|exact K2|exact F1|]. lia.
Qed.

Lemma stuck_step g S s e : stuck g S s -> harmless g S e -> stuck g S (fstep s e).1 /\ (fstep s e).2 = false.
Proof.
  intros H He. pose proof H as [(x0 & H1 & H2 & H3 & H4) Hi Hs Hl].
  assert (forall c r rq q al r', f_conns s !! c = Some (FConn r rq q al) -> (c = S -> r' <> FStopped) -> (forall id, r' = FMem id -> p_live (f_pool s) !! id = None) ->
    stuck g S (set_conn s c (FConn r' rq q al))) as Hset.
  { intros c r rq q al r' Hc Hst Hr. destruct (Hi _ _ Hc) as (E1 & E2 & E3). split; cbn [set_conn f_conns f_pool f_next]; [|intros c' x'|done|done].
    - destruct (decide (c = S)) as [->|]; [|exists x0; rewrite lookup_insert_ne by done; done].
      rewrite H1 in Hc. injection Hc as ->. eexists. rewrite lookup_insert. split; [done|]. cbn [fc_alive fc_read] in *. split_and!; [done|by apply Hst|done].
    - destruct (decide (c' = c)) as [->|]; [rewrite lookup_insert; intros [= <-]; cbn [fc_recv fc_queue fc_read] in *; done|]. rewrite lookup_insert_ne by done. apply Hi. }
  destruct e as [c|c n|c|c to|c|c|c|c|c]; cbn [fstep harmless] in *.
  - destruct (f_conns s !! c) as [x|] eqn:Ec; [done|]. split; [|done]. cbn [fst]. split; cbn [set_conn f_conns f_pool f_next]; [|intros c' x'|done|done].
    + exists x0. rewrite lookup_insert_ne; [done|]. intros ->. congruence.
    + destruct (decide (c' = c)) as [->|]; [rewrite lookup_insert; intros [= <-]; done|]. rewrite lookup_insert_ne by done. apply Hi.
  - destruct He as [Hg Hmax]. destruct (f_conns s !! c) as [[r rq q al]|] eqn:Ec; [|done]. destruct r; try done. destruct (n <=? max_message_size)%N eqn:En.
    + split; [|done]. cbn [fst].
      assert (p_live (f_pool s) !! f_next s = None) as Hnone.
      { destruct (p_live (f_pool s) !! f_next s) eqn:E; [|done]. specialize (H4 _ (mk_is_Some _ _ E)). lia. }
      assert (p_live (pstep (f_pool s) (PAlloc (f_next s) n)) = p_live (f_pool s)
        /\ Forall (fun w => (g < w_need w)%N) (p_wait (pstep (f_pool s) (PAlloc (f_next s) n)))
        /\ (p_avail (pstep (f_pool s) (PAlloc (f_next s) n)) + collected (p_wait (pstep (f_pool s) (PAlloc (f_next s) n))) <= g)%N) as (P1 & P2 & P3).
      { cbn [pstep]. destruct (p_known _ _); [done|]. destruct (n <=? p_avail (f_pool s))%N eqn:Ea; [apply N.leb_le in Ea; lia|].
        cbn [p_live p_wait p_avail]. split_and!; [done|apply Forall_app; split; [done|by apply Forall_singleton]|]. rewrite collected_app, collected_cons, collected_nil. cbn [w_got]. lia. }
      specialize (Hset c _ rq q al (FMem (f_next s)) Ec ltac:(done) ltac:(by intros id [= <-])). destruct Hset as [(y & K1 & K2 & K3 & K4) K5 K6 K7].
      cbn [set_conn f_conns f_pool f_next] in *. split; cbn [f_conns f_pool f_next]; rewrite ?P1; try done.
      exists y. split_and!; try done. intros id Hid. specialize (H4 id Hid). lia.
    + split; [|done]. cbn [fst]. apply (Hset c _ rq q al FStopped Ec); [|done]. intros ->. apply N.leb_gt in En. change max_message_size with 536870911%N in En. specialize (Hmax eq_refl). lia.
  - destruct (f_conns s !! c) as [[r rq q al]|] eqn:Ec; [|done]. destruct r as [|id|]; try done. destruct (Hi _ _ Ec) as (_ & _ & E3). unfold in_memory.
    rewrite (E3 id eq_refl), bool_decide_eq_false_2 by (intros [? ?]; done). done.
  - destruct (f_conns s !! c) as [[r rq q al]|] eqn:Ec; [|done]. destruct (Hi _ _ Ec) as (E1 & _ & _). cbn [fc_recv] in E1. subst rq. done.
  - destruct (f_conns s !! c) as [[r rq q al]|] eqn:Ec; [|done]. destruct r as [|id|]; [| |done].
    + split; [|done]. cbn [fst]. by apply (Hset c _ rq q al FStopped Ec).
    + destruct (Hi _ _ Ec) as (_ & _ & E3). unfold in_memory. rewrite (E3 id eq_refl), bool_decide_eq_false_2 by (intros [? ?]; done). done.
  - destruct (f_conns s !! c) as [[r rq q al]|] eqn:Ec; [|done]. destruct r; [done|done|]. destruct rq; [|done]. split; [|done]. cbn [fst].
    apply stuck_remove; [done|]. intros ->. rewrite H1 in Ec. injection Ec as ->. done.
  - destruct (f_conns s !! c) as [[r rq [|id q] [|]]|] eqn:Ec; try done. exfalso. destruct (decide (c = S)) as [->|Hne].
    + rewrite H1 in Ec. injection Ec as ->. done.
    + destruct (Hi _ _ Ec) as (_ & E2 & _). by specialize (E2 Hne).
  - destruct (f_conns s !! c) as [[r rq [|id q] [|]]|] eqn:Ec; try done. exfalso. destruct (decide (c = S)) as [->|Hne].
    + rewrite H1 in Ec. injection Ec as ->. done.
    + destruct (Hi _ _ Ec) as (_ & E2 & _). by specialize (E2 Hne).
  - split; [|done]. by apply stuck_remove.
Qed.
Lemma stuck_run g S es : forall s, stuck g S s -> Forall (harmless g S) es -> stuck g S (frun s es).1 /\ (frun s es).2 = 0.
Proof.
  induction es as [|e es IH]; intros s H Hf; [done|]. apply Forall_cons in Hf as [He Hf]. destruct (stuck_step _ _ _ _ H He) as [H1 H2].
  destruct (IH _ H1 Hf) as [H3 H4]. change (e :: es) with ([e] ++ es). rewrite frun_app. unfold frun at 1 3. cbn [fold_left fst snd].
  destruct (fstep s e) as [s' b]. cbn [fst snd] in *. subst b. destruct (frun s' es) as [s2 m]. cbn [fst snd] in *. split; [done|lia].
Qed.

(** Filling the pool. *)
Record filled (P : N) (p S : N) (ns : list N) (s : flow) : Prop := {
  fl_conns : f_conns s = <[S := FConn FHeader [] (seq 0 (length ns)) true]> {[p := fconn_new]};
  fl_next : f_next s = length ns;
  fl_wait : p_wait (f_pool s) = [];
  fl_avail : (p_avail (f_pool s) + total ns = P)%N;
  fl_live : forall id, p_live (f_pool s) !! id = (fun n => (n, 1)) <$> ns !! id;
}.
Lemma total_app a b : total (a ++ b) = (total a + total b)%N.
Proof. induction a as [|x a IH]; [done|]. change (total ((x :: a) ++ b)) with (x + total (a ++ b))%N. change (total (x :: a)) with (x + total a)%N. lia. Qed.
Lemma fill_filled P p S ns : p <> S -> Forall (fun n => (n <= max_message_size)%N) ns -> (total ns <= P)%N ->
  filled P p S ns (frun (flow_new P) ([FOpen p; FOpen S] ++ fill p S ns)).1.
Proof.
  intros Hne. induction ns as [|n ns IH] using rev_ind; intros Hf Ht.
  - cbn [fill map concat app]. rewrite !frun_cons. cbn [frun fold_left fst].
    assert ((fstep (flow_new P) (FOpen p)).1 = set_conn (flow_new P) p fconn_new) as -> by (cbn [fstep flow_new f_conns]; by rewrite lookup_empty).
    assert ((fstep (set_conn (flow_new P) p fconn_new) (FOpen S)).1 = set_conn (set_conn (flow_new P) p fconn_new) S fconn_new) as ->.
    { cbn [fstep set_conn flow_new f_conns]. by rewrite lookup_insert_ne, lookup_empty. }
    split; cbn [set_conn flow_new f_conns f_pool f_next pool_new p_wait p_avail p_live length seq]; try done. change (total []) with 0%N. lia.
  - apply Forall_app in Hf as [Hf Hn]. apply Forall_cons in Hn as [Hn _]. rewrite total_app in Ht. change (total [n]) with (n + 0)%N in Ht.
    destruct (IH Hf ltac:(lia)) as [F1 F2 F3 F4 F5]. unfold fill. rewrite map_app, concat_app. cbn [map concat]. rewrite app_nil_r, app_assoc.
    fold (fill p S ns). set (s := (frun (flow_new P) ([FOpen p; FOpen S] ++ fill p S ns)).1) in *.
    assert (forall es, (frun (flow_new P) (([FOpen p; FOpen S] ++ fill p S ns) ++ es)).1 = (frun s es).1) as ->.
    { intros es. rewrite frun_app. subst s. destruct (frun (flow_new P) _) as [s1 n1]. cbn [fst]. by destruct (frun s1 es). }
    destruct s as [po cs nx]. cbn [f_conns f_next f_pool] in *. subst cs nx. set (k := length ns) in *.
    assert (p_live po !! k = None) as Hk by (rewrite F5; subst k; rewrite lookup_ge_None_2 by done; done).
    set (y := FConn FHeader [] (seq 0 k) true). rewrite !frun_cons. cbn [frun fold_left fst].
    set (s0 := Flow po (<[S := y]> {[p := fconn_new]}) k).
    set (s1 := Flow (Pool (p_avail po - n) (p_wait po) (<[k := (n, 1)]> (p_live po))) (<[p := FConn (FMem k) [] [] true]> (<[S := y]> {[p := fconn_new]})) (Datatypes.S k)).
    assert ((fstep s0 (FAnnounce p n)).1 = s1) as ->.
    { subst s0 s1. cbn [fstep f_conns]. rewrite lookup_insert_ne, lookup_singleton by done. cbn [fconn_new]. rewrite (proj2 (N.leb_le n max_message_size) Hn).
      cbn [fst f_pool f_next pstep]. unfold p_known. rewrite Hk, F3. cbn [existsb]. rewrite bool_decide_eq_false_2 by (intros [? ?]; done). cbn [orb].
      rewrite (proj2 (N.leb_le n (p_avail po))) by lia. done. }
    set (s2 := Flow (f_pool s1) (<[p := FConn FHeader [k] [] true]> (f_conns s1)) (Datatypes.S k)).
    assert ((fstep s1 (FBody p)).1 = s2) as ->.
    { subst s2. cbn [fstep]. replace (f_conns s1 !! p) with (Some (FConn (FMem k) [] [] true)) by (subst s1; cbn [f_conns]; by rewrite lookup_insert).
      unfold in_memory. subst s1. cbn [f_pool p_live]. rewrite lookup_insert, bool_decide_eq_true_2 by (by eexists). done. }
    set (s3 := Flow (Pool (p_avail po - n) (p_wait po) (<[k := (n, 1)]> (<[k := (n, 2)]> (<[k := (n, 1)]> (p_live po)))))
      (<[S := FConn FHeader [] (seq 0 k ++ [k]) true]> (<[p := FConn FHeader [] [] true]> (f_conns s2))) (Datatypes.S k)).
    assert ((fstep s2 (FHandle p [S])).1 = s3) as ->.
    { cbn [fstep]. replace (f_conns s2 !! p) with (Some (FConn FHeader [k] [] true)) by (subst s2; cbn [f_conns]; by rewrite lookup_insert).
      cbn [fst fold_left]. unfold f_send. cbn [set_conn f_conns].
      replace ((<[p := FConn FHeader [] [] true]> (f_conns s2)) !! S) with (Some y)
        by (subst s2 s1; cbn [f_conns]; rewrite !(lookup_insert_ne _ p) by done; by rewrite lookup_insert).
      subst y. cbn [fc_alive fc_read fc_recv fc_queue]. unfold set_conn, on_pool. cbn [f_pool f_conns f_next].
      subst s2 s1 s3. cbn [f_pool f_conns f_next pstep p_live]. rewrite lookup_insert. cbn [p_live p_avail p_wait]. rewrite lookup_insert. done. }
    subst s3 s2 s1 s0 y.
    split; cbn [f_pool f_conns f_next p_live p_wait p_avail].
    + rewrite app_length. cbn [length]. fold k. rewrite seq_app. cbn [seq Nat.add]. apply map_eq. intros c.
      destruct (decide (c = S)) as [->|HS]; [by rewrite !lookup_insert|]. rewrite !(lookup_insert_ne _ S) by done.
      destruct (decide (c = p)) as [->|Hp]; [rewrite lookup_insert, lookup_singleton; done|]. rewrite !lookup_insert_ne, lookup_singleton_ne by done. done.
    + rewrite app_length. cbn [length]. fold k. lia.
    + done.
    + rewrite total_app. change (total [n]) with (n + 0)%N. lia.
    + intros id. destruct (decide (id = k)) as [->|Hid].
      * rewrite lookup_insert. subst k. rewrite lookup_app_r, Nat.sub_diag by done. done.
      * rewrite !lookup_insert_ne by done. rewrite F5. destruct (decide (id < k)) as [Hlt|Hge]; [by rewrite lookup_app_l|].
        rewrite !lookup_ge_None_2; [done| |]; [rewrite app_length; cbn [length]; fold k; lia|fold k; lia].
Qed.

Lemma fill_stuck g bs p S : p <> S -> Forall (fun n => (n <= max_message_size)%N) (g :: bs) ->
  stuck g S (frun (flow_new (total (g :: bs))) ([FOpen p; FOpen S] ++ fill p S (g :: bs) ++ [FWriteFail S])).1.
Proof.
  intros Hne Hf. rewrite app_assoc, frun_snoc. destruct (fill_filled (total (g :: bs)) p S (g :: bs) Hne Hf ltac:(lia)) as [F1 F2 F3 F4 F5].
  destruct (frun _ _).1 as [po cs nx]. cbn [f_conns f_next f_pool] in *. subst cs nx.
  assert ((fstep (Flow po (<[S := FConn FHeader [] (seq 0 (length (g :: bs))) true]> {[p := fconn_new]}) (length (g :: bs))) (FWriteFail S)).1
    = Flow (Pool (p_avail po + g) [] (delete 0 (p_live po)))
        (<[S := FConn FHeader [] (seq 1 (length bs)) false]> (<[S := FConn FHeader [] (seq 0 (length (g :: bs))) true]> {[p := fconn_new]})) (length (g :: bs))) as ->.
  { cbn [fstep f_conns]. rewrite lookup_insert. cbn [length seq]. unfold on_pool, set_conn. cbn [fst f_pool f_conns f_next]. f_equal.
    cbn [pstep]. pose proof (F5 0) as H0. cbn [lookup list_lookup fmap option_fmap option_map] in H0. rewrite H0.
    unfold release. cbn [p_wait p_avail p_live]. rewrite F3. done. }
  split; cbn [f_conns f_pool f_next p_avail p_wait p_live].
  - eexists. rewrite lookup_insert. split_and!; [done|done|done|]. intros id [v Hv]. apply lookup_delete_Some in Hv as [_ Hv].
    rewrite F5 in Hv. destruct ((g :: bs) !! id) eqn:E; [|done]. apply lookup_lt_Some in E. exact E.
  - intros c x. destruct (decide (c = S)) as [->|HS]; [rewrite lookup_insert; intros [= <-]; done|]. rewrite !lookup_insert_ne by done.
    intros Hx. apply lookup_singleton_Some in Hx as [_ <-]. done.
  - done.
  - rewrite collected_nil. lia.
Qed.
