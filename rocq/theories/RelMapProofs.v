(** Proofs about the subscription index (RelMapModel.v against RelMapSpec.v). *)
From stdpp Require Import gmap fin_maps fin_sets.
From Verif Require Import RelMapModel RelMapSpec.

Section proofs.
Context {K V : Type} `{Countable K} `{Countable V}.
Notation relmap := (relmap K V).

(** The two lookups seen as relations. *)
Definition fwd (m : relmap) (k : K) (v : V) : Prop := v ∈ default ∅ (key_to_values m !! k).
Definition bwd (m : relmap) (k : K) (v : V) : Prop := k ∈ default ∅ (value_to_keys m !! v).

Record rm_inv (m : relmap) : Prop := {
  inv_agree : forall k v, fwd m k v <-> bwd m k v;
  inv_nonempty : forall v ks, value_to_keys m !! v = Some ks -> ks <> ∅;
}.

Lemma drop_key_lookup k (vk : gmap V (gset K)) v v' k' :
  k' ∈ default ∅ (rm_drop_key k vk v !! v') <->
  k' ∈ default ∅ (vk !! v') /\ ~ (k' = k /\ v' = v).
Proof.
  unfold rm_drop_key. destruct (vk !! v) as [ks|] eqn:E; cbn zeta.
  - destruct (decide (v = v')) as [->|Hne].
    + rewrite E. case_decide as He.
      * rewrite lookup_delete. cbn. set_solver.
      * rewrite lookup_insert. cbn. set_solver.
    + case_decide as He.
      * rewrite lookup_delete_ne by done. naive_solver.
      * rewrite lookup_insert_ne by done. naive_solver.
  - destruct (decide (v = v')) as [->|Hne].
    + rewrite E; cbn. set_solver.
    + naive_solver.
Qed.

Lemma drop_keys_lookup k vs (vk : gmap V (gset K)) v' k' :
  k' ∈ default ∅ (fold_left (rm_drop_key k) vs vk !! v') <->
  k' ∈ default ∅ (vk !! v') /\ ~ (k' = k /\ In v' vs).
Proof.
  revert vk; induction vs as [|v vs IH]; intros vk; cbn [fold_left In].
  - naive_solver.
  - rewrite IH, drop_key_lookup. split; [|naive_solver].
    intros [[? ?] ?]; split; [done|]. intros [-> [->|?]]; naive_solver.
Qed.

Definition no_empty (vk : gmap V (gset K)) := forall v ks, vk !! v = Some ks -> ks <> ∅.

Lemma drop_key_nonempty k (vk : gmap V (gset K)) v :
  no_empty vk -> no_empty (rm_drop_key k vk v).
Proof.
  intros Hn v' ks. unfold rm_drop_key. destruct (vk !! v) as [ks0|] eqn:E; cbn zeta; [|apply Hn].
  case_decide as He; destruct (decide (v = v')) as [->|Hne].
  - rewrite lookup_delete. done.
  - rewrite lookup_delete_ne by done. apply Hn.
  - rewrite lookup_insert. intros [= <-]. done.
  - rewrite lookup_insert_ne by done. apply Hn.
Qed.

Lemma drop_keys_nonempty k vs (vk : gmap V (gset K)) :
  no_empty vk -> no_empty (fold_left (rm_drop_key k) vs vk).
Proof.
  revert vk; induction vs as [|v vs IH]; intros vk Hn; cbn [fold_left]; [done|].
  apply IH, drop_key_nonempty, Hn.
Qed.

Lemma assoc_one_lookup k (vk : gmap V (gset K)) v v' k' :
  k' ∈ default ∅ (rm_assoc_one k vk v !! v') <->
  k' ∈ default ∅ (vk !! v') \/ (k' = k /\ v' = v).
Proof.
  unfold rm_assoc_one. destruct (decide (v = v')) as [->|Hne].
  - rewrite lookup_insert. cbn. set_solver.
  - rewrite lookup_insert_ne by done. naive_solver.
Qed.

Lemma assocs_lookup k vs (vk : gmap V (gset K)) v' k' :
  k' ∈ default ∅ (fold_left (rm_assoc_one k) vs vk !! v') <->
  k' ∈ default ∅ (vk !! v') \/ (k' = k /\ In v' vs).
Proof.
  revert vk; induction vs as [|v vs IH]; intros vk; cbn [fold_left In].
  - naive_solver.
  - rewrite IH, assoc_one_lookup. naive_solver.
Qed.

Lemma assocs_nonempty k vs (vk : gmap V (gset K)) :
  no_empty vk -> no_empty (fold_left (rm_assoc_one k) vs vk).
Proof.
  revert vk; induction vs as [|v vs IH]; intros vk Hn; cbn [fold_left]; [done|].
  apply IH. intros v' ks. unfold rm_assoc_one. destruct (decide (v = v')) as [->|Hne].
  - rewrite lookup_insert. intros [= <-]. set_solver.
  - rewrite lookup_insert_ne by done. apply Hn.
Qed.

(** Effect of the three operations on the forward relation. *)
Lemma fwd_associate m k vs k' v :
  fwd (rm_associate m k vs) k' v <-> fwd m k' v \/ (k' = k /\ In v vs).
Proof.
  unfold fwd, rm_associate; cbn. destruct (decide (k = k')) as [->|Hne].
  - rewrite lookup_insert. cbn. rewrite elem_of_union, elem_of_list_to_set, elem_of_list_In. naive_solver.
  - rewrite lookup_insert_ne by done. naive_solver.
Qed.

Lemma fwd_dissociate m k vs k' v :
  fwd (rm_dissociate m k vs) k' v <-> fwd m k' v /\ ~ (k' = k /\ In v vs).
Proof.
  unfold fwd, rm_dissociate; cbn. destruct (key_to_values m !! k) as [s|] eqn:E; cbn zeta.
  - case_decide as He; destruct (decide (k = k')) as [->|Hne].
    + rewrite lookup_delete, E; cbn. rewrite <- elem_of_list_In, <- (elem_of_list_to_set (C := gset V)). set_solver.
    + rewrite lookup_delete_ne by done. naive_solver.
    + rewrite lookup_insert, E; cbn. rewrite <- elem_of_list_In, <- (elem_of_list_to_set (C := gset V)). set_solver.
    + rewrite lookup_insert_ne by done. naive_solver.
  - destruct (decide (k = k')) as [->|Hne]; [rewrite E; cbn|]; set_solver.
Qed.

Lemma fwd_remove m k k' v :
  fwd (rm_remove_key m k) k' v <-> fwd m k' v /\ k' <> k.
Proof.
  unfold fwd, rm_remove_key. destruct (key_to_values m !! k) as [s|] eqn:E; cbn.
  - destruct (decide (k = k')) as [->|Hne].
    + rewrite lookup_delete; cbn. set_solver.
    + rewrite lookup_delete_ne by done. naive_solver.
  - destruct (decide (k = k')) as [->|Hne]; [rewrite E; cbn|]; set_solver.
Qed.

Lemma rm_inv_new : rm_inv rm_new.
Proof. split; [intros k v; unfold fwd, bwd; cbn; rewrite !lookup_empty; cbn; set_solver|]. intros v ks; cbn; by rewrite lookup_empty. Qed.

Lemma rm_inv_step m o : rm_inv m -> rm_inv (rm_step m o).
Proof.
  intros [Ha Hn]. destruct o as [k vs|k vs|k]; cbn [rm_step].
  - split.
    + intros k' v. rewrite fwd_associate. unfold bwd, rm_associate; cbn.
      rewrite assocs_lookup, Ha. done.
    + exact (assocs_nonempty k vs _ Hn).
  - split.
    + intros k' v. rewrite fwd_dissociate. unfold bwd, rm_dissociate; cbn.
      rewrite drop_keys_lookup, Ha. done.
    + exact (drop_keys_nonempty k vs _ Hn).
  - split.
    + intros k' v. rewrite fwd_remove. unfold bwd, rm_remove_key.
      destruct (key_to_values m !! k) as [s|] eqn:E; cbn.
      * rewrite drop_keys_lookup, Ha. unfold bwd. split; [naive_solver|].
        intros [Hb Hno]. split; [done|]. intros ->. apply Hno. split; [done|].
        apply Ha in Hb. unfold fwd in Hb. rewrite E in Hb; cbn in Hb.
        apply elem_of_list_In, elem_of_elements, Hb.
      * split; [rewrite Ha; naive_solver|]. intros Hb; apply Ha in Hb; split; [done|].
        intros ->. unfold fwd in Hb. rewrite E in Hb; cbn in Hb. set_solver.
    + unfold rm_remove_key. destruct (key_to_values m !! k); [exact (drop_keys_nonempty k _ _ Hn)|apply Hn].
Qed.

Lemma rm_run_snoc (os : list (rm_op K V)) o : rm_run (os ++ [o]) = rm_step (rm_run (K:=K) (V:=V) os) o.
Proof. unfold rm_run. rewrite fold_left_app. done. Qed.

Lemma rm_run_inv (os : list (rm_op K V)) : rm_inv (rm_run os).
Proof.
  induction os as [|o os IH] using rev_ind; [apply rm_inv_new|].
  rewrite rm_run_snoc. apply rm_inv_step, IH.
Qed.

Lemma rm_run_fwd (os : list (rm_op K V)) k v : fwd (rm_run os) k v <-> subscribed os k v.
Proof.
  unfold subscribed. induction os as [|o os IH] using rev_ind.
  - cbn. unfold fwd, rm_run; cbn. rewrite lookup_empty; cbn. set_solver.
  - rewrite rm_run_snoc, rev_app_distr. cbn [rev app].
    destruct o as [k' vs|k' vs|k']; cbn [rm_step subscribed_rev].
    + rewrite fwd_associate, IH. naive_solver.
    + rewrite fwd_dissociate, IH. naive_solver.
    + rewrite fwd_remove, IH. naive_solver.
Qed.

Lemma keys_by_value_fwd m k v : rm_inv m -> k ∈ rm_get_keys_by_value m v <-> fwd m k v.
Proof. intros Hm. unfold rm_get_keys_by_value. rewrite elem_of_elements. rewrite (inv_agree m Hm). done. Qed.

Lemma keys_by_value_nodup (m : relmap) v : NoDup (rm_get_keys_by_value m v).
Proof. apply NoDup_elements. Qed.

Lemma get_values_fwd m v : rm_inv m -> v ∈ rm_get_values m <-> exists k, fwd m k v.
Proof.
  intros Hm. unfold rm_get_values. rewrite elem_of_elements, elem_of_dom. split.
  - intros [ks E]. pose proof (inv_nonempty m Hm _ _ E) as Hne.
    apply set_choose_L in Hne as [k Hk]. exists k. apply (inv_agree m Hm). unfold bwd. rewrite E. done.
  - intros [k Hf]. apply (inv_agree m Hm) in Hf. unfold bwd in Hf.
    destruct (value_to_keys m !! v); [eauto|]. cbn in Hf. set_solver.
Qed.

Lemma rm_index_exact (os : list (rm_op K V)) k v :
  (In k (rm_get_keys_by_value (rm_run os) v) <-> subscribed os k v)
  /\ NoDup (rm_get_keys_by_value (rm_run os) v).
Proof.
  split; [|apply keys_by_value_nodup].
  rewrite <- elem_of_list_In, keys_by_value_fwd by apply rm_run_inv. apply rm_run_fwd.
Qed.

Lemma rm_values_exact (os : list (rm_op K V)) v :
  (In v (rm_get_values (rm_run os)) <-> exists k : K, subscribed os k v)
  /\ NoDup (rm_get_values (rm_run os)).
Proof.
  split; [|apply NoDup_elements].
  rewrite <- elem_of_list_In, get_values_fwd by apply rm_run_inv.
  split; intros [k Hk]; exists k; apply rm_run_fwd, Hk.
Qed.

(** Keys present in the forward index: those associated (possibly with nothing) and not
    removed since. *)
Lemma removed_key_gone (m : relmap) k : key_to_values (rm_remove_key m k) !! k = None.
Proof.
  unfold rm_remove_key. destruct (key_to_values m !! k) eqn:E; cbn; [apply lookup_delete|done].
Qed.

Lemma remove_key_dom (m : relmap) k k' :
  is_Some (key_to_values (rm_remove_key m k) !! k') <-> is_Some (key_to_values m !! k') /\ k' <> k.
Proof.
  unfold rm_remove_key. destruct (key_to_values m !! k) eqn:E; cbn.
  - destruct (decide (k = k')) as [->|Hne].
    + rewrite lookup_delete. split; [intros [? ?]; done|naive_solver].
    + rewrite lookup_delete_ne by done. naive_solver.
  - split; [|naive_solver]. intros Hs; split; [done|]. intros ->. rewrite E in Hs. by destruct Hs.
Qed.

Lemma remove_all_empty (m : relmap) ks :
  rm_inv m -> (forall k, is_Some (key_to_values m !! k) -> In k ks) ->
  fold_left rm_remove_key ks m = rm_new.
Proof.
  intros Hm Hk.
  assert (Hdom : forall k, key_to_values (fold_left rm_remove_key ks m) !! k = None).
  { clear Hm. revert m Hk. induction ks as [|k0 ks IH]; intros m Hk k; cbn [fold_left].
    - destruct (key_to_values m !! k) eqn:E; [|done]. exfalso. apply (Hk k). rewrite E; eauto.
    - apply IH. intros k1 Hs. apply remove_key_dom in Hs as [Hs Hne].
      destruct (Hk _ Hs) as [->|?]; [done|done]. }
  assert (Hi : rm_inv (fold_left rm_remove_key ks m)).
  { clear Hk Hdom. revert m Hm. induction ks as [|k0 ks IH]; intros m Hm; cbn [fold_left]; [done|].
    apply IH, (rm_inv_step m (RRemoveKey k0)), Hm. }
  destruct (fold_left rm_remove_key ks m) as [f b] eqn:E. unfold rm_new. f_equal.
  - apply map_empty. intros k. apply Hdom.
  - apply map_empty. intros v. destruct (b !! v) as [s|] eqn:Eb; [|done]. exfalso.
    pose proof (inv_nonempty _ Hi v s Eb) as Hne.
    apply set_choose_L in Hne as [k Hk']. 
    assert (fwd (RelMap f b) k v) as Hf.
    { apply (inv_agree _ Hi). unfold bwd; cbn. rewrite Eb. done. }
    unfold fwd in Hf; cbn in Hf. specialize (Hdom k); cbn in Hdom. rewrite Hdom in Hf. cbn in Hf. set_solver.
Qed.

(** Only keys named by some association are ever stored. *)
Lemma run_dom (os : list (rm_op K V)) k : is_Some (key_to_values (rm_run (K:=K) (V:=V) os) !! k) -> exists vs, In (RAssociate k vs) os.
Proof.
  induction os as [|o os IH] using rev_ind.
  - unfold rm_run; cbn. rewrite lookup_empty. intros [? ?]; done.
  - rewrite rm_run_snoc. setoid_rewrite in_app_iff. intros Hs.
    destruct o as [k' vs|k' vs|k']; cbn [rm_step] in Hs.
    + destruct (decide (k' = k)) as [->|Hne]; [exists vs; right; left; done|].
      unfold rm_associate in Hs; cbn in Hs. rewrite lookup_insert_ne in Hs by done.
      destruct (IH Hs) as [vs' ?]. exists vs'. auto.
    + assert (is_Some (key_to_values (rm_run (K:=K) (V:=V) os) !! k)) as Hs'.
      { unfold rm_dissociate in Hs; cbn in Hs.
        destruct (key_to_values (rm_run os) !! k') eqn:E; cbn zeta in Hs; [|done].
        case_decide; destruct (decide (k' = k)) as [->|Hne];
          rewrite ?lookup_delete, ?lookup_insert, ?lookup_delete_ne, ?lookup_insert_ne in Hs by done;
          eauto; rewrite E; eauto. }
      destruct (IH Hs') as [vs' ?]. exists vs'. auto.
    + apply remove_key_dom in Hs as [Hs _]. destruct (IH Hs) as [vs' ?]. exists vs'. auto.
Qed.

Lemma rm_no_leak (os : list (rm_op K V)) ks :
  (forall k vs, In (RAssociate k vs) os -> In k ks) ->
  rm_run (os ++ map RRemoveKey ks) = rm_new (K:=K) (V:=V).
Proof.
  intros Hk. unfold rm_run. rewrite fold_left_app. fold (rm_run (K:=K) (V:=V) os).
  replace (fold_left rm_step (map RRemoveKey ks) (rm_run os))
    with (fold_left rm_remove_key ks (rm_run os)).
  - apply remove_all_empty; [apply rm_run_inv|]. intros k Hs.
    destruct (run_dom _ _ Hs) as [vs Hin]. eauto.
  - clear Hk. generalize (rm_run (K:=K) (V:=V) os). induction ks as [|k ks IH]; intros m; cbn; [done|].
    apply IH.
Qed.

End proofs.
