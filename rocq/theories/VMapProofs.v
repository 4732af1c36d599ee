(** Proofs about the versioned map (VMapModel.v against VMapSpec.v). *)
From stdpp Require Import gmap fin_maps fin_sets.
From Coq Require Import NArith Lia.
From Verif Require Import VMapModel VMapSpec.

Lemma vval_eta {V} (r : vval V) : VVal (ver r) (val r) = r.
Proof. by destruct r. Qed.

Lemma u64_succ_small v : (v < u64_modulus - 1)%N -> u64_succ v = (v + 1)%N.
Proof. intros Hv. unfold u64_succ. apply N.mod_small. unfold u64_modulus in *. lia. Qed.

Section proofs.
Context {K V C : Type} `{Countable K} `{EqDecision V}.
Variable cgt : C -> C -> bool.
Notation vmap := (vmap K V C).
Notation vm_op := (vm_op K V C).

Lemma vmap_ext (m1 m2 : vmap) :
  (forall k, entries m1 !! k = entries m2 !! k) -> (forall k, k ∈ modified m1 <-> k ∈ modified m2) ->
  cid m1 = cid m2 -> m1 = m2.
Proof.
  intros He Hm Hc. destruct m1 as [e1 d1 c1], m2 as [e2 d2 c2]; cbn in *. f_equal; [by apply map_eq|by apply set_eq|done].
Qed.

(** ** Local modification *)
Lemma modify_local_lookup (m : vmap) k v k' :
  entries (vm_modify_local m k v) !! k' =
  if decide (k = k') then
    Some (VVal (match entries m !! k with
                | Some old => if decide (k ∈ modified m) then ver old else u64_succ (ver old)
                | None => 1%N end) v)
  else entries m !! k'.
Proof.
  unfold vm_modify_local; cbn. destruct (decide (k = k')) as [->|Hne].
  - rewrite lookup_insert. destruct (entries m !! k') as [o|]; [case_decide|]; done.
  - rewrite lookup_insert_ne by done. done.
Qed.

Lemma modify_local_get (m : vmap) k v k' :
  vm_get (vm_modify_local m k v) k' = if decide (k = k') then v else vm_get m k'.
Proof. unfold vm_get. rewrite modify_local_lookup. by case_decide. Qed.

Lemma remove_if_equals_get (m : vmap) k v k' :
  vm_get (vm_remove_if_equals m k v) k' =
  if decide (k = k') then (if decide (vm_get m k' = Some v) then None else vm_get m k')
  else vm_get m k'.
Proof.
  unfold vm_remove_if_equals, vm_get. destruct (decide (k = k')) as [->|Hne].
  - destruct (entries m !! k') as [vv|] eqn:E.
    + case_decide.
      * unfold vm_remove. rewrite modify_local_lookup. rewrite decide_True by done. done.
      * rewrite E. done.
    + rewrite E. by case_decide.
  - destruct (entries m !! k) as [vv|] eqn:E; [|done]. case_decide; [|done].
    unfold vm_remove. rewrite modify_local_lookup. rewrite decide_False by done. done.
Qed.

(** ** Delta *)
Lemma diff_one_fold (ks : list K) (d u : gmap K (vval V)) k :
  NoDup ks ->
  (fold_left vm_diff_one ks (d, u)).1 !! k =
    (if decide (k ∈ ks) then match u !! k with Some e => Some e | None => d !! k end else d !! k)
  /\ (fold_left vm_diff_one ks (d, u)).2 !! k =
    (if decide (k ∈ ks) then match u !! k with Some (VVal _ None) => None | x => x end else u !! k).
Proof.
  revert d u; induction ks as [|k0 ks IH]; intros d u Hnd; cbn [fold_left].
  - rewrite !decide_False by set_solver. done.
  - apply NoDup_cons in Hnd as [Hnotin Hnd].
    destruct (vm_diff_one (d, u) k0) as [d' u'] eqn:E.
    specialize (IH d' u' Hnd) as [IH1 IH2]. rewrite IH1, IH2. clear IH1 IH2.
    unfold vm_diff_one in E. destruct (decide (k0 = k)) as [->|Hne].
    + rewrite !(decide_True (P := k ∈ k :: ks)) by set_solver.
      rewrite !(decide_False (P := k ∈ ks)) by done.
      destruct (u !! k) as [e|] eqn:Eu; [|injection E as <- <-; by rewrite Eu].
      destruct e as [ve [x|]]; cbn in E; injection E as <- <-; rewrite lookup_insert.
      * rewrite Eu. done.
      * rewrite lookup_delete. done.
    + assert (d' !! k = d !! k /\ u' !! k = u !! k) as [-> ->].
      { destruct (u !! k0) as [e|] eqn:Eu; [|by injection E as <- <-].
        destruct e as [ve [x|]]; cbn in E; injection E as <- <-;
          rewrite ?lookup_insert_ne, ?lookup_delete_ne by done; done. }
      destruct (decide (k ∈ ks)).
      * rewrite !decide_True by set_solver. done.
      * rewrite !decide_False by set_solver. done.
Qed.

Lemma diff_order_lookup (ks : list K) (m : vmap) k :
  NoDup ks ->
  entries (vm_diff_order ks m).1 !! k = (if decide (k ∈ ks) then entries m !! k else None)
  /\ entries (vm_diff_order ks m).2 !! k =
     (if decide (k ∈ ks) then match entries m !! k with Some (VVal _ None) => None | x => x end else entries m !! k).
Proof.
  intros Hnd. unfold vm_diff_order.
  pose proof (diff_one_fold ks ∅ (entries m) k Hnd) as [H1 H2].
  destruct (fold_left vm_diff_one ks (∅, entries m)) as [d u]; cbn in *.
  rewrite H1, H2, !lookup_empty. split; [|done]. case_decide; [|done]. by destruct (entries m !! k).
Qed.

Lemma diff_delta_lookup (m : vmap) k :
  entries (vm_diff m).1 !! k = if decide (k ∈ modified m) then entries m !! k else None.
Proof.
  unfold vm_diff. rewrite (proj1 (diff_order_lookup _ m k (NoDup_elements _))).
  destruct (decide (k ∈ modified m)); [rewrite decide_True|rewrite decide_False]; rewrite ?elem_of_elements; done.
Qed.

Lemma diff_rest_lookup (m : vmap) k :
  entries (vm_diff m).2 !! k =
  if decide (k ∈ modified m) then match entries m !! k with Some (VVal _ None) => None | x => x end
  else entries m !! k.
Proof.
  unfold vm_diff. rewrite (proj2 (diff_order_lookup _ m k (NoDup_elements _))).
  destruct (decide (k ∈ modified m)); [rewrite decide_True|rewrite decide_False]; rewrite ?elem_of_elements; done.
Qed.

Lemma diff_rest_modified (m : vmap) : modified (vm_diff m).2 = ∅.
Proof. unfold vm_diff, vm_diff_order. by destruct (fold_left _ _ _). Qed.
Lemma diff_rest_cid (m : vmap) : cid (vm_diff m).2 = cid m.
Proof. unfold vm_diff, vm_diff_order. by destruct (fold_left _ _ _). Qed.
Lemma diff_delta_modified (m : vmap) : modified (vm_diff m).1 = ∅.
Proof. unfold vm_diff, vm_diff_order. by destruct (fold_left _ _ _). Qed.
Lemma diff_delta_cid (m : vmap) : cid (vm_diff m).1 = cid m.
Proof. unfold vm_diff, vm_diff_order. by destruct (fold_left _ _ _). Qed.

(** The iteration order over the modified keys is irrelevant. *)
Lemma diff_order_irrelevant (m : vmap) ks :
  ks ≡ₚ elements (modified m) -> vm_diff_order ks m = vm_diff m.
Proof.
  intros Hp.
  assert (NoDup ks) as Hnd by (rewrite Hp; apply NoDup_elements).
  assert (Hd : entries (vm_diff_order ks m).1 = entries (vm_diff m).1).
  { apply map_eq; intros k. rewrite (proj1 (diff_order_lookup ks m k Hnd)), diff_delta_lookup.
    assert (k ∈ ks <-> k ∈ modified m) as Hiff by (rewrite Hp; apply elem_of_elements).
    destruct (decide (k ∈ modified m)); [rewrite decide_True|rewrite decide_False]; try done; tauto. }
  assert (Hu : entries (vm_diff_order ks m).2 = entries (vm_diff m).2).
  { apply map_eq; intros k. rewrite (proj2 (diff_order_lookup ks m k Hnd)), diff_rest_lookup.
    assert (k ∈ ks <-> k ∈ modified m) as Hiff by (rewrite Hp; apply elem_of_elements).
    destruct (decide (k ∈ modified m)); [rewrite decide_True|rewrite decide_False]; try done; tauto. }
  unfold vm_diff, vm_diff_order in *.
  destruct (fold_left vm_diff_one ks _) as [d1 u1], (fold_left vm_diff_one (elements (modified m)) _) as [d2 u2].
  cbn in *. by subst.
Qed.

Lemma diff_get (m : vmap) k : vm_get (vm_diff m).2 k = vm_get m k.
Proof.
  unfold vm_get. rewrite diff_rest_lookup. case_decide; [|done].
  destruct (entries m !! k) as [[? [?|]]|]; done.
Qed.

(** ** Merge *)
Lemma merge_one_spec rid (m : vmap) k rv :
  (vm_merge_one cgt rid m k rv).1 =
    VMap (if decide (remote_wins cgt rid (cid m) (entries m !! k) rv) then partial_alter (fun _ => taken rv) k (entries m) else entries m)
         (match entries m !! k with
          | Some _ => if decide (remote_wins cgt rid (cid m) (entries m !! k) rv) then modified m ∖ {[k]} else modified m
          | None => modified m end) (cid m)
  /\ (vm_merge_one cgt rid m k rv).2 =
    if decide (remote_wins cgt rid (cid m) (entries m !! k) rv) then [(k, val rv)] else [].
Proof.
  unfold vm_merge_one.
  destruct (decide (remote_wins cgt rid (cid m) (entries m !! k) rv)) as [Hw|Hw];
    unfold remote_wins in Hw; destruct (entries m !! k) as [lv|] eqn:E.
  - destruct (N.compare_spec (ver rv) (ver lv)) as [Heq|Hlt|Hgt].
    + destruct Hw as [?|[_ Ec]]; [lia|]. rewrite Ec. unfold taken. cbn. split; [|done]. f_equal.
      destruct (val rv) eqn:Ev; [|done]. rewrite <- Ev at 1. by rewrite vval_eta.
    + destruct Hw as [?|[? _]]; lia.
    + unfold taken. cbn. split; [|done]. f_equal.
      destruct (val rv) eqn:Ev; [|done]. rewrite <- Ev at 1. by rewrite vval_eta.
  - unfold taken. destruct (val rv) eqn:Ev; [|done]. cbn. done.
  - destruct (N.compare_spec (ver rv) (ver lv)) as [Heq|Hlt|Hgt].
    + destruct (cgt rid (cid m)) eqn:Ec; [exfalso; apply Hw; right; done|]. by destruct m.
    + by destruct m.
    + exfalso; apply Hw; left; done.
  - destruct (val rv) eqn:Ev; [exfalso; by apply Hw|]. by destruct m.
Qed.

Lemma merge_one_cid rid (m : vmap) k rv : cid (vm_merge_one cgt rid m k rv).1 = cid m.
Proof. by rewrite (proj1 (merge_one_spec rid m k rv)). Qed.

Lemma merge_one_lookup rid (m : vmap) k rv k' :
  entries (vm_merge_one cgt rid m k rv).1 !! k' =
  if decide (k = k') then lww cgt rid (cid m) (entries m !! k) (Some rv) else entries m !! k'.
Proof.
  rewrite (proj1 (merge_one_spec rid m k rv)). cbn.
  destruct (decide (remote_wins _ _ _ _ _)) as [Hw|Hw]; destruct (decide (k = k')) as [->|Hne].
  - rewrite lookup_partial_alter. done.
  - rewrite lookup_partial_alter_ne by done. done.
  - done.
  - done.
Qed.

Lemma merge_one_modified rid (m : vmap) k rv k' :
  k' ∈ modified (vm_merge_one cgt rid m k rv).1 <->
  k' ∈ modified m /\ ~ (k = k' /\ is_Some (entries m !! k) /\ remote_wins cgt rid (cid m) (entries m !! k) rv).
Proof.
  rewrite (proj1 (merge_one_spec rid m k rv)). cbn.
  destruct (entries m !! k) as [lv|] eqn:E.
  - case_decide as Hw; [|naive_solver]. rewrite elem_of_difference, elem_of_singleton. naive_solver.
  - split; [|naive_solver]. intros; split; [done|]. intros (_ & [? ?] & _); done.
Qed.

Lemma merge_list_cons rid k rv l (m : vmap) :
  vm_merge_list cgt rid ((k, rv) :: l) m =
  ((vm_merge_list cgt rid l (vm_merge_one cgt rid m k rv).1).1,
   (vm_merge_one cgt rid m k rv).2 ++ (vm_merge_list cgt rid l (vm_merge_one cgt rid m k rv).1).2).
Proof.
  cbn. destruct (vm_merge_one cgt rid m k rv) as [m1 c1]; cbn.
  by destruct (vm_merge_list cgt rid l m1).
Qed.

Lemma merge_list_cid rid l (m : vmap) : cid (vm_merge_list cgt rid l m).1 = cid m.
Proof.
  revert m; induction l as [|[k rv] l IH]; intros m; [done|].
  rewrite merge_list_cons; cbn. rewrite IH. apply merge_one_cid.
Qed.

(** Lookup in the remote pairs. *)
Definition assoc (l : list (K * vval V)) (k : K) : option (vval V) :=
  match find (fun p => bool_decide (p.1 = k)) l with Some p => Some p.2 | None => None end.

Lemma assoc_cons k0 rv l k : assoc ((k0, rv) :: l) k = if decide (k0 = k) then Some rv else assoc l k.
Proof. unfold assoc; cbn. case_decide; [rewrite bool_decide_eq_true_2|rewrite bool_decide_eq_false_2]; done. Qed.

Lemma assoc_None l k : k ∉ l.*1 -> assoc l k = None.
Proof.
  induction l as [|[k0 rv] l IH]; [done|]. cbn. intros Hn. rewrite assoc_cons, decide_False; [|set_solver].
  apply IH. set_solver.
Qed.

Lemma assoc_map_to_list (e : gmap K (vval V)) k : assoc (map_to_list e) k = e !! k.
Proof.
  destruct (e !! k) as [v|] eqn:E.
  - apply elem_of_map_to_list in E. pose proof (NoDup_fst_map_to_list e) as Hnd.
    induction (map_to_list e) as [|[k0 v0] l IH]; [set_solver|].
    cbn in Hnd. apply NoDup_cons in Hnd as [Hni Hnd]. rewrite assoc_cons.
    apply elem_of_cons in E as [[= -> ->]|E]; [by rewrite decide_True|].
    rewrite decide_False; [by apply IH|]. intros ->. apply Hni.
    apply elem_of_list_fmap. exists (k, v). done.
  - apply assoc_None. intros Hin. apply elem_of_list_fmap in Hin as [[k' v] [-> Hin]].
    apply elem_of_map_to_list in Hin. cbn in *. congruence.
Qed.

Lemma merge_list_lookup rid l (m : vmap) k :
  NoDup l.*1 ->
  entries (vm_merge_list cgt rid l m).1 !! k = lww cgt rid (cid m) (entries m !! k) (assoc l k).
Proof.
  revert m; induction l as [|[k0 rv] l IH]; intros m Hnd; [done|].
  cbn in Hnd. apply NoDup_cons in Hnd as [Hni Hnd].
  rewrite merge_list_cons; cbn [fst]. rewrite IH by done. rewrite merge_one_cid, merge_one_lookup, assoc_cons.
  destruct (decide (k0 = k)) as [->|Hne]; [|done].
  rewrite (assoc_None l k) by done. done.
Qed.

Lemma merge_list_modified rid l (m : vmap) k :
  NoDup l.*1 ->
  k ∈ modified (vm_merge_list cgt rid l m).1 <->
  k ∈ modified m /\ ~ (is_Some (entries m !! k) /\ exists rv, assoc l k = Some rv /\ remote_wins cgt rid (cid m) (entries m !! k) rv).
Proof.
  revert m; induction l as [|[k0 rv] l IH]; intros m Hnd.
  - cbn. split; [|naive_solver]. intros; split; [done|]. intros (_ & ? & [=] & _).
  - cbn in Hnd. apply NoDup_cons in Hnd as [Hni Hnd].
    rewrite merge_list_cons; cbn [fst]. rewrite IH by done.
    rewrite merge_one_cid, merge_one_modified, merge_one_lookup, assoc_cons.
    destruct (decide (k0 = k)) as [->|Hne].
    + rewrite (assoc_None l k) by done. split.
      * intros [[Hm Hn] _]. split; [done|]. intros (Hs & rv' & [= <-] & Hw). apply Hn. done.
      * intros [Hm Hn]. split; [split; [done|]|].
        -- intros (_ & Hs & Hw). apply Hn. split; [done|]. eauto.
        -- intros (_ & ? & [=] & _).
    + naive_solver.
Qed.

Lemma merge_list_changes rid l (m : vmap) k v :
  NoDup l.*1 ->
  (k, v) ∈ (vm_merge_list cgt rid l m).2 <->
  exists rv, assoc l k = Some rv /\ v = val rv /\ remote_wins cgt rid (cid m) (entries m !! k) rv.
Proof.
  revert m; induction l as [|[k0 rv] l IH]; intros m Hnd.
  - cbn. split; [set_solver|]. intros (? & [=] & _).
  - cbn in Hnd. apply NoDup_cons in Hnd as [Hni Hnd].
    rewrite merge_list_cons; cbn [snd]. rewrite elem_of_app, IH by done.
    rewrite merge_one_cid, merge_one_lookup, assoc_cons, (proj2 (merge_one_spec rid m k0 rv)).
    destruct (decide (k0 = k)) as [->|Hne].
    + rewrite (assoc_None l k) by done. split.
      * intros [Hin|(? & [=] & _)]. case_decide as Hw; [|set_solver].
        apply elem_of_list_singleton in Hin as [= ->]. eauto.
      * intros (rv' & [= <-] & -> & Hw). left. rewrite decide_True by done. set_solver.
    + split.
      * intros [Hin|?]; [|done]. case_decide as Hw; [|set_solver].
        apply elem_of_list_singleton in Hin as [= -> ->]. done.
      * intros ?; right; done.
Qed.

Lemma merge_list_changes_fst rid l (m : vmap) k :
  k ∈ (vm_merge_list cgt rid l m).2.*1 -> k ∈ l.*1.
Proof.
  revert m; induction l as [|[k0 rv] l IH]; intros m; [done|].
  rewrite merge_list_cons; cbn [snd]. rewrite fmap_app, elem_of_app, (proj2 (merge_one_spec rid m k0 rv)).
  cbn. intros [Hin|Hin].
  - case_decide; [|set_solver]. cbn in Hin. set_solver.
  - apply IH in Hin. set_solver.
Qed.

Lemma merge_list_changes_nodup rid l (m : vmap) :
  NoDup l.*1 -> NoDup (vm_merge_list cgt rid l m).2.*1.
Proof.
  revert m; induction l as [|[k0 rv] l IH]; intros m Hnd; [constructor|].
  cbn in Hnd. apply NoDup_cons in Hnd as [Hni Hnd].
  rewrite merge_list_cons; cbn [snd]. rewrite fmap_app, (proj2 (merge_one_spec rid m k0 rv)).
  apply NoDup_app. split; [case_decide; [apply NoDup_singleton|constructor]|]. split; [|by apply IH].
  intros k Hk Hk'. apply merge_list_changes_fst in Hk'. case_decide; [|cbn in Hk; set_solver].
  cbn in Hk. apply elem_of_list_singleton in Hk as ->. done.
Qed.

(** Order independence. *)
Lemma map_to_list_nodup_perm (e : gmap K (vval V)) l : l ≡ₚ map_to_list e -> NoDup l.*1.
Proof. intros Hp. rewrite Hp. apply NoDup_fst_map_to_list. Qed.

Lemma assoc_perm_gen (l1 l2 : list (K * vval V)) k : l1 ≡ₚ l2 -> NoDup l1.*1 -> assoc l1 k = assoc l2 k.
Proof.
  intros Hp. induction Hp as [|[k1 v1] l1 l2 Hp IH|[k1 v1] [k2 v2] l1|l1 l2 l3 Hp1 IH1 Hp2 IH2]; intros Hnd.
  - done.
  - cbn in Hnd. apply NoDup_cons in Hnd as [_ Hnd]. rewrite !assoc_cons. by rewrite IH.
  - cbn in Hnd. apply NoDup_cons in Hnd as [Hni Hnd]. rewrite !assoc_cons.
    destruct (decide (k1 = k)) as [->|], (decide (k2 = k)) as [->|]; try done. set_solver.
  - rewrite IH1 by done. apply IH2. by rewrite <- Hp1.
Qed.

Lemma assoc_perm (e : gmap K (vval V)) l k : l ≡ₚ map_to_list e -> assoc l k = e !! k.
Proof.
  intros Hp. rewrite <- (assoc_map_to_list e). apply assoc_perm_gen; [done|].
  by apply (map_to_list_nodup_perm e).
Qed.

Lemma merge_order_irrelevant (m r : vmap) l :
  l ≡ₚ map_to_list (entries r) ->
  (vm_merge_list cgt (cid r) l m).1 = (vm_merge cgt m r).1
  /\ (forall p, In p (vm_merge_list cgt (cid r) l m).2 <-> In p (vm_merge cgt m r).2).
Proof.
  intros Hp. pose proof (map_to_list_nodup_perm _ _ Hp) as Hnd.
  pose proof (NoDup_fst_map_to_list (entries r)) as Hnd'. unfold vm_merge. split.
  - apply vmap_ext.
    + intros k. rewrite !merge_list_lookup by done. by rewrite (assoc_perm _ _ _ Hp), assoc_map_to_list.
    + intros k. rewrite !merge_list_modified by done. by rewrite (assoc_perm _ _ _ Hp), assoc_map_to_list.
    + by rewrite !merge_list_cid.
  - intros [k v]. rewrite <- !elem_of_list_In, !merge_list_changes by done.
    by rewrite (assoc_perm _ _ _ Hp), assoc_map_to_list.
Qed.

(** Per-key characterisation of [merge]. *)
Lemma merge_lookup (m r : vmap) k :
  entries (vm_merge cgt m r).1 !! k = lww cgt (cid r) (cid m) (entries m !! k) (entries r !! k).
Proof.
  unfold vm_merge. rewrite merge_list_lookup by apply NoDup_fst_map_to_list.
  by rewrite assoc_map_to_list.
Qed.

Lemma merge_cid (m r : vmap) : cid (vm_merge cgt m r).1 = cid m.
Proof. apply merge_list_cid. Qed.

Lemma merge_modified (m r : vmap) k :
  k ∈ modified (vm_merge cgt m r).1 <->
  k ∈ modified m /\ ~ (is_Some (entries m !! k) /\ exists rv, entries r !! k = Some rv /\ remote_wins cgt (cid r) (cid m) (entries m !! k) rv).
Proof.
  unfold vm_merge. rewrite merge_list_modified by apply NoDup_fst_map_to_list.
  by rewrite assoc_map_to_list.
Qed.

Lemma merge_changes (m r : vmap) k v :
  In (k, v) (vm_merge cgt m r).2 <->
  exists rv, entries r !! k = Some rv /\ v = val rv /\ remote_wins cgt (cid r) (cid m) (entries m !! k) rv.
Proof.
  rewrite <- elem_of_list_In. unfold vm_merge. rewrite merge_list_changes by apply NoDup_fst_map_to_list.
  by rewrite assoc_map_to_list.
Qed.

Lemma merge_changes_nodup (m r : vmap) : NoDup (map fst (vm_merge cgt m r).2).
Proof. apply merge_list_changes_nodup, NoDup_fst_map_to_list. Qed.

(** ** Idempotence and monotonicity *)
Lemma lww_idem rid sid (l r : option (vval V)) :
  lww cgt rid sid (lww cgt rid sid l r) r = lww cgt rid sid l r.
Proof.
  destruct r as [rv|]; [|done]. unfold lww.
  destruct (decide (remote_wins cgt rid sid l rv)) as [Hw|Hw].
  - by destruct (decide (remote_wins cgt rid sid (taken rv) rv)).
  - by rewrite decide_False by done.
Qed.

(** Modified keys always have an entry (true of every reachable map). *)
Definition vm_wf (m : vmap) : Prop := forall k, k ∈ modified m -> is_Some (entries m !! k).

Lemma merge_idem (m r : vmap) :
  vm_wf m -> (vm_merge cgt (vm_merge cgt m r).1 r).1 = (vm_merge cgt m r).1.
Proof.
  intros Hwf. apply vmap_ext.
  - intros k. rewrite !merge_lookup, merge_cid. apply lww_idem.
  - intros k. rewrite merge_modified. split; [naive_solver|]. intros Hk. split; [done|].
    rewrite merge_cid, merge_lookup. apply merge_modified in Hk as [Hk Hn].
    intros (Hs & rv & Hr & Hw). rewrite Hr in Hs, Hw. cbn in Hs, Hw.
    case_decide as Hw0; apply Hn; (split; [by apply Hwf|]); eauto.
  - by rewrite !merge_cid.
Qed.

Lemma merge_wf (m r : vmap) : vm_wf m -> vm_wf (vm_merge cgt m r).1.
Proof.
  intros Hwf k Hk. apply merge_modified in Hk as [Hk Hn]. rewrite merge_lookup.
  destruct (entries r !! k) as [rv|] eqn:Er; [|by apply Hwf]. cbn.
  case_decide as Hw; [|by apply Hwf]. exfalso. apply Hn. split; [by apply Hwf|]. eauto.
Qed.

Lemma modify_local_wf (m : vmap) k v : vm_wf m -> vm_wf (vm_modify_local m k v).
Proof.
  intros Hwf k' Hk. rewrite modify_local_lookup. case_decide; [eauto|].
  apply Hwf. cbn in Hk. set_solver.
Qed.

Lemma step_wf (m : vmap) o : vm_wf m -> vm_wf (vm_step cgt m o).
Proof.
  intros Hwf. destruct o as [k v|k|k v| | |r]; cbn [vm_step].
  - by apply modify_local_wf.
  - by apply modify_local_wf.
  - unfold vm_remove_if_equals. destruct (entries m !! k); [|done]. case_decide; [|done]. by apply modify_local_wf.
  - done.
  - intros k. rewrite diff_rest_modified. set_solver.
  - by apply merge_wf.
Qed.

Lemma run_snoc c (os : list vm_op) o : vm_run cgt c (os ++ [o]) = vm_step cgt (vm_run cgt c os) o.
Proof. unfold vm_run. by rewrite fold_left_app. Qed.

Lemma run_wf c (os : list vm_op) : vm_wf (vm_run cgt c os).
Proof.
  induction os as [|o os IH] using rev_ind; [intros k; cbn; set_solver|].
  rewrite run_snoc. by apply step_wf.
Qed.

Lemma step_cid (m : vmap) o : cid (vm_step cgt m o) = cid m.
Proof.
  destruct o as [k v|k|k v| | |r]; cbn [vm_step]; try done.
  - unfold vm_remove_if_equals. destruct (entries m !! k); [|done]. by case_decide.
  - apply diff_rest_cid.
  - apply merge_cid.
Qed.

Lemma run_cid c (os : list vm_op) : cid (vm_run cgt c os) = c.
Proof. induction os as [|o os IH] using rev_ind; [done|]. by rewrite run_snoc, step_cid. Qed.

Lemma merge_idem_reachable c (os : list vm_op) r :
  (vm_merge cgt (vm_merge cgt (vm_run cgt c os) r).1 r).1 = (vm_merge cgt (vm_run cgt c os) r).1.
Proof. apply merge_idem, run_wf. Qed.

(** No merge replaces an entry by an older one; every surviving entry is the old one or
    the remote one. *)
Lemma merge_no_regress (m r : vmap) k lv nv :
  entries m !! k = Some lv -> entries (vm_merge cgt m r).1 !! k = Some nv ->
  (ver lv <= ver nv)%N /\ (nv = lv \/ entries r !! k = Some nv).
Proof.
  intros E. rewrite merge_lookup, E. destruct (entries r !! k) as [rv|] eqn:Er; cbn.
  - case_decide as Hw; [|intros [= <-]; split; [lia|by left]]. unfold taken.
    destruct (val rv); [|done]. intros [= <-]. cbn in Hw. split; [lia|by right].
  - intros [= <-]; split; [lia|by left].
Qed.

(** An entry disappears in a merge only through a deletion that is at least as new. *)
Lemma merge_delete_newer (m r : vmap) k lv :
  entries m !! k = Some lv -> entries (vm_merge cgt m r).1 !! k = None ->
  exists rv, entries r !! k = Some rv /\ val rv = None /\ (ver lv <= ver rv)%N.
Proof.
  intros E. rewrite merge_lookup, E. destruct (entries r !! k) as [rv|] eqn:Er; cbn; [|done].
  case_decide as Hw; [|done]. unfold taken. destruct (val rv) eqn:Ev; [done|].
  intros _. exists rv. split; [done|]. split; [done|]. cbn in Hw. lia.
Qed.

(** ** Reads refine an ordinary map *)
Lemma run_plain_read c (os : list vm_op) k :
  Forall is_local os -> vm_get (vm_run cgt c os) k = plain_read os k.
Proof.
  unfold plain_read. induction os as [|o os IH] using rev_ind; intros Hl.
  - cbn. unfold vm_get; cbn. by rewrite lookup_empty.
  - apply Forall_app in Hl as [Hl Ho]. apply Forall_inv in Ho. specialize (IH Hl).
    rewrite run_snoc, rev_app_distr. cbn [rev app plain_read_rev].
    destruct o as [k' v|k'|k' v| | |r]; cbn [vm_step].
    + unfold vm_insert. rewrite modify_local_get, IH. done.
    + unfold vm_remove. rewrite modify_local_get, IH. done.
    + rewrite remove_if_equals_get, IH. done.
    + done.
    + rewrite diff_get, IH. done.
    + done.
Qed.

(** ** Modified set = dirty keys of the history *)
Lemma run_dirty c (os : list vm_op) k : k ∈ modified (vm_run cgt c os) <-> dirty cgt c os k.
Proof.
  unfold dirty. induction os as [|o os IH] using rev_ind.
  - cbn. set_solver.
  - rewrite run_snoc, rev_app_distr. cbn [rev app dirty_rev].
    destruct o as [k' v|k'|k' v| | |r]; cbn [vm_step].
    + unfold vm_insert; cbn. rewrite <- IH. set_solver.
    + unfold vm_remove; cbn. rewrite <- IH. set_solver.
    + rewrite rev_involutive, <- IH. unfold vm_remove_if_equals, vm_get.
      destruct (entries (vm_run cgt c os) !! k') as [vv|] eqn:E.
      * case_decide as Hd.
        -- unfold vm_remove; cbn. rewrite elem_of_union, elem_of_singleton. split.
           ++ intros [->|?]; [left; by rewrite E|by right].
           ++ intros [[-> _]|?]; [by left|by right].
        -- split; [by right|]. intros [[-> Hr]|?]; [|done]. rewrite E in Hr. done.
      * split; [by right|]. intros [[-> Hr]|?]; [|done]. rewrite E in Hr. done.
    + done.
    + rewrite diff_rest_modified. set_solver.
    + rewrite rev_involutive, <- IH, merge_modified, run_cid. split.
      * intros [Hk Hn]. split; [done|]. intros rv Hr Hw. apply Hn. split; [by apply run_wf|eauto].
      * intros [Hk Hn]. split; [done|]. intros (_ & rv & Hr & Hw). by apply (Hn rv).
Qed.

Lemma diff_exact c (os : list vm_op) k e :
  entries (vm_diff (vm_run cgt c os)).1 !! k = Some e <->
  dirty cgt c os k /\ entries (vm_run cgt c os) !! k = Some e.
Proof.
  rewrite diff_delta_lookup, <- run_dirty. case_decide; naive_solver.
Qed.

Lemma diff_dirty_present c (os : list vm_op) k :
  dirty cgt c os k -> exists e, entries (vm_diff (vm_run cgt c os)).1 !! k = Some e
                       /\ val e = vm_get (vm_run cgt c os) k.
Proof.
  intros Hd. pose proof Hd as Hd'. apply run_dirty in Hd'. apply run_wf in Hd' as [e He].
  exists e. split; [by apply diff_exact|]. unfold vm_get. by rewrite He.
Qed.

Lemma diff_twice_empty (m : vmap) : entries (vm_diff (vm_diff m).2).1 = ∅.
Proof.
  apply map_empty. intros k. rewrite diff_delta_lookup, diff_rest_modified.
  rewrite decide_False by set_solver. done.
Qed.

End proofs.
