(** Property theorems: subscription index, versioned map, identifiers, topic validation. *)
From stdpp Require Import gmap.
From Coq Require Import NArith ZArith.
From Verif Require Import IdModel IdProofs RelMapModel RelMapSpec RelMapProofs
  VMapModel VMapSpec VMapProofs VNetModel VNetProofs TopicModel TopicProofs.

(** Comparison used by the examples. *)
Definition n_gtb (a b : N) : bool := N.ltb b a.

(** * C01 *)
Theorem C01_subscription_index_exact :
  forall (K V : Type) `{Countable K} `{Countable V} (os : list (rm_op K V)) (k : K) (v : V),
    (In k (rm_get_keys_by_value (rm_run os) v) <-> subscribed os k v)
    /\ NoDup (rm_get_keys_by_value (rm_run os) v).
Proof. exact @rm_index_exact. Qed.
Print Assumptions C01_subscription_index_exact.

Example C01_example :
  let os := [RAssociate 1 [10;11;10]; RAssociate 2 [10]; RDissociate 1 [10]; RAssociate 3 [10;12]; RRemoveKey 3; RAssociate 1 [10]]%N in
  subscribed os 1%N 10%N /\ subscribed os 2%N 10%N /\ ~ subscribed os 3%N 10%N
  /\ rm_get_keys_by_value (rm_run os) 10%N = [1;2]%N.
Proof. unfold subscribed; cbn. split; [naive_solver|]. split; [naive_solver|]. split; [naive_solver|]. vm_compute. done. Qed.

(** * C02 *)
Theorem C02_topics_of_interest_exact :
  forall (K V : Type) `{Countable K} `{Countable V} (os : list (rm_op K V)) (v : V),
    (In v (rm_get_values (rm_run os)) <-> exists k, subscribed os k v)
    /\ NoDup (rm_get_values (rm_run os)).
Proof. exact @rm_values_exact. Qed.
Print Assumptions C02_topics_of_interest_exact.

Theorem C02_nothing_leaks :
  forall (K V : Type) `{Countable K} `{Countable V} (os : list (rm_op K V)) (ks : list K),
    (forall k vs, In (RAssociate k vs) os -> In k ks) ->
    rm_run (os ++ map RRemoveKey ks) = rm_new.
Proof. exact @rm_no_leak. Qed.
Print Assumptions C02_nothing_leaks.

Example C02_example :
  let os := [RAssociate 1 [10;11]; RAssociate 2 [10]; RDissociate 2 [11]]%N in
  (forall k vs, In (RAssociate k vs) os -> In k [1;2]%N) /\ rm_get_values (rm_run os) <> [].
Proof. split; [|vm_compute; done]. intros k vs. cbn. naive_solver. Qed.

(** * C13 *)
Theorem C13_reads_like_a_map :
  forall (K V C : Type) `{Countable K} `{EqDecision V} (cgt : C -> C -> bool) (c : C)
         (os : list (vm_op K V C)) (k : K),
    Forall is_local os -> vm_get (vm_run cgt c os) k = plain_read os k.
Proof. exact @run_plain_read. Qed.
Print Assumptions C13_reads_like_a_map.

Example C13_example :
  let os : list (vm_op N N N) := [VInsert 1 5; VDiff; VRemoveIfEq 1 6; VFull; VInsert 2 7; VRemove 2; VDiff; VRemoveIfEq 3 1]%N in
  Forall is_local os /\ plain_read os 1%N = Some 5%N /\ plain_read os 2%N = None.
Proof. cbn. split; [repeat constructor|]. done. Qed.

(** * C14 *)
Theorem C14_delta_exact :
  forall (K V C : Type) `{Countable K} `{EqDecision V} (cgt : C -> C -> bool) (c : C)
         (os : list (vm_op K V C)) (k : K) (e : vval V),
    entries (vm_diff (vm_run cgt c os)).1 !! k = Some e
    <-> dirty cgt c os k /\ entries (vm_run cgt c os) !! k = Some e.
Proof. exact @diff_exact. Qed.
Print Assumptions C14_delta_exact.

Theorem C14_every_change_is_sent :
  forall (K V C : Type) `{Countable K} `{EqDecision V} (cgt : C -> C -> bool) (c : C)
         (os : list (vm_op K V C)) (k : K),
    dirty cgt c os k ->
    exists e, entries (vm_diff (vm_run cgt c os)).1 !! k = Some e /\ val e = vm_get (vm_run cgt c os) k.
Proof. exact @diff_dirty_present. Qed.
Print Assumptions C14_every_change_is_sent.

Theorem C14_second_delta_empty :
  forall (K V C : Type) `{Countable K} (m : vmap K V C), entries (vm_diff (vm_diff m).2).1 = ∅.
Proof. exact @diff_twice_empty. Qed.
Print Assumptions C14_second_delta_empty.

Theorem C14_iteration_order_irrelevant :
  forall (K V C : Type) `{Countable K} (m : vmap K V C) (ks : list K),
    ks ≡ₚ elements (modified m) -> vm_diff_order ks m = vm_diff m.
Proof. exact @diff_order_irrelevant. Qed.
Print Assumptions C14_iteration_order_irrelevant.

Definition c14_history : list (vm_op N N N) :=
  [VInsert 1 5; VDiff; VInsert 1 6; VInsert 2 7; VRemove 3; VMerge (VMap {[2 := VVal 9 (Some 8)]} ∅ 4)]%N.
Example C14_example :
  dirty n_gtb 1%N c14_history 1%N /\ dirty n_gtb 1%N c14_history 3%N /\ ~ dirty n_gtb 1%N c14_history 2%N
  /\ entries (vm_diff (vm_run n_gtb 1%N c14_history)).1 = {[1 := VVal 2 (Some 6); 3 := VVal 1 None]}%N.
Proof.
  split; [|split; [|split]].
  - unfold dirty, c14_history; cbn. split; [naive_solver|]. intros rv. rewrite lookup_singleton_ne by done. done.
  - unfold dirty, c14_history; cbn. split; [naive_solver|]. intros rv. rewrite lookup_singleton_ne by done. done.
  - unfold dirty, c14_history; cbn. intros [_ Hno]. apply (Hno (VVal 9 (Some 8))%N); vm_compute; naive_solver.
  - apply (bool_decide_unpack _). vm_compute. exact I.
Qed.

(** * C15 *)
Theorem C15_merge_last_writer_wins :
  forall (K V C : Type) `{Countable K} (cgt : C -> C -> bool) (m r : vmap K V C) (k : K),
    entries (vm_merge cgt m r).1 !! k = lww cgt (cid r) (cid m) (entries m !! k) (entries r !! k).
Proof. exact @merge_lookup. Qed.
Print Assumptions C15_merge_last_writer_wins.

Theorem C15_merge_changes_exact :
  forall (K V C : Type) `{Countable K} (cgt : C -> C -> bool) (m r : vmap K V C) (k : K) (v : option V),
    In (k, v) (vm_merge cgt m r).2
    <-> exists rv, entries r !! k = Some rv /\ v = val rv /\ remote_wins cgt (cid r) (cid m) (entries m !! k) rv.
Proof. exact @merge_changes. Qed.
Print Assumptions C15_merge_changes_exact.

Theorem C15_merge_changes_once :
  forall (K V C : Type) `{Countable K} (cgt : C -> C -> bool) (m r : vmap K V C),
    NoDup (map fst (vm_merge cgt m r).2).
Proof. exact @merge_changes_nodup. Qed.
Print Assumptions C15_merge_changes_once.

Theorem C15_merge_order_irrelevant :
  forall (K V C : Type) `{Countable K} (cgt : C -> C -> bool) (m r : vmap K V C) (l : list (K * vval V)),
    l ≡ₚ map_to_list (entries r) ->
    (vm_merge_list cgt (cid r) l m).1 = (vm_merge cgt m r).1
    /\ forall p, In p (vm_merge_list cgt (cid r) l m).2 <-> In p (vm_merge cgt m r).2.
Proof. exact @merge_order_irrelevant. Qed.
Print Assumptions C15_merge_order_irrelevant.

Definition c15_remote : vmap N N N :=
  VMap {[1 := VVal 3 (Some 6); 2 := VVal 2 None; 3 := VVal 1 (Some 9); 4 := VVal 7 None]}%N ∅ 8%N.
Definition c15_local : vmap N N N :=
  VMap {[1 := VVal 3 (Some 5); 2 := VVal 1 (Some 1); 5 := VVal 4 (Some 2)]}%N ∅ 4%N.
Example C15_example :
  entries (vm_merge n_gtb c15_local c15_remote).1
  = {[1 := VVal 3 (Some 6); 3 := VVal 1 (Some 9); 5 := VVal 4 (Some 2)]}%N
  /\ length (vm_merge n_gtb c15_local c15_remote).2 = 3
  /\ rev (map_to_list (entries c15_remote)) ≡ₚ map_to_list (entries c15_remote).
Proof. split; [apply (bool_decide_unpack _); vm_compute; exact I|]. split; [vm_compute; done|]. symmetry. apply Permutation_rev. Qed.

(** * C16 *)
Theorem C16_merge_idempotent :
  forall (K V C : Type) `{Countable K} `{EqDecision V} (cgt : C -> C -> bool) (c : C)
         (os : list (vm_op K V C)) (r : vmap K V C),
    (vm_merge cgt (vm_merge cgt (vm_run cgt c os) r).1 r).1 = (vm_merge cgt (vm_run cgt c os) r).1.
Proof. exact @merge_idem_reachable. Qed.
Print Assumptions C16_merge_idempotent.

Theorem C16_merge_never_goes_backwards :
  forall (K V C : Type) `{Countable K} (cgt : C -> C -> bool) (m r : vmap K V C) (k : K) (lv nv : vval V),
    entries m !! k = Some lv -> entries (vm_merge cgt m r).1 !! k = Some nv ->
    (ver lv <= ver nv)%N /\ (nv = lv \/ entries r !! k = Some nv).
Proof. exact @merge_no_regress. Qed.
Print Assumptions C16_merge_never_goes_backwards.

Theorem C16_merge_deletes_only_for_newer :
  forall (K V C : Type) `{Countable K} (cgt : C -> C -> bool) (m r : vmap K V C) (k : K) (lv : vval V),
    entries m !! k = Some lv -> entries (vm_merge cgt m r).1 !! k = None ->
    exists rv, entries r !! k = Some rv /\ val rv = None /\ (ver lv <= ver rv)%N.
Proof. exact @merge_delete_newer. Qed.
Print Assumptions C16_merge_deletes_only_for_newer.

Example C16_example :
  entries c15_local !! 1%N = Some (VVal 3 (Some 5))%N
  /\ entries (vm_merge n_gtb c15_local c15_remote).1 !! 1%N = Some (VVal 3 (Some 6))%N
  /\ entries c15_local !! 2%N = Some (VVal 1 (Some 1))%N
  /\ entries (vm_merge n_gtb c15_local c15_remote).1 !! 2%N = None.
Proof. vm_compute. done. Qed.

(** * C17 *)
Theorem C17_versions_bounded :
  forall (I K V C : Type) `{EqDecision I} `{Countable K} `{EqDecision V} (cgt : C -> C -> bool)
         (ident : I -> C) (os : list (vn_op I K V)),
    (modifications os < 18446744073709551616)%N ->
    (forall i k e, entries (nmaps (vn_run cgt ident os) i) !! k = Some e -> (ver e <= modifications os)%N)
    /\ (forall m k e, In m (npool (vn_run cgt ident os)) -> entries m !! k = Some e -> (ver e <= modifications os)%N).
Proof. intros I K V C ? ? ? ? cgt ident os. exact (net_versions_bounded cgt ident os). Qed.
Print Assumptions C17_versions_bounded.

Theorem C17_increment_never_wraps :
  forall (I K V C : Type) `{EqDecision I} `{Countable K} `{EqDecision V} (cgt : C -> C -> bool)
         (ident : I -> C) (os : list (vn_op I K V)) (i : I) (k : K) (v : option V) (e : vval V),
    (modifications os + 1 < 18446744073709551616)%N ->
    entries (nmaps (vn_run cgt ident os) i) !! k = Some e ->
    k ∉ modified (nmaps (vn_run cgt ident os) i) ->
    entries (vm_modify_local (nmaps (vn_run cgt ident os) i) k v) !! k = Some (VVal (ver e + 1) v)%N.
Proof. intros I K V C ? ? ? ? cgt ident os. exact (net_bump_exact cgt ident os). Qed.
Print Assumptions C17_increment_never_wraps.

Definition c17_history : list (vn_op bool N N) :=
  [NInsert true 1 5; NDiff true; NDeliver false 0; NInsert false 1 6; NDiff false; NDeliver true 1; NRemove true 1; NFull true]%N.
Example C17_example :
  (modifications c17_history + 1 < 18446744073709551616)%N
  /\ entries (nmaps (vn_run n_gtb (fun b : bool => if b then 1 else 2)%N c17_history) true) !! 1%N = Some (VVal 3 None)%N
  /\ entries (nmaps (vn_run n_gtb (fun b : bool => if b then 1 else 2)%N c17_history) false) !! 1%N = Some (VVal 2 (Some 6))%N
  /\ 1%N ∉ modified (nmaps (vn_run n_gtb (fun b : bool => if b then 1 else 2)%N c17_history) false).
Proof. split; [vm_compute; done|]. split; [vm_compute; done|]. split; [vm_compute; done|]. apply (bool_decide_unpack _). vm_compute. exact I. Qed.

(** * C36 *)
Theorem C36_roundtrip :
  forall b, bid_parse (bid_print b) = Some b <-> ~ In 47%N (bpub b) /\ ~ In 47%N (bpriv b).
Proof. exact bid_roundtrip_iff. Qed.
Print Assumptions C36_roundtrip.

Theorem C36_parse_fails_without_separator :
  forall s, bid_parse s = None <-> ~ In 47%N s.
Proof. exact bid_parse_none. Qed.
Print Assumptions C36_parse_fails_without_separator.

Theorem C36_printing_injective :
  forall a b, ~ In 47%N (bpub a) -> ~ In 47%N (bpriv a) -> ~ In 47%N (bpub b) -> ~ In 47%N (bpriv b) ->
    bid_print a = bid_print b -> a = b.
Proof. exact bid_print_inj. Qed.
Print Assumptions C36_printing_injective.

Theorem C36_total_order :
  forall a b c, bid_gtb a a = false
    /\ (a <> b -> bid_gtb a b = true \/ bid_gtb b a = true)
    /\ (bid_gtb a b = true -> bid_gtb b a = false)
    /\ (bid_gtb a b = true -> bid_gtb b c = true -> bid_gtb a c = true)
    /\ (bid_geb a b = true <-> bid_gtb a b = true \/ a = b).
Proof. exact bid_total_order. Qed.
Print Assumptions C36_total_order.

Example C36_example :
  let b := Bid [104;58;49]%N [105;58;50]%N in
  ~ In 47%N (bpub b) /\ ~ In 47%N (bpriv b) /\ bid_parse (bid_print b) = Some b
  /\ bid_gtb (Bid [104;58;50]%N []) b = true.
Proof. cbn. split; [naive_solver|]. split; [naive_solver|]. vm_compute. done. Qed.

(** * C38 *)
Theorem C38_prune_keeps_exactly_valid_in_order :
  forall valid l, exists d, collapses l d /\ selects valid d (prune valid l).1.
Proof. exact prune_exact. Qed.
Print Assumptions C38_prune_keeps_exactly_valid_in_order.

Theorem C38_prune_members :
  forall valid l x, In x (prune valid l).1 <-> In x l /\ valid x = true.
Proof. exact prune_in. Qed.
Print Assumptions C38_prune_members.

Theorem C38_prune_fails_iff_none_valid :
  forall valid l, (prune valid l).2 = true <-> exists x, In x l /\ valid x = true.
Proof. exact prune_ok. Qed.
Print Assumptions C38_prune_fails_iff_none_valid.

(** Finding: duplicates that are not adjacent survive. *)
Theorem C38_prune_removes_all_duplicates_refuted :
  exists valid l, ~ List.NoDup (prune valid l).1.
Proof. exact prune_duplicates_remain. Qed.
Print Assumptions C38_prune_removes_all_duplicates_refuted.

Example C38_example :
  let valid := fun t => N.leb t 1 in
  prune valid [0;0;7;7;0;1;9]%N = ([0;0;1]%N, true) /\ prune valid [7;8]%N = ([], false).
Proof. vm_compute. done. Qed.
