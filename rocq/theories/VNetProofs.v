(** Bound on version counters over a network of versioned maps. *)
From stdpp Require Import gmap list.
From Coq Require Import NArith Lia.
From Verif Require Import VMapModel VMapSpec VMapProofs VNetModel.

Section spec.
Context {I K V : Type}.
(** Is this event a local modification call? *)
Definition is_modification (o : vn_op I K V) : bool :=
  match o with NInsert _ _ _ | NRemove _ _ | NRemoveIfEq _ _ _ => true | _ => false end.
(** How many local modification calls a history contains. *)
Definition modifications (os : list (vn_op I K V)) : N :=
  N.of_nat (length (List.filter is_modification os)).
End spec.

Section proofs.
Context {I K V C : Type} `{EqDecision I} `{Countable K} `{EqDecision V}.
Variable cgt : C -> C -> bool.
Variable ident : I -> C.
Notation vnet := (vnet I K V C).
Notation vmap := (vmap K V C).

Definition bounded (n : N) (m : vmap) : Prop := forall k e, entries m !! k = Some e -> (ver e <= n)%N.

Lemma bounded_mono n n' m : bounded n m -> (n <= n')%N -> bounded n' m.
Proof. intros Hb Hn k e He. specialize (Hb k e He). lia. Qed.

Lemma bounded_modify n m k v : (n + 1 < u64_modulus)%N -> bounded n m -> bounded (n + 1) (vm_modify_local m k v).
Proof.
  intros Hn Hb k' e. rewrite modify_local_lookup. case_decide; [|intros He; specialize (Hb _ _ He); lia].
  intros [= <-]; cbn. destruct (entries m !! k) as [o|] eqn:E; [|lia].
  specialize (Hb _ _ E). case_decide; [lia|]. rewrite u64_succ_small by lia. lia.
Qed.

Lemma bounded_remove_if n m k v : (n + 1 < u64_modulus)%N -> bounded n m -> bounded (n + 1) (vm_remove_if_equals m k v).
Proof.
  intros Hn Hb. unfold vm_remove_if_equals.
  destruct (entries m !! k); [|eapply bounded_mono; [done|lia]].
  case_decide; [by apply bounded_modify|eapply bounded_mono; [done|lia]].
Qed.

Lemma bounded_diff n (m : vmap) : bounded n m -> bounded n (vm_diff m).1 /\ bounded n (vm_diff m).2.
Proof.
  intros Hb. split; intros k e.
  - rewrite diff_delta_lookup. case_decide; [apply Hb|done].
  - rewrite diff_rest_lookup. case_decide; [|apply Hb]. 
    destruct (entries m !! k) as [[w [x|]]|] eqn:E; try done. intros [= <-]. by apply (Hb k).
Qed.

Lemma bounded_merge n (m r : vmap) : bounded n m -> bounded n r -> bounded n (vm_merge cgt m r).1.
Proof.
  intros Hm Hr k e. rewrite merge_lookup. destruct (entries r !! k) as [rv|] eqn:E; cbn; [|apply Hm].
  case_decide; [|apply Hm]. unfold taken. destruct (val rv); [|done]. intros [= <-]. by apply (Hr k).
Qed.

Definition net_bounded (n : N) (s : vnet) : Prop :=
  (forall i, bounded n (nmaps s i)) /\ Forall (bounded n) (npool s).

Lemma net_bounded_mono n n' s : net_bounded n s -> (n <= n')%N -> net_bounded n' s.
Proof.
  intros [H1 H2] Hn. split; [intros i; by eapply bounded_mono|].
  eapply Forall_impl; [done|]. intros m Hm. by eapply bounded_mono.
Qed.

Lemma net_bounded_step n s o :
  ((if is_modification o then n + 1 else n) < u64_modulus)%N -> net_bounded n s ->
  net_bounded (if is_modification o then n + 1 else n) (vn_step cgt s o).
Proof.
  intros Hn [H1 H2]. destruct o as [i k v|i k|i k v|i|i|j m]; cbn [is_modification vn_step] in *.
  - split; cbn; [|eapply Forall_impl; [done|]; intros; eapply bounded_mono; [done|lia]].
    intros j. unfold vn_set. case_decide; [by apply bounded_modify|eapply bounded_mono; [done|lia]].
  - split; cbn; [|eapply Forall_impl; [done|]; intros; eapply bounded_mono; [done|lia]].
    intros j. unfold vn_set. case_decide; [by apply bounded_modify|eapply bounded_mono; [done|lia]].
  - split; cbn; [|eapply Forall_impl; [done|]; intros; eapply bounded_mono; [done|lia]].
    intros j. unfold vn_set. case_decide; [by apply bounded_remove_if|eapply bounded_mono; [done|lia]].
  - destruct (bounded_diff n _ (H1 i)) as [Hd Hr]. destruct (vm_diff (nmaps s i)) as [d m]; cbn in *. split; cbn.
    + intros j. unfold vn_set. by case_decide.
    + apply Forall_app. split; [done|]. by constructor.
  - split; cbn; [done|]. apply Forall_app. split; [done|]. constructor; [apply H1|done].
  - destruct (npool s !! m) as [r|] eqn:E; [|done]. split; cbn; [|done].
    intros i. unfold vn_set. case_decide; [|done]. apply bounded_merge; [done|].
    by eapply Forall_lookup_1.
Qed.

Lemma modifications_snoc (os : list (vn_op I K V)) o :
  modifications (os ++ [o]) = (if is_modification o then modifications os + 1 else modifications os)%N.
Proof.
  unfold modifications. rewrite List.filter_app, app_length. cbn. destruct (is_modification o); cbn; lia.
Qed.

Lemma net_run_bounded (os : list (vn_op I K V)) :
  (modifications os < u64_modulus)%N ->
  net_bounded (modifications os) (vn_run cgt ident os).
Proof.
  induction os as [|o os IH] using rev_ind; intros Hn.
  - split; [|constructor]. intros i k e. cbn. by rewrite lookup_empty.
  - unfold vn_run. rewrite fold_left_app. cbn [fold_left]. rewrite modifications_snoc in *.
    apply net_bounded_step; [done|]. apply IH. destruct (is_modification o); lia.
Qed.

Lemma net_versions_bounded (os : list (vn_op I K V)) :
  (modifications os < u64_modulus)%N ->
  (forall i k e, entries (nmaps (vn_run cgt ident os) i) !! k = Some e -> (ver e <= modifications os)%N)
  /\ (forall m k e, In m (npool (vn_run cgt ident os)) -> entries m !! k = Some e -> (ver e <= modifications os)%N).
Proof.
  intros Hn. destruct (net_run_bounded os Hn) as [H1 H2]. split; [intros i k e; apply H1|].
  intros m k e Hin. rewrite Forall_forall in H2. apply H2. by apply elem_of_list_In.
Qed.

(** Consequently a further local change of a synced key really moves the version up by
    one: the machine addition does not wrap. *)
Lemma net_bump_exact (os : list (vn_op I K V)) i k v e :
  (modifications os + 1 < u64_modulus)%N ->
  entries (nmaps (vn_run cgt ident os) i) !! k = Some e ->
  k ∉ modified (nmaps (vn_run cgt ident os) i) ->
  entries (vm_modify_local (nmaps (vn_run cgt ident os) i) k v) !! k = Some (VVal (ver e + 1) v).
Proof.
  intros Hn He Hk. rewrite modify_local_lookup, decide_True by done. rewrite He, decide_False by done.
  destruct (net_versions_bounded os) as [Hb _]; [lia|]. specialize (Hb _ _ _ He).
  rewrite u64_succ_small by lia. done.
Qed.
End proofs.
