(** User directories of any number of brokers agree when, per user, changes are made by
    one broker at a time. *)
From stdpp Require Import gmap fin_maps fin_sets list.
From Coq Require Import NArith Lia.
From Verif Require Import IdModel IdProofs RelMapModel VMapModel VMapSpec VMapProofs
  ConnModel ConnSpec ConnProofs ConnProofs2 SyncModel DirSyncProofs.

(** * Effects on one user's entry *)
Lemma remove_users_dent s us u :
  (u ∈ us -> vm_get (direct s) u <> Some (identity s)) ->
  dent (remove_users s us) u = dent s u
  /\ (u ∈ modified (direct (remove_users s us)) <-> u ∈ modified (direct s)).
Proof.
  revert s. induction us as [|u0 us IH]; intros s Hall; [done|].
  rewrite remove_users_cons.
  assert (H1 : dent (c_remove_user s u0) u = dent s u).
  { rewrite ru_direct, rie_entries. rewrite decide_False; [done|]. intros [-> Hg]. apply Hall; [set_solver|done]. }
  assert (H2 : u ∈ modified (direct (c_remove_user s u0)) <-> u ∈ modified (direct s)).
  { rewrite ru_direct, rie_modified. split; [|by left]. intros [?|[-> Hg]]; [done|]. exfalso. apply Hall; [set_solver|done]. }
  destruct (IH (c_remove_user s u0)) as [H3 H4].
  { intros Hu. unfold vm_get. rewrite H1, ru_identity. apply Hall. set_solver. }
  split; [congruence|]. by rewrite H4.
Qed.

Lemma apply_user_sync_dent s m u :
  (forall rv, entries m !! u = Some rv -> val rv <> Some (identity s)) ->
  dent (c_apply_user_sync s m) u = lww bid_gtb (cid m) (cid (direct s)) (dent s u) (entries m !! u)
  /\ (u ∈ modified (direct (c_apply_user_sync s m)) -> u ∈ modified (direct s))
  /\ (entries m !! u = None -> u ∈ modified (direct s) -> u ∈ modified (direct (c_apply_user_sync s m))).
Proof.
  intros Hno. rewrite apply_user_sync_eq.
  destruct (remove_users_dent (set_direct (vm_merge bid_gtb (direct s) m).1 s) (map fst (vm_merge bid_gtb (direct s) m).2) u) as [H1 H2].
  { intros Hu. apply elem_of_list_fmap in Hu as ([u' v] & Heq & Hu). cbn in Heq. subst u'.
    apply elem_of_list_In, merge_changes in Hu.
    destruct Hu as (rv & Hrv & -> & Hw). cbn [set_direct direct identity fst].
    unfold vm_get. rewrite merge_lookup, Hrv. unfold lww. rewrite decide_True by done.
    unfold taken. destruct (val rv) eqn:Hv; [|done]. rewrite Hv, <- Hv. by apply Hno. }
  split_and!.
  - rewrite H1. cbn [set_direct direct]. apply merge_lookup.
  - rewrite H2. cbn [set_direct direct]. rewrite merge_modified. tauto.
  - rewrite H2. cbn [set_direct direct]. rewrite merge_modified. intros Hn Hm. split; [done|].
    intros (_ & rv & Hrv & _). congruence.
Qed.

(** * The discipline *)
Section seq.
Context {I : Type} `{EqDecision I}.
Variable ident : I -> bid.
Hypothesis Hinj : forall i j, ident i = ident j -> i = j.

(** Which event changes where user [u] is listed, and at which broker. *)
Definition dir_writes (s : unet I) (o : un_op I) (u : ukey) (i : I) : Prop :=
  match o with
  | ULocal i' (CAddUser u' _ _ _) => i' = i /\ u' = u
  | ULocal i' (CRemoveUser u') => i' = i /\ u' = u /\ c_get_user_connection (un_conns s i) u <> None
  | _ => False
  end.

(** All unsent changes of [u] and all messages on the way about [u] stem from [i]. *)
Definition only_from (s : unet I) (u : ukey) (i : I) : Prop :=
  forall k, k <> i ->
    (forall d, (c_get_partial_user_sync (un_conns s k)).2 = Some d -> entries d !! u = None)
    /\ forall j m, In m (un_link s k j) -> entries m !! u = None.

(** FIFO links, no duplication, no full copies, synchronisation only through the events
    made for it. *)
Definition fifo_event (o : un_op I) : Prop :=
  match o with
  | ULocal _ (CApplyUserSync _) | ULocal _ CPartialUserSync => False
  | UDeliver _ _ k => k = 0
  | UFull _ _ | UDup _ _ _ => False
  | _ => True
  end.

Definition one_writer_at_a_time (f : I -> conns) (os : list (un_op I)) : Prop :=
  forall o1 o o2 u i, os = o1 ++ o :: o2 -> dir_writes (un_run f o1) o u i -> only_from (un_run f o1) u i.

(** * The invariant *)
Definition nextv (acc : option (vval bid)) : N := match acc with Some c => ver c + 1 | None => 1 end.

(** Handling the messages [q] of broker [i] in order turns entry [acc] of [u] into [clean]. *)
Fixpoint chain (i : I) (u : ukey) (acc : option (vval bid)) (q : list direct_map) (clean : option (vval bid)) : Prop :=
  match q with
  | [] => acc = clean
  | m :: q' =>
      match entries m !! u with
      | None => chain i u acc q' clean
      | Some e => cid m = ident i /\ (val e = None \/ val e = Some (ident i)) /\ ver e = nextv acc
                  /\ chain i u (taken e) q' clean
      end
  end.

Notation E s x u := (entries (direct (un_conns s x)) !! u) (only parsing).
Notation M s x := (modified (direct (un_conns s x))) (only parsing).

Record user_inv (n : N) (s : unet I) (u : ukey) (i : I) (clean : option (vval bid)) : Prop := {
  ui_mod : forall k, k <> i -> u ∉ M s k;
  ui_msg : forall k j m, k <> i -> In m (un_link s k j) -> entries m !! u = None;
  ui_chain : forall j, j <> i -> chain i u (E s j u) (un_link s i j) clean;
  ui_clean : u ∉ M s i -> E s i u = clean;
  ui_dirty : u ∈ M s i -> (nextv clean <= n)%N /\ exists v, E s i u = Some (VVal (nextv clean) v) /\ (v = None \/ v = Some (ident i));
  ui_bound : forall c, clean = Some c -> (ver c <= n)%N /\ val c <> None;
}.

Record base_inv (s : unet I) : Prop := {
  bi_dir : forall x, dir_inv (un_conns s x) /\ identity (un_conns s x) = ident x /\ vm_wf (direct (un_conns s x));
  bi_self : forall x, un_link s x x = [];
}.

Lemma upd_eq' {A} (f : I -> A) x a : upd f x a x = a.
Proof. unfold upd. by rewrite decide_True. Qed.
Lemma upd_ne' {A} (f : I -> A) x y a : y <> x -> upd f x a y = f y.
Proof. intros. unfold upd. by rewrite decide_False. Qed.

Lemma base_step s o : fifo_event o -> base_inv s -> base_inv (un_step s o).
Proof.
  intros Hf [Hd Hs].
  assert (Hstep : forall x o x', dir_inv (upd (un_conns s) x (c_step (un_conns s x) o) x')
     /\ identity (upd (un_conns s) x (c_step (un_conns s x) o) x') = ident x'
     /\ vm_wf (direct (upd (un_conns s) x (c_step (un_conns s x) o) x'))).
  { intros x o' x'. destruct (decide (x' = x)) as [->|Hne]; [|rewrite upd_ne' by done; apply Hd].
    rewrite upd_eq'. destruct (Hd x) as (H1 & H2 & H3). split_and!; [by apply step_dir| by rewrite step_identity|by apply c_step_wf]. }
  destruct o as [x o|x|x y|x y k|x y k]; cbn [un_step]; try done.
  - split; cbn [un_conns un_link]; [apply Hstep|done].
  - split; cbn [un_conns un_link]; [apply Hstep|].
    intros z. destruct (decide (z = x)) as [->|Hne]; [rewrite upd_eq', decide_True by done|rewrite upd_ne' by done]; apply Hs.
  - destruct (un_link s x y !! k) as [m|] eqn:Hk; [|done].
    split; cbn [un_conns un_link]; [apply Hstep|].
    intros z. unfold upd2. destruct (decide (z = x)) as [->|Hne]; [|rewrite upd_ne' by done; apply Hs].
    rewrite upd_eq'. destruct (decide (x = y)) as [->|Hne].
    + rewrite upd_eq'. by rewrite Hs in Hk.
    + rewrite upd_ne' by done. apply Hs.
Qed.

Lemma chain_silent i u acc q clean :
  (forall m, In m q -> entries m !! u = None) -> chain i u acc q clean <-> acc = clean.
Proof.
  revert acc. induction q as [|m q IH]; intros acc Hq; [done|].
  cbn [chain]. rewrite (Hq m) by (by left). apply IH. intros m' Hm'. apply Hq. by right.
Qed.

Lemma chain_app i u acc q q' clean :
  chain i u acc (q ++ q') clean <-> exists mid, chain i u acc q mid /\ chain i u mid q' clean.
Proof.
  revert acc. induction q as [|m q IH]; intros acc; cbn [app chain].
  - split; [eauto|]. by intros (mid & -> & ?).
  - destruct (entries m !! u) as [e|]; [|apply IH].
    rewrite IH. naive_solver.
Qed.

Lemma user_mono n n' s u i clean : (n <= n')%N -> user_inv n s u i clean -> user_inv n' s u i clean.
Proof.
  intros Hn []. split; try done.
  - intros Hm. destruct (ui_dirty0 Hm) as [? ?]. split; [lia|done].
  - intros c Hc. destruct (ui_bound0 c Hc). split; [lia|done].
Qed.

(** When another broker may write, everything about [u] is settled. *)
Lemma user_switch n s u i clean i' :
  base_inv s -> user_inv n s u i clean -> only_from s u i' -> user_inv n s u i' clean.
Proof.
  intros [Hd Hs] Hinv Honly. destruct (decide (i' = i)) as [->|Hne]; [done|].
  destruct Hinv as [H1 H2 H3 H4 H5 H6].
  destruct (Honly i (not_eq_sym Hne)) as [Hq1 Hq2].
  assert (Hmi : u ∉ M s i).
  { intros Hm. destruct (Hd i) as (_ & _ & Hwf). destruct (Hwf u Hm) as [e He].
    destruct (partial_in_out _ _ _ Hm He) as (d & Hd1 & Hd2). specialize (Hq1 d Hd1). congruence. }
  assert (Hall : forall j, E s j u = clean).
  { intros j. destruct (decide (j = i)) as [->|Hj]; [by apply H4|].
    specialize (H3 j Hj). apply chain_silent in H3; [done|]. intros m Hm. by eapply Hq2. }
  assert (Hmi' : u ∉ M s i') by (by apply H1).
  split.
  - intros k Hk. destruct (decide (k = i)) as [->|Hki]; [done|]. by apply H1.
  - intros k j m Hk Hm. destruct (decide (k = i)) as [->|Hki]; [by eapply Hq2|by eapply H2].
  - intros j Hj. apply chain_silent; [|apply Hall]. intros m Hm. by eapply H2.
  - intros _. apply Hall.
  - done.
  - done.
Qed.

(** Events that leave entry and dirtiness of [u] alone at every broker, and add or remove
    only messages silent about [u]. *)
Lemma user_frame n s s' u i clean :
  (forall j, E s' j u = E s j u) -> (forall j, u ∈ M s' j <-> u ∈ M s j) ->
  (forall k j m, k <> i -> In m (un_link s' k j) -> In m (un_link s k j) \/ entries m !! u = None) ->
  (forall j acc cl, j <> i -> chain i u acc (un_link s i j) cl -> chain i u acc (un_link s' i j) cl) ->
  user_inv n s u i clean -> user_inv n s' u i clean.
Proof.
  intros HE HM HL HC [H1 H2 H3 H4 H5 H6]. split.
  - intros k Hk. rewrite HM. by apply H1.
  - intros k j m Hk Hm. destruct (HL k j m Hk Hm) as [?|?]; [by eapply H2|done].
  - intros j Hj. rewrite HE. apply HC; [done|]. by apply H3.
  - rewrite HM, HE. done.
  - rewrite HM, HE. done.
  - done.
Qed.

Lemma user_local n s u i clean x o :
  (n + 1 < u64_modulus)%N -> base_inv s -> fifo_event (ULocal x o) ->
  (forall i', dir_writes s (ULocal x o) u i' -> only_from s u i') ->
  user_inv n s u i clean -> exists i' clean', user_inv (n + 1) (un_step s (ULocal x o)) u i' clean'.
Proof.
  intros Hn Hbase Hf Hw Hinv. cbn [un_step].
  assert (Hsame : (dent (c_step (un_conns s x) o) u = E s x u) ->
     (u ∈ modified (direct (c_step (un_conns s x) o)) <-> u ∈ M s x) ->
     user_inv (n + 1) (UNet (upd (un_conns s) x (c_step (un_conns s x) o)) (un_link s)) u i clean).
  { intros HE HM. apply (user_mono n); [lia|]. revert Hinv. apply user_frame; cbn [un_conns un_link].
    - intros j. destruct (decide (j = x)) as [->|Hne]; [by rewrite upd_eq'|by rewrite upd_ne'].
    - intros j. destruct (decide (j = x)) as [->|Hne]; [by rewrite upd_eq'|by rewrite upd_ne'].
    - intros k j m _ Hm. by left.
    - done. }
  assert (Hwrite : forall v, dir_writes s (ULocal x o) u x -> (v = None \/ v = Some (ident x)) ->
     dent (c_step (un_conns s x) o) u = Some (VVal (wver (direct (un_conns s x)) u) v) ->
     u ∈ modified (direct (c_step (un_conns s x) o)) ->
     user_inv (n + 1) (UNet (upd (un_conns s) x (c_step (un_conns s x) o)) (un_link s)) u x clean).
  { intros v Hwx Hv HE HM.
    pose proof (user_switch n s u i clean x Hbase Hinv (Hw x Hwx)) as [H1 H2 H3 H4 H5 H6].
    assert (Hver : wver (direct (un_conns s x)) u = nextv clean /\ (nextv clean <= n + 1)%N).
    { unfold wver. destruct (decide (u ∈ M s x)) as [Hm|Hm].
      - destruct (H5 Hm) as (Hb & v' & -> & _). cbn. split; [done|lia].
      - rewrite (H4 Hm). destruct clean as [c|]; cbn; [|split; [done|lia]].
        destruct (H6 c eq_refl) as [Hc _]. rewrite u64_succ_small by lia. split; [done|lia]. }
    destruct Hver as [Hver Hb].
    split; cbn [un_conns un_link].
    - intros k Hk. rewrite upd_ne' by done. by apply H1.
    - done.
    - intros j Hj. rewrite upd_ne' by done. by apply H3.
    - rewrite upd_eq'. intros Hno. by exfalso.
    - intros _. rewrite upd_eq'. split; [done|]. exists v. split; [|done]. by rewrite HE, Hver.
    - intros c Hc. destruct (H6 c Hc). split; [lia|done]. }
  destruct Hbase as [Hd Hs].
  destruct (decide (neutral o)) as [Hneu|Hneu].
  { exists i, clean. apply Hsame; by rewrite neutral_direct. }
  destruct o as [u' c ts h|u'| | | | |m|b m| |]; try (exfalso; by apply Hneu); try done.
  - destruct (decide (u' = u)) as [->|Hne].
    + exists x, clean. apply (Hwrite (Some (ident x))); cbn [c_step dir_writes]; [done|by right| |].
      * rewrite add_user_entries, decide_True by done. destruct (Hd x) as (_ & -> & _). done.
      * rewrite add_user_modified. by left.
    + exists i, clean. apply Hsame; cbn [c_step].
      * rewrite add_user_entries. by rewrite decide_False.
      * rewrite add_user_modified. split; [|by right]. intros [->|?]; done.
  - destruct (Hd x) as (Hdir & Hidx & _).
    destruct (decide (u' = u /\ vm_get (direct (un_conns s x)) u = Some (ident x))) as [[-> Hg]|Hno].
    + exists x, clean. apply (Hwrite None); cbn [c_step dir_writes].
      * split_and!; [done|done|]. destruct Hdir as [_ Hdir]. specialize (Hdir u). rewrite Hidx in Hdir.
        unfold c_get_user_connection. destruct (proj1 Hdir Hg) as [[c h] ->]. done.
      * by left.
      * rewrite ru_direct, rie_entries. rewrite decide_True; [done|]. by rewrite Hidx.
      * rewrite ru_direct, rie_modified. right. by rewrite Hidx.
    + exists i, clean. apply Hsame; cbn [c_step]; rewrite ru_direct, Hidx.
      * rewrite rie_entries. rewrite decide_False; [done|]. intros [-> ?]. tauto.
      * rewrite rie_modified. split; [|by left]. intros [?|[-> ?]]; [done|]. tauto.
Qed.

Lemma user_partial n s u i clean x :
  base_inv s -> user_inv n s u i clean -> exists i' clean', user_inv n (un_step s (UPartial x)) u i' clean'.
Proof.
  intros [Hd Hs] Hinv. cbn [un_step].
  set (out := (c_get_partial_user_sync (un_conns s x)).2).
  assert (Hout : forall m, In m (option_list out) -> m = (vm_diff (direct (un_conns s x))).1).
  { intros m. subst out. destruct (c_get_partial_user_sync (un_conns s x)).2 as [d|] eqn:He; [|done].
    intros [<-|[]]. by apply partial_out. }
  assert (Hlink : forall k j, upd (un_link s) x (fun j => if decide (j = x) then un_link s x j else un_link s x j ++ option_list out) k j =
     if decide (k = x /\ j <> x) then un_link s x j ++ option_list out else un_link s k j).
  { intros k j. destruct (decide (k = x)) as [->|Hk].
    - rewrite upd_eq'. destruct (decide (j = x)) as [->|Hj].
      + by rewrite decide_False by tauto.
      + by rewrite decide_True by tauto.
    - rewrite upd_ne' by done. by rewrite decide_False by tauto. }
  destruct (decide (u ∈ M s x)) as [Hm|Hm].
  - (* [x] announces [u] *)
    assert (x = i) as ->.
    { destruct (decide (x = i)); [done|]. exfalso. by apply (ui_mod _ _ _ _ _ Hinv x). }
    destruct Hinv as [H1 H2 H3 H4 H5 H6]. destruct (H5 Hm) as (Hb & v & He & Hv).
    set (e := VVal (nextv clean) v) in *.
    exists i, (taken e). split; cbn [un_conns un_link].
    + intros k Hk. rewrite upd_ne' by done. by apply H1.
    + intros k j m Hk. rewrite Hlink. rewrite decide_False by tauto. by apply H2.
    + intros j Hj. rewrite upd_ne' by done. rewrite Hlink. rewrite decide_True by done.
      apply chain_app. exists clean. split; [by apply H3|].
      destruct (partial_in_out _ _ _ Hm He) as (d & Hd1 & Hd2).
      subst out. rewrite Hd1. cbn [option_list option_rect chain]. rewrite Hd2.
      apply partial_out in Hd1 as ->. split_and!.
      * rewrite diff_delta_cid. destruct (Hd i) as ([-> _] & -> & _). done.
      * done.
      * done.
      * done.
    + intros _. rewrite upd_eq', partial_direct, diff_rest_lookup, decide_True, He by done.
      subst e. unfold taken. cbn. by destruct v.
    + rewrite upd_eq', partial_direct, diff_rest_modified. set_solver.
    + intros c. subst e. unfold taken. cbn. destruct v; [|done]. intros [= <-]. cbn. done.
  - exists i, clean. revert Hinv. apply user_frame; cbn [un_conns un_link].
    + intros j. destruct (decide (j = x)) as [->|Hne]; [|by rewrite upd_ne'].
      rewrite upd_eq', partial_direct, diff_rest_lookup. by rewrite decide_False.
    + intros j. destruct (decide (j = x)) as [->|Hne]; [|by rewrite upd_ne'].
      rewrite upd_eq', partial_direct, diff_rest_modified. set_solver.
    + intros k j m Hk. rewrite Hlink. case_decide as Hc; [|by left]. destruct Hc as [-> _].
      rewrite in_app_iff. intros [?|Hin]; [by left|right]. apply Hout in Hin as ->.
      rewrite diff_delta_lookup. by rewrite decide_False.
    + intros j acc cl Hj. rewrite Hlink. case_decide as Hc; [|done]. destruct Hc as [-> _].
      intros Hch. apply chain_app. exists cl. split; [done|].
      apply chain_silent; [|done]. intros m Hin. apply Hout in Hin as ->.
      rewrite diff_delta_lookup. by rewrite decide_False.
Qed.

Lemma user_deliver n s u i clean x y :
  base_inv s -> user_inv n s u i clean -> exists i' clean', user_inv n (un_step s (UDeliver x y 0)) u i' clean'.
Proof.
  intros [Hd Hs] Hinv. exists i, clean. cbn [un_step].
  destruct (un_link s x y !! 0) as [m|] eqn:Hk; [|done].
  assert (Hxy : x <> y). { intros ->. by rewrite Hs in Hk. }
  destruct (un_link s x y) as [|m' q] eqn:Hq; [done|]. cbn in Hk. injection Hk as ->. change (delete 0 (m :: q)) with q.
  destruct (Hd y) as (Hdir & Hidy & Hwf).
  assert (Hlink : forall k j, upd2 (un_link s) x y q k j = if decide (k = x /\ j = y) then q else un_link s k j).
  { intros k j. unfold upd2. destruct (decide (k = x)) as [->|Hne].
    - rewrite upd_eq'. destruct (decide (j = y)) as [->|Hj].
      + rewrite upd_eq'. by rewrite decide_True.
      + rewrite upd_ne' by done. by rewrite decide_False by tauto.
    - rewrite upd_ne' by done. by rewrite decide_False by tauto. }
  destruct (entries m !! u) as [e|] eqn:He.
  - (* a message about [u] *)
    assert (x = i) as ->.
    { destruct (decide (x = i)); [done|]. exfalso.
      assert (Hnone : entries m !! u = None); [|congruence].
      eapply (ui_msg _ _ _ _ _ Hinv x y); [done|]. rewrite Hq. by left. }
    destruct Hinv as [H1 H2 H3 H4 H5 H6].
    pose proof (H3 y (not_eq_sym Hxy)) as Hch. rewrite Hq in Hch. cbn [chain] in Hch. rewrite He in Hch.
    destruct Hch as (Hcid & Hve & Hver & Hch).
    destruct (apply_user_sync_dent (un_conns s y) m u) as (A1 & A2 & _).
    { intros rv Hrv. rewrite He in Hrv. injection Hrv as <-. rewrite Hidy.
      destruct Hve as [-> | -> ]; [done|]. intros [= Hbad]. apply Hxy. by apply Hinj. }
    assert (A1' : dent (c_apply_user_sync (un_conns s y) m) u = taken e).
    { rewrite A1, He. unfold lww. destruct (decide _) as [Hw|Hw]; [done|].
      destruct (E s y u) as [c|] eqn:HEy.
      - exfalso. apply Hw. cbn in Hver |- *. left. lia.
      - cbn in Hw. unfold taken. destruct (val e); [|done]. exfalso. by apply Hw. }
    split; cbn [un_conns un_link c_step].
    + intros k Hk. destruct (decide (k = y)) as [->|Hne]; [|rewrite upd_ne' by done; by apply H1].
      rewrite upd_eq'. intros Hm. by apply (H1 y Hk), A2.
    + intros k j m' Hk. rewrite Hlink. rewrite decide_False by (intros [-> _]; done). by apply H2.
    + intros j Hj. rewrite Hlink. destruct (decide (j = y)) as [->|Hne].
      * rewrite upd_eq', decide_True by done. by rewrite A1'.
      * rewrite upd_ne' by done. rewrite decide_False by tauto. by apply H3.
    + rewrite upd_ne' by done. done.
    + rewrite upd_ne' by done. done.
    + done.
  - (* a message silent about [u] *)
    destruct (apply_user_sync_dent (un_conns s y) m u) as (A1 & A2 & A3); [congruence|].
    rewrite He in A1. cbn [lww] in A1.
    revert Hinv. apply user_frame; cbn [un_conns un_link c_step].
    + intros j. destruct (decide (j = y)) as [->|Hne]; [by rewrite upd_eq'|by rewrite upd_ne'].
    + intros j. destruct (decide (j = y)) as [->|Hne]; [rewrite upd_eq'|by rewrite upd_ne'].
      split; [done|]. by apply A3.
    + intros k j m' Hk. rewrite Hlink. case_decide as Hc; [|by left]. destruct Hc as [-> ->].
      intros Hin. left. rewrite Hq. by right.
    + intros j acc cl Hj. rewrite Hlink. case_decide as Hc; [|done]. destruct Hc as [-> ->].
      rewrite Hq. cbn [chain]. by rewrite He.
Qed.

Lemma un_run_snoc' (f : I -> conns) os o : un_run f (os ++ [o]) = un_step (un_run f os) o.
Proof. unfold un_run. by rewrite fold_left_app. Qed.

Lemma seq_run (i0 : I) os u :
  Forall fifo_event os -> one_writer_at_a_time (fun i => c_new (ident i)) os ->
  (N.of_nat (length os) < u64_modulus)%N ->
  base_inv (un_run (fun i => c_new (ident i)) os)
  /\ exists i clean, user_inv (N.of_nat (length os)) (un_run (fun i => c_new (ident i)) os) u i clean.
Proof.
  induction os as [|o os IH] using rev_ind; intros Hall Hone Hn.
  - cbn. split.
    + split; cbn.
      * intros x. split_and!; [exact (run_dir (ident x) [])|done|]. intros u'. cbn. set_solver.
      * intros x. by rewrite decide_True.
    + exists i0, None. split; cbn; try done.
      * intros k j m _. by case_decide.
      * intros j Hj. by case_decide.
  - rewrite app_length in *. cbn [length] in *. apply Forall_app in Hall as [Hall Ho]. apply Forall_inv in Ho.
    destruct IH as (Hb & i & clean & Hu); [done| |lia|].
    { intros o1 o' o2 u' i' -> Hw. eapply (Hone o1 o' (o2 ++ [o])); [|done]. by rewrite <- app_assoc. }
    rewrite un_run_snoc'. split; [by apply base_step|].
    replace (N.of_nat (length os + 1)) with (N.of_nat (length os) + 1)%N in * by lia.
    assert (Hup : (exists i' c', user_inv (N.of_nat (length os)) (un_step (un_run (fun i => c_new (ident i)) os) o) u i' c') ->
       exists i' c', user_inv (N.of_nat (length os) + 1) (un_step (un_run (fun i => c_new (ident i)) os) o) u i' c').
    { intros (i' & c' & Hi). exists i', c'. eapply user_mono; [|done]. lia. }
    destruct o as [x o|x|x y|x y k|x y k]; try done.
    + eapply user_local; [lia|done|done| |done].
      intros i' Hw. eapply (Hone os _ []); [done|done].
    + apply Hup. by eapply user_partial.
    + cbn in Ho. subst k. apply Hup. by eapply user_deliver.
Qed.

(** C20, sequential regime. *)
Lemma seq_agree os u i j :
  Forall fifo_event os -> one_writer_at_a_time (fun i => c_new (ident i)) os ->
  (N.of_nat (length os) < u64_modulus)%N ->
  let s := un_run (fun i => c_new (ident i)) os in
  settled s u ->
  c_get_broker_identifier_of_user (un_conns s i) u = c_get_broker_identifier_of_user (un_conns s j) u.
Proof.
  intros Hall Hone Hn s [Hs1 Hs2].
  destruct (seq_run i os u Hall Hone Hn) as (Hb & w & clean & [H1 H2 H3 H4 H5 H6]). fold s in Hb, H1, H2, H3, H4, H5.
  assert (Heq : forall k, E s k u = clean).
  { intros k. destruct (decide (k = w)) as [->|Hk].
    - apply H4. intros Hm. destruct Hb as [Hd _]. destruct (Hd w) as (_ & _ & Hwf). destruct (Hwf u Hm) as [e He].
      destruct (partial_in_out _ _ _ Hm He) as (d & Hd1 & Hd2). specialize (Hs1 w d Hd1). congruence.
    - specialize (H3 k Hk). apply chain_silent in H3; [done|]. intros m. apply Hs2. }
  unfold c_get_broker_identifier_of_user, vm_get. by rewrite !Heq.
Qed.

(** ... and nobody is connected twice; the directory is right about where. *)
Lemma seq_connected os u i c :
  Forall fifo_event os -> one_writer_at_a_time (fun i => c_new (ident i)) os ->
  (N.of_nat (length os) < u64_modulus)%N ->
  let s := un_run (fun i => c_new (ident i)) os in
  settled s u ->
  c_get_user_connection (un_conns s i) u = Some c ->
  forall j, c_get_broker_identifier_of_user (un_conns s j) u = Some (ident i)
            /\ (j <> i -> c_get_user_connection (un_conns s j) u = None).
Proof.
  intros Hall Hone Hn s Hset Hc j.
  destruct (seq_run i os u Hall Hone Hn) as ([Hd _] & _). fold s in Hd.
  assert (Hi : c_get_broker_identifier_of_user (un_conns s i) u = Some (ident i)).
  { destruct (Hd i) as ([_ Hdir] & Hid & _). specialize (Hdir u). rewrite Hid in Hdir. apply Hdir.
    unfold c_get_user_connection in Hc. destruct (users (un_conns s i) !! u); [eauto|done]. }
  assert (Hj : c_get_broker_identifier_of_user (un_conns s j) u = Some (ident i)).
  { rewrite <- Hi. by apply seq_agree. }
  split; [done|]. intros Hne. unfold c_get_user_connection.
  destruct (users (un_conns s j) !! u) as [[c' h]|] eqn:Hu; [|done].
  destruct (Hd j) as ([_ Hdir] & Hid & _). specialize (Hdir u). rewrite Hid in Hdir.
  pose proof (proj2 Hdir (ex_intro _ _ Hu)) as Hg. unfold c_get_broker_identifier_of_user in Hj.
  rewrite Hg in Hj. injection Hj as Hbad. exfalso. apply Hne. by apply Hinj.
Qed.
End seq.
