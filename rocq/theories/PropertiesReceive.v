(** Property theorems: what an application that receives in a loop sees of lost connections. *)
From stdpp Require Import gmap fin_maps list.
From Coq Require Import NArith ZArith Lia.
From Verif Require Import ClientModel ReceiveSpec.

Definition balance (l : list cout) : Z := (Z.of_nat (errors l) - 2 * Z.of_nat (connections l))%Z.
Lemma errors_app l l' : errors (l ++ l') = (errors l + errors l')%nat.
Proof. unfold errors. by rewrite List.filter_app, app_length. Qed.
Lemma connections_app l l' : connections (l ++ l') = (connections l + connections l')%nat.
Proof. unfold connections. by rewrite List.filter_app, app_length. Qed.
Lemma balance_app l l' : balance (l ++ l') = (balance l + balance l')%Z.
Proof. unfold balance. rewrite errors_app, connections_app. lia. Qed.

Lemma balance_nil z : (z + balance [])%Z = z.
Proof. change (balance []) with 0%Z. lia. Qed.

Definition tasks_are (m : gmap N qc) (x : option (N * qc)) : Prop :=
  forall r, m !! r = match x with Some (r0, q) => if decide (r = r0) then Some q else None | None => None end.
Definition no_thread (p : option pc) : Prop := p = None \/ p = Some (PGet KRecv).

Inductive phase (t : N) (k : client) : Z -> Prop :=
  | PhA c : k_slot k = Some c -> k_permit k = true -> k_wl k = None -> k_rd k = ∅ -> tasks_are (k_tasks k) None ->
      (no_thread (k_thr k !! t) \/ exists c, k_thr k !! t = Some (PUse KRecv c) \/ k_thr k !! t = Some (PFail KRecv c) \/ k_thr k !! t = Some (PTake KRecv c)) -> phase t k (-1)
  | PhB : k_slot k = None -> k_permit k = true -> k_wl k = None -> k_rd k = ∅ -> tasks_are (k_tasks k) None -> no_thread (k_thr k !! t) -> phase t k 0
  | PhC r : k_slot k = None -> k_permit k = false -> k_wl k = None -> k_rd k = {[t]} -> tasks_are (k_tasks k) (Some (r, QLock)) ->
      k_thr k !! t = Some (PStore KRecv r) -> k_handle k <> Some r -> (r < k_nextr k)%N -> phase t k 0
  | PhD r : k_slot k = None -> k_permit k = false -> k_wl k = None -> k_rd k = ∅ -> tasks_are (k_tasks k) (Some (r, QLock)) -> k_thr k !! t = None -> phase t k 1
  | PhE r q : k_slot k = None -> k_permit k = false -> k_wl k = Some r -> k_rd k = ∅ -> tasks_are (k_tasks k) (Some (r, q)) ->
      q = QTop \/ q = QNet \/ q = QSleep \/ (exists l, q = QAuth l) -> no_thread (k_thr k !! t) -> phase t k 1
  | PhF c r : k_slot k = Some c -> k_permit k = false -> k_wl k = Some r -> k_rd k = ∅ -> tasks_are (k_tasks k) (Some (r, QGot)) -> no_thread (k_thr k !! t) -> phase t k (-1)
  | PhG c r : k_slot k = Some c -> k_permit k = true -> k_wl k = Some r -> k_rd k = ∅ -> tasks_are (k_tasks k) (Some (r, QRel)) -> no_thread (k_thr k !! t) -> phase t k (-1).
Record inv (t : N) (k : client) (z : Z) : Prop := Inv {
  i_open : k_closed k = false; i_sub : k_subl k = None;
  i_thr : forall t', t' <> t -> k_thr k !! t' = None;
  i_abort : forall x, x ∈ k_abort k -> (x < k_nextr k)%N /\ k_tasks k !! x = None;
  i_handle : forall h, k_handle k = Some h -> (h < k_nextr k)%N;
  i_phase : phase t k z }.

Lemma tasks_alter m r q q' : tasks_are m (Some (r, q)) -> tasks_are (partial_alter (fun _ => q') r m) (match q' with Some x => Some (r, x) | None => None end).
Proof.
  intros H x. specialize (H x). destruct (decide (x = r)) as [->|Hn].
  - rewrite lookup_partial_alter. destruct q'; [by rewrite decide_True|done].
  - rewrite lookup_partial_alter_ne by done. rewrite H, decide_False by done. destruct q'; [by rewrite decide_False|done].
Qed.
Lemma tasks_none m r q : tasks_are m None -> tasks_are (<[r := q]> m) (Some (r, q)).
Proof. intros H x. destruct (decide (x = r)) as [->|Hn]; [by rewrite lookup_insert|]. by rewrite lookup_insert_ne by done. Qed.
Lemma alter_none (m : gmap N pc) t p : (forall t', t' <> t -> m !! t' = None) -> forall t', t' <> t -> partial_alter (fun _ => p) t m !! t' = None.
Proof. intros H t' Hn. rewrite lookup_partial_alter_ne by done. by apply H. Qed.
Lemma alter_abort (m : gmap N qc) (s : gset N) n r q q' : tasks_are m (Some (r, q)) ->
  (forall x, x ∈ s -> (x < n)%N /\ m !! x = None) -> forall x, x ∈ s -> (x < n)%N /\ partial_alter (fun _ => q') r m !! x = None.
Proof. intros Hm H x Hx. destruct (H x Hx) as [Hl Hn]. split; [done|]. rewrite lookup_partial_alter_ne; [done|]. intros <-. rewrite (Hm r), decide_True in Hn by done. done. Qed.

Local Ltac fin := cbn [k_slot k_wl k_rd k_permit k_closed k_handle k_subs k_subl k_subr k_thr k_tasks k_abort k_nextc k_nextr k_sent].

(** Only the thread has moved. *)
Lemma inv_thr t k z z' p : inv t k z -> phase t (w_thr k t p) z' -> inv t (w_thr k t p) z'.
Proof. intros [H1 H2 H3 H4 H5 _] H. split; [done|done| |done|done|done]. unfold w_thr. fin. by apply alter_none. Qed.

Lemma unlock_none k t : k_subl k = None -> unlock k t = k.
Proof. intros H. unfold unlock. rewrite decide_False; [done|]. congruence. Qed.
Lemma inv_step t k e z : inv t k z -> orderly t k e -> inv t (kstep k e).1 (z + balance (kstep k e).2).
Proof.
  intros Hi Ho. pose proof Hi as [Hcl Hsb Hth Hab Hha Hph].
  assert (Hsame : inv t k (z + balance [])%Z).
  { rewrite balance_nil. exact Hi. }
  destruct e as [t' o|t' b|t'|r b|r]; cbn [kstep].
  - (* a call *)
    destruct Ho as (-> & -> & Hq). destruct (k_thr k !! t) as [p|] eqn:Et; [exact Hsame|]. cbn [fst snd start_pc].
    change (balance [OStart t KRecv]) with (balance []). rewrite balance_nil. apply (inv_thr t k z); [exact Hi|].
    assert (Hn : no_thread (k_thr (w_thr k t (Some (PGet KRecv))) !! t)) by (right; unfold w_thr; fin; by rewrite lookup_partial_alter).
    destruct Hph; [eapply PhA|eapply PhB|congruence| |eapply PhE|eapply PhF|eapply PhG]; try done; [by left|].
    exfalso. apply (Hq r). rewrite (H3 r). by rewrite decide_True.
  - (* the thread *)
    destruct (k_thr k !! t') as [p|] eqn:Et; [|exact Hsame]. destruct (decide (t' = t)) as [->|Hn]; [|rewrite (Hth t' Hn) in Et; discriminate].
    cbn [orderly] in Ho. destruct Hph as [c Hs Hp Hw Hr Ht Hp'|Hs Hp Hw Hr Ht Hp'|r Hs Hp Hw Hr Ht Hp' Hh Hl|r Hs Hp Hw Hr Ht Hp'|r q Hs Hp Hw Hr Ht Hq Hp'|c r Hs Hp Hw Hr Ht Hp'|c r Hs Hp Hw Hr Ht Hp'].
    + destruct Hp' as [[E|E]|(c' & [E|[E|E]])]; rewrite E in Et; try discriminate; injection Et as <-; cbn [tstep].
      * unfold get. rewrite Hw. unfold reconnect_if_needed. rewrite Hs. cbn [fst snd]. replace (-1 + balance [])%Z with (-1)%Z by done. apply (inv_thr t k (-1)); [exact Hi|].
        eapply PhA; try done. right. exists c. left. unfold w_thr. fin. by rewrite lookup_partial_alter.
      * destruct b.
        -- cbn [used ret fst snd]. rewrite unlock_none by done. cbn [fst snd]. replace (-1 + balance _)%Z with (-1)%Z by done. apply (inv_thr t k (-1)); [exact Hi|].
           eapply PhA; try done. left. left. unfold w_thr. fin. by rewrite lookup_partial_alter.
        -- cbn [fst snd]. replace (-1 + balance _)%Z with (-1)%Z by done. apply (inv_thr t k (-1)); [exact Hi|].
           eapply PhA; try done. right. exists c'. right. left. unfold w_thr. fin. by rewrite lookup_partial_alter.
      * destruct Ho as [->|Ho]; [|by destruct (Ho c')]. rewrite Hp. cbn [andb fst snd]. replace (-1 + balance _)%Z with (-1)%Z by done. apply (inv_thr t k (-1)); [exact Hi|].
        eapply PhA; try done. right. exists c'. right. right. unfold w_thr. fin. by rewrite lookup_partial_alter.
      * unfold no_readers. rewrite bool_decide_true by done. cbn [ret fst snd]. rewrite unlock_none by done. replace (-1 + balance _)%Z with 0%Z by done.
        split; [done|done| |done|done|]; [unfold w_thr, w_slot; fin; by apply alter_none|].
        apply PhB; try done. left. unfold w_thr, w_slot. fin. by rewrite lookup_partial_alter.
    + destruct Hp' as [E|E]; rewrite E in Et; [discriminate|]. injection Et as <-. cbn [tstep]. unfold get. rewrite Hw. unfold reconnect_if_needed. rewrite Hs, Hcl, Hp. cbn [fst snd].
      replace (0 + balance [])%Z with 0%Z by done. unfold w_rd, w_permit. split; fin; [done|done| | | |].
      * intros t' Hn. rewrite lookup_insert_ne by done. by apply Hth.
      * intros x Hx. destruct (Hab x Hx) as [Hlt Hnone]. split; [lia|]. rewrite lookup_insert_ne by lia. done.
      * intros h Hh. specialize (Hha h Hh). lia.
      * apply (PhC t _ (k_nextr k)); fin; try done.
        -- rewrite Hr. set_solver.
        -- by apply tasks_none.
        -- by rewrite lookup_insert.
        -- intros E'. specialize (Hha _ E'). lia.
        -- lia.
    + rewrite Hp' in Et. injection Et as <-. cbn [tstep no_conn ret fst snd]. rewrite unlock_none by done. replace (0 + balance _)%Z with 1%Z by done.
      unfold w_rd, w_handle, w_thr. split; fin; [done|done|by apply alter_none| | |].
      * intros x Hx. destruct (k_handle k) as [h|] eqn:Eh; [|by apply Hab]. apply elem_of_union in Hx as [Hx%elem_of_singleton|Hx]; [|by apply Hab].
        subst x. split; [by apply Hha|]. rewrite (Ht h). rewrite decide_False; [done|]. intros ->. done.
      * intros h [= <-]. done.
      * apply (PhD t _ r); fin; try done; [rewrite Hr; set_solver|by rewrite lookup_partial_alter].
    + congruence.
    + destruct Hp' as [E|E]; rewrite E in Et; [discriminate|]. injection Et as <-. cbn [tstep]. unfold get. rewrite Hw. exact Hsame.
    + destruct Hp' as [E|E]; rewrite E in Et; [discriminate|]. injection Et as <-. cbn [tstep]. unfold get. rewrite Hw. exact Hsame.
    + destruct Hp' as [E|E]; rewrite E in Et; [discriminate|]. injection Et as <-. cbn [tstep]. unfold get. rewrite Hw. exact Hsame.
  - (* a call is dropped *)
    destruct (k_thr k !! t') as [p|] eqn:Et; [|exact Hsame]. destruct (decide (t' = t)) as [->|Hn]; [|rewrite (Hth t' Hn) in Et; discriminate].
    cbn [orderly] in Ho. cbn [fst snd]. rewrite balance_nil.
    assert (Hn : no_thread (k_thr (w_thr k t None) !! t)) by (left; unfold w_thr; fin; by rewrite lookup_partial_alter).
    assert (Hd : (p = PGet KRecv \/ exists c, p = PUse KRecv c) -> inv t (tdrop k t p) z).
    { intros Hp. assert (tdrop k t p = w_thr k t None) as -> by (destruct Hp as [->|(c & ->)]; cbn [tdrop]; by rewrite unlock_none).
      apply (inv_thr t k z); [exact Hi|]. destruct Hph; [eapply PhA|eapply PhB| | |eapply PhE|eapply PhF|eapply PhG]; try done; [by left| |congruence].
      exfalso. rewrite Et in H4. injection H4 as ->. destruct Hp as [?|(c & ?)]; discriminate. }
    assert (Hk : tdrop k t p = k -> inv t (tdrop k t p) z) by (intros ->; exact Hi).
    destruct Hph as [c ? ? ? ? ? Hp'|? ? ? ? ? Hp'|r ? ? ? ? ? Hp'|r ? ? ? ? ? Hp'|r q ? ? ? ? ? ? Hp'|c r ? ? ? ? ? Hp'|c r ? ? ? ? ? Hp'].
    + destruct Hp' as [[E|E]|(c' & [E|[E|E]])]; rewrite E in Et; try discriminate; injection Et as <-; [apply Hd; by left|apply Hd; right; by exists c'|by apply Hk|].
      by destruct (Ho c').
    + destruct Hp' as [E|E]; rewrite E in Et; [discriminate|]. injection Et as <-. apply Hd. by left.
    + rewrite Hp' in Et. injection Et as <-. by apply Hk.
    + congruence.
    + destruct Hp' as [E|E]; rewrite E in Et; [discriminate|]. injection Et as <-. apply Hd. by left.
    + destruct Hp' as [E|E]; rewrite E in Et; [discriminate|]. injection Et as <-. apply Hd. by left.
    + destruct Hp' as [E|E]; rewrite E in Et; [discriminate|]. injection Et as <-. apply Hd. by left.
  - (* the reconnection task *)
    destruct (k_tasks k !! r) as [q|] eqn:Eq; [|exact Hsame].
    assert (K : forall r0 q0, tasks_are (k_tasks k) (Some (r0, q0)) -> r = r0 /\ q = q0).
    { intros r0 q0 Ht. rewrite (Ht r) in Eq. destruct (decide (r = r0)); [|discriminate]. by injection Eq as ->. }
    destruct Hph as [c ? ? ? ? Ht|? ? ? ? Ht|r0 Hs Hp Hw Hr Ht Hp' Hh Hl|r0 Hs Hp Hw Hr Ht Hp'|r0 q0 Hs Hp Hw Hr Ht Hq Hp'|c r0 Hs Hp Hw Hr Ht Hp'|c r0 Hs Hp Hw Hr Ht Hp'].
    + rewrite (Ht r) in Eq. discriminate.
    + rewrite (Ht r) in Eq. discriminate.
    + destruct (K _ _ Ht) as [-> ->]. cbn [qstep]. unfold no_readers. rewrite bool_decide_false; [exact Hsame|]. intros [_ Hx]. rewrite Hr in Hx. set_solver.
    + destruct (K _ _ Ht) as [-> ->]. cbn [qstep]. unfold no_readers. rewrite bool_decide_true by done. cbn [fst snd]. replace (1 + balance [])%Z with 1%Z by done.
      unfold w_wl, w_task. split; fin; [done|done|done|by eapply alter_abort|done|]. apply (PhE t _ r0 QTop); fin; try done; [by apply (tasks_alter _ _ QLock (Some QTop))|by left|by left].
    + destruct (K _ _ Ht) as [-> ->].
      assert (G : forall q1 s, (q1 = QTop \/ q1 = QNet \/ q1 = QSleep \/ (exists l, q1 = QAuth l)) -> inv t (w_subr (w_task k r0 (Some q1)) s) 1 /\ inv t (w_task k r0 (Some q1)) 1).
      { intros q1 s H1. unfold w_subr, w_task. split; (split; fin; [done|done|done|by eapply alter_abort|done|]); apply (PhE t _ r0 q1); fin; try done; by apply (tasks_alter _ _ q0 (Some q1)). }
      assert (B0 : forall l, balance l = 0%Z -> (1 + balance l)%Z = 1%Z) by (intros l ->; done).
      destruct Hq as [->|[->|[->|(l & ->)]]]; cbn [qstep].
      * rewrite Hcl. cbn [fst snd]. rewrite B0 by done. apply (G QNet false). tauto.
      * destruct b; cbn [fst snd].
        -- rewrite decide_True by done. cbn [fst snd]. rewrite B0 by done. apply G. right. right. right. by eexists.
        -- rewrite B0 by done. apply (G QSleep false). tauto.
      * cbn [fst snd]. rewrite B0 by done. apply (G QTop false). tauto.
      * destruct b; cbn [fst snd].
        -- replace (1 + balance _)%Z with (-1)%Z by done. unfold w_subr, w_task. split; fin; [done|done|done|by eapply alter_abort|done|].
           apply (PhF t _ (k_nextc k) r0); fin; try done. by apply (tasks_alter _ _ (QAuth l) (Some QGot)).
        -- rewrite B0 by done. apply G. tauto.
    + destruct (K _ _ Ht) as [-> ->]. cbn [qstep fst snd]. replace (-1 + balance [])%Z with (-1)%Z by done. unfold w_permit, w_task. split; fin; [done|done|done|by eapply alter_abort|done|].
      apply (PhG t _ c r0); fin; try done. by apply (tasks_alter _ _ QGot (Some QRel)).
    + destruct (K _ _ Ht) as [-> ->]. cbn [qstep fst snd]. replace (-1 + balance [])%Z with (-1)%Z by done. unfold w_wl, w_task. split; fin; [done|done|done|by eapply alter_abort|done|].
      apply (PhA t _ c); fin; try done; [by apply (tasks_alter _ _ QRel None)|by left].
  - (* an abort *)
    destruct (k_tasks k !! r) as [q|] eqn:Eq; [|exact Hsame]. destruct (decide (r ∈ k_abort k)) as [Hx|]; [|exact Hsame].
    destruct (Hab r Hx) as [_ Hy]. congruence.
Qed.

Lemma inv_go t es : forall k z, inv t k z -> orderly_run t k es -> inv t (kgo k es).1 (z + balance (kgo k es).2).
Proof.
  induction es as [|e es IH]; intros k z Hi Ho; cbn [kgo].
  - cbn [fst snd]. rewrite balance_nil. exact Hi.
  - destruct Ho as [He Ho]. apply (inv_step t k e z Hi) in He. destruct (kstep k e) as [k' o]. cbn [fst snd] in *.
    specialize (IH k' _ He Ho). destruct (kgo k' es) as [k'' o']. cbn [fst snd] in *. rewrite balance_app, Z.add_assoc. exact IH.
Qed.
Lemma inv_new t topics : inv t (k_new topics) 0.
Proof. split; [done|done|by intros; apply lookup_empty|by intros x Hx; apply elem_of_empty in Hx|done|]. apply PhB; try done. left. apply lookup_empty. Qed.

(** * C101: what lost connections cost an application that receives in a loop *)
(** To get the first connection costs one error, every lost connection costs two: one call notices, the
    next one starts the reconnection; the call after it waits, however long reconnecting takes and
    however often it fails. At any moment, whatever else happens: *)
Theorem C101_two_errors_per_loss : forall topics t es,
  orderly_run t (k_new topics) es ->
  let out := (krun topics es).2 in
  (errors out <= 2 * connections out + 1)%nat /\ (2 * connections out <= errors out + 1)%nat.
Proof.
  intros topics t es Ho out. pose proof (inv_go t es (k_new topics) 0 (inv_new t topics) Ho) as [_ _ _ _ _ Hp]. fold (krun topics es) in Hp. fold out in Hp.
  assert (Hb : (-1 <= 0 + balance out <= 1)%Z) by (destruct Hp; lia). unfold balance in Hb. lia.
Qed.
Print Assumptions C101_two_errors_per_loss.

(** A call that waits for the reconnection does not fail: if more calls have failed than twice the
    connections there were, no call fails before the next connection. *)
Theorem C101_waits_for_reconnection : forall topics t es es',
  orderly_run t (k_new topics) (es ++ es') ->
  errors (krun topics es).2 = (2 * connections (krun topics es).2 + 1)%nat ->
  (errors (krun topics (es ++ es')).2 > errors (krun topics es).2)%nat ->
  (connections (krun topics (es ++ es')).2 > connections (krun topics es).2)%nat.
Proof. intros topics t es es' Ho He Hm. destruct (C101_two_errors_per_loss topics t (es ++ es') Ho) as [H _]. lia. Qed.
Print Assumptions C101_waits_for_reconnection.

(** From every situation the application can go on so that a call succeeds. *)
Definition good (t : N) (k : client) : Prop := exists es, orderly_run t k es /\ ORet t KRecv true ∈ (kgo k es).2.
Lemma good_step t k e z : inv t k z -> orderly t k e -> (inv t (kstep k e).1 (z + balance (kstep k e).2) -> good t (kstep k e).1) -> good t k.
Proof.
  intros Hi Ho H. destruct (H (inv_step t k e z Hi Ho)) as (es & Hr & Hin). exists (e :: es). split; [by split|].
  cbn [kgo]. destruct (kstep k e) as [k' o]. cbn [fst] in *. destruct (kgo k' es) as [k'' o']. cbn [snd] in *. apply elem_of_app. by right.
Qed.
Lemma good_use t k z c : inv t k z -> k_thr k !! t = Some (PUse KRecv c) -> good t k.
Proof.
  intros [_ Hsb _ _ _ _] E. exists [EStep t true]. split; [split; [by left|exact I]|]. cbn [kgo kstep]. rewrite E. cbn [tstep used ret fst snd]. cbn [app]. set_solver.
Qed.
Lemma good_get t k z c : inv t k z -> k_slot k = Some c -> k_wl k = None -> k_thr k !! t = Some (PGet KRecv) -> good t k.
Proof.
  intros Hi Hs Hw E. apply (good_step t k (EStep t true) z Hi); [by left|]. intros Hi'. eapply good_use; [exact Hi'|]. cbn [kstep]. rewrite E. cbn [tstep]. unfold get. rewrite Hw.
  unfold reconnect_if_needed. rewrite Hs. cbn [fst]. unfold w_thr. fin. by rewrite lookup_partial_alter.
Qed.
Lemma good_call t k z c : inv t k z -> k_slot k = Some c -> k_wl k = None -> k_permit k = true -> no_thread (k_thr k !! t) -> good t k.
Proof.
  intros Hi Hs Hw Hp [E|E]; [|by eapply good_get]. apply (good_step t k (EStart t KRecv) z Hi).
  - split; [done|]. split; [done|]. intros r Hr. destruct Hi as [_ _ _ _ _ Hph]. destruct Hph as [? ? ? ? ? Ht|? ? ? ? Ht| | | | | ]; try congruence; rewrite (Ht r) in Hr; discriminate.
  - intros Hi'. eapply good_get; [exact Hi'| | |]; cbn [kstep]; rewrite E; cbn [fst start_pc]; unfold w_thr; fin; [exact Hs|exact Hw|]. by rewrite lookup_partial_alter.
Qed.
Lemma thread_task k r q b : k_tasks k !! r = Some q -> k_thr (kstep k (ETask r b)).1 = k_thr k.
Proof. intros E. cbn [kstep]. rewrite E. destruct q; cbn [qstep]; repeat case_match; done. Qed.
Lemma good_rel t k z r c : inv t k z -> k_slot k = Some c -> k_permit k = true -> k_tasks k !! r = Some QRel -> no_thread (k_thr k !! t) -> good t k.
Proof.
  intros Hi Hs Hp E Hn. apply (good_step t k (ETask r true) z Hi); [done|]. intros Hi'. apply (good_call t _ _ c Hi'); [| | |by rewrite (thread_task k r QRel)]; cbn [kstep]; rewrite E; done.
Qed.
Lemma good_got t k z r c : inv t k z -> k_slot k = Some c -> k_tasks k !! r = Some QGot -> no_thread (k_thr k !! t) -> good t k.
Proof.
  intros Hi Hs E Hn. apply (good_step t k (ETask r true) z Hi); [done|]. intros Hi'. apply (good_rel t _ _ r c Hi'); [| | |by rewrite (thread_task k r QGot)]; cbn [kstep]; rewrite E; [done|done|].
  cbn [qstep fst]. unfold w_permit, w_task. fin. by rewrite lookup_partial_alter.
Qed.
Lemma good_auth t k z r l : inv t k z -> k_tasks k !! r = Some (QAuth l) -> no_thread (k_thr k !! t) -> good t k.
Proof.
  intros Hi E Hn. apply (good_step t k (ETask r true) z Hi); [done|]. intros Hi'. apply (good_got t _ _ r (k_nextc k) Hi'); [| |by rewrite (thread_task k r (QAuth l))]; cbn [kstep]; rewrite E; [done|].
  cbn [qstep fst]. unfold w_subr, w_task. fin. by rewrite lookup_partial_alter.
Qed.
Lemma good_net t k z r : inv t k z -> k_tasks k !! r = Some QNet -> no_thread (k_thr k !! t) -> good t k.
Proof.
  intros Hi E Hn. apply (good_step t k (ETask r true) z Hi); [done|]. intros Hi'. apply (good_auth t _ _ r (elements (k_subs k)) Hi'); [|by rewrite (thread_task k r QNet)]. cbn [kstep]. rewrite E.
  cbn [qstep]. rewrite decide_True by apply Hi. cbn [fst]. unfold w_subr, w_task. fin. by rewrite lookup_partial_alter.
Qed.
Lemma good_top t k z r : inv t k z -> k_tasks k !! r = Some QTop -> no_thread (k_thr k !! t) -> good t k.
Proof.
  intros Hi E Hn. apply (good_step t k (ETask r true) z Hi); [done|]. intros Hi'. apply (good_net t _ _ r Hi'); [|by rewrite (thread_task k r QTop)]. cbn [kstep]. rewrite E.
  cbn [qstep]. rewrite (i_open _ _ _ Hi). cbn [fst]. unfold w_task. fin. by rewrite lookup_partial_alter.
Qed.
Lemma good_sleep t k z r : inv t k z -> k_tasks k !! r = Some QSleep -> no_thread (k_thr k !! t) -> good t k.
Proof.
  intros Hi E Hn. apply (good_step t k (ETask r true) z Hi); [done|]. intros Hi'. apply (good_top t _ _ r Hi'); [|by rewrite (thread_task k r QSleep)]. cbn [kstep]. rewrite E.
  cbn [qstep fst]. unfold w_task. fin. by rewrite lookup_partial_alter.
Qed.
Lemma good_lock t k z r : inv t k z -> k_tasks k !! r = Some QLock -> k_wl k = None -> k_rd k = ∅ -> no_thread (k_thr k !! t) -> good t k.
Proof.
  intros Hi E Hw Hr Hn. apply (good_step t k (ETask r true) z Hi); [done|]. intros Hi'. apply (good_top t _ _ r Hi'); [|by rewrite (thread_task k r QLock)]. cbn [kstep]. rewrite E.
  cbn [qstep]. unfold no_readers. rewrite bool_decide_true by done. cbn [fst]. unfold w_wl, w_task. fin. by rewrite lookup_partial_alter.
Qed.
Lemma good_store t k z r : inv t k z -> k_tasks k !! r = Some QLock -> k_wl k = None -> k_rd k = {[t]} -> k_thr k !! t = Some (PStore KRecv r) -> good t k.
Proof.
  intros Hi E Hw Hr Et. apply (good_step t k (EStep t true) z Hi); [by left|]. intros Hi'.
  assert (K : (kstep k (EStep t true)).1 = w_thr (w_rd (w_handle k (Some r)) (k_rd k ∖ {[t]})) t None).
  { cbn [kstep]. rewrite Et. cbn [tstep no_conn]. unfold ret. cbn [fst]. rewrite unlock_none; [done|]. apply Hi. }
  apply (good_lock t _ _ r Hi'); rewrite K; unfold w_thr, w_rd, w_handle; fin; [done|done|rewrite Hr; set_solver|left; by rewrite lookup_partial_alter].
Qed.
Lemma good_lost_get t k z : inv t k z -> k_slot k = None -> k_permit k = true -> k_wl k = None -> k_rd k = ∅ -> k_thr k !! t = Some (PGet KRecv) -> good t k.
Proof.
  intros Hi Hs Hp Hw Hr Et. apply (good_step t k (EStep t true) z Hi); [by left|]. intros Hi'. apply (good_store t _ _ (k_nextr k) Hi'); cbn [kstep]; rewrite Et; cbn [tstep]; unfold get; rewrite Hw; unfold reconnect_if_needed;
    rewrite Hs, (i_open _ _ _ Hi), Hp; cbn [fst]; unfold w_rd, w_permit; fin; [by rewrite lookup_insert|done|rewrite Hr; set_solver|by rewrite lookup_insert].
Qed.
Lemma good_lost t k z : inv t k z -> k_slot k = None -> k_permit k = true -> k_wl k = None -> k_rd k = ∅ -> no_thread (k_thr k !! t) -> good t k.
Proof.
  intros Hi Hs Hp Hw Hr [E|E]; [|by eapply good_lost_get]. apply (good_step t k (EStart t KRecv) z Hi).
  - split; [done|]. split; [done|]. intros r Hr'. destruct Hi as [_ _ _ _ _ Hph]. destruct Hph as [? ? ? ? ? Ht|? ? ? ? Ht| | | | | ]; try congruence; rewrite (Ht r) in Hr'; discriminate.
  - intros Hi'. eapply good_lost_get; [exact Hi'| | | | |]; cbn [kstep]; rewrite E; cbn [fst start_pc]; unfold w_thr; fin; try done. by rewrite lookup_partial_alter.
Qed.
Lemma good_take t k z c : inv t k z -> k_wl k = None -> k_rd k = ∅ -> k_permit k = true -> k_thr k !! t = Some (PTake KRecv c) -> good t k.
Proof.
  intros Hi Hw Hr Hp Et. apply (good_step t k (EStep t true) z Hi); [by left|]. intros Hi'.
  assert (K : (kstep k (EStep t true)).1 = w_thr (w_slot k None) t None).
  { cbn [kstep]. rewrite Et. cbn [tstep]. unfold no_readers. rewrite bool_decide_true by done. unfold ret. cbn [fst]. rewrite unlock_none; [done|]. apply Hi. }
  apply (good_lost t _ _ Hi'); rewrite K; unfold w_thr, w_slot; fin; try done. left. by rewrite lookup_partial_alter.
Qed.
Lemma good_fail t k z c : inv t k z -> k_wl k = None -> k_rd k = ∅ -> k_permit k = true -> k_thr k !! t = Some (PFail KRecv c) -> good t k.
Proof.
  intros Hi Hw Hr Hp Et. apply (good_step t k (EStep t true) z Hi); [by left|]. intros Hi'. eapply good_take; [exact Hi'| | | |]; cbn [kstep]; rewrite Et; cbn [tstep]; rewrite Hp; cbn [andb fst]; unfold w_thr; fin; try done.
  by rewrite lookup_partial_alter.
Qed.
Lemma good_all t k z : inv t k z -> good t k.
Proof.
  intros Hi. pose proof (i_phase _ _ _ Hi) as Hp.
  assert (T : forall r q, tasks_are (k_tasks k) (Some (r, q)) -> k_tasks k !! r = Some q) by (intros r q Ht; rewrite (Ht r); by rewrite decide_True).
  destruct Hp as [c Hs Hp Hw Hr Ht Hp'|Hs Hp Hw Hr Ht Hp'|r Hs Hp Hw Hr Ht Hp' Hh Hl|r Hs Hp Hw Hr Ht Hp'|r q Hs Hp Hw Hr Ht Hq Hp'|c r Hs Hp Hw Hr Ht Hp'|c r Hs Hp Hw Hr Ht Hp'].
  - destruct Hp' as [Hn|(c' & [E|[E|E]])]; [by eapply good_call|by eapply good_use|by eapply good_fail|by eapply good_take].
  - by eapply good_lost.
  - eapply good_store; try done. by apply T.
  - eapply good_lock; try done; [by apply T|by left].
  - apply T in Ht. destruct Hq as [->|[->|[->|(l & ->)]]]; [by eapply good_top|by eapply good_net|by eapply good_sleep|by eapply good_auth].
  - eapply good_got; try done. by apply T.
  - eapply good_rel; try done. by apply T.
Qed.
Lemma kgo_app k l l' : kgo k (l ++ l') = let '(k', o) := kgo k l in let '(k'', o') := kgo k' l' in (k'', o ++ o').
Proof.
  revert k. induction l as [|e l IH]; intros k; cbn [app kgo]; [by destruct (kgo k l')|]. destruct (kstep k e) as [k1 o1]. rewrite IH. destruct (kgo k1 l) as [k2 o2].
  destruct (kgo k2 l') as [k3 o3]. by rewrite app_assoc.
Qed.
Lemma orderly_app t es : forall k es', orderly_run t k es -> orderly_run t (kgo k es).1 es' -> orderly_run t k (es ++ es').
Proof.
  induction es as [|e es IH]; intros k es' H H'; [exact H'|]. destruct H as [H1 H2]. cbn [app orderly_run]. split; [done|]. apply IH; [done|].
  cbn [kgo] in H'. destruct (kstep k e) as [k' o]. cbn [fst]. by destruct (kgo k' es).
Qed.
Theorem C101_goes_on : forall topics t es,
  orderly_run t (k_new topics) es ->
  exists es' out', orderly_run t (k_new topics) (es ++ es') /\ (krun topics (es ++ es')).2 = (krun topics es).2 ++ out' /\ ORet t KRecv true ∈ out'.
Proof.
  intros topics t es Ho. destruct (good_all t _ _ (inv_go t es (k_new topics) 0 (inv_new t topics) Ho)) as (es' & Hr & Hin).
  exists es', (kgo (kgo (k_new topics) es).1 es').2. split; [by apply orderly_app|]. split; [|done]. unfold krun. rewrite kgo_app. destruct (kgo (k_new topics) es) as [k o]. cbn [fst snd]. by destruct (kgo k es').
Qed.
Print Assumptions C101_goes_on.

(** * Examples *)
(** Connects at the second attempt, receives a message, loses the connection, and reconnects. *)
Definition rx_connect (r : N) (fail : bool) : list cev :=
  [EStart 5 KRecv; EStep 5 true; EStep 5 true; ETask r true] ++ (if fail then [EStart 5 KRecv; ETask r true; ETask r false; EStep 5 true; ETask r true] else [EStart 5 KRecv])
  ++ [ETask r true; ETask r true; ETask r true; EStep 5 true; ETask r true; ETask r true].
Definition rx_es : list cev :=
  rx_connect 0 true ++ [EStep 5 true; EStep 5 true] ++ [EStart 5 KRecv; EStep 5 true; EStep 5 false; EStep 5 true; EStep 5 true] ++ rx_connect 1 false ++ [EStep 5 true; EStep 5 true].
Definition orderly_b (t : N) (k : client) (e : cev) : bool :=
  match e with
  | EStart t' o => (t' =? t)%N && (match o with KRecv => true | _ => false end) && forallb (fun x => match x.2 with QLock => false | _ => true end) (map_to_list (k_tasks k))
  | EStep t' b => b || match k_thr k !! t' with Some (PFail KRecv _) => false | _ => true end
  | EDrop t' => match k_thr k !! t' with Some (PTake KRecv _) => false | _ => true end
  | _ => true
  end.
Fixpoint orderly_run_b (t : N) (k : client) (es : list cev) : bool :=
  match es with [] => true | e :: es' => orderly_b t k e && orderly_run_b t (kstep k e).1 es' end.
Lemma orderly_b_ok t k e : orderly_b t k e = true -> orderly t k e.
Proof.
  destruct e as [t' o|t' b|t'|r b|r]; cbn [orderly_b orderly]; try done.
  - intros [[H1 H2]%andb_true_iff H3]%andb_true_iff. apply N.eqb_eq in H1. split; [done|]. split; [by destruct o|]. intros r Hr.
    rewrite forallb_forall in H3. specialize (H3 (r, QLock)). cbn in H3. discriminate H3. apply elem_of_list_In. by apply elem_of_map_to_list.
  - intros [H|H]%orb_true_iff; [by left|]. right. intros c E. by rewrite E in H.
  - intros H c E. by rewrite E in H.
Qed.
Lemma orderly_run_b_ok t es : forall k, orderly_run_b t k es = true -> orderly_run t k es.
Proof. induction es as [|e es IH]; intros k H; [exact I|]. cbn in H. apply andb_true_iff in H as [H1 H2]. split; [by apply orderly_b_ok|by apply IH]. Qed.
Example C101_nonvacuous :
  orderly_run 5 (k_new [1; 2]%N) rx_es
  /\ errors (krun [1; 2]%N rx_es).2 = 3%nat /\ connections (krun [1; 2]%N rx_es).2 = 2%nat
  /\ length (List.filter (fun o => match o with ORet _ _ true => true | _ => false end) (krun [1; 2]%N rx_es).2) = 2%nat.
Proof. split; [apply orderly_run_b_ok; vm_compute; reflexivity|]. by vm_compute. Qed.

(** * C101: an application that does not pause *)
(** "Every lost connection costs two errors" is false for an application that calls again at once:
    until the task that reconnects has run for the first time, every call returns an error. *)
Definition waiting (k : client) : Prop := k_slot k = None /\ k_wl k = None /\ k_permit k = false /\ k_closed k = false /\ k_subl k = None /\ k_thr k !! 5%N = None.
Lemma waiting_again k : waiting k -> exists k', kgo k [EStart 5 KRecv; EStep 5 true]%N = (k', [OStart 5 KRecv; ORet 5 KRecv false]%N) /\ waiting k'.
Proof.
  intros (H1 & H2 & H3 & H4 & H5 & H6).
  assert (E : kstep k (EStart 5 KRecv) = (w_thr k 5 (Some (PGet KRecv)), [OStart 5 KRecv])%N) by (cbn [kstep]; by rewrite H6).
  assert (E' : kstep (w_thr k 5 (Some (PGet KRecv))) (EStep 5 true) = (w_thr (w_thr k 5 (Some (PGet KRecv))) 5 None, [ORet 5 KRecv false])%N).
  { cbn [kstep]. unfold w_thr at 1. fin. rewrite lookup_partial_alter. cbn [tstep]. unfold get. change (k_wl (w_thr k 5 (Some (PGet KRecv)))) with (k_wl k). rewrite H2.
    unfold reconnect_if_needed. change (k_slot (w_thr k 5 (Some (PGet KRecv)))) with (k_slot k). change (k_closed (w_thr k 5 (Some (PGet KRecv)))) with (k_closed k).
    change (k_permit (w_thr k 5 (Some (PGet KRecv)))) with (k_permit k). rewrite H1, H4, H3. cbn [no_conn]. unfold ret. rewrite unlock_none; [done|exact H5]. }
  cbn [kgo]. rewrite E. rewrite E'. eexists. split; [reflexivity|]. unfold waiting, w_thr. fin. repeat (split; [assumption|]). by rewrite lookup_partial_alter.
Qed.
Theorem C101_impatient_refuted : forall topics n, exists es,
  Forall (fun e => e = EStart 5 KRecv \/ e = EStep 5 true)%N es
  /\ errors (krun topics es).2 = S n /\ connections (krun topics es).2 = 0%nat.
Proof.
  intros topics n.
  assert (H : exists es, Forall (fun e => e = EStart 5 KRecv \/ e = EStep 5 true)%N es /\ waiting (krun topics es).1 /\ errors (krun topics es).2 = S n /\ connections (krun topics es).2 = 0%nat).
  { induction n as [|n (es & Hf & Hw & He & Hc)].
    - exists [EStart 5 KRecv; EStep 5 true; EStep 5 true]%N. split; [repeat constructor; tauto|]. unfold krun, k_new. generalize (list_to_set topics : gset N). intros s. vm_compute. repeat split.
    - exists (es ++ [EStart 5 KRecv; EStep 5 true]%N). split; [apply List.Forall_app; split; [done|repeat constructor; tauto]|]. unfold krun in *. rewrite kgo_app. destruct (kgo (k_new topics) es) as [k o]. cbn [fst snd] in *.
      destruct (waiting_again k Hw) as (k' & -> & Hw'). cbn [fst snd] in *. rewrite errors_app, connections_app, He, Hc. split; [exact Hw'|]. split; [cbn; lia|done]. }
  destruct H as (es & Hf & _ & He & Hc). by exists es.
Qed.
Print Assumptions C101_impatient_refuted.
