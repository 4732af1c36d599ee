(** Properties of a client's attempts to connect (RetryModel.v). *)
From stdpp Require Import list.
From Coq Require Import NArith Lia.
From Verif Require Import RetryModel.
Local Open Scope N_scope.

(** ** C77: a client connects as soon as it can *)
Definition total (l : list stepx) : N := fold_right (fun x n => x_time x + n) 0 l.
Definition resolving (l : list stepx) : N := fold_right (fun x n => (match x_kind x with KResolve => x_time x | _ => 0 end) + n) 0 l.
(** Every step would succeed, within the limit of this step. *)
Definition fine (l : list stepx) : Prop :=
  List.Forall (fun x => x_ok x = true /\ forall m, limit (x_kind x) = Some m -> x_time x <= m) l.

Lemma steps_fine stop l : forall t, fine l -> t + total l <= stop -> steps stop t l = (t + total l, true).
Proof.
  induction l as [|[k d ok] l IH]; intros t HF HT; [simpl; f_equal; lia|]. inversion HF as [|? ? [Hok Hm] HF']; subst. simpl in Hok, Hm. subst ok.
  cbn [total fold_right x_time] in *. fold (total l) in *. cbn [steps x_kind x_ok x_time].
  destruct (blocks k) eqn:B; [rewrite IH by (done || lia); f_equal; lia|].
  assert (match limit k with Some m => N.min m d | None => d end = d) as ->.
  { destruct (limit k) as [m|]; [|done]. specialize (Hm m eq_refl). lia. }
  destruct (N.ltb_spec stop (t + d)); [lia|]. rewrite N.eqb_refl. simpl. rewrite IH by (done || lia). f_equal. lia.
Qed.
Lemma steps_end stop l : forall t e ok, steps stop t l = (e, ok) -> t <= e /\ e <= N.max t stop + resolving l.
Proof.
  induction l as [|[k d b] l IH]; intros t e ok H; cbn [steps x_kind x_ok x_time] in H.
  - injection H as <- <-. simpl. lia.
  - cbn [resolving fold_right x_kind x_time]. fold (resolving l). destruct (blocks k) eqn:B.
    + destruct k; try done. destruct b.
      * apply IH in H. lia.
      * injection H as <- <-. lia.
    + assert ((match k with KResolve => d | _ => 0 end) = 0) as -> by (destruct k; done).
      revert H. generalize (match limit k with Some m => N.min m d | None => d end). intros x H.
      destruct (N.ltb_spec stop (t + x)).
      * injection H as <- <-. lia.
      * destruct (b && (d =? x)).
        -- apply IH in H. lia.
        -- injection H as <- <-. lia.
Qed.
Lemma steps_true stop l : forall t e, steps stop t l = (e, true) -> fine l /\ e = t + total l.
Proof.
  induction l as [|[k d b] l IH]; intros t e H; cbn [steps x_kind x_ok x_time] in H.
  - injection H as <-. split; [constructor|simpl; lia].
  - cbn [total fold_right x_time]. fold (total l). destruct (blocks k) eqn:B.
    + destruct b; [|done]. apply IH in H as [HF ->]. split; [|lia]. constructor; [|done]. simpl. split; [done|]. destruct k; done.
    + destruct (stop <? t + match limit k with Some m => N.min m d | None => d end) eqn:L; [done|].
      destruct b; simpl in H; [|done]. destruct (N.eqb_spec d (match limit k with Some m => N.min m d | None => d end)) as [E|E]; [|done].
      rewrite <- E in H. apply IH in H as [HF ->]. split; [|lia]. constructor; [|done]. simpl. split; [done|]. intros m Hm. rewrite Hm in E. lia.
Qed.

(** An attempt succeeds if all its steps do, each within its own limit, and all together take at most 10 s; if it succeeds then every step did, within its limit. It lasts at most 10 s
    and the time its look-ups of addresses take. *)
Theorem C77_attempt t l :
  (fine l -> total l <= 10000 -> attempt t l = (t + total l, true)) /\
  (forall e, attempt t l = (e, true) -> fine l /\ e = t + total l) /\
  (forall e ok, attempt t l = (e, ok) -> t <= e <= t + 10000 + resolving l).
Proof.
  unfold attempt. split; [|split].
  - intros HF HT. apply steps_fine; [done|lia].
  - intros e. apply steps_true.
  - intros e ok H. apply steps_end in H. lia.
Qed.
Print Assumptions C77_attempt.

(** Between the end of a failed attempt and the beginning of the next there are exactly 2 s, and the next begins at most 12 s, and the time for look-ups, after this one. *)
Fixpoint spaced (r : N) (l : list (N * N)) : Prop :=
  match l with
  | (t, e) :: (((t', _) :: _) as l') => t' = e + 2000 /\ t <= e <= t + 10000 + r /\ spaced r l'
  | [(t, e)] => t <= e <= t + 10000 + r
  | [] => True
  end.
Theorem C77_pauses world n t r :
  (forall u, resolving (world u) <= r) -> spaced r (fst (retry world n t)).
Proof.
  intros Hr. revert t. induction n as [|n IH]; intros t; [done|]. cbn [retry].
  destruct (attempt t (world t)) as [e ok] eqn:E. destruct ok; [done|].
  destruct (retry world n (e + 2000)) as [l x] eqn:R. simpl.
  pose proof (proj2 (proj2 (C77_attempt t (world t))) e false E) as He. specialize (Hr t).
  specialize (IH (e + 2000)). rewrite R in IH. simpl in IH.
  destruct l as [|[t' e'] l]; [lia|]. split; [|split; [lia|done]].
  destruct n as [|n]; [done|]. cbn [retry] in R. destruct (attempt (e + 2000) (world (e + 2000))) as [e2 ok2]. destruct ok2; [done|].
  destruct (retry world n (e2 + 2000)) as [l2 x2]. injection R as <- <- _. done.
Qed.
Print Assumptions C77_pauses.

(** If every attempt that begins at [T] or later can succeed, with [d] for all its steps, a client that began to connect at [t] is connected [d] after the later of [t] and
    [T] + 12 s (and the time for look-ups). *)
Theorem C77_connects world t T d r :
  d <= 10000 ->
  (forall u, resolving (world u) <= r) ->
  (forall u, T <= u -> fine (world u) /\ total (world u) <= d) ->
  exists n e, snd (retry world n t) = Some e /\ e <= N.max t (T + 12000 + r) + d.
Proof.
  intros Hd Hr HW.
  assert (forall m u, (T - u <= N.of_nat m) -> u < T + 12000 + r \/ u = t -> exists n e, snd (retry world n u) = Some e /\ e <= N.max t (T + 12000 + r) + d) as Hg.
  { induction m as [|m IH]; intros u Hm Hu.
    - destruct (HW u ltac:(lia)) as [HF HT]. exists 1%nat, (u + total (world u)). cbn [retry].
      rewrite (proj1 (C77_attempt u (world u)) HF) by lia. split; [done|]. lia.
    - destruct (N.le_gt_cases T u) as [HTu|HTu].
      { destruct (HW u HTu) as [HF HT]. exists 1%nat, (u + total (world u)). cbn [retry].
        rewrite (proj1 (C77_attempt u (world u)) HF) by lia. split; [done|]. lia. }
      destruct (attempt u (world u)) as [e ok] eqn:E. pose proof (proj2 (proj2 (C77_attempt u (world u))) e ok E) as He. specialize (Hr u). destruct ok.
      { exists 1%nat, e. cbn [retry]. rewrite E. split; [done|]. lia. }
      destruct (IH (e + 2000)) as (n & x & Hn & Hx); [lia|lia|].
      exists (S n), x. cbn [retry]. rewrite E. destruct (retry world n (e + 2000)) as [l y]. simpl in *. done. }
  apply (Hg (N.to_nat (T - t)) t); [lia|by right].
Qed.
Print Assumptions C77_connects.

(** A marshal that is down until 60 s: 30 attempts, 2.005 s apart, fail; connected at 61.05 s. *)
Definition rx_world (u : N) : list stepx :=
  if u <? 60000 then [Step KResolve 5 true; Step KDial 0 false]
  else [Step KResolve 5 true; Step KDial 100 true; Step KTls 200 true; Step KAuth 145 true; Step KResolve 5 true; Step KDial 100 true; Step KTls 200 true; Step KAuth 145 true].
Example C77_example :
  map x_kind (rx_world 60000) = kinds_tls /\
  (forall u, resolving (rx_world u) <= 10) /\ (forall u, 60000 <= u -> fine (rx_world u) /\ total (rx_world u) <= 900) /\
  snd (retry rx_world 40 0) = Some 61050 /\ length (fst (retry rx_world 40 0)) = 30%nat.
Proof.
  split; [done|]. split; [|split].
  - intros u. unfold rx_world. destruct (u <? 60000); vm_compute; done.
  - intros u Hu. unfold rx_world. destruct (N.ltb_spec u 60000); [lia|]. split; [|vm_compute; done].
    repeat constructor; simpl; intros m; try done; intros [= <-]; lia.
  - vm_compute. done.
Qed.

(** "A client connects if every step of an attempt keeps its time limit" is false: three steps of 4 s are too long, and so it goes on for ever. *)
Definition rx_slow : list stepx :=
  [Step KResolve 0 true; Step KDial 4000 true; Step KTls 4000 true; Step KAuth 4000 true; Step KResolve 0 true; Step KDial 0 true; Step KTls 0 true; Step KAuth 0 true].
Theorem C77_slow_steps_refuted n t :
  fine rx_slow /\ map x_kind rx_slow = kinds_tls /\ snd (retry (fun _ => rx_slow) n t) = None.
Proof.
  split; [|split; [done|]].
  - repeat constructor; simpl; intros m; try done; intros [= <-]; lia.
  - revert t. induction n as [|n IH]; intros t; [done|]. cbn [retry].
    destruct (attempt t rx_slow) as [e ok] eqn:E. destruct ok.
    + exfalso. unfold attempt, rx_slow in E. cbn [steps x_kind blocks x_ok x_time limit] in E.
      change (N.min 5000 4000) with 4000 in E. cbn [andb] in E. change (4000 =? 4000) with true in E. cbn [andb] in E.
      destruct (N.ltb_spec (t + 10000) (t + 0 + 4000)); [done|].
      destruct (N.ltb_spec (t + 10000) (t + 0 + 4000 + 4000)); [done|].
      destruct (N.ltb_spec (t + 10000) (t + 0 + 4000 + 4000 + 4000)); [done|]. lia.
    + specialize (IH (e + 2000)). destruct (retry (fun _ => rx_slow) n (e + 2000)) as [l y]. done.
Qed.
Print Assumptions C77_slow_steps_refuted.
(** "An attempt is given up after 10 s" is false for a look-up that takes longer. *)
Theorem C77_blocking_lookup_refuted t d :
  attempt t [Step KResolve d false] = (t + d, false).
Proof. done. Qed.
Print Assumptions C77_blocking_lookup_refuted.
