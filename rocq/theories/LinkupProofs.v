(** Proofs: two brokers with any past agree after linking up. *)
From stdpp Require Import gmap fin_maps fin_sets list.
From Coq Require Import NArith Lia.
From Verif Require Import IdModel IdProofs RelMapModel VMapModel VMapSpec VMapProofs ConnModel ConnSpec ConnProofs ConnProofs2 ConnProofs3 SyncModel DirSyncProofs
  NetSettleDir MoveProofs LinkupSpec.

(** ** One user *)
Definition wins1 (gt : bool) (l : option (vval bid)) (rv : vval bid) : bool :=
  match l with Some lv => (ver lv <? ver rv)%N || ((ver lv =? ver rv)%N && gt) | None => match val rv with Some _ => true | None => false end end.
Definition apply1 (self : bid) (gt : bool) (p : option (vval bid) * bool) (o : option (vval bid)) : option (vval bid) * bool :=
  match o with
  | None => p
  | Some rv => if wins1 gt p.1 rv then (if decide (val rv = Some self) then (Some (VVal (u64_succ (ver rv)) None), true) else (taken rv, false)) else p
  end.
Definition diff1 (p : option (vval bid) * bool) : (option (vval bid) * bool) * option (vval bid) :=
  if p.2 then ((match p.1 with Some (VVal _ None) => None | x => x end, false), p.1) else (p, None).
Definition link1 (i j : bid) (ij ji : bool) (a b : option (vval bid) * bool) : (option (vval bid) * bool) * (option (vval bid) * bool) :=
  let '(a1, da) := diff1 (apply1 i ji a b.1) in
  let '(b1, db) := diff1 (apply1 j ij b a.1) in
  (apply1 i ji a1 db, apply1 j ij b1 da).

(** What holds of every record: unannounced changes are the broker's own; notes that a user has
    gone are unannounced. *)
Definition sane (self : bid) (p : option (vval bid) * bool) : Prop :=
  (p.2 = true -> exists k, p.1 = Some (VVal k None) \/ p.1 = Some (VVal k (Some self))) /\ (forall k, p.1 = Some (VVal k None) -> p.2 = true) /\ (forall e, p.1 = Some e -> (ver e + 1 < u64_modulus)%N).

Lemma succ_small k : (k + 1 < u64_modulus)%N -> u64_succ k = (k + 1)%N.
Proof. intros. unfold u64_succ. by rewrite N.mod_small. Qed.

Ltac splits :=
  repeat match goal with
  | |- context [decide ?P] => destruct (decide P); simplify_eq/=
  | |- context [(?a <? ?b)%N] => destruct (N.ltb_spec a b); simplify_eq/=
  | |- context [(?a =? ?b)%N] => destruct (N.eqb_spec a b); simplify_eq/=
  end.
Lemma sane_cases self p : sane self p ->
  p = (None, false) \/ (exists k, (k + 1 < u64_modulus)%N /\ u64_succ k = (k + 1)%N
    /\ (p = (Some (VVal k None), true) \/ p = (Some (VVal k (Some self)), true) \/ exists x, p = (Some (VVal k (Some x)), false))).
Proof.
  intros (H1 & H2 & H3). destruct p as [[[k [x|]]|] m]; cbn [fst snd] in *.
  - right. exists k. specialize (H3 _ eq_refl). split; [done|]. split; [by apply succ_small|]. destruct m; [|eauto]. destruct (H1 eq_refl) as (k' & [?|?]); simplify_eq. auto.
  - right. exists k. specialize (H3 _ eq_refl). split; [done|]. split; [by apply succ_small|]. rewrite (H2 _ eq_refl). auto.
  - left. destruct m; [|done]. destruct (H1 eq_refl) as (k' & [?|?]); done.
Qed.
Lemma link1_agree i j ij ji a b : i <> j -> ji = negb ij -> sane i a -> sane j b ->
  (link1 i j ij ji a b).1.1 = (link1 i j ij ji a b).2.1.
Proof.
  intros Hne -> Ha Hb.
  apply sane_cases in Ha as [->|(k & Hk & Hsk & [->|[->|[x ->]]])]; apply sane_cases in Hb as [->|(k' & Hk' & Hsk' & [->|[->|[y ->]]])].
  all: destruct ij; unfold link1, apply1, diff1, wins1, taken; cbn -[N.ltb N.eqb u64_succ]; rewrite ?Hsk, ?Hsk'.
  all: splits; try done; try lia; try congruence.
Qed.
