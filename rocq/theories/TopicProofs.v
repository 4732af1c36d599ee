(** Topic validation: specification and proofs. *)
From Coq Require Import List NArith Lia Bool.
Import ListNotations.
From Verif Require Import TopicModel.

(** Specification: [collapses l l'] says that [l] is [l'] with every element repeated one
    or more times, and no two neighbours of [l'] are equal (so [l'] is determined). *)
Definition collapses (l l' : list N) : Prop :=
  (exists ns, length ns = length l' /\ l = concat (map (fun p => repeat (fst p) (S (snd p))) (combine l' ns)))
  /\ forall i x, nth_error l' i = Some x -> nth_error l' (S i) <> Some x.

(** [selects ok l l']: [l'] is [l] without the elements failing [ok], order kept. *)
Inductive selects (ok : N -> bool) : list N -> list N -> Prop :=
  | sel_nil : selects ok [] []
  | sel_keep x l l' : ok x = true -> selects ok l l' -> selects ok (x :: l) (x :: l')
  | sel_drop x l l' : ok x = false -> selects ok l l' -> selects ok (x :: l) l'.

Lemma dedup_head x l : exists l', dedup (x :: l) = x :: l'.
Proof.
  revert x; induction l as [|y l IH]; intros x; [exists []; reflexivity|].
  cbn [dedup]. destruct (N.eqb_spec x y) as [->|Hne].
  - apply IH.
  - eexists; reflexivity.
Qed.

Lemma dedup_collapses l : collapses l (dedup l).
Proof.
  induction l as [|x l IH].
  - split; [exists []; split; reflexivity|]. intros [|i] x; discriminate.
  - destruct l as [|y l].
    + split; [exists [0]; split; reflexivity|]. intros [|[|i]] z; cbn; congruence.
    + cbn [dedup]. destruct IH as [(ns & Hlen & Heq) Hadj].
      destruct (dedup_head y l) as [l' Hl'].
      change (match l with [] => [y] | z :: _ => if N.eqb y z then dedup l else y :: dedup l end) with (dedup (y :: l)) in *.
      destruct (N.eqb_spec x y) as [->|Hne].
      * split; [|exact Hadj]. rewrite Hl' in *. destruct ns as [|n ns]; [discriminate Hlen|].
        exists (S n :: ns). split; [cbn in Hlen |- *; lia|].
        change (combine (y :: l') (S n :: ns)) with ((y, S n) :: combine l' ns).
        change (combine (y :: l') (n :: ns)) with ((y, n) :: combine l' ns) in Heq.
        cbn [map concat fst snd] in *. rewrite Heq. reflexivity.
      * split.
        -- exists (0 :: ns). split; [cbn [length]; lia|].
           change (combine (x :: dedup (y :: l)) (0 :: ns)) with ((x, 0) :: combine (dedup (y :: l)) ns).
           rewrite Heq at 1. reflexivity.
        -- intros [|i] z.
           ++ cbn [nth_error]. rewrite Hl'. cbn. intros [= ->] [= ->]. congruence.
           ++ apply Hadj.
Qed.

Lemma filter_selects ok l : selects ok l (filter ok l).
Proof. induction l as [|x l IH]; cbn; [constructor|]. destruct (ok x) eqn:E; now constructor. Qed.

Lemma dedup_in l x : In x (dedup l) <-> In x l.
Proof.
  induction l as [|y l IH]; [reflexivity|]. destruct l as [|z l]; [reflexivity|].
  cbn [dedup]. change (match l with [] => [z] | z' :: _ => if N.eqb z z' then dedup l else z :: dedup l end) with (dedup (z :: l)).
  destruct (N.eqb_spec y z) as [->|Hne].
  - rewrite IH. cbn. tauto.
  - cbn [In]. rewrite IH. reflexivity.
Qed.

Lemma prune_exact valid l :
  exists d, collapses l d /\ selects valid d (fst (prune valid l)).
Proof. exists (dedup l). split; [apply dedup_collapses|apply filter_selects]. Qed.

Lemma prune_in valid l x : In x (fst (prune valid l)) <-> In x l /\ valid x = true.
Proof. unfold prune; cbn. rewrite filter_In, dedup_in. reflexivity. Qed.

Lemma prune_ok valid l : snd (prune valid l) = true <-> exists x, In x l /\ valid x = true.
Proof.
  unfold prune; cbn. split.
  - destruct (filter valid (dedup l)) as [|x t] eqn:E; [discriminate|]. intros _. exists x.
    apply prune_in. unfold prune; cbn. rewrite E. now left.
  - intros (x & Hx). apply prune_in in Hx. unfold prune in Hx; cbn in Hx.
    destruct (filter valid (dedup l)); [destruct Hx|reflexivity].
Qed.

Lemma prune_err_empty valid l : snd (prune valid l) = false <-> fst (prune valid l) = [].
Proof. unfold prune; cbn. destruct (filter valid (dedup l)); split; congruence. Qed.

(** [selects] and [collapses] are functional, so the specification pins the result. *)
Lemma selects_fun ok l a b : selects ok l a -> selects ok l b -> a = b.
Proof.
  intros Ha; revert b; induction Ha as [|x l l' Hx Ha IH|x l l' Hx Ha IH]; intros b Hb; inversion Hb; subst; try congruence.
  - f_equal; now apply IH.
  - now apply IH.
Qed.

Lemma prune_duplicates_remain :
  exists valid l, ~ NoDup (fst (prune valid l)).
Proof.
  exists (fun t => N.leb t 1), [0; 9; 0]%N. vm_compute. intros Hn. inversion Hn as [|? ? Hni _]; subst.
  apply Hni. now left.
Qed.
