(** Property theorems: opening the discovery data base (OpenModel.v). *)
From stdpp Require Import gmap fin_maps list.
From Coq Require Import NArith Lia.
From Verif Require Import IdModel DecModel DiscModel OpenModel OpenSpec.

Lemma f_go_app g d l l' : f_go g d (l ++ l') = let '(d', a) := f_go g d l in let '(d'', a') := f_go g d' l' in (d'', a ++ a').
Proof.
  revert d. induction l as [|o l IH]; intros d; cbn [app f_go]; [by destruct (f_go g d l')|].
  destruct (f_step g d o) as [d1 a]. rewrite IH. destruct (f_go g d1 l) as [d2 a2]. by destruct (f_go g d2 l').
Qed.
Lemma e_run_snoc g l o : e_run g (l ++ [o]) = (e_step g (e_run g l) o).1.
Proof. unfold e_run. by rewrite fold_left_app. Qed.
Lemma executed_app p l l' : executed p (l ++ l') = executed p l ++ executed p l'.
Proof.
  induction l as [|[o [b a]] l IH]; [done|]. cbn [app executed]. destruct o; try exact IH. destruct b; [|exact IH].
  destruct (bool_decide (p0 = p)); [|exact IH]. cbn [app]. by rewrite IH.
Qed.

(** The file at [p] holds what the statements executed there made of it. *)
Definition holds (g : bool) (l : list dop) (f : option file) : Prop :=
  match f with
  | None => l = []
  | Some f => t_brokers f <> Some Foreign /\ t_permits f <> Some Foreign
      /\ Edb (content (t_brokers f)) (content (t_permits f)) (t_whitelist f) = e_run g l
  end.
Lemma content_create {A} `{Empty A} (t : option (table A)) : content (create t) = content t.
Proof. by destruct t as [[|]|]. Qed.
Lemma create_ok {A} `{Empty A} (t : option (table A)) : t <> Some Foreign -> create t <> Some Foreign.
Proof. by destruct t as [[|]|]. Qed.
Lemma store_ok {A} (t : option (table A)) m : t <> Some Foreign -> store t m <> Some Foreign.
Proof. by destruct t as [[|]|]. Qed.
Lemma content_store {A} `{Empty A} (t : option (table A)) m : (usable t = false -> m = content t) -> content (store t m) = m.
Proof. destruct t as [[|]|]; cbn; [done|intros ->; done|intros ->; done]. Qed.

Lemma step_brokers g s o : match o with DHeartbeat _ _ _ _ _ | DPruneBrokers _ => True | _ => e_brokers (e_step g s o).1 = e_brokers s end.
Proof.
  destruct o; try exact I; unfold e_step, e_issue, e_prune_permits, e_take, e_set_whitelist; try done.
  - destruct (e_permits s !! permit); done.
  - repeat (case_match; try done).
  - case_match; done.
Qed.
Lemma step_permits g s o : match o with DIssue _ _ _ _ _ | DPrune _ | DTake _ _ _ => True | _ => e_permits (e_step g s o).1 = e_permits s end.
Proof.
  destruct o; try exact I; unfold e_step, e_heartbeat, e_prune_brokers, e_set_whitelist; try done.
  - repeat (case_match; try done).
  - case_match; done.
Qed.

Lemma holds_step g d o p l : holds g l (d !! p) -> holds g (l ++ executed p [(o, (f_step g d o).2)]) ((f_step g d o).1 !! p).
Proof.
  intros H. destruct o as [p'|p'|p'|p' q]; cbn [executed]; rewrite ?app_nil_r.
  - cbn [f_step fst]. destruct (d !! p') as [f|] eqn:E; [done|]. destruct (decide (p' = p)) as [->|Hn]; [|by rewrite lookup_insert_ne].
    rewrite lookup_insert. rewrite E in H. cbn in H. subst l. done.
  - cbn [f_step]. destruct (d !! p') as [f|] eqn:E; [|done]. cbn [fst]. destruct (decide (p' = p)) as [->|Hn]; [|by rewrite lookup_insert_ne].
    rewrite lookup_insert. rewrite E in H. destruct H as (Hb & Hp & He). cbn [holds t_brokers t_permits t_whitelist]. rewrite content_create. split; [by apply create_ok|]. done.
  - cbn [f_step]. destruct (d !! p') as [f|] eqn:E; [|done]. cbn [fst]. destruct (decide (p' = p)) as [->|Hn]; [|by rewrite lookup_insert_ne].
    rewrite lookup_insert. rewrite E in H. destruct H as (Hb & Hp & He). cbn [holds t_brokers t_permits t_whitelist]. rewrite content_create. split; [done|]. split; [by apply create_ok|done].
  - cbn [f_step]. destruct (d !! p') as [f|] eqn:E; [|cbn [snd fst]; by rewrite app_nil_r].
    destruct (t_needed f q) eqn:En; [|cbn [snd fst]; by rewrite app_nil_r].
    destruct (e_step g _ q) as [s a] eqn:Es. cbn [snd fst].
    destruct (bool_decide (p' = p)) eqn:Eq; [apply bool_decide_eq_true in Eq as ->|apply bool_decide_eq_false in Eq; rewrite app_nil_r, lookup_insert_ne by done; done].
    rewrite lookup_insert. rewrite E in H. destruct H as (Hb & Hp & He). cbn [holds t_brokers t_permits t_whitelist].
    split; [by apply store_ok|]. split; [by apply store_ok|]. rewrite e_run_snoc, <- He, Es. cbn [fst].
    pose proof (step_brokers g (Edb (content (t_brokers f)) (content (t_permits f)) (t_whitelist f)) q) as H1.
    pose proof (step_permits g (Edb (content (t_brokers f)) (content (t_permits f)) (t_whitelist f)) q) as H2. rewrite Es in H1, H2. cbn [fst] in H1, H2.
    rewrite !content_store; [by destruct s| |]; intros Hu; destruct q; cbn [t_needed] in En; rewrite ?En in Hu; try discriminate; cbn in H1, H2; done.
Qed.
Lemma holds_go g os : forall d l p, holds g l (d !! p) -> holds g (l ++ executed p (f_go g d os).2) ((f_go g d os).1 !! p).
Proof.
  induction os as [|o os IH]; intros d l p H; cbn [f_go]; [cbn; by rewrite app_nil_r|].
  apply (holds_step g d o) in H. destruct (f_step g d o) as [d1 a]. cbn [fst snd] in H. specialize (IH d1 _ p H).
  destruct (f_go g d1 os) as [d2 a2]. cbn [fst snd] in *. rewrite <- app_assoc in IH.
  change ((o, a) :: a2) with ([(o, a)] ++ a2). by rewrite executed_app.
Qed.
Lemma holds_run g os p : holds g (executed p (f_go g ∅ os).2) ((f_go g ∅ os).1 !! p).
Proof. apply (holds_go g os ∅ [] p). done. Qed.

(** * C100: opening a data base *)
(** However often a data base is opened, by whomever, and whoever dies while opening it: what
    statements see and answer is what the statements before them made of an empty data base. *)
Theorem C100_nothing_lost : forall g os p o,
  let '(d, l) := f_go g ∅ os in
  (forall s, f_db d p = Some s -> s = e_run g (executed p l))
  /\ let '(ok, a) := (f_step g d (FDo p o)).2 in a = if ok then e_answer g (executed p l) o else None.
Proof.
  intros g os p o. pose proof (holds_run g os p) as H. destruct (f_go g ∅ os) as [d l]. cbn [fst snd] in H. split.
  - intros s. unfold f_db. destruct (d !! p) as [[[[b|]|] [[q|]|] w]|]; try done. intros [= <-]. by destruct H as (_ & _ & <-).
  - cbn [f_step]. destruct (d !! p) as [f|]; [|done]. destruct (t_needed f o); [|done]. destruct H as (_ & _ & He). rewrite He. unfold e_answer.
    by destruct (e_step g (e_run g (executed p l)) o).
Qed.
Print Assumptions C100_nothing_lost.

Definition tables (d : disk) (p : N) (n : nat) : Prop :=
  match d !! p with
  | Some f => t_brokers f <> Some Foreign /\ t_permits f <> Some Foreign
      /\ (n <= 1 -> t_brokers f <> None)%nat /\ (n <= 0 -> t_permits f <> None)%nat
  | None => (3 <= n)%nat
  end.
Lemma tables_step g d o p n : tables d p n -> tables (f_step g d o).1 p n.
Proof.
  intros H. assert (K : forall p' f' f, d !! p' = Some f -> (p' = p -> t_brokers f <> Some Foreign -> t_permits f <> Some Foreign -> t_brokers f' <> Some Foreign /\ t_permits f' <> Some Foreign /\ (t_brokers f <> None -> t_brokers f' <> None) /\ (t_permits f <> None -> t_permits f' <> None)) -> tables (<[p' := f']> d) p n).
  { intros p' f' f E Hf. unfold tables in *. destruct (decide (p' = p)) as [->|Hn]; [|by rewrite lookup_insert_ne]. rewrite lookup_insert. rewrite E in H. destruct H as (H1 & H2 & H3 & H4).
    destruct (Hf eq_refl H1 H2) as (F1 & F2 & F3 & F4). split; [done|]. split; [done|]. split; intros Hle; auto. }
  destruct o as [p'|p'|p'|p' q]; cbn [f_step].
  - cbn [fst]. destruct (d !! p') as [f|] eqn:E; [done|]. unfold tables in *. destruct (decide (p' = p)) as [->|Hn]; [|by rewrite lookup_insert_ne].
    rewrite lookup_insert. rewrite E in H. cbn [t_brokers t_permits]. split; [done|]. split; [done|]. split; intros; lia.
  - destruct (d !! p') as [f|] eqn:E; [|done]. cbn [fst]. apply (K p' _ f E). intros _ H1 H2. cbn [t_brokers t_permits]. split; [by apply create_ok|]. split; [done|]. split; [by destruct (t_brokers f)|done].
  - destruct (d !! p') as [f|] eqn:E; [|done]. cbn [fst]. apply (K p' _ f E). intros _ H1 H2. cbn [t_brokers t_permits]. split; [done|]. split; [by apply create_ok|]. split; [done|by destruct (t_permits f)].
  - destruct (d !! p') as [f|] eqn:E; [|done]. destruct (t_needed f q); [|done]. destruct (e_step g _ q) as [s a]. cbn [fst]. apply (K p' _ f E). intros _ H1 H2. cbn [t_brokers t_permits].
    split; [by apply store_ok|]. split; [by apply store_ok|]. split; [by destruct (t_brokers f) as [[|]|]|by destruct (t_permits f) as [[|]|]].
Qed.
Lemma tables_go g os : forall d p n, tables d p n -> forall r, length r = n -> r `sublist_of` os -> f_open p = take (3 - n) (f_open p) ++ r -> (n <= 3)%nat -> tables (f_go g d os).1 p 0.
Proof.
  induction os as [|o os IH]; intros d p n H r Hl Hs Hr Hn; cbn [f_go].
  - apply sublist_nil_r in Hs as ->. cbn in Hl. subst n. done.
  - assert (Hst := tables_step g d o p n H). destruct (f_step g d o) as [d1 a] eqn:E. cbn [fst] in Hst.
    apply sublist_cons_r in Hs as [Hs|(r' & -> & Hs)].
    + specialize (IH d1 p n Hst r Hl Hs Hr Hn). by destruct (f_go g d1 os).
    + destruct n as [|n]; [done|]. cbn [length] in Hl. injection Hl as Hl.
      assert (Ht : tables d1 p n /\ f_open p = take (3 - n) (f_open p) ++ r').
      { unfold f_open in *. destruct n as [|[|[|n]]]; [| | |lia]; cbn in Hr |- *; injection Hr as <- <-; (split; [|done]); clear -H E.
        - unfold tables in *. cbn [f_step] in E. destruct (d !! p) as [f|]; [|lia]. injection E as <- _. rewrite lookup_insert. cbn [t_brokers t_permits]. destruct H as (H1 & H2 & H3 & H4).
          split; [done|]. split; [by apply create_ok|]. split; [intros; apply H3; lia|intros _; by destruct (t_permits f)].
        - unfold tables in *. cbn [f_step] in E. destruct (d !! p) as [f|]; [|lia]. injection E as <- _. rewrite lookup_insert. cbn [t_brokers t_permits]. destruct H as (H1 & H2 & H3 & H4).
          split; [by apply create_ok|]. split; [done|]. split; [intros _; by destruct (t_brokers f)|intros; lia].
        - unfold tables in *. cbn [f_step] in E. injection E as <- _. destruct (d !! p) as [f|] eqn:Ed; [rewrite Ed|rewrite lookup_insert; cbn [t_brokers t_permits]; split; [done|]; split; [done|]; split; intros; lia].
          destruct H as (H1 & H2 & _). split; [done|]. split; [done|]. split; intros; lia. }
      destruct Ht as [Ht Hr']. specialize (IH d1 p n Ht r' Hl Hs Hr' ltac:(lia)). by destruct (f_go g d1 os).
Qed.
Lemma tables_opened g os p : opened p os -> tables (f_go g ∅ os).1 p 0.
Proof. intros H. apply (tables_go g os ∅ p 3) with (f_open p); [|done|done|done|lia]. unfold tables. rewrite lookup_empty. lia. Qed.

(** Once a data base has been opened, every statement and every query can be executed; and opening one
    that nobody else made works. *)
Theorem C100_usable_once_opened : forall g os p,
  opened p os ->
  f_db (f_go g ∅ os).1 p = Some (e_run g (executed p (f_go g ∅ os).2))
  /\ forall o, (f_step g (f_go g ∅ os).1 (FDo p o)).2 = (true, e_answer g (executed p (f_go g ∅ os).2) o).
Proof.
  intros g os p Ho. pose proof (tables_opened g os p Ho) as Ht. pose proof (C100_nothing_lost g os p) as H. destruct (f_go g ∅ os) as [d l]. cbn [fst snd] in *.
  assert (Hd : exists s, f_db d p = Some s).
  { unfold tables in Ht. unfold f_db. destruct (d !! p) as [[[[b|]|] [[q|]|] w]|]; cbn in Ht; try (destruct Ht as (? & ? & H3 & H4); (by destruct (H3 ltac:(lia))) || (by destruct (H4 ltac:(lia))) || done); [by eexists|lia]. }
  destruct Hd as [s Hs]. split.
  - rewrite Hs. f_equal. by destruct (H (DPrune 0)) as [Hq _]; apply Hq.
  - intros o. destruct (H o) as [_ Hq]. unfold f_db in Hs. cbn [f_step] in *. destruct (d !! p) as [[[[b|]|] [[q|]|] w]|]; try done.
    assert (En : t_needed (File (Some (Tab b)) (Some (Tab q)) w) o = true) by (by destruct o). rewrite En in *. destruct (e_step g _ o) as [s' a]. cbn [snd] in *. by rewrite Hq.
Qed.
Print Assumptions C100_usable_once_opened.

(** Opening works on every disk. *)
Theorem C100_opening_succeeds : forall g d p, Forall (fun x => x.2.1 = true) (f_go g d (f_open p)).2.
Proof.
  intros g d p. unfold f_open. cbn [f_go f_step]. destruct (d !! p) as [f|] eqn:E.
  - rewrite E. cbn [f_go]. rewrite lookup_insert. cbn [snd]. repeat constructor.
  - rewrite lookup_insert. cbn [f_go]. rewrite lookup_insert. cbn [snd]. repeat constructor.
Qed.
Print Assumptions C100_opening_succeeds.

(** A server that starts again, at any moment, while others go on: nobody is answered otherwise for it. *)
Theorem C100_restart : forall g os p os',
  opened p os ->
  (f_go g (f_go g ∅ (os ++ f_open p)).1 os').2 = (f_go g (f_go g ∅ os).1 os').2.
Proof.
  intros g os p os' Ho. assert (E : (f_go g ∅ (os ++ f_open p)).1 = (f_go g ∅ os).1); [|by rewrite E].
  destruct (C100_usable_once_opened g os p Ho) as [Hd _]. rewrite f_go_app. destruct (f_go g ∅ os) as [d l]. cbn [fst] in *. unfold f_db in Hd.
  destruct (d !! p) as [[[[b|]|] [[q|]|] w]|] eqn:E; try done. unfold f_open. cbn [f_go f_step]. rewrite E. rewrite E. cbn [create t_brokers t_permits t_whitelist].
  rewrite lookup_insert. cbn [create t_brokers t_permits t_whitelist fst]. rewrite insert_insert. by apply insert_id.
Qed.
Print Assumptions C100_restart.

(** * Examples *)
Definition ox_b : bid := Bid [49]%N [50]%N.
(** A broker opens the file and writes a heartbeat; a marshal dies while it opens it; another one does not; it issues a permit. *)
Definition ox_ops : list fop := f_open 7 ++ [FDo 7 (DHeartbeat 0 0 ox_b 5 60000); FTouch 7; FBrokers 7] ++ f_open 7 ++ [FDo 8 (DPrune 0); FDo 7 (DIssue 10 ox_b 3 30000 [42])]%N.
Example C100_nonvacuous :
  opened 7 ox_ops
  /\ executed 7 (f_go false ∅ ox_ops).2 = [DHeartbeat 0 0 ox_b 5 60000; DIssue 10 ox_b 3 30000 [42]]%N
  /\ executed 8 (f_go false ∅ ox_ops).2 = []
  /\ (f_step false (f_go false ∅ ox_ops).1 (FDo 7 (DTake 20 ox_b 3))%N).2 = (true, Some [42]%N)
  /\ (f_step false (f_go false ∅ ox_ops).1 (FDo 8 (DTake 20 ox_b 3))%N).2 = (false, None).
Proof. split; [unfold opened, ox_ops; apply sublist_inserts_r; reflexivity|]. by vm_compute. Qed.

(** * C100: tables made by something else *)
(** "A data base that was opened without an error can be used" is false when the file has a table
    [brokers] with other columns: opening does not look at it, and no heartbeat is ever written. *)
Theorem C100_other_columns_refuted : exists d p,
  (forall g, Forall (fun x => x.2.1 = true) (f_go g d (f_open p)).2)
  /\ forall g os n1 n2 b n ttl, (f_step g (f_go g d (f_open p ++ os)).1 (FDo p (DHeartbeat n1 n2 b n ttl))).2 = (false, None).
Proof.
  exists {[ 7%N := File (Some Foreign) None None ]}, 7%N. split; [intros g; apply C100_opening_succeeds|].
  intros g os n1 n2 b n ttl.
  assert (K : forall os d, (exists f, d !! 7%N = Some f /\ t_brokers f = Some Foreign) -> exists f, (f_go g d os).1 !! 7%N = Some f /\ t_brokers f = Some Foreign).
  { clear. induction os as [|o os IH]; intros d (f & E & Hf); cbn [f_go]; [by exists f|]. destruct (f_step g d o) as [d1 a] eqn:Es.
    specialize (IH d1). destruct (f_go g d1 os) as [d2 a2]. apply IH. clear IH.
    destruct o as [p|p|p|p q]; cbn [f_step] in Es.
    - destruct (d !! p) eqn:Ep; injection Es as <- _; [by exists f|]. rewrite lookup_insert_ne by congruence. by exists f.
    - destruct (d !! p) as [f'|] eqn:Ep; injection Es as <- _; [|by exists f]. destruct (decide (p = 7%N)) as [->|Hn]; [|rewrite lookup_insert_ne by done; by exists f].
      rewrite lookup_insert. eexists. split; [done|]. rewrite E in Ep. injection Ep as <-. cbn [t_brokers]. by rewrite Hf.
    - destruct (d !! p) as [f'|] eqn:Ep; injection Es as <- _; [|by exists f]. destruct (decide (p = 7%N)) as [->|Hn]; [|rewrite lookup_insert_ne by done; by exists f].
      rewrite lookup_insert. eexists. split; [done|]. rewrite E in Ep. injection Ep as <-. cbn [t_brokers]. done.
    - destruct (d !! p) as [f'|] eqn:Ep; [|injection Es as <- _; by exists f]. destruct (t_needed f' q); [|injection Es as <- _; by exists f].
      destruct (e_step g _ q) as [s a']. injection Es as <- _. destruct (decide (p = 7%N)) as [->|Hn]; [|rewrite lookup_insert_ne by done; by exists f].
      rewrite lookup_insert. eexists. split; [done|]. rewrite E in Ep. injection Ep as <-. cbn [t_brokers]. by rewrite Hf. }
  destruct (K (f_open 7 ++ os) {[ 7%N := File (Some Foreign) None None ]}) as (f & E & Hf); [eexists; split; [apply lookup_singleton|done]|].
  cbn [f_step]. rewrite E. cbn [t_needed]. by rewrite Hf.
Qed.
Print Assumptions C100_other_columns_refuted.
