(** Proofs about the in-memory transport. *)
From stdpp Require Import list gmap.
From Coq Require Import NArith Lia.
From Verif Require Import MemModel MemSpec.

Lemma mrun_snoc s es e : mrun s (es ++ [e]) = mstep (mrun s es) e.
Proof. unfold mrun. by rewrite fold_left_app. Qed.
Lemma mrun_app s a b : mrun s (a ++ b) = mrun (mrun s a) b.
Proof. unfold mrun. by rewrite fold_left_app. Qed.

(** * Pipes are not shared *)
Definition holds (x : macc) (i : N) : Prop := (exists l, x = MTaken l i) \/ x = MAccepted i.

Record minv (s : mem) : Prop := {
  mi_in : forall l x i, m_lis s !! l = Some x -> i ∈ ml_in x -> is_Some (m_conns s !! i);
  mi_in_nodup : forall l x, m_lis s !! l = Some x -> NoDup (ml_in x);
  mi_in_disj : forall l1 x1 l2 x2 i, m_lis s !! l1 = Some x1 -> m_lis s !! l2 = Some x2 -> i ∈ ml_in x1 -> i ∈ ml_in x2 -> l1 = l2;
  mi_in_held : forall l x i j a, m_lis s !! l = Some x -> i ∈ ml_in x -> m_accs s !! j = Some a -> ~ holds a i;
  mi_held : forall j a i, m_accs s !! j = Some a -> holds a i -> is_Some (m_conns s !! i);
  mi_held_inj : forall j1 j2 a1 a2 i, m_accs s !! j1 = Some a1 -> m_accs s !! j2 = Some a2 -> holds a1 i -> holds a2 i -> j1 = j2;
  mi_out : forall l x j, m_lis s !! l = Some x -> j ∈ ml_out x -> exists i, m_accs s !! j = Some (MAccepted i);
  mi_out_nodup : forall l x, m_lis s !! l = Some x -> NoDup (ml_out x);
  mi_out_disj : forall l1 x1 l2 x2 j, m_lis s !! l1 = Some x1 -> m_lis s !! l2 = Some x2 -> j ∈ ml_out x1 -> j ∈ ml_out x2 -> l1 = l2;
  mi_out_conn : forall l x j i, m_lis s !! l = Some x -> j ∈ ml_out x -> m_conns s !! i <> Some (MConnected j);
  mi_conn : forall i j, m_conns s !! i = Some (MConnected j) -> exists i', m_accs s !! j = Some (MAccepted i');
  mi_conn_inj : forall i1 i2 j, m_conns s !! i1 = Some (MConnected j) -> m_conns s !! i2 = Some (MConnected j) -> i1 = i2;
}.

Lemma minv_new : minv mem_new.
Proof. constructor; cbn; intros; try done; rewrite lookup_empty in *; done. Qed.

(** A connector that fails. *)
Lemma minv_fail s i : minv s -> (m_conns s !! i = None \/ exists l, m_conns s !! i = Some (MPending l)) -> minv (set_mconn s i MFailed).
Proof.
  intros [] Hi. constructor; cbn [set_mconn m_lis m_conns m_accs]; try done.
  - intros l x k Hx Hk. destruct (decide (k = i)) as [->|]; [rewrite lookup_insert; by eexists|]. rewrite lookup_insert_ne by done. eauto.
  - intros j a k Ha Hk. destruct (decide (k = i)) as [->|]; [rewrite lookup_insert; by eexists|]. rewrite lookup_insert_ne by done. eauto.
  - intros l x j k Hx Hj. destruct (decide (k = i)) as [->|]; [by rewrite lookup_insert|]. rewrite lookup_insert_ne by done. eauto.
  - intros k j. destruct (decide (k = i)) as [->|]; [by rewrite lookup_insert|]. rewrite lookup_insert_ne by done. eauto.
  - intros k1 k2 j. destruct (decide (k1 = i)) as [->|]; [by rewrite lookup_insert|]. rewrite lookup_insert_ne by done.
    destruct (decide (k2 = i)) as [->|]; [by rewrite lookup_insert|]. rewrite lookup_insert_ne by done. eauto.
Qed.

Lemma lookup_lis_insert (m : gmap N mlistener) l x l' x' : <[l := x]> m !! l' = Some x' -> (l' = l /\ x' = x) \/ (l' <> l /\ m !! l' = Some x').
Proof. intros H. apply lookup_insert_Some in H as [[-> ->]|[H1 H2]]; [by left|right; done]. Qed.

Lemma minv_step s e : minv s -> minv (mstep s e).
Proof.
  intros H. destruct e as [ep l|i ep|l j|j|i|i|l]; cbn [mstep].
  - destruct (m_waiting s); [done|]. destruct (m_lis s !! l) eqn:El; [done|]. destruct H. constructor; cbn [m_lis m_conns m_accs]; try done.
    + intros l' x i Hx Hi. apply lookup_lis_insert in Hx as [[-> ->]|[_ Hx]]; [by apply elem_of_nil in Hi|eauto].
    + intros l' x Hx. apply lookup_lis_insert in Hx as [[-> ->]|[_ Hx]]; [apply NoDup_nil_2|eauto].
    + intros l1 x1 l2 x2 i H1 H2 Hi1 Hi2. apply lookup_lis_insert in H1 as [[-> ->]|[_ H1]]; [by apply elem_of_nil in Hi1|].
      apply lookup_lis_insert in H2 as [[-> ->]|[_ H2]]; [by apply elem_of_nil in Hi2|eauto].
    + intros l' x i j a Hx Hi. apply lookup_lis_insert in Hx as [[-> ->]|[_ Hx]]; [by apply elem_of_nil in Hi|eauto].
    + intros l' x j Hx Hi. apply lookup_lis_insert in Hx as [[-> ->]|[_ Hx]]; [by apply elem_of_nil in Hi|eauto].
    + intros l' x Hx. apply lookup_lis_insert in Hx as [[-> ->]|[_ Hx]]; [apply NoDup_nil_2|eauto].
    + intros l1 x1 l2 x2 i H1 H2 Hi1 Hi2. apply lookup_lis_insert in H1 as [[-> ->]|[_ H1]]; [by apply elem_of_nil in Hi1|].
      apply lookup_lis_insert in H2 as [[-> ->]|[_ H2]]; [by apply elem_of_nil in Hi2|eauto].
    + intros l' x j i Hx Hi. apply lookup_lis_insert in Hx as [[-> ->]|[_ Hx]]; [by apply elem_of_nil in Hi|eauto].
  - destruct (m_conns s !! i) as [|] eqn:Ei; [done|]. destruct (m_ends s !! ep) as [l|]; [|apply minv_fail; [done|by left]].
    destruct (m_lis s !! l) as [[q o [|]]|] eqn:El; [|apply minv_fail; [done|by left]..].
    assert (forall l' x', m_lis s !! l' = Some x' -> i ∉ ml_in x') as Hfresh.
    { intros l' x' Hx Hin. destruct (mi_in _ H _ _ _ Hx Hin). congruence. }
    assert (forall j a, m_accs s !! j = Some a -> ~ holds a i) as Hnh.
    { intros j a Ha Hh. destruct (mi_held _ H _ _ _ Ha Hh). congruence. }
    pose proof (Hfresh _ _ El) as Hq. cbn [ml_in] in Hq. destruct H. constructor; cbn [set_mconn set_lis m_lis m_conns m_accs].
    + intros l' x k Hx Hk. destruct (decide (k = i)) as [->|Hne]; [rewrite lookup_insert; by eexists|]. rewrite lookup_insert_ne by done.
      apply lookup_lis_insert in Hx as [[-> ->]|[_ Hx]]; [|eauto]. cbn [ml_in] in Hk. apply elem_of_app in Hk as [Hk|Hk]; [by eapply (mi_in0 _ _ _ El)|].
      by apply elem_of_list_singleton in Hk.
    + intros l' x Hx. apply lookup_lis_insert in Hx as [[-> ->]|[_ Hx]]; [|eauto]. cbn [ml_in]. apply NoDup_app. split_and!; [exact (mi_in_nodup0 _ _ El)| |apply NoDup_singleton].
      intros k Hk Hk'. apply elem_of_list_singleton in Hk' as ->. done.
    + intros l1 x1 l2 x2 k H1 H2 Hi1 Hi2. apply lookup_lis_insert in H1 as [[-> ->]|[N1 H1]], H2 as [[-> ->]|[N2 H2]]; cbn [ml_in] in *; try done.
      * apply elem_of_app in Hi1 as [Hi1|Hi1]; [by eapply (mi_in_disj0 _ _ _ _ k El H2)|]. apply elem_of_list_singleton in Hi1 as ->. by destruct (Hfresh _ _ H2).
      * apply elem_of_app in Hi2 as [Hi2|Hi2]; [by eapply (mi_in_disj0 _ _ _ _ k H1 El)|]. apply elem_of_list_singleton in Hi2 as ->. by destruct (Hfresh _ _ H1).
      * eauto.
    + intros l' x k j a Hx Hk Ha. apply lookup_lis_insert in Hx as [[-> ->]|[_ Hx]]; [|eauto]. cbn [ml_in] in Hk.
      apply elem_of_app in Hk as [Hk|Hk]; [by eapply (mi_in_held0 _ _ _ _ _ El Hk)|]. apply elem_of_list_singleton in Hk as ->. by eapply Hnh.
    + intros j a k Ha Hk. destruct (decide (k = i)) as [->|]; [rewrite lookup_insert; by eexists|]. rewrite lookup_insert_ne by done. eauto.
    + done.
    + intros l' x j Hx Hj. apply lookup_lis_insert in Hx as [[-> ->]|[_ Hx]]; [by eapply (mi_out0 _ _ _ El)|eauto].
    + intros l' x Hx. apply lookup_lis_insert in Hx as [[-> ->]|[_ Hx]]; [exact (mi_out_nodup0 _ _ El)|eauto].
    + intros l1 x1 l2 x2 k H1 H2 Hi1 Hi2. apply lookup_lis_insert in H1 as [[-> ->]|[N1 H1]], H2 as [[-> ->]|[N2 H2]]; cbn [ml_out] in *; try done.
      * by eapply (mi_out_disj0 _ _ _ _ k El H2).
      * by eapply (mi_out_disj0 _ _ _ _ k H1 El).
      * eauto.
    + intros l' x j k Hx Hj. destruct (decide (k = i)) as [->|]; [by rewrite lookup_insert|]. rewrite lookup_insert_ne by done.
      apply lookup_lis_insert in Hx as [[-> ->]|[_ Hx]]; [by eapply (mi_out_conn0 _ _ _ _ El)|eauto].
    + intros k j. destruct (decide (k = i)) as [->|]; [by rewrite lookup_insert|]. rewrite lookup_insert_ne by done. eauto.
    + intros k1 k2 j. destruct (decide (k1 = i)) as [->|]; [by rewrite lookup_insert|]. rewrite lookup_insert_ne by done.
      destruct (decide (k2 = i)) as [->|]; [by rewrite lookup_insert|]. rewrite lookup_insert_ne by done. eauto.
  - destruct (m_accs s !! j) eqn:Ej; [done|]. destruct (m_lis s !! l) as [[[|i q] o [|]]|] eqn:El; try done.
    assert (i ∈ ml_in (MListener (i :: q) o true)) as Hin by left.
    pose proof (mi_in_nodup _ H _ _ El) as Hnd. cbn [ml_in] in Hnd. apply NoDup_cons in Hnd as [Hni Hnd].
    assert (forall l' x' k, <[l := MListener q o true]> (m_lis s) !! l' = Some x' -> k ∈ ml_in x' -> k <> i /\ exists x'', m_lis s !! l' = Some x'' /\ k ∈ ml_in x'') as Hsub.
    { intros l' x' k Hx Hk. apply lookup_lis_insert in Hx as [[-> ->]|[N1 Hx]].
      - cbn [ml_in] in Hk. split; [by intros ->|]. eexists. split; [exact El|]. by right.
      - split; [|eauto]. intros ->. apply N1. exact (mi_in_disj _ H _ _ _ _ _ Hx El Hk Hin). }
    assert (forall l' x', <[l := MListener q o true]> (m_lis s) !! l' = Some x' -> exists x'', m_lis s !! l' = Some x'' /\ ml_out x'' = ml_out x') as Hout.
    { intros l' x' Hx. apply lookup_lis_insert in Hx as [[-> ->]|[N1 Hx]]; [exists (MListener (i :: q) o true); done|eauto]. }
    assert (forall j' a k, <[j := MTaken l i]> (m_accs s) !! j' = Some a -> holds a k -> (j' = j /\ k = i) \/ (j' <> j /\ m_accs s !! j' = Some a)) as Hacc.
    { intros j' a k Ha Hk. apply lookup_insert_Some in Ha as [[-> <-]|[N1 Ha]]; [|right; done]. left. split; [done|]. destruct Hk as [[l' [= _ ->]]|[=]]. done. }
    destruct H. constructor; cbn [set_macc set_lis m_lis m_conns m_accs].
    + intros l' x k Hx Hk. destruct (Hsub _ _ _ Hx Hk) as (_ & x'' & Hx'' & Hk''). eauto.
    + intros l' x Hx. apply lookup_lis_insert in Hx as [[-> ->]|[_ Hx]]; [done|eauto].
    + intros l1 x1 l2 x2 k H1 H2 Hi1 Hi2. destruct (Hsub _ _ _ H1 Hi1) as (_ & y1 & Hy1 & Hk1), (Hsub _ _ _ H2 Hi2) as (_ & y2 & Hy2 & Hk2). eauto.
    + intros l' x k j' a Hx Hk Ha Hh. destruct (Hsub _ _ _ Hx Hk) as (Hne & x'' & Hx'' & Hk''). destruct (Hacc _ _ _ Ha Hh) as [[-> ->]|[_ Ha']]; [done|].
      by eapply (mi_in_held0 _ _ _ _ _ Hx'' Hk'' Ha').
    + intros j' a k Ha Hh. destruct (Hacc _ _ _ Ha Hh) as [[-> ->]|[_ Ha']]; [by eapply (mi_in0 _ _ _ El)|eauto].
    + intros j1 j2 a1 a2 k H1 H2 Hh1 Hh2. destruct (Hacc _ _ _ H1 Hh1) as [[-> ->]|[N1 H1']], (Hacc _ _ _ H2 Hh2) as [[-> ?]|[N2 H2']]; subst; try done.
      * by destruct (mi_in_held0 _ _ _ _ _ El Hin H2').
      * by destruct (mi_in_held0 _ _ _ _ _ El Hin H1').
      * eauto.
    + intros l' x j' Hx Hj'. destruct (Hout _ _ Hx) as (x'' & Hx'' & E). rewrite <- E in Hj'. destruct (mi_out0 _ _ _ Hx'' Hj') as [k Hk].
      exists k. rewrite lookup_insert_ne; [done|]. intros ->. congruence.
    + intros l' x Hx. destruct (Hout _ _ Hx) as (x'' & Hx'' & E). rewrite <- E. eauto.
    + intros l1 x1 l2 x2 k H1 H2. destruct (Hout _ _ H1) as (y1 & Hy1 & <-), (Hout _ _ H2) as (y2 & Hy2 & <-). eauto.
    + intros l' x j' k Hx Hj'. destruct (Hout _ _ Hx) as (x'' & Hx'' & E). rewrite <- E in Hj'. eauto.
    + intros k j' Hk. destruct (mi_conn0 _ _ Hk) as [k' Hk']. exists k'. rewrite lookup_insert_ne; [done|]. intros ->. congruence.
    + done.
  - destruct (m_accs s !! j) as [[l i|]|] eqn:Ej; try done. destruct (m_lis s !! l) as [[q o [|]]|] eqn:El; try done.
    assert (forall l' x', <[l := MListener q (o ++ [j]) true]> (m_lis s) !! l' = Some x' -> exists x'', m_lis s !! l' = Some x'' /\ ml_in x'' = ml_in x') as Hin.
    { intros l' x' Hx. apply lookup_lis_insert in Hx as [[-> ->]|[N1 Hx]]; [exists (MListener q o true); done|eauto]. }
    assert (forall l' x' k, <[l := MListener q (o ++ [j]) true]> (m_lis s) !! l' = Some x' -> k ∈ ml_out x' -> (k = j /\ l' = l) \/ exists x'', m_lis s !! l' = Some x'' /\ k ∈ ml_out x'') as Hout.
    { intros l' x' k Hx Hk. apply lookup_lis_insert in Hx as [[-> ->]|[N1 Hx]]; [|eauto]. cbn [ml_out] in Hk. apply elem_of_app in Hk as [Hk|Hk].
      - right. exists (MListener q o true). done.
      - apply elem_of_list_singleton in Hk as ->. by left. }
    assert (forall j' a k, <[j := MAccepted i]> (m_accs s) !! j' = Some a -> holds a k -> exists a', m_accs s !! j' = Some a' /\ holds a' k) as Hacc.
    { intros j' a k Ha Hk. apply lookup_insert_Some in Ha as [[<- <-]|[N1 Ha]]; [|eauto]. eexists. split; [exact Ej|]. destruct Hk as [[l' [=]]|[= ->]]. left. by eexists. }
    assert (forall l' x', m_lis s !! l' = Some x' -> j ∉ ml_out x') as Hnj.
    { intros l' x' Hx Hj. destruct (mi_out _ H _ _ _ Hx Hj). congruence. }
    destruct H. constructor; cbn [set_macc set_lis m_lis m_conns m_accs].
    + intros l' x k Hx Hk. destruct (Hin _ _ Hx) as (x'' & Hx'' & E). rewrite <- E in Hk. eauto.
    + intros l' x Hx. destruct (Hin _ _ Hx) as (x'' & Hx'' & E). rewrite <- E. eauto.
    + intros l1 x1 l2 x2 k H1 H2. destruct (Hin _ _ H1) as (y1 & Hy1 & <-), (Hin _ _ H2) as (y2 & Hy2 & <-). eauto.
    + intros l' x k j' a Hx Hk Ha Hh. destruct (Hin _ _ Hx) as (x'' & Hx'' & E). rewrite <- E in Hk. destruct (Hacc _ _ _ Ha Hh) as (a' & Ha' & Hh'). by eapply mi_in_held0.
    + intros j' a k Ha Hh. destruct (Hacc _ _ _ Ha Hh) as (a' & Ha' & Hh'). eauto.
    + intros j1 j2 a1 a2 k H1 H2 Hh1 Hh2. destruct (Hacc _ _ _ H1 Hh1) as (b1 & Hb1 & G1), (Hacc _ _ _ H2 Hh2) as (b2 & Hb2 & G2). eauto.
    + intros l' x k Hx Hk. destruct (Hout _ _ _ Hx Hk) as [[-> ->]|(x'' & Hx'' & Hk'')]; [rewrite lookup_insert; eauto|].
      destruct (mi_out0 _ _ _ Hx'' Hk'') as [k' Hk']. exists k'. rewrite lookup_insert_ne; [done|]. intros ->. congruence.
    + intros l' x Hx. apply lookup_lis_insert in Hx as [[-> ->]|[_ Hx]]; [|eauto]. cbn [ml_out]. apply NoDup_app. split_and!; [exact (mi_out_nodup0 _ _ El)| |apply NoDup_singleton].
      intros k Hk Hk'. apply elem_of_list_singleton in Hk' as ->. by destruct (Hnj _ _ El).
    + intros l1 x1 l2 x2 k H1 H2 Hk1 Hk2. destruct (Hout _ _ _ H1 Hk1) as [[-> ->]|(y1 & Hy1 & G1)], (Hout _ _ _ H2 Hk2) as [[? ->]|(y2 & Hy2 & G2)]; subst; try done.
      * by destruct (Hnj _ _ Hy2).
      * by destruct (Hnj _ _ Hy1).
      * eauto.
    + intros l' x k i' Hx Hk Hc. destruct (Hout _ _ _ Hx Hk) as [[-> ->]|(x'' & Hx'' & Hk'')]; [|by eapply mi_out_conn0].
      destruct (mi_conn0 _ _ Hc). congruence.
    + intros k j' Hk. destruct (mi_conn0 _ _ Hk) as [k' Hk']. exists k'. rewrite lookup_insert_ne; [done|]. intros ->. congruence.
    + done.
  - destruct (m_conns s !! i) as [[l| |]|] eqn:Ei; try done. destruct (m_lis s !! l) as [[q [|j o] op]|] eqn:El; [destruct op; [done|apply minv_fail; [done|by right; eexists]]| |done].
    assert (j ∈ ml_out (MListener q (j :: o) op)) as Hj by left.
    assert (forall l' x', <[l := MListener q o op]> (m_lis s) !! l' = Some x' -> exists x'', m_lis s !! l' = Some x'' /\ ml_in x'' = ml_in x') as Hin.
    { intros l' x' Hx. apply lookup_lis_insert in Hx as [[-> ->]|[N1 Hx]]; [exists (MListener q (j :: o) op); done|eauto]. }
    pose proof (mi_out_nodup _ H _ _ El) as Hnd. cbn [ml_out] in Hnd. apply NoDup_cons in Hnd as [Hni Hnd].
    assert (forall l' x' k, <[l := MListener q o op]> (m_lis s) !! l' = Some x' -> k ∈ ml_out x' -> k <> j /\ exists x'', m_lis s !! l' = Some x'' /\ k ∈ ml_out x'') as Hout.
    { intros l' x' k Hx Hk. apply lookup_lis_insert in Hx as [[-> ->]|[N1 Hx]].
      - cbn [ml_out] in Hk. split; [by intros ->|]. eexists. split; [exact El|]. by right.
      - split; [|eauto]. intros ->. apply N1. exact (mi_out_disj _ H _ _ _ _ _ Hx El Hk Hj). }
    assert (forall k v, <[i := MConnected j]> (m_conns s) !! k = Some v -> (k = i /\ v = MConnected j) \/ m_conns s !! k = Some v) as Hc.
    { intros k v Hk. apply lookup_insert_Some in Hk as [[-> <-]|[_ Hk]]; [by left|by right]. }
    destruct H. constructor; cbn [set_mconn set_lis m_lis m_conns m_accs].
    + intros l' x k Hx Hk. destruct (decide (k = i)) as [->|]; [rewrite lookup_insert; by eexists|]. rewrite lookup_insert_ne by done.
      destruct (Hin _ _ Hx) as (x'' & Hx'' & E). rewrite <- E in Hk. eauto.
    + intros l' x Hx. destruct (Hin _ _ Hx) as (x'' & Hx'' & E). rewrite <- E. eauto.
    + intros l1 x1 l2 x2 k H1 H2. destruct (Hin _ _ H1) as (y1 & Hy1 & <-), (Hin _ _ H2) as (y2 & Hy2 & <-). eauto.
    + intros l' x k j' a Hx Hk. destruct (Hin _ _ Hx) as (x'' & Hx'' & E). rewrite <- E in Hk. eauto.
    + intros j' a k Ha Hh. destruct (decide (k = i)) as [->|]; [rewrite lookup_insert; by eexists|]. rewrite lookup_insert_ne by done. eauto.
    + done.
    + intros l' x k Hx Hk. destruct (Hout _ _ _ Hx Hk) as (_ & x'' & Hx'' & Hk''). eauto.
    + intros l' x Hx. apply lookup_lis_insert in Hx as [[-> ->]|[_ Hx]]; [done|eauto].
    + intros l1 x1 l2 x2 k H1 H2 Hk1 Hk2. destruct (Hout _ _ _ H1 Hk1) as (_ & y1 & Hy1 & G1), (Hout _ _ _ H2 Hk2) as (_ & y2 & Hy2 & G2). eauto.
    + intros l' x k i' Hx Hk Hi'. destruct (Hout _ _ _ Hx Hk) as (Hne & x'' & Hx'' & Hk''). apply Hc in Hi' as [[-> [= ->]]|Hi']; [done|]. by eapply mi_out_conn0.
    + intros k j' Hk. apply Hc in Hk as [[-> [= ->]]|Hk]; [by eapply (mi_out0 _ _ _ El)|eauto].
    + intros k1 k2 j' H1 H2. apply Hc in H1 as [[-> E1]|H1], H2 as [[-> E2]|H2]; try done.
      * injection E1 as ->. by destruct (mi_out_conn0 _ _ _ k2 El Hj).
      * injection E2 as ->. by destruct (mi_out_conn0 _ _ _ k1 El Hj).
      * eauto.
  - destruct (m_conns s !! i) as [[l| |]|] eqn:Ei; try done. apply minv_fail; [done|right; by eexists].
  - destruct (m_lis s !! l) as [[q o op]|] eqn:El; [|done].
    assert (forall l' x', <[l := MListener q o false]> (m_lis s) !! l' = Some x' -> exists x'', m_lis s !! l' = Some x'' /\ ml_in x'' = ml_in x' /\ ml_out x'' = ml_out x') as Hx.
    { intros l' x' Hx. apply lookup_lis_insert in Hx as [[-> ->]|[N1 Hx]]; [exists (MListener q o op); done|eauto]. }
    destruct H. constructor; cbn [set_lis m_lis m_conns m_accs]; try done.
    + intros l' x k H1 Hk. destruct (Hx _ _ H1) as (x'' & Hx'' & E1 & E2). rewrite <- E1 in Hk. eauto.
    + intros l' x H1. destruct (Hx _ _ H1) as (x'' & Hx'' & E1 & E2). rewrite <- E1. eauto.
    + intros l1 x1 l2 x2 k H1 H2. destruct (Hx _ _ H1) as (y1 & Hy1 & <- & _), (Hx _ _ H2) as (y2 & Hy2 & <- & _). eauto.
    + intros l' x k j' a H1 Hk. destruct (Hx _ _ H1) as (x'' & Hx'' & E1 & E2). rewrite <- E1 in Hk. eauto.
    + intros l' x k H1 Hk. destruct (Hx _ _ H1) as (x'' & Hx'' & E1 & E2). rewrite <- E2 in Hk. eauto.
    + intros l' x H1. destruct (Hx _ _ H1) as (x'' & Hx'' & E1 & E2). rewrite <- E2. eauto.
    + intros l1 x1 l2 x2 k H1 H2. destruct (Hx _ _ H1) as (y1 & Hy1 & _ & <-), (Hx _ _ H2) as (y2 & Hy2 & _ & <-). eauto.
    + intros l' x k i' H1 Hk. destruct (Hx _ _ H1) as (x'' & Hx'' & E1 & E2). rewrite <- E2 in Hk. eauto.
Qed.
Lemma mrun_inv es : minv (mrun mem_new es).
Proof. induction es as [|e es IH] using rev_ind; [apply minv_new|]. rewrite mrun_snoc. by apply minv_step. Qed.

(** * One connector at a time *)
Record oinv (s : mem) : Prop := {
  oi_out : forall l x j, m_lis s !! l = Some x -> j ∈ ml_out x -> exists i, m_accs s !! j = Some (MAccepted i) /\ m_conns s !! i = Some (MPending l);
  oi_in : forall l x i, m_lis s !! l = Some x -> ml_open x = true -> i ∈ ml_in x -> m_conns s !! i = Some (MPending l);
  oi_taken : forall l x i j, m_lis s !! l = Some x -> ml_open x = true -> m_accs s !! j = Some (MTaken l i) -> m_conns s !! i = Some (MPending l);
  oi_lis : forall l i j, m_accs s !! j = Some (MTaken l i) -> is_Some (m_lis s !! l);
  oi_conn : forall i j, m_conns s !! i = Some (MConnected j) -> m_accs s !! j = Some (MAccepted i);
}.
Lemma oinv_new : oinv mem_new.
Proof. constructor; cbn; intros; rewrite lookup_empty in *; done. Qed.

Lemma oinv_step s e : minv s -> alone s -> oinv s -> (forall i, e <> MGiveUp i) -> oinv (mstep s e).
Proof.
  intros Hm Ha H Hno. destruct e as [ep l|i ep|l j|j|i|i|l]; cbn [mstep].
  - destruct (m_waiting s); [done|]. destruct (m_lis s !! l) eqn:El; [done|]. destruct H. constructor; cbn [m_lis m_conns m_accs]; try done.
    + intros l' x i Hx Hi. apply lookup_lis_insert in Hx as [[-> ->]|[_ Hx]]; [by apply elem_of_nil in Hi|eauto].
    + intros l' x i Hx Ho Hi. apply lookup_lis_insert in Hx as [[-> ->]|[_ Hx]]; [by apply elem_of_nil in Hi|eauto].
    + intros l' x i j Hx Ho Hj. apply lookup_lis_insert in Hx as [[-> ->]|[_ Hx]]; [|eauto]. destruct (oi_lis0 _ _ _ Hj). congruence.
    + intros l' i j Hj. destruct (decide (l' = l)) as [->|]; [rewrite lookup_insert; by eexists|]. rewrite lookup_insert_ne by done. eauto.
  - destruct (m_conns s !! i) as [|] eqn:Ei; [done|].
    assert (forall v k y, m_conns s !! k = Some y -> <[i := v]> (m_conns s) !! k = Some y) as Hc.
    { intros v k y Hk. rewrite lookup_insert_ne; [done|]. intros ->. congruence. }
    assert (oinv (set_mconn s i MFailed)) as Hf.
    { destruct H. constructor; cbn [set_mconn m_lis m_conns m_accs].
      - intros l x j Hx Hj. destruct (oi_out0 _ _ _ Hx Hj) as (k & H1 & H2). exists k. split; [done|by apply Hc].
      - intros. apply Hc. eauto.
      - intros. apply Hc. eauto.
      - eauto.
      - intros k j Hk. apply lookup_insert_Some in Hk as [[_ [=]]|[_ Hk]]. eauto. }
    destruct (m_ends s !! ep) as [l|]; [|exact Hf]. destruct (m_lis s !! l) as [[q o [|]]|] eqn:El; [|exact Hf..].
    destruct H. constructor; cbn [set_mconn set_lis m_lis m_conns m_accs].
    + intros l' x j Hx Hj. assert (exists k, m_accs s !! j = Some (MAccepted k) /\ m_conns s !! k = Some (MPending l')) as (k & H1 & H2).
      { apply lookup_lis_insert in Hx as [[-> ->]|[_ Hx]]; [by apply (oi_out0 _ _ _ El)|eauto]. }
      exists k. split; [done|by apply Hc].
    + intros l' x k Hx Ho Hk. apply lookup_lis_insert in Hx as [[-> ->]|[_ Hx]]; [|apply Hc; eauto]. cbn [ml_in] in Hk. apply elem_of_app in Hk as [Hk|Hk].
      * apply Hc. by apply (oi_in0 _ _ _ El).
      * apply elem_of_list_singleton in Hk as ->. apply lookup_insert.
    + intros l' x k j Hx Ho Hj. apply Hc. apply lookup_lis_insert in Hx as [[-> ->]|[_ Hx]]; [by apply (oi_taken0 _ _ _ _ El eq_refl Hj)|eauto].
    + intros l' k j Hj. destruct (decide (l' = l)) as [->|]; [rewrite lookup_insert; by eexists|]. rewrite lookup_insert_ne by done. eauto.
    + intros k j Hk. apply lookup_insert_Some in Hk as [[_ [=]]|[_ Hk]]. eauto.
  - destruct (m_accs s !! j) eqn:Ej; [done|]. destruct (m_lis s !! l) as [[[|i q] o [|]]|] eqn:El; try done.
    destruct H. constructor; cbn [set_macc set_lis m_lis m_conns m_accs].
    + intros l' x j' Hx Hj'. assert (exists k, m_accs s !! j' = Some (MAccepted k) /\ m_conns s !! k = Some (MPending l')) as (k & H1 & H2).
      { apply lookup_lis_insert in Hx as [[-> ->]|[_ Hx]]; [by apply (oi_out0 _ _ _ El)|eauto]. }
      exists k. split; [|done]. rewrite lookup_insert_ne; [done|]. intros ->. congruence.
    + intros l' x k Hx Ho Hk. apply lookup_lis_insert in Hx as [[-> ->]|[_ Hx]]; [|eauto]. apply (oi_in0 _ _ _ El); [done|]. by right.
    + intros l' x k j' Hx Ho Hj'. apply lookup_insert_Some in Hj' as [[<- [= <- <-]]|[_ Hj']].
      * apply (oi_in0 _ _ _ El); [done|left].
      * apply lookup_lis_insert in Hx as [[-> ->]|[_ Hx]]; [by apply (oi_taken0 _ _ _ _ El eq_refl Hj')|eauto].
    + intros l' k j' Hj'. destruct (decide (l' = l)) as [->|]; [rewrite lookup_insert; by eexists|]. rewrite lookup_insert_ne by done.
      apply lookup_insert_Some in Hj' as [[_ [= <- <-]]|[_ Hj']]; [done|eauto].
    + intros k j' Hk. rewrite lookup_insert_ne; [eauto|]. intros ->. specialize (oi_conn0 _ _ Hk). congruence.
  - destruct (m_accs s !! j) as [[l i|]|] eqn:Ej; try done. destruct (m_lis s !! l) as [[q o [|]]|] eqn:El; try done.
    destruct H. constructor; cbn [set_macc set_lis m_lis m_conns m_accs].
    + intros l' x j' Hx Hj'. assert (j' ∈ o \/ j' = j \/ l' <> l) as Hor.
      { apply lookup_lis_insert in Hx as [[-> ->]|[N1 Hx]]; [|tauto]. cbn [ml_out] in Hj'. apply elem_of_app in Hj' as [Hj'|Hj']; [by left|]. apply elem_of_list_singleton in Hj'. tauto. }
      destruct (decide (j' = j)) as [->|Hne].
      * apply lookup_lis_insert in Hx as [[-> ->]|[N1 Hx]].
        { exists i. rewrite lookup_insert. split; [done|]. by apply (oi_taken0 _ _ _ _ El eq_refl Ej). }
        destruct (oi_out0 _ _ _ Hx Hj') as (k & H1 & _). congruence.
      * rewrite lookup_insert_ne by done. apply lookup_lis_insert in Hx as [[-> ->]|[N1 Hx]]; [|eauto].
        apply (oi_out0 _ _ _ El). cbn [ml_out]. destruct Hor as [?|[?|?]]; done.
    + intros l' x k Hx Ho Hk. apply lookup_lis_insert in Hx as [[-> ->]|[_ Hx]]; [by apply (oi_in0 _ _ _ El)|eauto].
    + intros l' x k j' Hx Ho Hj'. apply lookup_insert_Some in Hj' as [[_ [=]]|[_ Hj']].
      apply lookup_lis_insert in Hx as [[-> ->]|[_ Hx]]; [by apply (oi_taken0 _ _ _ _ El eq_refl Hj')|eauto].
    + intros l' k j' Hj'. apply lookup_insert_Some in Hj' as [[_ [=]]|[_ Hj']].
      destruct (decide (l' = l)) as [->|]; [rewrite lookup_insert; by eexists|]. rewrite lookup_insert_ne by done. eauto.
    + intros k j' Hk. rewrite lookup_insert_ne; [eauto|]. intros ->. specialize (oi_conn0 _ _ Hk). congruence.
  - destruct (m_conns s !! i) as [[l| |]|] eqn:Ei; try done.
    destruct (m_lis s !! l) as [[q [|j o] op]|] eqn:El; [destruct op; [done|]| |done].
    + (* the listener is gone *)
      assert (forall k l', m_conns s !! k = Some (MPending l') -> l' <> l -> <[i := MFailed]> (m_conns s) !! k = Some (MPending l')) as Hc.
      { intros k l' Hk Hne. rewrite lookup_insert_ne; [done|]. intros ->. congruence. }
      destruct H. constructor; cbn [set_mconn m_lis m_conns m_accs].
      * intros l' x j' Hx Hj'. destruct (oi_out0 _ _ _ Hx Hj') as (k & H1 & H2). exists k. split; [done|]. apply Hc; [done|]. intros ->.
        rewrite El in Hx. injection Hx as <-. by apply elem_of_nil in Hj'.
      * intros l' x k Hx Ho Hk. apply Hc; [eauto|]. intros ->. rewrite El in Hx. by injection Hx as <-.
      * intros l' x k j' Hx Ho Hk. apply Hc; [eauto|]. intros ->. rewrite El in Hx. by injection Hx as <-.
      * eauto.
      * intros k j' Hk. apply lookup_insert_Some in Hk as [[_ [=]]|[_ Hk]]. eauto.
    + assert (j ∈ ml_out (MListener q (j :: o) op)) as Hj by left.
      destruct (oi_out _ H _ _ _ El Hj) as (i' & Hacc & Hi'). pose proof (Ha _ _ _ Ei Hi') as <-.
      pose proof (mi_out_nodup _ Hm _ _ El) as Hnd. cbn [ml_out] in Hnd. apply NoDup_cons in Hnd as [Hni Hnd].
      assert (forall k l', m_conns s !! k = Some (MPending l') -> k <> i -> <[i := MConnected j]> (m_conns s) !! k = Some (MPending l')) as Hc.
      { intros k l' Hk Hne. by rewrite lookup_insert_ne. }
      assert (holds (MAccepted i) i) as Hh by by right.
      assert (forall l' x', <[l := MListener q o op]> (m_lis s) !! l' = Some x' -> exists x'', m_lis s !! l' = Some x'' /\ ml_in x'' = ml_in x' /\ ml_open x'' = ml_open x') as Hin.
      { intros l' x' Hx. apply lookup_lis_insert in Hx as [[-> ->]|[N1 Hx]]; [exists (MListener q (j :: o) op); done|eauto]. }
      destruct H. constructor; cbn [set_mconn set_lis m_lis m_conns m_accs].
      * intros l' x j' Hx Hj'. apply lookup_lis_insert in Hx as [[-> ->]|[N1 Hx]].
        { cbn [ml_out] in Hj'. destruct (oi_out0 _ _ j' El) as (k & H1 & H2); [by right|]. exists k. split; [done|]. apply Hc; [done|]. intros ->.
          pose proof (mi_held_inj _ Hm _ _ _ _ i H1 Hacc Hh Hh) as ->. done. }
        destruct (oi_out0 _ _ _ Hx Hj') as (k & H1 & H2). exists k. split; [done|]. apply Hc; [done|]. intros ->. congruence.
      * intros l' x k Hx Ho Hk. destruct (Hin _ _ Hx) as (x'' & Hx'' & E1 & E2). rewrite <- E1 in Hk. rewrite <- E2 in Ho. apply Hc; [eauto|]. intros ->.
        by apply (mi_in_held _ Hm _ _ _ _ _ Hx'' Hk Hacc).
      * intros l' x k j' Hx Ho Hk. destruct (Hin _ _ Hx) as (x'' & Hx'' & E1 & E2). rewrite <- E2 in Ho. apply Hc; [eauto|]. intros ->.
        assert (holds (MTaken l' i) i) as Hh' by (left; by eexists). pose proof (mi_held_inj _ Hm _ _ _ _ i Hk Hacc Hh' Hh) as ->. congruence.
      * intros l' k j' Hj'. destruct (decide (l' = l)) as [->|]; [rewrite lookup_insert; by eexists|]. rewrite lookup_insert_ne by done. eauto.
      * intros k j' Hk. apply lookup_insert_Some in Hk as [[<- [= <-]]|[_ Hk]]; [done|eauto].
  - by destruct (Hno i).
  - destruct (m_lis s !! l) as [[q o op]|] eqn:El; [|done].
    destruct H. constructor; cbn [set_lis m_lis m_conns m_accs]; try done.
    + intros l' x k Hx Hk. apply lookup_lis_insert in Hx as [[-> ->]|[_ Hx]]; [by apply (oi_out0 _ _ _ El)|eauto].
    + intros l' x k Hx Ho Hk. apply lookup_lis_insert in Hx as [[-> ->]|[_ Hx]]; [done|eauto].
    + intros l' x k j Hx Ho Hk. apply lookup_lis_insert in Hx as [[-> ->]|[_ Hx]]; [done|eauto].
    + intros l' k j' Hj'. destruct (decide (l' = l)) as [->|]; [rewrite lookup_insert; by eexists|]. rewrite lookup_insert_ne by done. eauto.
Qed.

Lemma oinv_run es : (forall es1 es2, es = es1 ++ es2 -> alone (mrun mem_new es1)) -> (forall i, ~ In (MGiveUp i) es) -> oinv (mrun mem_new es).
Proof.
  induction es as [|e es IH] using rev_ind; intros Ha Hno; [apply oinv_new|]. rewrite mrun_snoc. apply oinv_step.
  - apply mrun_inv.
  - by apply (Ha es [e]).
  - apply IH; [|intros i Hi; apply (Hno i), in_or_app; by left]. intros es1 es2 ->. apply (Ha es1 (es2 ++ [e])). by rewrite app_assoc.
  - intros i ->. apply (Hno i), in_or_app. right. by left.
Qed.

(** * After one connector has given up *)
Record shifted (n : nat) (s : mem) : Prop := {
  sh_end : m_ends s !! 0%N = Some 0%N;
  sh_lis : m_lis s !! 0%N = Some (MListener [] [N.of_nat n] true);
  sh_new : forall k, (N.of_nat n < k)%N -> m_conns s !! k = None /\ m_accs s !! k = None;
  sh_conn : forall k, (0 < k <= N.of_nat n)%N -> m_conns s !! k = Some (MConnected (k - 1));
  sh_acc : forall k, (k <= N.of_nat n)%N -> m_accs s !! k = Some (MAccepted k);
}.
Lemma shifted_0 : shifted 0 (mrun mem_new lost_one).
Proof.
  constructor.
  - vm_compute. reflexivity.
  - vm_compute. reflexivity.
  - intros k Hk.
    assert (map_to_list (m_conns (mrun mem_new lost_one)) = [(0%N, MFailed)]) as Hc by (vm_compute; reflexivity).
    assert (map_to_list (m_accs (mrun mem_new lost_one)) = [(0%N, MAccepted 0)]) as Ha by (vm_compute; reflexivity).
    generalize dependent (mrun mem_new lost_one). intros s Hc Ha. split.
    + destruct (m_conns s !! k) as [v|] eqn:E; [|reflexivity]. exfalso. apply elem_of_map_to_list in E. rewrite Hc in E.
      apply elem_of_list_singleton in E as [= -> _]. lia.
    + destruct (m_accs s !! k) as [v|] eqn:E; [|reflexivity]. exfalso. apply elem_of_map_to_list in E. rewrite Ha in E.
      apply elem_of_list_singleton in E as [= -> _]. lia.
  - cbn. intros k Hk. lia.
  - cbn. intros k Hk. assert (k = 0%N) as -> by lia. vm_compute. reflexivity.
Qed.
Lemma shifted_round n s : shifted n s -> shifted (S n) (mrun s (round (N.of_nat (S n)))).
Proof.
  intros [H1 H2 H3 H4 H5]. set (k := N.of_nat (S n)). assert (N.of_nat n = (k - 1)%N) as En by (subst k; lia). rewrite En in *.
  destruct (H3 k) as [Hc Ha]; [lia|]. unfold round, mrun. cbn [fold_left].
  assert (mstep s (MDial k 0) = set_mconn (set_lis s 0 (MListener [k] [(k - 1)%N] true)) k (MPending 0)) as -> by (cbn [mstep]; by rewrite Hc, H1, H2).
  set (s1 := set_mconn _ _ _).
  assert (mstep s1 (MReceive k) = set_mconn (set_lis s1 0 (MListener [k] [] true)) k (MConnected (k - 1))) as ->.
  { cbn [mstep]. subst s1. cbn [set_mconn set_lis m_conns m_lis]. rewrite lookup_insert. cbn [m_lis]. rewrite lookup_insert. done. }
  set (s2 := set_mconn _ _ _).
  assert (mstep s2 (MTake 0 k) = set_macc (set_lis s2 0 (MListener [] [] true)) k (MTaken 0 k)) as ->.
  { cbn [mstep]. subst s2 s1. cbn [set_mconn set_lis m_conns m_lis m_accs]. rewrite Ha, lookup_insert. done. }
  set (s3 := set_macc _ _ _).
  assert (mstep s3 (MGive k) = set_macc (set_lis s3 0 (MListener [] [k] true)) k (MAccepted k)) as ->.
  { cbn [mstep]. subst s3 s2 s1. cbn [set_mconn set_macc set_lis m_conns m_lis m_accs]. rewrite lookup_insert. cbn [m_lis]. rewrite lookup_insert. done. }
  subst s3 s2 s1. constructor; cbn [set_mconn set_macc set_lis m_conns m_lis m_accs m_ends]; fold k.
  - done.
  - apply lookup_insert.
  - intros i Hi. rewrite !lookup_insert_ne by lia. apply H3. lia.
  - intros i Hi. destruct (decide (i = k)) as [->|Hne]; [apply lookup_insert|]. rewrite !lookup_insert_ne by done. apply H4. lia.
  - intros i Hi. destruct (decide (i = k)) as [->|Hne]; [apply lookup_insert|]. rewrite !lookup_insert_ne by done. apply H5. lia.
Qed.
Lemma shifted_rounds n : shifted n (mrun mem_new (lost_one ++ rounds n)).
Proof.
  induction n as [|n IH]; [rewrite app_nil_r; apply shifted_0|]. cbn [rounds]. rewrite app_assoc, mrun_app. by apply shifted_round.
Qed.

(** * A waiting connector keeps everybody from binding *)
Lemma waiting_true s i l : m_conns s !! i = Some (MPending l) -> m_waiting s = true.
Proof.
  intros H. unfold m_waiting. apply existsb_exists. exists (i, MPending l). split; [|done]. apply elem_of_list_In. by apply elem_of_map_to_list.
Qed.
Record blocked (i l : N) (en : gmap N N) (s : mem) : Prop := {
  bl_ends : m_ends s = en;
  bl_conn : m_conns s !! i = Some (MPending l);
  bl_lis : exists x, m_lis s !! l = Some x /\ ml_open x = true /\ ml_out x = [];
  bl_accs : forall j k, m_accs s !! j <> Some (MTaken l k);
}.
Lemma blocked_step i l en s e : blocked i l en s -> (forall j, e <> MTake l j) -> e <> MGiveUp i -> e <> MClose l -> blocked i l en (mstep s e).
Proof.
  intros [H1 H2 (x & Hx & Ho & Hout) H4] N1 N2 N3. destruct e as [ep l'|k ep|l' j|j|k|k|l']; cbn [mstep].
  - rewrite (waiting_true _ _ _ H2). constructor; eauto.
  - destruct (m_conns s !! k) as [|] eqn:Ek; [constructor; eauto|]. assert (i <> k) as Hne by (intros ->; congruence).
    assert (blocked i l en (set_mconn s k MFailed)) as Hf by (constructor; cbn [set_mconn m_ends m_conns m_lis m_accs]; [done|by rewrite lookup_insert_ne|eauto|done]).
    destruct (m_ends s !! ep) as [l'|]; [|exact Hf]. destruct (m_lis s !! l') as [[q o [|]]|] eqn:El; [|exact Hf..].
    constructor; cbn [set_mconn set_lis m_ends m_conns m_lis m_accs]; [done|by rewrite lookup_insert_ne| |done].
    destruct (decide (l = l')) as [<-|]; [|rewrite lookup_insert_ne by done; eauto]. rewrite lookup_insert. eexists. split; [done|].
    rewrite El in Hx. injection Hx as <-. cbn [ml_open ml_out] in *. done.
  - destruct (m_accs s !! j) eqn:Ej; [constructor; eauto|]. destruct (m_lis s !! l') as [[[|k q] o [|]]|] eqn:El; try by (constructor; eauto).
    assert (l <> l') as Hne by (intros ->; by destruct (N1 j)).
    constructor; cbn [set_macc set_lis m_ends m_conns m_lis m_accs]; [done|done|rewrite lookup_insert_ne by done; eauto|].
    intros j' k' Hj'. apply lookup_insert_Some in Hj' as [[_ [= ? _]]|[_ Hj']]; [congruence|by eapply H4].
  - destruct (m_accs s !! j) as [[l' k|]|] eqn:Ej; try by (constructor; eauto). destruct (m_lis s !! l') as [[q o [|]]|] eqn:El; try by (constructor; eauto).
    assert (l <> l') as Hne by (intros ->; by apply (H4 j k)).
    constructor; cbn [set_macc set_lis m_ends m_conns m_lis m_accs]; [done|done|rewrite lookup_insert_ne by done; eauto|].
    intros j' k' Hj'. apply lookup_insert_Some in Hj' as [[_ [=]]|[_ Hj']]. by eapply H4.
  - destruct (m_conns s !! k) as [[l'| |]|] eqn:Ek; try by (constructor; eauto).
    destruct (decide (l' = l)) as [->|Hne].
    + rewrite Hx. destruct x as [q o op]. cbn [ml_open ml_out] in *. subst o op. constructor; eauto.
    + assert (i <> k) as Hik by (intros ->; congruence).
      destruct (m_lis s !! l') as [[q [|j o] [|]]|] eqn:El; try by (constructor; eauto).
      all: constructor; cbn [set_mconn set_lis m_ends m_conns m_lis m_accs]; [done|by rewrite lookup_insert_ne|rewrite ?lookup_insert_ne by done; eauto|done].
  - destruct (m_conns s !! k) as [[l'| |]|] eqn:Ek; try by (constructor; eauto).
    constructor; cbn [set_mconn m_ends m_conns m_lis m_accs]; [done| |eauto|done]. rewrite lookup_insert_ne; [done|]. intros ->. by apply N2.
  - destruct (m_lis s !! l') as [[q o op]|] eqn:El; [|constructor; eauto].
    constructor; cbn [set_lis m_ends m_conns m_lis m_accs]; [done|done| |done]. rewrite lookup_insert_ne; [eauto|]. intros ->. by apply N3.
Qed.
