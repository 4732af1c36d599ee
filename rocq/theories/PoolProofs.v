(** Proofs about the memory pool. *)
From stdpp Require Import list gmap.
From Coq Require Import NArith Lia.
From Verif Require Import PoolModel PoolSpec.

Local Arguments N.add : simpl never.
Local Arguments N.sub : simpl never.
Local Arguments N.leb : simpl never.

(** Bytes held by messages; bytes collected by waiting calls. *)
Definition collected (ws : list waiter) : N :=
  foldr (fun w a => (w_got w + a)%N) 0%N ws.

Definition needs (ws : list waiter) : N :=
  foldr (fun w a => (w_need w + a)%N) 0%N ws.

Lemma collected_cons w ws : collected (w :: ws) = (w_got w + collected ws)%N.
Proof. reflexivity. Qed.
Lemma needs_cons w ws : needs (w :: ws) = (w_need w + needs ws)%N.
Proof. reflexivity. Qed.
Lemma collected_nil : collected [] = 0%N.
Proof. reflexivity. Qed.
Lemma needs_nil : needs [] = 0%N.
Proof. reflexivity. Qed.

Lemma held_empty : held ∅ = 0%N.
Proof. reflexivity. Qed.

Lemma held_insert m id n c : m !! id = None -> held (<[id := (n, c)]> m) = (n + held m)%N.
Proof.
  intros H. unfold held. rewrite map_fold_insert_L; [reflexivity| |exact H].
  intros. lia.
Qed.

Lemma held_delete m id n c : m !! id = Some (n, c) -> held m = (n + held (delete id m))%N.
Proof.
  intros H. rewrite <- (insert_delete m id (n, c) H) at 1.
  apply held_insert, lookup_delete.
Qed.

Lemma held_update m id n c c' : m !! id = Some (n, c) -> held (<[id := (n, c')]> m) = held m.
Proof.
  intros H. rewrite <- insert_delete_insert. rewrite held_insert by apply lookup_delete.
  symmetry. by apply held_delete with (c := c).
Qed.

Lemma collected_app a b : collected (a ++ b) = (collected a + collected b)%N.
Proof.
  induction a as [|w a IH]; [reflexivity|].
  change (collected ((w :: a) ++ b)) with (w_got w + collected (a ++ b))%N.
  change (collected (w :: a)) with (w_got w + collected a)%N. lia.
Qed.

(** * Invariant *)

Definition wids (ws : list waiter) : list nat := w_id <$> ws.

Record pinv (P : N) (p : pool) : Prop := PInv {
  pi_sum : (p_avail p + held (p_live p) + collected (p_wait p) = P)%N;
  pi_short : Forall (fun w => (w_got w < w_need w)%N) (p_wait p);
  pi_wait : p_wait p <> [] -> p_avail p = 0%N;
  pi_head : Forall (fun w => w_got w = 0%N) (tail (p_wait p));
  pi_nodup : NoDup (wids (p_wait p));
  pi_fresh : forall w, w ∈ p_wait p -> p_live p !! w_id w = None }.

Lemma pinv_new P : pinv P (pool_new P).
Proof.
  constructor; cbn.
  - rewrite held_empty. lia.
  - constructor.
  - done.
  - constructor.
  - constructor.
  - intros w Hw. by apply not_elem_of_nil in Hw.
Qed.

(** Handing out keeps the books. *)
Lemma hand_out_spec ws k r done rest :
  hand_out k ws = (r, done, rest) ->
  Forall (fun w => (w_got w < w_need w)%N) ws ->
  (k + collected ws = r + needs done + collected rest)%N
  /\ wids ws = wids done ++ wids rest
  /\ Forall (fun w => (w_got w < w_need w)%N) rest
  /\ (rest <> [] -> r = 0%N)
  /\ (Forall (fun w => w_got w = 0%N) (tail ws) ->
      Forall (fun w => w_got w = 0%N) (tail rest)).
Proof.
  revert k r done rest. induction ws as [|w ws IH]; intros k r done rest E Hs; cbn in E.
  - injection E as <- <- <-. rewrite collected_nil, needs_nil.
    split_and!; try done. lia.
  - apply Forall_cons in Hs as [Hw Hs].
    destruct (w_need w - w_got w <=? k)%N eqn:El.
    + apply N.leb_le in El.
      destruct (hand_out _ ws) as [[r' done'] rest'] eqn:Eh.
      injection E as <- <- <-.
      destruct (IH _ _ _ _ Eh Hs) as (H1 & H2 & H3 & H4 & H5).
      split_and!; try done.
      * rewrite collected_cons, needs_cons. lia.
      * unfold wids in *. cbn [fmap list_fmap app]. by rewrite H2.
      * cbn. intros Ht. apply H5. destruct Ht; [constructor|assumption].
    + apply N.leb_gt in El. injection E as <- <- <-.
      split_and!.
      * rewrite !collected_cons, needs_nil. cbn [w_got]. lia.
      * reflexivity.
      * apply Forall_cons. split; [cbn [w_got w_need]; lia|exact Hs].
      * reflexivity.
      * cbn [tail]. intros Ht. exact Ht.
Qed.

Lemma add_live_held live ws :
  NoDup (wids ws) -> (forall w, w ∈ ws -> live !! w_id w = None) ->
  held (add_live live ws) = (held live + needs ws)%N.
Proof.
  unfold add_live. revert live. induction ws as [|w ws IH]; intros live Hnd Hf; cbn [fold_left].
  - rewrite needs_nil. lia.
  - rewrite needs_cons. unfold wids in Hnd. cbn in Hnd. apply NoDup_cons in Hnd as [Hn Hnd].
    rewrite IH; [|exact Hnd|].
    + rewrite held_insert by (apply Hf; left). lia.
    + intros w' Hw'. rewrite lookup_insert_ne; [apply Hf; by right|].
      intros E. apply Hn. rewrite E. apply elem_of_list_fmap. eauto.
Qed.

Lemma add_live_lookup live ws id :
  id ∉ wids ws -> add_live live ws !! id = live !! id.
Proof.
  unfold add_live. revert live. induction ws as [|w ws IH]; intros live Hn; cbn; [done|].
  unfold wids in Hn. cbn in Hn. apply not_elem_of_cons in Hn as [Hn1 Hn2].
  rewrite IH by exact Hn2. by apply lookup_insert_ne.
Qed.

Lemma release_inv P p k :
  pinv (P - k) p -> (k <= P)%N -> pinv P (release p k).
Proof.
  intros [Hsum Hs Hw Hh Hnd Hf] Hk. unfold release.
  destruct (hand_out k (p_wait p)) as [[r dn] rest] eqn:E.
  destruct (hand_out_spec _ _ _ _ _ E Hs) as (H1 & H2 & H3 & H4 & H5).
  assert (NoDup (wids dn) /\ (forall x, x ∈ wids dn -> x ∉ wids rest) /\ NoDup (wids rest))
    as (Nd & Nx & Nr) by (apply NoDup_app; by rewrite <- H2).
  constructor; cbn [p_avail p_wait p_live].
  - rewrite add_live_held; [lia|done|].
    intros w Hin.
    assert (w_id w ∈ wids (p_wait p)) as Hi.
    { rewrite H2. apply elem_of_app. left. apply elem_of_list_fmap. eauto. }
    apply elem_of_list_fmap in Hi as (w' & -> & Hw'). by apply Hf.
  - exact H3.
  - intros Hr. rewrite (H4 Hr).
    assert (p_wait p <> []) as Hp.
    { intros Hp. rewrite Hp in H2. cbn in H2. symmetry in H2.
      apply app_eq_nil in H2 as [_ H2]. apply fmap_nil_inv in H2. done. }
    rewrite (Hw Hp). reflexivity.
  - by apply H5.
  - exact Nr.
  - intros w Hin.
    assert (w_id w ∈ wids rest) as Hi by (apply elem_of_list_fmap; eauto).
    rewrite add_live_lookup by (intros Hd; by apply (Nx _ Hd)).
    assert (w_id w ∈ wids (p_wait p)) as Hj by (rewrite H2; apply elem_of_app; by right).
    apply elem_of_list_fmap in Hj as (w' & E' & Hw'). rewrite E'. by apply Hf.
Qed.

Lemma find_split (ws : list waiter) id w :
  List.find (fun w => w_id w =? id) ws = Some w -> NoDup (wids ws) ->
  exists a b, ws = a ++ w :: b /\ w_id w = id
    /\ List.filter (fun w => negb (w_id w =? id)) ws = a ++ b.
Proof.
  induction ws as [|v ws IH]; intros E Hnd; cbn in *; [done|].
  apply NoDup_cons in Hnd as [Hn Hnd].
  destruct (w_id v =? id) eqn:Ev.
  - injection E as ->. apply Nat.eqb_eq in Ev. exists [], ws. split_and!; try done. cbn.
    assert (forall l : list waiter, id ∉ wids l ->
      List.filter (fun w => negb (w_id w =? id)) l = l) as Hfil.
    { clear. induction l as [|x l IH]; intros Hn; cbn; [done|].
      unfold wids in Hn. cbn in Hn. apply not_elem_of_cons in Hn as [Hn1 Hn2].
      destruct (w_id x =? id) eqn:Ex; [apply Nat.eqb_eq in Ex; done|]. cbn. by rewrite IH. }
    apply Hfil. by rewrite <- Ev.
  - destruct (IH E Hnd) as (a & b & -> & Hi & Hfil). exists (v :: a), b.
    split_and!; try done. cbn. by rewrite Hfil.
Qed.

Lemma tail_zero_app a w b :
  Forall (fun w => w_got w = 0%N) (tail (a ++ w :: b)) ->
  Forall (fun w => w_got w = 0%N) (tail (a ++ b)).
Proof.
  destruct a as [|x a]; cbn.
  - intros H. destruct b; [constructor|]. by apply Forall_cons in H as [_ H].
  - rewrite !Forall_app, Forall_cons. tauto.
Qed.

Lemma known_false p id :
  p_known p id = false -> p_live p !! id = None /\ id ∉ wids (p_wait p).
Proof.
  unfold p_known. intros H. apply orb_false_iff in H as [H1 H2].
  apply bool_decide_eq_false in H1. split.
  - apply eq_None_not_Some. exact H1.
  - intros Hin. apply elem_of_list_fmap in Hin as (w & -> & Hw).
    assert (existsb (fun v => w_id v =? w_id w) (p_wait p) = true) as E.
    { apply existsb_exists. exists w. split; [by apply elem_of_list_In|]. apply Nat.eqb_refl. }
    rewrite E in H2. discriminate.
Qed.

Lemma pstep_inv P p o : pinv P p -> pinv P (pstep p o).
Proof.
  intros Hinv. pose proof Hinv as [Hsum Hs Hw Hh Hnd Hf].
  destruct o as [id n|id|id|id]; cbn [pstep].
  - destruct (p_known p id) eqn:Ek; [exact Hinv|].
    destruct (known_false _ _ Ek) as [Hl Hi].
    destruct (n <=? p_avail p)%N eqn:En.
    + apply N.leb_le in En. constructor; cbn [p_avail p_wait p_live]; try done.
      * rewrite held_insert by done. lia.
      * intros Hne. rewrite (Hw Hne). lia.
      * intros w Hin. rewrite lookup_insert_ne; [by apply Hf|].
        intros ->. apply Hi, elem_of_list_fmap. eauto.
    + apply N.leb_gt in En. constructor; cbn [p_avail p_wait p_live].
      * rewrite collected_app, collected_cons, collected_nil. cbn [w_got]. lia.
      * apply Forall_app. split; [done|]. constructor; [exact En|constructor].
      * done.
      * destruct (p_wait p) as [|v ws] eqn:Ewt; cbn; [constructor|].
        apply Forall_app. split; [exact Hh|]. constructor; [|constructor]. cbn.
        apply Hw. done.
      * unfold wids in *. rewrite fmap_app. apply NoDup_app. split_and!; [done| |].
        -- intros x Hx. cbn. rewrite elem_of_list_singleton. by intros ->.
        -- apply NoDup_singleton.
      * intros w Hin. apply elem_of_app in Hin as [Hin|Hin]; [by apply Hf|].
        apply elem_of_list_singleton in Hin as ->. exact Hl.
  - destruct (List.find _ (p_wait p)) as [w|] eqn:Ef; [|exact Hinv].
    destruct (find_split _ _ _ Ef Hnd) as (a & b & Ew & Hid & Efil).
    rewrite Efil. rewrite Ew in Hsum, Hs, Hh, Hnd, Hf, Hw.
    rewrite collected_app, collected_cons in Hsum.
    apply release_inv; [|lia].
    constructor; cbn [p_avail p_wait p_live].
    + rewrite collected_app. lia.
    + apply Forall_app in Hs as [Ha Hb]. apply Forall_cons in Hb as [_ Hb].
      by apply Forall_app.
    + intros _. apply Hw. by destruct a.
    + by eapply tail_zero_app.
    + unfold wids in *. rewrite fmap_app in *. cbn in Hnd.
      apply NoDup_app in Hnd as (N1 & N2 & N3). apply NoDup_cons in N3 as [_ N3].
      apply NoDup_app. split_and!; [done| |done].
      intros x Hx. specialize (N2 x Hx). apply not_elem_of_cons in N2 as [_ N2]. exact N2.
    + intros v Hv. apply Hf. apply elem_of_app in Hv as [Hv|Hv]; apply elem_of_app.
      * by left.
      * right. by right.
  - destruct (p_live p !! id) as [[n c]|] eqn:El; [|exact Hinv].
    constructor; cbn [p_avail p_wait p_live]; try done.
    + by rewrite (held_update _ _ _ _ _ El).
    + intros w Hin. rewrite lookup_insert_ne; [by apply Hf|].
      intros ->. rewrite (Hf w Hin) in El. done.
  - destruct (p_live p !! id) as [[n c]|] eqn:El; [|exact Hinv].
    pose proof (held_delete _ _ _ _ El) as Hd.
    assert (pinv P (release (Pool (p_avail p) (p_wait p) (delete id (p_live p))) n)) as Hrel.
    { apply release_inv; [|lia]. constructor; cbn [p_avail p_wait p_live]; try done.
      - lia.
      - intros w Hin. destruct (decide (w_id w = id)) as [->|Hne].
        + apply lookup_delete.
        + rewrite lookup_delete_ne by done. by apply Hf. }
    destruct c as [|[|c]]; [exact Hrel|exact Hrel|].
    constructor; cbn [p_avail p_wait p_live]; try done.
    + by rewrite (held_update _ _ _ _ _ El).
    + intros w Hin. rewrite lookup_insert_ne; [by apply Hf|].
      intros ->. rewrite (Hf w Hin) in El. done.
Qed.

Lemma prun_inv P p os : pinv P p -> pinv P (prun p os).
Proof.
  unfold prun. revert p. induction os as [|o os IH]; intros p H; cbn; [exact H|].
  apply IH. by apply pstep_inv.
Qed.

Lemma pool_inv P os : pinv P (prun (pool_new P) os).
Proof. apply prun_inv, pinv_new. Qed.

(** * Sizes asked for *)

Lemma hand_out_rest ws k r dn rest w :
  hand_out k ws = (r, dn, rest) -> w ∈ rest ->
  exists w', w' ∈ ws /\ w_need w' = w_need w.
Proof.
  revert k r dn rest. induction ws as [|v ws IH]; intros k r dn rest E Hw; cbn in E.
  - injection E as <- <- <-. by apply not_elem_of_nil in Hw.
  - destruct (_ <=? k)%N.
    + destruct (hand_out _ ws) as [[r' d'] rest'] eqn:Eh. injection E as <- <- <-.
      destruct (IH _ _ _ _ Eh Hw) as (w' & H1 & H2). exists w'. split; [by right|done].
    + injection E as <- <- <-. apply elem_of_cons in Hw as [->|Hw].
      * exists v. split; [left|done].
      * exists w. split; [by right|done].
Qed.

Lemma release_needs p k w :
  w ∈ p_wait (release p k) -> exists w', w' ∈ p_wait p /\ w_need w' = w_need w.
Proof.
  unfold release. destruct (hand_out k (p_wait p)) as [[r dn] rest] eqn:E. cbn.
  by eapply hand_out_rest.
Qed.

Lemma pstep_needs p o w :
  w ∈ p_wait (pstep p o) ->
  (exists w', w' ∈ p_wait p /\ w_need w' = w_need w) \/ (exists id, o = PAlloc id (w_need w)).
Proof.
  intros Hw. destruct o as [id n|id|id|id]; cbn [pstep] in Hw.
  - destruct (p_known p id); [left; eauto|].
    destruct (n <=? p_avail p)%N; cbn in Hw; [left; eauto|].
    apply elem_of_app in Hw as [Hw|Hw]; [left; eauto|].
    apply elem_of_list_singleton in Hw as ->. right. cbn. eauto.
  - destruct (List.find _ (p_wait p)); [|left; eauto].
    apply release_needs in Hw as (w' & H1 & H2). cbn in H1. left.
    apply elem_of_list_In, filter_In in H1 as [H1 _]. apply elem_of_list_In in H1. eauto.
  - destruct (p_live p !! id) as [[n c]|]; cbn in Hw; left; eauto.
  - destruct (p_live p !! id) as [[n [|[|c]]]|]; cbn in Hw; left; eauto;
      apply release_needs in Hw as (w' & H1 & H2); eauto.
Qed.

Lemma prun_needs p os w :
  w ∈ p_wait (prun p os) ->
  (exists w', w' ∈ p_wait p /\ w_need w' = w_need w) \/ w_need w ∈ asked os.
Proof.
  unfold prun. revert p. induction os as [|o os IH]; intros p Hw; cbn in *; [left; eauto|].
  destruct (IH _ Hw) as [(w' & H1 & H2)|H].
  - apply pstep_needs in H1 as [(w'' & H3 & H4)|[id ->]].
    + left. exists w''. split; [done|]. congruence.
    + right. cbn. rewrite H2. left.
  - right. unfold asked in *. cbn. destruct o; try done. by right.
Qed.

(** With nothing held, nobody waits for something that fits the pool. *)
Lemma idle_no_wait P p :
  pinv P p -> p_live p = ∅ -> (forall w, w ∈ p_wait p -> (w_need w <= P)%N) ->
  p_wait p = [] /\ p_avail p = P.
Proof.
  intros [Hsum Hs Hw Hh Hnd Hf] He Hn. rewrite He, held_empty in Hsum.
  destruct (p_wait p) as [|w ws] eqn:E.
  - rewrite collected_nil in Hsum. split; [done|lia].
  - exfalso. rewrite (Hw ltac:(done)), collected_cons in Hsum. cbn [tail] in Hh.
    assert (collected ws = 0%N) as Hc.
    { clear -Hh. induction Hh as [|v ws Hv _ IH]; [done|]. rewrite collected_cons. lia. }
    apply Forall_cons in Hs as [Hlt _].
    pose proof (Hn w ltac:(left)). lia.
Qed.

Lemma all_fit P os :
  Forall (fun n => (n <= P)%N) (asked os) -> p_live (prun (pool_new P) os) = ∅ ->
  p_wait (prun (pool_new P) os) = [] /\ p_avail (prun (pool_new P) os) = P.
Proof.
  intros Ha He. apply (idle_no_wait P); [apply pool_inv|exact He|].
  intros w Hw. apply prun_needs in Hw as [(w' & H1 & _)|Hw].
  - by apply not_elem_of_nil in H1.
  - rewrite Forall_forall in Ha. by apply Ha.
Qed.

(** * Too large for the pool *)

Record stuck (P n : N) (id : nat) (p : pool) : Prop := Stuck {
  st_wait : exists ws, p_wait p = Waiter id n P :: ws /\ Forall (fun w => w_got w = 0%N) ws;
  st_avail : p_avail p = 0%N;
  st_live : forall j m c, p_live p !! j = Some (m, c) -> m = 0%N }.

Lemma hand_out_zero n P id ws :
  (P < n)%N -> hand_out 0 (Waiter id n P :: ws) = (0%N, [], Waiter id n P :: ws).
Proof.
  intros H. cbn. destruct (n - P <=? 0)%N eqn:E; [apply N.leb_le in E; lia|].
  by rewrite N.add_0_r.
Qed.

Lemma pstep_stuck P n id p o :
  (P < n)%N -> stuck P n id p -> NoDup (wids (p_wait p)) -> o <> PCancel id ->
  stuck P n id (pstep p o).
Proof.
  intros HP [(ws & Ew & Hz) Ha Hl] Hnd Ho.
  assert (Hrel : forall live, (forall j m c, live !! j = Some (m, c) -> m = 0%N) ->
    forall ws', Forall (fun w => w_got w = 0%N) ws' ->
    stuck P n id (release (Pool (p_avail p) (Waiter id n P :: ws') live) 0)).
  { intros live Hlive ws' Hz'. unfold release. cbn [p_wait p_avail p_live].
    rewrite hand_out_zero by done. constructor; cbn [p_avail p_wait p_live]; [eauto|lia|exact Hlive]. }
  destruct o as [j k|j|j|j]; cbn [pstep].
  - destruct (p_known p j) eqn:Ek; [constructor; eauto|].
    destruct (k <=? p_avail p)%N eqn:El.
    + apply N.leb_le in El. rewrite Ha in El. constructor; cbn [p_avail p_wait p_live].
      * eauto.
      * lia.
      * intros j' m c. destruct (decide (j' = j)) as [->|Hne].
        -- rewrite lookup_insert. intros E. injection E as <- <-. lia.
        -- rewrite lookup_insert_ne by done. apply Hl.
    + constructor; cbn [p_avail p_wait p_live].
      * rewrite Ew. exists (ws ++ [Waiter j k (p_avail p)]). split; [done|].
        apply Forall_app. split; [done|]. constructor; [cbn; done|constructor].
      * done.
      * exact Hl.
  - destruct (List.find _ (p_wait p)) as [w|] eqn:Ef; [|constructor; eauto].
    rewrite Ew in *. cbn [List.find List.filter w_id] in *.
    destruct (id =? j) eqn:Ej; [apply Nat.eqb_eq in Ej; subst; done|].
    cbn [negb].
    assert (w ∈ ws) as Hin.
    { apply find_some in Ef as [Hin _]. by apply elem_of_list_In. }
    assert (w_got w = 0%N) as -> by (rewrite Forall_forall in Hz; by apply Hz).
    apply Hrel; [exact Hl|].
    apply Forall_forall. intros v Hv. apply elem_of_list_In, filter_In in Hv as [Hv _].
    rewrite Forall_forall in Hz. apply Hz. by apply elem_of_list_In.
  - destruct (p_live p !! j) as [[m c]|] eqn:El; [|constructor; eauto].
    constructor; cbn [p_avail p_wait p_live]; eauto. intros j' m' c'. destruct (decide (j' = j)) as [->|Hne].
    + rewrite lookup_insert. intros E. injection E as <- <-. by eapply Hl.
    + rewrite lookup_insert_ne by done. apply Hl.
  - destruct (p_live p !! j) as [[m c]|] eqn:El; [|constructor; eauto].
    pose proof (Hl _ _ _ El) as ->.
    assert (stuck P n id (release (Pool (p_avail p) (p_wait p) (delete j (p_live p))) 0)).
    { rewrite Ew. apply Hrel; [|exact Hz]. intros j' m' c' Hj.
      apply lookup_delete_Some in Hj as [_ Hj]. by eapply Hl. }
    destruct c as [|[|c]]; [done|done|].
    constructor; cbn [p_avail p_wait p_live]; eauto. intros j' m' c'. destruct (decide (j' = j)) as [->|Hne].
    + rewrite lookup_insert. intros E. injection E as <- <-. done.
    + rewrite lookup_insert_ne by done. apply Hl.
Qed.

Lemma stuck_forever P n id os :
  (P < n)%N -> PCancel id ∉ os ->
  stuck P n id (prun (pool_new P) (PAlloc id n :: os)).
Proof.
  intros HP. induction os as [|o os IH] using rev_ind; intros Hc.
  - unfold prun. cbn [fold_left]. constructor.
    + exists []. cbn [pstep]. unfold p_known. cbn.
      destruct (n <=? P)%N eqn:E; [apply N.leb_le in E; lia|]. cbn. split; [done|constructor].
    + cbn [pstep]. unfold p_known. cbn.
      destruct (n <=? P)%N eqn:E; [apply N.leb_le in E; lia|]. done.
    + cbn [pstep]. unfold p_known. cbn.
      destruct (n <=? P)%N eqn:E; [apply N.leb_le in E; lia|]. cbn.
      intros j m c H. by rewrite lookup_empty in H.
  - unfold prun in *. rewrite app_comm_cons, fold_left_app. cbn [fold_left].
    apply not_elem_of_app in Hc as [Hc1 Hc2]. apply pstep_stuck; [done|by apply IH| |].
    + apply (pi_nodup P). apply (pool_inv P (PAlloc id n :: os)).
    + set_solver.
Qed.

(** * Copies *)


(** The permit of a message lives exactly as long as some copy of the message. *)
Lemma hand_out_done ws k r dn rest w :
  hand_out k ws = (r, dn, rest) -> w ∈ dn -> w_id w ∈ wids ws.
Proof.
  revert k r dn rest. induction ws as [|v ws IH]; intros k r dn rest E Hw; cbn in E.
  - injection E as <- <- <-. by apply not_elem_of_nil in Hw.
  - destruct (_ <=? k)%N.
    + destruct (hand_out _ ws) as [[r' d'] rest'] eqn:Eh. injection E as <- <- <-.
      unfold wids. cbn. apply elem_of_cons in Hw as [->|Hw]; [left|right].
      by eapply IH.
    + injection E as <- <- <-. by apply not_elem_of_nil in Hw.
Qed.

Lemma release_lookup p k id :
  id ∉ wids (p_wait p) -> p_live (release p k) !! id = p_live p !! id.
Proof.
  intros Hn. unfold release. destruct (hand_out k (p_wait p)) as [[r dn] rest] eqn:E.
  cbn [p_live]. apply add_live_lookup. intros Hin.
  apply elem_of_list_fmap in Hin as (w & -> & Hw). apply Hn. by eapply hand_out_done.
Qed.

Lemma live_not_waiting P p id v :
  pinv P p -> p_live p !! id = Some v -> id ∉ wids (p_wait p).
Proof.
  intros Hp Hl Hin. apply elem_of_list_fmap in Hin as (w & -> & Hw).
  rewrite (pi_fresh _ _ Hp w Hw) in Hl. done.
Qed.

Lemma pstep_live P p o id n c :
  pinv P p -> p_live p !! id = Some (n, S c) ->
  p_live (pstep p o) !! id =
  match o with
  | PClone j => Some (n, if decide (j = id) then S (S c) else S c)
  | PDrop j => if decide (j = id) then match c with 0 => None | S c' => Some (n, S c') end
               else Some (n, S c)
  | _ => Some (n, S c)
  end.
Proof.
  intros Hp Hl. pose proof (live_not_waiting _ _ _ _ Hp Hl) as Hn.
  destruct o as [j k|j|j|j]; cbn [pstep].
  - destruct (p_known p j) eqn:Ek; [done|].
    destruct (known_false _ _ Ek) as [Hk _].
    destruct (k <=? p_avail p)%N; cbn [p_live]; [|done].
    rewrite lookup_insert_ne; [done|]. intros ->. congruence.
  - destruct (List.find _ (p_wait p)) as [w|] eqn:Ef; [|done].
    rewrite release_lookup; [done|]. cbn [p_wait]. intros Hin.
    apply elem_of_list_fmap in Hin as (v & -> & Hv). apply Hn.
    apply elem_of_list_In, filter_In in Hv as [Hv _].
    apply elem_of_list_fmap. exists v. split; [done|]. by apply elem_of_list_In.
  - destruct (decide (j = id)) as [->|Hne].
    + rewrite Hl. cbn [p_live]. by rewrite lookup_insert.
    + destruct (p_live p !! j) as [[m d]|] eqn:Ej; [|done]. cbn [p_live].
      by rewrite lookup_insert_ne.
  - destruct (decide (j = id)) as [->|Hne].
    + rewrite Hl. destruct c as [|c].
      * rewrite release_lookup by done. cbn [p_live]. apply lookup_delete.
      * cbn [p_live]. by rewrite lookup_insert.
    + destruct (p_live p !! j) as [[m d]|] eqn:Ej; [|done].
      destruct d as [|[|d]]; [..|cbn [p_live]; by rewrite lookup_insert_ne];
        rewrite release_lookup by done; cbn [p_live]; by rewrite lookup_delete_ne.
Qed.

Lemma copies_live P p id n c os :
  pinv P p -> p_live p !! id = Some (n, S c) ->
  (forall os1 os2, os = os1 ++ os2 -> drops id os1 <= c + clones id os1) ->
  p_live (prun p os) !! id = Some (n, S (c + clones id os - drops id os)).
Proof.
  unfold prun. revert p c. induction os as [|o os IH]; intros p c Hp Hl Hd; cbn [fold_left].
  - rewrite Hl. cbn. do 2 f_equal. lia.
  - pose proof (pstep_live P p o id n c Hp Hl) as Hs.
    pose proof (pstep_inv P p o Hp) as Hp'.
    destruct o as [j k|j|j|j].
    + apply (IH _ _ Hp' Hs). intros os1 os2 ->. apply (Hd (PAlloc j k :: os1) os2 eq_refl).
    + apply (IH _ _ Hp' Hs). intros os1 os2 ->. apply (Hd (PCancel j :: os1) os2 eq_refl).
    + unfold clones, drops in *.
      destruct (decide (j = id)) as [->|Hne].
      * rewrite (IH _ _ Hp' Hs).
        -- cbn. rewrite Nat.eqb_refl. do 2 f_equal. cbn. lia.
        -- intros os1 os2 ->. specialize (Hd (PClone id :: os1) os2 eq_refl).
           cbn in Hd. rewrite Nat.eqb_refl in Hd. cbn in Hd. lia.
      * assert (j =? id = false) as Ej by by apply Nat.eqb_neq.
        rewrite (IH _ _ Hp' Hs).
        -- cbn. by rewrite Ej.
        -- intros os1 os2 ->. specialize (Hd (PClone j :: os1) os2 eq_refl).
           cbn in Hd. rewrite Ej in Hd. exact Hd.
    + unfold clones, drops in *.
      destruct (decide (j = id)) as [->|Hne].
      * pose proof (Hd [PDrop id] os eq_refl) as H1. cbn in H1.
        rewrite Nat.eqb_refl in H1. cbn in H1.
        destruct c as [|c]; [lia|].
        rewrite (IH _ _ Hp' Hs).
        -- cbn. rewrite Nat.eqb_refl. done.
        -- intros os1 os2 ->. specialize (Hd (PDrop id :: os1) os2 eq_refl).
           cbn in Hd. rewrite Nat.eqb_refl in Hd. cbn in Hd. lia.
      * assert (j =? id = false) as Ej by by apply Nat.eqb_neq.
        rewrite (IH _ _ Hp' Hs).
        -- cbn. by rewrite Ej.
        -- intros os1 os2 ->. specialize (Hd (PDrop j :: os1) os2 eq_refl).
           cbn in Hd. rewrite Ej in Hd. exact Hd.
Qed.

(** The last copy gives the permit back. *)
Lemma last_copy P p id n :
  pinv P p -> p_live p !! id = Some (n, 1) -> p_live (pstep p (PDrop id)) !! id = None.
Proof.
  intros Hp Hl. rewrite (pstep_live P p (PDrop id) id n 0 Hp Hl).
  by rewrite decide_True.
Qed.
