(** Closing the client. *)
From stdpp Require Import gmap list.
From Coq Require Import NArith Lia.
From Verif Require Import TopicModel TopicProofs ClientModel ClientSpec ClientProofs ClientSubs.

(** Which places a thread can be in, given whether the client is closed. *)
Definition wf_pc (closed : bool) (p : pc) : Prop :=
  match p with
  | PSubLock o | PGet o | PStore o _ => o <> KClose
  | PUse o _ | PFail o _ | PTake o _ => o <> KClose /\ o <> KEnsure
  | PClose2 | PClose3 => closed = true
  | _ => True
  end.

Definition pwf (k : client) : Prop := forall t p, k_thr k !! t = Some p -> wf_pc (k_closed k) p.

Lemma wf_mono p : wf_pc false p -> wf_pc true p.
Proof. by destruct p. Qed.
Lemma pwf_move k t p : pwf k -> (forall q, p = Some q -> wf_pc (k_closed k) q) -> pwf (w_thr k t p).
Proof. intros H Hp t' o. cbn. rewrite pa_lookup. case_decide; intros; simplify_eq; eauto. Qed.
Lemma pwf_unlock k t : pwf k -> pwf (unlock k t).
Proof. unfold unlock. by case_decide. Qed.
Lemma pwf_ret k t o ok : pwf k -> pwf (ret k t o ok).1.
Proof. intros H. by apply pwf_unlock, pwf_move. Qed.
Lemma pwf_no_conn k t o : pwf k -> pwf (no_conn k t o).1.
Proof. intros H. destruct o; cbn [no_conn]; try by apply pwf_ret. apply pwf_move; [done|]. by intros ? [= <-]. Qed.
Lemma pwf_rin k t o : pwf k -> o <> KClose -> pwf (reconnect_if_needed k t o).1.
Proof.
  intros H Ho. unfold reconnect_if_needed. destruct (k_slot k).
  - assert (Hu : o <> KEnsure -> pwf (w_thr k t (Some (PUse o n)))) by (intros; apply pwf_move; [done|]; by intros ? [= <-]).
    destruct o; try (by apply Hu). by apply pwf_ret.
  - destruct (k_closed k) eqn:Ec; [by apply pwf_no_conn|]. destruct (k_permit k); [|by apply pwf_no_conn].
    intros t' o'. cbn. rewrite ins_lookup. case_decide; intros; simplify_eq; [done|]. rewrite <- Ec. eauto.
Qed.
Lemma pwf_used k o c : pwf k -> pwf (used k o c).
Proof. intros H. by destruct o. Qed.
Lemma pwf_closed k : pwf k -> pwf (w_closed k).
Proof. intros H t p Hp. specialize (H t p Hp). cbn. destruct (k_closed k); [done|]. by apply wf_mono. Qed.

Lemma pwf_step k e : pwf k -> pwf (kstep k e).1.
Proof.
  intros H. destruct e as [t o|t b|t|r b|r]; cbn [kstep].
  - destruct (k_thr k !! t); [done|]. apply pwf_move; [done|]. intros o' [= <-]. destruct o; done.
  - destruct (k_thr k !! t) as [p|] eqn:Hp; [|done]. pose proof (H _ _ Hp) as Hw. destruct p; cbn [tstep].
    + case_decide; [|done]. apply (pwf_move k t (Some (PGet o))); [done|]. by intros ? [= <-].
    + destruct (k_closed k); [by apply pwf_ret|]. apply pwf_move; [done|]. by intros ? [= <-].
    + pose proof (pwf_rin k t o H Hw). pose proof (pwf_no_conn k t o H). unfold get. destruct (k_wl k), o, b; auto.
    + by apply pwf_no_conn.
    + destruct b; [|apply pwf_move; [done|]; by intros ? [= <-]].
      unfold ret; cbn [fst]. by apply pwf_unlock, pwf_move; [apply pwf_used|].
    + destruct (_ && _); [apply pwf_move; [done|]; by intros ? [= <-]|by apply pwf_ret].
    + destruct (no_readers k); [|done]. unfold ret; cbn [fst]. by apply pwf_unlock, pwf_move.
    + destruct (_ || _); [|done]. by apply pwf_ret.
    + apply (pwf_move (w_closed k)); [by apply pwf_closed|]. by intros ? [= <-].
    + apply (pwf_move (w_handle k None)); [done|]. by intros ? [= <-].
    + destruct (no_readers k); [|done]. unfold ret; cbn [fst]. by apply pwf_unlock, pwf_move.
  - destruct (k_thr k !! t) as [p|]; [|done]. assert (pwf (unlock (w_thr k t None) t)) by by apply pwf_unlock, pwf_move.
    destruct p as [ | |[]| | | | | | | | ]; done.
  - destruct (k_tasks k !! r) as [q|]; [|done].
    destruct q; cbn [qstep]; repeat (case_decide || case_match); exact H.
  - destruct (k_tasks k !! r) as [q|]; [|done]. case_decide; [|done]. destruct q; exact H.
Qed.

Lemma krun_pwf ts es : pwf (krun ts es).1.
Proof.
  induction es as [|e es IH] using rev_ind.
  - intros t p Ht. cbn in Ht. simplify_map_eq.
  - rewrite krun_snoc. by apply pwf_step.
Qed.

(** After [close] has returned. *)
Record shut (k : client) : Prop := {
  sh_closed : k_closed k = true;
  sh_slot : k_slot k = None;
  sh_tasks : forall r q, k_tasks k !! r = Some q -> q = QLock \/ q = QTop \/ q = QSleep;
}.

Definition shs (k : client) := (k_closed k, k_slot k, k_tasks k).
Lemma shut_same k k' : shs k' = shs k -> shut k -> shut k'.
Proof. unfold shs. intros [= E1 E2 E3] []. split; rewrite ?E1, ?E2, ?E3; auto. Qed.
Lemma unlock_shs k t : shs (unlock k t) = shs k.
Proof. unfold unlock. by case_decide. Qed.
Lemma no_conn_shs k t o : shs (no_conn k t o).1 = shs k.
Proof. destruct o; cbn [no_conn]; unfold ret; cbn [fst]; by rewrite ?unlock_shs. Qed.

(** What one step does once the client is shut, and which threads can still succeed. *)
Definition quiet (o : cout) : Prop := match o with OAttempt _ | OConn _ _ => False | _ => True end.

Lemma shut_get k t o b : shut k -> (get k t o b) = (k, []) \/ get k t o b = no_conn k t o.
Proof.
  intros []. unfold get, reconnect_if_needed. rewrite sh_slot0, sh_closed0.
  destruct (k_wl k), o, b; auto.
Qed.

Lemma no_conn_quiet k t o : Forall quiet (no_conn k t o).2.
Proof. destruct o; cbn; repeat constructor. Qed.

Lemma shut_task k r q : shut k -> (forall q', q = Some q' -> q' = QLock \/ q' = QTop \/ q' = QSleep) -> shut (w_task k r q).
Proof.
  intros [] Hq. split; auto. intros r' q'. cbn. rewrite pa_lookup. case_decide; intros; simplify_eq; eauto.
Qed.

Ltac nil := split; [assumption|constructor].

Lemma shut_step k e : shut k -> shut (kstep k e).1 /\ Forall quiet (kstep k e).2.
Proof.
  intros H. destruct e as [t o|t b|t|r b|r]; cbn [kstep].
  - destruct (k_thr k !! t); [nil|]. split; [by eapply shut_same; [|exact H]|repeat constructor].
  - destruct (k_thr k !! t) as [p|]; [|nil]. destruct p; cbn [tstep].
    + case_decide; [|nil]. split; [|constructor]. by eapply shut_same; [|exact H].
    + rewrite (sh_closed _ H). unfold ret. cbn [fst snd]. split; [|repeat constructor].
      eapply shut_same; [apply unlock_shs|]. by eapply shut_same; [|exact H].
    + destruct (shut_get k t o b H) as [-> | ->]; [nil|]. split; [|apply no_conn_quiet].
      eapply shut_same; [apply no_conn_shs|done].
    + split; [|apply no_conn_quiet]. eapply shut_same; [apply no_conn_shs|]. by eapply shut_same; [|exact H].
    + destruct b; [|split; [by eapply shut_same; [|exact H]|repeat constructor]]. unfold ret. cbn [fst snd].
      split; [|repeat constructor]. eapply shut_same; [rewrite unlock_shs|exact H]. by destruct o.
    + destruct (_ && _); [split; [by eapply shut_same; [|exact H]|constructor]|]. unfold ret. cbn [fst snd].
      split; [|repeat constructor]. eapply shut_same; [rewrite unlock_shs|exact H]. done.
    + destruct (no_readers k); [|nil]. unfold ret. cbn [fst snd]. split; [|repeat constructor].
      eapply shut_same; [rewrite unlock_shs|exact H]. unfold shs. cbn. by rewrite (sh_slot _ H).
    + destruct (_ || _); [|nil]. unfold ret. cbn [fst snd]. split; [|repeat constructor].
      eapply shut_same; [rewrite unlock_shs|exact H]. done.
    + split; [|constructor]. destruct H. by split.
    + split; [|constructor]. by eapply shut_same; [|exact H].
    + destruct (no_readers k); [|nil]. unfold ret. cbn [fst snd]. split; [|repeat constructor].
      eapply shut_same; [rewrite unlock_shs|exact H]. unfold shs. cbn. by rewrite (sh_slot _ H).
  - destruct (k_thr k !! t) as [p|]; [|nil]. split; [|constructor]. cbn [fst].
    assert (shut (unlock (w_thr k t None) t)) by (eapply shut_same; [rewrite unlock_shs|exact H]; done).
    destruct p as [ | |[]| | | | | | | | ]; done.
  - destruct (k_tasks k !! r) as [q|] eqn:Hq; [|nil]. destruct (sh_tasks _ H _ _ Hq) as [->|[->| ->]]; cbn [qstep].
    + destruct (no_readers k); [|nil]. split; [|constructor].
      eapply (shut_same (w_task k r (Some QTop))); [done|]. apply shut_task; [done|]. intros ? [= <-]; auto.
    + rewrite (sh_closed _ H). split; [|constructor]. apply shut_task; [done|]. intros ? [= <-]; auto.
    + split; [|constructor]. apply shut_task; [done|]. intros ? [= <-]; auto.
  - destruct (k_tasks k !! r) as [q|] eqn:Hq; [|nil]. case_decide; [|nil]. split; [|constructor]. cbn [fst].
    assert (shut (w_task k r None)) by (apply shut_task; done).
    destruct (sh_tasks _ H _ _ Hq) as [->|[->| ->]]; cbn [qabort]; by eapply shut_same; [|exact H1].
Qed.

Lemma shut_go k es : shut k -> shut (kgo k es).1 /\ Forall quiet (kgo k es).2.
Proof.
  revert k. induction es as [|e es IH]; intros k H; [nil|]. rewrite kgo_cons. cbn [fst snd].
  destruct (shut_step k e H) as [H1 H2]. destruct (IH _ H1) as [H3 H4]. split; [done|]. by apply Forall_app.
Qed.

Lemma no_conn_outs k t o x : In x (no_conn k t o).2 -> x = ORet t o false.
Proof. destruct o; cbn; intuition. Qed.

Lemma get_outs k t o b x : In x (get k t o b).2 -> x = ORet t o false \/ x = ORet t o true /\ o = KEnsure.
Proof.
  assert (Hr : In x (reconnect_if_needed k t o).2 -> x = ORet t o false \/ x = ORet t o true /\ o = KEnsure).
  { unfold reconnect_if_needed. destruct (k_slot k).
    - destruct o; cbn; intuition.
    - destruct (k_closed k); [intros Hx; left; by eapply no_conn_outs|].
      destruct (k_permit k); [done|]. intros Hx; left; by eapply no_conn_outs. }
  unfold get. pose proof (no_conn_outs k t o x). destruct (k_wl k), o, b; auto; done.
Qed.

(** The moment [close] returns. *)
Lemma close_ret k e t : tk k -> pwf k -> In (ORet t KClose true) (kstep k e).2 -> shut (kstep k e).1.
Proof.
  intros Htk Hp. destruct e as [t' o|t' b|t'|r b|r]; cbn [kstep].
  - destruct (k_thr k !! t'); cbn; [done|]. by intros [?|[]].
  - destruct (k_thr k !! t') as [p|] eqn:Ht; [|done]. specialize (Hp _ _ Ht). destruct p; cbn [tstep].
    + by case_decide.
    + destruct (k_closed k); [|done]. cbn. by intros [?|[]].
    + intros Hx. destruct (get_outs _ _ _ _ _ Hx) as [?|[? ?]]; simplify_eq.
    + intros Hx. pose proof (no_conn_outs _ _ _ _ Hx). simplify_eq.
    + destruct b; cbn; [|by intros [?|[]]]. cbn in Hp. destruct Hp. intros [?|[?|[]]]; simplify_eq.
    + destruct (_ && _); [done|]. cbn. intros [?|[]]; simplify_eq.
    + destruct (no_readers k); [|done]. cbn. intros [?|[?|[]]]; simplify_eq.
    + destruct (_ || _); [|done]. cbn. by intros [?|[]].
    + done.
    + done.
    + destruct (no_readers k) eqn:En; [|done]. unfold ret. cbn [fst snd]. intros _.
      eapply shut_same; [apply unlock_shs|]. split; cbn; auto. intros r q Hr. left.
      pose proof (ti_holds _ _ _ _ _ _ Htk _ _ Hr) as Hh. rewrite (no_readers_wl _ En) in Hh.
      destruct q; auto; exfalso; by assert (None = Some r) by (apply Hh; done).
  - destruct (k_thr k !! t'); done.
  - destruct (k_tasks k !! r) as [q|]; [|done]. destruct q; cbn [qstep]; repeat (case_decide || case_match); cbn; try done;
      by intros [?|[]].
  - destruct (k_tasks k !! r) as [q|]; [|done]. by case_decide.
Qed.

(** [ensure_initialized] fails only on a closed client. *)
Lemma ensure_err k e t : pwf k -> In (ORet t KEnsure false) (kstep k e).2 -> k_closed k = true.
Proof.
  intros Hp. destruct e as [t' o|t' b|t'|r b|r]; cbn [kstep].
  - destruct (k_thr k !! t'); cbn; [done|]. by intros [?|[]].
  - destruct (k_thr k !! t') as [p|] eqn:Ht; [|done]. specialize (Hp _ _ Ht). destruct p; cbn [tstep].
    + by case_decide.
    + by destruct (k_closed k).
    + intros Hx. assert (o = KEnsure) as ->.
      { destruct (get_outs _ _ _ _ _ Hx) as [?|[? ?]]; simplify_eq. done. }
      exfalso. revert Hx. unfold get, reconnect_if_needed.
      destruct (k_wl k), b, (k_slot k), (k_closed k), (k_permit k); cbn; try tauto; by intros [?|[]].
    + intros Hx. exfalso. assert (o = KEnsure) as -> by (pose proof (no_conn_outs _ _ _ _ Hx); by simplify_eq). done.
    + destruct Hp. destruct b; cbn; [by intros [?|[?|[]]]|by intros [?|[]]].
    + destruct Hp. destruct (_ && _); [done|]. cbn. intros [?|[]]; simplify_eq.
    + destruct Hp. destruct (no_readers k); [|done]. cbn. intros [?|[?|[]]]; simplify_eq.
    + destruct (_ || _); [|done]. cbn. by intros [?|[]].
    + done.
    + done.
    + destruct (no_readers k); [|done]. cbn. by intros [?|[]].
  - by destruct (k_thr k !! t').
  - destruct (k_tasks k !! r) as [q|]; [|done]. destruct q; cbn [qstep]; repeat (case_decide || case_match); cbn; try done;
      by intros [?|[]].
  - destruct (k_tasks k !! r) as [q|]; [|done]. by case_decide.
Qed.

Lemma step_closed_mono k e : k_closed k = true -> k_closed (kstep k e).1 = true.
Proof.
  intros H.
  assert (Hu : forall x t, k_closed (unlock x t) = k_closed x) by (intros x t; unfold unlock; by case_decide).
  assert (Hn : forall x t o, k_closed (no_conn x t o).1 = k_closed x) by (intros x t o; destruct o; cbn; by rewrite ?Hu).
  destruct e as [t o|t b|t|r b|r]; cbn [kstep].
  - by destruct (k_thr k !! t).
  - destruct (k_thr k !! t) as [p|]; [|done]. destruct p; cbn [tstep].
    + by case_decide.
    + rewrite H. cbn. by rewrite Hu.
    + unfold get, reconnect_if_needed. rewrite H.
      destruct (k_wl k), o, b, (k_slot k); rewrite ?Hn; cbn; rewrite ?Hu; done.
    + by rewrite Hn.
    + destruct b; [|done]. cbn. rewrite Hu. by destruct o.
    + destruct (_ && _); [done|]. cbn. by rewrite Hu.
    + destruct (no_readers k); [|done]. cbn. by rewrite Hu.
    + destruct (_ || _); [|done]. cbn. by rewrite Hu.
    + done.
    + done.
    + destruct (no_readers k); [|done]. cbn. by rewrite Hu.
  - destruct (k_thr k !! t) as [p|]; [|done]. destruct p as [ | |[]| | | | | | | | ]; cbn; rewrite ?Hu; done.
  - destruct (k_tasks k !! r) as [q|]; [|done]. destruct q; cbn [qstep]; repeat (case_decide || case_match); done.
  - destruct (k_tasks k !! r) as [q|]; [|done]. case_decide; [|done]. by destruct q.
Qed.

Lemma ensure_err_closed ts es t : In (ORet t KEnsure false) (krun ts es).2 -> k_closed (krun ts es).1 = true.
Proof.
  induction es as [|e es IH] using rev_ind; [done|]. rewrite krun_snoc. cbn [fst snd].
  intros [H|H]%in_app_or; apply step_closed_mono; [by apply IH|]. eapply ensure_err; eauto. apply krun_pwf.
Qed.

Lemma closed_shut ts es t : In (ORet t KClose true) (krun ts es).2 -> shut (krun ts es).1.
Proof.
  induction es as [|e es IH] using rev_ind; [done|]. rewrite krun_snoc. cbn [fst snd].
  intros [H|H]%in_app_or; [by apply shut_step, IH|].
  eapply close_ret; eauto; [apply krun_tk|apply krun_pwf].
Qed.

(** A call started after [close] has returned. *)
Definition late (p : pc) : Prop :=
  match p with PSubLock _ | PEns0 | PClose1 | PClose2 | PClose3 => True | PGet o => o <> KEnsure | _ => False end.
Definition lateT (k : client) (t : N) : Prop :=
  match k_thr k !! t with None => True | Some p => late p end.

Lemma lateT_move k t t' p : lateT k t -> (t' = t -> forall q, p = Some q -> late q) -> lateT (w_thr k t' p) t.
Proof. unfold lateT. cbn. rewrite pa_lookup. case_decide; [|done]. intros _ Hq. destruct p; eauto. Qed.
Lemma lateT_unlock k t t' : lateT k t -> lateT (unlock k t') t.
Proof. unfold unlock. by case_decide. Qed.
Lemma lateT_no_conn k t t' o : lateT k t -> (t' = t -> o <> KEnsure) -> lateT (no_conn k t' o).1 t.
Proof.
  intros H Ho. destruct o; cbn [no_conn]; unfold ret; cbn [fst]; try by apply lateT_unlock, lateT_move.
  apply lateT_move; [done|]. intros E. by specialize (Ho E).
Qed.

Definition fails (t : N) (x : cout) : Prop := match x with ORet t' o true => t' = t -> o = KClose | _ => True end.

Lemma late_step k e t : shut k -> psl k -> lateT k t -> lateT (kstep k e).1 t /\ Forall (fails t) (kstep k e).2.
Proof.
  intros H Hs HL. destruct e as [t' o|t' b|t'|r b|r]; cbn [kstep].
  - destruct (k_thr k !! t'); [nil|]. split; [|repeat constructor]. apply lateT_move; [done|]. intros _ q [= <-].
    by destruct o.
  - destruct (k_thr k !! t') as [p|] eqn:Ht; [|nil].
    assert (Hp : t' = t -> late p) by (intros ->; unfold lateT in HL; by rewrite Ht in HL).
    destruct p; cbn [tstep].
    + case_decide; [|nil]. split; [|constructor]. apply (lateT_move k t t' (Some (PGet o))); [done|].
      intros -> q [= <-]. cbn. intros ->. specialize (Hs _ _ Ht). done.
    + rewrite (sh_closed _ H). unfold ret. cbn [fst snd]. split; [by apply lateT_unlock, lateT_move|repeat constructor].
    + destruct (shut_get k t' o b H) as [-> | ->]; [nil|]. split; [by apply lateT_no_conn|].
      apply List.Forall_forall. intros x Hx. by rewrite (no_conn_outs _ _ _ _ Hx).
    + split; [|apply List.Forall_forall; intros x Hx; by rewrite (no_conn_outs _ _ _ _ Hx)].
      apply lateT_no_conn; [done|]. intros E. destruct (Hp E).
    + destruct b; [unfold ret; cbn [fst snd]|]; (split; [|repeat constructor]).
      * apply lateT_unlock, lateT_move; [|done]. by destruct o.
      * cbn. intros E. destruct (Hp E).
      * apply lateT_move; [done|]. intros E. destruct (Hp E).
    + destruct (_ && _); [|unfold ret; cbn [fst snd]]; (split; [|repeat constructor]).
      * apply lateT_move; [done|]. intros E. destruct (Hp E).
      * by apply lateT_unlock, lateT_move.
    + destruct (no_readers k); [|nil]. unfold ret; cbn [fst snd]. split; [|repeat constructor].
      by apply lateT_unlock, lateT_move.
    + destruct (_ || _); [|nil]. unfold ret; cbn [fst snd]. split; [by apply lateT_unlock, lateT_move|].
      repeat constructor. cbn. intros E. destruct (Hp E).
    + split; [|constructor]. apply (lateT_move (w_closed k)); [done|]. by intros _ ? [= <-].
    + split; [|constructor]. apply (lateT_move (w_handle k None)); [done|]. by intros _ ? [= <-].
    + destruct (no_readers k); [|nil]. unfold ret; cbn [fst snd]. split; [by apply lateT_unlock, lateT_move|].
      repeat constructor.
  - destruct (k_thr k !! t') as [p|]; [|nil]. split; [|constructor]. cbn [fst].
    assert (lateT (unlock (w_thr k t' None) t') t) by by apply lateT_unlock, lateT_move.
    destruct p as [ | |[]| | | | | | | | ]; done.
  - destruct (k_tasks k !! r) as [q|]; [|nil]. split.
    + destruct q; cbn [qstep]; repeat (case_decide || case_match); exact HL.
    + destruct q; cbn [qstep]; repeat (case_decide || case_match); repeat constructor.
  - destruct (k_tasks k !! r) as [q|]; [|nil]. case_decide; [|nil]. split; [|constructor]. destruct q; exact HL.
Qed.

Lemma psl_go k es : psl k -> psl (kgo k es).1.
Proof.
  revert k. induction es as [|e es IH]; intros k H; [done|]. rewrite kgo_cons. cbn [fst]. by apply IH, psl_step.
Qed.

Lemma late_go k es t : shut k -> psl k -> lateT k t -> Forall (fails t) (kgo k es).2.
Proof.
  revert k. induction es as [|e es IH]; intros k H Hs HL; [constructor|]. rewrite kgo_cons. cbn [snd].
  destruct (late_step k e t H Hs HL) as [H1 H2]. apply Forall_app. split; [done|].
  apply IH; [by apply shut_step|by apply psl_step|done].
Qed.

(** * Closing ends a running reconnection *)
Lemma close_gone k r q : tk k -> k_tasks k !! r = Some q -> (forall r' q', k_tasks k !! r' = Some q' -> r' = r) ->
  r ∈ k_abort k ->
  let g := kgo k [EAbort r; ETask r false; ETask r false] in
  k_wl g.1 = None /\ k_thr g.1 = k_thr k /\ k_rd g.1 = k_rd k /\ g.2 = [].
Proof.
  intros [] Hq Hu Ha. cbn [kgo kstep]. rewrite Hq. rewrite decide_True by done.
  destruct q; cbn [qabort].
  - unfold w_permit, w_task; cbn [k_tasks]. rewrite lookup_partial_alter. cbn [fst snd k_wl k_thr k_rd k_tasks app].
    rewrite lookup_partial_alter. cbn [fst snd k_wl k_thr k_rd]. split_and!; [|done|done|done].
    destruct (k_wl k) as [r'|] eqn:E; [|done]. destruct (ti_held r' eq_refl) as (q' & H1 & H2).
    pose proof (Hu _ _ H1) as ->. congruence.
  - unfold w_wl, w_permit, w_task; cbn [k_tasks]. repeat (rewrite lookup_partial_alter; cbn [fst snd k_wl k_thr k_rd k_tasks app]). done.
  - unfold w_wl, w_permit, w_task; cbn [k_tasks]. repeat (rewrite lookup_partial_alter; cbn [fst snd k_wl k_thr k_rd k_tasks app]). done.
  - unfold w_subr, w_wl, w_permit, w_task; cbn [k_tasks]. repeat (rewrite lookup_partial_alter; cbn [fst snd k_wl k_thr k_rd k_tasks app]). done.
  - unfold w_wl, w_permit, w_task; cbn [k_tasks]. repeat (rewrite lookup_partial_alter; cbn [fst snd k_wl k_thr k_rd k_tasks app]). done.
  - rewrite Hq. cbn [qstep]. unfold w_wl, w_permit, w_task; cbn [k_tasks]. rewrite lookup_partial_alter.
    cbn [qstep]. unfold w_wl, w_task. by cbn.
  - rewrite Hq. cbn [qstep]. unfold w_wl, w_task; cbn [k_tasks]. repeat (rewrite lookup_partial_alter; cbn [fst snd k_wl k_thr k_rd k_tasks app]). done.
Qed.

Lemma close_completes ts es t r : let k := (krun ts es).1 in
  k_thr k !! t = None -> k_rd k = ∅ -> k_handle k = Some r ->
  (forall r' q, k_tasks k !! r' = Some q -> r' = r) ->
  (kgo k (close_now t r)).2 = [OStart t KClose; ORet t KClose true].
Proof.
  intros k Ht Hr Hh Hu. pose proof (krun_tk ts es : tk k) as Hk.
  set (k3 := w_thr (w_handle (w_thr (w_closed (w_thr k t (Some PClose1))) t (Some PClose2)) None) t (Some PClose3)).
  assert (kgo k [EStart t KClose; EStep t true; EStep t true] = (k3, [OStart t KClose])) as E1.
  { cbn [kgo kstep]. rewrite Ht. cbn [start_pc]. unfold w_thr at 1; cbn [k_thr]. rewrite lookup_partial_alter.
    cbn [tstep]. unfold w_thr at 1; cbn [k_thr w_closed]. rewrite lookup_partial_alter. reflexivity. }
  change (close_now t r) with ([EStart t KClose; EStep t true; EStep t true] ++ [EAbort r; ETask r false; ETask r false] ++ [EStep t true]).
  rewrite !kgo_app, E1. cbn [fst snd].
  assert (k_wl (kgo k3 [EAbort r; ETask r false; ETask r false]).1 = None /\
    k_thr (kgo k3 [EAbort r; ETask r false; ETask r false]).1 = k_thr k3 /\
    k_rd (kgo k3 [EAbort r; ETask r false; ETask r false]).1 = ∅ /\ (kgo k3 [EAbort r; ETask r false; ETask r false]).2 = []) as (W & T & R & O).
  { destruct (k_tasks k !! r) as [q|] eqn:Eq.
    - rewrite <- Hr. change (k_rd k) with (k_rd k3). apply (close_gone k3 r q); [by apply (tk_same k)|done|done|].
      unfold k3. cbn [w_thr w_handle k_abort k_handle w_closed]. rewrite Hh. set_solver.
    - assert (k_tasks k3 !! r = None) as E3 by done. cbn [kgo kstep]. rewrite !E3. cbn [fst snd]. split_and!; try done.
      change (k_wl k = None). destruct (k_wl k) as [r'|] eqn:E; [|done]. destruct Hk.
      rewrite E in ti_held. destruct (ti_held r' eq_refl) as (q' & H1 & H2). pose proof (Hu _ _ H1) as ->. congruence. }
  rewrite O. set (k4 := (kgo k3 _).1) in *. cbn [kgo kstep]. rewrite T. unfold k3; cbn [w_thr k_thr]. rewrite lookup_partial_alter.
  cbn [tstep]. unfold no_readers. rewrite bool_decide_eq_true_2 by done. reflexivity.
Qed.
