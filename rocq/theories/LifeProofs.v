(** Proofs about LifeModel.v. *)
From stdpp Require Import list.
From Coq Require Import NArith Lia.
From Verif Require Import LifeModel LifeSpec.
Local Open Scope N_scope.

Lemma f_run_app fl ma li s es es' : f_run fl ma li s (es ++ es') = f_run fl ma li (f_run fl ma li s es) es'.
Proof. apply fold_left_app. Qed.
Lemma omap_app_id (l l' : list (option N)) : omap (fun x => x) (l ++ l') = omap (fun x => x) l ++ omap (fun x => x) l'.
Proof. induction l as [|[x|] l IH]; csimpl; [done| |]; rewrite IH; done. Qed.
Lemma omap_some (l : list N) : omap (fun x => x) (Some <$> l) = l.
Proof. induction l as [|x l IH]; csimpl; [done|]. rewrite IH. done. Qed.

(** ** The shape of the states *)
Definition shape (s : life) : Prop :=
  match f_writer s with
  | WClose _ => f_queue s = [] /\ f_phase s = PClosing
  | WDead => f_queue s = []
  | _ => match f_phase s with
         | PAuth _ | PServed => exists ms, f_queue s = Some <$> ms
         | PClosing => exists ms, f_queue s = (Some <$> ms) ++ [None]
         | _ => False
         end
  end /\ match f_phase s with PSetup _ | PGone => f_writer s = WDead /\ f_reader s = RDead /\ f_inbox s = [] | _ => True end.


Lemma drop_shape s : shape (drop_all s).
Proof. unfold shape. simpl. split; split; done. Qed.
Lemma dies_shape s : shape s -> f_writer s <> WDead -> shape (writer_dies s).
Proof.
  intros [H1 H2] HW. unfold writer_dies. split; simpl; [done|]. destruct (f_phase s) eqn:P; try done; destruct H2; done.
Qed.
Lemma finish_shape ma s d : shape s -> f_phase s = PAuth d -> shape (finish ma s).
Proof.
  intros [H1 H2] HP. unfold finish. destruct ma; [|apply drop_shape]. rewrite HP in H1.
  destruct (f_writer s) eqn:W; try apply drop_shape; unfold shape; simpl; rewrite ?W;
    try (destruct H1 as [ms ->]; split; [exists ms; done|done]).
  destruct H1; done.
Qed.
Lemma p_expire_shape ma t s : shape s -> shape (p_expire ma t s).
Proof.
  intros H. unfold p_expire. destruct (f_phase s) eqn:P; try done; destruct (limit <? t); try done.
  all: first [eapply finish_shape; done|apply drop_shape].
Qed.
Lemma w_expire_shape t s : shape s -> shape (w_expire t s).
Proof.
  intros H. unfold w_expire. destruct (f_writer s) eqn:W; try done; destruct (limit <? t); try done;
    try (apply dies_shape; [done|congruence]).
Qed.
Lemma set_reader_shape r s : shape s -> (f_reader s <> RDead \/ r = RDead) -> shape (set_reader r s).
Proof.
  intros [H1 H2] HR. split; [done|]. simpl. destruct (f_phase s); try done; destruct H2 as (? & ? & ?); destruct HR; subst; done.
Qed.
Lemma r_expire_shape t s : shape s -> shape (r_expire t s).
Proof.
  intros H. unfold r_expire. destruct (f_reader s) eqn:R; try done; destruct (limit <? t); try done.
  apply set_reader_shape; [done|]. right. done.
Qed.
Lemma pick_shape li t s : shape s -> shape (pick li t s).
Proof.
  intros H. unfold pick. destruct (f_writer s) eqn:W; try done. destruct (f_queue s) as [|[m|] q] eqn:Q; try done.
  - destruct H as [H1 H2]. rewrite W in H1. unfold shape. simpl. destruct (f_phase s) eqn:P; try done; (split; [|done]).
    + destruct H1 as [[|x ms] E]; rewrite Q in E; simplify_eq/=. exists ms. done.
    + destruct H1 as [[|x ms] E]; rewrite Q in E; simplify_eq/=. exists ms. done.
    + destruct H1 as [[|x ms] E]; rewrite Q in E; simplify_eq/=. exists ms. done.
  - destruct H as [H1 H2]. rewrite W in H1. unfold shape. simpl. destruct (f_phase s) eqn:P; try done; (split; [|done]).
    + destruct H1 as [[|x ms] E]; rewrite Q in E; simplify_eq/=.
    + destruct H1 as [[|x ms] E]; rewrite Q in E; simplify_eq/=.
    + destruct H1 as [[|x ms] E]; rewrite Q in E; simplify_eq/=. done.
Qed.
Lemma timers_shape ma li t s : shape s -> shape (timers ma li t s).
Proof.
  intros H. unfold timers. apply r_expire_shape, w_expire_shape.
  destruct (f_phase s); try (apply p_expire_shape; done). destruct (limit <? t); [|done].
  apply pick_shape, p_expire_shape, w_expire_shape. done.
Qed.
Lemma wrote_shape m s : shape s -> f_writer s <> WDead -> (forall d, f_writer s <> WClose d) -> shape (wrote m s).
Proof.
  intros [H1 H2] HW HC. unfold shape. simpl. destruct (f_phase s) eqn:P; destruct (f_writer s) eqn:W; try done; try (split; done).
  all: try (exfalso; by eapply HC). all: destruct H2 as (? & ? & ?); done.
Qed.
Lemma set_writer_shape w s : shape s -> match f_writer s with WLength _ _ | WBytes _ _ => True | _ => False end ->
  match w with WBytes _ _ | WFlush _ => True | _ => False end -> shape (set_writer w s).
Proof.
  intros [H1 H2] HW Hw. unfold shape. simpl. destruct w; try done; destruct (f_writer s) eqn:W; try done;
    destruct (f_phase s) eqn:P; try done.
Qed.
Lemma act_shape fl ma t e s : shape s -> shape (f_act fl ma t e s).
Proof.
  intros H. destruct e; simpl.
  - destruct (f_phase s) eqn:P; try done. destruct ok; [|apply drop_shape]. unfold shape. simpl. split; [|done]. exists []. done.
  - destruct (f_phase s) eqn:P; try done. destruct (ok && negb ma); [|eapply finish_shape; done].
    destruct H as [H1 H2]. unfold shape. simpl. split; [|done]. rewrite P in H1. destruct (f_writer s); try done.
    destruct H1; done.
  - apply drop_shape.
  - assert (f_phase s = PServed \/ (exists d, f_phase s = PAuth d) -> f_writer s <> WDead -> shape (enqueue (Some m) s)) as Hq.
    { intros HP HW. destruct H as [H1 H2]. unfold shape. simpl. destruct HP as [HP|[d HP]]; rewrite HP in *; (split; [|done]);
      (destruct (f_writer s) eqn:W; try done; try (destruct H1; done)); destruct H1 as [ms ->]; exists (ms ++ [m]); rewrite fmap_app; done. }
    destruct (f_phase s) eqn:P; try done; destruct (f_writer s) eqn:W; try done; apply Hq; try done; eauto.
  - destruct (f_writer s) eqn:W; try done. destruct ok; [apply set_writer_shape; rewrite ?W; done|apply dies_shape; [done|congruence]].
  - destruct (f_writer s) eqn:W; try done. destruct ok; [|apply dies_shape; [done|congruence]].
    destruct fl; [apply set_writer_shape; rewrite ?W; done|]. apply wrote_shape; [done|congruence|congruence].
  - destruct (f_writer s) eqn:W; try done. destruct ok; [|apply dies_shape; [done|congruence]].
    apply wrote_shape; [done|congruence|congruence].
  - destruct (f_writer s) eqn:W; try done.
  - destruct (f_reader s) eqn:R; try done. apply set_reader_shape; [done|]. left. congruence.
  - destruct (f_reader s) eqn:R; try done. apply set_reader_shape; [done|]. left. congruence.
  - destruct (f_reader s) eqn:R; try done. destruct ok; [|apply set_reader_shape; [done|left; congruence]].
    destruct H as [H1 H2]. unfold shape. simpl. split; [done|]. destruct (f_phase s); try done; destruct H2 as (? & ? & ?); congruence.
  - destruct (f_reader s) eqn:R; try done. apply set_reader_shape; [done|]. left. congruence.
  - destruct (f_inbox s) eqn:I; try done. destruct H as [H1 H2]. unfold shape. simpl. split; [done|].
    destruct (f_phase s); try done; destruct H2 as (? & ? & ?); congruence.
  - done.
Qed.
Lemma step_shape fl ma li s te : shape s -> shape (f_step fl ma li s te).
Proof. intros H. destruct te as [t e]. apply pick_shape, act_shape, timers_shape. done. Qed.
Lemma run_shape fl ma li es : forall s, shape s -> shape (f_run fl ma li s es).
Proof. induction es as [|te es IH]; intros s H; [done|]. apply IH, step_shape, H. Qed.
Lemma init_shape t0 h : shape (f_init t0 h).
Proof. unfold shape. simpl. split; split; done. Qed.

(** ** The phases in time *)
Definition pinv (ma : bool) (D : N) (t : N) (s : life) : Prop :=
  match f_phase s with
  | PSetup d => t <= d /\ d + 5 <= D
  | PAuth d => t <= d /\ d <= D
  | PServed => ma = false
  | PClosing => ma = true
  | PGone => True
  end.
Lemma w_expire_pinv ma D t u s : pinv ma D t s -> pinv ma D t (w_expire u s).
Proof.
  intros H. unfold w_expire, writer_dies.
  destruct (f_writer s) eqn:E; try done; destruct (limit <? u); try done; destruct (f_phase s) eqn:P; simpl; try done;
    unfold pinv in *; rewrite P in H; simpl; done.
Qed.
Lemma r_expire_same t s : f_phase (r_expire t s) = f_phase s /\ f_writer (r_expire t s) = f_writer s /\ f_queue (r_expire t s) = f_queue s /\ f_written (r_expire t s) = f_written s.
Proof. unfold r_expire. destruct (f_reader s) eqn:?; try done. destruct (limit <? t); done. Qed.
Lemma pick_phase li t s : f_phase (pick li t s) = f_phase s.
Proof. unfold pick. destruct (f_writer s); try done. destruct (f_queue s) as [|[]]; done. Qed.
Lemma finish_pinv ma D t s : pinv ma D t (finish ma s).
Proof. unfold finish. destruct ma; [|done]. destruct (f_writer s); done. Qed.
Lemma w_expire_auth u s d : shape s -> f_phase s = PAuth d -> f_phase (w_expire u s) = PAuth d.
Proof.
  intros [H1 H2] P. unfold w_expire, writer_dies. destruct (f_writer s) eqn:W; try done; destruct (limit <? u); try done; rewrite ?P; try done.
  destruct H1; congruence.
Qed.
Lemma timers_pinv ma li D t t' s : shape s -> pinv ma D t' s -> pinv ma D t (timers ma li t s).
Proof.
  intros HS H. unfold timers.
  assert (pinv ma D t (match f_phase s with PAuth d => if d <? t then pick li d (p_expire ma t (w_expire d s)) else s | _ => p_expire ma t s end)) as H1.
  { unfold pinv in H. destruct (f_phase s) as [d|d| | |] eqn:P.
    - unfold p_expire. rewrite P. destruct (N.ltb_spec d t); [done|]. unfold pinv; rewrite P. lia.
    - destruct (N.ltb_spec d t) as [L|L]; [|unfold pinv; rewrite P; lia].
      unfold pinv. rewrite pick_phase. unfold p_expire. rewrite (w_expire_auth _ _ d) by done.
      destruct (N.ltb_spec d t); [|lia]. apply finish_pinv.
    - unfold p_expire. rewrite P. unfold pinv; rewrite P. done.
    - unfold p_expire. rewrite P. unfold pinv; rewrite P. done.
    - unfold p_expire. rewrite P. unfold pinv; rewrite P. done. }
  apply w_expire_pinv with (u := t) in H1. unfold pinv in *.
  match goal with |- context [r_expire t ?x] => rewrite (proj1 (r_expire_same t x)) end. done.
Qed.
Lemma dies_pinv ma D t s : pinv ma D t s -> pinv ma D t (writer_dies s).
Proof. intros H. unfold writer_dies. unfold pinv in *. destruct (f_phase s) eqn:P; done. Qed.
Lemma act_pinv fl ma D t e s : pinv ma D t s -> pinv ma D t (f_act fl ma t e s).
Proof.
  intros H. destruct e; simpl.
  - unfold pinv in *. destruct (f_phase s) eqn:P; simpl; rewrite ?P; try done. destruct ok; simpl; [|done]. lia.
  - unfold pinv in *. destruct (f_phase s) eqn:P; simpl; rewrite ?P; try done.
    destruct ok, ma; simpl; try done; destruct (f_writer s); done.
  - done.
  - unfold pinv in *. destruct (f_phase s) eqn:P; destruct (f_writer s) eqn:W; simpl; rewrite ?P; done.
  - destruct (f_writer s) eqn:W; try done. destruct ok; [done|]. by apply dies_pinv.
  - destruct (f_writer s) eqn:W; try done. destruct ok; [destruct fl; done|]. by apply dies_pinv.
  - destruct (f_writer s) eqn:W; try done. destruct ok; [done|]. by apply dies_pinv.
  - destruct (f_writer s) eqn:W; done.
  - destruct (f_reader s) eqn:W; done.
  - destruct (f_reader s) eqn:W; done.
  - destruct (f_reader s) eqn:W; try done. destruct ok; done.
  - destruct (f_reader s) eqn:W; done.
  - destruct (f_inbox s) eqn:W; done.
  - done.
Qed.
Lemma step_pinv fl ma li D t' s t e : shape s -> pinv ma D t' s -> pinv ma D t (f_step fl ma li s (t, e)).
Proof.
  intros HS H. unfold f_step. unfold pinv. rewrite pick_phase. apply act_pinv. eapply timers_pinv; done.
Qed.
Lemma run_pinv fl ma li D es : forall t' s t e, shape s -> pinv ma D t' s -> pinv ma D t (f_run fl ma li s (es ++ [(t, e)])).
Proof.
  induction es as [|[u x] es IH]; intros t' s t e HS H; [by eapply step_pinv|].
  apply (IH u); [by apply step_shape|by eapply step_pinv].
Qed.
Lemma init_pinv ma t0 h : pinv ma (t0 + h + 5) t0 (f_init t0 h).
Proof. unfold pinv. simpl. lia. Qed.

(** Once gone, gone. *)
Lemma step_gone fl ma li s te : shape s -> f_phase s = PGone -> f_phase (f_step fl ma li s te) = PGone.
Proof.
  intros HS P. destruct te as [t e]. unfold f_step. rewrite pick_phase.
  assert (f_phase (timers ma li t s) = PGone) as P1.
  { unfold timers. rewrite (proj1 (r_expire_same _ _)). rewrite P. unfold p_expire. rewrite P.
    destruct HS as [_ HS]. rewrite P in HS. destruct HS as (W & _). unfold w_expire. rewrite W. done. }
  assert (f_writer (timers ma li t s) = WDead) as W1.
  { pose proof (timers_shape ma li t s HS) as [_ H2]. rewrite P1 in H2. tauto. }
  assert (f_reader (timers ma li t s) = RDead) as R1.
  { pose proof (timers_shape ma li t s HS) as [_ H2]. rewrite P1 in H2. tauto. }
  destruct e; simpl; rewrite ?P1, ?W1, ?R1; try done. destruct (f_inbox _); done.
Qed.
Lemma run_gone fl ma li es : forall s, shape s -> f_phase s = PGone -> f_phase (f_run fl ma li s es) = PGone.
Proof. induction es as [|te es IH]; intros s HS P; [done|]. apply IH; [by apply step_shape|by apply step_gone]. Qed.
Lemma shape_gone_held s : shape s -> f_phase s = PGone -> f_held s = 0 /\ f_writer s = WDead.
Proof. intros [_ H] P. rewrite P in H. destruct H as (W & R & I). unfold f_held. rewrite R, I. done. Qed.

(** Only an authentication that succeeded lets a connection be used. *)
Lemma timers_served ma li t s : shape s -> f_phase (timers ma li t s) = PServed -> f_phase s = PServed.
Proof.
  intros HS. unfold timers. rewrite (proj1 (r_expire_same _ _)). 
  assert (forall x, f_phase (w_expire t x) = PServed -> f_phase x = PServed) as HW.
  { intros x. unfold w_expire, writer_dies. destruct (f_writer x); try done; destruct (limit <? t); try done; destruct (f_phase x) eqn:E; simpl; rewrite ?E; try done. }
  intros H%HW. destruct (f_phase s) eqn:P; try done; unfold p_expire in H; rewrite ?P in H.
  - destruct (limit <? t); simpl in H; congruence.
  - destruct (limit <? t) eqn:L; [|congruence]. rewrite pick_phase, (w_expire_auth _ _ _ HS P), L in H.
    unfold finish in H. destruct ma; [|done]. destruct (f_writer (w_expire limit s)); done.
  - congruence.
  - congruence.
Qed.
Lemma act_served fl ma t e s : f_phase (f_act fl ma t e s) = PServed -> f_phase s = PServed \/ (e = FAuth true /\ exists d, f_phase s = PAuth d).
Proof.
  assert (forall x, f_phase (writer_dies x) = PServed -> f_phase x = PServed) as HW.
  { intros x. unfold writer_dies. destruct (f_phase x) eqn:E; simpl; done. }
  assert (forall x, f_phase (finish ma x) <> PServed) as HF.
  { intros x. unfold finish. destruct ma; [|done]. destruct (f_writer x); done. }
  destruct e; simpl; try (left; done).
  - destruct (f_phase s) eqn:P; try (intros; left; congruence). destruct ok; done.
  - destruct (f_phase s) eqn:P; try (intros; left; congruence). destruct ok; simpl; [|intros H; exfalso; by eapply HF].
    right. split; [done|eauto].
  - destruct (f_phase s) eqn:P; destruct (f_writer s); simpl; rewrite ?P; auto.
  - destruct (f_writer s); auto. destruct ok; simpl; auto.
  - destruct (f_writer s); auto. destruct ok; [destruct fl|]; simpl; auto.
  - destruct (f_writer s); auto. destruct ok; simpl; auto.
  - destruct (f_writer s); auto. simpl. done.
  - destruct (f_reader s); auto.
  - destruct (f_reader s); auto.
  - destruct (f_reader s); auto. destruct ok; auto.
  - destruct (f_reader s); auto.
  - destruct (f_inbox s); auto.
Qed.
Lemma run_served fl ma li D es : forall t' s, shape s -> pinv ma D t' s -> f_phase s <> PServed -> f_phase (f_run fl ma li s es) = PServed ->
  exists u, In (u, FAuth true) es /\ u <= D.
Proof.
  induction es as [|[u x] es IH]; intros t' s HS HP H0 H; [done|].
  change (f_run fl ma li s ((u, x) :: es)) with (f_run fl ma li (f_step fl ma li s (u, x)) es) in H.
  assert (f_phase (f_step fl ma li s (u, x)) = PServed \/ f_phase (f_step fl ma li s (u, x)) <> PServed) as [E|E]
    by (destruct (f_phase (f_step fl ma li s (u, x))); auto).
  - exists u. unfold f_step in E. rewrite pick_phase in E. apply act_served in E as [E|[-> [d Hd]]].
    + apply timers_served in E; done.
    + split; [by left|]. pose proof (timers_pinv ma li D u _ _ HS HP) as Hp. unfold pinv in Hp. rewrite Hd in Hp. lia.
  - destruct (IH u _ ltac:(by apply step_shape) ltac:(by eapply step_pinv) E H) as (v & ? & ?). exists v. split; [by right|done].
Qed.

(** ** The sender's task in time *)
(** Its limits are not before [t]. *)
Definition wlive (t : N) (s : life) : Prop :=
  match f_writer s with WLength _ d | WBytes _ d | WClose d => t <= d | _ => True end.
Lemma w_expire_live t s : wlive t (w_expire t s).
Proof.
  unfold w_expire, wlive, writer_dies. destruct (f_writer s) eqn:W; rewrite ?W; try done;
    destruct (N.ltb_spec limit t); rewrite ?W; try done; destruct (f_phase s); done.
Qed.
Lemma timers_live ma li t s : wlive t (timers ma li t s).
Proof. unfold timers. unfold wlive. rewrite (proj1 (proj2 (r_expire_same _ _))). apply w_expire_live. Qed.
Lemma dies_live t s : wlive t (writer_dies s).
Proof. unfold writer_dies, wlive. destruct (f_phase s); done. Qed.
Lemma finish_live ma t s : wlive t s -> wlive t (finish ma s).
Proof. unfold finish, wlive. destruct ma; [|done]. destruct (f_writer s) eqn:W; simpl; rewrite ?W; done. Qed.
Lemma act_live fl ma t e s : wlive t s -> wlive t (f_act fl ma t e s).
Proof.
  intros H. destruct e; simpl; try done.
  - destruct (f_phase s); try done. destruct ok; done.
  - destruct (f_phase s); try done. destruct (ok && negb ma); [done|]. by apply finish_live.
  - destruct (f_phase s), (f_writer s); done.
  - destruct (f_writer s) eqn:W; try done. destruct ok; [unfold wlive; simpl; lia|apply dies_live].
  - destruct (f_writer s) eqn:W; try done. destruct ok; [destruct fl; done|apply dies_live].
  - destruct (f_writer s) eqn:W; try done. destruct ok; [done|apply dies_live].
  - destruct (f_writer s) eqn:W; done.
  - destruct (f_reader s); done.
  - destruct (f_reader s); done.
  - destruct (f_reader s); try done. destruct ok; done.
  - destruct (f_reader s); done.
  - destruct (f_inbox s); done.
Qed.
Lemma pick_live li t s : wlive t s -> wlive t (pick li t s).
Proof.
  intros H. unfold pick. destruct (f_writer s) eqn:W; try done. destruct (f_queue s) as [|[m|] q]; try done; unfold wlive; simpl; lia.
Qed.
Lemma step_live fl ma li s t e : wlive t (f_step fl ma li s (t, e)).
Proof. apply pick_live, act_live, timers_live. Qed.

(** The sender's task is idle only when nothing waits. *)
Definition idle_empty (s : life) : Prop := f_writer s = WIdle -> f_queue s = [].
Lemma pick_idle li t s : idle_empty (pick li t s).
Proof. unfold pick, idle_empty. destruct (f_writer s) eqn:W; try congruence. destruct (f_queue s) as [|[m|] q] eqn:Q; simpl; congruence. Qed.


(** What must be written, [P], is written by [B]. *)
Definition fin (P : list N) (B : N) (t : N) (s : life) : Prop :=
  let r := N.of_nat (length P - length (f_written s)) in
  match f_writer s with
  | WIdle => t + 10 * r <= B
  | WLength _ d => d + 10 * r <= B + 5
  | WBytes _ d => d + 10 * r <= B + 10
  | _ => False
  end.
Definition winv (P : list N) (B : N) (t : N) (s : life) : Prop :=
  (forall d, f_phase s <> PSetup d) /\
  (f_writer s = WDead \/
   ((exists X, f_written s ++ unwritten s = P ++ X) /\ ((length P <= length (f_written s))%nat \/ fin P B t s))).
(** Between the steps. *)
Definition wrest (P : list N) (B : N) (s : life) : Prop := (forall t, winv P B t s).

Lemma drop_winv P B t s : winv P B t (drop_all s).
Proof. split; [done|]. by left. Qed.
Lemma dies_winv P B t s : (forall d, f_phase s <> PSetup d) -> winv P B t (writer_dies s).
Proof. intros H. split; [|left; unfold writer_dies; destruct (f_phase s); done]. intros d. unfold writer_dies. destruct (f_phase s) eqn:E; simpl; rewrite ?E; try done. Qed.
Lemma same_winv P B t s s' : winv P B t s -> (forall d, f_phase s' <> PSetup d) -> f_writer s' = f_writer s -> f_written s' = f_written s ->
  (f_queue s' = f_queue s \/ exists m, f_queue s' = f_queue s ++ [m]) -> winv P B t s'.
Proof.
  intros [H1 H2] HP HW Hw HQ. split; [done|]. rewrite HW. destruct H2 as [?|[[X HX] H2]]; [by left|right]. split.
  - unfold unwritten. rewrite Hw, HW. unfold unwritten in HX. destruct HQ as [->|[m ->]]; [eauto|].
    rewrite omap_app_id. rewrite !app_assoc. rewrite app_assoc in HX. rewrite HX. rewrite <- app_assoc. eauto.
  - unfold fin. rewrite HW, Hw. done.
Qed.
Lemma finish_winv ma P B t s : winv P B t s -> winv P B t (finish ma s).
Proof.
  intros H. unfold finish. destruct ma; [|apply drop_winv]. destruct (f_writer s) eqn:W; try apply drop_winv;
    (eapply same_winv; [done|done|done|done|right; simpl; eauto]).
Qed.
Lemma p_expire_winv ma P B t u s : winv P B t s -> winv P B t (p_expire ma u s).
Proof.
  intros H. unfold p_expire. destruct (f_phase s); try done; destruct (limit <? u); try done; [apply drop_winv|by apply finish_winv].
Qed.
Lemma w_expire_winv P B t u s : winv P B t s -> winv P B t (w_expire u s).
Proof.
  intros H. unfold w_expire. destruct (f_writer s) eqn:W; try done; destruct (limit <? u); try done; [apply dies_winv, H|apply dies_winv, H|apply drop_winv].
Qed.
Lemma r_expire_winv P B t u s : winv P B t s -> winv P B t (r_expire u s).
Proof.
  intros H. destruct (r_expire_same u s) as (E1 & E2 & E3 & E4). eapply same_winv; [done| |done|done|by left].
  rewrite E1. apply H.
Qed.
Lemma pick_rest li P B t s : shape s -> winv P B t s -> wrest P B (pick li t s).
Proof.
  intros HS [HP H] t'. split; [rewrite pick_phase; done|]. unfold pick. destruct (f_writer s) eqn:W.
  2-6: rewrite ?W; destruct H as [H|[H1 H2]]; [by left|right; split; [done|]]; destruct H2 as [H2|H2]; [by left|right]; unfold fin in *; rewrite W in *; done.
  destruct H as [H|[[X HX] H2]]; [done|]. right. unfold unwritten in HX. rewrite W in HX. simpl in HX.
  destruct (f_queue s) as [|[m|] q] eqn:Q; csimpl in *.
  - split; [exists X; unfold unwritten; rewrite W, Q; done|]. left. apply (f_equal length) in HX. rewrite !app_length in HX. simpl in HX. lia.
  - split; [exists X; done|]. destruct H2 as [?|H2]; [by left|right]. unfold fin in *. rewrite W in H2. cbn [f_writer f_written]. lia.
  - destruct HS as [HS _]. rewrite W, Q in HS.
    assert (q = []) as ->.
    { destruct (f_phase s); try done; destruct HS as [[|x ms] E]; simplify_eq/=; done. }
    split; [exists X; done|]. left. apply (f_equal length) in HX. rewrite !app_length in HX. simpl in HX. lia.
Qed.
Lemma rest_pick li P B u s : shape s -> wrest P B s -> (f_writer s = WIdle -> omap (fun x => x) (f_queue s) = []) -> wrest P B (pick li u s).
Proof. intros HS H HI. apply pick_rest; [done|]. apply H. Qed.
Lemma timers_rest ma li P B t s : shape s -> wrest P B s -> wrest P B (timers ma li t s).
Proof.
  intros HS H t'. unfold timers. apply r_expire_winv, w_expire_winv.
  destruct (f_phase s) eqn:E; try (apply p_expire_winv, H). destruct (limit <? t); [|apply H].
  apply pick_rest; [by apply p_expire_shape, w_expire_shape|]. apply p_expire_winv, w_expire_winv, H.
Qed.
Lemma act_winv ma P B t e s : shape s -> (forall m, f_writer s <> WFlush m) -> wlive t s -> wrest P B s -> winv P B t (f_act false ma t e s).
Proof.
  intros HS HF HL H. pose proof (H t) as Ht. pose proof (proj1 Ht) as HP. destruct e; simpl; try done; try apply drop_winv.
  - destruct (f_phase s) eqn:E; try done. exfalso. by eapply HP.
  - destruct (f_phase s) eqn:E; try done. destruct (ok && negb ma); [|by apply finish_winv].
    eapply same_winv; try done. by left.
  - destruct (f_phase s) eqn:E; destruct (f_writer s) eqn:W; try done;
      (eapply same_winv; [done|simpl; congruence|done|done|right; simpl; eauto]).
  - destruct (f_writer s) eqn:W; try done. destruct ok; [|by apply dies_winv]. split; [done|]. right.
    destruct Ht as [_ [?|[[X HX] H2]]]; [congruence|]. unfold unwritten in *. rewrite W in HX. split; [exists X; done|].
    destruct H2 as [?|H2]; [by left|right]. unfold fin in *. rewrite W in H2. cbn [f_writer f_written set_writer wrote]. unfold wlive in HL. rewrite W in HL. lia.
  - destruct (f_writer s) eqn:W; try done. destruct ok; [|by apply dies_winv]. split; [done|]. right.
    destruct Ht as [_ [?|[[X HX] H2]]]; [congruence|]. unfold unwritten in *. rewrite W in HX. split.
    { exists X. simpl in *. rewrite <- app_assoc. done. }
    destruct H2 as [?|H2]; [left; simpl; rewrite app_length; lia|]. unfold fin in *. rewrite W in H2. cbn [f_writer f_written set_writer wrote]. unfold wlive in HL. rewrite W in HL.
    rewrite app_length. cbn [length]. destruct (decide (length P <= length (f_written s) + 1)%nat); [left; lia|right]. lia.
  - destruct (f_writer s) eqn:W; try done. exfalso. by eapply HF.
  - destruct (f_writer s) eqn:W; try done. apply drop_winv.
  - destruct (f_reader s) eqn:R; done.
  - destruct (f_reader s) eqn:R; done.
  - destruct (f_reader s) eqn:R; try done. destruct ok; done.
  - destruct (f_reader s) eqn:R; done.
  - destruct (f_inbox s) eqn:R; done.
Qed.

(** Without flushes that wait, nothing is ever being flushed. *)
Definition noflush (s : life) : Prop := forall m, f_writer s <> WFlush m.
Lemma dies_noflush s : noflush (writer_dies s).
Proof. unfold writer_dies, noflush. destruct (f_phase s); done. Qed.
Lemma finish_noflush ma s : noflush s -> noflush (finish ma s).
Proof. intros H. unfold finish. destruct ma; [|done]. destruct (f_writer s) eqn:W; try done; intros m; simpl; rewrite ?W; done. Qed.
Lemma pick_noflush li t s : noflush s -> noflush (pick li t s).
Proof. intros H. unfold pick. destruct (f_writer s) eqn:W; try done. destruct (f_queue s) as [|[]]; done. Qed.
Lemma w_expire_noflush t s : noflush s -> noflush (w_expire t s).
Proof. intros H. unfold w_expire. destruct (f_writer s) eqn:W; try done; destruct (limit <? t); try done; apply dies_noflush. Qed.
Lemma p_expire_noflush ma t s : noflush s -> noflush (p_expire ma t s).
Proof. intros H. unfold p_expire. destruct (f_phase s) eqn:W; try done; destruct (limit <? t); try done. by apply finish_noflush. Qed.
Lemma timers_noflush ma li t s : noflush s -> noflush (timers ma li t s).
Proof.
  intros H. unfold timers. intros m. rewrite (proj1 (proj2 (r_expire_same _ _))). revert m. apply w_expire_noflush.
  destruct (f_phase s); try by apply p_expire_noflush. destruct (limit <? t); [|done]. by apply pick_noflush, p_expire_noflush, w_expire_noflush.
Qed.
Lemma act_noflush ma t e s : noflush s -> noflush (f_act false ma t e s).
Proof.
  intros H. destruct e; simpl; try done.
  - destruct (f_phase s); try done. destruct ok; done.
  - destruct (f_phase s); try done. destruct (ok && negb ma); [done|by apply finish_noflush].
  - destruct (f_phase s), (f_writer s); done.
  - destruct (f_writer s); try done. destruct ok; [done|apply dies_noflush].
  - destruct (f_writer s); try done. destruct ok; [done|apply dies_noflush].
  - destruct (f_writer s); try done. destruct ok; [done|apply dies_noflush].
  - destruct (f_writer s); done.
  - destruct (f_reader s); done.
  - destruct (f_reader s); done.
  - destruct (f_reader s); try done. destruct ok; done.
  - destruct (f_reader s); done.
  - destruct (f_inbox s); done.
Qed.
Lemma step_noflush ma li s te : noflush s -> noflush (f_step false ma li s te).
Proof. intros H. destruct te as [t e]. by apply pick_noflush, act_noflush, timers_noflush. Qed.
Lemma run_noflush ma li es : forall s, noflush s -> noflush (f_run false ma li s es).
Proof. induction es as [|te es IH]; intros s H; [done|]. apply IH, step_noflush, H. Qed.

Lemma step_rest ma li P B s te : shape s -> noflush s -> wrest P B s -> wrest P B (f_step false ma li s te).
Proof.
  intros HS HF H. destruct te as [t e]. unfold f_step. apply pick_rest; [by apply act_shape, timers_shape|].
  apply act_winv; [by apply timers_shape|by apply timers_noflush|apply timers_live|by apply timers_rest].
Qed.
Lemma run_rest ma li P B es : forall s, shape s -> noflush s -> wrest P B s -> wrest P B (f_run false ma li s es).
Proof.
  induction es as [|te es IH]; intros s HS HF H; [done|]. apply IH; [by apply step_shape|by apply step_noflush|by apply step_rest].
Qed.
Lemma rest_done P B t s : B < t -> wlive t s -> wrest P B s -> f_writer s = WDead \/ P `prefix_of` f_written s.
Proof.
  intros HB HL H. destruct (H t) as [_ [?|[[X HX] H2]]]; [by left|right].
  assert (length P <= length (f_written s))%nat as HLen.
  { destruct H2 as [?|H2]; [done|]. destruct (decide (length P <= length (f_written s))%nat); [done|exfalso].
    unfold fin in H2. unfold wlive in HL. destruct (f_writer s); try done; lia. }
  exists (drop (length P) (f_written s)). rewrite <- (take_drop (length P) (f_written s)) at 1. f_equal.
  rewrite <- (take_app_le (f_written s) (unwritten s)) by done. rewrite HX, take_app. done.
Qed.

(** The limits of the sender's task are at most 5 s away. *)
Definition wsoon (T : N) (s : life) : Prop := match f_writer s with WLength _ d | WBytes _ d => d <= T + 5 | _ => True end.
Lemma dies_soon T s : wsoon T (writer_dies s).
Proof. unfold writer_dies, wsoon. destruct (f_phase s); done. Qed.
Lemma finish_soon ma T s : wsoon T s -> wsoon T (finish ma s).
Proof. unfold finish, wsoon. destruct ma; [|done]. destruct (f_writer s) eqn:W; simpl; rewrite ?W; done. Qed.
Lemma pick_soon li T t s : t <= T -> wsoon T s -> wsoon T (pick li t s).
Proof. intros HT H. unfold pick. destruct (f_writer s) eqn:W; try done. destruct (f_queue s) as [|[]]; try done. unfold wsoon. simpl. lia. Qed.
Lemma w_expire_soon T t s : wsoon T s -> wsoon T (w_expire t s).
Proof. intros H. unfold w_expire. destruct (f_writer s) eqn:W; try done; destruct (limit <? t); try done; apply dies_soon. Qed.
Lemma p_expire_soon ma T t s : wsoon T s -> wsoon T (p_expire ma t s).
Proof. intros H. unfold p_expire. destruct (f_phase s) eqn:W; try done; destruct (limit <? t); try done. by apply finish_soon. Qed.
Lemma timers_soon ma li T t s : t <= T -> wsoon T s -> wsoon T (timers ma li t s).
Proof.
  intros HT H. unfold timers. unfold wsoon. rewrite (proj1 (proj2 (r_expire_same _ _))). apply w_expire_soon.
  destruct (f_phase s); try by apply p_expire_soon. destruct (N.ltb_spec limit t); [|done].
  apply pick_soon; [lia|]. by apply p_expire_soon, w_expire_soon.
Qed.
Lemma act_soon fl ma T t e s : t <= T -> wsoon T s -> wsoon T (f_act fl ma t e s).
Proof.
  intros HT H. destruct e; simpl; try done.
  - destruct (f_phase s); try done. destruct ok; done.
  - destruct (f_phase s); try done. destruct (ok && negb ma); [done|by apply finish_soon].
  - destruct (f_phase s), (f_writer s); done.
  - destruct (f_writer s); try done. destruct ok; [unfold wsoon; simpl; lia|apply dies_soon].
  - destruct (f_writer s); try done. destruct ok; [destruct fl; done|apply dies_soon].
  - destruct (f_writer s); try done. destruct ok; [done|apply dies_soon].
  - destruct (f_writer s); done.
  - destruct (f_reader s); done.
  - destruct (f_reader s); done.
  - destruct (f_reader s); try done. destruct ok; done.
  - destruct (f_reader s); done.
  - destruct (f_inbox s); done.
Qed.
Lemma run_soon fl ma li T es : forall s, List.Forall (fun te => fst te <= T) es -> wsoon T s -> wsoon T (f_run fl ma li s es).
Proof.
  induction es as [|[t e] es IH]; intros s HT H; [done|]. inversion HT; subst; simpl in *. apply IH; [done|].
  apply pick_soon, act_soon, timers_soon; done.
Qed.
Lemma run_idle fl ma li es s : idle_empty s -> idle_empty (f_run fl ma li s es).
Proof.
  intros H. destruct es as [|[t e] es' _] using rev_ind; [done|]. rewrite f_run_app. apply pick_idle.
Qed.

(** ** A marshal closes every connection *)
Definition minv (D li n t : N) (s : life) : Prop :=
  match f_phase s with
  | PSetup _ | PGone => True
  | PServed => False
  | PAuth d => d <= D /\ N.of_nat (length (unwritten s)) <= n /\ wsoon d s
  | PClosing =>
      let r := N.of_nat (length (omap (fun x => x) (f_queue s))) in
      match f_writer s with
      | WIdle => t + 10 * r <= D + 10 * n
      | WLength _ d => d + 5 + 10 * r <= D + 10 * n
      | WBytes _ d => d + 10 * r <= D + 10 * n
      | WClose d => d <= D + 10 * n + li
      | WDead => True
      | _ => False
      end
  end.
Lemma minv_mono D li n n' t s : n <= n' -> minv D li n t s -> minv D li n' t s.
Proof.
  intros Hn. unfold minv. destruct (f_phase s); try done; [intros (? & ? & ?); repeat split; [done|lia|done]|].
  destruct (f_writer s); try done; lia.
Qed.
Lemma dies_minv D li n t s : f_phase s <> PServed -> (forall d, f_phase s = PAuth d -> d <= D) -> minv D li n t (writer_dies s).
Proof.
  intros HP HD. unfold writer_dies. destruct (f_phase s) eqn:P; try done. unfold minv. simpl. repeat split; [by apply HD|lia].
Qed.
Lemma w_expire_minv D li n t u s : minv D li n t s -> minv D li n t (w_expire u s).
Proof.
  intros H. unfold w_expire. destruct (f_writer s) eqn:W; try done; destruct (limit <? u); try done;
    apply dies_minv; unfold minv in H; destruct (f_phase s); try done; intros ? [= <-]; tauto.
Qed.
Lemma finish_minv D li n t s d : noflush s -> f_phase s = PAuth d -> t <= d -> shape s -> minv D li n t s -> minv D li n t (finish true s).
Proof.
  intros HF P Ht HS H. unfold minv in H. rewrite P in H. destruct H as (HD & HU & HW). unfold unwritten in HU. unfold wsoon in HW.
  unfold finish. destruct HS as [HS _]. rewrite P in HS. destruct (f_writer s) eqn:W; try done; rewrite ?app_length in HU.
  - unfold minv. cbn [f_phase set_phase f_writer enqueue f_queue]. rewrite W, omap_app_id, app_length. change (omap (fun x : option N => x) [None]) with (@nil N). cbn [length] in *. lia.
  - unfold minv. cbn [f_phase set_phase f_writer enqueue f_queue]. rewrite W, omap_app_id, app_length. change (omap (fun x : option N => x) [None]) with (@nil N). cbn [length] in *. lia.
  - unfold minv. cbn [f_phase set_phase f_writer enqueue f_queue]. rewrite W, omap_app_id, app_length. change (omap (fun x : option N => x) [None]) with (@nil N). cbn [length] in *. lia.
  - exfalso. by eapply HF.
  - destruct HS; done.
Qed.
Lemma pick_minv D li n t s : shape s -> (forall d, f_phase s = PAuth d -> t <= d) -> minv D li n t s -> forall t', minv D li n t' (pick li t s).
Proof.
  intros HS HA H t'. unfold pick. destruct (f_writer s) eqn:W.
  2-6: unfold minv in *; rewrite ?W in *; done.
  destruct HS as [HS HS2]. rewrite W in HS.
  destruct (f_queue s) as [|[m|] q] eqn:Q.
  - unfold minv in *. destruct (f_phase s) eqn:P; try done. destruct HS as [[|? ?] HS]; done.
  - unfold minv in *. cbn [f_phase f_writer f_queue]. destruct (f_phase s) eqn:P; try done.
    + destruct H as (? & HU & HW). unfold unwritten in *. cbn [f_writer f_queue]. rewrite W, Q in HU.
      change (omap (fun x : option N => x) (Some m :: q)) with (m :: omap (fun x : option N => x) q) in HU. repeat split; [done|exact HU|].
      unfold wsoon. cbn [f_writer]. specialize (HA _ eq_refl). lia.
    + rewrite W, Q in H. change (omap (fun x : option N => x) (Some m :: q)) with (m :: omap (fun x : option N => x) q) in H. cbn [length] in H. lia.
  - unfold minv in *. cbn [f_phase f_writer f_queue]. destruct (f_phase s) eqn:P; try done.
    + destruct HS as [[|? ?] HS]; done.
    + rewrite W, Q in H. lia.
Qed.
Lemma timers_minv D li n t s : shape s -> noflush s -> (forall t', minv D li n t' s) -> forall t', minv D li n t' (timers true li t s).
Proof.
  intros HS HF H t'. unfold timers.
  match goal with |- minv _ _ _ _ (r_expire t ?y) => destruct (r_expire_same t y) as (E1 & E2 & E3 & E4); enough (minv D li n t' y) as Hy end.
  { unfold minv, unwritten, wsoon in *. rewrite E1, E2, E3. exact Hy. }
  apply w_expire_minv. destruct (f_phase s) as [d|d| | |] eqn:P.
  - unfold p_expire. rewrite P. destruct (d <? t); [done|apply H].
  - destruct (N.ltb_spec d t) as [L|L]; [|apply H]. 
    assert (f_phase (w_expire d s) = PAuth d) as E by (by apply w_expire_auth).
    assert (minv D li n d (p_expire true t (w_expire d s))) as Hm.
    { unfold p_expire. rewrite E. destruct (N.ltb_spec d t); [|lia]. eapply finish_minv; [by apply w_expire_noflush|done|lia|by apply w_expire_shape|].
      apply w_expire_minv, H. }
    apply pick_minv with (t := d) (t' := t') in Hm; [done|by apply p_expire_shape, w_expire_shape|].
    unfold p_expire. rewrite E. destruct (N.ltb_spec d t); [|lia]. intros d' Hd'. exfalso. unfold finish in Hd'. destruct (f_writer (w_expire d s)); done.
  - unfold p_expire. rewrite P. apply H.
  - unfold p_expire. rewrite P. apply H.
  - unfold p_expire. rewrite P. apply H.
Qed.
Definition sent1 (e : fev) : N := match e with FSend _ => 1 | _ => 0 end.
Lemma act_minv D li n t e s : shape s -> noflush s -> wlive t s -> pinv true D t s -> minv D li n t s -> minv D li (n + sent1 e) t (f_act false true t e s).
Proof.
  intros HS HF HL HP H.
  assert (forall s', f_phase s' = f_phase s -> f_writer s' = f_writer s -> f_queue s' = f_queue s -> minv D li n t s') as Hsame.
  { intros s' E1 E2 E3. unfold minv, unwritten, wsoon in *. rewrite E1, E2, E3. exact H. }
  assert (minv D li n t (writer_dies s)) as Hd.
  { apply dies_minv; unfold minv in H; destruct (f_phase s); try done; intros ? [= <-]; tauto. }
  assert (minv D li (n + sent1 e) t s) as Hs by (eapply minv_mono; [|done]; lia).
  destruct e; cbn [f_act sent1] in *; rewrite ?N.add_0_r in *; try done.
  - destruct (f_phase s) eqn:P; try done. destruct ok; [|done]. unfold minv. simpl. unfold pinv in HP. rewrite P in HP. repeat split; lia.
  - destruct (f_phase s) eqn:P; try done. destruct ok; simpl; (eapply finish_minv; [done|done| |done|done]); unfold pinv in HP; rewrite P in HP; lia.
  - destruct (f_phase s) eqn:P; try done; [|unfold minv in H; rewrite P in H; done].
    assert (f_writer s <> WDead -> minv D li (n + 1) t (enqueue (Some m) s)) as Hq.
    { intros _. unfold minv in *. cbn [f_phase enqueue]. rewrite P in *. destruct H as (? & HU & ?). repeat split; [done| |done].
      unfold unwritten in *. cbn [f_writer f_queue enqueue]. rewrite omap_app_id, !app_length. rewrite app_length in HU. change (omap (fun x : option N => x) [Some m]) with [m]. cbn [length]. lia. }
    destruct (f_writer s) eqn:W; try done; apply Hq; done.
  - destruct (f_writer s) eqn:W; try done. destruct ok; [|done]. unfold wlive in HL. rewrite W in HL.
    unfold minv in *. cbn [f_phase set_writer f_writer f_queue]. destruct (f_phase s) eqn:P; try done.
    + destruct H as (? & HU & HW). unfold pinv in HP. rewrite P in HP. unfold unwritten in *. rewrite W in HU. repeat split; [done|done|]. unfold wsoon. cbn [f_writer set_writer]. lia.
    + rewrite W in H. lia.
  - destruct (f_writer s) eqn:W; try done. destruct ok; [|done]. unfold wlive in HL. rewrite W in HL.
    unfold minv in *. cbn [f_phase wrote f_writer f_queue]. destruct (f_phase s) eqn:P; try done.
    + destruct H as (? & HU & HW). unfold unwritten in *. rewrite W in HU. cbn [f_writer wrote f_queue]. rewrite app_length in *. cbn [length] in *. repeat split; [done|lia].
    + rewrite W in H. lia.
  - destruct (f_writer s) eqn:W; try done. exfalso. by eapply HF.
  - destruct (f_writer s) eqn:W; done.
  - destruct (f_reader s); try done; by apply Hsame.
  - destruct (f_reader s); try done; by apply Hsame.
  - destruct (f_reader s); try done; destruct ok; by apply Hsame.
  - destruct (f_reader s); try done; by apply Hsame.
  - destruct (f_inbox s); try done; by apply Hsame.
Qed.
Lemma step_minv D li n t0 s t e : shape s -> noflush s -> pinv true D t0 s -> (forall t', minv D li n t' s) ->
  forall t', minv D li (n + sent1 e) t' (f_step false true li s (t, e)).
Proof.
  intros HS HF HP H. apply pick_minv; [by apply act_shape, timers_shape| |].
  - intros d Hd. pose proof (step_pinv false true li D t0 s t e HS HP) as Hp. unfold f_step, pinv in Hp. rewrite pick_phase, Hd in Hp. lia.
  - apply act_minv; [by apply timers_shape|by apply timers_noflush|apply timers_live|by eapply timers_pinv|by apply timers_minv].
Qed.
Lemma run_minv D li es : forall n t0 s, shape s -> noflush s -> pinv true D t0 s -> (forall t', minv D li n t' s) ->
  forall t', minv D li (n + sent es) t' (f_run false true li s es).
Proof.
  induction es as [|[t e] es IH]; intros n t0 s HS HF HP H; [rewrite N.add_0_r; done|].
  assert (n + sent ((t, e) :: es) = n + sent1 e + sent es) as -> by (destruct e; simpl; lia).
  apply (IH _ t); [by apply step_shape|by apply step_noflush|by eapply step_pinv|by eapply step_minv].
Qed.

(** ** The receiver's task *)
Definition rlive (t : N) (s : life) : Prop := match f_reader s with RBytes _ d => t <= d | _ => True end.
Definition rfrom (es : list (N * fev)) (s : life) : Prop := match f_reader s with RBytes n d => n <= f_max /\ exists u, In (u, FMemory) es /\ d = u + 5 | RMemory n => n <= f_max | _ => True end.
Lemma reader_same fl ma li t e s :
  (f_reader (f_step fl ma li s (t, e)) = f_reader s /\ rlive t (f_step fl ma li s (t, e))) \/
  f_reader (f_step fl ma li s (t, e)) = RDead \/ f_reader (f_step fl ma li s (t, e)) = RLength \/
  (exists n, f_reader s = RMemory n /\ e = FMemory /\ f_reader (f_step fl ma li s (t, e)) = RBytes n (t + 5)) \/
  (exists n, n <= f_max /\ f_reader (f_step fl ma li s (t, e)) = RMemory n).
Proof.
  assert (forall x u, f_reader (pick li u x) = f_reader x) as Hpick.
  { intros x u. unfold pick. destruct (f_writer x); try done. destruct (f_queue x) as [|[]]; done. }
  assert (forall x, f_reader (writer_dies x) = f_reader x \/ f_reader (writer_dies x) = RDead) as Hdies.
  { intros x. unfold writer_dies. destruct (f_phase x); auto. }
  assert (forall x, f_reader (finish ma x) = f_reader x \/ f_reader (finish ma x) = RDead) as Hfin.
  { intros x. unfold finish. destruct ma; [|auto]. destruct (f_writer x); auto. }
  assert (forall x u, f_reader (w_expire u x) = f_reader x \/ f_reader (w_expire u x) = RDead) as Hw.
  { intros x u. unfold w_expire. destruct (f_writer x); auto; destruct (limit <? u); auto. }
  assert (forall x u, f_reader (p_expire ma u x) = f_reader x \/ f_reader (p_expire ma u x) = RDead) as Hp.
  { intros x u. unfold p_expire. destruct (f_phase x); auto; destruct (limit <? u); auto. }
  assert ((f_reader (timers ma li t s) = f_reader s /\ rlive t (timers ma li t s)) \/ f_reader (timers ma li t s) = RDead) as Ht.
  { unfold timers. match goal with |- context [r_expire t ?y] => set (z := y) end.
    assert (f_reader z = f_reader s \/ f_reader z = RDead) as Hz.
    { unfold z. match goal with |- context [w_expire t ?y] => destruct (Hw y t) as [->| ->] end; [|auto].
      destruct (f_phase s); auto. destruct (limit <? t); auto. rewrite Hpick.
      destruct (Hp (w_expire limit s) t) as [->| ->]; auto. }
    unfold r_expire. destruct (f_reader z) eqn:R; [| | |auto].
    - left. unfold rlive. rewrite R. destruct Hz; [done|congruence].
    - left. unfold rlive. rewrite R. destruct Hz; [done|congruence].
    - destruct (N.ltb_spec limit t); [by right|]. left. unfold rlive. rewrite R. destruct Hz; [done|congruence]. }
  unfold f_step. unfold rlive. rewrite Hpick. fold (rlive t (f_act fl ma t e (timers ma li t s))).
  assert (forall x, f_reader x = f_reader (timers ma li t s) \/ f_reader x = RDead ->
    (f_reader x = f_reader s /\ rlive t x) \/ f_reader x = RDead) as Hx.
  { intros x [E|E]; [|by right]. destruct Ht as [[E1 E2]|E1]; [|right; congruence]. left. split; [congruence|]. unfold rlive in *. rewrite E. done. }
  set (y := timers ma li t s) in *.
  assert (forall x, f_reader x = f_reader y \/ f_reader x = RDead -> (f_reader x = f_reader s /\ rlive t x) \/ f_reader x = RDead \/ f_reader x = RLength \/
    (exists n, f_reader s = RMemory n /\ e = FMemory /\ f_reader x = RBytes n (t + 5)) \/ (exists n, n <= f_max /\ f_reader x = RMemory n)) as HX.
  { intros x Hxx. destruct (Hx x Hxx) as [?|?]; auto. }
  destruct e; cbn [f_act]; try (apply HX; auto; done).
  - destruct (f_phase y); try (apply HX; auto; done). destruct ok; [|apply HX; auto]. right. right. left. done.
  - destruct (f_phase y); try (apply HX; auto; done). destruct (ok && negb ma); apply HX; auto.
  - destruct (f_phase y), (f_writer y); apply HX; auto.
  - destruct (f_writer y); try (apply HX; auto; done). destruct ok; apply HX; auto.
  - destruct (f_writer y); try (apply HX; auto; done). destruct ok; [destruct fl|]; apply HX; auto.
  - destruct (f_writer y); try (apply HX; auto; done). destruct ok; apply HX; auto.
  - destruct (f_writer y); apply HX; auto.
  - destruct (f_reader y) eqn:R; try (apply HX; left; done). destruct (N.ltb_spec f_max n); [right; left; done|]. right. right. right. right. exists n. done.
  - destruct (f_reader y) eqn:R; try (apply HX; left; done). right. right. right. left. exists n.
    destruct Ht as [[E1 E2]|E1]; [|congruence]. split; [congruence|]. done.
  - destruct (f_reader y) eqn:R; try (apply HX; left; done). destruct ok; right; [right; left; done|left; done].
  - destruct (f_reader y) eqn:R; try (apply HX; left; done). right. left. done.
  - destruct (f_inbox y); apply HX; left; done.
Qed.
Lemma step_rfrom fl ma li s t e es : rfrom es s -> rfrom (es ++ [(t, e)]) (f_step fl ma li s (t, e)) /\ rlive t (f_step fl ma li s (t, e)).
Proof.
  intros H. destruct (reader_same fl ma li t e s) as [[E1 E2]|[E|[E|[(n & E & -> & E2)|(n & Hn & E)]]]]; unfold rfrom, rlive in *.
  - split; [|done]. rewrite E1. destruct (f_reader s); try done. destruct H as [? (u & ? & ?)]. split; [done|]. exists u. split; [apply in_or_app; by left|done].
  - rewrite E. done.
  - rewrite E. done.
  - rewrite E in H. rewrite E2. split; [|lia]. split; [done|]. exists t. split; [apply in_or_app; right; by left|done].
  - rewrite E. done.
Qed.
Lemma run_rfrom fl ma li es s : rfrom [] s -> rfrom es (f_run fl ma li s es).
Proof.
  intros H. induction es as [|[t e] es IH] using rev_ind; [done|]. rewrite f_run_app. apply step_rfrom. done.
Qed.

(** ** No message is larger than the limit *)
Definition sized (s : life) : Prop :=
  match f_reader s with RMemory n | RBytes n _ => n <= f_max | _ => True end /\ List.Forall (fun n => n <= f_max) (f_inbox s).
Lemma same_sized s s' : f_reader s' = f_reader s \/ f_reader s' = RDead -> f_inbox s' = f_inbox s \/ f_inbox s' = [] -> sized s -> sized s'.
Proof. unfold sized. intros [->| ->] [->| ->] [H1 H2]; by split. Qed.
Lemma finish_sized ma s : sized s -> sized (finish ma s).
Proof. apply same_sized; unfold finish; destruct ma; [destruct (f_writer s)| |destruct (f_writer s)|]; simpl; tauto. Qed.
Lemma p_expire_sized ma t s : sized s -> sized (p_expire ma t s).
Proof. intros H. unfold p_expire. destruct (f_phase s); try done; destruct (_ <? _); try done; [|by apply finish_sized]. revert H. apply same_sized; simpl; tauto. Qed.
Lemma w_expire_sized t s : sized s -> sized (w_expire t s).
Proof. intros H. unfold w_expire. destruct (f_writer s); try done; destruct (_ <? _); try done; revert H; apply same_sized; simpl; tauto. Qed.
Lemma r_expire_sized t s : sized s -> sized (r_expire t s).
Proof. intros H. unfold r_expire. destruct (f_reader s) eqn:E; try done; destruct (_ <? _); try done. revert H; apply same_sized; simpl; tauto. Qed.
Lemma pick_sized li t s : sized s -> sized (pick li t s).
Proof. apply same_sized; unfold pick; destruct (f_writer s); try tauto; destruct (f_queue s) as [|[]]; simpl; tauto. Qed.
Lemma timers_sized ma li t s : sized s -> sized (timers ma li t s).
Proof.
  intros H. unfold timers. apply r_expire_sized, w_expire_sized. destruct (f_phase s); try by apply p_expire_sized.
  destruct (_ <? _); [|done]. by apply pick_sized, p_expire_sized, w_expire_sized.
Qed.
Lemma act_sized fl ma t e s : sized s -> sized (f_act fl ma t e s).
Proof.
  intros H. destruct e as [ok|ok| |m|ok|ok|ok| |n| |ok| | |]; cbn [f_act].
  - destruct (f_phase s); try done. destruct ok; [split; [done|by constructor]|]. revert H; apply same_sized; simpl; tauto.
  - destruct (f_phase s); try done. destruct (_ && _); [|by apply finish_sized]. revert H; apply same_sized; simpl; tauto.
  - revert H; apply same_sized; simpl; tauto.
  - destruct (f_phase s); try done; destruct (f_writer s); try done; revert H; apply same_sized; simpl; tauto.
  - destruct (f_writer s); try done. destruct ok; revert H; apply same_sized; simpl; tauto.
  - destruct (f_writer s); try done. destruct ok; [destruct fl|]; revert H; apply same_sized; simpl; tauto.
  - destruct (f_writer s); try done. destruct ok; revert H; apply same_sized; simpl; tauto.
  - destruct (f_writer s); try done; revert H; apply same_sized; simpl; tauto.
  - destruct (f_reader s) eqn:E; try done. destruct H as [_ H2]. split; [|exact H2]. cbn [set_reader f_reader]. destruct (N.ltb_spec f_max n); [exact I|assumption].
  - destruct (f_reader s) eqn:E; try done. destruct H as [H1 H2]. rewrite E in H1. by split.
  - destruct (f_reader s) eqn:E; try done. destruct H as [H1 H2]. rewrite E in H1. destruct ok; (split; [done|]); [|done]. simpl. apply List.Forall_app. split; [done|]. by constructor.
  - destruct (f_reader s) eqn:E; try done. revert H; apply same_sized; simpl; tauto.
  - destruct (f_inbox s) eqn:E; [done|]. destruct H as [H1 H2]. rewrite E in H2. split; [done|]. by inversion H2.
  - done.
Qed.
Lemma run_sized fl ma li es s : sized s -> sized (f_run fl ma li s es).
Proof.
  revert s. induction es as [|[t e] es IH]; intros s H; [done|]. apply IH. unfold f_step. by apply pick_sized, act_sized, timers_sized.
Qed.
Lemma sized_held s : sized s -> f_held s <= f_max * (1 + N.of_nat (length (f_inbox s))).
Proof.
  intros [H1 H2]. unfold f_held.
  assert (fold_right N.add 0 (f_inbox s) <= f_max * N.of_nat (length (f_inbox s))) as Hi.
  { induction H2 as [|n l Hn _ IH]; [cbn; lia|]. cbn [fold_right length]. rewrite Nat2N.inj_succ. lia. }
  assert (match f_reader s with RBytes n _ => n | _ => 0 end <= f_max) as Hr by (destruct (f_reader s); lia). lia.
Qed.
