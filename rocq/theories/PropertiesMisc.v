(** Properties of the running-latency metric, of certificates, of the deterministic generator and of endpoints
    (LatencyModel.v, TlsModel.v, StartModel.v). *)
From stdpp Require Import list.
From Coq Require Import NArith Lia.
From Verif Require Import LatencyModel TlsModel StartModel.
Local Open Scope N_scope.

(** ** C78: the running latency is the average over the last period *)
Definition sum (l : list N) : N := fold_right N.add 0 l.
(** Periods with their samples; at the end of each the task looks at the histogram. *)
Definition periods (ws : list (list N)) : list lev := concat (map (fun w => map LSample w ++ [LSum; LCount]) ws).

Lemma l_run_app s a b : l_run s (a ++ b) = l_run (l_run s a) b.
Proof. apply fold_left_app. Qed.
Lemma l_samples w : forall s, l_run s (map LSample w) =
  Lat (l_sum s + sum w) (l_count s + N.of_nat (length w)) (l_read s) (l_last_sum s) (l_last_count s) (l_gauge s).
Proof.
  induction w as [|x w IH]; intros [a b c d e g]; [simpl; f_equal; lia|].
  change (map LSample (x :: w)) with (LSample x :: map LSample w). change (l_run ?s (?e :: ?r)) with (l_run (l_step s e) r).
  rewrite IH. cbn [l_step l_sum l_count l_read l_last_sum l_last_count l_gauge sum fold_right length]. f_equal; [fold (sum w); lia|lia].
Qed.
(** If no sample comes in while the task looks, the gauge is the average of the samples of the last period that had any. *)
Theorem C78_running_average ws w quiet :
  w <> [] -> List.Forall (fun v => v = []) quiet ->
  l_gauge (l_run l_init (periods (ws ++ w :: quiet))) = Some (sum w, N.of_nat (length w)).
Proof.
  intros Hw Hq.
  assert (forall vs s, l_last_sum s = l_sum s -> l_last_count s = l_count s ->
    l_last_sum (l_run s (periods vs)) = l_sum (l_run s (periods vs)) /\ l_last_count (l_run s (periods vs)) = l_count (l_run s (periods vs))) as Hrest.
  { induction vs as [|v vs IH]; intros s H1 H2; [done|]. unfold periods. cbn [map concat]. rewrite <- app_assoc, l_run_app, l_run_app, l_samples.
    apply IH; done. }
  assert (forall vs s, List.Forall (fun v => v = []) vs -> l_last_sum s = l_sum s -> l_last_count s = l_count s ->
    l_gauge (l_run s (periods vs)) = l_gauge s) as Hquiet.
  { induction vs as [|v vs IH]; intros s HF H1 H2; [done|]. inversion HF; subst. unfold periods. cbn [map concat app]. 
    change (l_run s (LSum :: LCount :: concat (map (fun w => map LSample w ++ [LSum; LCount]) vs))) with (l_run (l_step (l_step s LSum) LCount) (periods vs)).
    rewrite IH; [|done|done|done]. cbn [l_step l_sum l_count l_read l_last_sum l_last_count l_gauge]. rewrite H2, N.sub_diag. done. }
  unfold periods. rewrite map_app, concat_app. cbn [map concat]. rewrite l_run_app. fold (periods ws). fold (periods quiet).
  destruct (Hrest ws l_init eq_refl eq_refl) as [E1 E2]. set (s := l_run l_init (periods ws)) in *.
  rewrite l_run_app, l_run_app, l_samples. rewrite Hquiet; [|done|done|done].
  cbn [l_run fold_left l_step l_sum l_count l_read l_last_sum l_last_count l_gauge].
  rewrite E1, E2. replace (l_sum s + sum w - l_sum s) with (sum w) by lia.
  replace (l_count s + N.of_nat (length w) - l_count s) with (N.of_nat (length w)) by lia.
  destruct (N.eqb_spec (N.of_nat (length w)) 0); [|done]. destruct w; [done|simpl in *; lia].
Qed.
Print Assumptions C78_running_average.
Example C78_example :
  [30; 50] <> [] /\ List.Forall (fun v => v = []) [@nil N; []] /\
  l_gauge (l_run l_init (periods [[10; 20]; [30; 50]; []; []])) = Some (80, 2).
Proof. split; [done|]. split; [repeat constructor|]. vm_compute. done. Qed.
(** "The gauge is the average of samples" is false if one comes in between the two reads: it counts without its latency, and its latency never shows. *)
Theorem C78_sample_between_reads_refuted x :
  l_gauge (l_run l_init [LSum; LSample x; LCount]) = Some (0, 1) /\
  l_gauge (l_run l_init [LSum; LSample x; LCount; LSum; LCount]) = Some (0, 1).
Proof. done. Qed.
Print Assumptions C78_sample_between_reads_refuted.

(** ** C79: clients accept servers of the authority they trust *)
Section tls.
Context (pub : N -> N) (read : N -> option N) (parse_cert : N -> option authority) (parse_key : N -> option N) (local_cert local_key prod_cert : N).
Notation server := (server_cert pub read parse_cert parse_key local_cert local_key).
Notation accept := (accepts pub parse_cert local_cert prod_cert).

(** A server given both files starts if and only if both can be read and parsed; a client accepts it if and only if the authority in the file has the name and the public key of the one it
    trusts, and the key file holds the key of it. *)
Theorem C79_given_authority cp kp use_local endpoint :
  (is_Some (server (Some cp) (Some kp)) <-> (exists c k a s, read cp = Some c /\ read kp = Some k /\ parse_cert c = Some a /\ parse_key k = Some s)) /\
  (forall ct sk, server (Some cp) (Some kp) = Some (ct, sk) ->
    accept use_local endpoint ct = true <->
    exists c a s root, read cp = Some c /\ parse_cert c = Some a /\ (exists k, read kp = Some k /\ parse_key k = Some s) /\
      parse_cert (if use_local then local_cert else prod_cert) = Some root /\ a_name a = a_name root /\ pub s = a_pub root).
Proof.
  unfold server_cert, load_ca, generate_cert, accepts, root_store. split.
  - destruct (read cp) as [c|] eqn:Ec; [|split; [intros [? ?]; done|intros (? & ? & ? & ? & ? & _); done]].
    destruct (read kp) as [k|] eqn:Ek; [|split; [intros [? ?]; done|intros (? & ? & ? & ? & ? & ? & _); done]].
    destruct (parse_cert c) as [a|] eqn:Ea; [|split; [intros [? ?]; done|intros (? & ? & ? & ? & ? & ? & ? & ?); simplify_eq]].
    destruct (parse_key k) as [s|] eqn:Es; [|split; [intros [? ?]; done|intros (? & ? & ? & ? & ? & ? & ? & ?); simplify_eq]].
    split; [intros _; exists c, k, a, s; done|intros _; eauto].
  - intros ct sk. destruct (read cp) as [c|] eqn:Ec; [|done]. destruct (read kp) as [k|] eqn:Ek; [|done].
    destruct (parse_cert c) as [a|] eqn:Ea; [|done]. destruct (parse_key k) as [s|] eqn:Es; [|done]. intros [= <- <-].
    cbn [c_issuer c_signed_by c_san c_is_ca]. destruct (parse_cert (if use_local then local_cert else prod_cert)) as [root|] eqn:Er.
    + change (espresso =? espresso) with true. rewrite !andb_true_r. rewrite andb_true_iff, !N.eqb_eq. split.
      * intros [H1 H2]. exists c, a, s, root. repeat split; try done. eauto.
      * intros (c' & a' & s' & root' & Hc & Ha & (k' & Hk & Hs) & Hr & H1 & H2). simplify_eq. done.
    + split; [done|]. intros (? & ? & ? & ? & _ & _ & _ & ? & _). done.
Qed.
(** A server given neither file uses the authority of the source, which clients accept if and only if they were told to (or the production authority is the same). *)
Theorem C79_no_authority endpoint ct sk a :
  server None None = Some (ct, sk) -> parse_cert local_cert = Some a ->
  (forall s, parse_key local_key = Some s -> pub s = a_pub a) ->
  accept true endpoint ct = true /\
  (accept false endpoint ct = true -> exists root, parse_cert prod_cert = Some root /\ a_name root = a_name a /\ a_pub root = a_pub a).
Proof.
  unfold server_cert, load_ca, generate_cert, accepts, root_store. intros H Ha Hk. rewrite Ha in H.
  destruct (parse_key local_key) as [s|] eqn:Es; [|done]. injection H as <- <-. specialize (Hk s eq_refl). rewrite Ha.
  cbn [c_issuer c_signed_by c_san c_is_ca]. change (espresso =? espresso) with true. split.
  - rewrite Hk, !N.eqb_refl. done.
  - destruct (parse_cert prod_cert) as [root|]; [|done]. rewrite !andb_true_r, andb_true_iff, !N.eqb_eq. intros [H1 H2]. exists root. split; [done|]. split; congruence.
Qed.
(** "A server that is given a certificate presents one of this authority or does not start" is false: with only one of the two files it silently uses the test authority, whose key is public. *)
Theorem C79_one_file_refuted cp kp :
  server (Some cp) None = server None None /\ server None (Some kp) = server None None.
Proof. done. Qed.
(** "A client is connected to the server it dialled" is not ensured by the certificate: what is accepted for one endpoint is accepted for all. *)
Theorem C79_any_server_refuted use_local e1 e2 ct : accept use_local e1 ct = accept use_local e2 ct.
Proof. done. Qed.
End tls.
Print Assumptions C79_given_authority.
Print Assumptions C79_no_authority.
Print Assumptions C79_one_file_refuted.
Print Assumptions C79_any_server_refuted.

(** Authorities 1 (test, key 10) and 2 (production, key 20, its files at 7 and 8). *)
Definition tx_pub (k : N) : N := k + 100.
Definition tx_read (p : N) : option N := if p =? 7 then Some 2 else if p =? 8 then Some 20 else None.
Definition tx_cert (c : N) : option authority := if c =? 1 then Some (Authority 1 110) else if c =? 2 then Some (Authority 2 120) else None.
Definition tx_key (k : N) : option N := Some k.
Example C79_example :
  exists ct sk ct' sk',
    server_cert tx_pub tx_read tx_cert tx_key 1 10 (Some 7) (Some 8) = Some (ct, sk) /\
    accepts tx_pub tx_cert 1 2 false 5 ct = true /\ accepts tx_pub tx_cert 1 2 true 5 ct = false /\
    server_cert tx_pub tx_read tx_cert tx_key 1 10 None None = Some (ct', sk') /\ tx_cert 1 = Some (Authority 1 110) /\
    (forall s, tx_key 10 = Some s -> tx_pub s = a_pub (Authority 1 110)) /\
    accepts tx_pub tx_cert 1 2 true 5 ct' = true /\ accepts tx_pub tx_cert 1 2 false 5 ct' = false.
Proof. do 4 eexists. split; [vm_compute; done|]. split; [done|]. split; [done|]. split; [vm_compute; done|]. split; [done|]. split; [intros s [= <-]; done|]. done. Qed.

(** ** C80: keys drawn from a seed *)
Lemma rng_fill_spec n : forall s, length (fst (rng_fill n s)) = n /\ snd (rng_fill n s) = s / 256 ^ N.of_nat n.
Proof.
  induction n as [|n IH]; intros s; [split; [done|]; change (256 ^ N.of_nat 0) with 1; rewrite N.div_1_r; done|]. cbn [rng_fill].
  destruct (rng_fill n (s / 256)) as [l s'] eqn:E. specialize (IH (s / 256)). rewrite E in IH. cbn [fst snd] in IH. destruct IH as [H1 H2]. cbn [fst snd length]. split; [lia|].
  rewrite H2, N.div_div; [|lia|apply N.pow_nonzero; lia]. f_equal. rewrite Nat2N.inj_succ, N.pow_succ_r'. done.
Qed.
Lemma rng_fill_value n : forall s, fold_right (fun b v => b + 256 * v) 0 (fst (rng_fill n s)) = s mod 256 ^ N.of_nat n.
Proof.
  induction n as [|n IH]; intros s; [change (256 ^ N.of_nat 0) with 1; rewrite N.mod_1_r; done|]. cbn [rng_fill].
  specialize (IH (s / 256)). destruct (rng_fill n (s / 256)) as [l s'] eqn:E. cbn [fst fold_right] in *. rewrite IH.
  rewrite Nat2N.inj_succ, N.pow_succ_r'. rewrite N.mod_mul_r; [done|lia|apply N.pow_nonzero; lia].
Qed.
(** Different seeds give different bytes, if at least eight are drawn; the same seed the same. *)
Theorem C80_seeds_differ n s1 s2 :
  (8 <= n)%nat -> s1 < 2 ^ 64 -> s2 < 2 ^ 64 -> fst (rng_fill n s1) = fst (rng_fill n s2) -> s1 = s2.
Proof.
  intros Hn H1 H2 H. apply (f_equal (fold_right (fun b v => b + 256 * v) 0)) in H. rewrite !rng_fill_value in H.
  assert (2 ^ 64 <= 256 ^ N.of_nat n) as HP.
  { change (2 ^ 64) with (256 ^ 8). apply N.pow_le_mono_r; lia. }
  rewrite !N.mod_small in H by lia. done.
Qed.
Print Assumptions C80_seeds_differ.
Example C80_example : (8 <= 32)%nat /\ 258 < 2 ^ 64 /\ take 3 (fst (rng_fill 32 258)) = [2; 1; 0].
Proof. split; [lia|]. split; [lia|]. vm_compute. done. Qed.
(** "Different seeds give different keys" is false from the second key on, if a key takes eight bytes or more: all generators then give zeros. *)
Theorem C80_second_key_refuted n m s :
  (8 <= n)%nat -> s < 2 ^ 64 -> fst (rng_fill m (snd (rng_fill n s))) = replicate m 0.
Proof.
  intros Hn Hs. rewrite (proj2 (rng_fill_spec n s)).
  assert (2 ^ 64 <= 256 ^ N.of_nat n) as HP.
  { change (2 ^ 64) with (256 ^ 8). apply N.pow_le_mono_r; lia. }
  rewrite N.div_small by lia. induction m as [|m IH]; [done|]. cbn [rng_fill]. change (0 / 256) with 0. change (0 mod 256) with 0.
  destruct (rng_fill m 0) as [l s'] eqn:E. cbn [fst] in *. rewrite IH. done.
Qed.
Print Assumptions C80_second_key_refuted.
(** "Draws differ" is false: every number drawn from one generator is the same. *)
Theorem C80_numbers_repeat_refuted s : rng_u64 (snd (rng_u64 s)) = rng_u64 s /\ rng_u32 (snd (rng_u32 s)) = rng_u32 s.
Proof. done. Qed.
Print Assumptions C80_numbers_repeat_refuted.

(** ** C81: endpoints mean what they say *)
(** [p] occurs in [s] after [a]. *)
Definition occurs (p s : list N) : Prop := exists a b, s = a ++ p ++ b.

Lemma starts_spec p : forall s, starts p s = true <-> exists b, s = p ++ b.
Proof.
  induction p as [|x p IH]; intros s; simpl; [split; [eauto|done]|]. destruct s as [|y s]; [split; [done|intros [b ?]; done]|].
  rewrite andb_true_iff, N.eqb_eq, IH. split.
  - intros [-> [b ->]]. eauto.
  - intros [b [= -> ->]]. split; [done|eauto].
Qed.
Lemma replace_skip p new a : forall b, replace_from p new (length a) (a ++ b) = replace_from p new 0 b.
Proof. induction a as [|x a IH]; intros b; [done|]. cbn [app length replace_from]. apply IH. Qed.
Lemma replace_none p new s : ~ occurs p s -> replace p new s = s.
Proof.
  unfold replace. induction s as [|c s IH]; intros H; [done|]. cbn [replace_from].
  destruct (starts p (c :: s)) eqn:E.
  - exfalso. apply starts_spec in E as [b E]. apply H. exists [], b. done.
  - f_equal. apply IH. intros (a & b & ->). apply H. exists (c :: a), b. done.
Qed.
Lemma replace_first p new a : forall b, p <> [] -> (forall a1 a2, a = a1 ++ a2 -> a2 <> [] -> starts p (a2 ++ p ++ b) = false) ->
  replace p new (a ++ p ++ b) = a ++ new ++ replace p new b.
Proof.
  unfold replace. induction a as [|c a IH]; intros b Hp H; cbn [app].
  - destruct p as [|x p]; [done|]. cbn [app replace_from]. assert (starts (x :: p) (x :: p ++ b) = true) as -> by (apply starts_spec; eauto).
    f_equal. cbn [length]. replace (S (length p) - 1)%nat with (length p) by lia. apply replace_skip.
  - cbn [replace_from]. rewrite (H [] (c :: a) eq_refl ltac:(done) : starts p (c :: a ++ p ++ b) = false). f_equal.
    apply IH; [done|]. intros a1 a2 -> Ha. apply (H (c :: a1) a2 eq_refl Ha).
Qed.
(** "local_ip" does not overlap itself. *)
Lemma local_ip_not_inside a1 a2 b : ~ occurs local_ip (a1 ++ a2) -> a2 <> [] -> starts local_ip (a2 ++ local_ip ++ b) = false.
Proof.
  intros H Hne. destruct (starts local_ip (a2 ++ local_ip ++ b)) eqn:E; [|done]. exfalso.
  apply starts_spec in E as [c E]. destruct (decide (length local_ip <= length a2)%nat) as [L|L].
  - apply H. exists a1, (drop (length local_ip) a2). f_equal. rewrite <- (take_drop (length local_ip) a2) at 1. f_equal.
    apply (f_equal (take (length local_ip))) in E. rewrite take_app_le in E by done. rewrite E. rewrite take_app_le by done. done.
  - unfold local_ip in *. cbn [length] in L.
    do 8 (destruct a2 as [|? a2]; [try done; cbn [app] in E; injection E as ?; subst; simplify_eq|]). simpl in L. lia.
Qed.
(** The pieces of an endpoint between the places where "local_ip" stands, put together around [x]. *)
Fixpoint around (x p : list N) (ps : list (list N)) : list N := match ps with [] => p | q :: ps => p ++ x ++ around x q ps end.
(** Wherever "local_ip" stands in an endpoint, the local address takes its place, and nothing else changes. *)
Theorem C81_local_ip ip p ps :
  Forall (fun q => ~ occurs local_ip q) (p :: ps) -> endpoints (Some ip) [around local_ip p ps] = Some [around ip p ps].
Proof.
  intros H. unfold endpoints. cbn [map]. do 2 f_equal. revert p H. induction ps as [|q ps IH]; intros p H; cbn [around].
  - apply replace_none. inversion H. done.
  - inversion_clear H as [|? ? Hp Hps]. rewrite replace_first; [rewrite IH by done; done|done|].
    intros a1 a2 -> Ha. apply (local_ip_not_inside a1); done.
Qed.
Print Assumptions C81_local_ip.
(** "local_ip:1738" on 10.0.0.1, and "x" *)
Example C81_example :
  Forall (fun q => ~ occurs local_ip q) [[]; [58; 49; 55; 51; 56]] /\
  around local_ip [] [[58; 49; 55; 51; 56]] = local_ip ++ [58; 49; 55; 51; 56] /\
  endpoints (Some [49; 48; 46; 48; 46; 48; 46; 49]) [local_ip ++ [58; 49; 55; 51; 56]; [120]] = Some [[49; 48; 46; 48; 46; 48; 46; 49; 58; 49; 55; 51; 56]; [120]].
Proof.
  split; [|vm_compute; done]. repeat constructor; intros (a & b & E); apply (f_equal length) in E; rewrite !app_length in E; simpl in E; lia.
Qed.
(** "A broker whose endpoints do not mention the local address starts without one" is false. *)
Theorem C81_needs_local_ip_refuted c : endpoints None c = None.
Proof. done. Qed.
Print Assumptions C81_needs_local_ip_refuted.
(** A name is dialled exactly if its first address is an IPv4 address that can be reached. *)
Theorem C81_first_v4_dialled reachable l :
  dial reachable l = true <-> exists n r, l = (V4, n) :: r /\ reachable (V4, n) = true.
Proof.
  split; [|intros (n & r & -> & H); done]. destruct l as [|[[] n] r]; [done| |done]. intros H. exists n, r. done.
Qed.
Print Assumptions C81_first_v4_dialled.
Example C81_example_dial : dial (fun a => snd a =? 7) [(V4, 7); (V6, 8)] = true /\ dial (fun a => snd a =? 7) [(V4, 6)] = false.
Proof. vm_compute. done. Qed.
(** "A name is dialled if one of its addresses can be reached" is false: only the first is tried, and never an IPv6 address. *)
Theorem C81_other_addresses_refuted n m :
  dial (fun _ => true) [(V6, n); (V4, m)] = false /\ dial (fun a => snd a =? 8) [(V4, 7); (V4, 8)] = false.
Proof. split; [done|]. vm_compute. done. Qed.
Print Assumptions C81_other_addresses_refuted.
