(** Specification vocabulary for the whole system. *)
From stdpp Require Import gmap list.
From Coq Require Import NArith.
From Verif Require Import IdModel VMapModel ConnModel MsgModel DiscModel AuthModel LoginModel LoginSpec RouteModel TaskModel TaskOrder NetModel SystemModel.

Section spec.
Context {pk : Type} `{EqDecision pk}.
Variable pk_deser : bytes -> option pk.
Variable pk_ser : pk -> option bytes.
Variable verify : pk -> bytes -> bytes -> bool.
Variable debug global redis : bool.
Variable u_key : N -> bytes.
Variable u_sign : N -> bytes -> bytes.
Variable u_topics : N -> list N.
Notation l_run := (l_run pk_deser pk_ser verify debug global redis u_key u_sign u_topics).
Notation l_step := (l_step pk_deser pk_ser verify debug global redis u_key u_sign u_topics).
Notation l_admits := (l_admits pk_deser pk_ser verify debug global redis u_key u_sign u_topics).
Notation opened := (opened pk_deser pk_ser verify debug global redis u_key u_sign u_topics).
Notation issued_on := (issued_on pk_deser pk_ser verify debug global redis u_key u_sign u_topics).
Notation validated_on := (validated_on pk_deser pk_ser verify debug global redis u_key u_sign u_topics).
Notation asked := (asked pk_deser pk_ser verify debug global redis u_key u_sign u_topics).

(** The marshal's handler of connection [h] looked key [k] up in the whitelist, which allowed it. *)
Definition cleared (ls : list lev) (h : N) (k : bytes) : Prop :=
  exists ls1 ls2 q canon, ls = ls1 ++ LMarshalWhitelist h :: ls2 /\ pk_deser k = Some q /\ pk_ser q = Some canon
    /\ d_whitelisted global redis (w_disc (l_w (l_run ls1))) canon = true.

(** Broker [b] registered a user on connection [c] under key [k] with topics [ts], and before that: the
    marshal had received a valid fresh signature by [k], had found [k] whitelisted and had issued a
    number for it; and the broker had looked that number up and got [k] for it. *)
Definition admitted (ls : list lev) (c : N) (b : bid) (k : bytes) (ts : list N) : Prop :=
  exists ls1 ls2 p h b0, ls = ls1 ++ LBrokerTopics c :: ls2 /\ l_admits ls1 (LBrokerTopics c) = Some (b, k, ts)
    /\ asked ls1 h k /\ cleared ls1 h k /\ issued_on ls1 h p k b0 /\ (global = true \/ bid_print b0 = bid_print b)
    /\ validated_on ls1 c b p k.

(** What keeps a key one's own: nobody else presents a signature that is valid for it, or a
    number that was issued for it to its honest owner; and no number is issued twice. *)
Definition kept (ls : list lev) (k : bytes) : Prop :=
  (forall h ts sig q, In (LSendM h (MAuthWithKey ts k sig)) ls -> pk_deser k = Some q -> verify q (signed_bytes ns_user ts) sig = false)
  /\ (forall u h now p b0 hb, opened ls u h now -> issued_on ls h p k b0 -> ~ In (LSendB hb (MAuthWithPermit p)) ls)
  /\ (forall p h1 h2 k1 k2 b1 b2, issued_on ls h1 p k1 b1 -> issued_on ls h2 p k2 b2 -> h1 = h2).

(** The honest login of [u] over connections [h] to the marshal and [c] to broker [b], among whatever else
    happens: it is not broken off, its clocks agree within 5 seconds, its key is valid and whitelisted, the marshal names
    [b], and issues it a number of its own, which nobody guesses and which is used within 30 seconds. *)
Definition logs_in (ls : list lev) (u h c : N) (b : bid) : Prop :=
  exists t0 t1 t2 t3 permit t4 p canon,
  List.filter (concerns u h c) ls = login u h c b t0 t1 t2 t3 permit t4
  /\ pk_deser (u_key u) = Some p /\ pk_ser p = Some canon /\ (forall m, verify p m (u_sign u m) = true)
  /\ (5 <= t1 < 2 ^ 64)%N /\ (t0 <= t1 <= t0 + 5)%N
  /\ (forall ls1 ls2, ls = ls1 ++ LMarshalWhitelist h :: ls2 -> d_whitelisted global redis (w_disc (l_w (l_run ls1))) canon = true)
  /\ (forall ls1 ls2, ls = ls1 ++ LMarshalPlace h t2 :: ls2 -> d_least global redis (w_disc (l_w (l_run ls1))) t2 = Some b)
  /\ (1 < permit < 2 ^ 32)%N
  /\ (forall h' t, In (LMarshalIssue h' t permit) ls -> h' = h)
  /\ (forall h', ~ In (LSendB h' (MAuthWithPermit permit)) ls)
  /\ (forall ls1 ls2 ls3, ls = ls1 ++ LMarshalIssue h t3 permit :: ls2 ++ LBrokerValidate c t4 :: ls3 ->
        forall t, In (LClean t) ls2 \/ (exists h', In (LMarshalPlace h' t) ls2) -> (t <= t3 + 30)%N)
  /\ (t4 < t3 + 30)%N.

(** What the network sees of a run. *)
Fixpoint net_of (l : lworld) (es : list sev) : list nevent :=
  match es with
  | [] => []
  | SLogin e h hh :: es' => match register e (l_step l e).2 h hh with Some x => [x] | None => [] end ++ net_of (l_step l e).1 es'
  | SNet (NUser _ _ _ _ _ _) :: es' => net_of l es'
  | SNet e :: es' => e :: net_of l es'
  end.
Definition net_events (es : list sev) : list nevent := net_of lworld0 es.
End spec.
