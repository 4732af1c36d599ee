(** Specification vocabulary for logins. *)
From stdpp Require Import gmap list.
From Coq Require Import NArith.
From Verif Require Import IdModel MsgModel DiscModel AuthModel LoginModel.

(** The events that are steps of user [u], of the marshal's handler of connection [h] or of a broker's handler of
    connection [hb], or that number another connection like these two. *)
Definition concerns (u h hb : N) (e : lev) : bool :=
  match e with
  | LStart u' h' _ => bool_decide (u' = u) || bool_decide (h' = h)
  | LUserPermit u' | LUserAccepted u' | LGiveUp u' => bool_decide (u' = u)
  | LDial u' hb' _ => bool_decide (u' = u) || bool_decide (hb' = hb)
  | LMarshalRecv h' _ | LMarshalWhitelist h' | LMarshalPlace h' _ | LMarshalIssue h' _ _ | LDropM h' | LForeignM h' => bool_decide (h' = h)
  | LBrokerRecv hb' | LBrokerValidate hb' _ | LBrokerTopics hb' | LDropB hb' | LForeignB hb' _ => bool_decide (hb' = hb)
  | LSendM _ _ | LSendB _ _ | LClean _ | LHeartbeat _ _ _ _ _ | LSetWhitelist _ => false
  end.

(** A login of user [u] over connections [h] to the marshal and [hb] to broker [b] that nothing
    breaks off: request at time [t0], received at [t1], broker chosen at [t2], permit issued at
    [t3] and validated at [t4]. *)
Definition login (u h hb : N) (b : bid) (t0 t1 t2 t3 permit t4 : N) : list lev :=
  [LStart u h t0; LMarshalRecv h t1; LMarshalWhitelist h; LMarshalPlace h t2; LMarshalIssue h t3 permit; LUserPermit u;
   LDial u hb b; LBrokerRecv hb; LBrokerValidate hb t4; LUserAccepted u; LBrokerTopics hb].

Section spec.
Context {pk : Type} `{EqDecision pk}.
Variable pk_deser : bytes -> option pk.
Variable pk_ser : pk -> option bytes.
Variable verify : pk -> bytes -> bytes -> bool.
Variable debug global redis : bool.
Variable u_key : N -> bytes.
Variable u_sign : N -> bytes -> bytes.
Variable u_topics : N -> list N.
Notation l_run := (l_run pk_deser pk_ser verify debug global redis u_key u_sign u_topics).

(** Connection [h] to the marshal was made by user [u], which sent its request of time [now] on it. *)
Definition opened (es : list lev) (u h now : N) : Prop :=
  exists es1 es2, es = es1 ++ LStart u h now :: es2 /\ l_mconns (l_run es1) !! h = None
    /\ (l_users (l_run es1) !! u = None \/ l_users (l_run es1) !! u = Some UFailed).
(** Connection [hb] to broker [b] was made by user [u] to present permit [p]. *)
Definition dialled (es : list lev) (u hb : N) (b : bid) (p : N) : Prop :=
  exists es1 es2, es = es1 ++ LDial u hb b :: es2 /\ l_bconns (l_run es1) !! hb = None
    /\ l_users (l_run es1) !! u = Some (UGranted (bpub b) p).
(** The marshal issued permit [p] on connection [h], for key [k] and broker [b]. *)
Definition issued_on (es : list lev) (h p : N) (k : bytes) (b : bid) : Prop :=
  exists es1 t es2, es = es1 ++ LMarshalIssue h t p :: es2 /\ w_marshal (l_w (l_run es1)) !! h = Some (MPlaced k b)
    /\ h ∉ l_gone_m (l_run es1) /\ d_issue_ok global redis (w_disc (l_w (l_run es1))) p = true.
(** Broker [b] validated permit [p] on connection [hb]; it was bound to key [k]. *)
Definition validated_on (es : list lev) (hb : N) (b : bid) (p : N) (k : bytes) : Prop :=
  exists es1 t es2, es = es1 ++ LBrokerValidate hb t :: es2 /\ w_broker (l_w (l_run es1)) !! hb = Some (BValidate b p)
    /\ hb ∉ l_gone_b (l_run es1) /\ d_answer global redis (w_disc (l_w (l_run es1))) (DTake t b p) = Some k.
(** The marshal's handler of connection [h] received a valid fresh request for key [k]: the request of the honest user
    that made the connection, or one that somebody else sent on it. *)
Definition asked (es : list lev) (h : N) (k : bytes) : Prop :=
  exists now ts sig q, In (LMarshalRecv h now) es
    /\ pk_deser k = Some q /\ verify q (signed_bytes ns_user ts) sig = true /\ age_ok debug now ts = true
    /\ ((exists u, opened es u h ts /\ k = u_key u /\ sig = u_sign u (signed_bytes ns_user ts))
        \/ (h ∈ l_foreign_m (l_run es) /\ In (LSendM h (MAuthWithKey ts k sig)) es)).
End spec.
