(** Specification vocabulary for authentication. *)
From stdpp Require Import gmap list.
From Coq Require Import NArith.
From Verif Require Import IdModel MsgModel DiscModel AuthModel.

Section spec.
Context {pk : Type} `{EqDecision pk}.
Variable pk_deser : bytes -> option pk.
Variable pk_ser : pk -> option bytes.
Variable verify : pk -> bytes -> bytes -> bool.
Variable debug global redis : bool.
Notation a_run := (a_run pk_deser pk_ser verify debug global redis).
Notation a_admits := (a_admits pk_deser pk_ser verify debug global redis).

(** A message that carries public key [key], a valid signature by it of its timestamp for
    namespace [ns], and a timestamp neither in the future nor older than five seconds. *)
Definition good_request (ns : bytes) (now : N) (p : pk) (key : bytes) (m : message) : Prop :=
  exists ts sig, m = MAuthWithKey ts key sig
    /\ pk_deser key = Some p /\ verify p (ns ++ le8 ts) sig = true
    /\ age_ok debug now ts = true.

(** Marshal connection [h] received such a request for [key], the canonical form of which is [canon]; it was
    the first message on it. *)
Definition requested (es : list aev) (h : N) (key canon : bytes) : Prop :=
  exists es1 now m p es2, es = es1 ++ AMarshalRecv h now m :: es2
    /\ (forall now' m', ~ In (AMarshalRecv h now' m') es1)
    /\ good_request ns_user now p key m /\ pk_ser p = Some canon.
(** Later, its key was looked up in the whitelist and allowed. *)
Definition allowed (es : list aev) (h : N) (key : bytes) : Prop :=
  exists es1 canon es2, es = es1 ++ AMarshalWhitelist h :: es2
    /\ requested es1 h key canon
    /\ d_whitelisted global redis (w_disc (a_run es1)) canon = true.
(** Later, a permit was issued to it. *)
Definition granted (es : list aev) (h : N) (key : bytes) : Prop :=
  exists es1 now permit es2, es = es1 ++ AMarshalIssue h now permit :: es2 /\ allowed es1 h key.

(** The number of times a user is registered with key [key]. *)
Fixpoint admissions_from (key : bytes) (pre es : list aev) : nat :=
  match es with
  | [] => 0
  | e :: es' =>
      (match a_admits pre e with Some (_, k, _) => if decide (k = key) then 1 else 0 | None => 0 end)
      + admissions_from key (pre ++ [e]) es'
  end.
Definition admissions key es := admissions_from key [] es.
End spec.
