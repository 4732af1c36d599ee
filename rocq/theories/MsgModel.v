(** Model of the message type — /repo/cdn-proto/src/message.rs 83-105 (and the structs at
    319-380). Definitions only. Strings and byte vectors are byte lists. *)
From stdpp Require Import list.
From Coq Require Import NArith.
From Verif Require Import IdModel.

(** message.rs 83-105: [Message]. *)
Inductive message :=
  | MAuthWithKey (timestamp : N) (public_key signature : bytes)
  | MAuthWithPermit (permit : N)
  | MAuthResponse (permit : N) (context : bytes)
  | MDirect (recipient body : bytes)
  | MBroadcast (topics : list N) (body : bytes)
  | MSubscribe (topics : list N)
  | MUnsubscribe (topics : list N)
  | MUserSync (payload : bytes)
  | MTopicSync (payload : bytes).

Global Instance message_eq_dec : EqDecision message.
Proof. solve_decision. Defined.

(** /repo/cdn-proto/src/def.rs 68-92: the result of [on_message_received], together with
    the message as the hook left it (it receives [&mut Message]). *)
Inductive hook_out := HSkip | HProcess (m : message) | HErr.
(** One invocation of a hook: an arbitrary function of the message (hooks carry state of
    their own, so every invocation may be a different function). *)
Definition hook := message -> hook_out.
(** def.rs 96-97: [NoMessageHook]. *)
Definition no_hook : hook := HProcess.
