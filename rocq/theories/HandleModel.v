(** Model of who owns a client: its handles, the calls in progress, and its reconnection task. Definitions only.

    /repo/cdn-client/src/lib.rs 38-67 ([Client] is a shared pointer to a [ClientRef]), 204-257 (the reconnection task owns such a pointer
    too: [self_clone], 211), /repo/cdn-proto/src/util.rs 25-41 ([AbortOnDropHandle]: the handle is inside the [ClientRef], lib.rs 61, so as long as the task
    owns that, nobody drops the handle), /repo/cdn-proto/src/connection/protocols/mod.rs 105-116 (a connection is closed when its last owner drops it).

    Simplified: what the client does is ClientModel.v. A call borrows a handle, so the last handle cannot be dropped while a call is in progress (it can be
    once the call was dropped, [EDrop]). The memory of the client is freed at once when nobody owns it any more. *)
From stdpp Require Import gmap list.
From Coq Require Import NArith.
From Verif Require Import ClientModel.

Record held := Held {
  a_client : client;
  a_handles : N;     (* how many [Client]s the application has *)
  a_freed : bool;    (* nobody owns the [ClientRef] any more: it was dropped, with the connection in it *)
}.
Inductive aev :=
  | AClone           (* the application clones a handle *)
  | AFree            (* the application drops a handle *)
  | ADo (e : cev).   (* a call is started, or something that was started goes on *)

(** The last owner is gone: neither a handle nor the reconnection task is left. *)
Definition settle (s : held) : held :=
  if decide (a_handles s = 0%N /\ k_tasks (a_client s) = ∅) then Held (w_slot (a_client s) None) 0 true else s.

Definition a_step (s : held) (e : aev) : held * list cout :=
  if a_freed s then (s, []) else
  match e with
  | AClone => if (a_handles s =? 0)%N then (s, []) else (Held (a_client s) (a_handles s + 1) false, [])
  | AFree =>
      if (a_handles s =? 0)%N then (s, [])
      else if decide (a_handles s = 1%N /\ k_thr (a_client s) <> ∅) then (s, [])
      else (settle (Held (a_client s) (a_handles s - 1) false), [])
  | ADo e =>
      match e, (a_handles s =? 0)%N with
      | EStart _ _, true => (s, [])
      | _, _ => let '(k, o) := kstep (a_client s) e in (settle (Held k (a_handles s) false), o)
      end
  end.

Fixpoint a_go (s : held) (es : list aev) : held * list cout :=
  match es with
  | [] => (s, [])
  | e :: es' => let '(s', o) := a_step s e in let '(s'', o') := a_go s' es' in (s'', o ++ o')
  end.

(** lib.rs 175-198: [Client::new] returns the first handle. *)
Definition a_new (topics : list N) : held := Held (k_new topics) 1 false.
Definition a_run (topics : list N) (es : list aev) : held * list cout := a_go (a_new topics) es.
