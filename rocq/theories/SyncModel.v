(** Model of user-directory synchronisation over a network of brokers: the use that
    /repo/cdn-broker/src/tasks/broker/sync.rs 49-83, 127-146 and
    /repo/cdn-broker/src/tasks/broker/handler.rs 102-117, 159-168 make of [Connections].
    Definitions only.

    Simplifications: every pair of brokers is linked; a link is a list of user-sync
    messages, oldest first. Delivering index 0 is the FIFO behaviour of a real link; other
    indexes and duplication over-approximate it. Messages carry the map itself (rkyv
    encoding is not modelled). Loss of a link is not modelled here. *)
From stdpp Require Import gmap list.
From Coq Require Import NArith.
From Verif Require Import IdModel VMapModel ConnModel.

Section unet.
Context {I : Type} `{EqDecision I}.

Record unet := UNet {
  un_conns : I -> conns;
  un_link : I -> I -> list direct_map;    (* [un_link i j]: sent by [i], not yet handled by [j] *)
}.

(** Update of a function at a point. *)
Definition upd {A} (f : I -> A) (i : I) (a : A) : I -> A := fun j => if decide (j = i) then a else f j.
Definition upd2 {A} (f : I -> I -> A) (i j : I) (a : A) : I -> I -> A := upd f i (upd (f i) j a).

Inductive un_op :=
  | ULocal (i : I) (o : conn_op)          (* anything else that broker [i] does *)
  | UPartial (i : I)                      (* sync.rs 69-83: delta to all other brokers *)
  | UFull (i j : I)                       (* sync.rs 49-63: full copy to broker [j] *)
  | UDeliver (i j : I) (k : nat)          (* handler.rs 159-168: [j] handles a message of [i] *)
  | UDup (i j : I) (k : nat).             (* a message is duplicated *)

(** One event. *)
Definition un_step (s : unet) (o : un_op) : unet :=
  match o with
  | ULocal i o => UNet (upd (un_conns s) i (c_step (un_conns s i) o)) (un_link s)
  | UPartial i =>
      let out := (c_get_partial_user_sync (un_conns s i)).2 in
      UNet (upd (un_conns s) i (c_step (un_conns s i) CPartialUserSync))
        (upd (un_link s) i (fun j => if decide (j = i) then un_link s i j
                                     else un_link s i j ++ option_list out))
  | UFull i j =>
      UNet (un_conns s)
        (upd2 (un_link s) i j (un_link s i j ++ option_list (c_get_full_user_sync (un_conns s i))))
  | UDeliver i j k =>
      match un_link s i j !! k with
      | Some m => UNet (upd (un_conns s) j (c_step (un_conns s j) (CApplyUserSync m)))
                    (upd2 (un_link s) i j (delete k (un_link s i j)))
      | None => s
      end
  | UDup i j k =>
      match un_link s i j !! k with
      | Some m => UNet (un_conns s) (upd2 (un_link s) i j (un_link s i j ++ [m]))
      | None => s
      end
  end.

(** When the brokers link up (handler.rs 84-117) each sends the others a full copy. *)
Definition un_start (f : I -> conns) : unet :=
  UNet f (fun i j => if decide (i = j) then [] else option_list (c_get_full_user_sync (f i))).

Definition un_run (f : I -> conns) (os : list un_op) : unet := fold_left un_step os (un_start f).

(** Everything exchanged: no broker has a change to send, and no message is on the way. *)
Definition exchanged (s : unet) : Prop :=
  (forall i, (c_get_partial_user_sync (un_conns s i)).2 = None) /\ (forall i j, un_link s i j = []).

(** The same for one user: no unsent change of [u] and no message about [u] on the way. *)
Definition settled (s : unet) (u : ukey) : Prop :=
  (forall i d, (c_get_partial_user_sync (un_conns s i)).2 = Some d -> entries d !! u = None)
  /\ (forall i j m, In m (un_link s i j) -> entries m !! u = None).

End unet.
Arguments unet I : clear implicits.
Arguments un_op I : clear implicits.
