(** What a user of the client can say about a client it has dropped. *)
From stdpp Require Import gmap list.
From Coq Require Import NArith.
From Verif Require Import ClientModel ClientSpec HandleModel.

(** The application has no handle any more. *)
Definition dropped (s : held) : Prop := a_handles s = 0%N.
(** A reconnection was started and has not ended. *)
Definition reconnecting (s : held) : Prop := exists r q, k_tasks (a_client s) !! r = Some q.
(** Nothing is heard of the client from here on: it makes no attempt, opens no connection, and has none. *)
Definition silent (s : held) : Prop :=
  forall es, (a_go s es).2 = [] /\ forall c, ~ has_conn (a_client (a_go s es).1) c.
(** How many connections were opened; how many attempts were made. *)
Definition conn_of (x : cout) : bool := match x with OConn _ _ => true | _ => false end.
Definition conns (l : list cout) : nat := length (List.filter conn_of l).
Definition attempt_of (x : cout) : bool := match x with OAttempt _ => true | _ => false end.
Definition attempts (l : list cout) : nat := length (List.filter attempt_of l).
