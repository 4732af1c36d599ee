(** Specification vocabulary for an application that receives in a loop (ClientModel.v). *)
From stdpp Require Import gmap list.
From Coq Require Import NArith ZArith.
From Verif Require Import ClientModel.

(** Calls that returned an error; connections established. *)
Definition errors (l : list cout) : nat := length (List.filter (fun o => match o with ORet _ _ false => true | _ => false end) l).
Definition connections (l : list cout) : nat := length (List.filter (fun o => match o with OConn _ _ => true | _ => false end) l).

(** The client is used by one task [t], which only receives, and receives again only when the
    reconnection that its last call may have started has begun to run. A test of the semaphore that
    nobody else uses tells the truth, and a call is dropped only where it has to wait. *)
Definition orderly (t : N) (k : client) (e : cev) : Prop :=
  match e with
  | EStart t' o => t' = t /\ o = KRecv /\ forall r, k_tasks k !! r <> Some QLock
  | EStep t' b => b = true \/ forall c, k_thr k !! t' <> Some (PFail KRecv c)
  | EDrop t' => forall c, k_thr k !! t' <> Some (PTake KRecv c)
  | _ => True
  end.
Fixpoint orderly_run (t : N) (k : client) (es : list cev) : Prop :=
  match es with [] => True | e :: es' => orderly t k e /\ orderly_run t (kstep k e).1 es' end.
