(** Model of the memory pool — /repo/cdn-proto/src/connection/limiter/pool.rs and mod.rs,
    with tokio's semaphore (FIFO; a release is handed to the waiters in order, a waiter
    collects permits until it has all of them). Definitions only. *)
From stdpp Require Import list gmap.
From Coq Require Import NArith.

(** A call of [alloc] that waits: whom it is for, what it asks for, what it has collected. *)
Record waiter := Waiter { w_id : nat; w_need : N; w_got : N }.

(** [p_live]: the permits in existence, by message: size and number of copies of the message
    (pool.rs 86-94: [Arc<AllocationPermit>], released with the last copy). *)
Record pool := Pool { p_avail : N; p_wait : list waiter; p_live : gmap nat (N * nat) }.

(** pool.rs 29-33. *)
Definition pool_new (n : N) : pool := Pool n [] ∅.

(** Handing [k] permits to the waiters in order: what is left, who got everything, who still
    waits. *)
Fixpoint hand_out (k : N) (ws : list waiter) : N * list waiter * list waiter :=
  match ws with
  | [] => (k, [], [])
  | w :: ws' =>
      if (w_need w - w_got w <=? k)%N then
        let '(r, done, rest) := hand_out (k - (w_need w - w_got w)) ws' in
        (r, w :: done, rest)
      else (0%N, [], Waiter (w_id w) (w_need w) (w_got w + k) :: ws')
  end.

Definition add_live (live : gmap nat (N * nat)) (ws : list waiter) : gmap nat (N * nat) :=
  fold_left (fun l w => <[w_id w := (w_need w, 1)]> l) ws live.

(** Returning [k] permits. Surplus goes back to the counter. *)
Definition release (p : pool) (k : N) : pool :=
  let '(r, done, rest) := hand_out k (p_wait p) in
  Pool (p_avail p + r) rest (add_live (p_live p) done).

Inductive pop :=
  | PAlloc (id : nat) (n : N)   (* pool.rs 61-69: a new call; [id] names the message to be *)
  | PCancel (id : nat)          (* the waiting call is dropped (its task is aborted) *)
  | PClone (id : nat)           (* pool.rs 81: the message is cloned *)
  | PDrop (id : nat).           (* one copy of the message is dropped *)

(** An identity is used for one call only. *)
Definition p_known (p : pool) (id : nat) : bool :=
  bool_decide (is_Some (p_live p !! id)) || existsb (fun w => w_id w =? id) (p_wait p).

Definition pstep (p : pool) (o : pop) : pool :=
  match o with
  | PAlloc id n =>
      if p_known p id then p
      else if (n <=? p_avail p)%N then
        Pool (p_avail p - n) (p_wait p) (<[id := (n, 1)]> (p_live p))
      else
        (* take what there is and queue for the rest *)
        Pool 0 (p_wait p ++ [Waiter id n (p_avail p)]) (p_live p)
  | PCancel id =>
      match List.find (fun w => w_id w =? id) (p_wait p) with
      | Some w =>
          release (Pool (p_avail p) (List.filter (fun w => negb (w_id w =? id)) (p_wait p))
                        (p_live p)) (w_got w)
      | None => p
      end
  | PClone id =>
      match p_live p !! id with
      | Some (n, c) => Pool (p_avail p) (p_wait p) (<[id := (n, S c)]> (p_live p))
      | None => p
      end
  | PDrop id =>
      match p_live p !! id with
      | Some (n, S (S c)) => Pool (p_avail p) (p_wait p) (<[id := (n, S c)]> (p_live p))
      | Some (n, _) =>
          release (Pool (p_avail p) (p_wait p) (delete id (p_live p))) n
      | None => p
      end
  end.

Definition prun (p : pool) (os : list pop) : pool := fold_left pstep os p.
