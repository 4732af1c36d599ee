(** Model of the choice of a broker for a user, query by query —
    [get_with_least_connections] of /repo/cdn-proto/src/discovery/embedded.rs 134-190 and redis.rs
    122-172 — while others use the data base. Definitions only.

    DiscModel.v runs the same function at one moment. Here the queries are numbered from 0; the
    query numbered [k] is answered from the history of the data base at that moment and the time
    ([vs k]), or fails ([None]). The order in which a hash set is traversed ([ord]) is any. *)
From stdpp Require Import gmap list.
From Coq Require Import NArith.
From Verif Require Import IdModel DecModel DiscModel.

(** What the data base has been told, and the time. *)
Notation view := (list dop * N)%type.

Section choice.
Variable global : bool.
Variable vs : nat -> option view.
Variable ord : forall A : Type, list A -> list A.

(** redis.rs 141-162: GET and SCARD for each broker. (SCARD counts the members of a set that
    nothing creates, see DiscModel.v.) *)
Fixpoint r_counts (k : nat) (l : list bytes) : option (list (bytes * N)) :=
  match l with
  | [] => Some []
  | x :: l' =>
      match vs k, vs (S k) with
      | Some (os, now), Some _ =>
          match r_get (r_run global os) now (conns_key x) with
          | Some v =>
              match undec v, r_counts (S (S k)) l' with
              | Some n, Some r => Some ((x, n + 0)%N :: r)
              | _, _ => None
              end
          | None => None
          end
      | _, _ => None
      end
  end.
(** redis.rs 122-172. *)
Definition r_choose : option bid :=
  match vs 0 with
  | None => None
  | Some (os, now) =>
      match r_members (r_run global os) now with
      | [] => None
      | l => match r_counts 1 (ord _ l) with Some t => least t | None => None end
      end
  end.

(** embedded.rs 155-186: for each row, clean-up of the permits and COUNT. *)
Fixpoint e_counts (k : nat) (l : list (bytes * broker_row)) : option (list (bytes * N)) :=
  match l with
  | [] => Some []
  | (x, r) :: l' =>
      match vs k, vs (S k) with
      | Some _, Some (os, _) =>
          match e_counts (S (S k)) l' with
          | Some t => Some ((x, br_conns r + e_count_permits (e_run global os) x)%N :: t)
          | None => None
          end
      | _, _ => None
      end
  end.
(** embedded.rs 134-190: clean-up of the brokers, SELECT, and the counts. *)
Definition e_choose : option bid :=
  match vs 0, vs 1 with
  | Some _, Some (os, _) =>
      match e_counts 2 (ord _ (map_to_list (e_brokers (e_run global os)))) with Some t => least t | None => None end
  | _, _ => None
  end.
End choice.
