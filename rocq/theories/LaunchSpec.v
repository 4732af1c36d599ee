(** Specification vocabulary for starting and stopping. *)
From stdpp Require Import gmap list.
From Coq Require Import NArith.
From Verif Require Import DecModel IdModel DiscModel StartModel LaunchModel.

(** At time [t], in the course of [evs], a broker known as [b] wrote a heartbeat. It had been
    started, and it held the two sockets that its bind endpoints mean on its host. *)
Definition was_listening (place : N -> bool -> bytes -> option N) (evs : list lev) (b : bid) (t : N) : Prop :=
  exists pre i n post p r1 r2,
    evs = pre ++ LBeat i t n :: post /\ In (LStart i) pre
    /\ w_procs (l_run place pre) !! i = Some p
    /\ b = Bid (replace local_ip (p_ip p) (c_public (p_cfg p))) (replace local_ip (p_ip p) (c_private (p_cfg p)))
    /\ place (c_host (p_cfg p)) true (replace local_ip (p_ip p) (c_bind_users (p_cfg p))) = Some r1
    /\ place (c_host (p_cfg p)) false (replace local_ip (p_ip p) (c_bind_brokers (p_cfg p))) = Some r2
    /\ p_held p = [r1; r2] /\ r1 <> r2.

(** The endpoints that the broker advertises lead users, and brokers, to what it binds. *)
Definition well_advertised (place : N -> bool -> bytes -> option N) (leads : bool -> bytes -> option N) (p : proc) : Prop :=
  leads true (replace local_ip (p_ip p) (c_public (p_cfg p))) = place (c_host (p_cfg p)) true (replace local_ip (p_ip p) (c_bind_users (p_cfg p)))
  /\ leads false (replace local_ip (p_ip p) (c_private (p_cfg p))) = place (c_host (p_cfg p)) false (replace local_ip (p_ip p) (c_bind_brokers (p_cfg p))).
