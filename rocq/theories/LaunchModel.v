(** Model of starting and stopping brokers and marshals —
    /repo/cdn-broker/src/lib.rs 133-319 ([Broker::new], [Broker::start]),
    /repo/cdn-marshal/src/lib.rs 86-179 ([Marshal::new], [Marshal::start]), the [bind] of
    /repo/cdn-proto/src/connection/protocols/{tcp,tcp_tls,quic}.rs. Definitions only.

    A world is a number of processes on a number of hosts and the history of the discovery
    service. A socket that a process may bind is a number; which one an endpoint means on which
    host is an argument ([place]). Simplified: what happens when the process that holds a socket
    is gone happens at once (the sockets are free again, its tasks no longer run); whether
    discovery, certificate authority and so on can be had is the environment's choice; heartbeats
    read the clock and are written at one moment; a broker is [start]ed at most once. *)
From stdpp Require Import gmap list.
From Coq Require Import NArith.
From Verif Require Import DecModel IdModel DiscModel StartModel.

(** The fallible steps of [new], in order: broker lib.rs 157-162, 177-181, 184, 187, 190-202,
    205-212, 226-238; marshal lib.rs 98, 101, 104-108, 113-117, 120-132. *)
Inductive lstep := LIp | LDiscovery | LCa | LCert | LBind (users : bool) | LMetrics.
Definition broker_new : list lstep := [LIp; LDiscovery; LCa; LCert; LBind true; LBind false; LMetrics].
Definition marshal_new : list lstep := [LCa; LCert; LBind true; LDiscovery; LMetrics].

(** broker lib.rs 43-87, marshal lib.rs 39-60: of the metrics endpoint, what it resolves to
    ([None]: it does not). *)
Record lconfig := LConfig {
  c_broker : bool; c_host : N;
  c_bind_users : bytes; c_bind_brokers : bytes; c_public : bytes; c_private : bytes;
  c_metrics : option (option (list address)) }.

Record proc := Proc {
  p_cfg : lconfig; p_todo : list lstep;
  p_ip : bytes;                 (* the local address, once known *)
  p_held : list N;              (* the sockets it listens on *)
  p_metrics : option address;
  p_running : bool }.           (* [start] has been called and has not returned *)
Record world := World { w_procs : gmap N proc; w_log : list dop }.

Inductive lev :=
  | LNew (i : N) (c : lconfig)                   (* process [i] calls [new] *)
  | LStep (i : N) (ip : option bytes) (ok : bool) (* its next step; what the environment says *)
  | LStart (i : N)                               (* it calls [start] *)
  | LBeat (i : N) (now n : N)                    (* heartbeat.rs 37-50: one heartbeat is written *)
  | LEnd (i : N)                                 (* [start] returns, or the process is killed *)
  | LOther (o : dop).                            (* what else is done with the discovery service *)

Section launch.
Variable place : N -> bool -> bytes -> option N.

(** broker lib.rs 165-168; a marshal takes its endpoint as it is. *)
Definition p_endpoint (p : proc) (e : bytes) : bytes := if c_broker (p_cfg p) then replace local_ip (p_ip p) e else e.
(** broker lib.rs 171-174. *)
Definition p_identity (p : proc) : bid := Bid (p_endpoint p (c_public (p_cfg p))) (p_endpoint p (c_private (p_cfg p))).
Definition p_place (p : proc) (users : bool) : option N :=
  place (c_host (p_cfg p)) users (p_endpoint p (if users then c_bind_users (p_cfg p) else c_bind_brokers (p_cfg p))).
Definition taken (w : world) (r : N) : bool := existsb (fun ip => bool_decide (r ∈ p_held ip.2)) (map_to_list (w_procs w)).

(** broker lib.rs 233, marshal lib.rs 127: [find(SocketAddr::is_ipv4)]. *)
Fixpoint first_v4 (l : list address) : option address :=
  match l with [] => None | a :: l' => match fst a with V4 => Some a | V6 => first_v4 l' end end.

Definition p_done (p : proc) (s : list lstep) : proc := Proc (p_cfg p) s (p_ip p) (p_held p) (p_metrics p) (p_running p).
(** One step of [new]; [None]: it fails, [new] returns the error and everything is dropped. *)
Definition l_next (w : world) (p : proc) (ip : option bytes) (ok : bool) : option proc :=
  match p_todo p with
  | [] => Some p
  | LIp :: s => match ip with Some a => Some (Proc (p_cfg p) s a (p_held p) (p_metrics p) (p_running p)) | None => None end
  | LBind users :: s =>
      match p_place p users with
      | Some r => if ok && negb (taken w r) then Some (Proc (p_cfg p) s (p_ip p) (p_held p ++ [r]) (p_metrics p) (p_running p)) else None
      | None => None
      end
  | LMetrics :: s =>
      match c_metrics (p_cfg p) with
      | None => Some (p_done p s)
      | Some None => None
      | Some (Some l) =>
          match first_v4 l with
          | Some a => Some (Proc (p_cfg p) s (p_ip p) (p_held p) (Some a) (p_running p))
          | None => None
          end
      end
  | _ :: s => if ok then Some (p_done p s) else None
  end.

Definition l_step (w : world) (e : lev) : world :=
  match e with
  | LNew i c =>
      match w_procs w !! i with
      | Some _ => w
      | None => World (<[i := Proc c (if c_broker c then broker_new else marshal_new) [] [] None false]> (w_procs w)) (w_log w)
      end
  | LStep i ip ok =>
      match w_procs w !! i with
      | Some p => match l_next w p ip ok with
                  | Some p' => World (<[i := p']> (w_procs w)) (w_log w)
                  | None => World (delete i (w_procs w)) (w_log w)
                  end
      | None => w
      end
  | LStart i =>
      match w_procs w !! i with
      | Some p => match p_todo p with
                  | [] => World (<[i := Proc (p_cfg p) [] (p_ip p) (p_held p) (p_metrics p) true]> (w_procs w)) (w_log w)
                  | _ => w
                  end
      | None => w
      end
  | LBeat i now n =>
      match w_procs w !! i with
      | Some p => if p_running p && c_broker (p_cfg p) then World (w_procs w) (w_log w ++ [DHeartbeat now now (p_identity p) n 60]) else w
      | None => w
      end
  | LEnd i => World (delete i (w_procs w)) (w_log w)
  | LOther o => match o with DHeartbeat _ _ _ _ _ => w | _ => World (w_procs w) (w_log w ++ [o]) end
  end.
Definition l_run (evs : list lev) : world := foldl l_step (World ∅ []) evs.
End launch.
