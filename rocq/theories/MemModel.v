(** Model of the in-memory transport — /repo/cdn-proto/src/connection/protocols/memory.rs.
    Definitions only.

    A connection is made of two pipes ([duplex], 63 and 157): the connector makes one and sends
    its far end to the listener, the acceptor makes another and sends its far end back. Pipes are
    named after the call that made them: [i] for a call of [connect], [j] for a call of [accept].
    What a call of [connect] writes goes into the pipe it received (79); what it reads comes from
    its own. What is written into a pipe is not modelled. *)
From stdpp Require Import list gmap.
From Coq Require Import NArith.

(** 95-96, 103-107: the two channels of a listener; [ml_open]: the listener has not been dropped. *)
Record mlistener := MListener { ml_in : list N; ml_out : list N; ml_open : bool }.
Inductive mconn :=
  | MPending (l : N)     (* 66-76: sent its pipe to listener [l], waits for one *)
  | MConnected (j : N)   (* 79: writes into the pipe of [j] *)
  | MFailed.             (* an error, or the caller gave up *)
Inductive macc :=
  | MTaken (l i : N)     (* 150-154: has the pipe of [i] *)
  | MAccepted (i : N).   (* 160-170: writes into the pipe of [i] *)

(** [m_ends]: LISTENERS (32). *)
Record mem := Mem { m_ends : gmap N N; m_lis : gmap N mlistener; m_conns : gmap N mconn; m_accs : gmap N macc }.
Definition mem_new : mem := Mem ∅ ∅ ∅ ∅.

(** [connect] keeps the read lock on LISTENERS until it returns (53, 73-76); [bind] takes the
    write lock (99). *)
Definition m_waiting (s : mem) : bool :=
  existsb (fun ix => match ix.2 with MPending _ => true | _ => false end) (map_to_list (m_conns s)).

Inductive mevent :=
  | MBind (e l : N)
  | MDial (i e : N)
  | MTake (l j : N)
  | MGive (j : N)
  | MReceive (i : N)
  | MGiveUp (i : N)
  | MClose (l : N).

Definition set_lis (s : mem) (l : N) (x : mlistener) : mem := Mem (m_ends s) (<[l := x]> (m_lis s)) (m_conns s) (m_accs s).
Definition set_mconn (s : mem) (i : N) (x : mconn) : mem := Mem (m_ends s) (m_lis s) (<[i := x]> (m_conns s)) (m_accs s).
Definition set_macc (s : mem) (j : N) (x : macc) : mem := Mem (m_ends s) (m_lis s) (m_conns s) (<[j := x]> (m_accs s)).

Definition mstep (s : mem) (e : mevent) : mem :=
  match e with
  | MBind ep l => (* 89-108 *)
      if m_waiting s then s
      else match m_lis s !! l with
           | None => Mem (<[ep := l]> (m_ends s)) (<[l := MListener [] [] true]> (m_lis s)) (m_conns s) (m_accs s)
           | Some _ => s
           end
  | MDial i ep => (* 46-70 *)
      match m_conns s !! i, m_ends s !! ep with
      | None, Some l =>
          match m_lis s !! l with
          | Some (MListener q o true) => set_mconn (set_lis s l (MListener (q ++ [i]) o true)) i (MPending l)
          | _ => set_mconn s i MFailed
          end
      | None, None => set_mconn s i MFailed
      | Some _, _ => s
      end
  | MTake l j => (* 148-154 *)
      match m_accs s !! j, m_lis s !! l with
      | None, Some (MListener (i :: q) o true) => set_macc (set_lis s l (MListener q o true)) j (MTaken l i)
      | _, _ => s
      end
  | MGive j => (* 156-170 *)
      match m_accs s !! j with
      | Some (MTaken l i) =>
          match m_lis s !! l with
          | Some (MListener q o true) => set_macc (set_lis s l (MListener q (o ++ [j]) true)) j (MAccepted i)
          | _ => s
          end
      | _ => s
      end
  | MReceive i => (* 73-83; a closed channel is drained first *)
      match m_conns s !! i with
      | Some (MPending l) =>
          match m_lis s !! l with
          | Some (MListener q (j :: o) op) => set_mconn (set_lis s l (MListener q o op)) i (MConnected j)
          | Some (MListener q [] false) => set_mconn s i MFailed
          | _ => s
          end
      | _ => s
      end
  | MGiveUp i => (* the caller drops the future *)
      match m_conns s !! i with Some (MPending _) => set_mconn s i MFailed | _ => s end
  | MClose l => (* 175-187: the entry in LISTENERS stays, see DESIGN.md *)
      match m_lis s !! l with Some (MListener q o _) => set_lis s l (MListener q o false) | None => s end
  end.
Definition mrun (s : mem) (es : list mevent) : mem := fold_left mstep es s.
