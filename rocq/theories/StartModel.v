(** Model of endpoints: how a broker derives its addresses from its configuration, and which address is dialled. Definitions only.

    /repo/cdn-broker/src/lib.rs 153-175; the [connect] of /repo/cdn-proto/src/connection/protocols/{tcp,tcp_tls,quic}.rs.

    Simplified: text is a list of bytes (as numbers); an address is a family and a number; resolving a name gives a list of addresses, and dialling one
    succeeds or not as a given function says. *)
From stdpp Require Import list.
From Coq Require Import NArith.
Local Open Scope N_scope.

Fixpoint starts (p s : list N) : bool :=
  match p, s with
  | [], _ => true
  | a :: p, b :: s => (a =? b) && starts p s
  | _ :: _, [] => false
  end.
(** [str::replace]: from the left, what has been replaced is not looked at again. [skip]: how many of the next bytes belong to an occurrence. *)
Fixpoint replace_from (p new : list N) (skip : nat) (s : list N) : list N :=
  match s with
  | [] => []
  | c :: r =>
      match skip with
      | S k => replace_from p new k r
      | O => if starts p s then new ++ replace_from p new (length p - 1) r else c :: replace_from p new 0 r
      end
  end.
Definition replace (p new s : list N) : list N := replace_from p new 0 s.

(** "local_ip" *)
Definition local_ip : list N := [108; 111; 99; 97; 108; 95; 105; 112].
(** 153-175: the two bind and the two advertised endpoints; without a local address the broker does not start. *)
Definition endpoints (ip : option (list N)) (c : list (list N)) : option (list (list N)) :=
  match ip with Some ip => Some (map (replace local_ip ip) c) | None => None end.

Inductive family := V4 | V6.
Definition address : Type := family * N.
Section dial.
(** Would a connection to the address, from a socket of its family, succeed? *)
Variable reachable : address -> bool.
(** tcp.rs 55-80, tcp_tls.rs 62-108, quic.rs 48-90: the first address, from an IPv4 socket. *)
Definition dial (l : list address) : bool :=
  match l with
  | [] => false
  | a :: _ => match fst a with V4 => reachable a | V6 => false end
  end.
End dial.
