(** Model of opening the SQLite discovery data base — /repo/cdn-proto/src/discovery/embedded.rs 45-78
    ([Embedded::new]), /repo/cdn-proto/local_db/migrations.sql 2-12. Definitions only, over DiscModel.v.

    Data bases are files; a path is a number. Any number of processes open files and use them, each
    statement at one moment; a process may die between any two. Simplified: the file system and
    SQLite themselves do not fail; nobody deletes or replaces a file. *)
From stdpp Require Import gmap list.
From Coq Require Import NArith.
From Verif Require Import IdModel DecModel DiscModel.

(** A table: as migrations.sql creates it, or one of that name with other columns. *)
Inductive table (A : Type) := Tab (m : A) | Foreign.
Arguments Tab {A}. Arguments Foreign {A}.
Record file := File {
  t_brokers : option (table (gmap bytes broker_row));
  t_permits : option (table (gmap N permit_row));
  t_whitelist : option (gset bytes) }.
Notation disk := (gmap N file).

Inductive fop :=
  | FTouch (p : N)              (* embedded.rs 57-66: [create_if_missing] *)
  | FBrokers (p : N)            (* migrations.sql 2-6 *)
  | FPermits (p : N)            (* migrations.sql 7-12 *)
  | FDo (p : N) (o : dop).      (* any other statement, DiscModel.v *)

(** embedded.rs 57-74. *)
Definition f_open (p : N) : list fop := [FTouch p; FBrokers p; FPermits p].

(** [CREATE TABLE IF NOT EXISTS]. *)
Definition create {A} `{Empty A} (t : option (table A)) : option (table A) :=
  match t with None => Some (Tab ∅) | Some _ => t end.
Definition usable {A} (t : option (table A)) : bool := match t with Some (Tab _) => true | _ => false end.
Definition content {A} `{Empty A} (t : option (table A)) : A := match t with Some (Tab m) => m | _ => ∅ end.
Definition store {A} (t : option (table A)) (m : A) : option (table A) := match t with Some (Tab _) => Some (Tab m) | _ => t end.

(** Which table a statement needs; [set_whitelist] drops and creates its own (embedded.rs 325-334). *)
Definition t_needed (f : file) (o : dop) : bool :=
  match o with
  | DIssue _ _ _ _ _ | DPrune _ | DTake _ _ _ => usable (t_permits f)
  | DHeartbeat _ _ _ _ _ | DPruneBrokers _ => usable (t_brokers f)
  | DSetWhitelist _ => true
  end.

Section open.
Variable global : bool.

(** Whether the statement could be executed, and its answer. *)
Definition f_step (d : disk) (o : fop) : disk * (bool * option bytes) :=
  match o with
  | FTouch p => (match d !! p with Some _ => d | None => <[p := File None None None]> d end, (true, None))
  | FBrokers p =>
      match d !! p with
      | Some f => (<[p := File (create (t_brokers f)) (t_permits f) (t_whitelist f)]> d, (true, None))
      | None => (d, (false, None))
      end
  | FPermits p =>
      match d !! p with
      | Some f => (<[p := File (t_brokers f) (create (t_permits f)) (t_whitelist f)]> d, (true, None))
      | None => (d, (false, None))
      end
  | FDo p q =>
      match d !! p with
      | Some f =>
          if t_needed f q then
            let '(s, a) := e_step global (Edb (content (t_brokers f)) (content (t_permits f)) (t_whitelist f)) q in
            (<[p := File (store (t_brokers f) (e_brokers s)) (store (t_permits f) (e_permits s)) (e_whitelist s)]> d, (true, a))
          else (d, (false, None))
      | None => (d, (false, None))
      end
  end.
Fixpoint f_go (d : disk) (os : list fop) : disk * list (fop * (bool * option bytes)) :=
  match os with
  | [] => (d, [])
  | o :: os' => let '(d', a) := f_step d o in let '(d'', l) := f_go d' os' in (d'', (o, a) :: l)
  end.
End open.

(** What queries at path [p] see, if they can be executed. *)
Definition f_db (d : disk) (p : N) : option edb :=
  match d !! p with
  | Some (File (Some (Tab b)) (Some (Tab q)) w) => Some (Edb b q w)
  | _ => None
  end.
