(** The network of NetModel.v with the real encoding of messages — /repo/cdn-proto/src/message.rs
    109-316 as modelled in CodecModel.v — and what a client reads from its connection. Definitions
    only.

    rkyv (/repo/cdn-broker/src/tasks/broker/sync.rs 23-42, handler.rs 165-180) is a
    pair of functions [pack_users]/[pack_topics] from maps to byte strings and back.

    Simplified: a sync message whose contents are 2^29 bytes or more cannot be encoded (the code
    panics, C45_encodes_iff). Here it travels as a list that is no byte string, so that the
    network's functions stay total. *)
From stdpp Require Import list.
From Coq Require Import NArith.
From Verif Require Import IdModel ConnModel MsgModel RouteModel TaskModel NetModel WireModel WireSpec CodecModel.

Section end_to_end.
Variable pack_users : direct_map -> bytes.
Variable pack_topics : topic_map -> bytes.

(** sync.rs 28-38: [Message::UserSync(bytes).serialize()], [Message::TopicSync(bytes).serialize()]. *)
Definition net_enc_users (d : direct_map) : bytes :=
  default (256 :: 0 :: pack_users d)%N (encode (MUserSync (pack_users d))).
Definition net_enc_topics (d : topic_map) : bytes :=
  default (256 :: 1 :: pack_topics d)%N (encode (MTopicSync (pack_topics d))).
(** message.rs 212-316: [Message::deserialize]. *)
Definition net_decode (l : bytes) : option message :=
  match l with
  | x :: t :: p => if (x =? 256)%N then Some (if (t =? 0)%N then MUserSync p else MTopicSync p) else decode l
  | _ => decode l
  end.

(** What the receiving client makes of the frames a broker sent on its connection: they are
    written to the stream one after the other
    (cdn-proto/src/connection/protocols/mod.rs 354-394), read back (311-349) and decoded
    (message.rs 212-316, called from mod.rs 258-268). *)
Definition client_reads (l : list sent) : option (list message) :=
  mapM decode (read_stream (stream_of (map (fun x => wire net_enc_users net_enc_topics (e_frame (s_what x))) l))).2.
End end_to_end.
