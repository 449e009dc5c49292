(** * What a reply says it answers *)
From Verif Require Import GoBase TableModel SrvModel.
(** (The models for the types of the server's state and its connection table.) *)

(** A reply over a connection: header, interface and timeout, the number of items,
    the address item with the connection's number, and the data item with sequence
    count and service. *)
Record over_connection (to seq svc : Z) (f : bytes) : Prop := OverConnection {
  oc_command : firstn 2 f = [0x70; 0];
  oc_address : firstn 8 (skipn 32 f) = [0xA1; 0; 4; 0] ++ le 4 to;
  oc_sequence : firstn 2 (skipn 44 f) = le 2 seq;
  oc_service : firstn 1 (skipn 46 f) = [Z.lor svc 0x80] }.
(** An unconnected reply: a null address item and the data item with the service. *)
Record unconnected_answer (svc : Z) (f : bytes) : Prop := UnconnectedAnswer {
  ua_command : firstn 2 f = [0x6F; 0];
  ua_address : firstn 4 (skipn 32 f) = [0; 0; 0; 0];
  ua_service : firstn 1 (skipn 40 f) = [Z.lor svc 0x80] }.

(** The open connection with number [ot]: [to] is the number its client listens
    to. *)
Definition listens (s : server) (ot to : Z) : Prop :=
  exists a, conn_get (sv_cm s) (KeyOT ot) = Some a /\ sc_to (conn_at (cm_heap (sv_cm s)) a) = to.

(** The service an unconnected message asks for: its own, or that of the message
    in an Unconnected Send. *)
Inductive asks_for : bytes -> Z -> Prop :=
| af_alone svc r : svc <> 0x52 -> asks_for (svc :: r) svc
| af_inside ps path tick svc r : len path = (2 * ps) mod 256 -> length tick = 4%nat -> asks_for (0x52 :: ps :: path ++ tick ++ svc :: r) svc.
