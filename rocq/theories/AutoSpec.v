(** * A client with AutoConnect *)
From Verif Require Import GoBase TypesModel EipModel OpenModel TableModel ProvModel ProvSpec SrvModel ReqSpec MeetSpec AgainSpec AutoModel.
(** (The models for the types of clients and servers.) *)

Definition failed {A} (r : res A) : Prop := exists e, r = Err e.

(** The server was put in use and visited by clients of one route in any way; the
    client is one of that route and was connected some time, or never. *)
Definition among (hop : bytes) (s0 : server) (a : auto) : Prop :=
  visits hop s0 (fst (wr_sh (a_wire a))) /\ visitor hop (a_session a) /\ 0 <= s_otid (a_session a) < 2 ^ 32 /\ handler_ok (snd (wr_sh (a_wire a))).

(** Others come, leave and use tags; nothing the client can see. *)
Definition meanwhile (hop : bytes) (a b : auto) : Prop :=
  a_session b = a_session a /\ wr_tcp (a_wire b) = wr_tcp (a_wire a) /\ wr_up (a_wire b) = wr_up (a_wire a) /\
  snd (wr_sh (a_wire b)) = snd (wr_sh (a_wire a)) /\ visits hop (fst (wr_sh (a_wire a))) (fst (wr_sh (a_wire b))).

(** A tag of the server the client is connected to. *)
Definition shown (i : nat) (a : auto) (tag : bytes) (v : gval) : Prop :=
  ProvSpec.reads (shows (prov_at (fst (wr_sh (a_wire a))) i)) tag 1 (VOne v).
(** All tags of the server the client uses, by endpoint. *)
Definition tags (i : nat) (a : auto) : store := shows (prov_at (fst (wr_sh (a_wire a))) i).
(** A write was done, of one tag of one endpoint. *)
Definition done (i : nat) (a : auto) (tag : bytes) (v : given) (b : auto) : Prop :=
  ProvSpec.writes (tags i a) tag v (tags i b) /\ forall j k, j <> i -> tags j b k = tags j a k.
(** Nothing was done. *)
Definition undone (a b : auto) : Prop := forall j k, tags j b k = tags j a k.
