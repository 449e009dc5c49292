(** * Clients of one route coming and going *)
From Verif Require Import GoBase EipModel OpenModel TableModel TableSpec ProvModel SrvModel ReqSpec MeetModel MeetSpec.
(** (The models for the types of clients and servers and for the calls made.) *)

(** Numbers in the range of their types and a route of at least one hop that fits
    the request. *)
Definition visitor (hop : bytes) (c : session) : Prop :=
  0 <= s_size c < 65536 /\ 0 <= s_handle c < 2 ^ 32 /\ 0 <= s_context c < 2 ^ 64 /\ 2 <= len (s_route c) <= 251 /\
  0 <= s_serial c < 2 ^ 16 /\ firstn 2 (s_route c) = hop.

(** Every connection of a server was made with that first hop, under a 32-bit
    number; any number of them may share a number and any of them may have lost
    its client. *)
Definition one_hop (hop : bytes) (s : server) : Prop :=
  Forall (fun c => sc_path c = hop /\ 0 <= sc_ot c < 2 ^ 32) (connections s).

(** Tags were read and written; connections and routes are as they were. *)
Definition tags_used (s s' : server) : Prop :=
  sv_cm s' = sv_cm s /\ sv_router s' = sv_router s /\ sv_rand s' = sv_rand s /\ length (sv_provs s') = length (sv_provs s) /\
  forall i, ProvSpec.separate (prov_at s i) -> ProvSpec.separate (prov_at s' i).

(** Clients connect over new TCP connections at any time, disconnect or are just
    gone (which the server does not notice), and use tags. *)
Inductive visits (hop : bytes) (s : server) : server -> Prop :=
| v_none : visits hop s s
| v_come s1 now c c' s2 h z : visits hop s s1 -> visitor hop c ->
    OpenModel.connect (served (s_context c)) (s1, handler_new, s_handle c) now c = (Ok tt, c', (s2, h, z)) -> visits hop s s2
| v_leave s1 h c s2 h2 z : visits hop s s1 -> visitor hop c -> handler_ok h ->
    disconnect (served (s_context c)) (s1, h, s_handle c) c = (Ok tt, (s2, h2, z)) -> visits hop s s2
| v_tags s1 s2 : visits hop s s1 -> tags_used s1 s2 -> visits hop s s2.
