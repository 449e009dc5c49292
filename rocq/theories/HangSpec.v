(** * Clients that come and go without saying so *)
From Verif Require Import GoBase OpenModel TableModel SrvModel MeetModel MeetSpec.
(** (The models for the client's Connect and the types of the server's state.) *)

(** Clients that each connect, over a TCP connection of their own and at a time of
    their own, and whose TCP connection then ends. *)
Inductive visits : list (Z * session) -> server -> server -> Prop :=
| vi_nobody s : visits [] s s
| vi_one now c rest s c' s1 h1 z s2 : OpenModel.connect (served (s_context c)) ((s, handler_new), s_handle c) now c = (Ok tt, c', ((s1, h1), z)) ->
    visits rest (si_srv (happens (Site s1 [Peer h1 [] [] true] false) [Turn 0])) s2 -> visits ((now, c) :: rest) s s2.
(** The connections the server keeps open. *)
Definition open_connections (s : server) : list sconn := filter sc_open (connections s).
