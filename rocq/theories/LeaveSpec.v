(** * How long leaving the built-in server takes *)
From Verif Require Import GoBase EipModel TableModel TableSpec SrvModel.
(** (The models for the types of servers and frames.) *)

(** One request at the server: the outcome of handling it, the server afterwards
    and the bytes sent back. *)
Definition handled (s : server) (h : handler) (frame : bytes) : res unit * world := serve_one (World s h frame []).

(** When the client's wait for the header of a reply ends, counted from when the
    request was written and with a deadline [t]: after [b], the time the network
    takes, if the server answered or ended the TCP connection; at the deadline if
    it keeps the TCP connection and sent nothing. *)
Definition waited (t b : Z) (x : res unit * world) : Z :=
  match x with
  | (Ok _, w) => match w_sent w with [] => t | _ => Z.min b t end
  | _ => Z.min b t
  end.

(** The server has an open connection of that serial number. *)
Definition holds (s : server) (serial : Z) : Prop := exists a, live (cm_heap (sv_cm s)) (KeyID serial) a.
