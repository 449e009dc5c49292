(** * How long a call waits (sendreceive.go, connect.go) *)
From Verif Require Import GoBase LifeModel.

(** Every wait ends with what was waited for or at its deadline, SocketTimeout
    after it began ([t]; Connect replaces 0 by the default, connect.go L107-109). *)
Definition cut (t a : Z) : Z := Z.max 0 (Z.min a t).
(** A request takes three waits: writing it (sendreceive.go L57-71), reading the
    header of the reply (L113-126) and its data (L128-149), each with a deadline of
    its own; a wait that fails is the last.  [a], [b] and [c] are how long the
    network would take. *)
Definition request_time (t : Z) (d : Z * Z * Z) : Z :=
  let '(a, b, c) := d in
  cut t a + (if t <=? a then 0 else cut t b + (if t <=? b then 0 else cut t c)).
(** Dialling is one wait (DialTimeout, connect.go L130); closing the socket waits
    for nothing. *)
Definition event_time (t : Z) (d : Z * Z * Z) (e : event) : Z :=
  match e with
  | Dialled _ | InVain => cut t (fst (fst d))
  | Sent _ => request_time t d
  | Granted _ | Closed _ => 0
  end.
(** The time spent so far, with [net] giving the network's times for each event. *)
Fixpoint elapsed (t : Z) (net : nat -> Z * Z * Z) (log : list event) : Z :=
  match log with
  | [] => 0
  | e :: r => elapsed t net r + event_time t (net (length r)) e
  end.
