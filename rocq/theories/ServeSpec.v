(** * What a program expects of Serve *)
From Verif Require Import GoBase SrvModel ServeModel.
(** (The model for the type of states and events.) *)

(** All that may happen to a program that has made a server. *)
Inductive reached (s : server) : list deed -> hosted -> Prop :=
| re_start tcp udp : reached s [] (unserved s tcp udp)
| re_step ds h d : reached s ds h -> reached s (ds ++ [d]) (host_step h d).

Definition up (h : hosted) : Prop := ho_down h = false /\ si_down (ho_site h) = false.
Definition free (o : owner) : Prop := o = Nobody.
Definition ours (o : owner) : Prop := exists k, o = Ours k.
(** Call [c] is serving; it has returned, which it does with an error only. *)
Definition serving (h : hosted) (c : nat) : Prop := nth_error (ho_calls h) c = Some Waiting.
Definition returned (h : hosted) (c : nat) : Prop := exists a b d, nth_error (ho_calls h) c = Some (Returned a b d).
(** The next call's number. *)
Definition next_call (h : hosted) : nat := length (ho_calls h).
(** How often Serve was called; whether the program closed the TCP listener. *)
Definition calls_in (ds : list deed) : nat := length (filter (fun d => match d with Calls => true | _ => false end) ds).
Definition closes_tcp (ds : list deed) : Prop := In (Closes true) ds.
(** A client of whom nothing has been read, and to whom nothing has been sent. *)
Definition fresh_peer (stream : bytes) : peer := Peer handler_new stream [] true.
