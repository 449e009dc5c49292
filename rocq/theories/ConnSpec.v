(** * What sharing a client should mean *)
From Verif Require Import GoBase EipSpec EipModel ConnModel.

(** ** Connecting and disconnecting *)

(** The calls past their entry check, over all goroutines. *)
Definition past_entry (c : call) : bool :=
  match c with CConnect Inside | CDisconnect Inside => true | _ => false end.
Definition in_progress (sh : shared) : list call := filter past_entry (concat (sh_threads sh)).

(** Reading the calls that returned as switching a link on and off: a successful
    Connect switches it on and must find it off, an accepted Disconnect switches it
    off and must find it on.  Refused and failed calls change nothing. *)
Fixpoint link (on : bool) (l : list (call * bool)) : option bool :=
  match l with
  | [] => Some on
  | (CConnect Inside, true) :: r => if on then None else link true r
  | (CConnect Inside, false) :: r => if on then None else link false r
  | (CDisconnect Inside, _) :: r => if on then link false r else None
  | _ :: r => link on r
  end.

(** ** Requests and replies *)

Definition is_frame (b : bytes) : Prop := exists f, frame_ok f /\ b = frame_bytes f.

(** The frames goroutine [t] was asked to send. *)
Definition asked_by (t : nat) (l : list act) : list bytes :=
  concat (map (fun a => match a with ACall u f => if (u =? t)%nat then [f] else [] | _ => [] end) l).
Definition returned_to (t : nat) (l : list (nat * bytes * bytes)) : list bytes :=
  concat (map (fun '(u, f, _) => if (u =? t)%nat then [f] else []) l).

Definition no_timeout (a : act) : Prop := match a with ATimeout _ => False | _ => True end.
Definition calls_frames (a : act) : Prop := match a with ACall _ f => is_frame f | _ => True end.
