(** * What goroutines sharing a client may expect of its sessions *)
From Verif Require Import GoBase CrewModel.
(** (The model for the type of what happens.) *)

(** Requests name the session of the connection they are sent on. *)
Definition own_session (l : list happening) : Prop := forall c s, In (Sent c s) l -> c = s.
(** A connection is ended for its own errors only, or on request. *)
Definition own_errors (l : list happening) : Prop := forall c e, In (Ended c e) l -> c = e.
Definition no_crash (l : list happening) : Prop := ~ In Crashed l.
(** How many requests name a foreign session. *)
Fixpoint foreign (l : list happening) : nat :=
  match l with
  | [] => 0
  | Sent c s :: r => if Nat.eqb c s then foreign r else S (foreign r)
  | _ :: r => foreign r
  end.
Definition dials_work (ms : list move) : Prop := Forall (fun m => m_dial m = true) ms.
Definition works (ms : list move) : Prop := Forall (fun m => m_dial m = true /\ m_answer m = true /\ m_quit m = false) ms.
(** Nothing is sent on a connection that was ended, and it is not ended again.  (The
    last happening comes first.) *)
Fixpoint ended_for_good (l : list happening) : Prop :=
  match l with
  | [] => True
  | h :: r => match h with Sent c _ | Ended c _ => forall e, ~ In (Ended c e) r | Crashed => True end /\ ended_for_good r
  end.
