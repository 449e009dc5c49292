(** * What is expected of a client's connection *)
From Verif Require Import GoBase LifeModel.
(** (LifeModel for the events, the client and its calls.) *)

(** A socket opened and not closed. *)
Definition left_open (w : life) (k : nat) : Prop := In (Dialled k) (l_log w) /\ ~ In (Closed k) (l_log w).
Definition never_granted (w : life) (k : nat) : Prop := In (Dialled k) (l_log w) /\ ~ In (Granted k) (l_log w).
(** The last attempt to dial, and the socket it gave. *)
Fixpoint last_dial (l : list event) : option (option nat) :=
  match l with
  | [] => None
  | Dialled k :: _ => Some (Some k)
  | InVain :: _ => Some None
  | _ :: r => last_dial r
  end.
Definition newest (w : life) (k : nat) : Prop := last_dial (l_log w) = Some (Some k).
(** Connected(): the status is 2, connectionStatusConnected. *)
Definition is_connected (w : life) : Prop := l_status w = 2.

Definition returns {A} (x : ends A) : Prop := exists a, x = Returns a.
(** None of the calls made so far panicked or got stuck. *)
Fixpoint all_returned (fs : nat -> fate) (os : list op) (w : life) : Prop :=
  match os with
  | [] => True
  | o :: r => returns (fst (do_op fs o w)) /\ all_returned fs r (snd (do_op fs o w))
  end.
(** From a moment on the controller can be reached and answers everything. *)
Definition answers_from (fs : nat -> fate) (t : nat) : Prop := forall u, (t <= u)%nat -> f_dial (fs u) = true /\ f_reply (fs u) = Fine.
