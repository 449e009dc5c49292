(** * What registering routes means *)
From Verif Require Import GoBase RouterModel.
(** (The model for the types of moves and states.) *)

Section spec.
Context {A : Type}.

(** Among calls of Handle in this order, [p] is what was last given for a route. *)
Definition last_given (calls : list (bytes * A)) (path : bytes) (p : A) : Prop :=
  exists before after, calls = before ++ (path, p) :: after /\ forall q, ~ In (path, q) after.
Definition never_given (calls : list (bytes * A)) (path : bytes) : Prop := forall q, ~ In (path, q) calls.

(** Two goroutines are in the map and one of them writes. *)
Definition meet (d : desk A) : Prop := exists t u path p use,
  t <> u /\ In (t, UHandle path p) (d_in d) /\ In (u, use) (d_in d).

(** Moves of one goroutine that registers routes, one after the other. *)
Fixpoint setting_up (t : nat) (calls : list (bytes * A)) : list (move A) :=
  match calls with
  | [] => []
  | (path, p) :: r => Enter t (UHandle path p) :: Leave t :: setting_up t r
  end.
(** Moves that register nothing. *)
Definition serving (ms : list (move A)) : Prop := forall t path p, ~ In (Enter t (UHandle path p)) ms.
End spec.
