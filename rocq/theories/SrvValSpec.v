(** * What a write hands over *)
From Verif Require Import GoBase TypesModel ReadSpec WriteModel.
(** (TypesModel and WriteModel for the types of Go values.) *)

(** The values a caller of Write gave. *)
Definition given_values (v : wvalue) : list gval :=
  match v with WOne x => [x] | WMany _ l => l | WBad => [] end.

(** They are values of their Go types. *)
Definition representable (v : gval) : Prop :=
  match v with
  | GInt s w z => in_range s w z
  | GFloat w bits => 0 <= bits < 2 ^ (8 * Z.of_nat w)
  | _ => True
  end.
