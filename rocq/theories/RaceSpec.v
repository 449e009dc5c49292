(** * What goroutines sharing a client with AutoConnect may expect *)
From Verif Require Import GoBase RaceModel.
(** (The model for the type of the goroutines.) *)

(** Network and controller do their part. *)
Definition all_well (ms : list (nat * bool)) : Prop := Forall (fun m => snd m = true) ms.
(** Goroutine [t] has no call under way. *)
Definition resting (g : gang) (t : nat) : Prop := nth_error (g_stages g) t = Some Rests.
(** What calls of [t] returned since. *)
Definition returned_since (g g' : gang) (t : nat) (b : bool) : Prop := exists l, g_results g' = l ++ g_results g /\ In (t, b) l.
