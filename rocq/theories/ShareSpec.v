(** * What sharing a client's tables should mean *)
From Verif Require Import GoBase IoiModel ConnModel ShareModel.

(** The map a goroutine is using, and whether it writes. *)
Inductive table := TKnown | TCache.
Definition uses (j : job) : option (table * bool) :=
  match j with
  | Known _ _ | Sizing _ => Some (TKnown, false)
  | Storing _ _ _ => Some (TKnown, true)
  | Cached _ _ => Some (TCache, false)
  | Caching _ _ _ => Some (TCache, true)
  | _ => None
  end.
(** Two goroutines use one map and one of them writes: Go stops the program when it
    notices, and promises nothing when it does not. *)
Definition clash (s : tables) : Prop := exists t u j k m w w',
  t <> u /\ nth_error (tb_jobs s) t = Some j /\ nth_error (tb_jobs s) u = Some k /\
  uses j = Some (m, w) /\ uses k = Some (m, w') /\ w || w' = true.

(** What a client that has never looked up a tag, with the tag list and firmware of
    this moment, makes of a name. *)
Definition fresh (s : tables) (p : bytes) (d : Z) : res ioi :=
  fst (new_ioi {| cl_firmware := tb_firm s; cl_known := tb_known s; cl_cache := [] |} p d).

(** What newIOI has returned to goroutine [t]. *)
Definition back_to (t : nat) (s : tables) : list (bytes * Z * res ioi) :=
  concat (map (fun '(u, x) => if (u =? t)%nat then [x] else []) (tb_back s)).

(** Nobody lists tags. *)
Definition no_listing (ms : list (nat * smove)) : Prop :=
  forall t m, In (t, m) ms -> match m with SCall (Listing _) => False | _ => True end.
(** Only goroutine [l] lists tags, nobody sizes a buffer, and the controller is of
    the versions newIOI keeps from the tag list. *)
Definition one_listing (l : nat) (ms : list (nat * smove)) : Prop :=
  forall t m, In (t, m) ms ->
    match m with SCall (Listing _) => t = l | SCall (Size _) => False | SFirm z => z <= 20 | _ => True end.

(** Goroutine [t] has something to do. *)
Definition busy (s : tables) (t : nat) : Prop := exists j, nth_error (tb_jobs s) t = Some j /\ j <> Idle.
(** Some step, other than a new call, is possible. *)
Definition can_go (s : tables) : Prop := exists t m s1, share_move s t m = Some s1 /\ match m with SCall _ => False | _ => True end.
