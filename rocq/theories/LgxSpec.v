(** * The Logix structures TIMER, COUNTER and CONTROL as the controllers lay them out *)
From Verif Require Import GoBase LgxModel.
(** (LgxModel for the records.) *)

Definition int32 (z : Z) : Prop := - 2 ^ 31 <= z < 2 ^ 31.

(** [laid_out flags a b d]: a control word with the numbered bits (and no
    others), then two 32-bit numbers, in 12 bytes, each least significant byte
    first. *)
Definition laid_out (flags : list (Z * bool)) (a b : Z) (d : bytes) : Prop :=
  exists w, d = le 4 w ++ le 4 a ++ le 4 b /\ 0 <= w < 2 ^ 32 /\
    forall n, 0 <= n -> Z.testbit w n = true <-> In (n, true) flags.
Definition timer_flags (t : timer) : list (Z * bool) := [(31, tm_en t); (30, tm_tt t); (29, tm_dn t)].
Definition counter_flags (t : counter) : list (Z * bool) :=
  [(31, ct_cu t); (30, ct_cd t); (29, ct_dn t); (28, ct_ov t); (27, ct_un t)].
Definition control_flags (t : control) : list (Z * bool) :=
  [(31, cl_en t); (30, cl_eu t); (29, cl_dn t); (28, cl_em t); (27, cl_er t); (26, cl_ul t); (25, cl_in t); (24, cl_fd t)].
Definition timer_ok (t : timer) : Prop := int32 (tm_pre t) /\ int32 (tm_acc t).
Definition counter_ok (t : counter) : Prop := int32 (ct_pre t) /\ int32 (ct_acc t).
Definition control_ok (t : control) : Prop := int32 (cl_len t) /\ int32 (cl_pos t).
(** The timer bits the comment in timer.go calls unused. *)
Definition unused_bits (t : timer) : bool * bool * bool * bool := (tm_fs t, tm_ls t, tm_ov t, tm_er t).
