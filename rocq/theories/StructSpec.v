(** * Structures as the controllers send them *)
From Verif Require Import GoBase PackTypes PackSpec LgxModel LgxSpec StructModel.
(** (StructModel for the targets and values, LgxModel for the records.) *)

(** [three w a b d]: a control word and two numbers. *)
Definition three (w a b : Z) (d : bytes) : Prop :=
  d = le 4 w ++ le 4 a ++ le 4 b /\ 0 <= w < 2 ^ 32 /\ int32 a /\ int32 b.
Definition flagged (w : Z) (flags : list (Z * bool)) : Prop := forall n f, In (n, f) flags -> Z.testbit w n = f.

(** [sent tg d v]: the bytes [d] are a structure of the target's type, and [v] is
    what the target holds when it has been read.  The four timer bits without a
    meaning stay what they are. *)
Definition sent (tg : target) (d : bytes) (v : sval) : Prop :=
  match tg, v with
  | TgStruct name fs, SStruct x => has_type (TStruct name fs) x /\ shows (TStruct name fs) x d
  | TgTimer t0, STimer t => exists w, three w (tm_pre t) (tm_acc t) d /\ flagged w (timer_flags t) /\ unused_bits t = unused_bits t0
  | TgCounter _, SCounter t => exists w, three w (ct_pre t) (ct_acc t) d /\ flagged w (counter_flags t)
  | TgControl _, SControl t => exists w, three w (cl_len t) (cl_pos t) d /\ flagged w (control_flags t)
  | _, _ => False
  end.

(** The room a structure takes up and its alignment. *)
Definition room (tg : target) : Z := match tg with TgStruct name fs => size (TStruct name fs) | _ => 12 end.
Definition own_alignment (tg : target) : Z := match tg with TgStruct name fs => alignment (TStruct name fs) | _ => 4 end.
(** Logix pads structures to a multiple of 32 bits, of 64 when they hold a 64-bit
    number: the distance between two elements of an array. *)
Definition stride (tg : target) : Z := align_up (room tg) (Z.max 4 (own_alignment tg)).
(** An array of structures, one element after the other. *)
Inductive array_sent : list target -> bytes -> list sval -> Prop :=
| as_nil : array_sent [] [] []
| as_cons tg d pad v tgs ds vs : sent tg d v -> len (d ++ pad) = stride tg -> array_sent tgs ds vs ->
    array_sent (tg :: tgs) (d ++ pad ++ ds) (v :: vs).

(** The targets Unpack can be trusted with (C74). *)
Definition plain_target (tg : target) : Prop :=
  match tg with TgStruct name fs => go_type (TStruct name fs) /\ simple_arrays (TStruct name fs) | _ => True end.
(** Every field takes up room; no bools outside the shared bytes. *)
Definition solid_target (tg : target) : Prop := match tg with TgStruct name fs => solid (TStruct name fs) | _ => True end.
Definition exact_target (tg : target) : Prop := match tg with TgStruct name fs => bits_only (TStruct name fs) | _ => True end.
(** The distance between elements is what Unpack takes it for. *)
Definition natural (tg : target) : Prop := stride tg = align_up (room tg) (own_alignment tg).
(** What a slice read says about the reply: the padding behind the last element
    may be missing. *)
Inductive array_read : list target -> bytes -> list sval -> Prop :=
| ar_nil rest : array_read [] rest []
| ar_last tg d v rest : sent tg d v -> array_read [tg] (d ++ rest) [v]
| ar_cons tg d pad v tg2 tgs ds vs : sent tg d v -> len (d ++ pad) = stride tg -> array_read (tg2 :: tgs) ds vs ->
    array_read (tg :: tg2 :: tgs) (d ++ pad ++ ds) (v :: vs).
