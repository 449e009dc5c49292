(** * Where Logix puts the members of a structure *)
From Verif Require Import GoBase PackTypes PackSpec.

(** A structure starts at a multiple of four bytes, of eight if it has 64-bit
    members; numbers at a multiple of their size. *)
Fixpoint udt_align (t : gty) : Z :=
  match t with
  | TBool => 1
  | TInt _ w | TFloat w => Z.of_nat w
  | TArr _ t => udt_align t
  | TStruct _ fs => Z.max 4 (udt_fields_align fs)
  end
with udt_fields_align (fs : gfields) : Z :=
  match fs with FNil => 1 | FCons _ t r => Z.max (udt_align t) (udt_fields_align r) end.
(** It fills a multiple of that. *)
Fixpoint udt_size (t : gty) : Z :=
  match t with
  | TBool => 1
  | TInt _ w | TFloat w => Z.of_nat w
  | TArr n t => Z.of_nat n * udt_size t
  | TStruct _ fs => align_up (bytes_for (udt_cursor fs 0)) (Z.max 4 (udt_fields_align fs))
  end
with udt_cursor (fs : gfields) (c : Z) : Z :=
  match fs with
  | FNil => c
  | FCons np t r =>
      udt_cursor r (if as_bits np t then c + nbits t else 8 * (align_up (bytes_for c) (udt_align t) + udt_size t))
  end.
(** [udt_shows t v b]: [b] is [v] as the controller holds it. *)
Fixpoint udt_shows (t : gty) (v : gv) (b : bytes) : Prop :=
  match t, v with
  | TStruct _ fs, VStruct vs => len b = udt_size t /\ udt_holds fs vs 0 b
  | _, _ => b = plain_bytes t v
  end
with udt_holds (fs : gfields) (vs : list gv) (c : Z) (b : bytes) : Prop :=
  match fs, vs with
  | FCons np t r, v :: vr =>
      if as_bits np t then
        (forall j, (j < length (bools_of v))%nat -> bit_at b (c + Z.of_nat j) = nth j (bools_of v) false) /\
        udt_holds r vr (c + nbits t) b
      else
        let o := align_up (bytes_for c) (udt_align t) in
        udt_shows t v (firstn (Z.to_nat (udt_size t)) (skipn (Z.to_nat o) b)) /\ udt_holds r vr (8 * (o + udt_size t)) b
  | _, _ => True
  end.

(** Structs with a member of four or eight bytes whose members end at a multiple
    of the largest: they need no filling at their end. *)
Fixpoint whole (t : gty) : Prop :=
  match t with
  | TStruct _ fs => 4 <= fields_alignment fs /\ size t mod fields_alignment fs = 0 /\ members_whole fs
  | TArr _ t => whole t
  | _ => True
  end
with members_whole (fs : gfields) : Prop :=
  match fs with FNil => True | FCons _ t r => whole t /\ members_whole r end.
