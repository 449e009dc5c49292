(** * The struct types that pack.go serializes, and their values *)
From Verif Require Import GoBase.

(** ** The Go types that Pack handles by itself

    bool, integers and floats of fixed size (TInt signed width, TFloat width),
    arrays and structs.  A field carries whether it is tagged pack:"nopack".
    Types with their own Pack/Unpack/Bytes methods, and types binary.Write
    refuses (int, string, slices, maps), are not in the universe. *)
Inductive gty :=
| TBool
| TInt (signed : bool) (w : nat)
| TFloat (w : nat)
| TArr (n : nat) (t : gty)
| TStruct (name : bytes) (fs : gfields)
with gfields :=
| FNil
| FCons (nopack : bool) (t : gty) (rest : gfields).

(** Their values; a float is its bit pattern. *)
Inductive gv := VBool (b : bool) | VInt (z : Z) | VFloat (bits : Z) | VArr (vs : list gv) | VStruct (vs : list gv).


(** Which values a type has. *)
Fixpoint has_type (t : gty) (v : gv) : Prop :=
  match t, v with
  | TBool, VBool _ => True
  | TInt true w, VInt z => In w [1; 2; 4; 8]%nat /\ - 2 ^ (8 * Z.of_nat w - 1) <= z < 2 ^ (8 * Z.of_nat w - 1)
  | TInt false w, VInt z => In w [1; 2; 4; 8]%nat /\ 0 <= z < 2 ^ (8 * Z.of_nat w)
  | TFloat w, VFloat z => In w [4; 8]%nat /\ 0 <= z < 2 ^ (8 * Z.of_nat w)
  | TArr n t, VArr vs => length vs = n /\ Forall (has_type t) vs
  | TStruct _ fs, VStruct vs => fields_have fs vs
  | _, _ => False
  end
with fields_have (fs : gfields) (vs : list gv) : Prop :=
  match fs, vs with
  | FNil, [] => True
  | FCons _ t r, v :: vr => has_type t v /\ fields_have r vr
  | _, _ => False
  end.

Scheme gty_ind2 := Induction for gty Sort Prop with gfields_ind2 := Induction for gfields Sort Prop.
Combined Scheme gty_mut from gty_ind2, gfields_ind2.

(** Numbers come in 1, 2, 4 and 8 bytes. *)
Fixpoint go_type (t : gty) : Prop :=
  match t with
  | TBool => True
  | TInt _ w => In w [1; 2; 4; 8]%nat
  | TFloat w => In w [4; 8]%nat
  | TArr _ t => go_type t
  | TStruct _ fs => go_fields fs
  end
with go_fields (fs : gfields) : Prop :=
  match fs with FNil => True | FCons _ t r => go_type t /\ go_fields r end.
