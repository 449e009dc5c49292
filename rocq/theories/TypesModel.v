(** * CIP types and values (types.go) *)
From Verif Require Import GoBase.

(** CIP type codes, types.go L76-114. *)
Definition T_unknown := 0x00.   Definition T_struct := 0xA0.
Definition T_utime := 0xC0.     Definition T_bool := 0xC1.
Definition T_sint := 0xC2.      Definition T_int := 0xC3.
Definition T_dint := 0xC4.      Definition T_lint := 0xC5.
Definition T_usint := 0xC6.     Definition T_uint := 0xC7.
Definition T_udint := 0xC8.     Definition T_ulint := 0xC9.
Definition T_real := 0xCA.      Definition T_lreal := 0xCB.
Definition T_date := 0xCD.      Definition T_timeofday := 0xCE.
Definition T_byte := 0xD1.      Definition T_word := 0xD2.
Definition T_dword := 0xD3.     Definition T_lword := 0xD4.
Definition T_string := 0xFF.

(** Dynamic Go values the library passes around as [any].  Floats are their
    IEEE bit patterns: the code only moves them. *)
Inductive gval : Type :=
| GBool (b : bool)
| GInt (signed : bool) (w : nat) (z : Z)     (* int8..int64, uint8..uint64: [w] bytes *)
| GFloat (w : nat) (bits : Z)                (* float32, float64 *)
| GBytes (l : bytes)                         (* []byte *)
| GArr86 (l : bytes)                         (* [86]byte *)
| GStr (s : bytes)                           (* string *)
| GList (l : list gval)                      (* []any *)
| GStructV (l : bytes)                       (* a Go struct, as its binary.Write image *)
| GNil.

(** CIPType.Size, types.go L117-166. *)
Definition type_size (t : Z) : Z :=
  if t =? T_struct then 88 else
  if t =? T_utime then 8 else
  if (t =? T_bool) || (t =? T_byte) || (t =? T_sint) || (t =? T_usint) || (t =? T_string) then 1 else
  if (t =? T_int) || (t =? T_uint) || (t =? T_word) || (t =? T_date) then 2 else
  if (t =? T_dint) || (t =? T_udint) || (t =? T_real) || (t =? T_dword) then 4 else
  if (t =? T_lint) || (t =? T_ulint) || (t =? T_lword) || (t =? T_lreal) then 8 else
  if t =? T_timeofday then 6 else 0.

(** CIPType.IsAtomic, types.go L216-219. *)
Definition is_atomic (t : Z) : bool := t <=? 254.

(** readValue, types.go L227-305, on the reader's unread bytes. *)
Definition read_int (signed : bool) (w : nat) (r : bytes) : res (gval * bytes) :=
  let* (d, r') := rd w r in
  Ok (GInt signed w (if signed then sgn (8 * Z.of_nat w) (unle d) else unle d), r').
Definition read_value (t : Z) (r : bytes) : res (gval * bytes) :=
  if t =? T_unknown then Err EMsg else
  if t =? T_struct then Err EMsg else
  if t =? T_bool then let* (d, r') := rd 1 r in Ok (GBool (negb (unle d =? 0)), r') else
  if t =? T_byte then read_int false 1 r else
  if t =? T_sint then read_int true 1 r else
  if t =? T_int then read_int true 2 r else
  if t =? T_dint then read_int true 4 r else
  if t =? T_lint then read_int true 8 r else
  if t =? T_usint then read_int false 1 r else
  if t =? T_uint then read_int false 2 r else
  if t =? T_udint then read_int false 4 r else
  if t =? T_lword then read_int false 8 r else
  if t =? T_real then let* (d, r') := rd 4 r in Ok (GFloat 4 (unle d), r') else
  if t =? T_lreal then let* (d, r') := rd 8 r in Ok (GFloat 8 (unle d), r') else
  if t =? T_word then read_int false 2 r else
  if t =? T_dword then read_int false 4 r else
  if t =? T_string then let* (d, r') := rd 86 r in Ok (GArr86 d, r') else
  Err EMsg.

(** One integer case of getBit, e.g. types.go L352-361: range check on the bit
    number, type assertion, mask. *)
Definition bit_of (signed : bool) (w : nat) (v : gval) (pos : Z) : res bool :=
  if (0 <=? pos) && (pos <? 8 * Z.of_nat w) then
    match v with
    | GInt s w' z =>
        if Bool.eqb s signed && (w =? w')%nat then
          let mask := if signed then sgn (8 * Z.of_nat w) (2 ^ pos) else 2 ^ pos mod 2 ^ (8 * Z.of_nat w) in
          Ok (negb (Z.land z mask =? 0))
        else Err EMsg
    | _ => Err EMsg
    end
  else Ok false.

(** getBit, types.go L309-452.  An out of range bit number falls through to
    [return false, err] with err nil. *)
Definition get_bit (t : Z) (v : gval) (pos : Z) : res bool :=
  if t =? T_unknown then Err EMsg else
  if t =? T_struct then Err EMsg else
  if t =? T_bool then
    (if pos =? 0 then match v with GBool b => Ok b | _ => Err EMsg end else Ok false) else
  if t =? T_byte then bit_of false 1 v pos else
  if t =? T_sint then bit_of false 1 v pos else     (* L343 asserts byte *)
  if t =? T_int then bit_of true 2 v pos else
  if t =? T_dint then bit_of true 4 v pos else
  if t =? T_lint then bit_of true 8 v pos else
  if t =? T_usint then bit_of false 1 v pos else
  if t =? T_uint then bit_of false 2 v pos else
  if t =? T_udint then bit_of false 4 v pos else
  if t =? T_lword then bit_of false 8 v pos else
  if t =? T_real then Err EMsg else
  if t =? T_lreal then Err EMsg else
  if t =? T_word then bit_of false 2 v pos else
  if t =? T_dword then bit_of false 4 v pos else
  Err EMsg.

(** GoVarToCIPType, types.go L22-74, for the Go types of values: the CIP type and
    the element count.  [GoSlice k n]: a slice of [n] elements of kind [k]. *)
Inductive gokind := KBool | KInt (signed : bool) (w : nat) | KFloat (w : nat) | KString.
Inductive gotype := GoScalar (k : gokind) | GoSlice (k : gokind) (n : Z) | GoOther | GoNilIface.
Definition kind_cip (k : gokind) : Z :=
  match k with
  | KBool => T_bool
  | KInt false 1 => T_byte  | KInt true 1 => T_sint
  | KInt false 2 => T_uint  | KInt true 2 => T_int
  | KInt false 4 => T_udint | KInt true 4 => T_dint
  | KInt false _ => T_lword | KInt true _ => T_lint
  | KFloat 4 => T_real | KFloat _ => T_lreal
  | KString => T_string
  end.
Definition go_to_cip (g : gotype) : Z * Z :=
  match g with
  | GoScalar k => (kind_cip k, 1)
  | GoSlice KBool _ => (T_struct, 1)        (* []bool is not listed: default case L69 *)
  | GoSlice k n => (kind_cip k, n)
  | GoOther => (T_struct, 1)
  | GoNilIface => (T_unknown, 1)
  end.
