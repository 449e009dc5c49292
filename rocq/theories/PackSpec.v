(** * The packed layout of a struct, and its abbreviated description *)
From Verif Require Import GoBase PackTypes.

(** Natural alignment in bytes. *)
Fixpoint alignment (t : gty) : Z :=
  match t with
  | TBool => 1
  | TInt _ w | TFloat w => Z.of_nat w
  | TArr _ t => alignment t
  | TStruct _ fs => fields_alignment fs
  end
with fields_alignment (fs : gfields) : Z :=
  match fs with FNil => 1 | FCons _ t r => Z.max (alignment t) (fields_alignment r) end.
(** The least multiple of [a] not below [x]. *)
Definition align_up (x a : Z) : Z := x + (- x) mod a.
Definition bytes_for (bits : Z) : Z := align_up bits 8 / 8.

(** Bools, and arrays of them, are bits unless told otherwise. *)
Definition as_bits (nopack : bool) (t : gty) : bool :=
  if nopack then false else match t with TBool | TArr _ TBool => true | _ => false end.
Definition nbits (t : gty) : Z := match t with TArr n _ => Z.of_nat n | _ => 1 end.

(** The layout is found by moving a cursor that counts bits. *)
Fixpoint size (t : gty) : Z :=
  match t with
  | TBool => 1
  | TInt _ w | TFloat w => Z.of_nat w
  | TArr n t => Z.of_nat n * size t
  | TStruct _ fs => bytes_for (cursor_after fs 0)
  end
with cursor_after (fs : gfields) (c : Z) : Z :=
  match fs with
  | FNil => c
  | FCons np t r =>
      cursor_after r (if as_bits np t then c + nbits t
                      else 8 * (align_up (bytes_for c) (alignment t) + size t))
  end.
(** Where each field lies, in bits: first and one past the last. *)
Fixpoint extents (fs : gfields) (c : Z) : list (Z * Z) :=
  match fs with
  | FNil => []
  | FCons np t r =>
      let s := if as_bits np t then c else 8 * align_up (bytes_for c) (alignment t) in
      let e := if as_bits np t then c + nbits t else s + 8 * size t in
      (s, e) :: extents r e
  end.

(** Scalars and arrays of scalars: one after the other. *)
Fixpoint plain_bytes (t : gty) (v : gv) : bytes :=
  match t, v with
  | TBool, VBool b => [if b then 1 else 0]
  | TInt _ w, VInt z => le w z
  | TFloat w, VFloat z => le w z
  | TArr _ t, VArr vs => concat (map (plain_bytes t) vs)
  | _, _ => []
  end.
Definition bools_of (v : gv) : list bool :=
  match v with
  | VBool b => [b]
  | VArr vs => map (fun v => match v with VBool b => b | _ => false end) vs
  | _ => []
  end.
(** Bit [c] of a byte string, least significant bit of each byte first. *)
Definition bit_at (b : bytes) (c : Z) : bool := Z.testbit (nth (Z.to_nat (c / 8)) b 0) (c mod 8).

(** [shows t v b]: [b] is the packed form of [v]. *)
Fixpoint shows (t : gty) (v : gv) (b : bytes) : Prop :=
  match t, v with
  | TStruct _ fs, VStruct vs => len b = size t /\ holds fs vs 0 b
  | _, _ => b = plain_bytes t v
  end
with holds (fs : gfields) (vs : list gv) (c : Z) (b : bytes) : Prop :=
  match fs, vs with
  | FCons np t r, v :: vr =>
      if as_bits np t then
        (forall j, (j < length (bools_of v))%nat -> bit_at b (c + Z.of_nat j) = nth j (bools_of v) false) /\
        holds r vr (c + nbits t) b
      else
        let o := align_up (bytes_for c) (alignment t) in
        shows t v (firstn (Z.to_nat (size t)) (skipn (Z.to_nat o) b)) /\ holds r vr (8 * (o + size t)) b
  | _, _ => True
  end.

(** Arrays hold numbers, or bools when packed. *)
Fixpoint numeric (t : gty) : Prop :=
  match t with TInt _ _ | TFloat _ => True | TArr _ t => numeric t | _ => False end.
Fixpoint simple_arrays (t : gty) : Prop :=
  match t with
  | TArr _ TBool => True
  | TArr _ t => numeric t
  | TStruct _ fs => fields_simple fs
  | _ => True
  end
with fields_simple (fs : gfields) : Prop :=
  match fs with FNil => True | FCons _ t r => simple_arrays t /\ fields_simple r end.

(** ** Abbreviated type description: the struct's name and its members *)
Definition number_name (t : gty) : bytes :=
  match t with
  | TInt true 1 => str "SINT" | TInt true 2 => str "INT" | TInt true 4 => str "DINT" | TInt true 8 => str "LINT"
  | TInt false 1 => str "SINT" | TInt false 2 => str "UINT" | TInt false 4 => str "UDINT" | TInt false 8 => str "ULINT"
  | TFloat 4 => str "REAL" | TFloat 8 => str "LREAL"
  | _ => []
  end.
(** A run of [bits] consecutive packed bools is listed as that many bytes. *)
Definition sints (bits : Z) : list bytes := repeat (str "SINT") (Z.to_nat (bytes_for bits)).
Fixpoint described (t : gty) : bytes :=
  match t with
  | TStruct name fs => join 44 (name :: members fs 0)
  | TArr n t => described t ++ str "[" ++ dec (Z.of_nat n) ++ str "]"
  | _ => number_name t
  end
(* [run]: bits of packed bools standing before these members *)
with members (fs : gfields) (run : Z) : list bytes :=
  match fs with
  | FNil => sints run
  | FCons np t r =>
      if as_bits np t then members r (run + nbits t)
      else sints run ++ (match t with TBool => str "BOOL" | _ => described t end) :: members r 0
  end.
(** No bool arrays and no bools kept out of the packing; array elements are
    numbers, or structs with at least one element; no array stands right after a
    number of bools that is not a multiple of 8. *)
Fixpoint regular (t : gty) : Prop :=
  match t with
  | TStruct _ fs => regular_fields fs 0
  | _ => True
  end
with regular_fields (fs : gfields) (run : Z) : Prop :=
  match fs with
  | FNil => True
  | FCons np t r =>
      match t with
      | TBool => np = false /\ regular_fields r (run + 1)
      | TArr n e => run mod 8 = 0 /\
                    match e with
                    | TInt _ _ | TFloat _ => True
                    | TStruct _ _ => n <> 0%nat /\ regular e
                    | _ => False
                    end /\ regular_fields r 0
      | _ => regular t /\ regular_fields r 0
      end
  end.

(** Every field takes up room. *)
Fixpoint solid (t : gty) : Prop :=
  match t with
  | TStruct _ fs => solid_fields fs
  | _ => True
  end
with solid_fields (fs : gfields) : Prop :=
  match fs with
  | FNil => True
  | FCons np t r => (as_bits np t = true \/ 0 < size t) /\ solid t /\ solid_fields r
  end.

(** Bools outside the shared bytes (tagged nopack) are read from any byte, but
    shown by 0 and 1 only; types without them. *)
Fixpoint bits_only (t : gty) : Prop :=
  match t with
  | TStruct _ fs => fields_bits_only fs
  | _ => True
  end
with fields_bits_only (fs : gfields) : Prop :=
  match fs with
  | FNil => True
  | FCons np t r => (as_bits np t = true \/ match t with TBool | TArr _ TBool => False | _ => True end) /\
                    bits_only t /\ fields_bits_only r
  end.
