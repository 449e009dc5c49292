(** * Packing structs (pack.go) *)
From Verif Require Import GoBase PackTypes.

(** reflect's Align and Size on a 64-bit machine (Go specification, and cmd/compile's
    extra byte after a trailing field of size zero). *)
Definition round_up (x a : Z) : Z := (x + a - 1) / a * a.
Fixpoint go_align (t : gty) : Z :=
  match t with
  | TBool => 1
  | TInt _ w | TFloat w => Z.of_nat w
  | TArr _ t => go_align t
  | TStruct _ fs => fields_align fs
  end
with fields_align (fs : gfields) : Z :=
  match fs with
  | FNil => 1
  | FCons _ t r => Z.max (go_align t) (fields_align r)
  end.
Fixpoint go_size (t : gty) : Z :=
  match t with
  | TBool => 1
  | TInt _ w | TFloat w => Z.of_nat w
  | TArr n t => Z.of_nat n * go_size t
  | TStruct _ fs => round_up (fields_end fs 0 1) (fields_align fs)
  end
(* [fields_end fs off lastsz]: offset after the fields, the last one before them having size [lastsz] *)
with fields_end (fs : gfields) (off lastsz : Z) : Z :=
  match fs with
  | FNil => if (lastsz =? 0) && (0 <? off) then off + 1 else off
  | FCons _ t r => fields_end r (round_up off (go_align t) + go_size t) (go_size t)
  end.

(** cipPack.Align, L24-44.  The test for arrays (L31) comes after all non-structs
    have returned. *)
Fixpoint cip_align (t : gty) : Z :=
  match t with
  | TStruct _ fs => cip_fields_align fs
  | _ => go_align t
  end
with cip_fields_align (fs : gfields) : Z :=
  match fs with
  | FNil => 1
  | FCons _ t r => Z.max (cip_align t) (cip_fields_align r)
  end.

Definition bool_byte (b : bool) : Z := if b then 1 else 0.

(** binary.Write in little endian order: no padding, a byte per bool.  Values
    that do not have the type do not occur; they give []. *)
Fixpoint raw_write (t : gty) (v : gv) : bytes :=
  match t, v with
  | TBool, VBool b => [bool_byte b]
  | TInt _ w, VInt z => le w z
  | TFloat w, VFloat z => le w z
  | TArr _ t, VArr vs => concat (map (raw_write t) vs)
  | TStruct _ fs, VStruct vs => raw_write_fields fs vs
  | _, _ => []
  end
with raw_write_fields (fs : gfields) (vs : list gv) : bytes :=
  match fs, vs with
  | FCons _ t r, v :: vr => raw_write t v ++ raw_write_fields r vr
  | _, _ => []
  end.

(** One bool into the byte being collected (L163-180, L138-157): what is written
    and the new pos, bitpos, bitpack. *)
Definition pack_bit (b : bool) (pos : Z) (bp : nat) (acc : Z) : bytes * Z * nat * Z :=
  let acc' := Z.lor acc (Z.shiftl (bool_byte b) (Z.of_nat bp)) mod 256 in
  if (8 <=? S bp)%nat then ([acc'], pos + 1, 0%nat, 0) else ([], pos, S bp, acc').
Fixpoint pack_bits (vs : list gv) (pos : Z) (bp : nat) (acc : Z) : bytes * Z * nat * Z :=
  match vs with
  | [] => ([], pos, bp, acc)
  | v :: r =>
      let '(o1, pos1, bp1, acc1) := pack_bit (match v with VBool b => b | _ => false end) pos bp acc in
      let '(o2, pos2, bp2, acc2) := pack_bits r pos1 bp1 acc1 in
      (o1 ++ o2, pos2, bp2, acc2)
  end.
(** L199-208: padding before a field of alignment [a]. *)
Definition pad_len (pos a : Z) : nat :=
  let rem := a - pos mod a in if (rem <? a) && (0 <? rem) then Z.to_nat rem else 0%nat.

(** Is the field packed as bits (L129-184)? *)
Definition bit_field (nopack : bool) (t : gty) : bool :=
  negb nopack && match t with TBool => true | TArr _ TBool => true | _ => false end.

(** Pack, L96-237: the bytes written and the count returned.  Writing to a buffer
    does not fail.  [pack_fields] is the loop from a field on. *)
Fixpoint pack (t : gty) (v : gv) : bytes * Z :=
  match t, v with
  | TStruct _ fs, VStruct vs => pack_fields fs vs 0 0 0
  | _, _ => ([], 0)
  end
with pack_fields (fs : gfields) (vs : list gv) (pos : Z) (bp : nat) (acc : Z) : bytes * Z :=
  match fs, vs with
  | FCons np t r, v :: vr =>
      if bit_field np t then
        let '(o, pos1, bp1, acc1) :=
          match v with
          | VArr l => pack_bits l pos bp acc
          | _ => pack_bits [v] pos bp acc
          end in
        let '(o2, n) := pack_fields r vr pos1 bp1 acc1 in (o ++ o2, n)
      else
        let '(flush, pos1) := if (0 <? bp)%nat then ([acc], pos + 1) else ([], pos) in
        let k := pad_len pos1 (cip_align t) in
        let pos2 := pos1 + Z.of_nat k in
        let '(body, s) :=
          match t with
          | TStruct _ _ => pack t v
          | _ => (raw_write t v, go_size t)
          end in
        let '(o2, n) := pack_fields r vr (pos2 + s) 0 0 in
        (flush ++ zeros k ++ body ++ o2, n)
  | _, _ => if (0 <? bp)%nat then ([acc], pos + 1) else ([], pos)
  end.

(** bytes.Buffer.Read into [k] bytes, the error ignored unless nothing is there
    (encoding: L307, L329, L362): what is left. *)
Definition read_some (k : nat) (r : bytes) : res bytes :=
  match k, r with
  | O, _ => Ok r
  | _, [] => Err EEof
  | _, _ => Ok (skipn k r)
  end.

(** binary.Read of a value of type [t]: the whole size is read first
    (io.ReadFull of dataSize), then decoded. *)
Fixpoint raw_size (t : gty) : nat :=
  match t with
  | TBool => 1%nat
  | TInt _ w | TFloat w => w
  | TArr n t => (n * raw_size t)%nat
  | TStruct _ fs => raw_fields_size fs
  end
with raw_fields_size (fs : gfields) : nat :=
  match fs with FNil => 0%nat | FCons _ t r => (raw_size t + raw_fields_size r)%nat end.
Fixpoint decode_n (dec : bytes -> gv * bytes) (n : nat) (r : bytes) : list gv * bytes :=
  match n with
  | O => ([], r)
  | S k => let '(v, r1) := dec r in let '(vs, r2) := decode_n dec k r1 in (v :: vs, r2)
  end.
Fixpoint raw_decode (t : gty) (r : bytes) : gv * bytes :=
  match t with
  | TBool => (VBool (negb (nth 0 r 0 =? 0)), skipn 1 r)
  | TInt s w => (VInt (let u := unle (firstn w r) in if s then sgn (8 * Z.of_nat w) u else u), skipn w r)
  | TFloat w => (VFloat (unle (firstn w r)), skipn w r)
  | TArr n t => let '(vs, r1) := decode_n (raw_decode t) n r in (VArr vs, r1)
  | TStruct _ fs => let '(vs, r1) := raw_decode_fields fs r in (VStruct vs, r1)
  end
with raw_decode_fields (fs : gfields) (r : bytes) : list gv * bytes :=
  match fs with
  | FNil => ([], r)
  | FCons _ t rest => let '(v, r1) := raw_decode t r in
                      let '(vs, r2) := raw_decode_fields rest r1 in (v :: vs, r2)
  end.
Definition raw_read (t : gty) (r : bytes) : res (gv * bytes) :=
  let* (d, rest) := rd (raw_size t) r in Ok (fst (raw_decode t d), rest).

(** Bools from the byte being taken apart (L304-322, L328-345). *)
Fixpoint unpack_bits (n : nat) (r : bytes) (cnt : Z) (bp : nat) (acc : Z) : res (list gv * bytes * Z * nat * Z) :=
  match n with
  | O => Ok ([], r, cnt, bp, acc)
  | S k =>
      let* (p, r1) := (match bp with
                       | O => match r with [] => Err EEof | b :: r' => Ok ((b, cnt + 1), r') end
                       | _ => Ok ((acc, cnt), r) end) in
      let v := negb (Z.land (fst p) (Z.shiftl 1 (Z.of_nat bp) mod 256) =? 0) in
      let bp1 := if (8 <=? S bp)%nat then 0%nat else S bp in
      let* (x, acc2) := unpack_bits k r1 (snd p) bp1 (fst p) in
      let '(vs, r2, cnt2, bp2) := x in
      Ok (VBool v :: vs, r2, cnt2, bp2, acc2)
  end.

(** Unpack into a struct, L241-387: value, returned count, what is left. *)
Fixpoint unpack (t : gty) (r : bytes) : res (gv * Z * bytes) :=
  match t with
  | TStruct _ fs => let* (x, rest) := unpack_fields fs r 0 0 0 in Ok (VStruct (fst x), snd x, rest)
  | _ => Panic                                   (* NumField of a non-struct *)
  end
with unpack_fields (fs : gfields) (r : bytes) (cnt : Z) (bp : nat) (acc : Z) : res ((list gv * Z) * bytes) :=
  match fs with
  | FNil => Ok (([], cnt), r)
  | FCons np t rest =>
      if bit_field np t then
        let* (x, acc1) := unpack_bits (match t with TArr n _ => n | _ => 1%nat end) r cnt bp acc in
        let '(l, r1, cnt1, bp1) := x in
        let v := match t with TArr _ _ => VArr l | _ => hd (VBool false) l end in
        let* (y, r2) := unpack_fields rest r1 cnt1 bp1 acc1 in
        Ok ((v :: fst y, snd y), r2)
      else
        let k := pad_len cnt (cip_align t) in
        let* r1 := read_some k r in
        let cnt1 := cnt + Z.of_nat k in
        let* (x, r2) :=
          match t with
          | TStruct _ _ => let* (y, r2) := unpack t r1 in Ok (y, r2)
          | _ => let* (v, r2) := raw_read t r1 in Ok ((v, go_size t), r2)
          end in
        let* (y, r3) := unpack_fields rest r2 (cnt1 + snd x) 0 acc in
        Ok ((fst x :: fst y, snd y), r3)
  end.

(** Unpack into a slice of [n] structs, L263-281. *)
Fixpoint unpack_slice (n : nat) (t : gty) (r : bytes) (cnt : Z) : res ((list gv * Z) * bytes) :=
  match n with
  | O => Ok (([], cnt), r)
  | S k =>
      let* (x, r1) := unpack t r in
      let s := snd x in
      let a := cip_align t in
      let* (p, r2) :=
        (if s mod a =? 0 then Ok (0, r1)
         else let want := Z.to_nat (a - s mod a) in
              let* r2 := read_some want r1 in Ok (Z.min (Z.of_nat want) (len r1), r2)) in
      let* (y, r3) := unpack_slice k t r2 (cnt + s + p) in
      Ok ((fst x :: fst y, snd y), r3)
  end.

(** goTypeToLogixTypeName, L490-514: types without one of these names give "". *)
Definition type_name (t : gty) : bytes :=
  match t with
  | TInt true 1 => str "SINT" | TInt true 2 => str "INT" | TInt true 4 => str "DINT" | TInt true 8 => str "LINT"
  | TInt false 1 => str "SINT" | TInt false 2 => str "UINT" | TInt false 4 => str "UDINT" | TInt false 8 => str "ULINT"
  | TFloat 4 => str "REAL" | TFloat 8 => str "LREAL"
  | _ => []
  end.
(** TypeEncode, L416-488: the string (the checksum of it is not modelled).  Only
    the type matters, except that arr.Index(0) of an empty array of structs
    panics. *)
Fixpoint type_encode (t : gty) : res bytes :=
  match t with
  | TStruct name fs => let* s := type_encode_fields fs 0 in Ok (name ++ s)
  | _ => Panic
  end
with type_encode_fields (fs : gfields) (bp : nat) : res bytes :=
  match fs with
  | FNil => Ok []
  | FCons _ t r =>
      match t with
      | TArr n e =>
          let* at_ := (match e with
                       | TStruct _ _ => if (n =? 0)%nat then Panic else type_encode e
                       | _ => Ok (type_name e) end) in
          let* s := type_encode_fields r bp in
          Ok (str "," ++ at_ ++ str "[" ++ dec (Z.of_nat n) ++ str "]" ++ s)
      | TBool =>
          let* s := type_encode_fields r (if (8 <=? S bp)%nat then 0%nat else S bp) in
          Ok ((if (bp =? 0)%nat then str ",SINT" else []) ++ s)
      | TStruct _ _ =>
          let* x := type_encode t in
          let* s := type_encode_fields r 0 in Ok (str "," ++ x ++ s)
      | _ => let* s := type_encode_fields r 0 in Ok (str "," ++ type_name t ++ s)
      end
  end.
