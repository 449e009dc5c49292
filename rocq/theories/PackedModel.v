(** * ReadPacked (pack.go) and Read through other pointers (read.go) *)
From Verif Require Import GoBase TypesModel IoiModel ItemsModel ReadModel PackTypes PackModel LgxModel StructModel.

(** What else a pointer given to Read may lead to, besides one structure
    (StructModel.DOne): a slice of structures; a slice of so many elements that
    are not structures (numbers, strings, pointers); or a single value of
    another kind (a number of a named type, an array, a map).  Slices of slices
    and elements with an Unpack method of their own other than lgxtypes' are
    left out. *)
Inductive pointee := PStructs (tgs : list target) | PItems (n : nat) | POther.

(** Client.Read with such a pointer, read.go L328-347: one element of type Struct
    is asked for, whatever the length of the slice, and given to Unpack.  There
    (pack.go L252-281) the elements of the slice are unpacked one by one; NumField
    of what is not a struct panics (L287). *)
Definition read_pointer {S} (fuel : nat) (ctl : controller S) (c : client) (s : S) (otid seq : Z)
    (tag : bytes) (p : pointee) : res (list sval) * S * Z :=
  let '(r, s1, q) := read_single fuel ctl c s otid seq tag T_struct 1 in
  ((let* b := as_bytes r in
    match p with
    | PStructs tgs => let* (vs, _) := unpack_each tgs b in Ok vs
    | PItems O => Ok []
    | PItems _ | POther => Panic
    end), s1, q).

(** The zero value of a type (Go specification). *)
Fixpoint zero_value (t : gty) : gv :=
  match t with
  | TBool => VBool false
  | TInt _ _ => VInt 0
  | TFloat _ => VFloat 0
  | TArr n t => VArr (repeat (zero_value t) n)
  | TStruct _ fs => VStruct (zero_fields fs)
  end
with zero_fields (fs : gfields) : list gv :=
  match fs with FNil => [] | FCons _ t r => zero_value t :: zero_fields r end.

(** The type parameter of ReadPacked, as a variable holding its zero value. *)
Inductive packed := PkStruct (name : bytes) (fs : gfields) | PkTimer | PkCounter | PkControl.
Definition blank (p : packed) : target :=
  match p with
  | PkStruct name fs => TgStruct name fs
  | PkTimer => TgTimer (Timer 0 0 false false false false false false false)
  | PkCounter => TgCounter (Counter 0 0 false false false false false)
  | PkControl => TgControl (Control 0 0 false false false false false false false false)
  end.
(** The count Pack returns for the zero value, pack.go L392. *)
Definition pack_count (p : packed) : Z :=
  match blank p with
  | TgStruct name fs => snd (pack (TStruct name fs) (zero_value (TStruct name fs)))
  | TgTimer t => snd (timer_pack t)
  | TgCounter t => snd (counter_pack t)
  | TgControl t => snd (control_pack t)
  end.
(** ReadPacked, pack.go L389-410.  The buffer [b] goes to Read as &b: a pointer to
    a slice of bytes. *)
Definition read_packed {S} (fuel : nat) (ctl : controller S) (c : client) (s : S) (otid seq : Z)
    (tag : bytes) (p : packed) : res sval * S * Z :=
  let n := Z.to_nat (pack_count p) in
  let '(r, s1, q) := read_pointer fuel ctl c s otid seq tag (PItems n) in
  ((let* _ := r in let* (x, _) := unpack_into (blank p) (zeros n) in Ok (fst x)), s1, q).
