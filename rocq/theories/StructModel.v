(** * Client.Read into structs (read.go) *)
From Verif Require Import GoBase TypesModel IoiModel ItemsModel ReadModel PackTypes PackModel LgxModel.

(** What a pointer given to Read leads to, or an element of a slice: a struct
    that pack.go takes apart by itself, whose content is replaced as a whole, or
    one of the lgxtypes structures with what they hold. *)
Inductive target :=
| TgStruct (name : bytes) (fs : gfields)
| TgTimer (t : timer)
| TgCounter (t : counter)
| TgControl (t : control).
Inductive sval := SStruct (v : gv) | STimer (t : timer) | SCounter (t : counter) | SControl (t : control).

(** Unpack handing over to the Unpack method of the value, pack.go L244-247. *)
Definition own {A} (mk : A -> sval) (x : A * Z * res unit * bytes) : res (sval * Z * bytes) :=
  match x with
  | (t, n, Ok _, rest) => Ok (mk t, n, rest)
  | (_, _, Err e, _) => Err e
  | (_, _, Panic, _) => Panic
  | (_, _, OutOfFuel, _) => OutOfFuel
  end.
(** Unpack, pack.go L241-387. *)
Definition unpack_into (tg : target) (r : bytes) : res (sval * Z * bytes) :=
  match tg with
  | TgStruct name fs => let* (x, rest) := unpack (TStruct name fs) r in Ok (SStruct (fst x), snd x, rest)
  | TgTimer t => own STimer (timer_unpack t r)
  | TgCounter t => own SCounter (counter_unpack t r)
  | TgControl t => own SControl (control_unpack t r)
  end.
(** cipPack.Align of the type, pack.go L24-44; the lgxtypes structures consist of
    int32 and bool. *)
Definition target_align (tg : target) : Z :=
  match tg with TgStruct name fs => cip_align (TStruct name fs) | _ => 4 end.
(** Unpack into a slice, pack.go L263-281 (PackModel.unpack_slice for all
    targets, without the count). *)
Fixpoint unpack_each (tgs : list target) (r : bytes) : res (list sval * bytes) :=
  match tgs with
  | [] => Ok ([], r)
  | tg :: rest =>
      let* (x, r1) := unpack_into tg r in
      let a := target_align tg in
      let* r2 := (if snd x mod a =? 0 then Ok r1 else read_some (Z.to_nat (a - snd x mod a)) r1) in
      let* (vs, r3) := unpack_each rest r2 in
      Ok (fst x :: vs, r3)
  end.

(** The argument of Read: a pointer to a struct; a slice of structs; *any;
    []any of so many elements; or something that is neither a pointer nor a
    slice (a struct or a number itself, a map, nil). *)
Inductive dest := DOne (tg : target) | DMany (tgs : list target) | DAny | DAnys (n : nat) | DOther.
Inductive outcome := OOne (v : sval) | OMany (vs : list sval) | OAny (v : gval) | ONothing.

(** val.([]byte) of what Read_single returned. *)
Definition as_bytes (r : res gval) : res bytes :=
  let* v := r in match v with GBytes b => Ok b | _ => Err EMsg end.
(** read.go L294-370.  Read_single is asked for the type Struct.  A []any is read
    twice when it is empty (L304-320 falls through to L350-367); when it is not,
    Unpack takes its element for a struct and panics (pack.go L287, NumField of
    an interface type). *)
Definition read_to {S} (fuel : nat) (ctl : controller S) (c : client) (s : S) (otid seq : Z)
    (tag : bytes) (d : dest) : res outcome * S * Z :=
  match d with
  | DOne tg =>
      let '(r, s1, q) := read_single fuel ctl c s otid seq tag T_struct 1 in
      ((let* b := as_bytes r in let* (x, _) := unpack_into tg b in Ok (OOne (fst x))), s1, q)
  | DMany tgs =>
      let '(r, s1, q) := read_single fuel ctl c s otid seq tag T_struct (len tgs mod 65536) in
      ((let* b := as_bytes r in let* (vs, _) := unpack_each tgs b in Ok (OMany vs)), s1, q)
  | DAny =>
      let '(r, s1, q) := read_single fuel ctl c s otid seq tag T_struct 1 in
      ((let* v := r in Ok (OAny v)), s1, q)
  | DAnys n =>
      let '(r, s1, q) := read_single fuel ctl c s otid seq tag T_struct 1 in
      match as_bytes r with
      | Ok _ => match n with
                | O => let '(r2, s2, q2) := read_single fuel ctl c s1 otid q tag T_struct 0 in
                       ((let* _ := as_bytes r2 in Ok ONothing), s2, q2)
                | _ => (Panic, s1, q)
                end
      | Err e => (Err e, s1, q)
      | Panic => (Panic, s1, q)
      | OutOfFuel => (OutOfFuel, s1, q)
      end
  | DOther => (Ok ONothing, s, seq)
  end.
