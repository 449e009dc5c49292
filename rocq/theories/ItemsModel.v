(** * CIP items (items.go) *)
From Verif Require Import GoBase.

(** CIPItem, items.go L61-65, with its header (L312-315).  [it_pos] is a Go int
    and may be moved anywhere by other code. *)
Record item := Item { it_id : Z; it_len : Z; it_data : bytes; it_pos : Z }.

Definition item_null := 0x0000.        Definition item_listident := 0x000C.
Definition item_connaddr := 0x00A1.    Definition item_conndata := 0x00B1.
Definition item_unconndata := 0x00B2.  Definition item_listservice := 0x0100.
Definition item_seqaddr := 0x8002.

(** CIPItem.Write, items.go L84-89. *)
Definition item_write (it : item) (p : bytes) : item :=
  let d := it_data it ++ p in
  {| it_id := it_id it; it_len := len d mod 65536; it_data := d; it_pos := it_pos it |}.

(** newItem, items.go L92-103; the structure's bytes are given. *)
Definition item_empty (id : Z) : item := {| it_id := id; it_len := 0; it_data := []; it_pos := 0 |}.
Definition new_item (id : Z) (d : bytes) : item := item_write (item_empty id) d.

(** CIPItem.Bytes, items.go L292-303. *)
Definition item_bytes (it : item) : bytes := le 2 (it_id it) ++ le 2 (it_len it) ++ it_data it.

(** serializeItems, items.go L350-375. *)
Definition serialize_items (its : list item) : bytes :=
  le 4 0 ++ le 2 0 ++ le 2 (len its) ++ concat (map item_bytes its).

(** readItems, items.go L26-50, on the reader's unread bytes, which start at the
    count. *)
Fixpoint read_items_n (n : nat) (r : bytes) : res (list item * bytes) :=
  match n with
  | O => Ok ([], r)
  | S k =>
      let* (h, r1) := rd 4 r in
      let id := unle (firstn 2 h) in
      let l := unle (skipn 2 h) in
      let* (d, r2) := rd (Z.to_nat l) r1 in
      let* (its, r3) := read_items_n k r2 in
      Ok ({| it_id := id; it_len := l; it_data := d; it_pos := 0 |} :: its, r3)
  end.
Definition read_items (r : bytes) : res (list item * bytes) :=
  let* (c, r1) := rd 2 r in read_items_n (Z.to_nat (unle c)) r1.

(** ** The cursor *)

(** data[pos:], panicking when out of range. *)
Definition slice_from (d : bytes) (pos : Z) : res bytes :=
  if (0 <=? pos) && (pos <=? len d) then Ok (skipn (Z.to_nat pos) d) else Panic.

Definition item_at (it : item) (pos : Z) : item :=
  {| it_id := it_id it; it_len := it_len it; it_data := it_data it; it_pos := pos |}.

(** Rest, items.go L106-108. *)
Definition item_rest (it : item) : res bytes := slice_from (it_data it) (it_pos it).

(** Byte, Uint16, Uint32, Uint64 (L111-206): bounds check, then the little-endian
    number at Pos.  The bounds check is [len <= Pos + w - 1]. *)
Definition item_uint (w : nat) (it : item) : res Z * item :=
  if len (it_data it) <=? it_pos it + (Z.of_nat w - 1) then (Err EShort, it)
  else match slice_from (it_data it) (it_pos it) with
       | Ok s => (Ok (unle (firstn w s)), item_at it (it_pos it + Z.of_nat w))
       | _ => (Panic, it)
       end.
(** Int16, Int32, Int64. *)
Definition item_int (w : nat) (it : item) : res Z * item :=
  let '(r, it') := item_uint w it in
  (match r with Ok z => Ok (sgn (8 * Z.of_nat w) z) | e => e end, it').

(** Read (L72-79) under binary.Read of [w] bytes (DeSerialize, L288-290): fills
    from the data, moving Pos by what was copied even when too short. *)
Definition item_des (w : nat) (it : item) : res bytes * item :=
  match w with
  | O => (Ok [], it)
  | _ =>
    if len (it_data it) <=? it_pos it then (Err EEof, it)
    else match slice_from (it_data it) (it_pos it) with
         | Ok s => if (w <=? length s)%nat
                   then (Ok (firstn w s), item_at it (it_pos it + Z.of_nat w))
                   else (Err EShort, item_at it (len (it_data it)))
         | _ => (Panic, it)
         end
  end.

(** Float32/Float64 (L182-206): bounds check, then binary.Read. *)
Definition item_float (w : nat) (it : item) : res Z * item :=
  if len (it_data it) <=? it_pos it + (Z.of_nat w - 1) then (Err EShort, it)
  else let '(r, it') := item_des w it in
       (match r with Ok b => Ok (unle b) | Err e => Err e | Panic => Panic | OutOfFuel => OutOfFuel end, it').

(** Reset, L307-309. *)
Definition item_reset (it : item) : item := item_at it 0.

Inductive cur_op := CByte | CU16 | CI16 | CU32 | CI32 | CU64 | CI64 | CF32 | CF64 | CRest | CReset.
Inductive cur_res := RNum (z : Z) | RBytes (b : bytes) | RFail | RDone | RPanic.

Definition num_res (r : res Z) : cur_res :=
  match r with Ok z => RNum z | Panic => RPanic | _ => RFail end.

Definition cur_step (it : item) (o : cur_op) : cur_res * item :=
  match o with
  | CByte => let '(r, i) := item_uint 1 it in (num_res r, i)
  | CU16 => let '(r, i) := item_uint 2 it in (num_res r, i)
  | CI16 => let '(r, i) := item_int 2 it in (num_res r, i)
  | CU32 => let '(r, i) := item_uint 4 it in (num_res r, i)
  | CI32 => let '(r, i) := item_int 4 it in (num_res r, i)
  | CU64 => let '(r, i) := item_uint 8 it in (num_res r, i)
  | CI64 => let '(r, i) := item_int 8 it in (num_res r, i)
  | CF32 => let '(r, i) := item_float 4 it in (num_res r, i)
  | CF64 => let '(r, i) := item_float 8 it in (num_res r, i)
  | CRest => (match item_rest it with Ok b => RBytes b | _ => RPanic end, it)
  | CReset => (RDone, item_reset it)
  end.

Fixpoint cur_run (it : item) (os : list cur_op) : list cur_res * item :=
  match os with
  | [] => ([], it)
  | o :: r => let '(x, it1) := cur_step it o in
              let '(xs, it2) := cur_run it1 r in (x :: xs, it2)
  end.

(** ** Serialize (items.go L214-282) *)

(** The string case, L217-233 (and pack.go L61-75): the length as it is, then 84
    bytes. *)
Definition ser_string (s : bytes) : bytes := le 4 (len s) ++ fit 84 s.
(** One element of the []string case, L245-266: the length clamped to 84. *)
Definition ser_string_elem (s : bytes) : bytes :=
  let l := len s mod 2 ^ 32 in
  le 4 (if 84 <? l then 84 else l) ++ fit 84 s.
Definition ser_strings (l : list bytes) : bytes := concat (map ser_string_elem l).
