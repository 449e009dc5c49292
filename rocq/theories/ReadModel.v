(** * Single tag reads (read.go) *)
From Verif Require Import GoBase SegModel IoiModel ItemsModel TypesModel.

(** The controller, as seen through send_recv_data: a state machine that takes
    the item bytes of a request and gives the EIP status and the payload of the
    reply, or a transport error.  Nothing is assumed about it here. *)
Definition controller (S : Type) : Type := S -> bytes -> res (Z * bytes) * S.

Definition svc_read := 0x4C.
Definition svc_write := 0x4D.
Definition svc_fragread := 0x52.
Definition svc_multi := 0x0A.
Definition st_partial := 6.

(** A connected request about one path: read.go L414-432 and L1187-1203.
    [tail] is what follows the path. *)
Definition path_request (otid seq service : Z) (path tail : bytes) : bytes :=
  serialize_items
    [ new_item item_connaddr (le 4 otid);
      item_write (new_item item_conndata (le 2 seq ++ [service; path_size_byte path])) (path ++ tail) ].

(** The items of a reply payload: the 6-byte result header, then readItems.  A
    short header is only logged (read.go L439-442); the reader is then empty. *)
Definition reply_items (payload : bytes) : res (list item) :=
  let r := match rd 6 payload with Ok (_, r) => r | _ => [] end in
  let* (its, _) := read_items r in Ok its.

(** msgCIPReadResultData (messages.go L74-80) off item 1: general status, type,
    and the data after the header. *)
Record read_hdr := { rh_status : Z; rh_type : Z; rh_data : bytes }.
Definition parse_read_hdr (payload : bytes) : res read_hdr :=
  let* its := reply_items payload in
  match its with
  | [_; it] =>
      let* (h, d) := rd 8 (it_data it) in
      Ok {| rh_status := nth 4 h 0; rh_type := nth 6 h 0; rh_data := d |}
  | _ => Err EMsg
  end.

(** readFragmented and sendFragReadRequest, read.go L1165-1228.  The Go loop has
    no bound: the model takes fuel.  A short result header is an error here
    (L1205-1208), reported by reply_items as well. *)
Fixpoint read_fragmented {S} (fuel : nat) (ctl : controller S) (s : S) (otid seq : Z)
    (path : bytes) (elements : Z) (acc : bytes) : res bytes * S * Z :=
  match fuel with
  | O => (OutOfFuel, s, seq)
  | Datatypes.S k =>
      let req := path_request otid seq svc_fragread path (le 2 elements ++ le 4 (len acc)) in
      match ctl s req with
      | (Ok (_, payload), s1) =>
          match parse_read_hdr payload with
          | Ok h =>
              let acc' := acc ++ rh_data h in
              if rh_status h =? 0 then (Ok acc', s1, seq + 1)
              else if rh_status h =? st_partial
                   then read_fragmented k ctl s1 otid (seq + 1) path elements acc'
                   else (Err (EStatus (rh_status h)), s1, seq + 1)
          | Err e => (Err e, s1, seq + 1)
          | Panic => (Panic, s1, seq + 1)
          | OutOfFuel => (OutOfFuel, s1, seq + 1)
          end
      | (Err e, s1) => (Err e, s1, seq + 1)
      | (Panic, s1) => (Panic, s1, seq + 1)
      | (OutOfFuel, s1) => (OutOfFuel, s1, seq + 1)
      end
  end.

(** [n] readValue calls in a row (read.go L540-547). *)
Fixpoint read_values (n : nat) (t : Z) (r : bytes) : res (list gval * bytes) :=
  match n with
  | O => Ok ([], r)
  | S k => let* (v, r1) := read_value t r in
           let* (vs, r2) := read_values k t r1 in Ok (v :: vs, r2)
  end.

(** One element of a STRING array (read.go L501-512): 6-byte header, 82 bytes,
    str[:Length] panics beyond 82. *)
Definition read_string_elem (r : bytes) : res (bytes * bytes) :=
  let* (h, r1) := rd 6 r in
  let l := unle (skipn 2 h) in
  let* (d, r2) := rd 82 r1 in
  if 82 <? l then Panic else Ok (firstn (Z.to_nat l) d, r2).
Fixpoint read_string_elems (n : nat) (r : bytes) : res (list bytes * bytes) :=
  match n with
  | O => Ok ([], r)
  | S k => let* (v, r1) := read_string_elem r in
           let* (vs, r2) := read_string_elems k r1 in Ok (v :: vs, r2)
  end.

(** read.go L479-549: turning type and data into a value. *)
Definition decode_read (i : ioi) (dtype elements htype : Z) (d : bytes) : res gval :=
  if htype =? T_struct then
    if dtype =? T_string then
      if elements =? 1 then
        let* (h, r) := rd 6 d in
        let* (s, _) := rd (Z.to_nat (unle (skipn 2 h))) r in
        Ok (GBytes s)
      else
        let* (l, _) := read_string_elems (Z.to_nat elements) d in
        Ok (GList (map GBytes l))
    else
      let* (_, r) := rd 2 d in Ok (GBytes r)
  else if elements =? 1 then
    if (dtype =? T_bool) && negb (htype =? T_bool) && ioi_bit i then
      let* (v, _) := read_value htype d in
      let* b := get_bit htype v (ioi_bitpos i) in Ok (GBool b)
    else
      let* (v, _) := read_value htype d in Ok v
  else
    let* (vs, _) := read_values (Z.to_nat elements) htype d in Ok (GList vs).

(** Client.Read_single, read.go L401-550, after newIOI.  checkConnection is not
    part of it.  The sequence number is the low 16 bits of sequencer(). *)
Definition read_single_ioi {S} (fuel : nat) (ctl : controller S) (s : S) (otid seq : Z)
    (i : ioi) (dtype elements : Z) : res gval * S * Z :=
  let req := path_request otid seq svc_read (ioi_buf i) (le 2 elements) in
  match ctl s req with
  | (Ok (_, payload), s1) =>
      match parse_read_hdr payload with
      | Ok h =>
          if rh_status h =? st_partial then
            if rh_type h =? T_struct then (Err EMsg, s1, seq + 1)
            else
              match read_fragmented fuel ctl s1 otid (seq + 1) (ioi_buf i) elements (rh_data h) with
              | (Ok merged, s2, seq2) => (decode_read i dtype elements (rh_type h) merged, s2, seq2)
              | (Err e, s2, seq2) => (Err e, s2, seq2)
              | (Panic, s2, seq2) => (Panic, s2, seq2)
              | (OutOfFuel, s2, seq2) => (OutOfFuel, s2, seq2)
              end
          else if negb (rh_status h =? 0) then (Err (EStatus (rh_status h)), s1, seq + 1)
          else (decode_read i dtype elements (rh_type h) (rh_data h), s1, seq + 1)
      | Err e => (Err e, s1, seq + 1)
      | Panic => (Panic, s1, seq + 1)
      | OutOfFuel => (OutOfFuel, s1, seq + 1)
      end
  | (Err e, s1) => (Err e, s1, seq + 1)
  | (Panic, s1) => (Panic, s1, seq + 1)
  | (OutOfFuel, s1) => (OutOfFuel, s1, seq + 1)
  end.

Definition read_single {S} (fuel : nat) (ctl : controller S) (c : client) (s : S) (otid seq : Z)
    (tag : bytes) (dtype elements : Z) : res gval * S * Z :=
  match fst (new_ioi c tag dtype) with
  | Ok i => read_single_ioi fuel ctl s otid seq i dtype elements
  | Err e => (Err e, s, seq)
  | Panic => (Panic, s, seq)
  | OutOfFuel => (OutOfFuel, s, seq)
  end.

(** ** The typed front end *)

(** A Go type assertion v.(T) for the scalar kinds. *)
Definition has_kind (k : gokind) (v : gval) : bool :=
  match k, v with
  | KBool, GBool _ => true
  | KInt s w, GInt s' w' _ => Bool.eqb s s' && (w =? w')%nat
  | KFloat w, GFloat w' _ => (w =? w')%nat
  | _, _ => false
  end.

(** read[T], read.go L595-632, from the outcome of Read_single. *)
Definition cast_scalar (k : gokind) (r : res gval) : res gval :=
  let* v := r in
  match k with
  | KString => match v with GBytes b => Ok (GStr b) | _ => Err EMsg end
  | _ => if has_kind k v then Ok v else Err EMsg
  end.

(** The loop of readArray[T], read.go L573-592. *)
Fixpoint cast_all (k : gokind) (l : list gval) : res (list gval) :=
  match l with
  | [] => Ok []
  | v :: r =>
      match k, v with
      | KString, GBytes b => let* vs := cast_all k r in Ok (GStr b :: vs)
      | _, _ => if has_kind k v then let* vs := cast_all k r in Ok (v :: vs) else Err EMsg
      end
  end.
(** readArray[T], read.go L552-592.  t[0] of an empty slice panics (L554), and a
    one element read does not give a []any (L569-571).  The result slice has
    [elements] elements whatever cast holds. *)
Definition cast_array (k : gokind) (elements : Z) (r : res gval) : res (list gval) :=
  if elements =? 0 then Panic else
  let* v := r in
  match v with GList l => cast_all k l | _ => Err EMsg end.

(** Client.Read into *T (read.go L44-124). *)
Definition client_read {S} (fuel : nat) (ctl : controller S) (c : client) (s : S) (otid seq : Z)
    (tag : bytes) (k : gokind) : res gval * S * Z :=
  let '(r, s1, q) := read_single fuel ctl c s otid seq tag (kind_cip k) 1 in
  (cast_scalar k r, s1, q).

(** Client.Read into a []T of [n] elements (read.go L152-288): the count goes out
    as a uint16, and the length of the answer is compared with it. *)
Definition client_read_slice {S} (fuel : nat) (ctl : controller S) (c : client) (s : S) (otid seq : Z)
    (tag : bytes) (k : gokind) (n : Z) : res (list gval) * S * Z :=
  let e := n mod 65536 in
  if e =? 0 then (Panic, s, seq) else
  let '(r, s1, q) := read_single fuel ctl c s otid seq tag (kind_cip k) e in
  (match cast_array k e r with
   | Ok l => if e =? n then Ok l else Err EMsg
   | r' => r' end, s1, q).

(** Client.Read into a []bool (read.go L126-151). *)
Definition word_bits (w : Z) : list bool :=
  map (fun i => negb (Z.land w (2 ^ Z.of_nat i) =? 0)) (seq 0 32).
Definition word_of (v : gval) : Z := match v with GInt _ _ z => z | _ => 0 end.
Definition client_read_bools {S} (fuel : nat) (ctl : controller S) (c : client) (s : S) (otid q : Z)
    (tag : bytes) (n : Z) : res (list bool) * S * Z :=
  let count := n / 32 in
  if negb (count * 32 =? n) then (Err EMsg, s, q)
  else if count =? 1 then
    let '(r, s1, q1) := client_read fuel ctl c s otid q tag (KInt false 4) in
    (match r with Ok v => Ok (word_bits (word_of v)) | Err e => Err e | Panic => Panic | OutOfFuel => OutOfFuel end, s1, q1)
  else
    let '(r, s1, q1) := client_read_slice fuel ctl c s otid q tag (KInt false 4) count in
    (match r with Ok l => Ok (concat (map (fun v => word_bits (word_of v)) l))
                | Err e => Err e | Panic => Panic | OutOfFuel => OutOfFuel end, s1, q1).
