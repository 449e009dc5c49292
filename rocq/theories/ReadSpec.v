(** * Read requests and replies as 1756-PM020 lays them out *)
From Verif Require Import GoBase TypesModel ItemsSpec.
(** (TypesModel is used for the type of Go values only.) *)

(** Read Tag (0x4C) and Read Tag Fragmented (0x52) in a connected message. *)
Definition read_request (otid seq : Z) (path : bytes) (elements : Z) : bytes :=
  zeros 6 ++ wire_list [(0xA1, le 4 otid);
                        (0xB1, le 2 seq ++ [0x4C; len path / 2] ++ path ++ le 2 elements)].
Definition frag_request (otid seq : Z) (path : bytes) (elements offset : Z) : bytes :=
  zeros 6 ++ wire_list [(0xA1, le 4 otid);
                        (0xB1, le 2 seq ++ [0x52; len path / 2] ++ path ++ le 2 elements ++ le 4 offset)].

(** [answer payload status type data]: the payload is a 6-byte prefix and a list
    of two items, of which the second holds sequence number, service, reserved
    byte, general status, size of additional status, type, a zero byte, data. *)
Definition answer (payload : bytes) (status type : Z) (data : bytes) : Prop :=
  exists pre addr id seq svc resv ext x rest,
    length pre = 6%nat /\ length seq = 2%nat /\
    fits [addr; (id, seq ++ [svc; resv; status; ext; type; x] ++ data)] /\
    payload = pre ++ wire_list [addr; (id, seq ++ [svc; resv; status; ext; type; x] ++ data)] ++ rest.

(** The usual one, for examples. *)
Definition plain_answer (seq status type : Z) (data : bytes) : bytes :=
  zeros 6 ++ wire_list [(0xA1, [1; 2; 3; 4]);
                        (0xB1, le 2 seq ++ [0xCC; 0; status; 0; type; 0] ++ data)].

(** ** Values and their encodings *)

(** Integer types: signed, width in bytes. *)
Definition int_type (t : Z) : option (bool * nat) :=
  match t with
  | 0xC2 => Some (true, 1%nat) (* SINT *)  | 0xC3 => Some (true, 2%nat) (* INT *)
  | 0xC4 => Some (true, 4%nat) (* DINT *)  | 0xC5 => Some (true, 8%nat) (* LINT *)
  | 0xC6 => Some (false, 1%nat) (* USINT *)| 0xC7 => Some (false, 2%nat) (* UINT *)
  | 0xC8 => Some (false, 4%nat) (* UDINT *)| 0xC9 => Some (false, 8%nat) (* ULINT *)
  | 0xD1 => Some (false, 1%nat) (* BYTE *) | 0xD2 => Some (false, 2%nat) (* WORD *)
  | 0xD3 => Some (false, 4%nat) (* DWORD *)| 0xD4 => Some (false, 8%nat) (* LWORD *)
  | _ => None
  end.
Definition in_range (signed : bool) (w : nat) (z : Z) : Prop :=
  if signed then - 2 ^ (8 * Z.of_nat w - 1) <= z < 2 ^ (8 * Z.of_nat w - 1)
  else 0 <= z < 2 ^ (8 * Z.of_nat w).

Inductive encodes : Z -> gval -> bytes -> Prop :=
| enc_bool x : encodes 0xC1 (GBool (negb (x =? 0))) [x]
| enc_int t signed w z : int_type t = Some (signed, w) -> in_range signed w z ->
    encodes t (GInt signed w z) (le w z)
| enc_real bits : 0 <= bits < 2 ^ 32 -> encodes 0xCA (GFloat 4 bits) (le 4 bits)
| enc_lreal bits : 0 <= bits < 2 ^ 64 -> encodes 0xCB (GFloat 8 bits) (le 8 bits).

(** Elements one after the other. *)
Inductive encodes_all (t : Z) : list gval -> bytes -> Prop :=
| enc_nil : encodes_all t [] []
| enc_cons v d vs ds : encodes t v d -> encodes_all t vs ds -> encodes_all t (v :: vs) (d ++ ds).

(** A STRING in the controller: 4-byte count, 82 characters, two pad bytes;
    structures travel with a 2-byte handle in front. *)
Definition string_slot (s : bytes) (d : bytes) : Prop :=
  exists tail pad, len s <= 82 /\ length (s ++ tail) = 82%nat /\ length pad = 2%nat /\
  d = le 4 (len s) ++ s ++ tail ++ pad.
Inductive string_slots : list bytes -> bytes -> Prop :=
| slots_nil : string_slots [] []
| slots_cons s d ss ds : string_slot s d -> string_slots ss ds -> string_slots (s :: ss) (d ++ ds).

(** Go kinds a scalar of each CIP type can be read into. *)
Definition kind_of (v : gval) : gokind :=
  match v with
  | GBool _ => KBool
  | GInt s w _ => KInt s w
  | GFloat w _ => KFloat w
  | _ => KString
  end.

(** ** A controller holding one tag and answering as little at a time as it likes *)

(** What the tag's controller does with a request: the service and offset are
    read from their fixed places, the request must otherwise be the expected one.
    [chunks] says how many bytes each answer may carry; 400 when it runs out. *)
Definition next_chunk (chunks : list nat) : nat * list nat :=
  match chunks with [] => (400%nat, []) | k :: r => (k, r) end.
Definition serve_from (mem : bytes) (type seq : Z) (offset : nat) (chunks : list nat) : bytes * list nat :=
  let '(k, r) := next_chunk chunks in
  let d := firstn k (skipn offset mem) in
  let status := if (offset + k <? length mem)%nat then 6 else 0 in
  (plain_answer seq status type d, r).
Definition tag_holder (otid : Z) (path : bytes) (elements type : Z) (mem : bytes)
    (chunks : list nat) (req : bytes) : res (Z * bytes) * list nat :=
  let seq := unle (firstn 2 (skipn 20 req)) in
  let offset := unle (skipn (26 + length path) req) in
  if bseq req (read_request otid seq path elements) then
    let '(a, r) := serve_from mem type seq 0 chunks in (Ok (0, a), r)
  else if bseq req (frag_request otid seq path elements offset) then
    let '(a, r) := serve_from mem type seq (Z.to_nat offset) chunks in (Ok (0, a), r)
  else (Ok (0, plain_answer seq 5 0 []), chunks).

(** ** Watching a controller *)
Definition logged {S} (ctl : S -> bytes -> res (Z * bytes) * S)
    (sl : S * list (res (Z * bytes))) (req : bytes) : res (Z * bytes) * (S * list (res (Z * bytes))) :=
  let '(r, s1) := ctl (fst sl) req in (r, (s1, snd sl ++ [r])).
