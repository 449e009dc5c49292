(** * Replies that bring a client down *)
From Verif Require Import GoBase IoiSpec ItemsSpec BatchSpec.

(** A reply of fewer than two items. *)
Definition few_items (p : bytes) : Prop :=
  exists pre l rest, length pre = 6%nat /\ len l < 2 /\ p = pre ++ wire_list l ++ rest.
(** A reply of two items, the second with this identifier and data. *)
Definition two_items (p : bytes) (id : Z) (d : bytes) : Prop :=
  exists pre addr rest, length pre = 6%nat /\ p = pre ++ wire_list [addr; (id, d)] ++ rest.

(** An array of [n] STRINGs, each as a handle, a 4-byte count and 82 characters,
    of which one announces more than 82. *)
Inductive long_string : nat -> bytes -> Prop :=
| long_here n handle count chars rest : length handle = 2%nat -> length count = 4%nat -> length chars = 82%nat ->
    82 < unle count -> long_string (S n) (handle ++ count ++ chars ++ rest)
| long_later n slot rest : length slot = 88%nat -> long_string n rest -> long_string (S n) (slot ++ rest).

(** A successful reply to a read of the tags [l] in one request whose entry [k]
    points past the end of the item, or has no tag, or is an array of strings with
    such a string in it.  Offsets count from the number of services, 10 bytes into
    the item, and are added to 10 in 16 bits; a sub-reply has 6 bytes before its
    data. *)
Definition bad_entry (l : list wish) (p : bytes) : Prop :=
  exists id d k, two_items p id d /\
    unle (firstn 2 (skipn 4 d)) = 0 /\ Z.of_nat k < unle (firstn 2 (skipn 6 d)) /\
    let item := wire_item (id, d) in
    let at_ := (unle (firstn 2 (skipn (8 + 2 * k) d)) + 10) mod 65536 in
    (len item < at_ \/ (length l <= k)%nat \/
     exists w, nth_error l k = Some w /\ w_type w = 0xFF /\ w_elems w <> 1 /\
       long_string (Z.to_nat (w_elems w)) (skipn (Z.to_nat at_ + 6) item)).

(** A controller that sends bytes. *)
Definition honest {S} (ctl : S -> bytes -> res (Z * bytes) * S) : Prop :=
  forall s req, match fst (ctl s req) with Ok (_, p) => bytes_ok p | Panic => False | _ => True end.

(** The last exchange of a batched read of [ws], leaving the controller in [s'],
    was such a reply to a request for some of the tags. *)
Definition fatal_reply {S} (ctl : S -> bytes -> res (Z * bytes) * S) (otid : Z) (ws : list wish) (s' : S) : Prop :=
  exists s q l p, (exists a b, ws = a ++ l ++ b) /\
    ctl s (multi_request otid q (map read_service l)) = (Ok (0, p), s') /\ bad_entry l p.
