(** * Numbering the tags of a controller

    A tag's number is one more than the number of tags whose name comes before
    its own in the dictionary. *)
From Verif Require Import GoBase ProvModel.

(** Dictionary order, byte by byte. *)
Inductive before : bytes -> bytes -> Prop :=
| bf_end c r : before [] (c :: r)
| bf_less x y a b : x < y -> before (x :: a) (y :: b)
| bf_same x a b : before a b -> before (x :: a) (x :: b).

Definition numbered (names : bytes -> Prop) (n : bytes) (i : Z) : Prop :=
  names n /\ exists l, NoDup l /\ (forall m, In m l <-> names m /\ before m n) /\ i = 1 + len l.

(** The names in a provider's map.  (The model lists a map's entries in some
    order, a key once.) *)
Definition tags_of (p : prov) : bytes -> Prop := fun n => mget (pv_data p) n <> None.
Definition keys_once (p : prov) : Prop := NoDup (map fst (pv_data p)).

(** A listing of tags: number (4 bytes), length of the name (2), name, type
    (2). *)
Inductive symbols (types : bytes -> Z) : list (Z * bytes) -> bytes -> Prop :=
| sy_nil : symbols types [] []
| sy_cons i n l d : symbols types l d ->
    symbols types ((i, n) :: l) (le 4 i ++ le 2 (len n) ++ n ++ le 2 (types n) ++ d).

(** A message sent on its own or inside an unconnected send (service 0x52, path
    to the message router, tick, timeout, length, message, route). *)
Inductive sent_as (m : bytes) : bytes -> Prop :=
| sa_direct : sent_as m m
| sa_wrapped path t rest : (length path = 2 * Z.to_nat (len path / 2))%nat -> len path < 256 -> length t = 2%nat ->
    sent_as m ([0x52; len path / 2] ++ path ++ t ++ le 2 (len m) ++ m ++ rest).
(** Reading and writing attribute 1 of an instance of class 0xC8. *)
Definition get_by_number (i : Z) : bytes := [0x0E; 3; 0x20; 0xC8; 0x24; i; 0x30; 1].
Definition set_by_number (i : Z) (ty : bytes) (count : Z) (data : bytes) : bytes :=
  [0x10; 3; 0x20; 0xC8; 0x24; i; 0x30; 1] ++ ty ++ le 2 count ++ data.
