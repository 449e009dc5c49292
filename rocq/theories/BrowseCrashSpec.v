(** * Replies that bring a browsing client down *)
From Verif Require Import GoBase ItemsSpec CrashSpec.

(** A reply whose second item is a template definition without a name: after the
    6-byte header and 8 bytes for each of [n] members comes a semicolon. *)
Definition nameless (p : bytes) : Prop :=
  exists pre addr id d more rest, length pre = 6%nat /\ p = pre ++ wire_list (addr :: (id, d) :: more) ++ rest /\
  exists h (n : nat) tail, length h = (6 + 8 * n)%nat /\ d = h ++ 59 :: tail.

(** The last exchange, leaving the controller in [s'], had a reply of fewer than
    two items, or such a definition as the answer to a Read (0x4C) of a template
    (class 0x6C).  [ask q service path data] is the request sent. *)
Definition last_fatal {S} (ctl : S -> bytes -> res (Z * bytes) * S) (ask : Z -> Z -> bytes -> bytes -> bytes) (s' : S) : Prop :=
  (exists s req st p, ctl s req = (Ok (st, p), s') /\ few_items p) \/
  (exists s q path data st p, ctl s (ask q 0x4C ([0x20; 0x6C] ++ path) data) = (Ok (st, p), s') /\ nameless p).

(** The exchange that led to state [s'] was a reply with fewer than two items. *)
Definition short_reply {S} (ctl : S -> bytes -> res (Z * bytes) * S) (s' : S) : Prop := exists s req st p, ctl s req = (Ok (st, p), s') /\ few_items p.
