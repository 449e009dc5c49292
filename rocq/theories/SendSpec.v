(** * The same request over a connection and in an Unconnected Send *)
From Verif Require Import GoBase ItemsSpec SrvSpec RouteSpec.

(** Bytes of one value of a CIP type: a number, a bool, or a string of the
    structure type. *)
Definition value_size (t : Z) : option Z := if t =? 0xA0 then Some 86 else number_size t.

(** A read of [n] elements, or a write of [n] values that all are there.  What
    follows the path does not look like another part of it. *)
Inductive request : bytes -> Prop :=
| rq_read l p lo hi : tag_path p -> lo <> 0x28 -> lo <> 0x29 -> lo <> 0x91 -> request (0x4C :: l :: p ++ [lo; hi])
| rq_write l p t info n z vals : tag_path p -> value_size t = Some z -> length n = 2%nat -> 0 <= unle n -> len vals = unle n * z ->
    request (0x4D :: l :: p ++ t :: len info :: info ++ n ++ vals).

(** Unconnected Send to the connection manager: time tick and number of ticks, the
    embedded request with its length, a byte more when that is odd, and the route
    in words. *)
Definition unconnected_send (tick m route : bytes) : bytes :=
  [0x52; 2; 0x20; 6; 0x24; 1] ++ tick ++ le 2 (len m) ++ m ++ (if Z.odd (len m) then [0] else []) ++
  [len route / 2; 0] ++ route.
