(** * Reference form of CIP logical segments

    A logical segment is a type byte whose low two bits give the width of the
    number (0: one byte, 1: two bytes, 2: four bytes); the wider forms carry a
    pad byte after the type.  The smallest width is used. *)
From Verif Require Import GoBase.

Definition logical (base : Z) (n : Z) : bytes :=
  if n <? 2 ^ 8 then [base; n]
  else if n <? 2 ^ 16 then [base + 1; 0; n mod 256; n / 256]
  else [base + 2; 0; n mod 256; (n / 2 ^ 8) mod 256; (n / 2 ^ 16) mod 256; n / 2 ^ 24].

Definition class_segment := logical 0x20.
Definition instance_segment := logical 0x24.
Definition elem_segment := logical 0x28.
Definition attribute_segment := logical 0x30.

(** Width in bytes announced by a segment's type byte. *)
Definition announced_width (type : Z) : Z :=
  match type mod 4 with 0 => 1 | 1 => 2 | 2 => 4 | _ => 0 end.
(** Bytes of the number actually present: everything after the type byte and,
    for the wider forms, the pad byte. *)
Definition carried_width (seg : bytes) : Z :=
  if len seg =? 2 then 1 else len seg - 2.
