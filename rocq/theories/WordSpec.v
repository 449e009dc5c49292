(** * What the type word of a symbol or member means *)
From Verif Require Import GoBase.

(** A type word has sixteen bits: the lowest twelve give the type, bit 12 marks
    what belongs to the system, bits 13 and 14 count the dimensions, bit 15 marks
    structures. *)
Definition word (system structured : bool) (dims type : Z) : Z :=
  type + (if system then 4096 else 0) + 8192 * dims + (if structured then 32768 else 0).
Definition word_parts (dims type : Z) : Prop := 0 <= dims < 4 /\ 0 <= type < 4096.

(** The elementary types and their sizes. *)
Definition elementary : list (Z * Z) :=
  [(0xC1, 1); (0xC2, 1); (0xC3, 2); (0xC4, 4); (0xC5, 8); (0xC6, 1); (0xC7, 2); (0xC8, 4); (0xC9, 8); (0xCA, 4); (0xCB, 8);
   (0xD1, 1); (0xD2, 2); (0xD3, 4); (0xD4, 8)].

(** ** Members of a structure

    Member of an elementary type, alone or [n] in an array; member that is a
    structure of [size] bytes, with the number [id]; at the offset given. *)
Inductive field := Alone (code at_ : Z) | Row (code n at_ : Z) | Nested (id size at_ : Z).
(** Where it ends. *)
Definition ends (f : field) (z : Z) : Prop :=
  match f with
  | Alone c a => exists s, In (c, s) elementary /\ z = a + s
  | Row c n a => exists s, In (c, s) elementary /\ z = a + n * s
  | Nested _ s a => z = a + s
  end.
(** What the controller says of it: type word and offset. *)
Definition says_of (f : field) (type at_ : Z) : Prop :=
  match f with
  | Alone c a => type = word false false 0 c /\ at_ = a
  | Row c n a => type = word false false 1 c /\ at_ = a
  | Nested id _ a => type = word false true 0 id /\ at_ = a
  end.
Definition field_ok (f : field) : Prop :=
  match f with
  | Alone c a => (exists s, In (c, s) elementary) /\ 0 <= a
  | Row c n a => (exists s, In (c, s) elementary) /\ 0 <= a /\ 1 <= n
  | Nested id s a => 0 <= a /\ 0 <= s /\ 1 <= id < 4096
  end.
(** The number of bytes of a structure: its last member ends there. *)
Definition extent (fs : list field) (z : Z) : Prop :=
  (exists f, In f fs /\ ends f z) /\ forall f y, In f fs -> ends f y -> y <= z.
