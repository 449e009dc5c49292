(** * Small calls a client makes of its own accord *)
From Verif Require Import GoBase ItemsModel ReadModel AttrModel.

(** firmware, client.go L239-258: the revision's first byte, kept once it is known
    ([known], 0 if not); any error gives 0. *)
Definition firmware {S} (ctl : controller S) (s : S) (otid q known : Z) : res Z * S * Z :=
  if negb (known =? 0) then (Ok known, s, q) else
  match get_attr_single ctl s otid q 1 1 4 with
  | (Ok it, s1, q1) => (match fst (item_uint 1 it) with Ok b => Ok b | Err _ => Ok 0 | r => r end, s1, q1)
  | (Err _, s1, q1) => (Ok 0, s1, q1)
  | (Panic, s1, q1) => (Panic, s1, q1)
  | (OutOfFuel, s1, q1) => (OutOfFuel, s1, q1)
  end.
(** The keep-alive's GetAttrList of its properties, connect.go L208 and L236, with
    the sequence number along. *)
Definition ask_props {S} (ctl : controller S) (otid : Z) (props : list Z) (st : S * Z) : res item * (S * Z) :=
  let '(r, s1, q1) := get_attr_list ctl (fst st) otid (snd st) 0xAC 1 props in (r, (s1, q1)).
