(** * What variables behind data table tags are for *)
From Verif Require Import GoBase IoiSpec TypesModel ReadSpec GroupSpec DataSpec.

(** What a program does with a buffer (as DataSpec.act): tags are added with or
    without a variable, given by its place in memory. *)
Definition slot := (tag * Z * option nat)%type.
Inductive ract := RPut (l : list slot) | RSend | RLook.
Definition plain (a : ract) : act := match a with RPut l => Put (map fst l) | RSend => Send | RLook => Look end.
Definition bound (h : list ract) : list slot := concat (map (fun a => match a with RPut l => l | _ => [] end) h).
Definition cells (l : list slot) : list nat := concat (map (fun x => match snd x with Some a => [a] | None => [] end) l).

(** The type of tag a Go variable of each kind stands for. *)
Definition cip_of (k : gokind) : option Z :=
  match k with
  | KBool => Some 0xC1
  | KInt true 1 => Some 0xC2 | KInt true 2 => Some 0xC3 | KInt true 4 => Some 0xC4 | KInt true 8 => Some 0xC5
  | KInt false 1 => Some 0xD1 | KInt false 2 => Some 0xC7 | KInt false 4 => Some 0xC8 | KInt false 8 => Some 0xD4
  | KFloat 4 => Some 0xCA | KFloat 8 => Some 0xCB
  | KString => Some 0xFF
  | _ => None
  end.

(** A field of a struct the program passes: no gologix tag; a scalar or string
    with one; a slice of at least two elements, whose tag names the first. *)
Inductive member := Untagged | Single (tg : tag) (k : gokind) (a : nat) | Many (tg : tag) (k : gokind) (l : list nat).
Definition member_ok (m : member) : Prop :=
  match m with
  | Untagged => True
  | Single _ k _ => exists t, cip_of k = Some t
  | Many tg k l => k <> KBool /\ (exists t, cip_of k = Some t) /\ 2 <= len l /\ element tg
  end.
Fixpoint elements (tg : tag) (t : Z) (i : Z) (l : list nat) : list slot :=
  match l with [] => [] | a :: r => (bump tg i, t, Some a) :: elements tg t (i + 1) r end.
Definition stands (m : member) : list slot :=
  match m with
  | Untagged => []
  | Single tg k a => match cip_of k with Some t => [(tg, t, Some a)] | None => [] end
  | Many tg k l => match cip_of k with Some t => elements tg t 0 l | None => [] end
  end.
