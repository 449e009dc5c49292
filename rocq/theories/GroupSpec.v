(** * What tag groups stand for *)
From Verif Require Import GoBase IoiSpec.

(** A name template: text and numbered holes, written {0}, {1}, ... *)
Inductive piece := Lit (s : bytes) | Hole (n : nat).
Definition written (p : piece) : bytes :=
  match p with Lit s => s | Hole n => [123] ++ dec (Z.of_nat n) ++ [125] end.
Definition template (ps : list piece) : bytes := concat (map written ps).
(** Holes without an argument stay. *)
Definition filled (args : list bytes) (p : piece) : bytes :=
  match p with Lit s => s | Hole n => nth n args (written (Hole n)) end.
Definition no_brace (s : bytes) : Prop := ~ In 123 s.
Definition piece_ok (p : piece) : Prop := match p with Lit s => no_brace s | Hole _ => True end.

(** The element [k] places after an element. *)
Definition bump_member (m : member) (k : Z) : member :=
  {| m_name := m_name m; m_subs := removelast (m_subs m) ++ [last (m_subs m) 0 + k] |}.
Definition bump (t : tag) (k : Z) : tag :=
  {| t_members := removelast (t_members t) ++ [bump_member (last (t_members t) {| m_name := []; m_subs := [] |}) k]; t_bit := t_bit t |}.
(** An element: a name that ends in a subscript. *)
Definition element (t : tag) : Prop :=
  t_bit t = None /\ m_subs (last (t_members t) {| m_name := []; m_subs := [] |}) <> [].
(** k = a, a+1, ..., a+n-1 *)
Fixpoint from (a : Z) (n : nat) : list Z := match n with O => [] | S k => a :: from (a + 1) k end.

(** The type a definition's read asks for: the one of the same size that Go has. *)
Definition go_type_of (t : Z) : option Z :=
  match t with
  | 0xC1 => Some 0xC1 | 0xC2 => Some 0xC2 | 0xC3 => Some 0xC3 | 0xC4 => Some 0xC4 | 0xC5 => Some 0xC5
  | 0xC6 | 0xD1 => Some 0xD1
  | 0xC7 | 0xD2 => Some 0xC7
  | 0xC8 | 0xD3 => Some 0xC8
  | 0xC9 | 0xD4 => Some 0xD4
  | 0xCA => Some 0xCA | 0xCB => Some 0xCB | 0xFF => Some 0xFF
  | _ => None
  end.
