(* What a table of open connections is, without slices, indices or pointers
   into a slice: the history of connections, each open or closed.  A close may
   pick any open connection that carries the number; it closes just that one. *)
From Coq Require Import List Bool ZArith.
From Verif Require Import TableModel.
Import ListNotations.
Local Open Scope Z_scope.

(* The connection carries this number. *)
Definition carries (k : ckey) (c : sconn) : Prop :=
  match k with
  | KeyID v => sc_id c = v
  | KeyOT v => sc_ot c = v
  | KeyTO v => sc_to c = v
  end.

(* The connections made so far, oldest first. *)
Definition history := list sconn.

(* The a-th connection made is open and carries the number. *)
Definition live (h : history) (k : ckey) (a : nat) : Prop :=
  exists c, nth_error h a = Some c /\ sc_open c = true /\ carries k c.

(* h' is h except that the a-th connection, open in h, is closed. *)
Definition closes (h : history) (a : nat) (h' : history) : Prop :=
  length h' = length h /\
  (forall b, b <> a -> nth_error h' b = nth_error h b) /\
  exists c, nth_error h a = Some c /\ sc_open c = true /\
    nth_error h' a =
      Some (SConn (sc_id c) (sc_ot c) (sc_to c) (sc_rpi c) (sc_path c) false).

Inductive tstep (h : history) : cop -> history -> cout -> Prop :=
| t_add : forall id ot to rpi path,
    tstep h (OpAdd id ot to rpi path)
          (h ++ [SConn id ot to rpi path true]) (OutAdd (length h))
| t_found : forall k a, live h k a -> tstep h (OpGet k) h (OutGet (Some a))
| t_lost : forall k, (forall a, ~ live h k a) -> tstep h (OpGet k) h (OutGet None)
| t_closed : forall k a h', live h k a -> closes h a h' ->
    tstep h (OpClose k) h' (OutClose true)
| t_none : forall k, (forall a, ~ live h k a) ->
    tstep h (OpClose k) h (OutClose false).

Inductive trun : history -> list cop -> history -> list cout -> Prop :=
| tr_nil : forall h, trun h [] h []
| tr_cons : forall h o h1 r os h2 rs,
    tstep h o h1 r -> trun h1 os h2 rs -> trun h (o :: os) h2 (r :: rs).

(* Counting by serial number, for a server that closes by serial number. *)
Fixpoint opened (v : Z) (os : list cop) : nat :=
  match os with
  | [] => 0
  | OpAdd id _ _ _ _ :: os' => if id =? v then S (opened v os') else opened v os'
  | _ :: os' => opened v os'
  end.

Fixpoint shut_count (v : Z) (os : list cop) (rs : list cout) : nat :=
  match os, rs with
  | OpClose (KeyID w) :: os', OutClose true :: rs' =>
      if w =? v then S (shut_count v os' rs') else shut_count v os' rs'
  | _ :: os', _ :: rs' => shut_count v os' rs'
  | _, _ => 0
  end.

Definition by_id (o : cop) : Prop :=
  match o with OpClose (KeyID _) => True | OpClose _ => False | _ => True end.
