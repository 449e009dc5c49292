(** * The path router (server_router.go L12-41)

    [A] stands for the endpoints.  A Go map is a list of entries without repeated
    keys; [None] is the nil map of a PathRouter made without NewRouter. *)
From Verif Require Import GoBase IoiModel.

Section router.
Context {A : Type}.

Definition router := option (list (bytes * A)).

(** NewRouter, L20-24. *)
Definition new_router : router := Some [].

(** Assignment to a map entry. *)
Fixpoint assign (m : list (bytes * A)) (k : bytes) (v : A) : list (bytes * A) :=
  match m with
  | [] => [(k, v)]
  | (k', v') :: t => if bseq k k' then (k', v) :: t else (k', v') :: assign t k v
  end.

(** Handle, L26-31. *)
Definition handle (r : router) (path : bytes) (p : A) : router :=
  Some (assign (match r with Some m => m | None => [] end) path p).

(** Resolve, L34-40; a nil map has no entries. *)
Definition find_route (r : router) (path : bytes) : res A :=
  match lookup path (match r with Some m => m | None => [] end) with Some p => Ok p | None => Err EMsg end.

(** ** Goroutines

    Path has no lock.  A goroutine is in the map from the start of its access to
    the end; what it does there counts at the end. *)
Inductive use := UHandle (path : bytes) (p : A) | UResolve (path : bytes).
Record desk := Desk { d_router : router; d_in : list (nat * use); d_found : list (nat * bytes * res A) }.
Inductive move := Enter (t : nat) (u : use) | Leave (t : nat).

Fixpoint in_use (l : list (nat * use)) (t : nat) : option use :=
  match l with
  | [] => None
  | (t', u) :: r => if Nat.eqb t t' then Some u else in_use r t
  end.
Definition out (l : list (nat * use)) (t : nat) : list (nat * use) := filter (fun x => negb (Nat.eqb (fst x) t)) l.

Definition move1 (d : desk) (m : move) : option desk :=
  match m with
  | Enter t u => match in_use (d_in d) t with
                 | Some _ => None
                 | None => Some (Desk (d_router d) ((t, u) :: d_in d) (d_found d))
                 end
  | Leave t => match in_use (d_in d) t with
               | None => None
               | Some (UHandle path p) => Some (Desk (handle (d_router d) path p) (out (d_in d) t) (d_found d))
               | Some (UResolve path) =>
                   Some (Desk (d_router d) (out (d_in d) t) (d_found d ++ [(t, path, find_route (d_router d) path)]))
               end
  end.
Fixpoint moves (d : desk) (ms : list move) : option desk :=
  match ms with
  | [] => Some d
  | m :: r => match move1 d m with Some d' => moves d' r | None => None end
  end.
End router.
Arguments router A : clear implicits. Arguments use A : clear implicits. Arguments desk A : clear implicits. Arguments move A : clear implicits.
