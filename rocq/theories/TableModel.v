(* The server's table of open CIP connections (server_connections.go).

   The code keeps a slice of pointers; the connection records live on the heap
   and the goroutine that serves an I/O connection keeps its own pointer and
   polls the Open field (server.go L812-L850).  So the model separates the
   records ever created ([heap], addressed by position) from the slice of
   addresses ([table]). *)
From Coq Require Import List Bool ZArith.
From Verif Require Import GoBase.
Import ListNotations.
Local Open Scope Z_scope.

(* serverConnection, server_connections.go L10-L17.  RPI is a number of
   microseconds. *)
Record sconn := SConn {
  sc_id : Z;        (* uint16: the connection serial number *)
  sc_ot : Z;        (* uint32 *)
  sc_to : Z;        (* uint32 *)
  sc_rpi : Z;
  sc_path : list Z;
  sc_open : bool }.

Record cman := CMan { cm_heap : list sconn; cm_table : list nat }.

(* serverConnectionManager.Init, L25-L28 *)
Definition cman_init : cman := CMan [] [].

(* The field a lookup or close compares: L39/L69 ID, L49/L86 OT, L59/L103 TO. *)
Inductive ckey := KeyID (v : Z) | KeyOT (v : Z) | KeyTO (v : Z).

Definition key_hit (k : ckey) (c : sconn) : bool :=
  match k with
  | KeyID v => sc_id c =? v
  | KeyOT v => sc_ot c =? v
  | KeyTO v => sc_to c =? v
  end.

(* *p for a pointer in the table *)
Definition conn_at (h : list sconn) (a : nat) : sconn :=
  nth a h (SConn 0 0 0 0 [] false).

(* conn.Open = false through a pointer: L70, L87, L104 *)
Fixpoint shut (h : list sconn) (a : nat) : list sconn :=
  match h, a with
  | [], _ => []
  | c :: t, O => SConn (sc_id c) (sc_ot c) (sc_to c) (sc_rpi c) (sc_path c) false :: t
  | c :: t, S a' => c :: shut t a'
  end.

(* The loop "for i, conn := range cm.Connections": the first index that hits. *)
Fixpoint find_conn (h : list sconn) (k : ckey) (t : list nat) (i : nat)
  : option (nat * nat) :=
  match t with
  | [] => None
  | a :: t' => if key_hit k (conn_at h a) then Some (i, a)
               else find_conn h k t' (S i)
  end.

(* cm.Connections[i] = v *)
Fixpoint put (t : list nat) (i v : nat) : list nat :=
  match t, i with
  | [], _ => []
  | _ :: t', O => v :: t'
  | x :: t', S i' => x :: put t' i' v
  end.

(* Add, L29-L34; the caller allocates the record (server.go L683-L691 and
   L757-L765), so its address is fresh *)
Definition conn_add (m : cman) (c : sconn) : cman :=
  CMan (cm_heap m ++ [c]) (cm_table m ++ [length (cm_heap m)]).

(* GetByID, GetByOT, GetByTO, L35-L64: the pointer found *)
Definition conn_get (m : cman) (k : ckey) : option nat :=
  match find_conn (cm_heap m) k (cm_table m) 0 with
  | Some (_, a) => Some a
  | None => None
  end.

(* CloseByID, CloseByOT, CloseByTO, L65-L115: false stands for the error *)
Definition conn_close (m : cman) (k : ckey) : cman * bool :=
  match find_conn (cm_heap m) k (cm_table m) 0 with
  | None => (m, false)
  | Some (i, a) =>
      let h := shut (cm_heap m) a in
      if Nat.eqb (length (cm_table m)) 1 then (CMan h [], true)
      else
        let t := put (cm_table m) i (last (cm_table m) O) in
        (CMan h (firstn (length t - 1) t), true)
  end.

(* One call on the manager.  The lock makes the calls of concurrent handlers
   happen one after the other. *)
Inductive cop :=
| OpAdd (id ot to rpi : Z) (path : list Z)   (* server.go L683, L757: Open: true *)
| OpGet (k : ckey)
| OpClose (k : ckey).

Inductive cout :=
| OutAdd (a : nat)
| OutGet (r : option nat)
| OutClose (ok : bool).

Definition cman_step (m : cman) (o : cop) : cman * cout :=
  match o with
  | OpAdd id ot to rpi path =>
      (conn_add m (SConn id ot to rpi path true), OutAdd (length (cm_heap m)))
  | OpGet k => (m, OutGet (conn_get m k))
  | OpClose k => let (m', ok) := conn_close m k in (m', OutClose ok)
  end.

Fixpoint cman_run (m : cman) (os : list cop) : cman * list cout :=
  match os with
  | [] => (m, [])
  | o :: os' =>
      let (m', r) := cman_step m o in
      let (m'', rs) := cman_run m' os' in
      (m'', r :: rs)
  end.
