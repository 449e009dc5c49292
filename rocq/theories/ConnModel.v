(** * Goroutines sharing a client (client.go, connect.go, disconnect.go, sendreceive.go) *)
From Verif Require Import GoBase EipModel.

(** ** The connection status *)

(** client.go L14-21. *)
Definition disconnected := 0.   Definition connecting := 1.
Definition connected := 2.      Definition disconnecting := 3.

(** startConnect, connect.go L24-40, and startDisconnect, disconnect.go L8-27: the
    new status when the call is let through.  Both run under the mutex, so each is
    one step of the execution. *)
Definition start_connect (st : Z) : option Z :=
  if st =? connected then None
  else if st =? connecting then None
  else if st =? disconnecting then None
  else if st =? disconnected then Some connecting
  else None.
Definition start_disconnect (st : Z) : option Z :=
  if st =? disconnected then None
  else if st =? connecting then None
  else if st =? connected then Some disconnecting
  else if st =? disconnecting then None
  else Some disconnecting.

(** Calls in progress.  A request (send_recv_data, sendreceive.go L79-106) that
    fails calls Disconnect; so do failing requests inside Connect and Disconnect
    themselves.  [Enter]: before the entry check.  [Inside]: past it.  The status
    is set when the call leaves (the deferred functions, connect.go L76-87,
    disconnect.go L62-66, which also run on a panic). *)
Inductive phase := Enter | Inside.
Inductive call := CConnect (ph : phase) | CDisconnect (ph : phase) | CRequest.

(** A goroutine is its stack of calls, the innermost first; the client is the
    status and what has been returned so far ([true]: no error). *)
Record shared := Shared { sh_status : Z; sh_threads : list (list call); sh_returned : list (call * bool) }.

(** What a goroutine may do next.  The choices stand for the outcome of dialling,
    sending and receiving. *)
Inductive move :=
| MCall (c : call)      (* a goroutine with nothing to do calls one of the methods *)
| MEnter                (* the entry check of the innermost call *)
| MFail                 (* a request made by the innermost call fails: Disconnect is called *)
| MLeave (ok : bool).   (* the innermost call returns *)

Fixpoint set_nth {A} (n : nat) (x : A) (l : list A) : list A :=
  match l, n with
  | [], _ => []
  | _ :: r, O => x :: r
  | y :: r, S k => y :: set_nth k x r
  end.

Definition run_move (sh : shared) (t : nat) (m : move) : option shared :=
  match nth_error (sh_threads sh) t with
  | None => None
  | Some stack =>
      let put st stk ret := Some {| sh_status := st; sh_threads := set_nth t stk (sh_threads sh); sh_returned := sh_returned sh ++ ret |} in
      let st := sh_status sh in
      match m, stack with
      | MCall (CConnect Enter), [] => put st [CConnect Enter] []
      | MCall (CDisconnect Enter), [] => put st [CDisconnect Enter] []
      | MCall CRequest, [] => put st [CRequest] []
      | MEnter, CConnect Enter :: r =>
          match start_connect st with
          | Some st' => put st' (CConnect Inside :: r) []
          | None => put st r [(CConnect Enter, false)]
          end
      | MEnter, CDisconnect Enter :: r =>
          match start_disconnect st with
          | Some st' => put st' (CDisconnect Inside :: r) []
          | None => put st r [(CDisconnect Enter, false)]
          end
      | MFail, CConnect Inside :: _ => put st (CDisconnect Enter :: stack) []
      | MFail, CDisconnect Inside :: _ => put st (CDisconnect Enter :: stack) []
      | MFail, CRequest :: _ => put st (CDisconnect Enter :: stack) []
      | MLeave ok, CConnect Inside :: r => put (if ok then connected else disconnected) r [(CConnect Inside, ok)]
      | MLeave ok, CDisconnect Inside :: r => put disconnected r [(CDisconnect Inside, ok)]
      | MLeave ok, CRequest :: r => put st r [(CRequest, ok)]
      | _, _ => None
      end
  end.

Fixpoint run_moves (sh : shared) (ms : list (nat * move)) : option shared :=
  match ms with
  | [] => Some sh
  | (t, m) :: r => match run_move sh t m with Some sh' => run_moves sh' r | None => None end
  end.

Definition shared0 (n : nat) : shared := {| sh_status := disconnected; sh_threads := repeat [] n; sh_returned := [] |}.

(** ** Requests sharing the socket *)

(** A goroutine in send_recv_data, sendreceive.go L79-106: [Wants] has built its
    frame and waits for the mutex; [Sends] holds it and has part of the frame
    still to write (sendData); [Reads] has read part of the reply (recvData). *)
Inductive pc :=
| Idle
| Wants (f : bytes)
| Sends (f rest : bytes)
| Reads (f got : bytes).

(** The client's side of the socket, the pipes, and a controller which reads a
    frame at a time and answers it.  [n_served]: requests and answers at the
    controller, in order.  [n_done]: goroutine, request and reply of the calls
    that returned. *)
Record net (S : Type) := Net {
  n_pcs : nat -> pc; n_mutex : option nat;
  n_up : bytes; n_down : bytes;
  n_in : bytes; n_out : bytes; n_state : S;
  n_served : list (bytes * bytes); n_done : list (nat * bytes * bytes) }.
Arguments Net {S}. Arguments n_pcs {S}. Arguments n_mutex {S}. Arguments n_up {S}. Arguments n_down {S}.
Arguments n_in {S}. Arguments n_out {S}. Arguments n_state {S}. Arguments n_served {S}. Arguments n_done {S}.

Definition set_pc (pcs : nat -> pc) (t : nat) (p : pc) : nat -> pc :=
  fun u => if (u =? t)%nat then p else pcs u.

(** How many bytes recvData still asks the socket for after [got]. *)
Definition wants_more (got : bytes) : nat :=
  if (List.length got <? 24)%nat then (24 - List.length got)%nat
  else (24 + Z.to_nat (eh_length (header_of (firstn 24 got))) - List.length got)%nat.
Definition complete (got : bytes) : bool := (24 <=? List.length got)%nat && (wants_more got =? 0)%nat.

Inductive act :=
| ACall (t : nat) (f : bytes)   (* a goroutine starts a request *)
| ALock (t : nat)
| AWrite (t : nat) (k : nat)    (* the socket takes up to k bytes *)
| ASent (t : nat)               (* sendData returns *)
| ARead (t : nat) (k : nat)     (* the socket delivers up to k bytes *)
| AReturn (t : nat)             (* recvData returns; Unlock *)
| ATimeout (t : nat)            (* recvData fails; Unlock (L96-99) *)
| CTake (k : nat)               (* the controller's end gets up to k bytes *)
| CServe                        (* the controller has a whole frame and answers it *)
| CGive (k : nat).              (* up to k bytes of answers travel to the client *)

(** The reply is whatever the controller answers: a frame. *)
Definition service (S : Type) := S -> bytes -> bytes * S.

Definition run_act {S} (sv : service S) (n : net S) (a : act) : option (net S) :=
  let pcs := n_pcs n in
  match a with
  | ACall t f =>
      match pcs t with
      | Idle => Some (Net (set_pc pcs t (Wants f)) (n_mutex n) (n_up n) (n_down n) (n_in n) (n_out n) (n_state n) (n_served n) (n_done n))
      | _ => None
      end
  | ALock t =>
      match pcs t, n_mutex n with
      | Wants f, None => Some (Net (set_pc pcs t (Sends f f)) (Some t) (n_up n) (n_down n) (n_in n) (n_out n) (n_state n) (n_served n) (n_done n))
      | _, _ => None
      end
  | AWrite t k =>
      match pcs t with
      | Sends f rest => Some (Net (set_pc pcs t (Sends f (skipn k rest))) (n_mutex n) (n_up n ++ firstn k rest) (n_down n) (n_in n) (n_out n) (n_state n) (n_served n) (n_done n))
      | _ => None
      end
  | ASent t =>
      match pcs t with
      | Sends f [] => Some (Net (set_pc pcs t (Reads f [])) (n_mutex n) (n_up n) (n_down n) (n_in n) (n_out n) (n_state n) (n_served n) (n_done n))
      | _ => None
      end
  | ARead t k =>
      match pcs t with
      | Reads f got =>
          let k := Nat.min k (wants_more got) in
          Some (Net (set_pc pcs t (Reads f (got ++ firstn k (n_down n)))) (n_mutex n) (n_up n) (skipn k (n_down n)) (n_in n) (n_out n) (n_state n) (n_served n) (n_done n))
      | _ => None
      end
  | AReturn t =>
      match pcs t with
      | Reads f got =>
          if complete got
          then Some (Net (set_pc pcs t Idle) None (n_up n) (n_down n) (n_in n) (n_out n) (n_state n) (n_served n) (n_done n ++ [(t, f, got)]))
          else None
      | _ => None
      end
  | ATimeout t =>
      match pcs t with
      | Reads f got => Some (Net (set_pc pcs t Idle) None (n_up n) (n_down n) (n_in n) (n_out n) (n_state n) (n_served n) (n_done n))
      | _ => None
      end
  | CTake k => Some (Net pcs (n_mutex n) (skipn k (n_up n)) (n_down n) (n_in n ++ firstn k (n_up n)) (n_out n) (n_state n) (n_served n) (n_done n))
  | CServe =>
      (* the first frame of what has arrived, if it is whole *)
      let size := (24 + Z.to_nat (eh_length (header_of (firstn 24 (n_in n)))))%nat in
      if (24 <=? List.length (n_in n))%nat && (size <=? List.length (n_in n))%nat then
        let f := firstn size (n_in n) in
        let '(r, s') := sv (n_state n) f in
        Some (Net pcs (n_mutex n) (n_up n) (n_down n) (skipn size (n_in n)) (n_out n ++ r) s' (n_served n ++ [(f, r)]) (n_done n))
      else None
  | CGive k => Some (Net pcs (n_mutex n) (n_up n) (n_down n ++ firstn k (n_out n)) (n_in n) (skipn k (n_out n)) (n_state n) (n_served n) (n_done n))
  end.

Fixpoint run_acts {S} (sv : service S) (n : net S) (l : list act) : option (net S) :=
  match l with
  | [] => Some n
  | a :: r => match run_act sv n a with Some n' => run_acts sv n' r | None => None end
  end.

Definition net0 {S} (s : S) : net S := Net (fun _ => Idle) None [] [] [] [] s [] [].

(** ** Sequence counts *)

(** sequencer() (client.go L33-35) adds one to a uint32 shared by the process;
    every request takes its low 16 bits, except GetAttrList (getattr.go L256),
    which uses the client's own counter.  A goroutine's draw is one atomic step,
    so a run is the sequence of draws. *)
Inductive draw := FromProcess | FromClient.
Definition draw_count (st : Z * Z) (d : draw) : Z * (Z * Z) :=
  let '(p, c) := st in
  match d with
  | FromProcess => let p' := (p + 1) mod 2 ^ 32 in (p' mod 65536, (p', c))
  | FromClient => let c' := (c + 1) mod 2 ^ 32 in (c' mod 65536, (p, c'))
  end.
Fixpoint draw_counts (st : Z * Z) (ds : list draw) : list Z :=
  match ds with
  | [] => []
  | d :: r => let '(z, st') := draw_count st d in z :: draw_counts st' r
  end.
