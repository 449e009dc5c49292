(** * A client's connection over its life (connect.go, disconnect.go, sendreceive.go) *)
From Verif Require Import GoBase ConnModel.

(** Calls are made one after the other, without the keep-alive (KeepModel).  What
    the network does at each moment: whether dialling works, and what becomes of a
    request: no reply or a failing socket, a reply with an error in it, a good
    reply.  (Replies that crash the client are the business of C55.) *)
Inductive reply := Lost | Refused | Fine.
Record fate := Fate { f_dial : bool; f_reply : reply }.

(** What can be seen from outside, the latest first: a socket opened, a connection
    granted on it, a request sent, the socket closed; a dial in vain. *)
Inductive event := Dialled (k : nat) | InVain | Granted (k : nat) | Sent (k : nat) | Closed (k : nat).

(** The client: connStatus; conn (None: nil) as the number of the dialled socket;
    the sockets dialled so far; whether ConnectionSize asks for a large connection;
    whether the firmware version is known; whether the mutex has been left locked;
    AutoConnect; the time.  client.go L49-109. *)
Record life := Life { l_status : Z; l_conn : option nat; l_next : nat; l_large : bool; l_known : bool;
  l_locked : bool; l_auto : bool; l_clock : nat; l_log : list event }.
Definition set_status (w : life) (st : Z) : life :=
  Life st (l_conn w) (l_next w) (l_large w) (l_known w) (l_locked w) (l_auto w) (l_clock w) (l_log w).
Definition see (w : life) (e : event) : life :=
  Life (l_status w) (l_conn w) (l_next w) (l_large w) (l_known w) (l_locked w) (l_auto w) (l_clock w) (e :: l_log w).
Definition tick (w : life) : life :=
  Life (l_status w) (l_conn w) (l_next w) (l_large w) (l_known w) (l_locked w) (l_auto w) (S (l_clock w)) (l_log w).

(** NewClient, client.go L139-170, for an AutoConnect of one's own. *)
Definition life0 (auto : bool) : life := Life disconnected None 0 true false false auto 0 [].

(** A call returns without an error or with one, panics, or never returns. *)
Inductive ends A := Returns (a : A) | Crashes | Hangs.
Arguments Returns {A}. Arguments Crashes {A}. Arguments Hangs {A}.

Definition is_closed (w : life) (k : nat) : bool :=
  existsb (fun e => match e with Closed j => (j =? k)%nat | _ => false end) (l_log w).
(** send_recv_data up to the reply, sendreceive.go L79-97: with no connection at
    all, SetWriteDeadline is called on a nil interface while the mutex is held; on
    a closed one it fails. *)
Definition ask (fs : nat -> fate) (w : life) : ends reply * life :=
  if l_locked w then (Hangs, w) else
  match l_conn w with
  | None => (Crashes, Life (l_status w) None (l_next w) (l_large w) (l_known w) true (l_auto w) (l_clock w) (l_log w))
  | Some k =>
      if is_closed w k then (Returns Lost, w)
      else (Returns (f_reply (fs (l_clock w))), tick (see w (Sent k)))
  end.
(** Disconnect, disconnect.go L54-141.  The outcome of the close request is only
    logged; if it fails, send_recv_data calls Disconnect once more, which finds the
    client disconnecting and gives up.  The deferred function takes the mutex, so
    that a panic would not get past it. *)
Definition disconnect (fs : nat -> fate) (w : life) : ends bool * life :=
  if l_locked w then (Hangs, w) else
  match start_disconnect (l_status w) with
  | None => (Returns false, w)
  | Some st =>
      match ask fs (set_status w st) with
      | (Returns _, w1) =>
          let w2 := match l_conn w1 with Some k => see w1 (Closed k) | None => w1 end in
          (Returns true, set_status w2 disconnected)
      | (_, w1) => (Hangs, w1)
      end
  end.
(** send_recv_data, sendreceive.go L79-106. *)
Definition exchange (fs : nat -> fate) (w : life) : ends reply * life :=
  match ask fs w with
  | (Returns Lost, w1) =>
      match disconnect fs w1 with
      | (Returns _, w2) => (Returns Lost, w2)
      | (Crashes, w2) => (Crashes, w2)
      | (Hangs, w2) => (Hangs, w2)
      end
  | x => x
  end.

(** Connect from the open requests on, connect.go L140-165: the large one, and the
    standard one if that fails or was asked for. *)
Definition open_standard (fs : nat -> fate) (w : life) : ends bool * life :=
  match exchange fs w with
  | (Returns Fine, w1) => (Returns true, w1)
  | (Returns _, w1) => (Returns false, w1)
  | (Crashes, w1) => (Crashes, w1)
  | (Hangs, w1) => (Hangs, w1)
  end.
Definition open_any (fs : nat -> fate) (w : life) : ends bool * life :=
  if l_large w then
    match exchange fs w with
    | (Returns Fine, w1) => (Returns true, w1)
    | (Returns _, w1) =>
        open_standard fs (Life (l_status w1) (l_conn w1) (l_next w1) false (l_known w1) (l_locked w1) (l_auto w1) (l_clock w1) (l_log w1))
    | (Crashes, w1) => (Crashes, w1)
    | (Hangs, w1) => (Hangs, w1)
    end
  else open_standard fs w.
(** Connect, connect.go L70-170.  registerSession (L178-193) looks at no status.
    A failed dial leaves conn nil (L129).  As with Disconnect, no panic gets past
    the deferred function when the mutex is held. *)
Definition connect (fs : nat -> fate) (w : life) : ends bool * life :=
  if l_locked w then (Hangs, w) else
  match start_connect (l_status w) with
  | None => (Returns false, w)
  | Some st =>
      let w := set_status w st in
      if f_dial (fs (l_clock w)) then
        let k := l_next w in
        let w1 := tick (see (Life (l_status w) (Some k) (S k) (l_large w) (l_known w) (l_locked w) (l_auto w) (l_clock w) (l_log w)) (Dialled k)) in
        match exchange fs w1 with
        | (Returns Lost, w2) => (Returns false, set_status w2 disconnected)
        | (Returns _, w2) =>
            match open_any fs w2 with
            | (Returns true, w3) => (Returns true, set_status (see w3 (Granted k)) connected)
            | (Returns false, w3) => (Returns false, set_status w3 disconnected)
            | (_, w3) => (Hangs, w3)
            end
        | (_, w2) => (Hangs, w2)
        end
      else (Returns false, tick (see (Life disconnected None (l_next w) (l_large w) (l_known w) (l_locked w) (l_auto w) (l_clock w) (l_log w)) InVain))
  end.
(** checkConnection, connect.go L547-559. *)
Definition check (fs : nat -> fate) (w : life) : ends bool * life :=
  if l_locked w then (Hangs, w)
  else if l_status w =? connected then (Returns true, w)
  else if l_auto w then connect fs w else (Returns false, w).

(** ** The other methods, as far as they use the connection *)

(** [Ask]: a request; [Check]: checkConnection; [Known]: knownFirmware looked up;
    [Learn]: knownFirmware set; [Done]: the method returns, [false] with an error. *)
Inductive prog :=
| Done (ok : bool)
| Ask (k : reply -> prog)
| Check (k : bool -> prog)
| Known (k : bool -> prog)
| Learn (p : prog).
Fixpoint run (fs : nat -> fate) (p : prog) (w : life) : ends bool * life :=
  match p with
  | Done ok => (Returns ok, w)
  | Ask k => match exchange fs w with
             | (Returns r, w1) => run fs (k r) w1
             | (Crashes, w1) => (Crashes, w1) | (Hangs, w1) => (Hangs, w1)
             end
  | Check k => match check fs w with
               | (Returns b, w1) => run fs (k b) w1
               | (Crashes, w1) => (Crashes, w1) | (Hangs, w1) => (Hangs, w1)
               end
  | Known k => run fs (k (l_known w)) w
  | Learn p => run fs p (Life (l_status w) (l_conn w) (l_next w) (l_large w) true (l_locked w) (l_auto w) (l_clock w) (l_log w))
  end.

(** A method that begins with checkConnection. *)
Definition guarded (p : prog) : prog := Check (fun ok => if ok then p else Done false).
(** Requests one after the other until one fails. *)
Fixpoint asks (n : nat) : prog :=
  match n with
  | O => Done true
  | S n => Ask (fun r => match r with Fine => asks n | _ => Done false end)
  end.
(** newIOI, ioi.go L107-120, of a well-formed name: firmware() (client.go L239-258)
    asks for the version by GetAttrSingle as long as it is not known, and treats an
    error as version 0. *)
Definition new_ioi (p : prog) : prog :=
  Known (fun yes => if yes then p else
    Check (fun ok => if ok then Ask (fun r => match r with Fine => Learn p | _ => p end) else p)).
Fixpoint iois (n : nat) (p : prog) : prog := match n with O => p | S n => new_ioi (iois n p) end.
(** GetAttrSingle, getattr.go L101-203, and the DataTable methods, datatable.go
    L138-300: one request. *)
Definition get_attr_single : prog := guarded (asks 1).
(** Read_single, read.go L401-470: a request, and [n] more for the fragments. *)
Definition read_single_life (n : nat) : prog := guarded (new_ioi (asks (S n))).
(** Read, read.go L38-394. *)
Definition read_life (n : nat) : prog := guarded (read_single_life n).
(** Write, write.go L101-114. *)
Definition write_life : prog := guarded (new_ioi (asks 1)).
(** ReadList, partialread.go L49-89, and ReadMap, read.go L1108-1157: for every
    message countIOIsThatFit builds some paths and readList builds those that fit
    again. *)
Fixpoint batches (l : list (nat * nat)) : prog :=
  match l with
  | [] => Done true
  | (looked, fit) :: r => iois (looked + fit) (Ask (fun x => match x with Fine => batches r | _ => Done false end))
  end.
Definition read_map_life (l : list (nat * nat)) : prog := guarded (batches l).
(** ReadMulti, read.go L704-768: all the tags in one message. *)
Definition read_multi_life (n : nat) : prog := guarded (iois n (asks 1)).
(** WriteMap, udt_write.go L127-220, and WriteMulti, write.go L49-63. *)
Definition write_map_life (n : nat) : prog := iois n (asks 1).
Definition write_multi_life (n : nat) : prog := guarded (write_map_life n).
(** The methods without checkConnection: ListAllTags, ListAllPrograms, ListSubTags,
    ListMembers, GetTemplateInstanceAttr, GetAttrList, GetControllerPropList,
    GenericCIPMessage, ListIdentity, ListServices. *)
Definition list_life (n : nat) : prog := asks (S n).

(** ** A program using a client *)
Inductive op := OConnect | ODisconnect | OAuto (on : bool) | OCall (p : prog).
Definition do_op (fs : nat -> fate) (o : op) (w : life) : ends bool * life :=
  match o with
  | OConnect => connect fs w
  | ODisconnect => disconnect fs w
  | OAuto on => (Returns true, Life (l_status w) (l_conn w) (l_next w) (l_large w) (l_known w) (l_locked w) on (l_clock w) (l_log w))
  | OCall p => run fs p w
  end.
(** The client after some calls (panics recovered from). *)
Fixpoint after (fs : nat -> fate) (os : list op) (w : life) : life :=
  match os with [] => w | o :: r => after fs r (snd (do_op fs o w)) end.
