(** * The keep-alive (connect.go L195-272, disconnect.go L55-71, L142-151) *)
From Verif Require Import GoBase ItemsModel ConnModel.

(** ** KeepAlive among the goroutines that share a client

    As ConnModel's [shared], with the fields KeepAlive, Disconnect and
    KeepAliveCancel share: KeepAliveAutoStart, keepAliveRunning and
    cancel_keepalive, which no lock protects.  They are read and written one at a
    time here; what the Go memory model allows beyond that is left out.  Channels
    are numbered in the order they are made. *)
Inductive job :=
| Connect1          (* before startConnect *)
| Connect2          (* dialling, registering, opening *)
| Connect3          (* before the deferred function: connect.go L82-86 *)
| Disc1             (* before startDisconnect *)
| Disc2             (* before "if client.keepAliveRunning", disconnect.go L68 *)
| Disc3             (* before close(client.cancel_keepalive), L69 *)
| Disc4             (* the rest, up to the deferred function *)
| Cancel1 (force : bool) | Cancel2   (* KeepAliveCancel, L147 and L150 *)
| Request           (* any other method: its requests *)
| Keep1             (* KeepAlive before L196 *)
| Keep2             (* before make(chan struct{}), L204 *)
| Keep3             (* before keepAliveRunning = true, L205 *)
| Keep4             (* the first GetAttrList and ListAllTags, L208-224 *)
| KeepSel           (* entering the select, L229 *)
| KeepWait (c : option nat)   (* in it, with the channel evaluated *)
| KeepTick          (* after a tick: Connected(), L231 *)
| KeepAsk           (* GetAttrList and ListAllTags, L236-265 *)
| KeepEnd.          (* before the deferred keepAliveRunning = false, L206 *)

Record kstate := KState {
  k_status : Z; k_auto : bool; k_running : bool; k_chan : option nat; k_closed : list nat; k_next : nat;
  k_threads : list (list job);
  k_down : bool }.            (* a panic has ended the program *)

(** What may happen next in a goroutine. *)
Inductive kmove :=
| MCall (j : job)   (* a method is called *)
| MGo               (* the next statement *)
| MOk | MErr        (* the outcome of the requests of the statement *)
| MFail             (* a request fails in the socket: Disconnect is called (sendreceive.go L89, L99) *)
| MTick             (* the ticker's case of the select *)
| MQuit.            (* ListAllTags failed in the loop, L253-256 *)

Definition starts (j : job) : bool :=
  match j with Connect1 | Disc1 | Cancel1 _ | Request | Keep1 => true | _ => false end.
(** close(client.cancel_keepalive): panics on a nil and on a closed channel. *)
Definition can_close (s : kstate) : bool :=
  match k_chan s with Some c => negb (existsb (Nat.eqb c) (k_closed s)) | None => false end.
Definition close_chan (s : kstate) : kstate :=
  match k_chan s with
  | Some c => KState (k_status s) (k_auto s) (k_running s) (k_chan s) (c :: k_closed s) (k_next s) (k_threads s) (k_down s)
  | None => s
  end.
Definition crash (s : kstate) : kstate :=
  KState (k_status s) (k_auto s) (k_running s) (k_chan s) (k_closed s) (k_next s) (k_threads s) true.
Definition set_stack (s : kstate) (t : nat) (stk : list job) : kstate :=
  KState (k_status s) (k_auto s) (k_running s) (k_chan s) (k_closed s) (k_next s) (set_nth t stk (k_threads s)) (k_down s).
Definition set_status (s : kstate) (z : Z) : kstate :=
  KState z (k_auto s) (k_running s) (k_chan s) (k_closed s) (k_next s) (k_threads s) (k_down s).
Definition set_running (s : kstate) (b : bool) : kstate :=
  KState (k_status s) (k_auto s) b (k_chan s) (k_closed s) (k_next s) (k_threads s) (k_down s).
Definition set_auto (s : kstate) (b : bool) : kstate :=
  KState (k_status s) b (k_running s) (k_chan s) (k_closed s) (k_next s) (k_threads s) (k_down s).
Definition make_chan (s : kstate) : kstate :=
  KState (k_status s) (k_auto s) (k_running s) (Some (k_next s)) (k_closed s) (S (k_next s)) (k_threads s) (k_down s).
(** go client.KeepAlive(), connect.go L166-168 *)
Definition spawn (s : kstate) : kstate :=
  if k_auto s then KState (k_status s) (k_auto s) (k_running s) (k_chan s) (k_closed s) (k_next s) (k_threads s ++ [[Keep1]]) (k_down s) else s.

Definition keep_move (s : kstate) (t : nat) (m : kmove) : option kstate :=
  if k_down s then None else
  match nth_error (k_threads s) t with
  | None => None
  | Some stack =>
      match m, stack with
      | MCall j, [] => if starts j then Some (set_stack s t [j]) else None
      | MGo, Connect1 :: r =>
          match start_connect (k_status s) with
          | Some st => Some (set_status (set_stack s t (Connect2 :: r)) st)
          | None => Some (set_stack s t r)
          end
      | MOk, Connect2 :: r => Some (spawn (set_stack s t (Connect3 :: r)))
      | MErr, Connect2 :: r => Some (set_status (set_stack s t r) disconnected)
      | MGo, Connect3 :: r => Some (set_status (set_stack s t r) connected)
      | MGo, Disc1 :: r =>
          match start_disconnect (k_status s) with
          | Some st => Some (set_status (set_stack s t (Disc2 :: r)) st)
          | None => Some (set_stack s t r)
          end
      | MGo, Disc2 :: r => Some (set_stack s t ((if k_running s then Disc3 else Disc4) :: r))
      | MGo, Disc3 :: r => Some (if can_close s then close_chan (set_stack s t (Disc4 :: r)) else crash s)
      | MGo, Disc4 :: r => Some (set_status (set_stack s t r) disconnected)
      | MGo, Cancel1 force :: r => Some (set_stack s t (if k_auto s && negb force then r else Cancel2 :: r))
      | MGo, Cancel2 :: r => Some (if can_close s then close_chan (set_stack s t r) else crash s)
      | MGo, Request :: r => Some (set_stack s t r)
      | MGo, Keep1 :: r => Some (set_stack s t (if k_auto s then Keep2 :: r else r))
      | MGo, Keep2 :: r => Some (make_chan (set_stack s t (Keep3 :: r)))
      | MGo, Keep3 :: r => Some (set_running (set_stack s t (Keep4 :: r)) true)
      | MOk, Keep4 :: r => Some (set_stack s t (KeepSel :: r))
      | MErr, Keep4 :: r => Some (set_stack s t (KeepEnd :: r))
      | MGo, KeepSel :: r => Some (set_stack s t (KeepWait (k_chan s) :: r))
      | MTick, KeepWait _ :: r => Some (set_stack s t (KeepTick :: r))
      | MGo, KeepWait (Some c) :: r =>
          if existsb (Nat.eqb c) (k_closed s) then Some (set_auto (set_stack s t (KeepEnd :: r)) false) else None
      | MGo, KeepTick :: r => Some (set_stack s t ((if k_status s =? connected then KeepAsk else KeepEnd) :: r))
      | MOk, KeepAsk :: r => Some (set_stack s t (KeepSel :: r))
      | MErr, KeepAsk :: r => Some (set_stack s t (Disc1 :: KeepEnd :: r))
      | MQuit, KeepAsk :: r => Some (set_stack s t (KeepEnd :: r))
      | MGo, KeepEnd :: r => Some (set_running (set_stack s t r) false)
      | MFail, Connect2 :: _ | MFail, Disc4 :: _ | MFail, Request :: _ | MFail, Keep4 :: _ | MFail, KeepAsk :: _ =>
          Some (set_stack s t (Disc1 :: stack))
      | _, _ => None
      end
  end.
Fixpoint keep_run (s : kstate) (ms : list (nat * kmove)) : option kstate :=
  match ms with
  | [] => Some s
  | (t, m) :: r => match keep_move s t m with Some s1 => keep_run s1 r | None => None end
  end.
(** A client as NewClient makes it, with KeepAliveAutoStart set or not, used by [n]
    goroutines. *)
Definition keep0 (auto : bool) (n : nat) : kstate := KState disconnected auto false None [] 0 (repeat [] n) false.

(** ** What KeepAlive does while it runs, L208-271

    [ask] is GetAttrList of the properties, [relist] ListAllTags(0), [poll]
    KeepAlivePollTags; [ticks] what Connected() says at each tick, until
    cancel_keepalive is closed or the program ends. *)
Inductive kact := Asked (r : res bytes) | Relisted (r : res unit) | Disconnects.
Definition rest_of (it : item) : bytes := skipn (Z.to_nat (it_pos it)) (it_data it).
Definition seen (r : res item) : res bytes := let* it := r in Ok (rest_of it).

Fixpoint keep_loop {S} (ask : S -> res item * S) (relist : S -> res unit * S) (poll : bool) (ticks : list bool) (orig : item) (s : S) : list kact * S :=
  match ticks with
  | [] => ([], s)
  | false :: _ => ([], s)
  | true :: ticks' =>
      match ask s with
      | (Ok new, s1) =>
          let '(l, s2) :=
            if bseq (rest_of new) (rest_of orig) then keep_loop ask relist poll ticks' orig s1
            else if poll then
              match relist s1 with
              | (Ok u, s2) => let '(l, s3) := keep_loop ask relist poll ticks' new s2 in (Relisted (Ok u) :: l, s3)
              | (r, s2) => ([Relisted r], s2)
              end
            else keep_loop ask relist poll ticks' new s1 in
          (Asked (Ok (rest_of new)) :: l, s2)
      | (Err e, s1) => ([Asked (Err e); Disconnects], s1)
      | (r, s1) => ([Asked (seen r)], s1)
      end
  end.
Definition keep_alive {S} (ask : S -> res item * S) (relist : S -> res unit * S) (poll : bool) (ticks : list bool) (s : S) : list kact * S :=
  match ask s with
  | (Ok orig, s1) =>
      let '(l, s2) :=
        if poll then
          match relist s1 with
          | (Ok u, s2) => let '(l, s3) := keep_loop ask relist poll ticks orig s2 in (Relisted (Ok u) :: l, s3)
          | (r, s2) => ([Relisted r], s2)
          end
        else keep_loop ask relist poll ticks orig s1 in
      (Asked (Ok (rest_of orig)) :: l, s2)
  | (r, s1) => ([Asked (seen r)], s1)
  end.
