(** * Goroutines, sessions and connections of one client

    RaceModel again, with the TCP connection a request goes out on, the session it
    names, and errors.  All requests are made by methods that call checkConnection
    (connect.go L547-559) first. *)
From Verif Require Import GoBase ConnModel.

(** How far the call of a goroutine has come.  [ALook], [AEnter]: as in RaceModel.
    [ADial]: before net.DialTimeout (connect.go L123-129).  [ARegister]: before
    the reply to RegisterSession (L131-134, L178-193).  [AOpen]: before the end of
    Connect (L136-169).  [ABuild]: before sendMsgBuild (sendreceive.go L80), which
    takes the session handle from the client (L177-191).  [ASend s]: the request is
    built, naming session [s]; before the mutex (L84).  [ADrop c]: the request failed
    on connection [c]; before startDisconnect (disconnect.go L8-27).  [AQuit]: the
    program has called Disconnect; before startDisconnect.  [AClose c]: in Disconnect
    behind that (L61-141). *)
Inductive act := AIdle | ALook | AEnter | ADial | ARegister | AOpen | ABuild | ASend (s : nat) | ADrop (c : nat) | AQuit | AClose (c : nat).
(** What happens: a request naming session [s] is sent on connection [c]; Disconnect
    ends connection [c] because of an error on connection [e], or because the program
    asked for it when [e] was the present connection; sendData or Close is
    called on the nil client.conn (sendreceive.go L58, disconnect.go L135). *)
Inductive happening := Sent (c s : nat) | Ended (c e : nat) | Crashed.
(** Status; client.conn ([None]: nil) and whether it is open; the session handle,
    which is the number of the connection it came from; connections dialled so far;
    the goroutines; what happened, last first. *)
Record crew := Crew { c_status : Z; c_conn : option nat; c_open : bool; c_session : nat; c_dialled : nat; c_acts : list act; c_log : list happening }.
(** (A crash ends the program; what the model does after one means nothing.) *)
(** Who goes on, whether a dial succeeds and whether a controller answers; whether
    a call that begins is Disconnect. *)
Record move := Move { m_who : nat; m_dial : bool; m_answer : bool; m_quit : bool }.

Definition to (t : nat) (a : act) (w : crew) : crew :=
  Crew (c_status w) (c_conn w) (c_open w) (c_session w) (c_dialled w) (set_nth t a (c_acts w)) (c_log w).
Definition status_to (st : Z) (w : crew) : crew := Crew st (c_conn w) (c_open w) (c_session w) (c_dialled w) (c_acts w) (c_log w).
Definition logged (e : happening) (w : crew) : crew := Crew (c_status w) (c_conn w) (c_open w) (c_session w) (c_dialled w) (c_acts w) (e :: c_log w).

Definition crew_step (w : crew) (m : move) : crew :=
  let t := m_who m in
  match nth_error (c_acts w) t with
  | None => w
  | Some AIdle => to t (if m_quit m then AQuit else ALook) w
  | Some ALook => to t (if c_status w =? connected then ABuild else AEnter) w
  | Some AEnter => match start_connect (c_status w) with Some st => to t ADial (status_to st w) | None => to t AIdle w end
  | Some ADial =>
      if m_dial m then Crew (c_status w) (Some (S (c_dialled w))) true (c_session w) (S (c_dialled w)) (set_nth t ARegister (c_acts w)) (c_log w)
      else Crew disconnected None false (c_session w) (c_dialled w) (set_nth t AIdle (c_acts w)) (c_log w)
  | Some ARegister =>
      if m_answer m then Crew (c_status w) (c_conn w) (c_open w) (match c_conn w with Some c => c | None => c_session w end) (c_dialled w) (set_nth t AOpen (c_acts w)) (c_log w)
      else to t AIdle (status_to disconnected w)
  | Some AOpen => if m_answer m then to t ABuild (status_to connected w) else to t AIdle (status_to disconnected w)
  | Some ABuild => to t (ASend (c_session w)) w
  | Some (ASend s) =>
      match c_conn w with
      | None => logged Crashed (to t AIdle w)
      | Some c =>
          if c_open w then logged (Sent c s) (to t (if m_answer m then AIdle else ADrop c) w)
          else to t (ADrop c) w
      end
  | Some (ADrop c) => match start_disconnect (c_status w) with Some st => to t (AClose c) (status_to st w) | None => to t AIdle w end
  | Some AQuit => match start_disconnect (c_status w) with Some st => to t (AClose (match c_conn w with Some c => c | None => 0 end)) (status_to st w) | None => to t AIdle w end
  | Some (AClose e) =>
      match c_conn w with
      | None => logged Crashed (to t AIdle (status_to disconnected w))
      | Some c => logged (Ended c e) (Crew disconnected (Some c) false (c_session w) (c_dialled w) (set_nth t AIdle (c_acts w)) (c_log w))
      end
  end.
Definition crew_run (w : crew) (ms : list move) : crew := fold_left crew_step ms w.
(** A new client and [n] goroutines. *)
Definition crew0 (n : nat) : crew := Crew disconnected None false 0 0 (repeat AIdle n) [].
