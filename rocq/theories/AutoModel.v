(** * A client with AutoConnect and the TCP connection to the built-in server

    LinkModel gives every request a TCP connection of its own.  Here the server
    ends the TCP connection when a request fails (serve, server.go L209-247), and
    the client notices at its next request. *)
From Verif Require Import GoBase IoiModel TypesModel ReadModel WriteModel EipModel OpenModel SrvModel MeetModel.

(** Server and handler; whether the server still serves this TCP connection;
    whether the client holds itself connected (connStatus). *)
Record wire := Wire { wr_sh : server * handler; wr_tcp : bool; wr_up : bool }.

(** Disconnect called by send_recv_data (sendreceive.go L87-104) when no reply
    came: the close request reaches the server if that still listens; the client
    is disconnected whatever comes of it. *)
Definition gives_up (c : session) (sh : server * handler) (tcp : bool) : wire :=
  Wire (if tcp then fst (snd (disconnect (served (s_context c)) (sh, s_handle c) c)) else sh) false false.

(** send_recv_data, sendreceive.go L79-106, of a connected request.  Over a TCP
    connection the server has ended nothing comes back.  A client that gave up
    during a call has a closed socket for the rest of it.  (After a panic the
    server is gone; a model of a client of it would end here.) *)
Definition over_wire (c : session) : controller wire := fun x req =>
  if negb (wr_up x) then (Err EMsg, x)
  else if negb (wr_tcp x) then (Err EMsg, gives_up c (wr_sh x) false)
  else
  let '(r, w) := serve_one (World (fst (wr_sh x)) (snd (wr_sh x)) (send_msg_build (s_handle c) (s_context c) cmd_unitdata [req]) []) in
  let sh := (w_srv w, w_h w) in
  let tcp := match r with Ok _ => true | _ => false end in
  match r with
  | Panic => (Err EMsg, Wire sh false false)
  | OutOfFuel => (OutOfFuel, Wire sh false false)
  | _ => match fst (recv_data (w_sent w)) with
         | Ok (h, d) => (Ok (eh_status h, d), Wire sh tcp true)
         | Err e => (Err e, gives_up c sh tcp)
         | Panic => (Panic, Wire sh tcp true)
         | OutOfFuel => (OutOfFuel, Wire sh tcp true)
         end
  end.

(** The client and the wire. *)
Record auto := Auto { a_session : session; a_wire : wire }.
(** checkConnection with AutoConnect, connect.go L547-559: a client that is not
    connected dials, and the server makes a new handler.  [now]: the time. *)
Definition auto_check (now : Z) (a : auto) : res unit * auto :=
  if wr_up (a_wire a) then (Ok tt, a) else
  let c := a_session a in
  match OpenModel.connect (served (s_context c)) ((fst (wr_sh (a_wire a)), handler_new), s_handle c) now c with
  | (Ok _, c1, (sh, _)) => (Ok tt, Auto c1 (Wire sh true true))
  | (r, c1, (sh, _)) => (r, Auto c1 (Wire sh false false))
  end.
(** Read of a scalar, read.go L38-124, firmware and path known ([cl]). *)
Definition auto_read (fuel : nat) (cl : client) (now q : Z) (tag : bytes) (k : gokind) (a : auto) : res gval * auto :=
  match auto_check now a with
  | (Ok _, a1) =>
      let '(r, x, _) := client_read fuel (over_wire (a_session a1)) cl (a_wire a1) (s_otid (a_session a1)) q tag k in
      (r, Auto (a_session a1) x)
  | (Err e, a1) => (Err e, a1)
  | (Panic, a1) => (Panic, a1)
  | (OutOfFuel, a1) => (OutOfFuel, a1)
  end.
(** Write of a number, text or slice of numbers, write.go L101-111 and L221-307;
    name known. *)
Definition auto_write (cl : client) (now q : Z) (tag : bytes) (v : wvalue) (a : auto) : res unit * auto :=
  match auto_check now a with
  | (Ok _, a1) =>
      let '(r, x, _) := write_single (over_wire (a_session a1)) cl (a_wire a1) (s_otid (a_session a1)) q tag v in
      (r, Auto (a_session a1) x)
  | (Err e, a1) => (Err e, a1)
  | (Panic, a1) => (Panic, a1)
  | (OutOfFuel, a1) => (OutOfFuel, a1)
  end.
(** Read into a slice of numbers, read.go L38-42 and L152-288. *)
Definition auto_read_slice (fuel : nat) (cl : client) (now q : Z) (tag : bytes) (k : gokind) (n : Z) (a : auto) : res (list gval) * auto :=
  match auto_check now a with
  | (Ok _, a1) =>
      let '(r, x, _) := client_read_slice fuel (over_wire (a_session a1)) cl (a_wire a1) (s_otid (a_session a1)) q tag k n in
      (r, Auto (a_session a1) x)
  | (Err e, a1) => (Err e, a1)
  | (Panic, a1) => (Panic, a1)
  | (OutOfFuel, a1) => (OutOfFuel, a1)
  end.
