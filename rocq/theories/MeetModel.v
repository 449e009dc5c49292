(** * A client of this library opening and closing its connection to the
      built-in server *)
From Verif Require Import GoBase EipModel OpenModel SrvModel.

(** send_recv_data (sendreceive.go L101-126) over an open TCP connection to the
    server: the server's handler and shared state, and the client's SessionHandle,
    which registerSession takes from the reply (connect.go L189).  As LinkModel's
    [call]: no reply is an error. *)
Definition served (context : Z) : OpenModel.peer (server * handler * Z) := fun st cmd d =>
  let '(sh, session) := st in
  let '(r, w) := serve_one (World (fst sh) (snd sh) (send_msg_build session context cmd [d]) []) in
  let sh1 := (w_srv w, w_h w) in
  match r with
  | Panic => (Err EMsg, (sh1, session))
  | OutOfFuel => (OutOfFuel, (sh1, session))
  | _ => match fst (recv_data (w_sent w)) with
         | Ok (h, x) => (Ok (h, x), (sh1, if cmd =? cmd_register then eh_session h else session))
         | Err e => (Err e, (sh1, session))
         | Panic => (Panic, (sh1, session))
         | OutOfFuel => (OutOfFuel, (sh1, session))
         end
  end.

(** Disconnect, disconnect.go L55-146, after startDisconnect: an error in sending
    the request or in the reply is only logged. *)
Definition disconnect {S} (p : OpenModel.peer S) (s : S) (c : session) : res unit * S :=
  match p s cmd_rrdata (close_payload c) with
  | (Ok (h, d), s1) => (match parse_response h d with Panic => Panic | OutOfFuel => OutOfFuel | _ => Ok tt end, s1)
  | (Err _, s1) => (Ok tt, s1)
  | (Panic, s1) => (Panic, s1)
  | (OutOfFuel, s1) => (OutOfFuel, s1)
  end.
