(** * A client of this library talking to its built-in server

    One request over an open TCP connection: the client frames it (sendMsgBuild,
    sendreceive.go L20-47), the server's loop takes the frame and handles it
    (server.go L202-249), the client reads a frame back (recvData).  No reply
    means the client's read fails, by its deadline or because the server closed
    the connection. *)
From Verif Require Import GoBase EipModel OpenModel ReadModel SrvModel.

Definition call (session context cmd : Z) (parts : list bytes) (sh : server * handler) : res (Z * bytes) * (server * handler) :=
  let '(r, w) := serve_one (World (fst sh) (snd sh) (send_msg_build session context cmd parts) []) in
  (match r with
   | Panic => Err EMsg
   | OutOfFuel => OutOfFuel
   | _ => let* (h, d) := fst (recv_data (w_sent w)) in Ok (eh_status h, d)
   end, (w_srv w, w_h w)).
(** Over an open CIP connection. *)
Definition link (session context : Z) : controller (server * handler) := fun sh req => call session context cmd_unitdata [req] sh.
