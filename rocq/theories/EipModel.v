(** * EtherNet/IP frames on a TCP connection (sendreceive.go, server.go) *)
From Verif Require Import GoBase.

(** eipHeader, sendreceive.go L10-17. *)
Record eip_header := EipHeader {
  eh_command : Z; eh_length : Z; eh_session : Z; eh_status : Z; eh_context : Z; eh_options : Z }.

(** binary.Write of the header: 24 bytes. *)
Definition header_bytes (h : eip_header) : bytes :=
  le 2 (eh_command h) ++ le 2 (eh_length h) ++ le 4 (eh_session h) ++ le 4 (eh_status h) ++
  le 8 (eh_context h) ++ le 4 (eh_options h).

(** binary.Read of the header from its 24 bytes. *)
Definition header_of (b : bytes) : eip_header :=
  {| eh_command := unle (firstn 2 b);
     eh_length := unle (firstn 2 (skipn 2 b));
     eh_session := unle (firstn 4 (skipn 4 b));
     eh_status := unle (firstn 4 (skipn 8 b));
     eh_context := unle (firstn 8 (skipn 12 b));
     eh_options := unle (firstn 4 (skipn 20 b)) |}.

(** The part of the client newEIPHeader looks at (L157-170).  The sequence
    counter it bumps is never sent. *)
Definition client_header (session context cmd size : Z) : eip_header :=
  {| eh_command := cmd; eh_length := size mod 65536; eh_session := session;
     eh_status := 0; eh_context := context; eh_options := 0 |}.

(** server.go L928-940. *)
Definition server_header (handle context options cmd size : Z) : eip_header :=
  {| eh_command := cmd; eh_length := size mod 65536; eh_session := handle;
     eh_status := 0; eh_context := context; eh_options := options |}.

(** sendMsgBuild, L20-47.  The parts are given by the bytes binary.Write makes of
    them; binary.Size is their number. *)
Definition send_msg_build (session context cmd : Z) (parts : list bytes) : bytes :=
  let size := fold_left (fun n p => n + len p) parts 0 in
  fold_left (fun b p => b ++ p) parts (header_bytes (client_header session context cmd size)).

(** The packet server.go L888-914 builds. *)
Definition server_msg_build (handle context options cmd : Z) (parts : list bytes) : bytes :=
  let size := fold_left (fun n p => n + len p) parts 0 in
  fold_left (fun b p => b ++ p) parts (header_bytes (server_header handle context options cmd size)).

(** ** The socket *)

(** What a socket will deliver: the pieces successive Read calls find, then a
    failure (end of stream or deadline).  A piece longer than the caller's buffer
    is handed out in several reads. *)
Definition pieces := list bytes.

(** io.ReadFull of [n] more bytes, [acc] read already (binary.Read calls it).
    Go: "EOF if no bytes were read", io.ErrUnexpectedEOF otherwise. *)
Fixpoint read_full (n : nat) (acc : bytes) (ps : pieces) : res bytes * pieces :=
  match ps with
  | [] => (match n with
           | O => Ok acc
           | S _ => match acc with [] => Err EEof | _ => Err EShort end
           end, [])
  | p :: rest =>
      match n with
      | O => (Ok acc, ps)
      | S _ => if (List.length p <=? n)%nat
               then read_full (n - List.length p) (acc ++ p) rest
               else (Ok (acc ++ firstn n p), skipn n p :: rest)
      end
  end.

(** recvData, sendreceive.go L109-151.  Setting deadlines is taken to succeed. *)
Definition recv_data (ps : pieces) : res (eip_header * bytes) * pieces :=
  match read_full 24 [] ps with
  | (Ok hb, ps1) =>
      let h := header_of hb in
      if 0 <? eh_length h then
        match read_full (Z.to_nat (eh_length h)) [] ps1 with
        | (Ok d, ps2) => (Ok (h, d), ps2)
        | (Err e, ps2) => (Err e, ps2)
        | (Panic, ps2) => (Panic, ps2)
        | (OutOfFuel, ps2) => (OutOfFuel, ps2)
        end
      else (Ok (h, []), ps1)
  | (Err e, ps1) => (Err e, ps1)
  | (Panic, ps1) => (Panic, ps1)
  | (OutOfFuel, ps1) => (OutOfFuel, ps1)
  end.

(** sendData, L53-76, and the loop of server.go L915-923.  [ws] is what the
    successive conn.Write calls do: how many bytes the socket takes (never more
    than it is given), or a failure.  Returns the outcome and the bytes the
    socket took. *)
Fixpoint send_data (b : bytes) (ws : list (option nat)) : res unit * bytes :=
  match b with
  | [] => (Ok tt, [])
  | _ => match ws with
         | [] => (OutOfFuel, [])
         | None :: _ => (Err EMsg, [])
         | Some n :: rest =>
             let '(r, out) := send_data (skipn n b) rest in (r, firstn n b ++ out)
         end
  end.
