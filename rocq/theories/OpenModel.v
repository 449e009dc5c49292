(** * Opening a session (connect.go) *)
From Verif Require Import GoBase SegModel ItemsModel EipModel.

Definition cmd_register := 0x65.      Definition cmd_rrdata := 0x6F.
Definition cmd_unitdata := 0x70.      Definition cmd_listservices := 0x04.
Definition cmd_listidentity := 0x63.
Definition svc_open := 0x54.          Definition svc_large_open := 0x5B.
Definition svc_forward_close := 0x4E.

(** The fields of Client that Connect and Disconnect use (client.go L55-112).
    [s_rpi] is the packet interval in microseconds, [s_route] the bytes of
    Controller.Path, [s_counter] the atomic sequenceNumber. *)
Record session := Session {
  s_size : Z; s_counter : Z; s_handle : Z; s_context : Z; s_otid : Z; s_serial : Z;
  s_vendor : Z; s_orig : Z; s_rpi : Z; s_route : bytes }.

Definition with_size (c : session) (n : Z) : session :=
  {| s_size := n; s_counter := s_counter c; s_handle := s_handle c; s_context := s_context c; s_otid := s_otid c;
     s_serial := s_serial c; s_vendor := s_vendor c; s_orig := s_orig c; s_rpi := s_rpi c; s_route := s_route c |}.
Definition with_handle (c : session) (h : Z) : session :=
  {| s_size := s_size c; s_counter := s_counter c; s_handle := h; s_context := s_context c; s_otid := s_otid c;
     s_serial := s_serial c; s_vendor := s_vendor c; s_orig := s_orig c; s_rpi := s_rpi c; s_route := s_route c |}.
Definition with_otid (c : session) (o : Z) : session :=
  {| s_size := s_size c; s_counter := s_counter c; s_handle := s_handle c; s_context := s_context c; s_otid := o;
     s_serial := s_serial c; s_vendor := s_vendor c; s_orig := s_orig c; s_rpi := s_rpi c; s_route := s_route c |}.
(** sequenceNumber.Add(n) (a uint32). *)
Definition add_counter (c : session) (n : Z) : session :=
  {| s_size := s_size c; s_counter := (s_counter c + n) mod 2 ^ 32; s_handle := s_handle c; s_context := s_context c;
     s_otid := s_otid c; s_serial := s_serial c; s_vendor := s_vendor c; s_orig := s_orig c; s_rpi := s_rpi c; s_route := s_route c |}.
(** ConnectionSerialNumber = uint16(sequenceNumber.Add(1)): L350, L429. *)
Definition new_serial (c : session) : session :=
  let c := add_counter c 1 in
  {| s_size := s_size c; s_counter := s_counter c; s_handle := s_handle c; s_context := s_context c; s_otid := s_otid c;
     s_serial := s_counter c mod 65536; s_vendor := s_vendor c; s_orig := s_orig c; s_rpi := s_rpi c; s_route := s_route c |}.

(** The path after the route (L341-345, L420-424, disconnect.go L76-80): the
    message router, instance 1. *)
Definition session_path (c : session) : bytes := s_route c ++ class_bytes 2 ++ instance_bytes 1.

(** newForwardOpenLarge, L328-399.  The parameters are or-ed together. *)
Definition new_open_large (c : session) : item * session :=
  let c := if s_size c =? 0 then with_size c 4000 else c in
  let path := session_path c in
  let c := new_serial c in
  let params := Z.lor (Z.lor (Z.lor (Z.lor (Z.shiftl 0 31) (Z.shiftl 2 29)) (Z.shiftl 0 26)) (Z.shiftl 1 25)) (s_size c) in
  let c := add_counter c 1 in let ot := s_counter c in
  let c := add_counter c 1 in let to := s_counter c in
  let msg := [svc_large_open; 0x02; 0x20; 0x06; 0x24; 0x01; 0x0A; 0x0E] ++ le 4 ot ++ le 4 to ++ le 2 (s_serial c) ++
             le 2 (s_vendor c) ++ le 4 (s_orig c) ++ le 4 3 ++ le 4 (s_rpi c) ++ le 4 params ++ le 4 (s_rpi c) ++ le 4 params ++
             [0xA3; (len path / 2) mod 256] in
  (item_write (item_write (item_empty item_unconndata) msg) path, c).

(** newForwardOpenStandard, L406-477. *)
Definition new_open_standard (c : session) : item * session :=
  let c := if s_size c =? 0 then with_size c 511 else c in
  let c := if 511 <? s_size c then with_size c 511 else c in
  let path := session_path c in
  let c := new_serial c in
  let params := Z.lor (Z.lor (Z.lor (Z.lor (Z.shiftl 0 15) (Z.shiftl 2 13)) (Z.shiftl 0 10)) (Z.shiftl 1 9)) (s_size c) in
  let c := add_counter c 1 in let ot := s_counter c in
  let c := add_counter c 1 in let to := s_counter c in
  let msg := [svc_open; 0x02; 0x20; 0x06; 0x24; 0x01; 0x07; 0xE9] ++ le 4 ot ++ le 4 to ++ le 2 (s_serial c) ++
             le 2 (s_vendor c) ++ le 4 (s_orig c) ++ le 4 0 ++ le 4 (s_rpi c) ++ le 2 params ++ le 4 (s_rpi c) ++ le 2 params ++
             [0xA3; (len path / 2) mod 256] in
  (item_write (item_write (item_empty item_unconndata) msg) path, c).

(** The other end as send_recv_data shows it: command and payload of the request
    to header and payload of the reply, or a transport error. *)
Definition peer (S : Type) : Type := S -> Z -> bytes -> res (eip_header * bytes) * S.

(** parseResponse, L561-599.  The extended status has StatusLen*2 bytes computed
    in a byte; items[1] panics on fewer than two items.  Returns items[1] with its
    position after the header. *)
Definition parse_response (h : eip_header) (data : bytes) : res item :=
  if negb (eh_status h =? 0) then Err EMsg else
  let* (_, r) := rd 6 data in
  let* (its, _) := read_items r in
  match its with
  | _ :: it :: _ =>
      match item_des 4 it with
      | (Ok hd, it1) =>
          let slen := nth 3 hd 0 in
          let status := nth 2 hd 0 in
          match (if slen =? 0 then (Ok [], it1) else item_des (Z.to_nat ((slen * 2) mod 256)) it1) with
          | (Ok _, it2) => if negb (status =? 0) then Err (EStatus status) else Ok it2
          | (Err e, _) => Err e | (Panic, _) => Panic | (OutOfFuel, _) => OutOfFuel
          end
      | (Err e, _) => Err e | (Panic, _) => Panic | (OutOfFuel, _) => OutOfFuel
      end
  | _ => Panic
  end.

(** forwardOpen, L479-517: 26 bytes of reply content, the first four are the
    connection id to use. *)
Definition open_payload (it : item) : bytes := serialize_items [item_empty item_null; it].
Definition forward_open {S} (p : peer S) (s : S) (c : session) (it : item) : res session * S :=
  match p s cmd_rrdata (open_payload it) with
  | (Ok (h, d), s1) =>
      (let* it2 := parse_response h d in
       match item_des 26 it2 with
       | (Ok r, _) => Ok (with_otid c (unle (firstn 4 r)))
       | (Err e, _) => Err e | (Panic, _) => Panic | (OutOfFuel, _) => OutOfFuel
       end, s1)
  | (Err e, s1) => (Err e, s1)
  | (Panic, s1) => (Panic, s1)
  | (OutOfFuel, s1) => (OutOfFuel, s1)
  end.

(** registerSession, L178-193: the handle is taken from the reply's header, whose
    status is not looked at. *)
Definition register_session {S} (p : peer S) (s : S) (c : session) : res session * S :=
  match p s cmd_register (le 2 1 ++ le 2 0) with
  | (Ok (h, _), s1) => (Ok (with_handle c (eh_session h)), s1)
  | (Err e, s1) => (Err e, s1)
  | (Panic, s1) => (Panic, s1)
  | (OutOfFuel, s1) => (OutOfFuel, s1)
  end.

(** Connect, L70-170, after startConnect and a successful dial; [now] is the
    number of milliseconds added to the counter (L113).  Default port, vendor,
    timeout, path and logger set-up are not part of it.  Returns the client as it
    is left even when an error is returned. *)
Definition connect {S} (p : peer S) (s : S) (now : Z) (c : session) : res unit * session * S :=
  let c := if s_size c =? 0 then with_size c 4000 else c in
  let c := add_counter c now in
  match register_session p s c with
  | (Ok c, s) =>
      match (if 511 <? s_size c then
               let '(it, c) := new_open_large c in
               match forward_open p s c it with
               | (Ok c, s) => (Ok tt, c, s)
               | (Err _, s) => (Ok tt, with_size c 511, s)
               | (Panic, s) => (Panic, c, s)
               | (OutOfFuel, s) => (OutOfFuel, c, s)
               end
             else (Ok tt, c, s)) with
      | (Ok _, c, s) =>
          if s_size c <=? 511 then
            let '(it, c) := new_open_standard c in
            match forward_open p s c it with
            | (Ok c, s) => (Ok tt, c, s)
            | (Err e, s) => (Err e, c, s)
            | (Panic, s) => (Panic, c, s)
            | (OutOfFuel, s) => (OutOfFuel, c, s)
            end
          else (Ok tt, c, s)
      | (r, c, s) => (r, c, s)
      end
  | (Err e, s) => (Err e, c, s)
  | (Panic, s) => (Panic, c, s)
  | (OutOfFuel, s) => (OutOfFuel, c, s)
  end.

(** The request Disconnect sends, disconnect.go L72-111. *)
Definition close_payload (c : session) : bytes :=
  let path := session_path c in
  let msg := [svc_forward_close; 0x02; 0x20; 0x06; 0x24; 0x01; 0x0A; 0x0E] ++ le 2 (s_serial c) ++ le 2 (s_vendor c) ++
             le 4 (s_orig c) ++ [(len path / 2) mod 256; 0] in
  serialize_items [item_empty item_null; item_write (item_write (item_empty item_unconndata) msg) path].
