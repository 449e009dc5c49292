(** * The client's ListIdentity and ListServices (listidentity.go, listservices.go) *)
From Verif Require Import GoBase ItemsModel OpenModel SrvModel LinkModel.

(** listIdentityResponeBody and its socket address, L71-90. *)
Record ident := Ident {
  id_version : Z; id_family : Z; id_port : Z; id_address : Z; id_zero0 : Z; id_zero1 : Z;
  id_vendor : Z; id_device : Z; id_code : Z; id_revision : Z; id_status : Z; id_serial : Z; id_name : bytes; id_state : Z }.
(** binary.BigEndian *)
Definition unbe (l : bytes) : Z := unle (rev l).
(** ParseFromBytes, L92-153; the errors only differ in their text. *)
Definition parse_identity (d : bytes) : res ident :=
  let* (ver, r) := rd 2 d in
  let* (sock, r) := rd 16 r in
  let fam := firstn 2 sock in let port := firstn 2 (skipn 2 sock) in let addr := firstn 4 (skipn 4 sock) in
  let z0 := firstn 4 (skipn 8 sock) in let z1 := firstn 4 (skipn 12 sock) in
  let* (vendor, r) := rd 2 r in
  let* (dev, r) := rd 2 r in
  let* (code, r) := rd 2 r in
  let* (revn, r) := rd 2 r in
  let* (status, r) := rd 2 r in
  let* (serial, r) := rd 4 r in
  let* (n, r) := rd 1 r in
  let* (name, r) := rd (Z.to_nat (unle n)) r in
  let* (state, r) := rd 1 r in
  Ok (Ident (unle ver) (unbe fam) (unbe port) (unbe addr) (unbe z0) (unbe z1)
        (unle vendor) (unle dev) (unle code) (unle revn) (unle status) (unle serial) name (unle state)).

(** From the data of the reply, L55-68. *)
Definition identity_reply (d : bytes) : res ident :=
  let* (its, _) := read_items d in
  match its with
  | [] => Err EMsg
  | it :: _ => parse_identity (it_data it)
  end.
(** ListIdentity, L47-69, with the built-in server at the other end.  (The EIP
    status is not looked at.) *)
Definition client_identity (session context : Z) (sh : server * handler) : res ident * (server * handler) :=
  let '(r, sh1) := call session context cmd_listidentity [] sh in
  (let* (_, d) := r in identity_reply d, sh1).

(** CIPListService, listservices.go L62-66. *)
Record service := Service { sv_version : Z; sv_caps : Z; sv_name : bytes }.
(** bytes.TrimRight(name, "\x00") *)
Fixpoint trim_zeros (l : bytes) : bytes :=
  match l with
  | [] => []
  | x :: r => match trim_zeros r with
              | [] => if x =? 0 then [] else [x]
              | r' => x :: r'
              end
  end.
(** ParseFromBytes, L68-93. *)
Definition parse_service (d : bytes) : res service :=
  let* (ver, r) := rd 2 d in
  let* (caps, r) := rd 2 r in
  let* (name, r) := rd 16 r in
  Ok (Service (unle ver) (unle caps) (trim_zeros name)).
Fixpoint parse_services (its : list item) : res (list service) :=
  match its with
  | [] => Ok []
  | it :: r => let* s := parse_service (it_data it) in let* l := parse_services r in Ok (s :: l)
  end.
Definition services_reply (d : bytes) : res (list service) :=
  let* (its, _) := read_items d in parse_services its.
(** ListServices, L40-60. *)
Definition client_services (session context : Z) (sh : server * handler) : res (list service) * (server * handler) :=
  let '(r, sh1) := call session context cmd_listservices [] sh in
  (let* (_, d) := r in services_reply d, sh1).
