(** * Logical path segments (cip_definitions.go) *)
From Verif Require Import GoBase.

(** CIPAttribute is a uint16; cip_definitions.go L35-48 (Bytes). *)
Definition attribute_bytes (p : Z) : bytes :=
  if p <? 256 then [0x30; p] else [0x31; 0] ++ le 2 p.

(** cip_definitions.go L49-76 (CIPAttribute.Read).  io.CopyN of one byte fails
    with io.EOF when nothing is left. *)
Definition attribute_read (r : bytes) : res (Z * bytes) :=
  let* (t, r) := rd 1 r in
  if unle t =? 0x30 then let* (v, r) := rd 1 r in Ok (unle v, r)
  else if unle t =? 0x31 then
    let* (_, r) := rd 1 r in
    let* (v, r) := rd 2 r in Ok (unle v, r)
  else Err EMsg.

(** cip_definitions.go L77-82. *)
Definition attribute_len (p : Z) : Z := if p <? 256 then 2 else 4.

(** CIPElement is a uint32; cip_definitions.go L100-121 (Bytes): the 32-bit form
    is written with the 16-bit type byte 0x29. *)
Definition element_bytes (p : Z) : bytes :=
  if p <? 256 then [0x28; p]
  else if p <? 65536 then [0x29; 0] ++ le 2 p
  else [0x29; 0] ++ le 4 p.

(** cip_definitions.go L123-130 (note 65535, not 65536). *)
Definition element_len (p : Z) : Z :=
  if p <? 256 then 2 else if p <? 65535 then 4 else 6.

(** CIPInstance is a uint32; cip_definitions.go L146-163 (Bytes). *)
Definition instance_bytes (p : Z) : bytes :=
  if p <? 256 then [0x24; p]
  else if p <=? 65535 then [0x25; 0] ++ le 2 p
  else [0x26; 0] ++ le 4 p.

(** cip_definitions.go L165-204 (CIPInstance.Read). *)
Definition instance_read (r : bytes) : res (Z * bytes) :=
  let* (t, r) := rd 1 r in
  if unle t =? 0x24 then let* (v, r) := rd 1 r in Ok (unle v, r)
  else if unle t =? 0x25 then
    let* (_, r) := rd 1 r in
    let* (v, r) := rd 2 r in Ok (unle v, r)
  else if unle t =? 0x26 then
    let* (_, r) := rd 1 r in
    let* (v, r) := rd 4 r in Ok (unle v, r)
  else Err EMsg.

(** cip_definitions.go L205-212. *)
Definition instance_len (p : Z) : Z :=
  if p <? 256 then 2 else if p <=? 65535 then 4 else 6.

(** CIPClass is a uint16; cip_definitions.go L233-246 (Bytes). *)
Definition class_bytes (p : Z) : bytes :=
  if p <? 256 then [0x20; p] else [0x21; 0] ++ le 2 p.

(** cip_definitions.go L248-276 (CIPClass.Read). *)
Definition class_read (r : bytes) : res (Z * bytes) :=
  let* (t, r) := rd 1 r in
  if unle t =? 0x20 then let* (v, r) := rd 1 r in Ok (unle v, r)
  else if unle t =? 0x21 then
    let* (_, r) := rd 1 r in
    let* (v, r) := rd 2 r in Ok (unle v, r)
  else Err EMsg.

(** cip_definitions.go L278-283. *)
Definition class_len (p : Z) : Z := if p <? 256 then 2 else 4.

(** CIPAddress is a byte; cip_definitions.go L9-17. *)
Definition address_bytes (p : Z) : bytes := [p].
Definition address_len (p : Z) : Z := 0.

(** CIPPort, path.go L41-56. *)
Definition port_bytes (no ext : Z) : bytes := if ext =? 0 then [no] else [no; ext].
Definition port_len : Z := 2.

(** Constants used elsewhere: cip_definitions.go L284 onwards. *)
Definition obj_identity := 0x01.
Definition obj_connection_manager := 0x06.
Definition obj_symbol := 0x6B.
Definition obj_template := 0x6C.
