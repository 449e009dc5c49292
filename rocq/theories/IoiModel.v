(** * Tag names to request paths and back (ioi.go, client.go) *)
From Verif Require Import GoBase SegModel.

Definition c_dot := 46.
Definition c_lb := 91.
Definition c_rb := 93.
Definition c_comma := 44.

(** ** tagPartDescriptor.Parse (ioi.go L13-71) *)

Record part_desc := {
  pd_base : bytes;            (* BasePath *)
  pd_order : list Z;          (* Array_Order; [] when nil *)
  pd_bitno : Z;               (* BitNumber *)
  pd_bit : bool               (* BitAccess *)
}.

(** Match of the regular expression [\.\d+$] (ioi.go L21): because the digits
    cannot contain a dot, only the last dot can start a match.  Returns the
    text after the dot. *)
Definition bit_match (s : bytes) : option bytes :=
  match last_index_of c_dot s with
  | Some n =>
      let t := skipn (S n) s in
      match t with
      | [] => None
      | _ => if forallb is_digit t then Some t else None
      end
  | None => None
  end.

(** The characters [\d , \s] of the array regular expression; RE2's [\s] is
    tab, newline, form feed, carriage return and space. *)
Definition idx_char (c : Z) : bool :=
  is_digit c || (c =? c_comma) || (c =? 9) || (c =? 10) || (c =? 12) || (c =? 13) || (c =? 32).

(** Match of [\[([\d]|[,]|[\s])*\]$] (ioi.go L22): only the last "[" can start a
    match because the class excludes "[" and "]".  Returns the text between the
    brackets. *)
Definition arr_match (s : bytes) : option bytes :=
  if ends_with c_rb s then
    match last_index_of c_lb s with
    | Some n =>
        let t := removelast (skipn (S n) s) in
        if forallb idx_char t then Some t else None
    | None => None
    end
  else None.

(** strconv.Atoi over the comma separated parts, stopping at the first error and
    leaving zeros in the rest (ioi.go L51-58). *)
Fixpoint atoi_list (parts : list bytes) : list Z * bool :=
  match parts with
  | [] => ([], true)
  | p :: r =>
      match atoi p with
      | (v, true) => let '(vs, ok) := atoi_list r in (v :: vs, ok)
      | (v, false) => (v :: repeat 0 (length r), false)
      end
  end.

(** ioi.go L24-71.  Returns the descriptor as it stands when Parse returns and
    whether the returned error is nil. *)
Definition parse_part (s : bytes) : part_desc * bool :=
  let '(base, bitno, bit, bitok) :=
    match bit_match s with
    | None => (s, 0, false, true)
    | Some t => let '(v, ok) := atoi t in (remove_all t s, v, true, ok)
    end in
  if bitok then
    match arr_match s with
    | None => ({| pd_base := base; pd_order := []; pd_bitno := bitno; pd_bit := bit |}, true)
    | Some t =>
        let base' := remove_all t base in
        if contains c_comma t then
          let '(vs, ok) := atoi_list (split c_comma t) in
          ({| pd_base := base'; pd_order := vs; pd_bitno := bitno; pd_bit := bit |}, ok)
        else
          let '(v, ok) := atoi t in
          ({| pd_base := base'; pd_order := [v]; pd_bitno := bitno; pd_bit := bit |}, ok)
    end
  else ({| pd_base := base; pd_order := []; pd_bitno := bitno; pd_bit := bit |}, false).

(** ioi.go L226-245 (marshalIOIPart).  The length is truncated to a byte. *)
Definition marshal_part (s : bytes) : res bytes :=
  let '(d, ok) := parse_part s in
  if ok then
    let b := pd_base d in
    Ok ([0x91; len b mod 256] ++ b ++ (if len b mod 2 =? 1 then [0] else []))
  else Err EMsg.

(** ioi.go L168-196: one array index.  byte(order), uint16(order), uint32(order). *)
Definition index_bytes (i : Z) : bytes :=
  if i <? 256 then [0x28; i mod 256]
  else if i <? 65536 then le 2 0x29 ++ le 2 i
  else le 2 0x2A ++ le 4 i.

(** tagIOI (ioi.go L82-88) without Path and Type, which nothing reads back. *)
Record ioi := { ioi_buf : bytes; ioi_bit : bool; ioi_bitpos : Z }.
Definition ioi0 := {| ioi_buf := []; ioi_bit := false; ioi_bitpos := 0 |}.

(** ioi.go L149-220: one iteration of the loop over the dotted parts.  A part
    ending in "]" without a "[" slices with index -1 and panics.  The error of
    parse_tag_name is only logged (L163-166). *)
Definition ioi_part (st : ioi) (part : bytes) : res ioi :=
  if ends_with c_rb part then
    match index_of c_lb part with
    | None => Panic
    | Some n =>
        let* m := marshal_part (firstn n part) in
        let d := fst (parse_part part) in
        Ok {| ioi_buf := ioi_buf st ++ m ++ concat (map index_bytes (pd_order d));
              ioi_bit := ioi_bit st; ioi_bitpos := ioi_bitpos st |}
    end
  else
    let '(v, ok) := atoi part in
    if ok && (v <=? 31) then
      Ok {| ioi_buf := ioi_buf st; ioi_bit := true; ioi_bitpos := v |}
    else
      let* m := marshal_part part in
      Ok {| ioi_buf := ioi_buf st ++ m; ioi_bit := ioi_bit st; ioi_bitpos := ioi_bitpos st |}.

Fixpoint ioi_parts (st : ioi) (parts : list bytes) : res ioi :=
  match parts with
  | [] => Ok st
  | p :: r => let* st' := ioi_part st p in ioi_parts st' r
  end.

(** ioi.go L142-220: the encoding of a (lower-cased) path not found in any cache. *)
Definition build_ioi (path : bytes) : res ioi := ioi_parts ioi0 (split c_dot path).

(** ** Known tags (client.go L181-235) *)

Record known_program := { kp_name : bytes; kp_id : Z }.

(** client.go L186-201.  CipObject_Programs is class 0x68. *)
Definition program_bytes (kp : known_program) : bytes :=
  if kp_id kp =? 0 then
    match marshal_part (str "Program:" ++ kp_name kp) with Ok b => b | _ => [] end
  else class_bytes 0x68 ++ instance_bytes (kp_id kp).

Record known_tag := {
  kt_type : Z;                           (* Info.Type *)
  kt_instance : Z;                       (* Instance *)
  kt_parent : option known_program       (* Parent *)
}.

(** client.go L218-235 (KnownTag.Bytes). *)
Definition known_tag_bytes (t : known_tag) : bytes :=
  match kt_parent t with
  | None => class_bytes obj_symbol ++ instance_bytes (kt_instance t)
  | Some p => program_bytes p ++ class_bytes obj_symbol ++ instance_bytes (kt_instance t)
  end.

(** ** Client.newIOI (ioi.go L107-224) *)

(** Go maps keyed by string, as association lists: the first binding counts. *)
Fixpoint lookup {A} (k : bytes) (m : list (bytes * A)) : option A :=
  match m with
  | [] => None
  | (k', v) :: r => if bseq k k' then Some v else lookup k r
  end.

(** The part of Client that newIOI looks at.  [cl_firmware] is the result of
    client.firmware() (client.go L239-257): reading it from the controller is
    not modelled here. *)
Record client := {
  cl_firmware : Z;
  cl_known : list (bytes * known_tag);
  cl_cache : list (bytes * ioi)
}.

Definition t_unknown := 0x00.
Definition t_struct := 0xA0.
Definition t_string := 0xFF.

Definition new_ioi (c : client) (path : bytes) (dtype : Z) : res ioi * client :=
  let p := lower path in
  let fast :=
    if 20 <? cl_firmware c then
      match lookup p (cl_known c) with
      | Some t =>
          if negb (kt_type t =? 0) && negb (dtype =? t_struct)
             && negb (dtype =? t_unknown) && negb (dtype =? t_string)
          then Some {| ioi_buf := known_tag_bytes t; ioi_bit := false; ioi_bitpos := 0 |}
          else None
      | None => None
      end
    else None in
  match fast with
  | Some i => (Ok i, c)
  | None =>
      match lookup p (cl_cache c) with
      | Some i => (Ok i, c)
      | None =>
          match build_ioi p with
          | Ok i => (Ok i, {| cl_firmware := cl_firmware c; cl_known := cl_known c;
                              cl_cache := (p, i) :: cl_cache c |})
          | r => (r, c)
          end
      end
  end.

(** ** From path bytes back to a name (ioi.go L248-337) *)

(** getAsciiTagPart, ioi.go L248-269. *)
Definition get_ascii_part (r : bytes) : res (bytes * bytes) :=
  let* (n, r) := rd 1 r in
  let* (b, r) := rd (Z.to_nat (unle n)) r in
  if unle n mod 2 =? 1 then
    let* (_, r) := rd 1 r in Ok (b, r)
  else Ok (b, r).

(** ioi.go L294-298 and L311-315: add an index to the name built so far.  An
    empty name is indexed at -1 and panics. *)
Definition add_index (s : bytes) (i : Z) : res bytes :=
  match s with
  | [] => Panic
  | _ => if ends_with c_rb s
         then Ok (removelast s ++ [c_comma] ++ dec i ++ [c_rb])
         else Ok (s ++ [c_lb] ++ dec i ++ [c_rb])
  end.

(** getTagFromPath, ioi.go L270-337.  Works on the unread bytes of the item and
    returns the name and what remains unread.  Every iteration consumes at
    least one byte, so [S (length r)] iterations always suffice. *)
Fixpoint get_tag_fuel (fuel : nat) (s : bytes) (r : bytes) : res (bytes * bytes) :=
  match fuel with
  | O => OutOfFuel
  | S k =>
      match r with
      | [] => Ok (s, [])
      | t :: r1 =>
          if t =? 0x28 then
            let* (v, r2) := rd 1 r1 in
            let* s' := add_index s (unle v) in
            get_tag_fuel k s' r2
          else if t =? 0x29 then
            let* (_, r2) := rd 1 r1 in
            let* (v, r3) := rd 2 r2 in
            let* s' := add_index s (unle v) in
            get_tag_fuel k s' r3
          else if t =? 0x91 then
            let* (b, r2) := get_ascii_part r1 in
            get_tag_fuel k (match s with [] => b | _ => s ++ [c_dot] ++ b end) r2
          else Ok (s, r)
      end
  end.
Definition get_tag_from_path (r : bytes) : res (bytes * bytes) :=
  get_tag_fuel (S (length r)) [] r.

(** The word count written before a path in every request: read.go L420, L811,
    L1194, write.go L128, L238, udt_write.go L170, partialread.go L127. *)
Definition path_size_byte (path : bytes) : Z := (len path / 2) mod 256.

(** ** Histories of a client: lookups and tag-list refreshes.  KnownTags is
    replaced by an arbitrary table ([OpRefresh]; listalltags.go L311 stores into
    it) and the firmware revision becomes known ([OpFirmware]; client.go L255). *)
Inductive cl_op :=
| OpLookup (path : bytes) (dtype : Z)
| OpRefresh (known : list (bytes * known_tag))
| OpFirmware (major : Z).

Definition cl_init : client := {| cl_firmware := 0; cl_known := []; cl_cache := [] |}.

Definition cl_step (c : client) (o : cl_op) : client :=
  match o with
  | OpLookup p d => snd (new_ioi c p d)
  | OpRefresh k => {| cl_firmware := cl_firmware c; cl_known := k; cl_cache := cl_cache c |}
  | OpFirmware m => {| cl_firmware := m; cl_known := cl_known c; cl_cache := cl_cache c |}
  end.
Definition cl_run (ops : list cl_op) : client := fold_left cl_step ops cl_init.
