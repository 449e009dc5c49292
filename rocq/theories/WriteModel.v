(** * Writing tags (write.go, udt_write.go) *)
From Verif Require Import GoBase SegModel IoiModel ItemsModel TypesModel ReadModel BatchModel PackTypes PackModel.

(** What can be handed to Write besides structs: a scalar, a slice of scalars, or
    a value binary.Write refuses (int, a map, ...). *)
Inductive wvalue := WOne (v : gval) | WMany (k : gokind) (l : list gval) | WBad.

(** The Go kind of a scalar. *)
Definition val_kind (v : gval) : gokind :=
  match v with GBool _ => KBool | GInt s w _ => KInt s w | GFloat w _ => KFloat w | _ => KString end.
(** GoVarToCIPType of it (types.go L22-74), by TypesModel. *)
Definition wvalue_type (v : wvalue) : Z :=
  fst (go_to_cip (match v with
                  | WOne v => GoScalar (val_kind v)
                  | WMany k l => GoSlice k (len l)
                  | WBad => GoOther end)).

(** binary.Write of a scalar. *)
Definition raw_bytes (v : gval) : bytes :=
  match v with
  | GBool b => [bool_byte b]
  | GInt _ w z => le w z
  | GFloat w bits => le w bits
  | GStr s => s
  | _ => []
  end.
Definition str_of (v : gval) : bytes := match v with GStr s => s | _ => [] end.

(** CIPItem.Serialize of it, items.go L214-282. *)
Definition item_value (v : wvalue) : res bytes :=
  match v with
  | WOne (GStr s) => Ok (ser_string s)
  | WOne v => Ok (raw_bytes v)
  | WMany KString l => Ok (ser_strings (map str_of l))
  | WMany _ l => Ok (concat (map raw_bytes l))
  | WBad => Err EMsg
  end.
(** Serialize of it, pack.go L58-90: no case for []string, which binary.Write
    refuses. *)
Definition buffer_value (v : wvalue) : res bytes :=
  match v with
  | WOne (GStr s) => Ok (ser_string s)
  | WMany KString _ => Err EMsg
  | v => item_value v
  end.

(** msgCIPWriteIOIFooter.Bytes, messages.go L42-53. *)
Definition write_footer (t elements : Z) : bytes :=
  if t =? T_string then [0xA0; 0x02; 0xCE; 0x0F] ++ le 2 elements else le 2 t ++ le 2 elements.

(** The reply, write.go L189-217 and L278-306: items[1] panics when it is not
    there. *)
Definition write_reply (eip : Z) (payload : bytes) : res unit :=
  if negb (eip =? 0) then Err (EStatus eip) else
  let* its := reply_items payload in
  match its with
  | _ :: it :: _ =>
      let* (h, _) := rd 6 (it_data it) in
      if nth 4 h 0 =? 0 then Ok tt else Err (EStatus (nth 4 h 0))
  | _ => Panic
  end.

(** Sending a request and looking at the reply. *)
Definition exchange {S} (ctl : controller S) (s : S) (req : bytes) (k : Z -> bytes -> res unit) : res unit * S :=
  match ctl s req with
  | (Ok (eip, payload), s1) => (k eip payload, s1)
  | (Err e, s1) => (Err e, s1)
  | (Panic, s1) => (Panic, s1)
  | (OutOfFuel, s1) => (OutOfFuel, s1)
  end.

(** write_single, write.go L221-307. *)
Definition write_single {S} (ctl : controller S) (c : client) (s : S) (otid q : Z) (tag : bytes) (v : wvalue) : res unit * S * Z :=
  let t := wvalue_type v in
  match fst (new_ioi c tag t) with
  | Ok i =>
      let elements := match v with WMany _ l => len l | _ => 1 end in
      match item_value v with
      | Ok d =>
          let req := path_request otid q svc_write (ioi_buf i) (write_footer t elements ++ d) in
          let '(r, s1) := exchange ctl s req write_reply in (r, s1, q + 1)
      | Err e => (Err e, s, q + 1)
      | Panic => (Panic, s, q + 1)
      | OutOfFuel => (OutOfFuel, s, q + 1)
      end
  | Err e => (Err e, s, q)
  | Panic => (Panic, s, q)
  | OutOfFuel => (OutOfFuel, s, q)
  end.

(** write_udt, write.go L116-218.  [crc] is the 16-bit checksum of the type
    description (an outside package). *)
Definition write_udt {S} (crc : bytes -> Z) (ctl : controller S) (c : client) (s : S) (otid q : Z)
    (tag : bytes) (t : gty) (v : gv) : res unit * S * Z :=
  match fst (new_ioi c tag T_struct) with
  | Ok i =>
      match type_encode t with
      | Ok d =>
          let req := path_request otid q svc_write (ioi_buf i)
                       ([T_struct; 2] ++ le 2 (crc d) ++ le 2 1 ++ fst (pack t v)) in
          let '(r, s1) := exchange ctl s req write_reply in (r, s1, q + 1)
      | Err e => (Err e, s, q + 1)
      | Panic => (Panic, s, q + 1)
      | OutOfFuel => (OutOfFuel, s, q + 1)
      end
  | Err e => (Err e, s, q)
  | Panic => (Panic, s, q)
  | OutOfFuel => (OutOfFuel, s, q)
  end.

(** ** WriteMap, udt_write.go L127-224 *)

(** A value in the map: as above, or a struct (its binary.Write bytes). *)
Inductive mvalue := MVal (v : wvalue) | MStruct (raw : bytes).
Definition mvalue_type (v : mvalue) : Z := match v with MVal v => wvalue_type v | MStruct _ => T_struct end.
Definition mvalue_bytes (v : mvalue) : res bytes := match v with MVal v => buffer_value v | MStruct raw => Ok raw end.

(** L130-149: a path for each key.  The client is not threaded through (see
    BatchModel). *)
Fixpoint map_iois (c : client) (kv : list (bytes * mvalue)) : res (list ioi) :=
  match kv with
  | [] => Ok []
  | (k, v) :: r => let* i := fst (new_ioi c k (mvalue_type v)) in
                   let* l := map_iois c r in Ok (i :: l)
  end.
(** L166-200: the embedded requests. *)
Fixpoint map_subs (kvi : list (bytes * mvalue * ioi)) : res (list bytes) :=
  match kvi with
  | [] => Ok []
  | (_, v, i) :: r =>
      let* d := mvalue_bytes v in
      let* l := map_subs r in
      Ok (([svc_write; path_size_byte (ioi_buf i)] ++ ioi_buf i ++ write_footer (mvalue_type v) 1 ++ d) :: l)
  end.
(** [kv]: the map's entries in the order they happen to be walked.  The reply is
    not looked at (L219-221). *)
Definition write_map {S} (ctl : controller S) (c : client) (s : S) (otid q : Z) (kv : list (bytes * mvalue)) : res unit * S * Z :=
  match map_iois c kv with
  | Ok iois =>
      match map_subs (combine kv iois) with
      | Ok subs =>
          let '(r, s1) := exchange ctl s (multi_request_bytes otid q subs) (fun _ _ => Ok tt) in (r, s1, q + 1)
      | Err e => (Err e, s, q + 1)
      | Panic => (Panic, s, q + 1)
      | OutOfFuel => (OutOfFuel, s, q + 1)
      end
  | Err e => (Err e, s, q)
  | Panic => (Panic, s, q)
  | OutOfFuel => (OutOfFuel, s, q)
  end.

(** ** WriteMulti, write.go L49-62 *)

(** A struct with gologix tags: for each field its Go name, its tag and what it
    holds. *)
Inductive node := NLeaf (v : wvalue) | NArray (l : list node) | NStruct (fs : list (bytes * bytes * node)).

(** m[k] = v on a map kept as a list. *)
Fixpoint put (k : bytes) (v : mvalue) (d : list (bytes * mvalue)) : list (bytes * mvalue) :=
  match d with
  | [] => [(k, v)]
  | (k', v') :: r => if bseq k' k then (k, v) :: r else (k', v') :: put k v r
  end.
Definition put_all (d2 d : list (bytes * mvalue)) : list (bytes * mvalue) :=
  fold_left (fun d kv => put (fst kv) (snd kv) d) d2 d.

(** udt_to_dict, udt_write.go L44-77: the entries of one field under [fulltag],
    then of all fields. *)
Fixpoint node_dict (fulltag : bytes) (n : node) : list (bytes * mvalue) :=
  match n with
  | NLeaf v => [(fulltag, MVal v)]
  | NArray _ => []                              (* TODO in the source, L68 *)
  | NStruct fs =>
      fold_left (fun d f => put_all (node_dict (fulltag ++ [46] ++ fst (fst f)) (snd f)) d) fs []
  end.
(** multi_to_dict, L11-41: fields are addressed by their tag. *)
Definition multi_dict (fs : list (bytes * bytes * node)) : list (bytes * mvalue) :=
  fold_left (fun d f => put_all (node_dict (snd (fst f)) (snd f)) d) fs [].
(** WriteMulti with the map walked in the order [kv]. *)
Definition write_multi {S} (ctl : controller S) (c : client) (s : S) (otid q : Z)
    (fs : list (bytes * bytes * node)) (order : list (bytes * mvalue) -> list (bytes * mvalue)) : res unit * S * Z :=
  write_map ctl c s otid q (order (multi_dict fs)).
