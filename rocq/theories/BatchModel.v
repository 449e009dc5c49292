(** * Reading many tags at once (read.go, partialread.go) *)
From Verif Require Import GoBase SegModel IoiModel ItemsModel TypesModel ReadModel.

(** tagDesc.Struct (read.go L774), as far as readList looks at it: nil, a scalar, a
    struct (or slice, which has size 0) binary.Read fills with [n] bytes, or one
    it cannot fill.  A struct's value is represented by the bytes it was made of. *)
Inductive example := SNil | SScalar (k : gokind) | SFixed (n : nat) | SBad.
(** tagDesc, read.go L770-775. *)
Record tag_desc := TagDesc { td_name : bytes; td_type : Z; td_elems : Z; td_struct : example }.

(** newIOI for each tag (read.go L779-788).  The client is not threaded through:
    by C04 what it caches does not change any result. *)
Fixpoint iois_of (c : client) (tags : list tag_desc) : res (list ioi) :=
  match tags with
  | [] => Ok []
  | t :: r => let* i := fst (new_ioi c (td_name t) (td_type t)) in
              let* l := iois_of c r in Ok (i :: l)
  end.

(** One embedded request: header, path, footer (read.go L808-823). *)
Definition sub_request (ti : tag_desc * ioi) : bytes :=
  [svc_read; path_size_byte (ioi_buf (snd ti))] ++ ioi_buf (snd ti) ++ le 2 (td_elems (fst ti)).
(** jump_table[i], L807. *)
Fixpoint jump_table (start : Z) (subs : list bytes) : list Z :=
  match subs with
  | [] => []
  | s :: r => (start mod 65536) :: jump_table (start + len s) r
  end.
(** The check at L829 after appending tag i: the first i at which it says split. *)
Fixpoint split_at (cs acc : Z) (subs : list bytes) (i : nat) : option nat :=
  match subs with
  | [] => None
  | s :: r => let acc' := acc + len s in
              if cs <? acc' + 6 then Some i else split_at cs acc' r (S i)
  end.
(** L790-798 and L850-858. *)
Definition multi_path := [0x20; 0x02; 0x24; 0x01].
Definition multi_request_bytes (otid q : Z) (subs : list bytes) : bytes :=
  serialize_items
    [ new_item item_connaddr (le 4 otid);
      item_write (item_write (item_write (item_empty item_conndata)
        (le 2 q ++ [svc_multi; 2] ++ multi_path ++ le 2 (len subs)))
        (concat (map (le 2) (jump_table (2 + 2 * len subs) subs))))
        (concat subs) ].

(** rb[offset:], L920. *)
Definition slice_off (rb : bytes) (off : Z) : res bytes := slice_from rb off.

(** One sub-reply (L921-1021).  [ti] is tags[i] and iois[i]; None when i is out of
    range: every path then indexes tags[i] and panics. *)
Definition is_response (svc : Z) : bool := Z.testbit svc 7.
Definition decode_sub (ti : option (tag_desc * ioi)) (b : bytes) : res gval :=
  let* (h, d) := rd 6 b in
  let st := unle (firstn 2 (skipn 2 h)) in
  let ty := nth 4 h 0 in
  if negb (is_response (nth 0 h 0)) then Err EMsg else
  match ti with
  | None => Panic
  | Some (t, i) =>
    if negb (st =? 0) then Err (EStatus st) else
    if td_elems t =? 1 then
      if (td_type t =? T_bool) && negb (ty =? T_bool) && ioi_bit i then
        let* (v, _) := read_value ty d in
        match get_bit ty v (ioi_bitpos i) with
        | Ok b => Ok (GBool b)
        | _ => Ok GNil                       (* L943-945: warn and continue *)
        end
      else if td_type t =? T_string then
        let* (h, r) := rd 6 d in
        let* (s, _) := rd (Z.to_nat (unle (skipn 2 h))) r in Ok (GStr s)
      else if ty =? T_struct then
        let* (_, r) := rd 2 d in
        match td_struct t with
        | SNil => Ok (GBytes r)
        | SScalar k => let* (v, _) := read_value (kind_cip k) r in Ok v
        | SFixed n => let* (v, _) := rd n r in Ok (GStructV v)
        | SBad => Err EMsg
        end
      else let* (v, _) := read_value ty d in Ok v
    else if td_elems t <? 0 then Panic       (* make with a negative length *)
    else if td_type t =? T_string then
      let* (l, _) := read_string_elems (Z.to_nat (td_elems t)) d in Ok (GList (map GStr l))
    else
      let* (vs, _) := read_values (Z.to_nat (td_elems t)) ty d in Ok (GList vs)
  end.

(** The loop L918-1023; [offs] is the offset table from entry i on. *)
Fixpoint decode_subs (rb : bytes) (offs : list Z) (tis : list (tag_desc * ioi)) : res (list gval) :=
  match offs with
  | [] => Ok []
  | o :: r =>
      let* b := slice_off rb ((o + 10) mod 65536) in
      let* v := decode_sub (hd_error tis) b in
      let* vs := decode_subs rb r (tl tis) in Ok (v :: vs)
  end.

(** [n] uint16 values. *)
Fixpoint read_u16s (n : nat) (r : bytes) : list Z :=
  match n with
  | O => []
  | S k => unle (firstn 2 r) :: read_u16s k (skipn 2 r)
  end.

(** L877-916: the reply header, the offset table and the item's bytes.  The reads
    up to the status succeed together when 6 bytes are there. *)
Definition parse_multi_reply (payload : bytes) (tis : list (tag_desc * ioi)) : res (list gval) :=
  let* its := reply_items payload in
  match its with
  | [_; it] =>
      let d := it_data it in
      if len d <? 6 then Err EShort else
      let st := unle (firstn 2 (skipn 4 d)) in
      if negb (st =? 0) then Err (EStatus st) else
      if len d <? 8 then Err EShort else
      let n := Z.to_nat (unle (firstn 2 (skipn 6 d))) in
      let* (tbl, _) := rd (2 * n) (skipn 8 d) in
      decode_subs (item_bytes it) (read_u16s n tbl) tis
  | _ => Err EMsg
  end.

(** Client.readList, read.go L777-1028.  [fuel] bounds the depth of the recursion,
    which Go does not.  [cs] is ConnectionSize. *)
Fixpoint read_list {S} (fuel : nat) (ctl : controller S) (c : client) (s : S) (otid q cs : Z)
    (tags : list tag_desc) : res (list gval) * S * Z :=
  match fuel with
  | O => (OutOfFuel, s, q)
  | Datatypes.S k =>
    match iois_of c tags with
    | Ok iois =>
      let tis := combine tags iois in
      let subs := map sub_request tis in
      match split_at cs 0 subs 0 with
      | Some i =>
          match read_list k ctl c s otid (q + 1) cs (firstn i tags) with
          | (Ok r0, s1, q1) =>
              match read_list k ctl c s1 otid q1 cs (skipn i tags) with
              | (Ok r1, s2, q2) => (Ok (r0 ++ r1), s2, q2)
              | e => e
              end
          | e => e
          end
      | None =>
          match ctl s (multi_request_bytes otid q subs) with
          | (Ok (eip, payload), s1) =>
              if negb (eip =? 0) then (Err (EStatus eip), s1, q + 1)
              else (parse_multi_reply payload tis, s1, q + 1)
          | (Err e, s1) => (Err e, s1, q + 1)
          | (Panic, s1) => (Panic, s1, q + 1)
          | (OutOfFuel, s1) => (OutOfFuel, s1, q + 1)
          end
      end
    | Err e => (Err e, s, q)
    | Panic => (Panic, s, q)
    | OutOfFuel => (OutOfFuel, s, q)
    end
  end.

(** countIOIsThatFit, partialread.go L91-164: [n] is the Go n, [b] is b.Len(),
    [rs] response_size, [i] the loop index. *)
Fixpoint count_fit_loop (c : client) (cs : Z) (tags : list tag_desc) (i : nat) (n : nat) (b rs : Z) : res nat :=
  match tags with
  | [] => Ok n
  | t :: r =>
      let* io := fst (new_ioi c (td_name t) (td_type t)) in
      let new_size := 10 + 2 * Z.of_nat n + b + (2 + len (ioi_buf io) + 2) in
      let rs' := rs + type_size (td_type t) * td_elems t in
      if (cs <=? new_size) || (cs <=? rs') then Ok n
      else count_fit_loop c cs r (S i) (S i) (b + (2 + len (ioi_buf io) + 2)) rs'
  end.
Definition count_fit (c : client) (cs : Z) (tags : list tag_desc) : res nat := count_fit_loop c cs tags 0 1 0 0.

(** The loop of ReadList (partialread.go L72-85) and of ReadMap (read.go
    L1133-1149).  One sequence number goes to countIOIsThatFit.  [fuel] is also
    the bound given to each readList. *)
Fixpoint read_batches {S} (fuel : nat) (ctl : controller S) (c : client) (s : S) (otid q cs : Z)
    (tags : list tag_desc) : res (list gval) * S * Z :=
  match tags with
  | [] => (Ok [], s, q)
  | _ =>
    match fuel with
    | O => (OutOfFuel, s, q)
    | Datatypes.S k =>
      match count_fit c cs tags with
      | Ok n =>
        match read_list k ctl c s otid (q + 1) cs (firstn n tags) with
        | (Ok r0, s1, q1) =>
            match read_batches k ctl c s1 otid q1 cs (skipn n tags) with
            | (Ok r1, s2, q2) => (Ok (r0 ++ r1), s2, q2)
            | e => e
            end
        | e => e
        end
      | Err e => (Err e, s, q + 1)
      | Panic => (Panic, s, q + 1)
      | OutOfFuel => (OutOfFuel, s, q + 1)
      end
    end
  end.

(** ReadMap, read.go L1108-1157: [keys] in whatever order the map is walked; the
    new contents of the map. *)
Definition read_map {S} (fuel : nat) (ctl : controller S) (c : client) (s : S) (otid q cs : Z)
    (keys : list tag_desc) : res (list (bytes * gval)) * S * Z :=
  let '(r, s1, q1) := read_batches fuel ctl c s otid q cs keys in
  (match r with
   | Ok vs => if (length keys <? length vs)%nat then Panic   (* indexes[i] *)
              else Ok (combine (map td_name keys) vs)
   | Err e => Err e | Panic => Panic | OutOfFuel => OutOfFuel end, s1, q1).

(** ** ReadMulti, read.go L704-768 *)

(** A field of the destination struct: the gologix tag if any, its Go type and
    current contents.  Embedded structs are not modelled. *)
Inductive ftype := FScalar (k : gokind) | FSlice (k : gokind) | FAny | FStruct (n : nat).
Record field := Field { f_tag : option bytes; f_type : ftype; f_val : gval }.

(** GoVarToCIPType(v) of the field's current value (types.go L22-74), and the
    Struct entry. *)
Definition field_desc (f : field) (name : bytes) : tag_desc :=
  match f_type f, f_val f with
  | FScalar k, _ => TagDesc name (kind_cip k) 1 (SScalar k)
  | FSlice KBool, _ => TagDesc name T_struct 1 (SFixed 0)
  | FSlice k, GList l => TagDesc name (kind_cip k) (len l) (SFixed 0)
  | FSlice k, _ => TagDesc name (kind_cip k) 0 (SFixed 0)
  | FAny, _ => TagDesc name T_unknown 1 SNil
  | FStruct n, _ => TagDesc name T_struct 1 (SFixed n)
  end.

(** tagged fields, in order, with their positions (L722-745). *)
Fixpoint tagged (fs : list field) (i : nat) : list (bytes * nat * field) :=
  match fs with
  | [] => []
  | f :: r => match f_tag f with
              | Some t => if (length t =? 0)%nat then tagged r (S i) else (t, i, f) :: tagged r (S i)
              | None => tagged r (S i)
              end
  end.
(** tag_map[tag]: the last field with that name. *)
Definition tag_map (tl : list (bytes * nat * field)) (t : bytes) : option nat :=
  fold_left (fun acc x => if bseq (fst (fst x)) t then Some (snd (fst x)) else acc) tl None.

(** reflect Value.Set: identical types, or a panic. *)
Definition fits_type (ft : ftype) (v : gval) : bool :=
  match ft, v with
  | FScalar KString, GStr _ => true
  | FScalar k, _ => has_kind k v
  | FAny, GNil => false
  | FAny, _ => true
  | FStruct n, GStructV l => (length l =? n)%nat
  | _, _ => false
  end.
(** The slice loop L758-761. *)
Fixpoint set_slice (k : gokind) (old new : list gval) : res (list gval) :=
  match old, new with
  | [], _ => Ok []
  | _ :: _, [] => Panic
  | _ :: o, v :: n => if fits_type (FScalar k) v then let* r := set_slice k o n in Ok (v :: r) else Panic
  end.
Definition set_field (f : field) (v : gval) : res field :=
  match f_type f, f_val f, v with
  | FSlice k, GList l, GList vs =>
      let* r := set_slice k l vs in Ok (Field (f_tag f) (f_type f) (GList r))
  | FSlice _, GList [], _ => Ok f
  | FSlice _, _, _ => Panic
  | t, _, v => if fits_type t v then Ok (Field (f_tag f) t v) else Panic
  end.
Fixpoint set_nth (fs : list field) (n : nat) (v : gval) : res (list field) :=
  match fs, n with
  | [], _ => Panic
  | f :: r, O => let* f' := set_field f v in Ok (f' :: r)
  | f :: r, S k => let* r' := set_nth r k v in Ok (f :: r')
  end.
(** L748-764; a result list that is too short panics. *)
Fixpoint unpack_results (all : list (bytes * nat * field)) (names : list bytes) (vs : list gval) (fs : list field) : res (list field) :=
  match names with
  | [] => Ok fs
  | t :: r =>
      match vs, tag_map all t with
      | v :: vr, Some i => let* fs' := set_nth fs i v in unpack_results all r vr fs'
      | _, _ => Panic
      end
  end.
Definition read_multi {S} (fuel : nat) (ctl : controller S) (c : client) (s : S) (otid q cs : Z)
    (fs : list field) : res (list field) * S * Z :=
  let tl := tagged fs 0 in
  let descs := map (fun x => field_desc (snd x) (fst (fst x))) tl in
  let '(r, s1, q1) := read_list fuel ctl c s otid q cs descs in
  (let* vs := r in unpack_results tl (map (fun x => fst (fst x)) tl) vs fs, s1, q1).
