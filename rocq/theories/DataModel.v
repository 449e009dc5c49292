(** * Data table buffers (datatable.go) *)
From Verif Require Import GoBase SegModel IoiModel TypesModel ItemsModel ReadModel AttrModel GroupModel.

(** dataTablePath, L61-65. *)
Definition table_path (inst : Z) : bytes := [0x20; 0xB2; 0x25; 0x00] ++ le 2 inst.

(** dataTableTypeSize, L73-86. *)
Definition table_type_size (t : Z) : res Z :=
  if (t =? T_string) || (t =? T_struct) then Ok 88
  else if type_size t =? 0 then Err EMsg else Ok (type_size t mod 2 ^ 16).
(** resolveTypeSize, L95-103.  [usize n]: UDT.Info.SizeBytes of the known tag
    called n (in lower case), 0 if there is none. *)
Definition resolve_size (usize : bytes -> Z) (name : bytes) (t : Z) : res Z :=
  if ((t =? T_string) || (t =? T_struct)) && (0 <? usize (lower name)) then Ok (usize (lower name) mod 2 ^ 16)
  else table_type_size t.

(** decodeDataTableValue, L110-126. *)
Definition decode_table (t : Z) (raw : bytes) : res gval :=
  if (t =? T_string) || (t =? T_struct) then
    if len raw <? 4 then Err EMsg else
    let n := unle (firstn 4 raw) in
    let n := if len raw - 4 <? n then len raw - 4 else n in
    let n := if 82 <? n then 82 else n in
    Ok (GStr (firstn (Z.to_nat n) (skipn 4 raw)))
  else let* (v, _) := read_value t raw in Ok v.

(** DataTableBufferTag, L14-23, without Var: see RefModel. *)
Record btag := BTag { b_name : bytes; b_type : Z; b_size : Z; b_index : Z; b_ioi : bytes; b_batch : Z; b_sync : bool }.
(** DataTableBuffer, L37-49. *)
Record buf := Buf { u_inst : Z; u_tags : list btag; u_exp : list (bytes * list bytes); u_created : bool; u_sync : bool }.

(** A reply whose first two bytes are looked at (L149, L238). *)
Definition reply_word {S} (x : res item * S * Z) : res Z * S * Z :=
  let '(r, s, q) := x in (match r with Ok it => fst (item_uint 2 it) | Err e => Err e | Panic => Panic | OutOfFuel => OutOfFuel end, s, q).

(** NewDataTableBuffer and CreateDataTableBuffer, L137-157, L311-323. *)
Definition new_buffer {S} (ctl : controller S) (s : S) (otid q : Z) : res buf * S * Z :=
  let '(r, s1, q1) := reply_word (generic ctl s otid q 0x08 (table_path 0) [1; 0; 3; 0; 3; 0]) in
  (match r with Ok i => Ok (Buf i [] [] true false) | Err e => Err e | Panic => Panic | OutOfFuel => OutOfFuel end, s1, q1).

(** AddTag, L364-395 (AddTagRef, L328-357, is the same for the type of its
    argument). *)
Definition slot_of (c : client) (usize : bytes -> Z) (name : bytes) (t index : Z) : res btag :=
  let* i := fst (new_ioi c name t) in
  let* z := resolve_size usize name t in
  Ok (BTag name t z index (ioi_buf i) 0 false).
Definition with_tags (u : buf) (ts : list btag) (sync : bool) : buf := Buf (u_inst u) ts (u_exp u) (u_created u) sync.
Definition add_tag (c : client) (usize : bytes -> Z) (u : buf) (name : bytes) (t : Z) : res unit * buf :=
  if negb (u_created u) then (Err EMsg, u) else
  match slot_of c usize name t ((len (u_tags u) + 1) mod 2 ^ 16) with
  | Ok b => (Ok tt, with_tags u (u_tags u ++ [b]) false)
  | Err e => (Err e, u) | Panic => (Panic, u) | OutOfFuel => (OutOfFuel, u)
  end.

(** AddTags, L430-486; [l] the map in the order it is walked. *)
Fixpoint slots_of (c : client) (usize : bytes -> Z) (l : list (bytes * Z)) (base : Z) : res (list btag) :=
  match l with
  | [] => Ok []
  | (n, t) :: r => let* b := slot_of c usize n t (base mod 2 ^ 16) in
                   let* bs := slots_of c usize r (base + 1) in Ok (b :: bs)
  end.
Definition add_tags (c : client) (usize : bytes -> Z) (u : buf) (l : list (bytes * Z)) : res unit * buf :=
  if negb (u_created u) then (Err EMsg, u) else
  match slots_of c usize l (len (u_tags u) + 1) with
  | Ok bs => (Ok tt, with_tags u (u_tags u ++ bs) false)
  | Err e => (Err e, u) | Panic => (Panic, u) | OutOfFuel => (OutOfFuel, u)
  end.

(** DataTableAddTags, L201-243, and SyncTags, L397-421.  Not guarded by created. *)
Definition add_entry (b : btag) : bytes := le 2 (b_size b) ++ [len (b_ioi b) / 2 mod 256] ++ b_ioi b.
Definition add_message (l : list btag) : bytes := [2; 0; 1; 1; len l mod 256] ++ concat (map add_entry l).
Definition synched (batch : Z) (b : btag) : btag :=
  if b_sync b then b else BTag (b_name b) (b_type b) (b_size b) (b_index b) (b_ioi b) batch true.
Definition sync_tags {S} (ctl : controller S) (s : S) (otid q : Z) (u : buf) : res unit * buf * S * Z :=
  let fresh := filter (fun b => negb (b_sync b)) (u_tags u) in
  let '(r, s1, q1) := reply_word (generic ctl s otid q 0x4E (table_path (u_inst u)) (add_message fresh)) in
  match r with
  | Ok batch => (Ok tt, with_tags u (map (synched batch) (u_tags u)) true, s1, q1)
  | Err e => (Err e, u, s1, q1) | Panic => (Panic, u, s1, q1) | OutOfFuel => (OutOfFuel, u, s1, q1)
  end.

(** The read loop, L531-571 and L620-643: batch headers are skipped where the
    batch changes.  sort.Slice (L527) is not stable, but tags with one index would
    be needed for that to matter; here the sort is stable. *)
Fixpoint ins (b : btag) (l : list btag) : list btag :=
  match l with
  | [] => [b]
  | x :: r => if b_index b <? b_index x then b :: l else x :: ins b r
  end.
Definition by_index (l : list btag) : list btag := fold_left (fun acc b => ins b acc) l [].
Fixpoint put {A} (k : bytes) (v : A) (m : list (bytes * A)) : list (bytes * A) :=
  match m with
  | [] => [(k, v)]
  | (k', v') :: r => if bseq k k' then (k, v) :: r else (k', v') :: put k v r
  end.
Fixpoint read_slots {A} (f : Z -> bytes -> res A) (l : list btag) (cur : Z) (it : item) (acc : list (bytes * A)) : res (list (bytes * A)) :=
  match l with
  | [] => Ok acc
  | b :: r =>
      let '(h, it1) := if b_batch b =? cur then (Ok 0, it) else item_uint 2 it in
      let* _ := h in
      if len (it_data it1) <? it_pos it1 + b_size b then Err EShort else
      let raw := firstn (Z.to_nat (b_size b)) (skipn (Z.to_nat (it_pos it1)) (it_data it1)) in
      let* v := f (b_type b) raw in
      read_slots f r (b_batch b) (item_at it1 (it_pos it1 + b_size b)) (put (b_name b) v acc)
  end.

(** ReadAll, L510-574 ([f] = decode_table), and ReadAllRaw, L599-646. *)
Definition read_with {S A} (f : Z -> bytes -> res A) (ctl : controller S) (s : S) (otid q : Z) (u : buf)
    : res (list (bytes * A)) * buf * S * Z :=
  if negb (u_created u) then (Err EMsg, u, s, q) else
  match u_tags u with
  | [] => (Err EMsg, u, s, q)
  | _ =>
      let '(r0, u1, s1, q1) := if u_sync u then (Ok tt, u, s, q) else sync_tags ctl s otid q u in
      match r0 with
      | Ok _ =>
          let '(r, s2, q2) := generic ctl s1 otid q1 0x4C (table_path (u_inst u1)) [] in
          (match r with
           | Ok it => read_slots f (by_index (u_tags u1)) 0 it []
           | Err e => Err e | Panic => Panic | OutOfFuel => OutOfFuel end, u1, s2, q2)
      | Err e => (Err e, u1, s1, q1) | Panic => (Panic, u1, s1, q1) | OutOfFuel => (OutOfFuel, u1, s1, q1)
      end
  end.
Definition read_all {S} (ctl : controller S) := read_with (S := S) decode_table ctl.
Definition read_all_raw {S} (ctl : controller S) := read_with (S := S) (fun _ raw => Ok raw) ctl.

(** RemoveTag, L650-674, with DataTableRemoveTag, L273-291. *)
Fixpoint find_tag (name : bytes) (l : list btag) : option (list btag * btag * list btag) :=
  match l with
  | [] => None
  | b :: r => if bseq (b_name b) name then Some ([], b, r)
              else match find_tag name r with Some (p, x, z) => Some (b :: p, x, z) | None => None end
  end.
Definition remove_tag {S} (ctl : controller S) (s : S) (otid q : Z) (u : buf) (name : bytes) : res unit * buf * S * Z :=
  if negb (u_created u) then (Err EMsg, u, s, q) else
  match find_tag name (u_tags u) with
  | None => (Err EMsg, u, s, q)
  | Some (p, b, z) =>
      let '(r, s1, q1) := generic ctl s otid q 0x4F (table_path (u_inst u)) (le 2 (b_index b)) in
      match r with
      | Ok _ => (Ok tt, with_tags u (p ++ z) (u_sync u), s1, q1)
      | Err e => (Err e, u, s1, q1) | Panic => (Panic, u, s1, q1) | OutOfFuel => (OutOfFuel, u, s1, q1)
      end
  end.

(** Close, L678-688, with DeleteDataTableBuffer, L161-175. *)
Definition close {S} (ctl : controller S) (s : S) (otid q : Z) (u : buf) : res unit * buf * S * Z :=
  if negb (u_created u) then (Ok tt, u, s, q) else
  let '(r, s1, q1) := generic ctl s otid q 0x09 (table_path (u_inst u)) [] in
  (match r with Ok _ => Ok tt | Err e => Err e | Panic => Panic | OutOfFuel => OutOfFuel end,
   Buf (u_inst u) (u_tags u) (u_exp u) false (u_sync u), s1, q1).

(** AddTagGroup, L705-733; [order]: how the map is walked. *)
Definition group_names (d : tag_def) (args : list bytes) : bytes * list bytes :=
  let n := format_name (df_name d) args in
  (n, if 1 <? df_elems d then expand_array n (df_elems d) else [n]).
Definition add_group (c : client) (usize : bytes -> Z) (u : buf) (group : list tag_def) (args : list bytes)
    (order : list (bytes * Z) -> list (bytes * Z)) : res unit * buf :=
  if negb (u_created u) then (Err EMsg, u) else
  let exp := fold_left (fun m d => let '(n, l) := group_names d args in put n l m) group (u_exp u) in
  let tags := fold_left (fun m d => fold_left (fun m n => put n (df_type d) m) (snd (group_names d args)) m) group [] in
  add_tags c usize (Buf (u_inst u) (u_tags u) exp (u_created u) (u_sync u)) (order tags).

(** ReadAllTyped, L830-884; [order]: how the expansions are walked.  A result
    slice is a []any. *)
Fixpoint lookup_all (m : list (bytes * gval)) (l : list bytes) : res (list gval) :=
  match l with
  | [] => Ok []
  | n :: r => match lookup n m with Some v => let* vs := lookup_all m r in Ok (v :: vs) | None => Err EMsg end
  end.
Fixpoint collapse (m : list (bytes * gval)) (l : list (bytes * list bytes)) (acc : list (bytes * gval)) : res (list (bytes * gval)) :=
  match l with
  | [] => Ok acc
  | (base, ns) :: r =>
      let* vs := lookup_all m ns in
      match vs with
      | [] => collapse m r acc
      | [v] => collapse m r (put base v acc)
      | _ => collapse m r (put base (GList vs) acc)
      end
  end.
Definition typed (m : list (bytes * gval)) (exp : list (bytes * list bytes)) : res (list (bytes * gval)) :=
  let* acc := collapse m exp [] in
  let consumed := concat (map snd exp) in
  Ok (fold_left (fun a kv => if existsb (bseq (fst kv)) consumed then a else put (fst kv) (snd kv) a) m acc).
Definition read_all_typed {S} (ctl : controller S) (s : S) (otid q : Z) (u : buf)
    (order : list (bytes * list bytes) -> list (bytes * list bytes)) : res (list (bytes * gval)) * buf * S * Z :=
  let '(r, u1, s1, q1) := read_all ctl s otid q u in
  (match r with
   | Ok m => match u_exp u1 with [] => Ok m | _ => typed m (order (u_exp u1)) end
   | e => e end, u1, s1, q1).

(** ** A buffer's life *)
Inductive op :=
| OAdd (name : bytes) (t : Z)
| OAddMap (l : list (bytes * Z))
| OAddGroup (group : list tag_def) (args : list bytes) (order : list (bytes * Z) -> list (bytes * Z))
| OSync
| ORead
| OReadRaw
| ORemove (name : bytes)
| OClose.
Definition forget {A} (r : res A) : res unit := match r with Ok _ => Ok tt | Err e => Err e | Panic => Panic | OutOfFuel => OutOfFuel end.
Definition step {S} (ctl : controller S) (c : client) (usize : bytes -> Z) (otid : Z) (o : op) (u : buf) (s : S) (q : Z)
    : res unit * buf * S * Z :=
  match o with
  | OAdd n t => let '(r, u1) := add_tag c usize u n t in (r, u1, s, q)
  | OAddMap l => let '(r, u1) := add_tags c usize u l in (r, u1, s, q)
  | OAddGroup g a ord => let '(r, u1) := add_group c usize u g a ord in (r, u1, s, q)
  | OSync => sync_tags ctl s otid q u
  | ORead => let '(r, u1, s1, q1) := read_all ctl s otid q u in (forget r, u1, s1, q1)
  | OReadRaw => let '(r, u1, s1, q1) := read_all_raw ctl s otid q u in (forget r, u1, s1, q1)
  | ORemove n => remove_tag ctl s otid q u n
  | OClose => close ctl s otid q u
  end.
(** A program that does all of [ops], whatever they return. *)
Fixpoint run {S} (ctl : controller S) (c : client) (usize : bytes -> Z) (otid : Z) (ops : list op) (u : buf) (s : S) (q : Z)
    : list (res unit) * buf * S * Z :=
  match ops with
  | [] => ([], u, s, q)
  | o :: r => let '(x, u1, s1, q1) := step ctl c usize otid o u s q in
              let '(xs, u2, s2, q2) := run ctl c usize otid r u1 s1 q1 in (x :: xs, u2, s2, q2)
  end.
