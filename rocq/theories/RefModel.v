(** * Variables behind data table tags (datatable.go Var, setGoVar, AddTagRef,
    AddTaggedStruct) *)
From Verif Require Import GoBase IoiModel TypesModel ItemsModel ReadModel AttrModel GroupModel DataModel.
From Verif Require ProvModel.

(** The program's variables: cell [a] of the heap.  A struct's fields, the
    elements of slices and of arrays are cells of their own. *)
Definition heap := list gval.
(** What a pointer points to: a scalar or string of kind [k], an interface
    variable, or something else (a slice, an array, a struct, a pointer). *)
Inductive pointee := PKind (k : gokind) | PAny | POther.
(** The Var field of a DataTableBufferTag, L22: nil, a pointer, a nil pointer,
    anything else. *)
Inductive var := VNone | VPtr (p : pointee) (a : nat) | VNilPtr (p : pointee) | VValue (g : gotype).

(** AssignableTo, L586: the same type, or any type to an interface. *)
Definition has_type (k : gokind) (v : gval) : bool :=
  match k, v with
  | KBool, GBool _ => true
  | KInt s w, GInt s' w' _ => Bool.eqb s s' && (w =? w')%nat
  | KFloat w, GFloat w' _ => (w =? w')%nat
  | KString, GStr _ => true
  | _, _ => false
  end.
Definition assignable (p : pointee) (v : gval) : bool :=
  match p with PKind k => has_type k v | PAny => true | POther => false end.
(** setGoVar, L576-590, for a Var that is not nil; the Elem of a nil pointer
    cannot be set (L581).  A nil value has no type (L585). *)
Definition set_go_var (d : var) (v : gval) (hp : heap) : res unit * heap :=
  match d with
  | VNone | VValue _ | VNilPtr _ => (Err EMsg, hp)
  | VPtr p a =>
      match v with
      | GNil => (Panic, hp)
      | _ => if assignable p v then (Ok tt, ProvModel.setn hp a v) else (Err EMsg, hp)
      end
  end.

(** A buffer with the Var of each tag. *)
Record rbuf := RBuf { r_buf : buf; r_vars : list var }.

(** The loop of ReadAll, L531-571, over the tags sorted by index (L527). *)
Fixpoint ins_ref (b : btag * var) (l : list (btag * var)) : list (btag * var) :=
  match l with
  | [] => [b]
  | x :: r => if b_index (fst b) <? b_index (fst x) then b :: l else x :: ins_ref b r
  end.
Definition by_index_ref (l : list (btag * var)) : list (btag * var) := fold_left (fun acc b => ins_ref b acc) l [].
Fixpoint read_refs (l : list (btag * var)) (cur : Z) (it : item) (acc : list (bytes * gval)) (hp : heap) : res (list (bytes * gval)) * heap :=
  match l with
  | [] => (Ok acc, hp)
  | (b, d) :: r =>
      let '(h, it1) := if b_batch b =? cur then (Ok 0, it) else item_uint 2 it in
      match h with
      | Ok _ =>
          if len (it_data it1) <? it_pos it1 + b_size b then (Err EShort, hp) else
          let raw := firstn (Z.to_nat (b_size b)) (skipn (Z.to_nat (it_pos it1)) (it_data it1)) in
          match decode_table (b_type b) raw with
          | Ok v =>
              let '(x, hp1) := match d with VNone => (Ok tt, hp) | _ => set_go_var d v hp end in
              match x with
              | Ok _ => read_refs r (b_batch b) (item_at it1 (it_pos it1 + b_size b)) (put (b_name b) v acc) hp1
              | Err e => (Err e, hp1) | Panic => (Panic, hp1) | OutOfFuel => (OutOfFuel, hp1)
              end
          | Err e => (Err e, hp) | Panic => (Panic, hp) | OutOfFuel => (OutOfFuel, hp)
          end
      | Err e => (Err e, hp) | Panic => (Panic, hp) | OutOfFuel => (OutOfFuel, hp)
      end
  end.
(** ReadAll, L510-574. *)
Definition read_all_ref {S} (ctl : controller S) (s : S) (otid q : Z) (u : rbuf) (hp : heap)
    : res (list (bytes * gval)) * rbuf * S * Z * heap :=
  if negb (u_created (r_buf u)) then (Err EMsg, u, s, q, hp) else
  match u_tags (r_buf u) with
  | [] => (Err EMsg, u, s, q, hp)
  | _ =>
      let '(r0, u1, s1, q1) := if u_sync (r_buf u) then (Ok tt, r_buf u, s, q) else sync_tags ctl s otid q (r_buf u) in
      match r0 with
      | Ok _ =>
          let '(r, s2, q2) := generic ctl s1 otid q1 0x4C (table_path (u_inst u1)) [] in
          match r with
          | Ok it => let '(x, hp1) := read_refs (by_index_ref (combine (u_tags u1) (r_vars u))) 0 it [] hp in (x, RBuf u1 (r_vars u), s2, q2, hp1)
          | Err e => (Err e, RBuf u1 (r_vars u), s2, q2, hp)
          | Panic => (Panic, RBuf u1 (r_vars u), s2, q2, hp)
          | OutOfFuel => (OutOfFuel, RBuf u1 (r_vars u), s2, q2, hp)
          end
      | Err e => (Err e, RBuf u1 (r_vars u), s1, q1, hp)
      | Panic => (Panic, RBuf u1 (r_vars u), s1, q1, hp)
      | OutOfFuel => (OutOfFuel, RBuf u1 (r_vars u), s1, q1, hp)
      end
  end.

(** GoVarToCIPType of what Var holds: it looks through pointers to scalars and
    strings only (types.go L22-74). *)
Definition var_cip (d : var) : Z :=
  match d with
  | VNone => T_unknown
  | VPtr (PKind k) _ | VNilPtr (PKind k) => kind_cip k
  | VPtr _ _ | VNilPtr _ => T_struct
  | VValue g => fst (go_to_cip g)
  end.
(** AddTagRef, L327-357; adding without references, L364-395 and L430-486. *)
Definition add_tag_ref (c : client) (usize : bytes -> Z) (u : rbuf) (name : bytes) (d : var) : res unit * rbuf :=
  match add_tag c usize (r_buf u) name (var_cip d) with
  | (Ok _, b) => (Ok tt, RBuf b (r_vars u ++ [d]))
  | (x, b) => (x, RBuf b (r_vars u))
  end.
Definition add_plain (u : rbuf) (x : res unit * buf) : res unit * rbuf :=
  let '(r, b) := x in
  (r, RBuf b (r_vars u ++ repeat VNone (length (u_tags b) - length (u_tags (r_buf u))))).

(** ** Structs *)

(** A field's value: a scalar or string; a slice with its elements; a pointer to
    a scalar; an interface holding a value of type [g]; an array, a struct,
    anything else; [a] is the cell of the field itself. *)
Inductive fval :=
| FScalar (k : gokind) (a : nat)
| FSlice (k : gokind) (a : nat) (cells : list nat)
| FPtr (k : gokind) (a : nat)
| FAny (g : gotype) (a : nat)
| FOther (a : nat).
(** A field: its gologix struct tag if any, whether it is exported; an embedded
    struct has fields. *)
Inductive sfield :=
| SField (tag : option bytes) (exported : bool) (v : fval)
| SEmbed (tag : option bytes) (exported : bool) (a : nat) (l : list sfield).
(** reflect.VisibleFields (L775): an embedded field is followed by its own. *)
Fixpoint visible (f : sfield) : list (option bytes) :=
  match f with
  | SField t _ _ => [t]
  | SEmbed t _ _ l => t :: (fix go (l : list sfield) := match l with [] => [] | x :: r => visible x ++ go r end) l
  end.
(** v.Field(i) (L788): exported, value. *)
Definition direct (f : sfield) : bool * fval :=
  match f with SField _ e v => (e, v) | SEmbed _ e a _ => (e, FOther a) end.
(** GoVarToCIPType(fieldVal.Interface()), L789. *)
Definition field_type (v : fval) : gotype :=
  match v with
  | FScalar k _ | FPtr k _ => GoScalar k
  | FSlice k _ l => GoSlice k (len l)
  | FAny g _ => g
  | FOther _ => GoOther
  end.
(** fieldVal.Addr().Interface(), L805. *)
Definition field_ptr (v : fval) : var :=
  match v with
  | FScalar k a => VPtr (PKind k) a
  | FAny _ a => VPtr PAny a
  | FSlice _ a _ | FPtr _ a | FOther a => VPtr POther a
  end.
(** L792-801: only slices give their elements' addresses. *)
Definition slice_ptrs (v : fval) : list var :=
  match v with FSlice k _ l => map (VPtr (PKind k)) l | _ => [] end.

Record gathered := Gathered { ga_exp : list (bytes * list bytes); ga_tags : list (bytes * Z); ga_ptrs : list (bytes * var) }.
Fixpoint put_ptrs (names : list bytes) (ps : list var) (m : list (bytes * var)) : list (bytes * var) :=
  match names, ps with
  | n :: ns, p :: r => put_ptrs ns r (put n p m)
  | _, _ => m
  end.
(** The loop, L779-807, at field [i]; [ptr]: the struct was given by pointer, so
    that its fields have addresses. *)
Fixpoint gather (ptr : bool) (fs : list sfield) (args : list bytes) (vis : list (option bytes)) (i : nat) (g : gathered) : res unit * gathered :=
  match vis with
  | [] => (Ok tt, g)
  | None :: r | Some [] :: r => gather ptr fs args r (S i) g
  | Some t :: r =>
      let name := match args with [] => t | _ => format_name t args end in
      match nth_error fs i with
      | None => (Panic, g)
      | Some f =>
          let '(exported, v) := direct f in
          if negb exported then (Panic, g) else
          let '(ct, n) := go_to_cip (field_type v) in
          if 1 <? n then
            let names := expand_array name n in
            gather ptr fs args r (S i) (Gathered (put name names (ga_exp g)) (fold_left (fun m x => put x ct m) names (ga_tags g))
                                        (put_ptrs names (slice_ptrs v) (ga_ptrs g)))
          else if negb ptr then (Panic, Gathered (put name [name] (ga_exp g)) (put name ct (ga_tags g)) (ga_ptrs g))
          else gather ptr fs args r (S i) (Gathered (put name [name] (ga_exp g)) (put name ct (ga_tags g)) (put name (field_ptr v) (ga_ptrs g)))
      end
  end.
(** AddTaggedStruct, L760-824; [order]: how the map of tags is walked. *)
Definition bind_vars (ptrs : list (bytes * var)) (tags : list btag) (vs : list var) : list var :=
  map (fun x => match lookup (b_name (fst x)) ptrs with Some p => p | None => snd x end) (combine tags vs).
Definition add_struct (c : client) (usize : bytes -> Z) (u : rbuf) (ptr : bool) (fs : list sfield) (args : list bytes)
    (order : list (bytes * Z) -> list (bytes * Z)) : res unit * rbuf :=
  let b := r_buf u in
  if negb (u_created b) then (Err EMsg, u) else
  let '(x, g) := gather ptr fs args (concat (map visible fs)) 0 (Gathered (u_exp b) [] []) in
  let b1 := Buf (u_inst b) (u_tags b) (ga_exp g) (u_created b) (u_sync b) in
  match x with
  | Ok _ =>
      match add_plain (RBuf b1 (r_vars u)) (add_tags c usize b1 (order (ga_tags g))) with
      | (Ok _, u2) => (Ok tt, RBuf (r_buf u2) (bind_vars (ga_ptrs g) (u_tags (r_buf u2)) (r_vars u2)))
      | (e, u2) => (e, u2)
      end
  | e => (e, RBuf b1 (r_vars u))
  end.

(** ** A buffer's life *)
Inductive rop :=
| RDo (o : op)                       (* AddTag, AddTags, AddTagGroup, SyncTags, ReadAllRaw, RemoveTag, Close *)
| RRef (name : bytes) (d : var)
| RStruct (ptr : bool) (fs : list sfield) (args : list bytes) (order : list (bytes * Z) -> list (bytes * Z)).
(** RemoveTag takes the Var away with the tag (L671). *)
Definition drop_var (name : bytes) (u : rbuf) : list var :=
  match find_tag name (u_tags (r_buf u)) with
  | Some (p, _, _) => firstn (length p) (r_vars u) ++ skipn (Datatypes.S (length p)) (r_vars u)
  | None => r_vars u
  end.
Definition rstep {S} (ctl : controller S) (c : client) (usize : bytes -> Z) (otid : Z) (o : rop) (u : rbuf) (s : S) (q : Z) (hp : heap)
    : res unit * rbuf * S * Z * heap :=
  match o with
  | RDo ORead => let '(r, u1, s1, q1, hp1) := read_all_ref ctl s otid q u hp in (forget r, u1, s1, q1, hp1)
  | RDo (ORemove n) =>
      let '(r, b, s1, q1) := remove_tag ctl s otid q (r_buf u) n in
      (r, RBuf b (match r with Ok _ => drop_var n u | _ => r_vars u end), s1, q1, hp)
  | RDo o => let '(r, b, s1, q1) := step ctl c usize otid o (r_buf u) s q in
             (r, snd (add_plain u (r, b)), s1, q1, hp)
  | RRef n d => let '(r, u1) := add_tag_ref c usize u n d in (r, u1, s, q, hp)
  | RStruct ptr fs args order => let '(r, u1) := add_struct c usize u ptr fs args order in (r, u1, s, q, hp)
  end.
Fixpoint rrun {S} (ctl : controller S) (c : client) (usize : bytes -> Z) (otid : Z) (ops : list rop) (u : rbuf) (s : S) (q : Z) (hp : heap)
    : list (res unit) * rbuf * S * Z * heap :=
  match ops with
  | [] => ([], u, s, q, hp)
  | o :: r => let '(x, u1, s1, q1, hp1) := rstep ctl c usize otid o u s q hp in
              let '(xs, u2, s2, q2, hp2) := rrun ctl c usize otid r u1 s1 q1 hp1 in (x :: xs, u2, s2, q2, hp2)
  end.
