(** * Tag groups (taggroup.go, taggroup_readmap.go) *)
From Verif Require Import GoBase SegModel IoiModel TypesModel ReadModel BatchModel WriteModel.

(** TagDef, taggroup.go L10-14. *)
Record tag_def := TagDef { df_name : bytes; df_type : Z; df_elems : Z }.

(** NewTagGroup, L25-34.  The caller's slice is copied first. *)
Definition normalise (d : tag_def) : tag_def :=
  TagDef (df_name d) (df_type d) (if df_elems d <=? 0 then 1 else df_elems d).
Definition new_tag_group (defs : list tag_def) : list tag_def := map normalise defs.

(** strings.ReplaceAll(s, old, new) for a non-empty [old]: left to right, without
    overlaps.  [skip] characters belong to a match already replaced. *)
Fixpoint replace_go (old new : bytes) (skip : nat) (s : bytes) : bytes :=
  match s with
  | [] => []
  | c :: t =>
      match skip with
      | S k => replace_go old new k t
      | O => if has_prefix old s then new ++ replace_go old new (List.length old - 1) t
             else c :: replace_go old new O t
      end
  end.
Definition replace_all (old new s : bytes) : bytes := replace_go old new O s.

(** formatName, L45-52; the arguments are given as fmt's %v prints them. *)
Definition placeholder (i : Z) : bytes := [123] ++ dec i ++ [125].
Fixpoint format_from (i : Z) (s : bytes) (args : list bytes) : bytes :=
  match args with
  | [] => s
  | a :: r => format_from (i + 1) (replace_all (placeholder i) a s) r
  end.
Definition format_name (template : bytes) (args : list bytes) : bytes := format_from 0 template args.

(** 0, 1, ... n-1. *)
Fixpoint upto_from (i : Z) (n : nat) : list Z := match n with O => [] | S k => i :: upto_from (i + 1) k end.
Definition upto (n : Z) : list Z := upto_from 0 (Z.to_nat n).

(** expandArrayTag, L121-161. *)
Definition expand_array (base : bytes) (count : Z) : list bytes :=
  if count <=? 1 then [base] else
  let '(d, ok) := parse_part base in
  match ok, pd_order d with
  | true, (_ :: _) as order =>
      match last_index_of c_lb base with
      | None => repeat base (Z.to_nat count)
      | Some n =>
          let prefix := firstn n base in
          map (fun i => prefix ++ [c_lb] ++ join c_comma (map dec (removelast order ++ [last order 0 + i])) ++ [c_rb]) (upto count)
      end
  | _, _ => repeat base (Z.to_nat count)
  end.

(** zeroValueForTagDef, L57-115: the Go type of the zero value. *)
Definition zero_kind (array : bool) (t : Z) : gokind :=
  if t =? T_bool then KBool else
  if t =? T_sint then KInt true 1 else
  if (t =? T_byte) || (t =? T_usint) then KInt false 1 else
  if t =? T_int then KInt true 2 else
  if (t =? T_uint) || (negb array && (t =? T_word)) then KInt false 2 else
  if t =? T_dint then KInt true 4 else
  if (t =? T_udint) || (t =? T_dword) then KInt false 4 else
  if t =? T_lint then KInt true 8 else
  if (t =? T_lword) || (t =? T_ulint) then KInt false 8 else
  if t =? T_real then KFloat 4 else
  if t =? T_lreal then KFloat 8 else
  if t =? T_string then KString else KInt true 4.
Definition zero_type (d : tag_def) : gotype :=
  if 1 <? df_elems d then GoSlice (zero_kind true (df_type d)) (df_elems d)
  else GoScalar (zero_kind false (df_type d)).
(** The entry ReadMap (read.go L1113-1127) makes of it. *)
Definition zero_desc (name : bytes) (d : tag_def) : tag_desc :=
  TagDesc name (fst (go_to_cip (zero_type d))) (snd (go_to_cip (zero_type d)))
    (match zero_type d with GoScalar k => SScalar k | _ => SFixed 0 end).

(** ReadTagGroup, taggroup_readmap.go L21-41.  The map is keyed by name: a later
    definition of the same name replaces an earlier one.  [order]: how the map
    happens to be walked. *)
Fixpoint put_desc (k : bytes) (v : tag_desc) (d : list (bytes * tag_desc)) : list (bytes * tag_desc) :=
  match d with
  | [] => [(k, v)]
  | (k', v') :: r => if bseq k' k then (k, v) :: r else (k', v') :: put_desc k v r
  end.
Definition group_keys (group : list tag_def) (args : list bytes) : list (bytes * tag_desc) :=
  fold_left (fun m d => let n := format_name (df_name d) args in put_desc n (zero_desc n d) m) group [].
Definition read_tag_group {S} (fuel : nat) (ctl : controller S) (c : client) (s : S) (otid q cs : Z)
    (group : list tag_def) (args : list bytes) (order : list tag_desc -> list tag_desc) : res (list (bytes * gval)) * S * Z :=
  read_map fuel ctl c s otid q cs (order (map snd (group_keys group args))).

(** ** TagGroupResult, L167-330 *)

(** What a result holds: a value, or a slice of one Go type. *)
Inductive held := HVal (v : gval) | HSlice (k : gokind) (l : list gval).
Definition result := list (bytes * held).

Definition get_string (r : result) (n : bytes) : res bytes :=
  match lookup n r with Some (HVal (GStr s)) => Ok s | _ => Err EMsg end.
Definition get_bool (r : result) (n : bytes) : res bool :=
  match lookup n r with Some (HVal (GBool b)) => Ok b | _ => Err EMsg end.
Definition get_int16 (r : result) (n : bytes) : res Z :=
  match lookup n r with Some (HVal (GInt true 2 z)) => Ok z | _ => Err EMsg end.
Definition get_int32 (r : result) (n : bytes) : res Z :=
  match lookup n r with Some (HVal (GInt true 4 z)) => Ok z | _ => Err EMsg end.
Definition get_uint32 (r : result) (n : bytes) : res Z :=
  match lookup n r with
  | Some (HVal (GInt false 4 z)) => Ok z
  | Some (HVal (GInt true 4 z)) => Ok (uns 32 z)
  | _ => Err EMsg
  end.
Definition get_float (w : nat) (r : result) (n : bytes) : res Z :=
  match lookup n r with
  | Some (HVal (GFloat w' z)) => if (w =? w')%nat then Ok z else Err EMsg
  | _ => Err EMsg
  end.
(** The element loop of Int32Slice (L300-312) and Float32Slice. *)
Fixpoint all_of (f : gval -> option Z) (l : list gval) : res (list Z) :=
  match l with
  | [] => Ok []
  | v :: r => match f v with Some z => let* zs := all_of f r in Ok (z :: zs) | None => Err EMsg end
  end.
Definition as_int32 (v : gval) : option Z := match v with GInt true 4 z => Some z | _ => None end.
Definition as_float32 (v : gval) : option Z := match v with GFloat 4 z => Some z | _ => None end.
Definition kind_is (a b : gokind) : bool :=
  match a, b with
  | KBool, KBool => true
  | KInt s w, KInt s' w' => Bool.eqb s s' && (w =? w')%nat
  | KFloat w, KFloat w' => (w =? w')%nat
  | KString, KString => true
  | _, _ => false
  end.
Definition get_slice (k : gokind) (f : gval -> option Z) (r : result) (n : bytes) : res (list Z) :=
  match lookup n r with
  | Some (HSlice k' l) => if kind_is k k' then all_of f l else Err EMsg
  | Some (HVal (GList l)) => all_of f l
  | _ => Err EMsg
  end.
Definition get_int32s := get_slice (KInt true 4) as_int32.
Definition get_float32s := get_slice (KFloat 4) as_float32.
