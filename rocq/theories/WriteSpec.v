(** * Write requests and replies as 1756-PM020 lays them out *)
From Verif Require Import GoBase IoiSpec TypesModel ItemsSpec ReadSpec WriteModel.
(** (TypesModel and WriteModel for the types of Go values.) *)

(** Write Tag (0x4D): path, type (with a handle for structures), number of
    elements, data. *)
Definition write_service (path type : bytes) (elements : Z) (data : bytes) : bytes :=
  [0x4D; len path / 2] ++ path ++ type ++ le 2 elements ++ data.
Definition write_request (otid q : Z) (service : bytes) : bytes :=
  zeros 6 ++ wire_list [(0xA1, le 4 otid); (0xB1, le 2 q ++ service)].

(** Type code and data of a number or bool. *)
Definition number_code (k : gokind) : option Z :=
  match k with
  | KBool => Some 0xC1
  | KInt true 1 => Some 0xC2 | KInt true 2 => Some 0xC3 | KInt true 4 => Some 0xC4 | KInt true 8 => Some 0xC5
  | KInt false 1 => Some 0xD1 | KInt false 2 => Some 0xC7 | KInt false 4 => Some 0xC8 | KInt false 8 => Some 0xD4
  | KFloat 4 => Some 0xCA | KFloat 8 => Some 0xCB
  | _ => None
  end.
Definition number_data (v : gval) : bytes :=
  match v with
  | GBool b => [if b then 1 else 0]
  | GInt _ w z => le w z
  | GFloat w bits => le w bits
  | _ => []
  end.
Definition is_number (k : gokind) (v : gval) : Prop :=
  match v with GBool _ => k = KBool | GInt s w _ => k = KInt s w | GFloat w _ => k = KFloat w | _ => False end.

(** A STRING: 4-byte count, 82 characters and two pad bytes, unused ones 0. *)
Definition string_data (s : bytes) : bytes := le 4 (len s) ++ s ++ zeros (84 - length s).

(** [carries v type elements data]: how a Go value travels.  Strings are the
    controller's STRING structure, handle 0x0FCE. *)
Inductive carries : wvalue -> bytes -> Z -> bytes -> Prop :=
| c_one k v code : number_code k = Some code -> is_number k v -> carries (WOne v) [code; 0] 1 (number_data v)
| c_many k l code : number_code k = Some code -> k <> KBool -> Forall (is_number k) l -> len l < 2 ^ 16 ->
    carries (WMany k l) [code; 0] (len l) (concat (map number_data l))
| c_string s : len s <= 82 -> carries (WOne (GStr s)) [0xA0; 0x02; 0xCE; 0x0F] 1 (string_data s)
| c_strings ss : Forall (fun s => len s <= 82) ss -> len ss < 2 ^ 16 ->
    carries (WMany KString (map GStr ss)) [0xA0; 0x02; 0xCE; 0x0F] (len ss) (concat (map string_data ss)).

(** [write_answer payload status]: a 6-byte prefix and a list of items, of which
    the second starts with sequence number, service, reserved byte, status, size
    of additional status. *)
Definition write_answer (payload : bytes) (status : Z) : Prop :=
  exists pre addr id seq svc resv ext more others rest,
    length pre = 6%nat /\ length seq = 2%nat /\
    fits (addr :: (id, seq ++ [svc; resv; status; ext] ++ more) :: others) /\
    payload = pre ++ wire_list (addr :: (id, seq ++ [svc; resv; status; ext] ++ more) :: others) ++ rest.
Definition plain_write_answer (seq status : Z) : bytes :=
  zeros 6 ++ wire_list [(0xA1, [1; 2; 3; 4]); (0xB1, le 2 seq ++ [0xCD; 0; status; 0])].

(** The leaves of a struct value with their full names. *)
Fixpoint leaves (path : bytes) (n : node) : list (bytes * wvalue) :=
  match n with
  | NLeaf v => [(path, v)]
  | NArray l =>
      (fix go (i : Z) (l : list node) :=
         match l with [] => [] | x :: r => leaves (path ++ [91] ++ dec i ++ [93]) x ++ go (i + 1) r end) 0 l
  | NStruct fs => concat (map (fun f => leaves (path ++ [46] ++ fst (fst f)) (snd f)) fs)
  end.
Definition all_leaves (fs : list (bytes * bytes * node)) : list (bytes * wvalue) :=
  concat (map (fun f => leaves (snd (fst f)) (snd f)) fs).
(** No arrays anywhere. *)
Fixpoint array_free (n : node) : Prop :=
  match n with
  | NLeaf _ => True
  | NArray _ => False
  | NStruct fs => fold_right (fun f P => array_free (snd f) /\ P) True fs
  end.

(** What a leaf should become in the request. *)
Record leaf_write := LeafWrite { lw_tag : tag; lw_type : bytes; lw_data : bytes }.
Definition leaf_service (l : leaf_write) : bytes := write_service (encode (lw_tag l)) (lw_type l) 1 (lw_data l).
