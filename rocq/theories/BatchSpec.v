(** * Batched reads as the protocol describes them *)
From Verif Require Import GoBase IoiSpec TypesModel ItemsSpec ReadSpec.
(** (TypesModel for the type of Go values.) *)

(** What the caller asks for: a tag, the CIP type its example value stands for,
    the number of elements, and for structures the size of the example ([None]
    when there is none). *)
Record wish := Wish { w_tag : tag; w_type : Z; w_elems : Z; w_struct : option nat }.

(** The embedded Read Tag request for it. *)
Definition read_service (w : wish) : bytes :=
  [0x4C; len (encode (w_tag w)) / 2] ++ encode (w_tag w) ++ le 2 (w_elems w).

(** Multiple Service Packet: message router path, number of services, an offset
    for each (counted from that number), then the services. *)
Fixpoint offsets (start : Z) (l : list bytes) : list Z :=
  match l with [] => [] | b :: r => start :: offsets (start + len b) r end.
Definition multi_body (q : Z) (services : list bytes) : bytes :=
  le 2 q ++ [0x0A; 2; 0x20; 0x02; 0x24; 0x01] ++ le 2 (len services) ++
  concat (map (le 2) (offsets (2 + 2 * len services) services)) ++ concat services.
Definition multi_request (otid q : Z) (services : list bytes) : bytes :=
  zeros 6 ++ wire_list [(0xA1, le 4 otid); (0xB1, multi_body q services)].

(** Size of the connected data of such a request. *)
Definition request_size (l : list wish) : Z :=
  10 + fold_right (fun w n => 2 + 4 + len (encode (w_tag w)) + n) 0 l.

(** [locates body off b]: counted from the number of services (6 bytes into the
    reply), [b] stands at offset [off]. *)
Definition locates (body : bytes) (off : Z) (b : bytes) : Prop :=
  0 <= off /\ exists tail, skipn (Z.to_nat (6 + off)) body = b ++ tail.
(** A sub-reply: service with the reply bit, a reserved byte, status, type, data. *)
Record sub := Sub { s_status : Z; s_type : Z; s_data : bytes }.
Definition sub_reply (svc resv x : Z) (r : sub) : bytes :=
  [svc; resv] ++ le 2 (s_status r) ++ [s_type r; x] ++ s_data r.
Definition is_sub (body : bytes) (off : Z) (r : sub) : Prop :=
  exists svc resv x, 0x80 <= svc < 0x100 /\ 0 <= s_status r < 2 ^ 16 /\ locates body off (sub_reply svc resv x r).

(** [multi_answer payload subs]: a successful reply whose offset table locates
    the sub-replies, wherever they are. *)
Definition multi_answer (payload : bytes) (subs : list sub) : Prop :=
  exists pre addr id seq svc resv offs blob rest,
    let body := seq ++ [svc; resv] ++ le 2 0 ++ le 2 (len subs) ++ concat (map (le 2) offs) ++ blob in
    length pre = 6%nat /\ length seq = 2%nat /\ fits [addr; (id, body)] /\
    Forall2 (is_sub body) offs subs /\
    payload = pre ++ wire_list [addr; (id, body)] ++ rest.

(** The value a reply of that type and data stands for, given what was asked. *)
Inductive yields (w : wish) : Z -> bytes -> gval -> Prop :=
| y_scalar t v d rest : w_elems w = 1 -> w_type w <> 0xFF -> (t_bit (w_tag w) = None \/ w_type w <> 0xC1) ->
    encodes t v d -> t <> 0xC9 -> yields w t (d ++ rest) v
| y_bit n t signed wd z rest : w_elems w = 1 -> w_type w = 0xC1 -> t_bit (w_tag w) = Some n ->
    int_type t = Some (signed, wd) -> in_range signed wd z -> t <> 0xC2 -> t <> 0xC9 -> n < 8 * Z.of_nat wd ->
    yields w t (le wd z ++ rest) (GBool (Z.testbit z n))
| y_string t s d handle rest : w_elems w = 1 -> w_type w = 0xFF -> string_slot s d -> length handle = 2%nat ->
    yields w t (handle ++ d ++ rest) (GStr s)
| y_struct n handle d rest : w_elems w = 1 -> w_type w <> 0xFF -> (t_bit (w_tag w) = None \/ w_type w <> 0xC1) ->
    w_struct w = Some n -> length handle = 2%nat -> length d = n ->
    yields w 0xA0 (handle ++ d ++ rest) (GStructV d)
| y_array t vs d rest : len vs = w_elems w -> 2 <= len vs -> w_type w <> 0xFF ->
    encodes_all t vs d -> t <> 0xC9 -> yields w t (d ++ rest) (GList vs)
| y_strings t ss d handle rest : len ss = w_elems w -> 2 <= len ss -> w_type w = 0xFF ->
    string_slots ss d -> length handle = 2%nat -> yields w t (handle ++ d ++ rest) (GList (map GStr ss)).

(** A controller that answers every request for a run of the listed tags, of at
    most [bound] bytes (or for a single tag), with their values, laid out as it
    likes. *)
Definition gives {S} (ctl : S -> bytes -> res (Z * bytes) * S) (otid bound : Z) (all : list wish) (value : wish -> gval) : Prop :=
  forall s q a l b, all = a ++ l ++ b -> l <> [] -> request_size l <= bound \/ length l = 1%nat ->
  exists p s1 subs, ctl s (multi_request otid q (map read_service l)) = (Ok (0, p), s1) /\
    multi_answer p subs /\
    Forall2 (fun w r => s_status r = 0 /\ yields w (s_type r) (s_data r) (value w)) l subs.

(** The same for one that does so only in the states [inv], and stays in them. *)
Definition gives_in {S} (inv : S -> Prop) (ctl : S -> bytes -> res (Z * bytes) * S) (otid bound : Z) (all : list wish) (value : wish -> gval) : Prop :=
  forall s q a l b, inv s -> all = a ++ l ++ b -> l <> [] -> request_size l <= bound \/ length l = 1%nat ->
  exists p s1 subs, ctl s (multi_request otid q (map read_service l)) = (Ok (0, p), s1) /\ inv s1 /\
    multi_answer p subs /\
    Forall2 (fun w r => s_status r = 0 /\ yields w (s_type r) (s_data r) (value w)) l subs.

(** Watching what is sent. *)
Definition asked {S} (ctl : S -> bytes -> res (Z * bytes) * S) (sl : S * list bytes) (req : bytes)
    : res (Z * bytes) * (S * list bytes) :=
  let '(r, s1) := ctl (fst sl) req in (r, (s1, snd sl ++ [req])).
