(** * What the built-in server is asked and what it must answer *)
From Verif Require Import GoBase ItemsSpec EipSpec TypesModel TableModel ProvModel SrvModel.
(** (The models for the types of the server's state.) *)

(** ** Requests that bring the server down

    Byte layouts of the requests, as the protocol defines them. *)

(** Any sequence of symbol segments and 8- and 16-bit element segments. *)
Inductive tag_path : bytes -> Prop :=
| tp_end : tag_path []
| tp_elem8 i p : tag_path p -> tag_path (0x28 :: i :: p)
| tp_elem16 x lo hi p : tag_path p -> tag_path (0x29 :: x :: lo :: hi :: p)
| tp_symbol n pad p : len n < 256 -> len pad = len n mod 2 -> tag_path p ->
    tag_path (0x91 :: len n :: n ++ pad ++ p).
(** A path with an index before any name. *)
Inductive nameless : bytes -> Prop :=
| nl_elem8 r : nameless (0x28 :: r)
| nl_elem16 r : nameless (0x29 :: r)
| nl_empty r : nameless r -> nameless (0x91 :: 0 :: r).

(** A write of no elements: path, type, additional type information, count. *)
Inductive crash_write : bytes -> Prop :=
| cw_path r : nameless r -> crash_write r
| cw_none p t info r : tag_path p -> crash_write (p ++ t :: len info :: info ++ 0 :: 0 :: r).
(** A read of 32768 elements or more. *)
Inductive crash_read : bytes -> Prop :=
| cr_path r : nameless r -> crash_read r
| cr_count p lo hi r : tag_path p -> 128 <= hi < 256 -> crash_read (p ++ lo :: hi :: r).
(** Inside a multi-service request. *)
Inductive crash_sub : bytes -> Prop :=
| cs_read svc l r : svc = 0x4C \/ svc = 0x52 -> crash_read r -> crash_sub (svc :: l :: r)
| cs_path svc l r : svc = 0x4D \/ svc = 0x53 -> nameless r -> crash_sub (svc :: l :: r)
| cs_none svc l p t x r : svc = 0x4D \/ svc = 0x53 -> tag_path p ->
    crash_sub (svc :: l :: p ++ t :: x :: 0 :: 0 :: r).
(** The connected data item: sequence count, service, path size, ... *)
Inductive crash_connected : bytes -> Prop :=
| cc_write q0 q1 l r : crash_write r -> crash_connected (q0 :: q1 :: 0x4D :: l :: r)
| cc_read q0 q1 svc l r : svc = 0x4C \/ svc = 0x52 -> crash_read r ->
    crash_connected (q0 :: q1 :: svc :: l :: r)
| cc_multi q0 q1 ps path lo hi table1 o table2 r d :
    d = q0 :: q1 :: 0x0A :: ps :: path ++ lo :: hi :: table1 ++ o ++ table2 ++ r ->
    len path = (2 * ps) mod 256 -> len (table1 ++ o ++ table2) = 2 * unle [lo; hi] ->
    Z.even (len table1) = true -> length o = 2%nat ->
    (signed_value o < -8 \/
     -8 <= signed_value o /\ crash_sub (skipn (Z.to_nat (signed_value o + 8)) d)) ->
    crash_connected d.
(** The unconnected data item. *)
Inductive crash_unconnected : bytes -> Prop :=
| cu_open d : (42 <= length d)%nat -> nth 0 d 0 = 0x54 -> nth 41 d 0 mod 128 = 0 -> crash_unconnected d
| cu_large d : (46 <= length d)%nat -> nth 0 d 0 = 0x5B -> nth 45 d 0 mod 128 = 0 -> crash_unconnected d
| cu_io d : nth 0 d 0 = 0x54 -> nth 40 d 0 = 1 -> firstn 4 (skipn 34 d) = [0; 0; 0; 0] -> crash_unconnected d
| cu_write ps path tick l r : len path = (2 * ps) mod 256 -> length tick = 4%nat -> crash_write r ->
    crash_unconnected (0x52 :: ps :: path ++ tick ++ 0x4D :: l :: r)
| cu_read ps path tick l r : len path = (2 * ps) mod 256 -> length tick = 4%nat -> crash_read r ->
    crash_unconnected (0x52 :: ps :: path ++ tick ++ 0x4C :: l :: r).
(** A frame: header, interface handle and timeout, items. *)
Inductive crash_frame : bytes -> Prop :=
| cf_unit hdr six a id d : length hdr = 24%nat -> firstn 2 hdr = [0x70; 0] -> length six = 6%nat ->
    crash_connected d -> crash_frame (hdr ++ six ++ wire_list [(0xA1, a); (id, d)])
| cf_connected hdr six id a h d : length hdr = 24%nat -> firstn 2 hdr = [0x6F; 0] -> length six = 6%nat ->
    length h = 4%nat -> crash_read d -> crash_frame (hdr ++ six ++ wire_list [(id, a); (0xB1, h ++ d)])
| cf_unconnected hdr six id a d : length hdr = 24%nat -> firstn 2 hdr = [0x6F; 0] -> length six = 6%nat ->
    crash_unconnected d -> crash_frame (hdr ++ six ++ wire_list [(id, a); (0xB2, d)]).

(** A server whose tags and attributes hold no nil, and whose slices lie within
    their arrays (Go sees to the latter). *)
Definition tame_prov (p : prov) : Prop :=
  (forall k v, mget (pv_data p) k = Some v -> v <> PV GNil) /\
  (forall l, In l (pv_heap p) -> ~ In (PV GNil) l) /\
  (forall k e a o n, mget (pv_data p) k = Some (PS e a o n) -> (o + n <= length (nth a (pv_heap p) []))%nat).
Definition tame (s : server) : Prop :=
  (forall p, In p (sv_provs s) -> tame_prov p) /\ (forall k, ~ In (k, GNil) (sv_attrs s)).

(** What the program around the server may write: no nil. *)
Definition tame_given (v : given) : Prop :=
  match v with GiveOne g => g <> GNil | GiveMany _ l => ~ In GNil l end.
Definition tame_happening (e : happening) : Prop :=
  match e with Turn _ => True | Host _ _ v => tame_given v end.
(** A frame of the kind somewhere in a stream. *)
Definition contains (s : bytes) (P : bytes -> Prop) : Prop := exists a f b, s = a ++ f ++ b /\ P f.

(** ** Which requests are answered *)

(** Not answered: unknown commands, an unknown kind of second item, and closing
    a connection. *)
Inductive unanswered : bytes -> Prop :=
| un_command f : ~ In (firstn 2 f) [[0x65; 0]; [0x6F; 0]; [0x70; 0]; [0x04; 0]; [0x63; 0]] -> unanswered f
| un_item hdr six x y i d r : length hdr = 24%nat -> firstn 2 hdr = [0x6F; 0] -> length six = 6%nat ->
    i <> 0xB1 -> i <> 0xB2 -> 0 <= i < 65536 -> unanswered (hdr ++ six ++ wire_list [(x, y); (i, d)] ++ r)
| un_close hdr six x y d r : length hdr = 24%nat -> firstn 2 hdr = [0x6F; 0] -> length six = 6%nat ->
    unanswered (hdr ++ six ++ wire_list [(x, y); (0xB2, 0x4E :: d)] ++ r).
(** The header fields of a frame. *)
Definition session_of (f : bytes) : bytes := firstn 4 (skipn 4 f).
Definition context_of (f : bytes) : bytes := firstn 8 (skipn 12 f).

(** Requests laid out as the protocol says: the data is as long as the command
    calls for. *)
Inductive whole_request : frame -> Prop :=
| wr_items cmd s st c o six l : cmd = 0x70 \/ cmd = 0x6F -> length six = 6%nat -> fits l ->
    whole_request (Frame cmd s st c o (six ++ wire_list l))
| wr_register s st c o p : length p = 4%nat -> whole_request (Frame 0x65 s st c o p)
| wr_empty cmd s st c o : cmd = 0x04 \/ cmd = 0x63 -> whole_request (Frame cmd s st c o []).
