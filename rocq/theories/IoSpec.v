(** * Class 1 I/O, specified from the wire *)
From Verif Require Import GoBase IoiModel ItemsSpec TableModel TableSpec PackTypes PackSpec SrvModel IoModel.
(** (The models are used for their state and event types.) *)

(** A datagram in either direction: connection and sequence number, then data. *)
Definition io_message (id seq : Z) (data : bytes) : bytes := wire_list [(0x8002, le 4 id ++ le 4 seq); (0xB1, data)].

(** The connections made so far, the routes, the connections sending input. *)
Definition made (s : iosite) : history := cm_heap (sv_cm (is_srv s)).
Definition routed (s : iosite) (path : bytes) (i : nat) : Prop := lookup path (sv_router (is_srv s)) = Some i.
Definition producing (s : iosite) (a : nat) : Prop := In a (sv_io (is_srv s)).
(** Connection [a] is open and the only open one with this identifier. *)
Definition only (s : iosite) (ot : Z) (a : nat) : Prop :=
  live (made s) (KeyOT ot) a /\ forall b, live (made s) (KeyOT ot) b -> b = a.

(** Struct types with values of these types. *)
Definition struct_type (t : gty) : Prop := match t with TStruct _ _ => go_type t | _ => False end.
Definition endpoint_ok (e : endpoint) : Prop :=
  match e with
  | EndTags => True
  | EndIO tin tout vin vout => struct_type tin /\ struct_type tout /\ has_type tin vin /\ has_type tout vout
  | EndChan tin tout vin chs => struct_type tin /\ struct_type tout /\ has_type tin vin /\ Forall (fun c => Forall (has_type tout) (ch_got c)) chs
  end.
(** What Go's types allow the program to do, and bytes are bytes. *)
Definition input_type (e : endpoint) : option gty := match e with EndTags => None | EndIO tin _ _ _ | EndChan tin _ _ _ => Some tin end.
Definition allowed (ends : list endpoint) (ev : ioevent) : Prop :=
  match ev with
  | EvOpen _ d | EvClose d | EvDatagram d => bytes_ok d
  | EvSet i v => forall e t, nth_error ends i = Some e -> input_type e = Some t -> has_type t v
  | _ => True
  end.
(** A server that has just been set up. *)
Definition begins (s : iosite) : Prop :=
  sv_cm (is_srv s) = cman_init /\ sv_io (is_srv s) = [] /\ is_loops s = [] /\ is_sent s = [] /\ is_down s = false /\
  Forall endpoint_ok (is_ends s) /\ (forall n, 0 <= sv_rand (is_srv s) n < 2 ^ 32).
Definition reached (s0 : iosite) (evs : list ioevent) (s : iosite) : Prop :=
  begins s0 /\ Forall (allowed (is_ends s0)) evs /\ s = io_run s0 evs.

(** The same provider with the same input; what it received may differ. *)
Definition same_in (e e' : endpoint) : Prop :=
  match e, e' with
  | EndTags, EndTags => True
  | EndIO tin tout vin _, EndIO tin' tout' vin' _ => tin' = tin /\ tout' = tout /\ vin' = vin
  | EndChan tin tout vin _, EndChan tin' tout' vin' _ => tin' = tin /\ tout' = tout /\ vin' = vin
  | _, _ => False
  end.
(** The connection a datagram is for: bytes 6 to 9, zero when missing. *)
Definition addressed (d : bytes) : Z := unle (firstn 4 (skipn 6 (d ++ zeros 10))).

(** Everything but the endpoints is as before. *)
Definition rest_same (s s' : iosite) : Prop :=
  is_srv s' = is_srv s /\ is_loops s' = is_loops s /\ is_sent s' = is_sent s /\ is_down s' = is_down s.
(** Only endpoint [i] differs, and it is [e] now. *)
Definition replaced (i : nat) (e : endpoint) (l l' : list endpoint) : Prop :=
  length l' = length l /\ nth_error l' i = Some e /\ forall j, j <> i -> nth_error l' j = nth_error l j.

(** The messages sent for connection [a], in order. *)
Definition sent_for (a : nat) (s : iosite) : list bytes := map snd (filter (fun x => fst x =? a)%nat (is_sent s)).
(** The value last given to SetInputData of provider [i]. *)
Fixpoint last_set (i : nat) (evs : list ioevent) (v : gv) : gv :=
  match evs with
  | [] => v
  | EvSet j x :: r => last_set i r (if (j =? i)%nat then x else v)
  | _ :: r => last_set i r v
  end.
Definition input_value (e : endpoint) : option gv := match e with EndTags => None | EndIO _ _ v _ | EndChan _ _ v _ => Some v end.

(** [sub l m]: the elements of [l] are some of those of [m], in the same order. *)
Inductive sub {A} : list A -> list A -> Prop :=
| sub_nil : sub [] []
| sub_keep x l m : sub l m -> sub (x :: l) (x :: m)
| sub_skip x l m : sub l m -> sub l (x :: m).

(** The datagrams that arrived, in order. *)
Fixpoint datagrams (evs : list ioevent) : list bytes :=
  match evs with
  | [] => []
  | EvDatagram d :: r => d :: datagrams r
  | _ :: r => datagrams r
  end.
(** What the program reads as output: the value held, or what each channel gave. *)
Definition output_of (e : endpoint) : option (gv + list (list gv)) :=
  match e with EndTags => None | EndIO _ _ _ v => Some (inl v) | EndChan _ _ _ chs => Some (inr (map ch_got chs)) end.

(** A forward open request for cyclic I/O: identifiers, serial numbers, requested
    packet intervals, trigger, path. *)
Definition open_request (ot to serial vendor orig ot_rpi ot_par to_rpi to_par trigger : Z) (path : bytes) : bytes :=
  [0x54; 2; 0x20; 6; 0x24; 1; 10; 14] ++ le 4 ot ++ le 4 to ++ le 2 serial ++ le 2 vendor ++ le 4 orig ++ [0; 0; 0; 0] ++
  le 4 ot_rpi ++ le 2 ot_par ++ le 4 to_rpi ++ le 2 to_par ++ [trigger; len path / 2] ++ path.
