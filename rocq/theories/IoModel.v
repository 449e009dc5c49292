(** * Class 1 I/O: server_io.go, server_iochannel.go, and serveUDP and
      ioConnection of server.go

    The connection table, the router and the opening and closing of connections
    are those of SrvModel; the providers behind the router are given here.  Left
    out: tag requests to an I/O provider ("not implemented" is all they return),
    the address the messages are sent to (ioConnection L804-815), failing socket
    writes, and the time between ticks. *)
From Verif Require Import GoBase ItemsModel TableModel SrvModel PackTypes PackModel.

(** ** Unpack into a variable that has a value already (pack.go L241-387)

    The fields set before an error stay set.  The result is the count and what is
    left, as for [unpack]. *)
Fixpoint bits_into (olds : list gv) (r : bytes) (cnt : Z) (bp : nat) (acc : Z) : list gv * res (bytes * Z * nat * Z) :=
  match olds with
  | [] => ([], Ok (r, cnt, bp, acc))
  | o :: rest =>
      match (match bp with
             | O => match r with [] => Err EEof | b :: r' => Ok ((b, cnt + 1), r') end
             | _ => Ok ((acc, cnt), r) end) with
      | Ok ((b, cnt1), r1) =>
          let v := negb (Z.land b (Z.shiftl 1 (Z.of_nat bp) mod 256) =? 0) in
          let bp1 := if (8 <=? S bp)%nat then 0%nat else S bp in
          let '(vs, x) := bits_into rest r1 cnt1 bp1 b in (VBool v :: vs, x)
      | Err e => (olds, Err e)
      | Panic => (olds, Panic)
      | OutOfFuel => (olds, OutOfFuel)
      end
  end.
Fixpoint unpack_into (t : gty) (old : gv) (r : bytes) : gv * res (Z * bytes) :=
  match t, old with
  | TStruct _ fs, VStruct vs => let '(vs1, x) := fields_into fs vs r 0 0 0 in (VStruct vs1, x)
  | _, _ => (old, Panic)
  end
with fields_into (fs : gfields) (olds : list gv) (r : bytes) (cnt : Z) (bp : nat) (acc : Z) : list gv * res (Z * bytes) :=
  match fs, olds with
  | FCons np t rest, o :: os =>
      if bit_field np t then
        let '(l, x) := bits_into (match o with VArr l => l | _ => [o] end) r cnt bp acc in
        let v := match t with TArr _ _ => VArr l | _ => hd (VBool false) l end in
        match x with
        | Ok (r1, cnt1, bp1, acc1) => let '(vs, y) := fields_into rest os r1 cnt1 bp1 acc1 in (v :: vs, y)
        | Err e => (v :: os, Err e)
        | Panic => (v :: os, Panic)
        | OutOfFuel => (v :: os, OutOfFuel)
        end
      else
        let k := pad_len cnt (cip_align t) in
        match read_some k r with
        | Ok r1 =>
            let '(v, x) :=
              match t with
              | TStruct _ _ => unpack_into t o r1
              | _ => match raw_read t r1 with
                     | Ok (v, r2) => (v, Ok (go_size t, r2))
                     | Err e => (o, Err e)
                     | Panic => (o, Panic)
                     | OutOfFuel => (o, OutOfFuel)
                     end
              end in
            match x with
            | Ok (s, r2) => let '(vs, y) := fields_into rest os r2 (cnt + Z.of_nat k + s) 0 acc in (v :: vs, y)
            | Err e => (v :: os, Err e)
            | Panic => (v :: os, Panic)
            | OutOfFuel => (v :: os, OutOfFuel)
            end
        | Err e => (olds, Err e)
        | Panic => (olds, Panic)
        | OutOfFuel => (olds, OutOfFuel)
        end
  | _, _ => (olds, Ok (cnt, r))
  end.

(** ** Providers

    MapTagProvider refuses I/O (server_router.go L83-88).  IOProvider
    (server_io.go L19-24) holds the input and the output value.  IOChannelProvider
    (server_iochannel.go L20-24) holds the input and the channels handed out: how
    many receivers wait at each and what was received from it. *)
Record channel := Channel { ch_waiting : nat; ch_got : list gv }.
Inductive endpoint :=
| EndTags
| EndIO (tin tout : gty) (vin vout : gv)
| EndChan (tin tout : gty) (vin : gv) (chs : list channel).

(** IORead, server_io.go L27-37, server_iochannel.go L27-37. *)
Definition io_read (e : endpoint) : res bytes :=
  match e with
  | EndTags => Err EMsg
  | EndIO tin _ vin _ | EndChan tin _ vin _ => Ok (fst (pack tin vin))
  end.
(** The part of IOWrite the two providers share, server_io.go L39-64 and
    server_iochannel.go L39-64.  The length is a uint16. *)
Definition io_payload (its : list item) : res bytes :=
  match its with
  | [_; d] =>
      if negb (it_id d =? item_conndata) then Err EMsg else
      let '(x, d) := item_des 4 d in
      let* _ := x in
      let '(x, d) := item_des 2 d in
      let* _ := x in
      fst (item_des (Z.to_nat ((it_len d - 6) mod 65536)) d)
  | _ => Err EMsg
  end.
(** Sending to each channel in turn, without waiting, server_iochannel.go L71-77. *)
Fixpoint send_all (v : gv) (chs : list channel) : list channel * res unit :=
  match chs with
  | [] => ([], Ok tt)
  | c :: r =>
      match ch_waiting c with
      | O => (chs, Err EMsg)
      | S n => let '(r1, x) := send_all v r in (Channel n (ch_got c ++ [v]) :: r1, x)
      end
  end.
(** IOWrite, server_io.go L65-75, server_iochannel.go L65-80. *)
Definition io_write (e : endpoint) (its : list item) : endpoint * res unit :=
  match e with
  | EndTags => (e, Err EMsg)
  | EndIO tin tout vin vout =>
      match io_payload its with
      | Ok p => let '(v, x) := unpack_into tout vout p in (EndIO tin tout vin v, let* _ := x in Ok tt)
      | Err er => (e, Err er)
      | Panic => (e, Panic)
      | OutOfFuel => (e, OutOfFuel)
      end
  | EndChan tin tout vin chs =>
      match (let* p := io_payload its in unpack tout p) with
      | Ok (v, _, _) => let '(chs1, x) := send_all v chs in (EndChan tin tout vin chs1, x)
      | Err er => (e, Err er)
      | Panic => (e, Panic)
      | OutOfFuel => (e, OutOfFuel)
      end
  end.

(** ** The server *)

(** A running ioConnection: its connection, the identifier it sends under, its
    provider and the count. *)
Record ioloop := IoLoop { lp_conn : nat; lp_to : Z; lp_end : nat; lp_seq : Z; lp_run : bool }.
Record iosite := IoSite {
  is_srv : server; is_ends : list endpoint; is_loops : list ioloop; is_sent : list (nat * bytes); is_down : bool }.

Definition end_at (s : iosite) (i : nat) : endpoint := nth i (is_ends s) EndTags.
Definition set_end (i : nat) (e : endpoint) (s : iosite) : iosite :=
  IoSite (is_srv s) (ProvModel.setn (is_ends s) i e) (is_loops s) (is_sent s) (is_down s).
Definition go_down (s : iosite) : iosite := IoSite (is_srv s) (is_ends s) (is_loops s) (is_sent s) true.

(** One datagram, serveUDP, server.go L142-200.  The items are read from the whole
    buffer of 4096 bytes, zeros after what arrived. *)
Definition udp_items (d : bytes) : res (list item) :=
  if (len d =? 0) || (4096 <=? len d) then Err EMsg else
  let* (its, _) := read_items (d ++ zeros (4096 - length d)) in
  if negb (len its =? 2) then Err EMsg else Ok its.
Definition udp_target (s : server) (its : list item) : res nat :=
  let a := nth 0 its (item_empty 0) in
  if negb (it_id a =? item_seqaddr) then Err EMsg else
  let* x := fst (item_des 8 a) in
  let* c := conn_by_ot s (unle (firstn 4 x)) in
  resolve s (sc_path c).
Definition datagram (s : iosite) (d : bytes) : iosite :=
  match (let* its := udp_items d in let* i := udp_target (is_srv s) its in Ok (its, i)) with
  | Ok (its, i) =>
      let '(e, x) := io_write (end_at s i) its in
      match x with
      | Panic | OutOfFuel => go_down (set_end i e s)
      | _ => set_end i e s
      end
  | Err _ => s
  | _ => go_down s
  end.

(** One tick of ioConnection, L822-858.  The count is raised before each tick
    (L823), also after one that sent nothing (L833). *)
Definition io_frame (to seq : Z) (dat : bytes) : bytes :=
  skipn 6 (serialize_items
    [ item_write (item_empty item_seqaddr) (le 4 to ++ le 4 seq);
      item_write (item_empty item_conndata) (le 2 seq ++ dat) ]).
Definition tick_loop (s : iosite) (l : ioloop) : ioloop * list (nat * bytes) :=
  let seq := (lp_seq l + 1) mod 2 ^ 32 in
  let l1 b := IoLoop (lp_conn l) (lp_to l) (lp_end l) seq b in
  if negb (sc_open (conn_at (cm_heap (sv_cm (is_srv s))) (lp_conn l))) then (l1 false, [])
  else match io_read (end_at s (lp_end l)) with
       | Ok dat => (l1 true, [(lp_conn l, io_frame (lp_to l) seq dat)])
       | _ => (l1 true, [])
       end.
Fixpoint tick_at (s : iosite) (a : nat) (ls : list ioloop) : list ioloop * list (nat * bytes) :=
  match ls with
  | [] => ([], [])
  | l :: r =>
      if (lp_conn l =? a)%nat then
        if lp_run l then let '(l1, out) := tick_loop s l in (l1 :: r, out) else (ls, [])
      else let '(r1, out) := tick_at s a r in (l :: r1, out)
  end.

(** What may happen: a forward open or close arrives over TCP ([d] starts at the
    service), a TCP connection ends (server.go L205-207: only the socket is
    closed), a datagram arrives, the ticker of connection [a] fires, the program
    sets an input value (SetInputData, server_io.go L97-101, server_iochannel.go
    L100-104), makes a channel (GetOutputDataChannel, L92-96) or waits at one. *)
Inductive ioevent :=
| EvOpen (large : bool) (d : bytes)
| EvClose (d : bytes)
| EvHangup
| EvDatagram (d : bytes)
| EvTick (a : nat)
| EvSet (i : nat) (v : gv)
| EvChannel (i : nat)
| EvWait (i j : nat).

Definition with_srv (x : res unit * world) (s : iosite) : iosite :=
  let '(r, w) := x in
  let s1 loops := IoSite (w_srv w) (is_ends s) loops (is_sent s) (is_down s) in
  match r with
  | Ok _ =>
      match skipn (length (sv_io (is_srv s))) (sv_io (w_srv w)) with
      | a :: _ =>
          let c := conn_at (cm_heap (sv_cm (w_srv w))) a in
          match resolve (w_srv w) (sc_path c) with
          | Ok i => s1 (is_loops s ++ [IoLoop a (sc_to c) i 0 true])
          | _ => s1 (is_loops s)
          end
      | [] => s1 (is_loops s)
      end
  | Err _ => s1 (is_loops s)
  | _ => go_down (s1 (is_loops s))
  end.
Definition set_in (v : gv) (e : endpoint) : endpoint :=
  match e with
  | EndTags => e
  | EndIO tin tout _ vout => EndIO tin tout v vout
  | EndChan tin tout _ chs => EndChan tin tout v chs
  end.
Definition add_channel (e : endpoint) : endpoint :=
  match e with EndChan tin tout vin chs => EndChan tin tout vin (chs ++ [Channel 0 []]) | _ => e end.
Definition wait_at (j : nat) (e : endpoint) : endpoint :=
  match e with
  | EndChan tin tout vin chs =>
      match nth_error chs j with
      | Some c => EndChan tin tout vin (ProvModel.setn chs j (Channel (S (ch_waiting c)) (ch_got c)))
      | None => e
      end
  | _ => e
  end.
Definition io_step (s : iosite) (ev : ioevent) : iosite :=
  if is_down s then s else
  match ev with
  | EvOpen large d => with_srv (fwd_open large d (World (is_srv s) handler_new [] [])) s
  | EvClose d => with_srv (fwd_close d (World (is_srv s) handler_new [] [])) s
  | EvHangup => s
  | EvDatagram d => datagram s d
  | EvTick a =>
      let '(ls, out) := tick_at s a (is_loops s) in
      IoSite (is_srv s) (is_ends s) ls (is_sent s ++ out) (is_down s)
  | EvSet i v => set_end i (set_in v (end_at s i)) s
  | EvChannel i => set_end i (add_channel (end_at s i)) s
  | EvWait i j => set_end i (wait_at j (end_at s i)) s
  end.
Definition io_run (s : iosite) (evs : list ioevent) : iosite := fold_left io_step evs s.
