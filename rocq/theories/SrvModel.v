(** * The built-in server's request handlers (server.go, server_connected.go,
      server_unconnected.go, server_listidentity.go)

    One TCP connection: the bytes still to come from the peer, the frames sent to
    it, the handler's fields and the state shared by all connections.  A handler
    that returns an error ends the connection (serve, server.go L202-249); a panic
    ends the process.  Writing to the socket is taken to succeed.  Every endpoint
    is a MapTagProvider.  Frames of different connections are handled one after
    the other; ConcModel cuts the requests that use tags into the steps other
    connections can come between. *)
From Verif Require Import GoBase SegModel IoiModel ItemsModel TypesModel WriteModel ReadModel EipModel OpenModel
  TableModel ProvModel SrvValModel.

(** The parts of serverTCPHandler the code uses, server.go L30-50. *)
Record handler := Handler { h_handle : Z; h_options : Z; h_context : Z; h_ot : Z; h_to : Z; h_seq : Z }.
Definition handler_new : handler := Handler 0 0 0 0 0 0.

(** Server: connection table, router (path to provider number), providers,
    Attributes, the numbers rand.Uint32 will give and how many were drawn, the
    connections with a running ioConnection, numeric conversions, local address. *)
Record server := Server {
  sv_cm : cman; sv_router : list (bytes * nat); sv_provs : list prov; sv_attrs : list (Z * gval);
  sv_rand : nat -> Z; sv_drawn : nat; sv_io : list nat; sv_conv : conv; sv_ip : bytes; sv_port : Z }.

Record world := World { w_srv : server; w_h : handler; w_in : bytes; w_sent : list bytes }.

(** Computations of a handler. *)
Definition M (A : Type) : Type := world -> res A * world.
Definition ret {A} (a : A) : M A := fun w => (Ok a, w).
Definition lift {A} (r : res A) : M A := fun w => (r, w).
Definition bindM {A B} (m : M A) (k : A -> M B) : M B := fun w =>
  match m w with
  | (Ok a, w1) => k a w1
  | (Err e, w1) => (Err e, w1)
  | (Panic, w1) => (Panic, w1)
  | (OutOfFuel, w1) => (OutOfFuel, w1)
  end.
Notation "'do' p <- m ; k" := (bindM m (fun p => k)) (at level 60, p pattern, m at level 59, right associativity).
Notation "m ;; k" := (bindM m (fun _ => k)) (at level 60, right associativity).
Definition fail {A} : M A := lift (Err EMsg).
Definition ask {A} (f : world -> A) : M A := fun w => (Ok (f w), w).
Definition put_srv (f : server -> server) : M unit := fun w => (Ok tt, World (f (w_srv w)) (w_h w) (w_in w) (w_sent w)).
Definition put_h (f : handler -> handler) : M unit := fun w => (Ok tt, World (w_srv w) (f (w_h w)) (w_in w) (w_sent w)).
(** Go's "if err != nil { send something; return err }". *)
Definition or_send {A} (r : res A) (m : M unit) : M A :=
  match r with
  | Err e => m ;; lift (Err e)
  | _ => lift r
  end.
(** "if err != nil { return send something }": the handler goes on afterwards. *)
Definition or_reply {A} (r : res A) (m : M unit) (k : A -> M unit) : M unit :=
  match r with
  | Ok a => k a
  | Err _ => m
  | Panic => lift Panic
  | OutOfFuel => lift OutOfFuel
  end.

(** binary.Read from the socket. *)
Definition take (n : nat) : M bytes := fun w =>
  match rd n (w_in w) with
  | Ok (b, r) => (Ok b, World (w_srv w) (w_h w) r (w_sent w))
  | Err e => (Err e, World (w_srv w) (w_h w) [] (w_sent w))
  | Panic => (Panic, w)
  | OutOfFuel => (OutOfFuel, w)
  end.
(** send, server.go L888-926. *)
Definition send (cmd : Z) (part : bytes) : M unit := fun w =>
  let h := w_h w in
  (Ok tt, World (w_srv w) h (w_in w)
            (w_sent w ++ [server_msg_build (h_handle h) (h_context h) (h_options h) cmd [part]])).
(** rand.Uint32 *)
Definition draw : M Z := fun w =>
  let s := w_srv w in
  (Ok (sv_rand s (sv_drawn s)),
   World (Server (sv_cm s) (sv_router s) (sv_provs s) (sv_attrs s) (sv_rand s) (S (sv_drawn s)) (sv_io s) (sv_conv s) (sv_ip s) (sv_port s))
         (w_h w) (w_in w) (w_sent w)).

Definition set_cm (m : cman) (s : server) : server :=
  Server m (sv_router s) (sv_provs s) (sv_attrs s) (sv_rand s) (sv_drawn s) (sv_io s) (sv_conv s) (sv_ip s) (sv_port s).
Definition set_prov (i : nat) (p : prov) (s : server) : server :=
  Server (sv_cm s) (sv_router s) (setn (sv_provs s) i p) (sv_attrs s) (sv_rand s) (sv_drawn s) (sv_io s) (sv_conv s) (sv_ip s) (sv_port s).
Definition add_io (a : nat) (s : server) : server :=
  Server (sv_cm s) (sv_router s) (sv_provs s) (sv_attrs s) (sv_rand s) (sv_drawn s) (sv_io s ++ [a]) (sv_conv s) (sv_ip s) (sv_port s).

(** services.go L19-22 *)
Definition as_response (svc : Z) : Z := Z.lor svc 0x80.
Definition st_path_segment := 0x04.  Definition st_path_unknown := 0x05.  Definition st_conn_lost := 0x07.
Definition st_not_supported := 0x08. Definition st_bad_value := 0x09.     Definition st_short := 0x13.
Definition st_no_attr := 0x14.       Definition st_no_object := 0x16.     Definition st_bad_param := 0x20.
Definition st_no_member := 0x28.
Definition svc_get_all := 0x01.      Definition svc_get_single := 0x0E.   Definition svc_set_single := 0x10.
Definition svc_fragwrite := 0x53.    Definition svc_list := 0x55.         Definition svc_unconn := 0x52.

(** ** Replies *)

(** sendConnectedReply, sendConnectedError (server_connected.go L477-519): the
    payload is given in pieces. *)
Definition conn_reply_items (svc seq to status ext : Z) (payload : list bytes) : list item :=
  [ new_item item_connaddr (le 4 to);
    fold_left item_write payload (item_write (new_item item_conndata (le 2 seq)) [as_response svc; 0; status; ext]) ].
Definition conn_reply (svc seq to : Z) (payload : list bytes) : M unit :=
  send cmd_unitdata (serialize_items (conn_reply_items svc seq to 0 0 payload)).
Definition conn_error (svc seq to status : Z) : M unit :=
  send cmd_unitdata (serialize_items (conn_reply_items svc seq to status 0 [])).
(** sendUnitDataReply, sendUnitDataErrorReply, sendUnitDataReplyWithPayload
    (server.go L351-368, L474-512): addressed with the handler's own fields. *)
Definition unit_reply (svc status : Z) (payload : list bytes) : M unit :=
  do h <- ask w_h ;
  send cmd_unitdata (serialize_items
    [ new_item item_connaddr (le 4 (h_to h));
      fold_left item_write payload
        (item_write (item_empty item_conndata) (le 2 (h_seq h) ++ [as_response svc; 0; status; 0])) ]).
(** sendUnconnectedErrorReply, sendUnconnectedRRDataReply (server_unconnected.go
    L649-689). *)
Definition unconn_reply (svc status : Z) (payload : list bytes) : M unit :=
  send cmd_rrdata (serialize_items
    [ item_empty item_null;
      fold_left item_write payload (item_write (item_empty item_unconndata) [as_response svc; 0; status; 0]) ]).

(** ** Values *)

Definition praw (v : pval) : bytes :=
  match v with
  | PV (GArr86 l) => l | PV (GBytes l) => l | PV (GStructV l) => l
  | PV g => raw_bytes g
  | _ => []
  end.
Definition pstr (v : pval) : bytes := match v with PV (GStr s) => s | _ => [] end.
(** CIPItem.Serialize of what a provider or the attribute map holds, items.go
    L214-282.  A nil makes binary.Write panic while it builds its error; a []any
    is refused. *)
Definition item_ser (heap : list (list pval)) (v : pval) : res bytes :=
  match v with
  | PV (GStr s) => Ok (ser_string s)
  | PV GNil => Panic
  | PV (GList _) => Err EMsg
  | PV _ => Ok (praw v)
  | PS (EK KString) arr off n => Ok (ser_strings (map pstr (elems heap arr off n)))
  | PS (EK _) arr off n => Ok (concat (map praw (elems heap arr off n)))
  | PS EAny _ _ _ => Err EMsg
  end.
(** Serialize, pack.go L58-90: writes nothing for nil and refuses []string. *)
Definition buffer_ser (heap : list (list pval)) (v : pval) : res bytes :=
  match v with
  | PV GNil => Ok []
  | PS (EK KString) _ _ _ => Err EMsg
  | _ => item_ser heap v
  end.
(** The payload of a read reply, server_connected.go L315-340 and
    server_unconnected.go L614-635. *)
Definition read_payload (heap : list (list pval)) (v : pval) : res (list bytes) :=
  if pval_cip v =? T_string then
    match v with
    | PV (GStr s) => Ok [string_packer s]
    | PS (EK KString) arr off n => Ok (map (fun x => string_packer (pstr x)) (elems heap arr off n))
    | _ => Err EMsg
    end
  else let* b := item_ser heap v in Ok [[pval_cip v]; [0]; b].

(** ** Providers *)

(** Router.Resolve, server_router.go L35-41. *)
Definition resolve (s : server) (path : bytes) : res nat :=
  match lookup path (sv_router s) with Some i => Ok i | None => Err EMsg end.
Definition prov_at (s : server) (i : nat) : prov := nth i (sv_provs s) prov_empty.
Definition conn_by_ot (s : server) (ot : Z) : res sconn :=
  match conn_get (sv_cm s) (KeyOT ot) with
  | Some a => Ok (conn_at (cm_heap (sv_cm s)) a)
  | None => Err EMsg
  end.
(** TagWrite of the parsed values: "qty > 1" hands over the slice, otherwise
    results[0], which panics when there is none (server_connected.go L48-58,
    L221-231, server_unconnected.go L367-377). *)
Definition write_values (i : nat) (tag : bytes) (vs : list gval) : M unit :=
  do s <- ask w_srv ;
  match vs with
  | [] => lift Panic
  | [v] => let '(p, r) := write_given (sv_conv s) (prov_at s i) tag (GiveOne v) in
           put_srv (set_prov i p) ;; lift r
  | _ => let '(p, r) := write_given (sv_conv s) (prov_at s i) tag (GiveMany EAny vs) in
         put_srv (set_prov i p) ;; lift r
  end.

(** ** Connected requests: [d0], [d1] are the data of the two items *)

(** cipConnectedWrite, server_connected.go L9-63; [r] is what follows the
    service. *)
Definition connected_write (d0 r : bytes) : M unit :=
  do (_, r1) <- lift (rd 1 r) ;
  do (tag, r2) <- lift (get_tag_from_path r1) ;
  do (vs, _) <- lift (parse_write_values r2) ;
  do (c, _) <- lift (rd 4 d0) ;
  do s <- ask w_srv ;
  do cn <- lift (conn_by_ot s (unle c)) ;
  do i <- lift (resolve s (sc_path cn)) ;
  write_values i tag vs ;;
  unit_reply svc_write 0 [].

(** connectedRead, L261-341. *)
Definition connected_read (svc : Z) (d0 d1 : bytes) : M unit :=
  do s <- ask w_srv ;
  do (c, _) <- or_send (rd 4 d0) (conn_error svc 0 0 st_bad_param) ;
  do cn <- or_send (conn_by_ot s (unle c)) (conn_error svc 0 0 st_conn_lost) ;
  do (q, r) <- or_send (rd 2 d1) (conn_error svc 0 (sc_to cn) st_bad_param) ;
  do (_, r) <- or_send (rd 2 r) (conn_error svc (unle q) (sc_to cn) st_bad_param) ;
  do (tag, r) <- or_send (get_tag_from_path r) (conn_error svc (unle q) (sc_to cn) st_bad_param) ;
  do (n, _) <- or_send (rd 2 r) (conn_error svc (unle q) (sc_to cn) st_bad_param) ;
  do i <- or_send (resolve s (sc_path cn)) (conn_error svc (unle q) (sc_to cn) st_path_unknown) ;
  do v <- or_send (tag_read (prov_at s i) tag (sgn 16 (unle n))) (conn_error svc (unle q) (sc_to cn) st_no_member) ;
  do payload <- lift (read_payload (pv_heap (prov_at s i)) v) ;
  conn_reply svc (unle q) (sc_to cn) payload.

(** One request inside connectedMulti, L124-235. *)
Definition multi_sub (i : nat) (d1 : bytes) (off : Z) : M bytes :=
  let pos := off + 8 in
  do r <- (if len d1 <=? pos then lift (Err EEof) else lift (slice_from d1 pos)) ;
  do (sv, r) <- lift (rd 1 r) ;
  do (_, r) <- lift (rd 1 r) ;
  let svc := unle sv in
  if (svc =? svc_fragread) || (svc =? svc_read) then
    do (tag, r) <- lift (get_tag_from_path r) ;
    do (n, r) <- lift (rd 2 r) ;
    do s <- ask w_srv ;
    do v <- lift (tag_read (prov_at s i) tag (sgn 16 (unle n))) ;
    if pval_cip v =? T_string then
      match v with
      | PV (GStr x) => ret ([as_response svc; 0; 0; 0] ++ string_packer x)
      | _ => fail
      end
    else
      do b <- lift (buffer_ser (pv_heap (prov_at s i)) v) ;
      ret ([as_response svc; 0; 0; 0; pval_cip v; 0] ++ b)
  else if (svc =? svc_write) || (svc =? svc_fragwrite) then
    do (tag, r) <- lift (get_tag_from_path r) ;
    do (t, r) <- lift (rd 1 r) ;
    do (_, r) <- lift (rd 1 r) ;
    do (n, r) <- lift (rd 2 r) ;
    do (vs, _) <- lift (read_values (Z.to_nat (unle n)) (unle t) r) ;
    write_values i tag vs ;;
    ret [as_response svc; 0; 0; 0]
  else ret [].
Fixpoint multi_subs (i : nat) (d1 : bytes) (offs : list Z) : M (list bytes) :=
  match offs with
  | [] => ret []
  | o :: os => do x <- multi_sub i d1 o ; do xs <- multi_subs i d1 os ; ret (x :: xs)
  end.
(** Item.Int16 in a row, L114-121. *)
Fixpoint read_offsets (n : nat) (r : bytes) : res (list Z * bytes) :=
  match n with
  | O => Ok ([], r)
  | S k => let* (o, r1) := rd 2 r in
           let* (os, r2) := read_offsets k r1 in Ok (sgn 16 (unle o) :: os, r2)
  end.
(** The jump table, L242-247: uint16(pos). *)
Fixpoint jump_table (pos : Z) (results : list bytes) : bytes :=
  match results with [] => [] | x :: xs => le 2 pos ++ jump_table (pos + len x) xs end.
(** connectedMulti, L65-254.  make([]any, qty+2) (L239) is a uint16 sum, which
    cannot wrap: an item has room for 32767 offsets. *)
Definition connected_multi (d0 d1 : bytes) : M unit :=
  do (c, _) <- lift (rd 4 d0) ;
  do s <- ask w_srv ;
  do cn <- lift (conn_by_ot s (unle c)) ;
  do i <- lift (resolve s (sc_path cn)) ;
  do (q, r) <- lift (rd 2 d1) ;
  do (_, r) <- lift (rd 1 r) ;
  do (pl, r) <- lift (rd 1 r) ;
  do (_, r) <- lift (rd (Z.to_nat ((unle pl * 2) mod 256)) r) ;
  do (n, r) <- lift (rd 2 r) ;
  do (offs, _) <- lift (read_offsets (Z.to_nat (unle n)) r) ;
  do results <- multi_subs i d1 offs ;
  conn_reply svc_multi (unle q) (sc_to cn)
    ([le 2 (unle n); jump_table ((unle n + 1) * 2) results] ++ results).

(** connectedGetAttr and getAttrSingle, L521-589. *)
Fixpoint zlookup {A} (k : Z) (m : list (Z * A)) : option A :=
  match m with [] => None | (x, v) :: r => if x =? k then Some v else zlookup k r end.
Definition connected_get_attr (d0 d1 : bytes) : M unit :=
  do (c, _) <- lift (rd 4 d0) ;
  do s <- ask w_srv ;
  do cn <- lift (conn_by_ot s (unle c)) ;
  do (q, r) <- lift (rd 2 d1) ;
  do (_, r) <- lift (rd 1 r) ;
  do (ps, r) <- lift (rd 1 r) ;
  if negb (unle ps =? 3) then fail else
  do (cls, r) <- lift (class_read r) ;
  do (inst, r) <- lift (instance_read r) ;
  if negb (cls =? 1) || negb (inst =? 1) then fail else
  do (attr, _) <- lift (attribute_read r) ;
  match zlookup attr (sv_attrs s) with
  | None => fail
  | Some v => do b <- lift (item_ser [] (PV v)) ; conn_reply svc_fragread (unle q) (sc_to cn) [b]
  end.

(** ** Identity *)

Definition attr_int16 (s : list (Z * gval)) (k : Z) : res Z :=
  match zlookup k s with Some (GInt true 2 z) => Ok z | _ => Err EMsg end.
Definition attr_uint32 (s : list (Z * gval)) (k : Z) : res Z :=
  match zlookup k s with Some (GInt false 4 z) => Ok z | _ => Err EMsg end.
Definition attr_string (s : list (Z * gval)) (k : Z) : res bytes :=
  match zlookup k s with Some (GStr x) => Ok x | _ => Err EMsg end.
(** buildIdentityGetAttributesAllResponse, server_unconnected.go L279-334; the
    first lines of buildListIdentityItemBody are the same checks. *)
Definition identity_attrs (s : list (Z * gval)) : res bytes :=
  let* v := attr_int16 s 1 in
  let* d := attr_int16 s 2 in
  let* p := attr_int16 s 3 in
  let* r := attr_int16 s 4 in
  let* st := attr_int16 s 5 in
  let* n := attr_uint32 s 6 in
  let* name := attr_string s 7 in
  let name := firstn 255 name in
  Ok (le 2 v ++ le 2 d ++ le 2 p ++ le 2 r ++ le 2 st ++ le 4 n ++ [len name] ++ name).
(** buildProgramObjectGetAttributesAllResponse, L234-246. *)
Definition program_attrs (s : list (Z * gval)) : res bytes :=
  let* name := attr_string s 7 in
  let name := firstn 255 name in Ok ([len name] ++ name).
(** buildListIdentityItemBody, server_listidentity.go L25-84.  [ip]: the four
    bytes of the IPv4 address. *)
Definition identity_body (s : list (Z * gval)) (ip : bytes) (port : Z) : res bytes :=
  let* a := identity_attrs s in
  Ok (le 2 1 ++ [0; 2] ++ [(port / 256) mod 256; port mod 256] ++ fit 4 ip ++ zeros 8 ++ a ++ [0xFF]).
(** frameListIdentityResponse, L90-97. *)
Definition identity_frame (body : bytes) : bytes := le 2 1 ++ le 2 0x0C ++ le 2 (len body) ++ body.

(** parseClassInstancePath, server_unconnected.go L250-262. *)
Definition class_instance (p : bytes) : res (Z * Z) :=
  let* (c, r) := class_read p in
  let* (i, _) := instance_read r in Ok (c, i).
(** connectedGetAttributeAll and unconnectedGetAttributeAll (server.go L376-426,
    server_unconnected.go L141-192) differ in how they reply. *)
Definition get_attribute_all (reply : Z -> list bytes -> M unit) (r : bytes) : M unit :=
  do (ps, r) <- lift (rd 1 r) ;
  do (path, _) <- lift (rd (Z.to_nat (unle ps * 2)) r) ;
  do s <- ask w_srv ;
  or_reply (class_instance path) (reply st_path_segment []) (fun ci =>
    let '(c, i) := ci in
    if c =? obj_identity then
      if negb (i =? 1) then reply st_path_unknown [] else
      do b <- lift (identity_attrs (sv_attrs s)) ; reply 0 [b]
    else if c =? 0x64 then
      if negb (i =? 1) then reply st_path_unknown [] else
      do b <- lift (program_attrs (sv_attrs s)) ; reply 0 [b]
    else reply st_path_unknown []).

(** ** Browsing *)

(** Go's string order. *)
Fixpoint bytes_ltb (a b : bytes) : bool :=
  match a, b with
  | _, [] => false
  | [], _ :: _ => true
  | x :: a', y :: b' => if x <? y then true else if y <? x then false else bytes_ltb a' b'
  end.
Fixpoint insert_tag (x : bytes * Z) (l : list (bytes * Z)) : list (bytes * Z) :=
  match l with
  | [] => [x]
  | y :: r => if bytes_ltb (fst y) (fst x) then y :: insert_tag x r else x :: l
  end.
(** sort.Slice by name (server_unconnected.go L209, L570); names are unique. *)
Definition sort_tags (l : list (bytes * Z)) : list (bytes * Z) := fold_right insert_tag [] l.
(** buildSymbolObjectInstanceListResponse, L207-227, with startInstance 0. *)
Fixpoint symbol_list (i : Z) (l : list (bytes * Z)) : bytes :=
  match l with
  | [] => []
  | (name, t) :: r =>
      let n := firstn 255 name in
      le 4 (i + 1) ++ le 2 (len n) ++ n ++ le 2 t ++ symbol_list (i + 1) r
  end.
(** connectedSymbolList, server.go L441-468. *)
Definition connected_symbols (d0 : bytes) : M unit :=
  do (c, _) <- lift (rd 4 d0) ;
  do s <- ask w_srv ;
  do cn <- lift (conn_by_ot s (unle c)) ;
  do i <- lift (resolve s (sc_path cn)) ;
  unit_reply svc_list 0 [symbol_list 0 (sort_tags (tag_list (prov_at s i)))].
(** resolveSymbolicTagFromCustomClass, server_unconnected.go L560-575. *)
Definition symbolic_tag (s : server) (inst : Z) : option bytes :=
  match resolve s [1; 0] with
  | Ok i =>
      let tags := sort_tags (tag_list (prov_at s i)) in
      if (inst =? 0) || (len tags <? inst) then None
      else match nth_error tags (Z.to_nat (inst - 1)) with Some (n, _) => Some n | None => None end
  | _ => None
  end.

(** readItems from the socket. *)
Definition with_items (k : list item -> M unit) : M unit :=
  do w <- ask (fun w => w) ;
  match read_items (w_in w) with
  | Ok (its, r) => (fun w => (Ok tt, World (w_srv w) (w_h w) r (w_sent w))) ;; k its
  | Err e => lift (Err e)
  | Panic => lift Panic
  | OutOfFuel => lift OutOfFuel
  end.
(** sendUnitData, server.go L251-345: from the items on, and whole. *)
Definition unit_items (its : list item) : M unit :=
  match its with
  | [i0; i1] =>
      if negb (it_id i0 =? item_connaddr) then fail else
      do _ <- lift (rd 4 (it_data i0)) ;
      do (q, r1) <- lift (rd 2 (it_data i1)) ;
      put_h (fun h => Handler (h_handle h) (h_options h) (h_context h) (h_ot h) (h_to h) (unle q)) ;;
      do (sv, r2) <- lift (rd 1 r1) ;
      let svc := unle sv in
      let d0 := it_data i0 in let d1 := it_data i1 in
      if svc =? svc_write then connected_write d0 r2
      else if (svc =? svc_fragread) || (svc =? svc_read) then connected_read svc d0 d1
      else if svc =? svc_multi then connected_multi d0 d1
      else if svc =? svc_get_single then connected_get_attr d0 d1
      else if svc =? svc_get_all then get_attribute_all (unit_reply svc_get_all) r2
      else if svc =? svc_list then connected_symbols d0
      else unit_reply svc st_not_supported []
  | _ => fail
  end.
Definition unit_data : M unit := take 4 ;; take 2 ;; with_items unit_items.

(** ** Unconnected requests: [r] is what follows the service *)

(** unconnectedServiceWrite, server_unconnected.go L336-381. *)
Definition unconnected_write (r : bytes) : M unit :=
  do (_, r) <- lift (rd 1 r) ;
  do (tag, r) <- lift (get_tag_from_path r) ;
  do (vs, r) <- lift (parse_write_values r) ;
  do (ps, r) <- lift (rd 2 r) ;
  do (path, _) <- lift (rd (Z.to_nat ((2 * unle ps) mod 65536)) r) ;
  do s <- ask w_srv ;
  do i <- lift (resolve s path) ;
  write_values i tag vs ;;
  unconn_reply svc_write 0 [].
(** unconnectedServiceRead, L577-637. *)
Definition unconnected_read (r : bytes) : M unit :=
  do (_, r) <- lift (rd 1 r) ;
  do (tag, r) <- lift (get_tag_from_path r) ;
  do (n, r) <- lift (rd 2 r) ;
  do (ps, r) <- lift (rd 2 r) ;
  do (path, _) <- lift (rd (Z.to_nat ((2 * unle ps) mod 65536)) r) ;
  do s <- ask w_srv ;
  do i <- lift (resolve s path) ;
  do v <- lift (tag_read (prov_at s i) tag (sgn 16 (unle n))) ;
  do payload <- lift (read_payload (pv_heap (prov_at s i)) v) ;
  unconn_reply svc_read 0 payload.
(** unconnectedServiceGetAttrSingle, L383-479. *)
Definition unconnected_get_attr (r : bytes) : M unit :=
  let reply := unconn_reply svc_get_single in
  do (ps, r) <- lift (rd 1 r) ;
  if negb (unle ps =? 3) then reply st_path_segment [] else
  do (cls, r) <- lift (class_read r) ;
  do (inst, r) <- lift (instance_read r) ;
  do (attr, _) <- lift (attribute_read r) ;
  do s <- ask w_srv ;
  if cls =? 0xC8 then
    match symbolic_tag s (inst mod 65536) with
    | None => reply st_path_unknown []
    | Some tag =>
        if negb (attr =? 1) then reply st_no_attr [] else
        or_reply (resolve s [1; 0]) (reply st_path_unknown []) (fun i =>
        or_reply (tag_read (prov_at s i) tag 1) (reply st_no_object []) (fun v =>
        match v with
        | PV (GStr x) => reply 0 [string_packer x]
        | _ => do b <- lift (item_ser (pv_heap (prov_at s i)) v) ; reply 0 [[pval_cip v]; [0]; b]
        end))
    end
  else if negb (cls =? obj_identity) || negb (inst =? 1) then reply st_path_unknown [] else
  match zlookup attr (sv_attrs s) with
  | None => reply st_no_attr []
  | Some v => do b <- lift (item_ser [] (PV v)) ; reply 0 [[pval_cip (PV v)]; [0]; b]
  end.
(** unconnectedServiceSetAttrSingle, L486-542. *)
Definition unconnected_set_attr (r : bytes) : M unit :=
  let reply := unconn_reply svc_set_single in
  do (ps, r) <- lift (rd 1 r) ;
  if negb (unle ps =? 3) then reply st_path_segment [] else
  do (cls, r) <- lift (class_read r) ;
  do (inst, r) <- lift (instance_read r) ;
  do (attr, r) <- lift (attribute_read r) ;
  if negb (cls =? 0xC8) then reply st_path_unknown [] else
  if negb (attr =? 1) then reply st_no_attr [] else
  do s <- ask w_srv ;
  match symbolic_tag s (inst mod 65536) with
  | None => reply st_path_unknown []
  | Some tag =>
      do (vs, _) <- lift (parse_write_values r) ;
      match vs with
      | [] => reply st_short []
      | v :: _ =>
          or_reply (resolve s [1; 0]) (reply st_path_unknown []) (fun i =>
          let '(p, x) := write_given (sv_conv s) (prov_at s i) tag (GiveOne v) in
          put_srv (set_prov i p) ;;
          or_reply x (reply st_bad_value []) (fun _ => reply 0 []))
      end
  end.

(** forwardOpen and largeForwardOpen, server.go L619-795; [d] starts at the
    service.  The structures differ in the width of the two parameter fields. *)
Definition fwd_open (large : bool) (d : bytes) : M unit :=
  let w := if large then 4%nat else 2%nat in
  do (f, r) <- lift (rd (38 + 2 * w) d) ;
  let field (off n : nat) := unle (firstn n (skipn off f)) in
  let ot := field 8%nat 4%nat in let to := field 12%nat 4%nat in
  let serial := field 16%nat 2%nat in let vendor := field 18%nat 2%nat in let orig := field 20%nat 4%nat in
  let ot_rpi := field 28%nat 4%nat in let to_rpi := field (32 + w)%nat 4%nat in
  let trigger := field (36 + 2 * w)%nat 1%nat in let cps := field (37 + 2 * w)%nat 1%nat in
  do (fwd_path, _) <- lift (rd (Z.to_nat ((cps * 2) mod 256)) r) ;
  if len fwd_path <? 2 then lift Panic else       (* fwd_path[:2] *)
  let path := firstn 2 fwd_path in
  do to <- (if to =? 0 then draw else ret to) ;
  do ot <- (if ot =? 0 then draw else ret ot) ;
  put_h (fun h => Handler (h_handle h) (h_options h) (h_context h) ot to (h_seq h)) ;;
  send cmd_rrdata (serialize_items
    [ item_empty item_null;
      item_write (item_empty item_unconndata)
        ([as_response (nth 0 f 0); 0; 0; 0] ++ le 4 ot ++ le 4 to ++ le 2 serial ++ le 2 vendor ++ le 4 orig ++
         le 4 ot_rpi ++ le 4 to_rpi ++ [0; 0]) ]) ;;
  do a <- ask (fun w => length (cm_heap (sv_cm (w_srv w)))) ;
  put_srv (fun s => set_cm (conn_add (sv_cm s) (SConn serial ot to to_rpi path true)) s) ;;
  if negb large && (trigger =? 1) then
    do s <- ask w_srv ;
    do _ <- lift (resolve s path) ;
    if to_rpi =? 0 then lift Panic               (* time.NewTicker(0) in the new goroutine *)
    else put_srv (add_io a)
  else ret tt.
(** forwardClose, L546-565: never replies. *)
Definition fwd_close (d : bytes) : M unit :=
  do (f, r) <- lift (rd 17 d) ;
  do s <- ask w_srv ;
  let '(m, ok) := conn_close (sv_cm s) (KeyID (unle (firstn 2 (skipn 8 f)))) in
  if negb ok then fail else
  put_srv (set_cm m) ;;
  do _ <- lift (rd (Z.to_nat ((nth 1 f 0 * 2) mod 256)) r) ;
  ret tt.

(** The switch on the service of the message inside an unconnected send,
    server_unconnected.go L94-121. *)
Definition embedded (svc : Z) (r : bytes) : M unit :=
  if svc =? svc_write then unconnected_write r
  else if svc =? svc_read then unconnected_read r
  else if svc =? svc_get_single then unconnected_get_attr r
  else if svc =? svc_set_single then unconnected_set_attr r
  else if svc =? svc_get_all then get_attribute_all (unconn_reply svc_get_all) r
  else unconn_reply svc st_not_supported [].
(** unconnectedData, L11-132. *)
Definition unconnected_data (d : bytes) : M unit :=
  do (sv, r) <- lift (rd 1 d) ;
  let svc := unle sv in
  if svc =? svc_open then fwd_open false d
  else if svc =? svc_large_open then fwd_open true d
  else if svc =? svc_forward_close then fwd_close d
  else if svc =? svc_get_all then get_attribute_all (unconn_reply svc_get_all) r
  else if svc =? svc_get_single then unconnected_get_attr r
  else if svc =? svc_set_single then unconnected_set_attr r
  else if svc =? svc_unconn then
    do (ps, r) <- lift (rd 1 r) ;
    do (_, r) <- lift (rd (Z.to_nat ((unle ps * 2) mod 256)) r) ;
    do (_, r) <- lift (rd 2 r) ;
    do (_, r) <- lift (rd 2 r) ;
    do (em, r) <- lift (rd 1 r) ;
    embedded (unle em) r
  else unconn_reply svc st_not_supported [].

(** sendRRData, server.go L514-544. *)
Definition rr_items (its : list item) : M unit :=
  match its with
  | [i0; i1] =>
      if it_id i1 =? item_conndata then
        do (sv, _) <- lift (rd 1 (it_data i1)) ;
        connected_read (unle sv) (it_data i0) (it_data i1)
      else if it_id i1 =? item_unconndata then unconnected_data (it_data i1)
      else ret tt
  | _ => fail
  end.
Definition rr_data : M unit := take 4 ;; take 2 ;; with_items rr_items.

(** registerSession, L862-882. *)
Definition register_session (hdr : eip_header) : M unit :=
  do reg <- take 4 ;
  do handle <- (if eh_session hdr =? 0 then draw else ret (eh_session hdr)) ;
  put_h (fun h => Handler handle (eh_options hdr) (h_context h) (h_ot h) (h_to h) (h_seq h)) ;;
  send cmd_register reg.
(** sendListServicesData, L958-969. *)
Definition list_services : M unit :=
  send cmd_rrdata (le 2 1 ++ le 2 0x0100 ++ le 2 10 ++ le 2 1 ++ le 2 0x0120 ++ str "Communications  ").
(** sendListIdentityReply, server_listidentity.go L103-110. *)
Definition list_identity : M unit :=
  do s <- ask w_srv ;
  do b <- lift (identity_body (sv_attrs s) (sv_ip s) (sv_port s)) ;
  send cmd_listidentity (identity_frame b).

(** One turn of the loop in serve, server.go L209-247. *)
Definition serve_one : M unit :=
  do hb <- take 24 ;
  let hdr := header_of hb in
  put_h (fun h => Handler (h_handle h) (h_options h) (eh_context hdr) (h_ot h) (h_to h) (h_seq h)) ;;
  let cmd := eh_command hdr in
  if cmd =? cmd_register then register_session hdr
  else if cmd =? cmd_rrdata then rr_data
  else if cmd =? cmd_unitdata then unit_data
  else if cmd =? cmd_listservices then list_services
  else if cmd =? cmd_listidentity then list_identity
  else ret tt.
(** serve: until an error ends the connection.  Every turn takes 24 bytes. *)
Fixpoint serve (fuel : nat) : M unit :=
  match fuel with
  | O => lift OutOfFuel
  | S k => serve_one ;; serve k
  end.

(** ** All connections

    What remains to be read from each peer, what was sent to it.  Turns of
    different connections interleave in any order; meanwhile the program around
    the server writes tags. *)
Record peer := Peer { pe_h : handler; pe_in : bytes; pe_sent : list bytes; pe_open : bool }.
Record site := Site { si_srv : server; si_peers : list peer; si_down : bool }.
Inductive happening := Turn (k : nat) | Host (i : nat) (tag : bytes) (v : given).
Definition happen (s : site) (e : happening) : site :=
  if si_down s then s else
  match e with
  | Turn k =>
      match nth_error (si_peers s) k with
      | None => s
      | Some p =>
          if negb (pe_open p) then s else
          let '(r, w) := serve_one (World (si_srv s) (pe_h p) (pe_in p) (pe_sent p)) in
          let p' b := Peer (w_h w) (w_in w) (w_sent w) b in
          match r with
          | Ok _ => Site (w_srv w) (setn (si_peers s) k (p' true)) false
          | Err _ => Site (w_srv w) (setn (si_peers s) k (p' false)) false
          | _ => Site (w_srv w) (setn (si_peers s) k (p' false)) true
          end
      end
  | Host i tag v =>
      let '(p, _) := write_given (sv_conv (si_srv s)) (prov_at (si_srv s) i) tag v in
      Site (set_prov i p (si_srv s)) (si_peers s) false
  end.
Definition happens (s : site) (es : list happening) : site := fold_left happen es s.
