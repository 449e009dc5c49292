(** * Requests served at the same time (server.go, server_connected.go,
      server_unconnected.go, server_router.go, server_connections.go)

    Every connection has its own goroutine (server.go L115-131), and
    what they share is guarded call by call: ConnMgr by its lock
    (server_connections.go), the tags by MapTagProvider's mutex (server_router.go
    L80).  TagRead hands out a slice of the stored array (L130, L136); the reply
    reads its elements after the mutex is free again (items.go L214-282).  So a
    request is a sequence of steps, and other requests come in between.  SrvModel
    runs a frame in one go; here the requests that use tags are cut into steps:
    one per call under a lock, one per element read from a slice.
    Simplified: reading one element is one step, although the Go memory model
    promises even less for a racing string; no step lies between a sent frame and
    what follows it. *)
From Verif Require Import GoBase SegModel IoiModel ItemsModel TypesModel WriteModel ReadModel EipModel OpenModel
  TableModel ProvModel SrvValModel SrvModel.

(** What a goroutine still has to do: end, send a frame, or act on what is
    shared and go on with what it found there. *)
Inductive prog (A : Type) :=
| Done (r : res A)
| Out (f : bytes) (p : prog A)
| Step (u : server -> server) (k : server -> prog A).
Arguments Done {A} r. Arguments Out {A} f p. Arguments Step {A} u k.

Fixpoint pbind {A B} (p : prog A) (f : A -> prog B) : prog B :=
  match p with
  | Done (Ok a) => f a
  | Done (Err e) => Done (Err e)
  | Done Panic => Done Panic
  | Done OutOfFuel => Done OutOfFuel
  | Out x q => Out x (pbind q f)
  | Step u k => Step u (fun s => pbind (k s) f)
  end.
Notation "'get' p <- m ; k" := (pbind m (fun p => k)) (at level 60, p pattern, m at level 59, right associativity).
Definition p_ask {A} (f : server -> A) : prog A := Step (fun s => s) (fun s => Done (Ok (f s))).
Definition p_or_send {A} (r : res A) (m : prog unit) : prog A :=
  match r with
  | Err e => get _ <- m ; Done (Err e)
  | _ => Done r
  end.

(** The goroutine on its own: how it ends, what it leaves, what it sent. *)
Fixpoint alone {A} (p : prog A) (s : server) : res A * server * list bytes :=
  match p with
  | Done r => (r, s, [])
  | Out f q => let '(r, s1, fs) := alone q s in (r, s1, f :: fs)
  | Step u k => alone (k s) (u s)
  end.

(** Replies, as in SrvModel; [h] are the fields of this connection's handler. *)
Definition p_send (h : handler) (cmd : Z) (part : bytes) : prog unit :=
  Out (server_msg_build (h_handle h) (h_context h) (h_options h) cmd [part]) (Done (Ok tt)).
Definition p_conn_reply (h : handler) (svc seq to : Z) (payload : list bytes) : prog unit :=
  p_send h cmd_unitdata (serialize_items (conn_reply_items svc seq to 0 0 payload)).
Definition p_conn_error (h : handler) (svc seq to status : Z) : prog unit :=
  p_send h cmd_unitdata (serialize_items (conn_reply_items svc seq to status 0 [])).
Definition p_unit_reply (h : handler) (svc status : Z) (payload : list bytes) : prog unit :=
  p_send h cmd_unitdata (serialize_items
    [ new_item item_connaddr (le 4 (h_to h));
      fold_left item_write payload
        (item_write (item_empty item_conndata) (le 2 (h_seq h) ++ [as_response svc; 0; status; 0])) ]).
Definition p_unconn_reply (h : handler) (svc status : Z) (payload : list bytes) : prog unit :=
  p_send h cmd_rrdata (serialize_items
    [ item_empty item_null;
      fold_left item_write payload (item_write (item_empty item_unconndata) [as_response svc; 0; status; 0]) ]).

(** The elements of a slice of provider [i], one after the other: the loop over
    []string (server_connected.go L328-332) and the loops of binary.Write. *)
Fixpoint p_elems (i arr off n : nat) : prog (list pval) :=
  match n with
  | O => Done (Ok [])
  | S k =>
      get x <- p_ask (fun s => nth_error (nth arr (pv_heap (prov_at s i)) []) off) ;
      match x with
      | None => Done (Ok [])
      | Some v => get vs <- p_elems i arr (S off) k ; Done (Ok (v :: vs))
      end
  end.
(** CIPItem.Serialize, Serialize and the payload of a read reply: as item_ser,
    buffer_ser and read_payload of SrvModel. *)
Definition p_item_ser (i : nat) (v : pval) : prog bytes :=
  match v with
  | PS (EK k) arr off n =>
      get l <- p_elems i arr off n ;
      Done (Ok (match k with KString => ser_strings (map pstr l) | _ => concat (map praw l) end))
  | _ => Done (item_ser [] v)
  end.
Definition p_buffer_ser (i : nat) (v : pval) : prog bytes :=
  match v with
  | PV GNil => Done (Ok [])
  | PS (EK KString) _ _ _ => Done (Err EMsg)
  | _ => p_item_ser i v
  end.
Definition p_read_payload (i : nat) (v : pval) : prog (list bytes) :=
  if pval_cip v =? T_string then
    match v with
    | PV (GStr s) => Done (Ok [string_packer s])
    | PS (EK KString) arr off n =>
        get l <- p_elems i arr off n ; Done (Ok (map (fun x => string_packer (pstr x)) l))
    | _ => Done (Err EMsg)
    end
  else get b <- p_item_ser i v ; Done (Ok [[pval_cip v]; [0]; b]).

(** TagWrite: one step (server_router.go L153-154 holds the mutex throughout). *)
Definition give (vs : list gval) : given :=
  match vs with [v] => GiveOne v | _ => GiveMany EAny vs end.
Definition p_write_values (i : nat) (tag : bytes) (vs : list gval) : prog unit :=
  match vs with
  | [] => Done Panic
  | _ => Step (fun s => set_prov i (fst (write_given (sv_conv s) (prov_at s i) tag (give vs))) s)
              (fun s => Done (snd (write_given (sv_conv s) (prov_at s i) tag (give vs))))
  end.
(** ConnMgr.GetByOT and Router.Resolve; the router is not changed while the
    server runs. *)
Definition p_conn (ot : Z) : prog (res sconn) := p_ask (fun s => conn_by_ot s ot).
Definition p_resolve (path : bytes) : prog (res nat) := p_ask (fun s => resolve s path).
Definition p_tag_read (i : nat) (tag : bytes) (n : Z) : prog (res pval) :=
  p_ask (fun s => tag_read (prov_at s i) tag n).

(** cipConnectedWrite, server_connected.go L9-63. *)
Definition p_connected_write (h : handler) (d0 r : bytes) : prog unit :=
  get (_, r1) <- Done (rd 1 r) ;
  get (tag, r2) <- Done (get_tag_from_path r1) ;
  get (vs, _) <- Done (parse_write_values r2) ;
  get (c, _) <- Done (rd 4 d0) ;
  get cn <- p_conn (unle c) ; get cn <- Done cn ;
  get i <- p_resolve (sc_path cn) ; get i <- Done i ;
  get _ <- p_write_values i tag vs ;
  p_unit_reply h svc_write 0 [].

(** connectedRead, L261-341. *)
Definition p_connected_read (h : handler) (svc : Z) (d0 d1 : bytes) : prog unit :=
  get (c, _) <- p_or_send (rd 4 d0) (p_conn_error h svc 0 0 st_bad_param) ;
  get cn <- p_conn (unle c) ;
  get cn <- p_or_send cn (p_conn_error h svc 0 0 st_conn_lost) ;
  get (q, r) <- p_or_send (rd 2 d1) (p_conn_error h svc 0 (sc_to cn) st_bad_param) ;
  get (_, r) <- p_or_send (rd 2 r) (p_conn_error h svc (unle q) (sc_to cn) st_bad_param) ;
  get (tag, r) <- p_or_send (get_tag_from_path r) (p_conn_error h svc (unle q) (sc_to cn) st_bad_param) ;
  get (n, _) <- p_or_send (rd 2 r) (p_conn_error h svc (unle q) (sc_to cn) st_bad_param) ;
  get i <- p_resolve (sc_path cn) ;
  get i <- p_or_send i (p_conn_error h svc (unle q) (sc_to cn) st_path_unknown) ;
  get v <- p_tag_read i tag (sgn 16 (unle n)) ;
  get v <- p_or_send v (p_conn_error h svc (unle q) (sc_to cn) st_no_member) ;
  get payload <- p_read_payload i v ;
  p_conn_reply h svc (unle q) (sc_to cn) payload.

(** connectedMulti, L65-254: one request inside, all of them, the whole. *)
Definition p_multi_sub (i : nat) (d1 : bytes) (off : Z) : prog bytes :=
  let pos := off + 8 in
  get r <- Done (if len d1 <=? pos then Err EEof else slice_from d1 pos) ;
  get (sv, r) <- Done (rd 1 r) ;
  get (_, r) <- Done (rd 1 r) ;
  let svc := unle sv in
  if (svc =? svc_fragread) || (svc =? svc_read) then
    get (tag, r) <- Done (get_tag_from_path r) ;
    get (n, r) <- Done (rd 2 r) ;
    get v <- p_tag_read i tag (sgn 16 (unle n)) ; get v <- Done v ;
    if pval_cip v =? T_string then
      match v with
      | PV (GStr x) => Done (Ok ([as_response svc; 0; 0; 0] ++ string_packer x))
      | _ => Done (Err EMsg)
      end
    else
      get b <- p_buffer_ser i v ;
      Done (Ok ([as_response svc; 0; 0; 0; pval_cip v; 0] ++ b))
  else if (svc =? svc_write) || (svc =? svc_fragwrite) then
    get (tag, r) <- Done (get_tag_from_path r) ;
    get (t, r) <- Done (rd 1 r) ;
    get (_, r) <- Done (rd 1 r) ;
    get (n, r) <- Done (rd 2 r) ;
    get (vs, _) <- Done (read_values (Z.to_nat (unle n)) (unle t) r) ;
    get _ <- p_write_values i tag vs ;
    Done (Ok [as_response svc; 0; 0; 0])
  else Done (Ok []).
Fixpoint p_multi_subs (i : nat) (d1 : bytes) (offs : list Z) : prog (list bytes) :=
  match offs with
  | [] => Done (Ok [])
  | o :: os => get x <- p_multi_sub i d1 o ; get xs <- p_multi_subs i d1 os ; Done (Ok (x :: xs))
  end.
Definition p_connected_multi (h : handler) (d0 d1 : bytes) : prog unit :=
  get (c, _) <- Done (rd 4 d0) ;
  get cn <- p_conn (unle c) ; get cn <- Done cn ;
  get i <- p_resolve (sc_path cn) ; get i <- Done i ;
  get (q, r) <- Done (rd 2 d1) ;
  get (_, r) <- Done (rd 1 r) ;
  get (pl, r) <- Done (rd 1 r) ;
  get (_, r) <- Done (rd (Z.to_nat ((unle pl * 2) mod 256)) r) ;
  get (n, r) <- Done (rd 2 r) ;
  get (offs, _) <- Done (read_offsets (Z.to_nat (unle n)) r) ;
  get results <- p_multi_subs i d1 offs ;
  p_conn_reply h svc_multi (unle q) (sc_to cn)
    ([le 2 (unle n); jump_table ((unle n + 1) * 2) results] ++ results).

(** The other services of sendUnitData look at what is shared once (attributes,
    TagList), after the connection: one step. *)
Definition p_once (h : handler) (m : M unit) : prog unit :=
  Step (fun s => s)
    (fun s => let '(r, w) := m (World s h [] []) in fold_right (fun f p => Out f p) (Done r) (w_sent w)).
(** sendUnitData, server.go L251-345, from the items on. *)
Definition p_unit_items (h : handler) (its : list item) : prog unit :=
  match its with
  | [i0; i1] =>
      if negb (it_id i0 =? item_connaddr) then Done (Err EMsg) else
      get _ <- Done (rd 4 (it_data i0)) ;
      get (q, r1) <- Done (rd 2 (it_data i1)) ;
      let h := Handler (h_handle h) (h_options h) (h_context h) (h_ot h) (h_to h) (unle q) in
      get (sv, r2) <- Done (rd 1 r1) ;
      let svc := unle sv in
      let d0 := it_data i0 in let d1 := it_data i1 in
      if svc =? svc_write then p_connected_write h d0 r2
      else if (svc =? svc_fragread) || (svc =? svc_read) then p_connected_read h svc d0 d1
      else if svc =? svc_multi then p_connected_multi h d0 d1
      else if svc =? svc_get_single then p_once h (connected_get_attr d0 d1)
      else if svc =? svc_get_all then p_once h (get_attribute_all (unit_reply svc_get_all) r2)
      else if svc =? svc_list then p_once h (connected_symbols d0)
      else p_unit_reply h svc st_not_supported []
  | _ => Done (Err EMsg)
  end.
(** unconnectedServiceWrite and unconnectedServiceRead, server_unconnected.go
    L336-381, L577-637. *)
Definition p_unconnected_write (h : handler) (r : bytes) : prog unit :=
  get (_, r) <- Done (rd 1 r) ;
  get (tag, r) <- Done (get_tag_from_path r) ;
  get (vs, r) <- Done (parse_write_values r) ;
  get (ps, r) <- Done (rd 2 r) ;
  get (path, _) <- Done (rd (Z.to_nat ((2 * unle ps) mod 65536)) r) ;
  get i <- p_resolve path ; get i <- Done i ;
  get _ <- p_write_values i tag vs ;
  p_unconn_reply h svc_write 0 [].
Definition p_unconnected_read (h : handler) (r : bytes) : prog unit :=
  get (_, r) <- Done (rd 1 r) ;
  get (tag, r) <- Done (get_tag_from_path r) ;
  get (n, r) <- Done (rd 2 r) ;
  get (ps, r) <- Done (rd 2 r) ;
  get (path, _) <- Done (rd (Z.to_nat ((2 * unle ps) mod 65536)) r) ;
  get i <- p_resolve path ; get i <- Done i ;
  get v <- p_tag_read i tag (sgn 16 (unle n)) ; get v <- Done v ;
  get payload <- p_read_payload i v ;
  p_unconn_reply h svc_read 0 payload.

(** Goroutines side by side: the scheduler picks one at a time; each has its
    connection to send to. *)
Definition pool := list (prog unit * list bytes).
Definition turn (j : nat) (ps : pool) (s : server) : pool * server :=
  match nth_error ps j with
  | Some (Out f p, fs) => (setn ps j (p, fs ++ [f]), s)
  | Some (Step u k, fs) => (setn ps j (k s, fs), u s)
  | _ => (ps, s)
  end.
Fixpoint play (sched : list nat) (ps : pool) (s : server) : pool * server :=
  match sched with
  | [] => (ps, s)
  | j :: js => let '(ps1, s1) := turn j ps s in play js ps1 s1
  end.
