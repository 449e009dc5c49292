(* What it takes for a request to be served as if it were alone. *)
From Verif Require Import GoBase SegModel IoiModel ItemsModel TypesModel ProvModel ProvSpec SrvValModel SrvModel ConcModel.

(* What others may do to a server in the meantime: write tags (only those that
   [W] allows), and anything that leaves the tags and the open connections as
   they are, such as opening one more. *)
Inductive meanwhile (W : nat -> bytes -> Prop) (s : server) : server -> Prop :=
| mw_same : meanwhile W s s
| mw_write : forall t i tag v, meanwhile W s t -> W i tag ->
    meanwhile W s (set_prov i (fst (write_given (sv_conv t) (prov_at t i) tag v)) t)
| mw_other : forall t t', meanwhile W s t ->
    sv_router t' = sv_router t -> sv_provs t' = sv_provs t -> sv_conv t' = sv_conv t -> sv_attrs t' = sv_attrs t ->
    (forall ot c, conn_by_ot t ot = Ok c -> conn_by_ot t' ot = Ok c) ->
    meanwhile W s t'.

(* A goroutine with others at work between its steps: how it ends, the server
   then, and what it sent. *)
Inductive course (W : nat -> bytes -> Prop) {A} : prog A -> server -> res A -> server -> list bytes -> Prop :=
| co_done : forall r s t, meanwhile W s t -> course W (Done r) s r t []
| co_out : forall f p s r t fs, course W p s r t fs -> course W (Out f p) s r t (f :: fs)
| co_step : forall u k s m r t fs, meanwhile W s m -> course W (k m) (u m) r t fs ->
    course W (Step u k) s r t fs.

(* A goroutine that does to the server no more than [W] allows. *)
Inductive within (W : nat -> bytes -> Prop) {A} : prog A -> Prop :=
| wi_done : forall r, within W (Done r)
| wi_out : forall f p, within W p -> within W (Out f p)
| wi_step : forall u k, (forall s, meanwhile W s (u s)) -> (forall s, within W (k s)) -> within W (Step u k).

(* The request of handler [m] is done in one go at some moment: others go before
   and after it. *)
Definition at_one_moment {A} (W : nat -> bytes -> Prop) (m : M A) (h : handler)
  (s : server) (r : res A) (t : server) (fs : list bytes) : Prop :=
  exists s1 s2 h2, meanwhile W s s1 /\ (forall inp, m (World s1 h inp []) = (r, World s2 h2 inp fs)) /\ meanwhile W s2 t.

(* The data of a request contains the name of the tag, the way the server reads
   names. *)
Definition mentions (d t : bytes) : Prop := exists k r, get_tag_from_path (skipn k d) = Ok (t, r).

(* An element of the array a request for [tag] reads. *)
Definition element_of (tag w : bytes) : Prop := exists b i, touches tag b /\ elem_name (lower w) b i.

(* The service a SendUnitData request asks for. *)
Definition service_of (d : bytes) (svc : Z) : Prop := exists a b r, d = a :: b :: svc :: r.

(* The tag and the count of a read: after the sequence number, the service and
   the length of the path. *)
Definition read_of (d tag : bytes) (q : Z) : Prop :=
  exists a b c l r x y rest, d = a :: b :: c :: l :: r /\ get_tag_from_path r = Ok (tag, x :: y :: rest) /\
    q = sgn 16 (unle [x; y]).

(* Every array of the server belongs to one tag. *)
Definition all_separate (s : server) : Prop := forall i, separate (prov_at s i).

(* Reading gives a single value, not an array, whatever is written meanwhile. *)
Definition single_value (W : nat -> bytes -> Prop) (s : server) (tag : bytes) (q : Z) : Prop :=
  forall m, meanwhile W s m -> forall i e l, ~ reads (shows (prov_at m i)) tag q (VMany e l).

(* Requests of other clients, with the data they carry: over a connection, or
   unconnected reads and writes; each client one after the other. *)
Inductive request : prog unit -> bytes -> Prop :=
| rq_unit : forall h i0 i1, request (p_unit_items h [i0; i1]) (it_data i1)
| rq_write : forall h d, request (p_unconnected_write h d) d
| rq_read : forall h d, request (p_unconnected_read h d) d.
Inductive requests : prog unit -> list bytes -> Prop :=
| rs_one : forall p d, request p d -> requests p [d]
| rs_more : forall p d q ds, request p d -> requests q ds -> requests (pbind p (fun _ => q)) (d :: ds).
(* The tags named in any of them. *)
Definition named (ds : list bytes) (i : nat) (t : bytes) : Prop := exists d, In d ds /\ mentions d t.

(* The requests inside a multiple request: where they start. *)
Definition multi_of (d : bytes) (n : Z) (offs : list Z) : Prop :=
  exists a b c pl path r r', d = a :: b :: c :: pl :: path ++ le 2 n ++ r /\ len path = (pl * 2) mod 256 /\
    0 <= n < 65536 /\ read_offsets (Z.to_nat n) r = Ok (offs, r').
(* They are done in order, each at a moment of its own. *)
Inductive in_turn (W : nat -> bytes -> Prop) (h : handler) (i : nat) (d : bytes) :
  list Z -> server -> list bytes -> server -> Prop :=
| it_none : forall s t, meanwhile W s t -> in_turn W h i d [] s [] t
| it_next : forall o os s x s1 xs t, at_one_moment W (multi_sub i d o) h s (Ok x) s1 [] ->
    in_turn W h i d os s1 xs t -> in_turn W h i d (o :: os) s (x :: xs) t.
