(** * What the built-in server owes a client reading and writing tags *)
From Verif Require Import GoBase IoiSpec TypesModel ItemsSpec ReadSpec WriteSpec BatchSpec SrvValSpec ProvModel ProvSpec TableModel SrvModel.
(** (The models for the types of values and of the server's state.) *)

(** Names the server can follow: no bit number, subscripts below 65536. *)
Definition addressed (t : tag) : Prop :=
  valid_tag t /\ t_bit t = None /\ Forall (fun m => Forall (fun i => i < 65536) (m_subs m)) (t_members t).
(** Counts that cannot be taken for another piece of the path (C02). *)
Definition clear_count (n : Z) : Prop :=
  0 <= n < 32768 /\ n mod 256 <> 0x28 /\ n mod 256 <> 0x29 /\ n mod 256 <> 0x91.

(** The members but the last, and the last. *)
Definition last_subs (t : tag) : list Z := m_subs (last (t_members t) {| m_name := []; m_subs := [] |}).
(** The name without the last subscript. *)
Definition strip_subs (t : tag) : tag :=
  {| t_members := removelast (t_members t) ++
       [{| m_name := m_name (last (t_members t) {| m_name := []; m_subs := [] |}); m_subs := [] |}];
     t_bit := t_bit t |}.

(** How a tag's value stands in a read reply: type and data. *)
Inductive wire_view : view -> bytes -> Prop :=
| wv_number k code g : number_code k = Some code -> is_number k g ->
    wire_view (VOne g) ([code; 0] ++ number_data g)
| wv_numbers k code l : number_code k = Some code -> k <> KBool -> Forall (is_number k) l ->
    wire_view (VMany (EK k) (map VOne l)) ([code; 0] ++ concat (map number_data l))
| wv_string s : wire_view (VOne (GStr s))
    ([0xA0; 0x02; 0xCE; 0x0F] ++ le 4 (Z.min (len s) 82) ++ firstn 82 s ++ zeros (84 - length (firstn 82 s))).

(** ** The parts of a multi-service request *)

Inductive part :=
| PRead (svc : Z) (t : tag) (n : Z) (more : bytes)
| PWrite (svc : Z) (t : tag) (k : gokind) (code : Z) (l : list gval).
Definition part_bytes (a : part) : bytes :=
  match a with
  | PRead svc t n more => [svc; len (encode t) / 2] ++ encode t ++ le 2 n ++ more
  | PWrite svc t k code l =>
      [svc; len (encode t) / 2] ++ encode t ++ [code; 0] ++ le 2 (len l) ++ concat (map number_data l)
  end.
Definition part_ok (a : part) : Prop :=
  match a with
  | PRead svc t n more => (svc = 0x4C \/ svc = 0x52) /\ addressed t /\ clear_count n
  | PWrite svc t k code l => svc = 0x4D /\ addressed t /\ number_code k = Some code /\
      Forall (is_number k) l /\ Forall representable l /\ 1 <= len l < 2 ^ 16
  end.
(** What a written list of values is to the store. *)
Definition as_given (l : list gval) : given := match l with [v] => GiveOne v | _ => GiveMany EAny l end.
(** [performs m a reply m']: a part done on a store, its sub-reply and the store
    afterwards.  Values of the kinds [wire_view] covers are sent that way; the
    others the embedding program may have stored are left open. *)
Inductive performs (m : store) : part -> bytes -> store -> Prop :=
| pf_read svc t n more v body m' : reads m (text t) n v -> (forall d, wire_view v d -> body = d) ->
    (forall k, m' k = m k) -> performs m (PRead svc t n more) ([svc + 0x80; 0; 0; 0] ++ body) m'
| pf_write svc t k code l m' : writes m (text t) (as_given l) m' ->
    performs m (PWrite svc t k code l) [svc + 0x80; 0; 0; 0] m'.
Inductive performs_all : store -> list part -> list bytes -> store -> Prop :=
| pa_nil m : performs_all m [] [] m
| pa_cons m a r m1 l rs m2 : performs m a r m1 -> performs_all m1 l rs m2 -> performs_all m (a :: l) (r :: rs) m2.
(** A part that cannot be done. *)
Definition impossible (m : store) (a : part) : Prop :=
  match a with
  | PRead _ t n _ => forall v d, ~ (reads m (text t) n v /\ wire_view v d)
  | PWrite _ t _ _ l => forall m', ~ writes m (text t) (as_given l) m'
  end.

(** The data of the reply: sequence count, service, status, then the number of
    sub-replies, their offsets from that number, and they themselves. *)
Definition multi_reply_body (q : Z) (replies : list bytes) : bytes :=
  le 2 q ++ [0x8A; 0; 0; 0] ++ le 2 (len replies) ++
  concat (map (le 2) (offsets (2 + 2 * len replies) replies)) ++ concat replies.

(** [lists_replies body q rs]: such data: the offsets, one for each sub-reply,
    locate them. *)
Definition lists_replies (body : bytes) (q : Z) (rs : list bytes) : Prop :=
  exists offs blob, body = le 2 q ++ [0x8A; 0; 0; 0] ++ le 2 (len rs) ++ concat (map (le 2) offs) ++ blob /\
    Forall (fun o => 0 <= o < 2 ^ 16) offs /\ Forall2 (locates body) offs rs.

(** Connection number [otid] of the server leads to provider [i]; its replies go
    to [to]. *)
Definition leads (s : server) (otid : Z) (i : nat) (to : Z) : Prop :=
  (i < length (sv_provs s))%nat /\
  exists cn, conn_by_ot s otid = Ok cn /\ sc_to cn = to /\ resolve s (sc_path cn) = Ok i.
(** The 32-bit fields of a handler. *)
Definition handler_ok (h : handler) : Prop := 0 <= h_handle h < 2 ^ 32 /\ 0 <= h_options h < 2 ^ 32.
(** A client with that session, context and connection number is connected to
    provider [i] of the server. *)
Definition linked (session context otid : Z) (i : nat) (sh : server * handler) : Prop :=
  0 <= session < 2 ^ 32 /\ 0 <= context < 2 ^ 64 /\ 0 <= otid < 2 ^ 32 /\ handler_ok (snd sh) /\
  (exists to, leads (fst sh) otid i to) /\ separate (prov_at (fst sh) i).
(** The store behind it. *)
Definition behind (i : nat) (sh : server * handler) : store := shows (prov_at (fst sh) i).
(** A number, bool or string of at most 82 characters. *)
Definition scalar (k : gokind) (v : gval) : Prop :=
  (exists code, number_code k = Some code /\ is_number k v /\ representable v) \/
  (exists s, v = GStr s /\ len s <= 82 /\ k = KString).
