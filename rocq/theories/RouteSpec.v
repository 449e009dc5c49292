(** * Which tags a request is about *)
From Verif Require Import GoBase ItemsSpec TypesModel TableModel ProvModel SrvModel SrvSpec.
(** (The models for the types of the server's state, the connection table and the
    router's lookup.) *)

(** The provider registered for a route. *)
Definition registered (s : server) (route : bytes) (j : nat) : Prop := resolve s route = Ok j.
(** The route of an open connection, by the number its requests carry. *)
Definition connected_to (s : server) (ot : Z) (route : bytes) : Prop :=
  exists a, conn_get (sv_cm s) (KeyOT ot) = Some a /\ sc_path (conn_at (cm_heap (sv_cm s)) a) = route.

(** Bytes of a number or bool of a CIP type. *)
Definition number_size (t : Z) : option Z :=
  if existsb (Z.eqb t) [0xC1; 0xC2; 0xC6; 0xD1] then Some 1
  else if existsb (Z.eqb t) [0xC3; 0xC7; 0xD2] then Some 2
  else if existsb (Z.eqb t) [0xC4; 0xC8; 0xCA; 0xD3] then Some 4
  else if existsb (Z.eqb t) [0xC5; 0xCB; 0xD4] then Some 8
  else None.
(** The message inside an Unconnected Send: a read, or a write of [n] values. *)
Inductive message : bytes -> Prop :=
| ms_read l p n : tag_path p -> length n = 2%nat -> message (0x4C :: l :: p ++ n)
| ms_write l p t info n vals : tag_path p -> length n = 2%nat ->
    (forall z, number_size t = Some z -> len vals = unle n * z) ->
    message (0x4D :: l :: p ++ t :: len info :: info ++ n ++ vals).
(** An Unconnected Send with its route. *)
Inductive carries_route : bytes -> bytes -> Prop :=
| ca ps path tick m n route r : len path = (2 * ps) mod 256 -> length tick = 4%nat -> message m ->
    len route = (2 * n) mod 65536 -> 0 <= n < 65536 ->
    carries_route (0x52 :: ps :: path ++ tick ++ m ++ le 2 n ++ route ++ r) route.
(** Get or Set Attribute Single, alone or inside an Unconnected Send. *)
Inductive attribute_request : bytes -> Prop :=
| ar_alone svc r : svc = 0x0E \/ svc = 0x10 -> attribute_request (svc :: r)
| ar_inside ps path tick svc r : len path = (2 * ps) mod 256 -> length tick = 4%nat -> svc = 0x0E \/ svc = 0x10 ->
    attribute_request (0x52 :: ps :: path ++ tick ++ svc :: r).

(** The next frame of a stream is for the tags of provider [j]: it names an open
    connection, or carries a route, registered for [j]; attribute requests are for
    the tags at route 1,0. *)
Inductive meant_for (s : server) : bytes -> nat -> Prop :=
| mf_unit hdr six a a' i d r route j : length hdr = 24%nat -> firstn 2 hdr = [0x70; 0] -> length six = 6%nat -> length a = 4%nat ->
    connected_to s (unle a) route -> registered s route j ->
    meant_for s (hdr ++ six ++ wire_list [(0xA1, a ++ a'); (i, d)] ++ r) j
| mf_rr hdr six x a a' d r route j : length hdr = 24%nat -> firstn 2 hdr = [0x6F; 0] -> length six = 6%nat -> length a = 4%nat ->
    connected_to s (unle a) route -> registered s route j ->
    meant_for s (hdr ++ six ++ wire_list [(x, a ++ a'); (0xB1, d)] ++ r) j
| mf_send hdr six x y d r route j : length hdr = 24%nat -> firstn 2 hdr = [0x6F; 0] -> length six = 6%nat ->
    carries_route d route -> registered s route j ->
    meant_for s (hdr ++ six ++ wire_list [(x, y); (0xB2, d)] ++ r) j
| mf_attr hdr six x y d r j : length hdr = 24%nat -> firstn 2 hdr = [0x6F; 0] -> length six = 6%nat ->
    attribute_request d -> registered s [1; 0] j ->
    meant_for s (hdr ++ six ++ wire_list [(x, y); (0xB2, d)] ++ r) j.

(** Two servers that differ at most in the tags of providers outside [J]. *)
Record alike (J : nat -> Prop) (s t : server) : Prop := Alike {
  al_cm : sv_cm t = sv_cm s; al_router : sv_router t = sv_router s; al_attrs : sv_attrs t = sv_attrs s;
  al_rand : sv_rand t = sv_rand s; al_drawn : sv_drawn t = sv_drawn s; al_io : sv_io t = sv_io s; al_conv : sv_conv t = sv_conv s;
  al_ip : sv_ip t = sv_ip s; al_port : sv_port t = sv_port s;
  al_provs : forall j, J j -> nth_error (sv_provs t) j = nth_error (sv_provs s) j }.
(** Providers outside [J] hold what they held. *)
Definition untouched (J : nat -> Prop) (s s' : server) : Prop :=
  forall j, ~ J j -> nth_error (sv_provs s') j = nth_error (sv_provs s) j.

(** Two courses of events: the same, but for what the program around the server
    writes to providers outside [J]. *)
Inductive same_but (J : nat -> Prop) : list happening -> list happening -> Prop :=
| sb_end : same_but J [] []
| sb_both e l m : same_but J l m -> same_but J (e :: l) (e :: m)
| sb_left i tag v l m : ~ J i -> same_but J l m -> same_but J (Host i tag v :: l) m
| sb_right i tag v l m : ~ J i -> same_but J l m -> same_but J l (Host i tag v :: m).
(** Every frame handled in a course of events is for providers in [J] only. *)
Fixpoint keeps_to (J : nat -> Prop) (s : site) (es : list happening) : Prop :=
  match es with
  | [] => True
  | e :: r =>
      (match e with
       | Turn k => forall p, nth_error (si_peers s) k = Some p -> forall j, meant_for (si_srv s) (pe_in p) j -> J j
       | Host _ _ _ => True
       end) /\ keeps_to J (happen s e) r
  end.
