(** * Attributes and tags of the built-in server, as a client is to see them *)
From Verif Require Import GoBase TypesModel WriteSpec ProvModel SrvModel.
(** (The models for the types of values and of the server's state.) *)

(** The data of an attribute: a number's bytes, a string of up to 82 characters
    as the controller's STRING. *)
Inductive attribute_image : gval -> bytes -> Prop :=
| ai_number k v : is_number k v -> attribute_image v (number_data v)
| ai_string s : len s <= 82 -> attribute_image (GStr s) (string_data s).
(** Attribute [k] of the server's identity object. *)
Inductive attribute_of : list (Z * gval) -> Z -> gval -> Prop :=
| ao_here k v m : attribute_of ((k, v) :: m) k v
| ao_later k v k' v' m : k' <> k -> attribute_of m k v -> attribute_of ((k', v') :: m) k v.

(** Tags as programs name them: not empty, of characters. *)
Definition spelled (n : bytes) : Prop := n <> [] /\ Forall (fun c => 0 < c < 256) n /\ len n <= 255.
(** A connection after the server has handled what was received on it. *)
Definition received (s : server) (h : handler) (frame : bytes) : site := happens (Site s [Peer h frame [] true] false) [Turn 0].
Definition still_open (x : site) : Prop := exists p, nth_error (si_peers x) 0 = Some p /\ pe_open p = true.
(** The size of a listing of all tags: a number, a length, the name and a type
    each. *)
Definition listing_size (p : prov) : Z := fold_right (fun x n => 8 + len (fst x) + n) 0 (pv_data p).

(** The services of a connection to the server: GetAttributesAll, MultipleService,
    GetAttributeSingle, ReadTag, WriteTag, ReadTagFragmented, GetInstanceAttributeList. *)
Definition connected_services : list Z := [0x01; 0x0A; 0x0E; 0x4C; 0x4D; 0x52; 0x55].
