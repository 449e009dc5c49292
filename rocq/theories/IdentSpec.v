(** * Identity and services as the EtherNet/IP specification lays them out *)
From Verif Require Import GoBase TypesModel SrvModel ItemsSpec IdentModel.
(** (The models for the records.) *)

(** The attributes of the identity object: vendor, device type, product code,
    revision, status (16 bits), serial number (32 bits), product name. *)
Record attributes := Attributes { at_vendor : Z; at_device : Z; at_code : Z; at_revision : Z; at_status : Z; at_serial : Z; at_name : bytes }.
Definition int16 (z : Z) : Prop := - 2 ^ 15 <= z < 2 ^ 15.
(** The attribute map of the server holds them. *)
Definition typed (m : list (Z * gval)) (a : attributes) : Prop :=
  zlookup 1 m = Some (GInt true 2 (at_vendor a)) /\ zlookup 2 m = Some (GInt true 2 (at_device a)) /\
  zlookup 3 m = Some (GInt true 2 (at_code a)) /\ zlookup 4 m = Some (GInt true 2 (at_revision a)) /\
  zlookup 5 m = Some (GInt true 2 (at_status a)) /\ zlookup 6 m = Some (GInt false 4 (at_serial a)) /\
  zlookup 7 m = Some (GStr (at_name a)).
Definition holds (m : list (Z * gval)) (a : attributes) : Prop := typed m a /\
  int16 (at_vendor a) /\ int16 (at_device a) /\ int16 (at_code a) /\ int16 (at_revision a) /\ int16 (at_status a) /\
  0 <= at_serial a < 2 ^ 32.
(** The same 16 bits, one side calling them signed. *)
Definition same16 (signed unsigned : Z) : Prop := 0 <= unsigned < 2 ^ 16 /\ (unsigned = signed \/ unsigned = signed + 2 ^ 16).
(** What the client should see. *)
Definition identifies (a : attributes) (p1 p2 p3 p4 port : Z) (i : ident) : Prop :=
  id_version i = 1 /\ id_family i = 2 /\ id_port i = port /\
  id_address i = p1 * 2 ^ 24 + p2 * 2 ^ 16 + p3 * 2 ^ 8 + p4 /\ id_zero0 i = 0 /\ id_zero1 i = 0 /\
  same16 (at_vendor a) (id_vendor i) /\ same16 (at_device a) (id_device i) /\ same16 (at_code a) (id_code i) /\
  same16 (at_revision a) (id_revision i) /\ same16 (at_status a) (id_status i) /\ id_serial i = at_serial a /\
  id_name i = firstn 255 (at_name a) /\ id_state i = 0xFF.

(** The identity item of a device, of any length of name up to 255. *)
Definition be2 (z : Z) : bytes := [(z / 256) mod 256; z mod 256].
Definition be4 (z : Z) : bytes := be2 (z / 65536) ++ be2 z.
Definition ident_item (i : ident) : bytes :=
  le 2 (id_version i) ++ be2 (id_family i) ++ be2 (id_port i) ++ be4 (id_address i) ++ be4 (id_zero0 i) ++ be4 (id_zero1 i) ++
  le 2 (id_vendor i) ++ le 2 (id_device i) ++ le 2 (id_code i) ++ le 2 (id_revision i) ++ le 2 (id_status i) ++
  le 4 (id_serial i) ++ [len (id_name i)] ++ id_name i ++ [id_state i].
Definition u16 (z : Z) : Prop := 0 <= z < 2 ^ 16.
Definition u32 (z : Z) : Prop := 0 <= z < 2 ^ 32.
Definition ident_ok (i : ident) : Prop :=
  u16 (id_version i) /\ u16 (id_family i) /\ u16 (id_port i) /\ u32 (id_address i) /\ u32 (id_zero0 i) /\ u32 (id_zero1 i) /\
  u16 (id_vendor i) /\ u16 (id_device i) /\ u16 (id_code i) /\ u16 (id_revision i) /\ u16 (id_status i) /\ u32 (id_serial i) /\
  len (id_name i) <= 255 /\ 0 <= id_state i < 256.

(** A service item: the name in sixteen bytes, the rest of them 0. *)
Definition service_item (s : service) : bytes :=
  le 2 (sv_version s) ++ le 2 (sv_caps s) ++ sv_name s ++ zeros (16 - length (sv_name s)).
Definition service_ok (s : service) : Prop :=
  u16 (sv_version s) /\ u16 (sv_caps s) /\ len (sv_name s) <= 16 /\ (forall n, sv_name s <> n ++ [0]).
