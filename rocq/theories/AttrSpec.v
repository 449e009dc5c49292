(** * What attribute requests and their replies look like *)
From Verif Require Import GoBase ItemsSpec SegSpec.

(** [reply payload svc status ext data]: a 6-byte prefix and a list of items, of
    which the second holds sequence number, service, reserved byte, general
    status, size of the additional status, and data. *)
Definition reply (payload : bytes) (svc status ext : Z) (data : bytes) : Prop :=
  exists pre addr id seq resv others rest,
    length pre = 6%nat /\ length seq = 2%nat /\
    fits (addr :: (id, seq ++ [svc; resv; status; ext] ++ data) :: others) /\
    payload = pre ++ wire_list (addr :: (id, seq ++ [svc; resv; status; ext] ++ data) :: others) ++ rest.
Definition plain_reply (svc status ext : Z) (data : bytes) : bytes :=
  zeros 6 ++ wire_list [(0xA1, [1; 2; 3; 4]); (0xB1, [1; 0; svc; 0; status; ext] ++ data)].

(** A connected request: sequence number, service, number of words of the path,
    path, data. *)
Definition object_request (otid q svc : Z) (path data : bytes) : bytes :=
  zeros 6 ++ wire_list [(0xA1, le 4 otid); (0xB1, le 2 q ++ [svc; len path / 2] ++ path ++ data)].
