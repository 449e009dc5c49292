(** * The connection open and close requests of the protocol *)
From Verif Require Import GoBase EipModel OpenModel ItemsSpec.

(** Bits [lo] to [hi] of a number. *)
Definition field (lo hi w : Z) : Z := (w / 2 ^ lo) mod 2 ^ (hi - lo + 1).

(** The network connection parameters: a 16-bit word in the standard request, a
    32-bit word in the large one. *)
Record conn_params := Params { p_size : Z; p_variable : Z; p_priority : Z; p_type : Z; p_owner : Z }.
Definition params_standard (w : Z) : conn_params :=
  {| p_size := field 0 8 w; p_variable := field 9 9 w; p_priority := field 10 11 w; p_type := field 13 14 w; p_owner := field 15 15 w |}.
Definition params_large (w : Z) : conn_params :=
  {| p_size := field 0 15 w; p_variable := field 25 25 w; p_priority := field 26 27 w; p_type := field 29 30 w; p_owner := field 31 31 w |}.

(** A request that opens a connection.  Timeouts, multiplier and interval are not
    of interest here. *)
Record open_req := OpenReq {
  o_large : bool; o_tick : Z; o_ticks : Z; o_ot : Z; o_to : Z; o_serial : Z; o_vendor : Z; o_orig : Z;
  o_mult : Z; o_rpi : Z; o_word : Z; o_words : Z; o_path : bytes }.
Definition o_params (o : open_req) : conn_params :=
  if o_large o then params_large (o_word o) else params_standard (o_word o).

Definition open_message (o : open_req) : bytes :=
  let w := if o_large o then 4%nat else 2%nat in
  [if o_large o then 0x5B else 0x54; 2; 0x20; 6; 0x24; 1; o_tick o; o_ticks o] ++ le 4 (o_ot o) ++ le 4 (o_to o) ++
  le 2 (o_serial o) ++ le 2 (o_vendor o) ++ le 4 (o_orig o) ++ le 4 (o_mult o) ++
  le 4 (o_rpi o) ++ le w (o_word o) ++ le 4 (o_rpi o) ++ le w (o_word o) ++ [0xA3; o_words o] ++ o_path o.

(** A request that closes the connection an originator (vendor, serial number)
    opened under a connection serial number. *)
Definition close_message (serial vendor orig words : Z) (path : bytes) : bytes :=
  [0x4E; 2; 0x20; 6; 0x24; 1; 0x0A; 0x0E] ++ le 2 serial ++ le 2 vendor ++ le 4 orig ++ [words; 0] ++ path.

(** An unconnected request: a null address item and a data item. *)
Definition unconnected (msg : bytes) : bytes :=
  [0;0;0;0; 0;0; 2;0; 0;0; 0;0; 0xB2;0] ++ le 2 (len msg) ++ msg.

(** A reply that grants an open request under a connection id: a status of zero,
    any extended status announced, then the id and the rest of the 26 bytes. *)
Definition grants (d : bytes) (id : Z) : Prop :=
  exists pre a x more tail svc z n ext rest,
    d = pre ++ wire_list (a :: x :: more) ++ tail /\ List.length pre = 6%nat /\ fits (a :: x :: more) /\
    snd x = [svc; z; 0; n] ++ ext ++ le 4 id ++ rest /\ len ext = (n * 2) mod 256 /\ 22 <= len rest /\ 0 <= id < 2 ^ 32.

Definition word_ok (o : open_req) : Prop := 0 <= o_word o < (if o_large o then 2 ^ 32 else 2 ^ 16).

(** A connection's other end with a list of what it was sent. *)
Definition logging {S} (p : peer S) : peer (S * list (Z * bytes)) :=
  fun st cmd d => let '(r, s') := p (fst st) cmd d in (r, (s', snd st ++ [(cmd, d)])).
