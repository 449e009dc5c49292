(** * Item lists and the cursor, specified directly *)
From Verif Require Import GoBase ItemsModel.
(** (ItemsModel is used for the type of cursor operations and their results.) *)

(** The wire form of a list of (id, data): interface handle and timeout (6 zero
    bytes), the count, then id, length and data of each. *)
Definition wire_item (x : Z * bytes) : bytes := le 2 (fst x) ++ le 2 (len (snd x)) ++ snd x.
Definition wire_list (l : list (Z * bytes)) : bytes := le 2 (len l) ++ concat (map wire_item l).

Definition fits (l : list (Z * bytes)) : Prop :=
  len l < 2 ^ 16 /\ Forall (fun x => 0 <= fst x < 2 ^ 16 /\ len (snd x) < 2 ^ 16) l.

(** Width and meaning of each typed read. *)
Definition width (o : cur_op) : option nat :=
  match o with
  | CByte => Some 1%nat
  | CU16 | CI16 => Some 2%nat
  | CU32 | CI32 | CF32 => Some 4%nat
  | CU64 | CI64 | CF64 => Some 8%nat
  | CRest | CReset => None
  end.
(** Two's complement value of little-endian bytes. *)
Definition signed_value (b : bytes) : Z :=
  let u := unle b in
  if u <? 2 ^ (8 * len b - 1) then u else u - 2 ^ (8 * len b).
Definition meaning (o : cur_op) (b : bytes) : Z :=
  match o with CI16 | CI32 | CI64 => signed_value b | _ => unle b end.

(** [reads data unread ops results unread']: what the operations return when
    [unread] is the part of [data] not read yet. *)
Inductive reads (data : bytes) : bytes -> list cur_op -> list cur_res -> bytes -> Prop :=
| reads_done u : reads data u [] [] u
| reads_field o w b u os rs u' :
    width o = Some w -> length b = w -> reads data u os rs u' ->
    reads data (b ++ u) (o :: os) (RNum (meaning o b) :: rs) u'
| reads_short o w u os rs u' :
    width o = Some w -> (length u < w)%nat -> reads data u os rs u' ->
    reads data u (o :: os) (RFail :: rs) u'
| reads_rest u os rs u' :
    reads data u os rs u' -> reads data u (CRest :: os) (RBytes u :: rs) u'
| reads_reset u os rs u' :
    reads data data os rs u' -> reads data u (CReset :: os) (RDone :: rs) u'.

(** A string slot: 4-byte length, 84 bytes. *)
Record slot := { slot_len : Z; slot_data : bytes }.
Definition slot_wire (s : slot) : bytes := le 4 (slot_len s) ++ slot_data s.
(** A slot tells the truth about [s]: it carries at least as many characters as
    it announces, and these are the first characters of [s]. *)
Definition truthful (x : slot) (s : bytes) : Prop :=
  length (slot_data x) = 84%nat /\ 0 <= slot_len x <= 84 /\
  firstn (Z.to_nat (slot_len x)) (slot_data x) = firstn (Z.to_nat (slot_len x)) s /\
  slot_len x = Z.min (len s) 84.
