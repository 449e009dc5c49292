(** * What Logix makes of a structure with TIMER, COUNTER, CONTROL and STRING members *)
From Verif Require Import GoBase PackTypes PackSpec KnownModel.
(** (KnownModel for the types.) *)

(** In the controller TIMER, COUNTER and CONTROL are three DINTs each, STRING a
    DINT and 82 characters. *)
Definition DINT := TInt true 4.
Definition three (name : bytes) : gty := TStruct name (FCons false DINT (FCons false DINT (FCons false DINT FNil))).
Fixpoint logix (k : kty) : gty :=
  match k with
  | KPlain t => t
  | KTimer => three (str "TIMER")
  | KCounter => three (str "COUNTER")
  | KControl => three (str "CONTROL")
  | KString => TStruct (str "STRING") (FCons false DINT (FCons false (TArr 82 (TInt true 1)) FNil))
  | KArr n k => TArr n (logix k)
  | KStruct name fs => TStruct name (logix_fields fs)
  end
with logix_fields (fs : kfields) : gfields :=
  match fs with KNil => FNil | KCons np k r => FCons np (logix k) (logix_fields r) end.

(** The first of the three DINTs holds the flags, from its highest bit down:
    TIMER EN TT DN (the others of the Go structure are nowhere), COUNTER
    CU CD DN OV UN, CONTROL EN EU DN EM ER UL IN FD. *)
Fixpoint flag_sum (bit : Z) (l : list gv) : Z :=
  match l with
  | VBool b :: r => (if b then 2 ^ bit else 0) + flag_sum (bit - 1) r
  | _ => 0
  end.
(** ... as a signed number. *)
Definition as_dint (u : Z) : Z := if u <? 2 ^ 31 then u else u - 2 ^ 32.
Definition flagged (used : nat) (v : gv) : gv :=
  match v with
  | VStruct (a :: b :: flags) => VStruct [VInt (as_dint (flag_sum 31 (firstn used flags))); a; b]
  | _ => v
  end.
Fixpoint in_logix (k : kty) (v : gv) : gv :=
  match k with
  | KTimer => flagged 3 v
  | KCounter => flagged 5 v
  | KControl => flagged 8 v
  | KStruct _ fs => match v with VStruct vs => VStruct (fields_in_logix fs vs) | _ => v end
  | _ => v
  end
with fields_in_logix (fs : kfields) (vs : list gv) : list gv :=
  match fs, vs with KCons _ k r, v :: vr => in_logix k v :: fields_in_logix r vr | _, _ => vs end.

(** Back: what a structure in the controller means to the program.  Of a TIMER
    the flags without a place keep what they were. *)
Fixpoint flags_of (n : nat) (bit w : Z) : list gv :=
  match n with O => [] | S k => VBool (Z.testbit w bit) :: flags_of k (bit - 1) w end.
Definition meant3 (used : nat) (kept : list gv) (w : gv) : gv :=
  match w with
  | VStruct [VInt c; a; b] => VStruct (a :: b :: flags_of used 31 c ++ kept)
  | _ => w
  end.
(** What is left of a TIMER's own flags. *)
Definition unused_flags (old : gv) : list gv :=
  match old with
  | VStruct [_; _; _; _; _; a; b; c; d] => [a; b; c; d]
  | _ => []
  end.
Fixpoint meant (k : kty) (old w : gv) : gv :=
  match k with
  | KTimer => meant3 3 (unused_flags old) w
  | KCounter => meant3 5 [] w
  | KControl => meant3 8 [] w
  | KStruct _ fs => match old, w with VStruct os, VStruct ws => VStruct (fields_meant fs os ws) | _, _ => w end
  | _ => w
  end
with fields_meant (fs : kfields) (olds ws : list gv) : list gv :=
  match fs, olds, ws with KCons _ k r, o :: os, w :: wr => meant k o w :: fields_meant r os wr | _, _, _ => ws end.

(** Whether the unused flags of all TIMERs agree. *)
Fixpoint same_unused (k : kty) (v w : gv) : Prop :=
  match k with
  | KTimer => unused_flags v = unused_flags w
  | KStruct _ fs => match v, w with VStruct vs, VStruct ws => fields_same_unused fs vs ws | _, _ => True end
  | _ => True
  end
with fields_same_unused (fs : kfields) (vs ws : list gv) : Prop :=
  match fs, vs, ws with KCons _ k r, v :: vr, w :: wr => same_unused k v w /\ fields_same_unused r vr wr | _, _, _ => True end.

(** Types Pack and Unpack handle without arrays of structs (C15): numbers, bools,
    arrays of them, the structures of lgxtypes, structs of all these. *)
Fixpoint fit (k : kty) : Prop :=
  match k with
  | KPlain t => go_type t /\ simple_arrays t /\ match t with TStruct _ _ => False | _ => True end
  | KArr _ _ => False
  | KStruct _ fs => fields_fit fs
  | _ => True
  end
with fields_fit (fs : kfields) : Prop :=
  match fs with KNil => True | KCons _ k r => fit k /\ fields_fit r end.

(** The checksum: CRC-16 with the polynomial x^16 + x^15 + x^2 + 1, bits in the
    order of sending, starting from zero. *)
Fixpoint crc_shift (n : nat) (c : Z) : Z :=
  match n with
  | O => c
  | S k => crc_shift k (if Z.odd c then Z.lxor (c / 2) 0xA001 else c / 2)
  end.
Definition crc16 (text : bytes) : Z := fold_left (fun c b => crc_shift 8 (Z.lxor c b)) text 0.
(** Logix's own structures have fixed numbers, all others the checksum of their
    description. *)
Definition logix_handle (k : kty) (text : bytes) : Z :=
  match k with
  | KTimer => 0x0F83
  | KCounter => 0x0F82
  | KControl => 0x0F81
  | KString => 0x0FCE
  | _ => crc16 text
  end.
Definition structure (k : kty) : Prop :=
  match k with KPlain _ | KArr _ _ => False | _ => True end.
(** The members of a structure in the controller. *)
Definition logix_text (k : kty) : bytes := described (logix k).
