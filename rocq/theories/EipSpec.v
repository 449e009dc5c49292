(** * What a frame is, independently of the code *)
From Verif Require Import GoBase.

(** The encapsulation header of the EtherNet/IP protocol followed by its data. *)
Record frame := Frame {
  f_command : Z; f_session : Z; f_status : Z; f_context : Z; f_options : Z; f_payload : bytes }.

Definition frame_ok (f : frame) : Prop :=
  0 <= f_command f < 2 ^ 16 /\ 0 <= f_session f < 2 ^ 32 /\ 0 <= f_status f < 2 ^ 32 /\
  0 <= f_context f < 2 ^ 64 /\ 0 <= f_options f < 2 ^ 32 /\ len (f_payload f) < 2 ^ 16.

(** Its bytes: the number of data bytes is the second field. *)
Definition frame_bytes (f : frame) : bytes :=
  le 2 (f_command f) ++ le 2 (len (f_payload f)) ++ le 4 (f_session f) ++ le 4 (f_status f) ++
  le 8 (f_context f) ++ le 4 (f_options f) ++ f_payload f.
