(** * Sessions as the protocol has them

    A peer registers a session and is given a handle; everything else it sends
    carries that handle in bytes 4 to 7 of the header.  Stated on the bytes of
    frames alone. *)
From Verif Require Import GoBase EipSpec SrvSpec.

(** A frame with another handle in its header. *)
Definition under (s : bytes) (f : bytes) : bytes := firstn 4 f ++ s ++ skipn 8 f.

(** The frame that asks for a session: protocol version 1, no options. *)
Definition registration (handle ctx : Z) : bytes := frame_bytes (Frame 0x65 handle 0 ctx 0 [1; 0; 0; 0]).
Definition registers (f : bytes) : Prop := firstn 2 f = [0x65; 0].

(** The frame that gives it up. *)
Definition farewell (handle ctx : Z) : bytes := frame_bytes (Frame 0x66 handle 0 ctx 0 []).
