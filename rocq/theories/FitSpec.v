(** * Replies to batched reads, and how long they are *)
From Verif Require Import GoBase IoiSpec TypesModel ItemsSpec ReadSpec BatchSpec.
(** (TypesModel for the type of Go values.) *)

(** Bytes of one value of an elementary type. *)
Definition width (t : Z) : option Z :=
  match int_type t with
  | Some (_, w) => Some (Z.of_nat w)
  | None => match t with 0xC1 => Some 1 | 0xCA => Some 4 | 0xCB => Some 8 | _ => None end
  end.

(** What a controller says to one embedded Read Tag request when all is well:
    service with the reply bit, reserved byte, status 0, the type, the values.
    Texts and structures travel as type 0x02A0 with a handle in front. *)
Inductive answer_to (w : wish) : bytes -> Prop :=
| ans_values vs d : width (w_type w) <> None -> encodes_all (w_type w) vs d -> len vs = w_elems w ->
    answer_to w ([0xCC; 0; 0; 0] ++ [w_type w; 0] ++ d)
| ans_texts ss d handle : w_type w = 0xFF -> string_slots ss d -> len ss = w_elems w -> length handle = 2%nat ->
    answer_to w ([0xCC; 0; 0; 0] ++ [0xA0; 2] ++ handle ++ d)
| ans_struct n d handle : w_type w = 0xA0 -> w_struct w = Some n -> w_elems w = 1 -> length d = n -> length handle = 2%nat ->
    answer_to w ([0xCC; 0; 0; 0] ++ [0xA0; 2] ++ handle ++ d).

(** The connected data of the reply to a Multiple Service Packet: sequence
    number, reply service, reserved byte, status 0, number of replies, an offset
    for each, and the replies. *)
Definition multi_reply (q : Z) (answers : list bytes) : bytes :=
  le 2 q ++ [0x8A; 0; 0; 0] ++ le 2 (len answers) ++
  concat (map (le 2) (offsets (2 + 2 * len answers) answers)) ++ concat answers.

(** Every reply to a request for [l] fits in [size] bytes. *)
Definition replies_fit (size : Z) (l : list wish) : Prop :=
  forall q answers, Forall2 answer_to l answers -> len (multi_reply q answers) <= size.

(** The bytes of values alone. *)
Definition values_size (l : list wish) : Z :=
  fold_right (fun w n => match width (w_type w) with Some k => k * w_elems w | None => 0 end + n) 0 l.
