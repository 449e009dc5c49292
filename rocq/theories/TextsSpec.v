(** * Arrays of texts of the built-in server: specification (C134) *)
From Verif Require Import GoBase.

(** The type of a text, two bytes and the number of the structure. *)
Definition text_type : bytes := [0xA0; 0x02; 0xCE; 0x0F].
(** A text of up to 82 characters: its length, the characters, zeros up to 88
    bytes. *)
Definition text_data (s : bytes) : bytes := le 4 (len s) ++ s ++ zeros (84 - length s).
(** Texts one after another, the type in front of each. *)
Definition text_slots (ss : list bytes) : bytes := concat (map (fun s => text_type ++ text_data s) ss).
Definition short_text (s : bytes) : Prop := bytes_ok s /\ len s <= 82.
