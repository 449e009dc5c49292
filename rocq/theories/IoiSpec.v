(** * Tag names: an independent grammar and its reference encoding

    Nothing here mentions the model.  A tag name is a tree; [text] prints it the
    way a user writes it and [encode] is the request path 1756-PM020 prescribes
    for it. *)
From Verif Require Import GoBase.

(** One dotted component: a name and its subscripts ([] if none). *)
Record member := { m_name : bytes; m_subs : list Z }.
Record tag := { t_members : list member; t_bit : option Z }.

Definition name_char (c : Z) : Prop :=
  65 <= c <= 90 \/ 97 <= c <= 122 \/ 48 <= c <= 57 \/ c = 95 (* _ *) \/ c = 58 (* : *).

Definition valid_name (n : bytes) : Prop :=
  1 <= len n <= 255 /\ Forall name_char n /\ ~ (exists c r, n = c :: r /\ 48 <= c <= 57).

Definition valid_member (m : member) : Prop :=
  valid_name (m_name m) /\ Forall (fun i => 0 <= i < 2 ^ 32) (m_subs m).

Definition valid_tag (t : tag) : Prop :=
  t_members t <> [] /\ Forall valid_member (t_members t) /\
  match t_bit t with None => True | Some b => 0 <= b <= 31 end.

(** How the user writes it: "name[1,2].member.5". *)
Definition member_text (m : member) : bytes :=
  match m_subs m with
  | [] => m_name m
  | subs => m_name m ++ [91] ++ join 44 (map dec subs) ++ [93]
  end.

Definition text (t : tag) : bytes :=
  join 46 (map member_text (t_members t) ++
           match t_bit t with None => [] | Some b => [dec b] end).

(** Lower-casing of a tag, component by component. *)
Definition lower_member (m : member) : member :=
  {| m_name := lower (m_name m); m_subs := m_subs m |}.
Definition lower_tag (t : tag) : tag :=
  {| t_members := map lower_member (t_members t); t_bit := t_bit t |}.

(** ANSI extended symbol segment: 0x91, number of characters, the characters, a
    pad byte when the number is odd. *)
Definition symbol_segment (n : bytes) : bytes :=
  0x91 :: len n :: n ++ (if Z.odd (len n) then [0] else []).

(** Logical element segments, smallest that fits. *)
Definition element_segment (i : Z) : bytes :=
  if i <? 2 ^ 8 then [0x28; i]
  else if i <? 2 ^ 16 then [0x29; 0; i mod 256; i / 256]
  else [0x2A; 0; i mod 256; (i / 2 ^ 8) mod 256; (i / 2 ^ 16) mod 256; i / 2 ^ 24].

Definition encode_member (m : member) : bytes :=
  symbol_segment (lower (m_name m)) ++ concat (map element_segment (m_subs m)).

Definition encode (t : tag) : bytes := concat (map encode_member (t_members t)).
