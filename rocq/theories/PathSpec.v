(** * Routes and builder chains, specified without the model *)
From Verif Require Import GoBase IoiSpec SegSpec PathModel.
(** (PathModel is used for the type [pb_call] of builder calls only.) *)

(** One hop of a route: a plain byte, or a port byte followed by a dotted
    address. *)
Inductive hop := Plain (n : Z) | Ext (port : Z) (addr : bytes).

Definition addr_char (c : Z) : Prop :=
  c <> 44 /\ c <> 32 /\ c <> 91 /\ c <> 93.

Definition valid_hop (h : hop) : Prop :=
  match h with
  | Plain n => 0 <= n <= 255
  | Ext p a => 0 <= p <= 255 /\ In 46 a /\ len a <= 255 /\ Forall addr_char a
  end.

Definition hop_texts (h : hop) : list bytes :=
  match h with Plain n => [dec n] | Ext p a => [dec p; a] end.
Definition route_text (hs : list hop) : bytes := join 44 (concat (map hop_texts hs)).

(** The extended-link flag is bit 4 of the port byte. *)
Definition hop_bytes (h : hop) : bytes :=
  match h with Plain n => [n] | Ext p a => Z.lor p 16 :: len a :: a end.
Definition route_bytes (hs : list hop) : bytes := concat (map hop_bytes hs).

(** [decorated s t]: [s] is [t] with blanks and square brackets inserted
    anywhere. *)
Inductive decorated : bytes -> bytes -> Prop :=
| deco_nil : decorated [] []
| deco_keep c s t : decorated s t -> decorated (c :: s) (c :: t)
| deco_ins c s t : c = 32 \/ c = 91 \/ c = 93 -> decorated s t -> decorated (c :: s) t.

(** [numeral p n]: [p] is a decimal numeral (optional sign) of [n]. *)
Definition digits (d : bytes) : Prop := d <> [] /\ Forall (fun c => 48 <= c <= 57) d.
Inductive numeral : bytes -> Z -> Prop :=
| num_plain d : digits d -> numeral d (horner d)
| num_pos d : digits d -> numeral (43 :: d) (horner d)
| num_neg d : digits d -> numeral (45 :: d) (- horner d).

(** [s] consists of the comma separated [parts], up to blanks and brackets, and
    none of them is a dotted address. *)
Definition plain_parts (s : bytes) (parts : list bytes) : Prop :=
  parts <> [] /\ decorated s (join 44 parts) /\
  Forall (fun p => ~ In 46 p /\ Forall addr_char p) parts.

(** What a builder call contributes when valid. *)
Inductive denotes : pb_call -> bytes -> Prop :=
| den_custom d : denotes (PbCustom d) d
| den_class n : 0 <= n < 2 ^ 16 -> denotes (PbClass n) (class_segment n)
| den_instance n : 0 <= n < 2 ^ 32 -> denotes (PbInstance n) (instance_segment n)
| den_attribute n : 0 <= n < 2 ^ 16 -> denotes (PbAttribute n) (attribute_segment n)
| den_symbol s : valid_name s -> denotes (PbSymbolic s) (symbol_segment s)
| den_element n : 0 <= n < 2 ^ 16 -> denotes (PbElement n) (elem_segment n)
| den_port n : 0 <= n < 256 -> denotes (PbPort n) [n]
| den_address n : 0 <= n < 256 -> denotes (PbAddress n) [n]
| den_slot n : 0 <= n < 256 -> denotes (PbSlot n) [n]
| den_parse hs s : hs <> [] -> Forall valid_hop hs -> decorated s (route_text hs) ->
    denotes (PbParse s) (route_bytes hs)
| den_parse_empty : denotes (PbParse []) [].

(** Calls that are invalid: a route with an element that is no byte, a symbol
    with a subscript that is not a number. *)
Inductive invalid : pb_call -> Prop :=
| inv_parse s parts : s <> [] -> plain_parts s parts ->
    (~ exists ns, Forall2 (fun p n => numeral p n /\ 0 <= n <= 255) parts ns) ->
    invalid (PbParse s)
| inv_symbol_empty_sub n : valid_name n -> invalid (PbSymbolic (n ++ [91; 93]))
| inv_symbol_blank_sub n a b : valid_name n -> Forall (fun c => 48 <= c <= 57) a ->
    Forall (fun c => 48 <= c <= 57) b -> invalid (PbSymbolic (n ++ [91] ++ a ++ [32] ++ b ++ [93])).
