(** * What a request path refers to *)
From Verif Require Import GoBase SegSpec IoiModel IoiSpec ListSpec.
(** (The model for the records [known_program] and [known_tag].) *)

(** ** The tags of a controller
    Where a tag is: in the controller's own table, or in that of a program. *)
Inductive place := Global (e : entry) | Within (p : known_program) (e : entry).
Section Controller.
Context (table : list entry) (progs : list known_program) (tables : known_program -> list entry).
Definition exists_at (pl : place) : Prop :=
  match pl with
  | Global e => In e table /\ user_tag (e_name e) /\ ~ program_entry (e_name e)
  | Within p e => In p progs /\ In e (tables p) /\ user_tag (e_name e)
  end.
(** How the user writes it. *)
Definition called (pl : place) : tag :=
  match pl with
  | Global e => {| t_members := [{| m_name := e_name e; m_subs := [] |}]; t_bit := None |}
  | Within p e => {| t_members := [{| m_name := str "Program:" ++ kp_name p; m_subs := [] |}; {| m_name := e_name e; m_subs := [] |}]; t_bit := None |}
  end.
(** Its path by numbers: the symbol class and its instance, after those of the
    program if it is in one. *)
Definition number_path (pl : place) : bytes :=
  match pl with
  | Global e => class_segment 0x6B ++ instance_segment (e_inst e)
  | Within p e => program_path p ++ class_segment 0x6B ++ instance_segment (e_inst e)
  end.
(** What the controller takes a path for: it goes by name or by number. *)
Definition refers (path : bytes) (pl : place) : Prop := exists_at pl /\ (path = encode (called pl) \/ path = number_path pl).

(** A controller in order: valid names, no two of them the same but for case; no
    number twice. *)
Definition in_order : Prop :=
  (forall pl, exists_at pl -> valid_tag (called pl)) /\
  (forall pl pl', exists_at pl -> exists_at pl' -> lower (text (called pl)) = lower (text (called pl')) -> pl = pl') /\
  NoDup (map kp_id progs) /\ Forall program_ok progs /\
  Forall entry_ok table /\ increasing table /\ (forall p, In p progs -> Forall entry_ok (tables p) /\ increasing (tables p)).

(** A table of known tags that agrees with the controller: each is where it says. *)
Definition points (x : known_tag) (pl : place) : Prop :=
  match pl with
  | Global e => kt_instance x = e_inst e /\ kt_parent x = None
  | Within p e => kt_instance x = e_inst e /\ kt_parent x = Some p
  end.
Definition agrees (known : list (bytes * known_tag)) : Prop :=
  forall k x, lookup k known = Some x -> exists pl, exists_at pl /\ k = lower (text (called pl)) /\ points x pl.
End Controller.

(** A tag without the bit. *)
Definition no_bit (t : tag) : tag := {| t_members := t_members t; t_bit := None |}.
