(** * ReadMulti with arguments and embedded structs (read.go L704-768) *)
From Verif Require Import GoBase IoiModel TypesModel ReadModel BatchModel GroupModel.

(** A field of the destination struct: its gologix tag if any, whether it is
    exported, its type and contents.  An embedded struct of [n] bytes also has the
    tags of the fields inside it, in the order in which reflect.VisibleFields
    gives them; those fields are never looked at by themselves. *)
Inductive mfield :=
| MField (tag : option bytes) (exported : bool) (t : ftype) (v : gval)
| MEmbed (tag : option bytes) (exported : bool) (n : nat) (v : gval) (inner : list (option bytes)).

(** reflect.VisibleFields, L718: an embedded field is followed by those inside. *)
Definition seen (f : mfield) : list (option bytes) :=
  match f with MField t _ _ _ => [t] | MEmbed t _ _ _ inner => t :: inner end.
(** val.Field(i), L733, with the tag of its own. *)
Definition own (f : mfield) : bool * field :=
  match f with MField t e ty v => (e, Field t ty v) | MEmbed t e n v _ => (e, Field t (FStruct n) v) end.

(** The loop L723-745 from visible field [i] on.  val.Field(i) of a field that is
    not there, and Interface of one that is not exported, panic. *)
Fixpoint collect (args : list bytes) (fs : list mfield) (vis : list (option bytes)) (i : nat) : res (list (bytes * nat * field)) :=
  match vis with
  | [] => Ok []
  | None :: r | Some [] :: r => collect args fs r (S i)
  | Some t :: r =>
      let name := match args with [] => t | _ => format_name t args end in
      match nth_error fs i with
      | None => Panic
      | Some f =>
          let '(exported, fd) := own f in
          if negb exported then Panic else
          let* rest := collect args fs r (S i) in Ok ((name, i, fd) :: rest)
      end
  end.
(** ReadMulti into a pointer to a struct.  What comes back are the fields' contents. *)
Definition read_multi_args {S} (fuel : nat) (ctl : controller S) (c : client) (s : S) (otid q cs : Z)
    (args : list bytes) (fs : list mfield) : res (list field) * S * Z :=
  match collect args fs (concat (map seen fs)) 0 with
  | Ok tl =>
      let descs := map (fun x => field_desc (snd x) (fst (fst x))) tl in
      let '(r, s1, q1) := read_list fuel ctl c s otid q cs descs in
      (let* vs := r in unpack_results tl (map (fun x => fst (fst x)) tl) vs (map (fun f => snd (own f)) fs), s1, q1)
  | Err e => (Err e, s, q) | Panic => (Panic, s, q) | OutOfFuel => (OutOfFuel, s, q)
  end.
