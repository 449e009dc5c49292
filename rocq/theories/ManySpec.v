(** * Batched reads of the built-in server's tags: what the caller should get *)
From Verif Require Import GoBase IoiSpec TypesModel ItemsSpec ReadSpec WriteSpec BatchSpec SrvValSpec ProvModel ProvSpec TableModel SrvModel ReqSpec.

(** [served m w g]: the store [m] has the value [g] for the wish [w]: one number,
    bool or string of at most 82 characters asked for as such, or as many numbers
    of one type as are asked for. *)
Inductive served (m : store) (w : wish) : gval -> Prop :=
| sv_one k g : w_elems w = 1 -> scalar k g -> (w_type w = 0xFF <-> k = KString) ->
    ProvSpec.reads m (text (w_tag w)) 1 (VOne g) -> served m w g
| sv_many k code l : w_elems w = len l -> 2 <= len l -> clear_count (len l) -> number_code k = Some code -> k <> KBool ->
    Forall (is_number k) l -> Forall representable l -> w_type w <> 0xFF ->
    ProvSpec.reads m (text (w_tag w)) (len l) (VMany (EK k) (map VOne l)) -> served m w (GList l).

(** Room for its sub-reply. *)
Definition reply_room (w : wish) : Z := if w_type w =? 0xFF then 96 else 6 + 8 * w_elems w.
Fixpoint replies_room (l : list wish) : Z := match l with [] => 0 | w :: r => 2 + reply_room w + replies_room r end.

(** ** WriteMap of single numbers and bools *)

(** A tag, the Go type of the value and the value. *)
Definition entry : Type := tag * gokind * gval.
Definition e_tag (e : entry) : tag := fst (fst e).
Definition e_kind (e : entry) : gokind := snd (fst e).
Definition e_val (e : entry) : gval := snd e.
(** One after the other. *)
Inductive stored_all : store -> list entry -> store -> Prop :=
| sa_nil m m' : (forall k, m' k = m k) -> stored_all m [] m'
| sa_cons m e m1 l m2 : writes m (text (e_tag e)) (GiveOne (e_val e)) m1 -> stored_all m1 l m2 -> stored_all m (e :: l) m2.
(** Bytes the entries take in the request. *)
Fixpoint entries_size (l : list entry) : Z :=
  match l with [] => 10 | e :: r => 2 + 6 + len (encode (e_tag e)) + len (number_data (e_val e)) + entries_size r end.
