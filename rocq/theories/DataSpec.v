(** * What data table buffers stand for *)
From Verif Require Import GoBase IoiSpec TypesModel ReadSpec AttrSpec GroupSpec.

(** The bytes a tag of an elementary type occupies. *)
Definition width_of (t : Z) : option Z :=
  match t with
  | 0xC1 | 0xC2 | 0xC6 | 0xD1 => Some 1
  | 0xC3 | 0xC7 | 0xD2 => Some 2
  | 0xC4 | 0xC8 | 0xCA | 0xD3 => Some 4
  | 0xC5 | 0xCB | 0xD4 => Some 8
  | _ => None
  end.
(** Strings and structures: as many as the controller's description says, 88
    without one. *)
Definition slot_width (usize : bytes -> Z) (tg : tag) (t : Z) : option Z :=
  if (t =? 0xFF) || (t =? 0xA0) then Some (if 0 <? usize (lower (text tg)) then usize (lower (text tg)) else 88)
  else width_of t.

(** The class, and the instance always in 16 bits. *)
Definition buffer_path (inst : Z) : bytes := [0x20; 0xB2; 0x25; 0x00] ++ le 2 inst.
(** What the controller keeps of a tag: its size and its path. *)
Definition entry := (Z * bytes)%type.
Definition entry_ok (e : entry) : Prop := 0 <= fst e < 2 ^ 16 /\ Z.even (len (snd e)) = true /\ len (snd e) < 512.
Definition add_data (es : list entry) : bytes :=
  [2; 0; 1; 1; len es] ++ concat (map (fun e => le 2 (fst e) ++ [len (snd e) / 2] ++ snd e) es).

(** The values of all batches, each after its number. *)
Fixpoint layout (mem : bytes -> Z -> bytes) (n : Z) (batches : list (list entry)) : bytes :=
  match batches with
  | [] => []
  | es :: r => le 2 n ++ concat (map (fun e => mem (snd e) (fst e)) es) ++ layout mem (n + 1) r
  end.
Definition total (batches : list (list entry)) : Z := fold_right (fun es z => 2 + fold_right (fun e y => fst e + y) 0 es + z) 0 batches.

(** A controller with such a buffer: [rep] its batches, [mem s path size] the
    memory.  Its memory may change at any time.  It accepts at most 255 tags at once
    and, as long as everything fits one reply, answers reads with all values. *)
Definition table_device {S} (ctl : S -> bytes -> res (Z * bytes) * S) (otid inst : Z)
    (rep : S -> list (list entry)) (mem : S -> bytes -> Z -> bytes) : Prop :=
  (forall s path n, 0 <= n -> len (mem s path n) = n) /\
  (forall s q es, es <> [] -> len es < 256 -> Forall entry_ok es -> len (rep s) < 65535 ->
     exists p s', ctl s (object_request otid q 0x4E (buffer_path inst) (add_data es)) = (Ok (0, p), s') /\
       reply p 0xCE 0 0 (le 2 (len (rep s) + 1)) /\ rep s' = rep s ++ [es]) /\
  (forall s q, Forall (Forall entry_ok) (rep s) -> total (rep s) < 60000 ->
     exists p s' extra, ctl s (object_request otid q 0x4C (buffer_path inst) []) = (Ok (0, p), s') /\
       reply p 0xCC 0 0 (layout (mem s') 1 (rep s) ++ extra) /\ rep s' = rep s).

(** What a program does with a buffer: adding tags, one by one or several at
    once, making the controller know them, and reading (which does that first). *)
Inductive act := Put (l : list (tag * Z)) | Send | Look.
(** Everything added so far. *)
Definition added (h : list act) : list (tag * Z) := concat (map (fun a => match a with Put l => l | _ => [] end) h).
(** [p]: what the controller was not told yet.  What it is told at once is
    acceptable ([ok]), and it is never told nothing. *)
Fixpoint paced (ok : list (tag * Z) -> Prop) (h : list act) (p : list (tag * Z)) : Prop :=
  match h with
  | [] => p = [] \/ ok p
  | Put l :: r => l <> [] /\ paced ok r (p ++ l)
  | Send :: r => p <> [] /\ ok p /\ paced ok r []
  | Look :: r => (p = [] \/ ok p) /\ paced ok r []
  end.
Definition slot_entry (usize : bytes -> Z) (x : tag * Z) : entry :=
  (match slot_width usize (fst x) (snd x) with Some w => w | None => 0 end, encode (fst x)).
Definition acceptable (usize : bytes -> Z) (l : list (tag * Z)) : Prop :=
  len l < 256 /\ len (add_data (map (slot_entry usize) l)) < 65000.

(** The value of a slot's bytes. *)
Inductive shown (t : Z) (raw : bytes) : gval -> Prop :=
| sh_value v : encodes t v raw -> t <> 0xC9 -> t <> 0xFF -> t <> 0xA0 -> shown t raw v
| sh_string s pad : (t = 0xFF \/ t = 0xA0) -> raw = le 4 (len s) ++ s ++ pad -> len s <= 82 -> shown t raw (GStr s).

(** The last tag added under a name. *)
Fixpoint latest (n : bytes) (l : list (tag * Z)) : option (tag * Z) :=
  match l with
  | [] => None
  | x :: r => match latest n r with Some y => Some y | None => if bseq n (text (fst x)) then Some x else None end
  end.

(** ** Groups *)

(** A definition of a group: a tag, its type and how many elements from there on. *)
Record part := Part { g_tag : tag; g_type : Z; g_count : Z }.
Definition part_ok (g : part) : Prop := 1 <= g_count g /\ (1 < g_count g -> element (g_tag g)).
(** The tags it stands for, and what reading it gives. *)
Definition parts (g : part) : list (tag * Z) := map (fun k => (bump (g_tag g) k, g_type g)) (from 0 (Z.to_nat (g_count g))).
Definition members (g : part) : list (tag * Z) := if g_count g =? 1 then [(g_tag g, g_type g)] else parts g.
Definition whole (value : tag * Z -> gval) (g : part) : gval :=
  if g_count g =? 1 then value (g_tag g, g_type g) else GList (map value (parts g)).
