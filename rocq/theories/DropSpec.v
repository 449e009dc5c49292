(** * What removing tags from a data table buffer should mean *)
From Verif Require Import GoBase IoiSpec TypesModel ReadSpec AttrSpec GroupSpec DataSpec.

(** Slots of a controller's buffer, batch by batch; a removed tag leaves its slot
    empty, the others keep their numbers. *)
Definition keep {A} (l : list (option A)) : list A := concat (map (fun o => match o with Some x => [x] | None => [] end) l).
Definition wiped {A} (k : nat) (l : list (option A)) : list (option A) := firstn k l ++ None :: skipn (S k) l.
Fixpoint wipe {A} (k : nat) (bs : list (list (option A))) : list (list (option A)) :=
  match bs with
  | [] => []
  | l :: r => if (k <? length l)%nat then wiped k l :: r else l :: wipe (k - length l) r
  end.
(** The values of all batches in which something is left, each after its number. *)
Fixpoint layout_left (mem : bytes -> Z -> bytes) (n : Z) (batches : list (list (option entry))) : bytes :=
  match batches with
  | [] => []
  | l :: r => (match keep l with [] => [] | es => le 2 n ++ concat (map (fun e => mem (snd e) (fst e)) es) end) ++ layout_left mem (n + 1) r
  end.
(** As [table_device], with removals: the k-th slot ever filled is emptied. *)
Definition removing_device {S} (ctl : S -> bytes -> res (Z * bytes) * S) (otid inst : Z)
    (rep : S -> list (list (option entry))) (mem : S -> bytes -> Z -> bytes) : Prop :=
  (forall s path n, 0 <= n -> len (mem s path n) = n) /\
  (forall s q es, es <> [] -> len es < 256 -> Forall entry_ok es -> len (rep s) < 65535 ->
     exists p s', ctl s (object_request otid q 0x4E (buffer_path inst) (add_data es)) = (Ok (0, p), s') /\
       reply p 0xCE 0 0 (le 2 (len (rep s) + 1)) /\ rep s' = rep s ++ [map Some es]) /\
  (forall s q, Forall (Forall entry_ok) (map keep (rep s)) -> total (map keep (rep s)) < 60000 ->
     exists p s' extra, ctl s (object_request otid q 0x4C (buffer_path inst) []) = (Ok (0, p), s') /\
       reply p 0xCC 0 0 (layout_left (mem s') 1 (rep s) ++ extra) /\ rep s' = rep s) /\
  (forall s q k e, Z.of_nat k < 65535 -> nth_error (concat (rep s)) k = Some (Some e) ->
     exists p s' d, ctl s (object_request otid q 0x4F (buffer_path inst) (le 2 (Z.of_nat k + 1))) = (Ok (0, p), s') /\
       reply p 0xCF 0 0 d /\ rep s' = wipe k (rep s)).

(** What a program does with a buffer, removals by name included. *)
Inductive dact := Do (a : act) | Drop (name : bytes).
(** The first tag of that name is gone. *)
Fixpoint without (n : bytes) (l : list (tag * Z)) : list (tag * Z) :=
  match l with
  | [] => []
  | x :: r => if bseq (text (fst x)) n then r else x :: without n r
  end.
(** The tags that are there afterwards. *)
Definition present (h : list dact) : list (tag * Z) :=
  fold_left (fun l a => match a with Do (Put x) => l ++ x | Drop n => without n l | _ => l end) h [].
(** All tags ever added. *)
Definition ever (h : list dact) : list (tag * Z) := concat (map (fun a => match a with Do (Put l) => l | _ => [] end) h).
(** [t]: what the controller was told of and is still there, [p]: what it was not
    told yet.  As [paced]; tags are removed when the controller knows them, and none
    is added after a removal ([d]). *)
Fixpoint orderly (ok : list (tag * Z) -> Prop) (h : list dact) (t p : list (tag * Z)) (d : bool) : Prop :=
  match h with
  | [] => p = [] \/ ok p
  | Do (Put l) :: r => l <> [] /\ d = false /\ orderly ok r t (p ++ l) d
  | Do Send :: r => p <> [] /\ ok p /\ orderly ok r (t ++ p) [] d
  | Do Look :: r => (p = [] \/ ok p) /\ orderly ok r (t ++ p) [] d
  | Drop n :: r => In n (map (fun x => text (fst x)) t) /\ orderly ok r (without n t) p true
  end.
