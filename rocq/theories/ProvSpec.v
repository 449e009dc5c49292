(* What users expect of a tag map: a store from lower-case names to values, no
   references, no positions in backing arrays. *)
From Verif Require Import GoBase TypesModel ProvModel.
Import ListNotations.
Local Open Scope Z_scope.

(* A value as its holder sees it. *)
Inductive view := VOne (g : gval) | VMany (e : elemt) (l : list view).

(* What a provider's value looks like now, slices inside slices up to depth d. *)
Fixpoint see (d : nat) (h : list (list pval)) (v : pval) : view :=
  match v with
  | PV g => VOne g
  | PS e arr off n =>
      match d with
      | O => VMany e []
      | S d' => VMany e (map (see d' h) (elems h arr off n))
      end
  end.

Definition store := bytes -> option view.

(* The store a provider presents. *)
Definition shows (p : prov) : store := fun k => option_map (see 2 (pv_heap p)) (mget (pv_data p) k).

Definition seen (v : given) : view :=
  match v with GiveOne g => VOne g | GiveMany e l => VMany e (map VOne l) end.

(* name[i] *)
Definition elem_name (tag base : bytes) (i : Z) : Prop :=
  exists ds, tag = base ++ 91 :: ds ++ [93] /\ atoi ds = (i, true).
Definition plain_name (tag : bytes) : Prop := forall base i, ~ elem_name tag base i.

(* Go converts a value of one basic type to another when they are the same,
   both numbers, or an integer and string. *)
Definition is_int (g : gval) : Prop := exists s w z, g = GInt s w z.
Definition is_num (g : gval) : Prop := is_int g \/ exists w b, g = GFloat w b.
Definition num_kind (k : gokind) : Prop := exists s w, k = KInt s w \/ k = KFloat w.
Definition convertible (g : gval) (k : gokind) : Prop :=
  kind_of g = Some k \/ (is_num g /\ num_kind k) \/ (is_int g /\ k = KString).

(* A value stored into a slot of type k: of that type, unchanged if it already
   was, the same integer modulo the width when both are integers. *)
Definition fits_kind (g g' : gval) (k : gokind) : Prop :=
  convertible g k /\
  kind_of g' = Some k /\
  (kind_of g = Some k -> g' = g) /\
  forall s w z s' w', g = GInt s w z -> k = KInt s' w' -> k <> KInt s w -> (0 < w')%nat ->
    exists z' q, g' = GInt s' w' z' /\ z' = z + q * 2 ^ (8 * Z.of_nat w') /\
      (if s' then - 2 ^ (8 * Z.of_nat w' - 1) <= z' < 2 ^ (8 * Z.of_nat w' - 1)
       else 0 <= z' < 2 ^ (8 * Z.of_nat w')).

Definition becomes (v : view) (e : elemt) (v' : view) : Prop :=
  v <> VOne GNil /\
  match e with
  | EAny => v' = v
  | EK k => exists g g', v = VOne g /\ v' = VOne g' /\ fits_kind g g' k
  end.

(* Only the entry of [k] differs. *)
Definition updated (m : store) (k : bytes) (v : view) (m' : store) : Prop :=
  m' k = Some v /\ forall k', k' <> k -> m' k' = m k'.

(* l' is l with v at position i. *)
Definition replaced {A} (l : list A) (i : nat) (v : A) (l' : list A) : Prop :=
  length l' = length l /\ nth_error l' i = Some v /\
  forall j, j <> i -> nth_error l' j = nth_error l j.

(* A read that succeeds. *)
Inductive reads (m : store) (tag : bytes) (qty : Z) : view -> Prop :=
| r_one : forall g, plain_name (lower tag) -> m (lower tag) = Some (VOne g) ->
    reads m tag qty (VOne g)
| r_many : forall e l, plain_name (lower tag) -> m (lower tag) = Some (VMany e l) ->
    0 <= qty <= len l -> reads m tag qty (VMany e (firstn (Z.to_nat qty) l))
| r_elem : forall b i e l v, elem_name (lower tag) b i -> m b = Some (VMany e l) ->
    0 <= i -> qty = 1 -> nth_error l (Z.to_nat i) = Some v -> reads m tag qty v
| r_range : forall b i e l, elem_name (lower tag) b i -> m b = Some (VMany e l) ->
    0 <= i < len l -> qty <> 1 -> 0 <= qty -> i + qty <= len l ->
    reads m tag qty (VMany e (firstn (Z.to_nat qty) (skipn (Z.to_nat i) l))).

(* A write that succeeds. *)
Inductive writes (m : store) (tag : bytes) (v : given) : store -> Prop :=
| w_elem : forall b i e l x l' m', elem_name (lower tag) b i -> m b = Some (VMany e l) ->
    0 <= i < len l -> becomes (seen v) e x -> replaced l (Z.to_nat i) x l' ->
    updated m b (VMany e l') m' -> writes m tag v m'
| w_keep : forall e l l0 l' m', plain_name (lower tag) -> m (lower tag) = Some (VMany e l) ->
    v = GiveMany EAny l0 -> Forall2 (fun g x => becomes (VOne g) e x) l0 l' ->
    updated m (lower tag) (VMany e l') m' -> writes m tag v m'
| w_plain : forall m', plain_name (lower tag) ->
    ~ (exists e l l0, m (lower tag) = Some (VMany e l) /\ v = GiveMany EAny l0) ->
    updated m (lower tag) (seen v) m' -> writes m tag v m'.

(* Histories of writes: which succeeded, and the store at the end. *)
Inductive history : store -> list (bytes * given) -> list bool -> store -> Prop :=
| h_nil : forall m m', (forall k, m' k = m k) -> history m [] [] m'
| h_ok : forall m t v m1 ws os m2, writes m t v m1 -> history m1 ws os m2 ->
    history m ((t, v) :: ws) (true :: os) m2
| h_fail : forall m t v m1 ws os m2, (forall m', ~ writes m t v m') ->
    (forall k, m1 k = m k) -> history m1 ws os m2 ->
    history m ((t, v) :: ws) (false :: os) m2.

(* No array is shared: what holds when every slice in the map was made for it. *)
Definition separate (p : prov) : Prop :=
  (forall k e a o n, mget (pv_data p) k = Some (PS e a o n) ->
     (a < length (pv_heap p))%nat /\ (o + n <= length (nth a (pv_heap p) []))%nat) /\
  (forall k1 k2 e1 e2 a o1 o2 n1 n2,
     mget (pv_data p) k1 = Some (PS e1 a o1 n1) ->
     mget (pv_data p) k2 = Some (PS e2 a o2 n2) -> k1 = k2) /\
  (forall k e a o n e' a' o' n',
     mget (pv_data p) k = Some (PS e a o n) ->
     In (PS e' a' o' n') (elems (pv_heap p) a o n) ->
     (a' < length (pv_heap p))%nat /\
     (forall k2 e2 o2 n2, mget (pv_data p) k2 <> Some (PS e2 a' o2 n2)) /\
     Forall (fun x => exists g, x = PV g) (elems (pv_heap p) a' o' n')).

(* A write to [t] can reach the entry of [name]. *)
Definition touches (t name : bytes) : Prop :=
  lower t = name \/ exists i, elem_name (lower t) name i.
