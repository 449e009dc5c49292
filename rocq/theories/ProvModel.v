(* The built-in tag provider: MapTagProvider of server_router.go.

   Go slices are references, and TagRead hands out slices of the stored array
   (server_router.go L130, L136) while TagWrite stores the slice it is given
   (L207).  So the model keeps the backing arrays in a heap and a slice value
   is an array number, an offset and a length.  Capacities play no role: the
   code never appends to a stored slice. *)
From Verif Require Import GoBase TypesModel.
Import ListNotations.
Local Open Scope Z_scope.

(* The static element type of a slice: a basic kind or interface{}. *)
Inductive elemt := EK (k : gokind) | EAny.

(* A value of type any.  [PV] holds non-slice values only; every slice is a
   [PS], whose elements may again be slices when the element type is any. *)
Inductive pval :=
| PV (v : gval)
| PS (e : elemt) (arr off n : nat).

(* MapTagProvider, L79-L82; the mutex makes each call atomic.  Keys of a Go map
   are unique; the model looks up the first entry and replaces it in place. *)
Record prov := Prov { pv_data : list (bytes * pval); pv_heap : list (list pval) }.

Definition prov_empty : prov := Prov [] [].

(* p.Data[name] *)
Fixpoint mget (d : list (bytes * pval)) (k : bytes) : option pval :=
  match d with
  | [] => None
  | (k', v) :: t => if bseq k' k then Some v else mget t k
  end.

(* p.Data[name] = v *)
Fixpoint mset (d : list (bytes * pval)) (k : bytes) (v : pval) : list (bytes * pval) :=
  match d with
  | [] => [(k, v)]
  | (k', v') :: t => if bseq k' k then (k', v) :: t else (k', v') :: mset t k v
  end.

(* The elements of a slice. *)
Definition elems (h : list (list pval)) (arr off n : nat) : list pval :=
  firstn n (skipn off (nth arr h [])).

(* One assignment into a backing array: ev.Index(i).Set(x), L181 *)
Fixpoint setn {A} (l : list A) (i : nat) (x : A) : list A :=
  match l, i with
  | [], _ => []
  | _ :: t, O => x :: t
  | y :: t, S i' => y :: setn t i' x
  end.
Definition harr_set (h : list (list pval)) (arr i : nat) (x : pval) : list (list pval) :=
  setn h arr (setn (nth arr h []) i x).

(* parseElementTag, L215-L228 *)
Definition parse_element_tag (tag : bytes) : bytes * Z * bool :=
  if negb (ends_with 93 tag) then (tag, 0, false) else
  match last_index_of 91 tag with
  | None => (tag, 0, false)
  | Some o =>
      match atoi (firstn (length tag - 1 - (o + 1)) (skipn (o + 1) tag)) with
      | (n, true) => (firstn o tag, n, true)
      | (_, false) => (tag, 0, false)
      end
  end.

(* TagRead, L97-L143.  qty is an int16.  Slicing with a negative count panics
   (reflect.Value.Slice). *)
Definition tag_read (p : prov) (tag : bytes) (qty : Z) : res pval :=
  let '(base, i, has) := parse_element_tag (lower tag) in
  match mget (pv_data p) base with
  | None => Err EMsg
  | Some v =>
      if has then
        match v with
        | PS e arr off n =>
            if (i <? 0) || (Z.of_nat n <=? i) then Err EMsg else
            if Z.of_nat n <? i + qty then Err EMsg else
            if qty =? 1 then
              match nth_error (elems (pv_heap p) arr off n) (Z.to_nat i) with
              | Some x => Ok x
              | None => Panic
              end
            else if qty <? 0 then Panic
            else Ok (PS e arr (off + Z.to_nat i) (Z.to_nat qty))
        | PV _ => Err EMsg
        end
      else
        match v with
        | PS e arr off n =>
            if qty <=? Z.of_nat n then
              if qty <? 0 then Panic else Ok (PS e arr off (Z.to_nat qty))
            else Err EMsg
        | PV g => Ok (PV g)
        end
  end.

(* What reflect.Value.Convert does between numeric types that are not both
   integers, and from an integer to a string (the character with that code):
   the model takes these from outside, since the code only calls them. *)
Record conv := Conv {
  cv_int : nat -> Z -> Z;            (* float of w bytes, its bits: the integer *)
  cv_float : gval -> nat -> Z;       (* a number, float width: the bits *)
  cv_str : Z -> bytes }.

Definition kind_of (g : gval) : option gokind :=
  match g with
  | GBool _ => Some KBool
  | GInt s w _ => Some (KInt s w)
  | GFloat w _ => Some (KFloat w)
  | GStr _ => Some KString
  | _ => None
  end.

Definition kind_eqb (a b : gokind) : bool :=
  match a, b with
  | KBool, KBool => true
  | KInt s w, KInt s' w' => Bool.eqb s s' && Nat.eqb w w'
  | KFloat w, KFloat w' => Nat.eqb w w'
  | KString, KString => true
  | _, _ => false
  end.

(* Go's integer conversion to an integer type of w bytes. *)
Definition wrap_int (s : bool) (w : nat) (z : Z) : Z :=
  if s then sgn (8 * Z.of_nat w) z else uns (8 * Z.of_nat w) z.

(* convertToElement, L234-L243.  Type() of the zero reflect.Value of nil panics
   (L236).  Everything converts to interface{} unchanged.  Simplified: a []byte
   or []rune given to a string element is refused, where Go would convert it;
   neither arrives from a CIP request. *)
Definition convert_elem (c : conv) (v : pval) (e : elemt) : res pval :=
  match v with
  | PV GNil => Panic
  | _ =>
      match e with
      | EAny => Ok v
      | EK k =>
          match v with
          | PS _ _ _ _ => Err EMsg
          | PV g =>
              match kind_of g with
              | None => Err EMsg
              | Some k0 =>
                  if kind_eqb k0 k then Ok v else
                  match g, k with
                  | GInt _ _ z, KInt s w => Ok (PV (GInt s w (wrap_int s w z)))
                  | GInt _ _ _, KFloat w => Ok (PV (GFloat w (cv_float c g w)))
                  | GInt _ _ z, KString => Ok (PV (GStr (cv_str c z)))
                  | GFloat w0 b, KInt s w => Ok (PV (GInt s w (wrap_int s w (cv_int c w0 b))))
                  | GFloat _ _, KFloat w => Ok (PV (GFloat w (cv_float c g w)))
                  | _, _ => Err EMsg
                  end
              end
          end
      end
  end.

Fixpoint convert_all (c : conv) (l : list pval) (e : elemt) : res (list pval) :=
  match l with
  | [] => Ok []
  | v :: t =>
      let* v' := convert_elem c v e in
      let* t' := convert_all c t e in
      Ok (v' :: t')
  end.

(* TagWrite, L152-L209: the provider after the call and the error. *)
Definition tag_write (c : conv) (p : prov) (tag : bytes) (v : pval) : prov * res unit :=
  let '(base, i, has) := parse_element_tag (lower tag) in
  if has then
    match mget (pv_data p) base with
    | None => (p, Err EMsg)
    | Some (PV _) => (p, Err EMsg)
    | Some (PS e arr off n) =>
        if (i <? 0) || (Z.of_nat n <=? i) then (p, Err EMsg) else
        match convert_elem c v e with
        | Ok x => (Prov (pv_data p) (harr_set (pv_heap p) arr (off + Z.to_nat i) x), Ok tt)
        | Err er => (p, Err er)
        | Panic => (p, Panic)
        | OutOfFuel => (p, OutOfFuel)
        end
    end
  else
    match mget (pv_data p) base, v with
    | Some (PS e _ _ _), PS EAny arr' off' n' =>
        match convert_all c (elems (pv_heap p) arr' off' n') e with
        | Ok l => (Prov (mset (pv_data p) base (PS e (length (pv_heap p)) O (length l)))
                        (pv_heap p ++ [l]), Ok tt)
        | Err er => (p, Err er)
        | Panic => (p, Panic)
        | OutOfFuel => (p, OutOfFuel)
        end
    | _, _ => (Prov (mset (pv_data p) base v) (pv_heap p), Ok tt)
    end.

(* TagList, L251-L263, for a map iterated in the order it is listed; the type
   code of a value by GoVarToCIPType (types.go L22-L74). *)
Definition pval_cip (v : pval) : Z :=
  match v with
  | PV g => match kind_of g with
            | Some k => fst (go_to_cip (GoScalar k))
            | None => match g with
                      | GNil => fst (go_to_cip GoNilIface)
                      | _ => fst (go_to_cip GoOther)
                      end
            end
  | PS (EK k) _ _ n => fst (go_to_cip (GoSlice k (Z.of_nat n)))
  | PS EAny _ _ _ => fst (go_to_cip GoOther)
  end.
Definition tag_list (p : prov) : list (bytes * Z) :=
  map (fun kv => (fst kv, pval_cip (snd kv))) (pv_data p).

(* What a caller that keeps no reference hands over: a plain value, or a slice
   it has just made (parseWriteValues, server_connected.go L445, makes one per
   request). *)
Inductive given := GiveOne (g : gval) | GiveMany (e : elemt) (l : list gval).

Definition write_given (c : conv) (p : prov) (tag : bytes) (v : given) : prov * res unit :=
  match v with
  | GiveOne g => tag_write c p tag (PV g)
  | GiveMany e l =>
      tag_write c (Prov (pv_data p) (pv_heap p ++ [map PV l])) tag
        (PS e (length (pv_heap p)) O (length l))
  end.

(* A sequence of TagWrite calls and which of them returned nil. *)
Fixpoint run_writes (c : conv) (p : prov) (ws : list (bytes * given)) : prov * list bool :=
  match ws with
  | [] => (p, [])
  | (t, v) :: ws' =>
      let (p1, r) := write_given c p t v in
      let (p2, os) := run_writes c p1 ws' in
      (p2, is_ok r :: os)
  end.
