(** * C14-C16, C57: packing structs *)
From Coq Require Import Sorted.
From Verif Require Import GoBase PackTypes PackModel PackSpec PackProof.

(** The struct used in the examples:
    struct { A, B bool; C int32; D [9]bool; E struct { F int8; G float64 }; H [2]int16; I bool `pack:"nopack"` } *)
Definition inner : gty := TStruct (str "Inner") (FCons false (TInt true 1) (FCons false (TFloat 8) FNil)).
Definition ex_type : gty :=
  TStruct (str "Outer")
    (FCons false TBool (FCons false TBool (FCons false (TInt true 4) (FCons false (TArr 9 TBool)
    (FCons false inner (FCons false (TArr 2 (TInt true 2)) (FCons true TBool FNil))))))).
Definition tt9 : list gv := map VBool [true; false; true; true; false; false; false; true; true].
Definition ex_value : gv :=
  VStruct [VBool false; VBool true; VInt (-5); VArr tt9;
           VStruct [VInt 7; VFloat 1]; VArr [VInt 1; VInt (-1)]; VBool true].
Lemma ex_has : has_type ex_type ex_value.
Proof.
  cbn [ex_type ex_value inner has_type fields_have tt9 map].
  repeat match goal with
         | |- _ /\ _ => split
         | |- Forall _ _ => constructor
         | |- True => exact I
         | |- In _ _ => cbn [In]; lia
         | _ => first [reflexivity | lia | cbn; lia]
         end.
Qed.
Lemma ex_go : go_type ex_type.
Proof. cbn. repeat (split || lia || exact I). Qed.
Lemma ex_simple : simple_arrays ex_type.
Proof. cbn. repeat split. Qed.

(** C14: what Pack writes, Unpack reads back, up to the last byte and no further.
    This includes arrays of structs. *)
Theorem C14_round_trip name fs v rest :
  has_type (TStruct name fs) v ->
  unpack (TStruct name fs) (fst (pack (TStruct name fs) v) ++ rest) = Ok (v, snd (pack (TStruct name fs) v), rest).
Proof. intros H. apply pack_unpack; [exact H|exact I]. Qed.
Print Assumptions C14_round_trip.

Example C14_example :
  fst (pack ex_type ex_value) =
    [2; 0; 0; 0; 251; 255; 255; 255; 141; 1; 0; 0; 0; 0; 0; 0; 7; 0; 0; 0; 0; 0; 0; 0] ++ le 8 1 ++ [1; 0; 255; 255; 1] /\
  unpack ex_type (fst (pack ex_type ex_value) ++ [9; 9]) = Ok (ex_value, 37, [9; 9]).
Proof.
  split; [vm_compute; reflexivity|].
  change (unpack ex_type (fst (pack ex_type ex_value) ++ [9; 9]) = Ok (ex_value, snd (pack ex_type ex_value), [9; 9])).
  apply C14_round_trip, ex_has.
Qed.

(** Two different values of a type never pack to the same bytes, and neither is
    a prefix of the other. *)
Theorem C14_injective name fs v1 v2 r1 r2 :
  has_type (TStruct name fs) v1 -> has_type (TStruct name fs) v2 ->
  fst (pack (TStruct name fs) v1) ++ r1 = fst (pack (TStruct name fs) v2) ++ r2 -> v1 = v2 /\ r1 = r2.
Proof.
  intros H1 H2 E.
  pose proof (C14_round_trip name fs v1 r1 H1) as A. pose proof (C14_round_trip name fs v2 r2 H2) as B.
  rewrite E, B in A. injection A as -> _ ->. auto.
Qed.
Print Assumptions C14_injective.

(** C15: the packed form has the layout of PackSpec: every field that is not packed
    bools starts at a multiple of its alignment, bools fill bytes from the least
    significant bit on, and the count returned is the number of bytes.
    Missing: arrays of structs (refuted below) and arrays of arrays of bools. *)
Theorem C15_layout_partial name fs v :
  go_type (TStruct name fs) -> simple_arrays (TStruct name fs) -> has_type (TStruct name fs) v ->
  shows (TStruct name fs) v (fst (pack (TStruct name fs) v)) /\
  snd (pack (TStruct name fs) v) = len (fst (pack (TStruct name fs) v)).
Proof. intros G S H. destruct (proj1 placed _ v G S H I) as (A & B & _). auto. Qed.
Print Assumptions C15_layout_partial.

(** In that layout the fields lie one after the other without overlapping, and
    the aligned ones are aligned. *)
Fixpoint field_list (fs : gfields) : list (bool * gty) :=
  match fs with FNil => [] | FCons np t r => (np, t) :: field_list r end.
Theorem C15_disjoint name fs :
  go_type (TStruct name fs) ->
  StronglySorted (fun a b => snd a <= fst b) (extents fs 0) /\
  Forall2 (fun f x => fst x <= snd x /\ (as_bits (fst f) (snd f) = false -> fst x mod (8 * alignment (snd f)) = 0))
          (field_list fs) (extents fs 0).
Proof.
  intros G. cbn [go_type] in G. split.
  - apply (ordered_sorted _ 0), extents_ordered, G.
  - cut (forall c, Forall2 (fun f x => fst x <= snd x /\ (as_bits (fst f) (snd f) = false -> fst x mod (8 * alignment (snd f)) = 0))
                       (field_list fs) (extents fs c)); [intros F; apply F|].
    induction fs as [|np t fs IH]; intros c; [constructor|].
    cbn [go_fields] in G. destruct G as [G1 G2]. cbn [field_list extents]. cbv zeta. constructor; [|apply IH, G2].
    cbn [fst snd]. pose proof (proj1 size_nonneg t G1). pose proof (proj1 alignment_pos t G1).
    assert (0 <= nbits t) by (destruct t; cbn [nbits]; lia).
    destruct (as_bits np t); [split; [lia|discriminate]|]. split; [lia|]. intros _.
    rewrite Z.mul_mod_distr_l by lia. rewrite (proj2 (align_up_ge _ _ H0)). reflexivity.
Qed.
Print Assumptions C15_disjoint.

Example C15_example :
  shows ex_type ex_value (fst (pack ex_type ex_value)) /\
  extents (match ex_type with TStruct _ fs => fs | _ => FNil end) 0 =
    [(0, 1); (1, 2); (32, 64); (64, 73); (128, 256); (256, 288); (288, 296)].
Proof.
  split; [apply C15_layout_partial; [exact ex_go|exact ex_simple|exact ex_has]|vm_compute; reflexivity].
Qed.

(** struct { A [1]struct { X int64; Y int8 }; B int32 }: B is packed at offset 9,
    and the count returned is not the number of bytes written. *)
Definition odd_array : gty :=
  TStruct [] (FCons false (TArr 1 (TStruct [] (FCons false (TInt true 8) (FCons false (TInt true 1) FNil))))
             (FCons false (TInt true 4) FNil)).
Theorem C15_struct_array_refuted :
  exists t, go_type t /\ alignment (TInt true 4) = 4 /\
    forall x y b, has_type t (VStruct [VArr [VStruct [VInt x; VInt y]]; VInt b]) ->
      let '(out, n) := pack t (VStruct [VArr [VStruct [VInt x; VInt y]]; VInt b]) in
      exists before, out = before ++ le 4 b /\ len before = 9 /\ n <> len out.
Proof.
  exists odd_array. split; [cbn; tauto|]. split; [reflexivity|]. intros x y b _.
  exists (le 8 x ++ le 1 y). split; [|split; [reflexivity|cbv; discriminate]]. reflexivity.
Qed.
Print Assumptions C15_struct_array_refuted.

(** Bools inside an array of structs take a byte each. *)
Theorem C15_bool_in_struct_array_refuted :
  exists t, go_type t /\
    fst (pack t (VStruct [VArr [VStruct [VBool true; VBool true]]])) = [1; 1].
Proof.
  exists (TStruct [] (FCons false (TArr 1 (TStruct [] (FCons false TBool (FCons false TBool FNil)))) FNil)).
  split; [cbn; tauto|reflexivity].
Qed.
Print Assumptions C15_bool_in_struct_array_refuted.

(** C16: the type description.  Missing: bool arrays, bools kept out of the
    packing, arrays right after bools (all refuted below), arrays of arrays. *)
Theorem C16_type_encode_partial name fs :
  regular (TStruct name fs) ->
  type_encode (TStruct name fs) = Ok (join 44 (name :: members fs 0)).
Proof. intros R. apply (proj1 (proj1 encode_described (TStruct name fs))), R. Qed.
Print Assumptions C16_type_encode_partial.

Fixpoint ten_bools (n : nat) (fs : gfields) : gfields :=
  match n with O => fs | S k => FCons false TBool (ten_bools k fs) end.
Definition ex_described : gty :=
  TStruct (str "Tank") (ten_bools 10 (FCons false (TInt true 4) (FCons false (TArr 3 inner) (FCons false inner (FCons false TBool FNil))))).
Example C16_example :
  type_encode ex_described = Ok (str "Tank,SINT,SINT,DINT,Inner,SINT,LREAL[3],Inner,SINT,LREAL,SINT").
Proof.
  unfold ex_described. rewrite C16_type_encode_partial; [vm_compute; reflexivity|].
  cbn. repeat split; lia.
Qed.

(** struct { A bool; B [2]int32; C bool } takes two bytes of packed bools but one
    SINT is listed. *)
Definition gap_type : gty := TStruct (str "G") (FCons false TBool (FCons false (TArr 2 (TInt true 4)) (FCons false TBool FNil))).
Theorem C16_array_between_bools_refuted :
  exists name fs, go_type (TStruct name fs) /\
    type_encode (TStruct name fs) = Ok (str "G,SINT,DINT[2]") /\
    members fs 0 = [str "SINT"; str "DINT[2]"; str "SINT"].
Proof.
  exists (str "G"), (FCons false TBool (FCons false (TArr 2 (TInt true 4)) (FCons false TBool FNil))).
  split; [cbn; tauto|]. split; vm_compute; reflexivity.
Qed.
Print Assumptions C16_array_between_bools_refuted.
(** struct { A [16]bool }: listed as "[16]" without a type. *)
Theorem C16_bool_array_refuted :
  exists name fs, go_type (TStruct name fs) /\
    type_encode (TStruct name fs) = Ok (str "G,[16]") /\ members fs 0 = [str "SINT"; str "SINT"].
Proof. exists (str "G"), (FCons false (TArr 16 TBool) FNil). split; [cbn; tauto|]. split; vm_compute; reflexivity. Qed.
Print Assumptions C16_bool_array_refuted.
(** struct { A [0]struct{...} } crashes. *)
Theorem C16_empty_array_refuted :
  exists name fs, go_type (TStruct name fs) /\ has_type (TStruct name fs) (VStruct [VArr []]) /\
    type_encode (TStruct name fs) = Panic.
Proof. exists (str "G"), (FCons false (TArr 0 inner) FNil). split; [cbn; tauto|]. split; [cbn; auto|reflexivity]. Qed.
Print Assumptions C16_empty_array_refuted.

(** C57: unpacking into a slice takes elements that each fill a multiple of the
    alignment, whatever the padding holds. *)
Theorem C57_slice_partial name fs vs bs rest :
  go_type (TStruct name fs) -> simple_arrays (TStruct name fs) ->
  Forall2 (fun v b => has_type (TStruct name fs) v /\
                      exists pad, b = fst (pack (TStruct name fs) v) ++ pad /\
                                  len b = align_up (size (TStruct name fs)) (alignment (TStruct name fs))) vs bs ->
  unpack_slice (length vs) (TStruct name fs) (concat bs ++ rest) 0 = Ok ((vs, len (concat bs)), rest).
Proof. intros G S F. rewrite (slice_unpack _ vs bs G S I F rest 0). rewrite Z.add_0_l. reflexivity. Qed.
Print Assumptions C57_slice_partial.

Definition pair_type : gty := TStruct (str "P") (FCons false (TInt true 2) (FCons false TBool FNil)).
Example C57_example :
  unpack_slice 2 pair_type ([5; 0; 1; 77] ++ [6; 0; 0; 88]) 0 =
    Ok (([VStruct [VInt 5; VBool true]; VStruct [VInt 6; VBool false]], 8), []).
Proof.
  pose proof (C57_slice_partial (str "P") (FCons false (TInt true 2) (FCons false TBool FNil))
     [VStruct [VInt 5; VBool true]; VStruct [VInt 6; VBool false]] [[5; 0; 1; 77]; [6; 0; 0; 88]] []) as T.
  apply T.
  - cbn; tauto.
  - cbn; tauto.
  - apply Forall2_cons; [|apply Forall2_cons; [|apply Forall2_nil]].
    + split; [cbn; lia|]. exists [77]. split; vm_compute; reflexivity.
    + split; [cbn; lia|]. exists [88]. split; vm_compute; reflexivity.
Qed.

(** Elements containing an array of structs whose Go size is not their packed
    size: the second element is read from the wrong place. *)
Definition holder : gty :=
  TStruct [] (FCons false (TArr 1 (TStruct [] (FCons false (TInt true 4) (FCons false (TInt true 1) FNil)))) FNil).
Theorem C57_slice_struct_array_refuted :
  exists t v w, go_type t /\ has_type t v /\
    let b := fst (pack t v) ++ zeros 3 in
    len b = align_up (len (fst (pack t v))) (alignment t) /\
    (let* (x, _) := unpack_slice 2 t (b ++ b) 0 in Ok (fst x)) = Ok [v; w] /\ w <> v.
Proof.
  exists holder, (VStruct [VArr [VStruct [VInt 7; VInt 9]]]), (VStruct [VArr [VStruct [VInt (7 * 16777216); VInt 0]]]).
  split; [cbn; tauto|]. split.
  - cbn [holder has_type fields_have].
    repeat match goal with
           | |- _ /\ _ => split
           | |- Forall _ _ => constructor
           | |- True => exact I
           | |- In _ _ => cbn [In]; lia
           | _ => first [reflexivity | lia | cbn; lia]
           end.
  - split; [vm_compute; reflexivity|]. split; [vm_compute; reflexivity|discriminate].
Qed.
Print Assumptions C57_slice_struct_array_refuted.
