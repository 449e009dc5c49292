(** * C74: unpacking what a controller sends *)
From Verif Require Import GoBase PackTypes PackModel PackSpec PackProof PackRead PackBack Prop_Pack.

(** Any bytes that show a value are read as that value, whatever the padding
    bytes and the spare bits hold, and nothing beyond them is taken. *)
Theorem C74_reads_partial : forall name fs v b rest,
  go_type (TStruct name fs) -> simple_arrays (TStruct name fs) -> has_type (TStruct name fs) v ->
  shows (TStruct name fs) v b ->
  unpack (TStruct name fs) (b ++ rest) = Ok (v, len b, rest).
Proof.
  intros name fs v b rest G S H Sh. rewrite (proj1 shows_read (TStruct name fs) v b rest G S H I Sh).
  destruct v; try contradiction. destruct Sh as [-> _]. reflexivity.
Qed.
Print Assumptions C74_reads_partial.
(** Bytes show at most one value. *)
Theorem C74_unique_partial : forall name fs v v' b,
  go_type (TStruct name fs) -> simple_arrays (TStruct name fs) -> has_type (TStruct name fs) v -> has_type (TStruct name fs) v' ->
  shows (TStruct name fs) v b -> shows (TStruct name fs) v' b -> v = v'.
Proof.
  intros name fs v v' b G S H H' A B. pose proof (C74_reads_partial name fs v b [] G S H A) as E.
  rewrite (C74_reads_partial name fs v' b [] G S H' B) in E. now injection E.
Qed.
Print Assumptions C74_unique_partial.
(** Too few bytes are refused, and what is read always has the type. *)
Theorem C74_short_partial : forall name fs b,
  go_type (TStruct name fs) -> simple_arrays (TStruct name fs) -> solid (TStruct name fs) ->
  len b < size (TStruct name fs) -> exists e, unpack (TStruct name fs) b = Err e.
Proof.
  intros name fs b G S So L. destruct (proj1 unpack_safe (TStruct name fs) b I) as [[[[v n] rest] E]|H]; [|exact H].
  destruct (proj1 unpack_taken _ _ _ _ _ G S So E) as [_ E2]. pose proof (len_nonneg rest). lia.
Qed.
Print Assumptions C74_short_partial.
Theorem C74_typed : forall name fs b, go_type (TStruct name fs) -> bytes_ok b ->
  (exists v n rest, unpack (TStruct name fs) b = Ok (v, n, rest) /\ has_type (TStruct name fs) v) \/ (exists e, unpack (TStruct name fs) b = Err e).
Proof.
  intros name fs b G B. destruct (proj1 unpack_safe (TStruct name fs) b I) as [[[[v n] rest] E]|H]; [left|now right].
  exists v, n, rest. split; [exact E|]. exact (proj1 (proj1 unpack_typed _ _ _ _ _ G B E)).
Qed.
Print Assumptions C74_typed.

(** What has been read is what the bytes show, and with C74_reads_partial Unpack
    succeeds exactly on bytes that begin with a value. *)
Theorem C74_sound_partial : forall name fs b v n rest,
  go_type (TStruct name fs) -> simple_arrays (TStruct name fs) -> solid (TStruct name fs) -> bits_only (TStruct name fs) -> bytes_ok b ->
  (unpack (TStruct name fs) b = Ok (v, n, rest) <->
   exists d, b = d ++ rest /\ n = len d /\ has_type (TStruct name fs) v /\ shows (TStruct name fs) v d).
Proof.
  intros name fs b v n rest G S So Bo B. split.
  - intros E. destruct (proj1 unpack_shows _ _ _ _ _ G S So Bo B E) as (d & Ed & Sh & -> & L). exists d. rewrite L.
    split; [exact Ed|]. split; [reflexivity|]. split; [exact (proj1 (proj1 unpack_typed _ _ _ _ _ G B E))|exact Sh].
  - intros (d & -> & -> & H & Sh). now apply C74_reads_partial.
Qed.
Print Assumptions C74_sound_partial.
(** A bool of its own is read from any byte, though only 0 and 1 show one. *)
Theorem C74_byte_bool_refuted : exists name fs b v n, go_type (TStruct name fs) /\ simple_arrays (TStruct name fs) /\ solid (TStruct name fs) /\
  unpack (TStruct name fs) b = Ok (v, n, []) /\ ~ shows (TStruct name fs) v b.
Proof.
  exists [], (FCons true TBool FNil), [2], (VStruct [VBool true]), 1. split; [cbn; tauto|]. split; [cbn; tauto|].
  split; [cbn; split; [right; lia|auto]|]. split; [reflexivity|]. intros [_ [H _]]. vm_compute in H. discriminate.
Qed.
Print Assumptions C74_byte_bool_refuted.

(** The example struct with ones in all the padding: three bytes before C, six
    spare bits before it, seven after D, and so on. *)
Definition dirty_bytes : bytes :=
  [254; 255; 255; 255; 251; 255; 255; 255; 141; 255; 255; 255; 255; 255; 255; 255; 7; 255; 255; 255; 255; 255; 255; 255] ++ le 8 1 ++ [1; 0; 255; 255; 1].
Lemma dirty_shows : shows ex_type ex_value dirty_bytes.
Proof.
  cbn [ex_type ex_value inner shows holds as_bits]. split; [vm_compute; reflexivity|].
  assert (Bits : forall l c b, forallb (fun j => Bool.eqb (bit_at b (c + Z.of_nat j)) (nth j l false)) (seq 0 (length l)) = true ->
          forall j, (j < length l)%nat -> bit_at b (c + Z.of_nat j) = nth j l false).
  { intros l c b F j Hj. rewrite forallb_forall in F. apply eqb_prop, F, in_seq. lia. }
  repeat match goal with
         | |- _ /\ _ => split
         | |- True => exact I
         | |- forall j, _ => apply Bits; vm_compute; reflexivity
         | |- _ = _ => vm_compute; reflexivity
         | |- _ => cbv zeta
         end.
Qed.
Example ex_C74 : unpack ex_type (dirty_bytes ++ [1; 2]) = Ok (ex_value, 37, [1; 2]) /\ dirty_bytes <> fst (pack ex_type ex_value).
Proof.
  split; [|intros E; vm_compute in E; discriminate].
  exact (C74_reads_partial _ _ ex_value dirty_bytes [1; 2] ex_go ex_simple ex_has dirty_shows).
Qed.
Example ex_C74_short : exists e, unpack ex_type (firstn 36 dirty_bytes) = Err e.
Proof.
  refine (C74_short_partial _ _ _ ex_go ex_simple _ _); [|vm_compute; reflexivity].
  cbn [solid solid_fields inner]. repeat match goal with |- _ /\ _ => split | |- True => exact I | |- _ \/ _ => first [left; reflexivity | right; vm_compute; reflexivity] end.
Qed.

(** Arrays of structs: the controller starts each element at a multiple of the
    element's alignment; the elements after the first are misread. *)
Theorem C74_struct_array_refuted : exists t v w, go_type t /\ has_type t v /\
  let elem x y := le 4 x ++ le 1 y ++ zeros 3 in
  v = VStruct [VArr [VStruct [VInt 1; VInt 2]; VStruct [VInt 3; VInt 4]]] /\
  unpack t (elem 1 2 ++ elem 3 4) = Ok (w, 16, [0; 0; 4; 0; 0; 0]) /\ w <> v.
Proof.
  exists (TStruct [] (FCons false (TArr 2 (TStruct [] (FCons false (TInt true 4) (FCons false (TInt true 1) FNil)))) FNil)).
  exists (VStruct [VArr [VStruct [VInt 1; VInt 2]; VStruct [VInt 3; VInt 4]]]), (VStruct [VArr [VStruct [VInt 1; VInt 2]; VStruct [VInt 50331648; VInt 0]]]).
  split; [cbn; tauto|]. split.
  - cbn [has_type fields_have]. split; [|exact I]. split; [reflexivity|]. repeat (constructor; [cbn [has_type fields_have]; repeat split; cbn [In]; lia|]). constructor.
  - split; [reflexivity|]. split; [vm_compute; reflexivity|discriminate].
Qed.
Print Assumptions C74_struct_array_refuted.
(** A trailing array without elements: bytes missing from the padding before it
    are not noticed. *)
Theorem C74_short_refuted : exists name fs b v n, go_type (TStruct name fs) /\ simple_arrays (TStruct name fs) /\
  len b < size (TStruct name fs) /\ unpack (TStruct name fs) b = Ok (v, n, []).
Proof.
  exists [], (FCons false (TInt true 1) (FCons false (TArr 0 (TInt true 8)) FNil)), [5; 0], (VStruct [VInt 5; VArr []]), 8.
  split; [cbn; tauto|]. split; [cbn; tauto|]. split; vm_compute; reflexivity.
Qed.
Print Assumptions C74_short_refuted.
Example ex_C74_sound : go_type pair_type /\ simple_arrays pair_type /\ solid pair_type /\ bits_only pair_type /\
  unpack pair_type [5; 0; 255; 9] = Ok (VStruct [VInt 5; VBool true], 3, [9]).
Proof.
  split; [cbn; tauto|]. split; [cbn; tauto|]. split; [cbn; split; [right; lia|split; [exact I|split; [left; reflexivity|auto]]]|].
  split; [cbn; tauto|reflexivity].
Qed.
