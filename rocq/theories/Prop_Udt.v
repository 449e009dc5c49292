(** * C115: nested structures take whole words *)
From Verif Require Import GoBase PackTypes PackModel PackSpec PackProof PackRead Prop_Pack Prop_PackRead UdtSpec UdtProof.

(** struct { A int8; Sub struct { B int32; C int16; D int16 }; E int16; F [2]bool; G struct { H int64; I [8]int8 } } *)
Definition ex_sub := TStruct (str "Sub") (FCons false (TInt true 4) (FCons false (TInt true 2) (FCons false (TInt true 2) FNil))).
Definition ex_long := TStruct (str "Long") (FCons false (TInt true 8) (FCons false (TArr 8 (TInt true 1)) FNil)).
Definition ex_udt := FCons false (TInt true 1) (FCons false ex_sub (FCons false (TInt true 2) (FCons false (TArr 2 TBool) (FCons false ex_long FNil)))).
Definition ex_uvalue := VStruct [VInt 1; VStruct [VInt 2; VInt 3; VInt 4]; VInt 5; VArr [VBool true; VBool true];
  VStruct [VInt 6; VArr (map VInt [0; 1; 2; 3; 4; 5; 6; 7])]].
Lemma ex_udt_good : go_type (TStruct [] ex_udt) /\ simple_arrays (TStruct [] ex_udt) /\ members_whole ex_udt /\ has_type (TStruct [] ex_udt) ex_uvalue.
Proof.
  split; [cbn; repeat split; tauto|]. split; [cbn; tauto|]. split.
  - cbn [members_whole whole ex_udt ex_sub ex_long]. repeat split; vm_compute; (reflexivity || discriminate).
  - cbn. repeat match goal with |- _ /\ _ => split | |- Forall _ _ => constructor | |- In _ _ => cbn; lia | _ => first [exact Logic.I | reflexivity | lia | cbn; lia] end.
Qed.

(** If the nested structs need no filling at their end, Unpack reads what the
    controller holds, up to the filling at the end of the whole. *)
Theorem C115_reads_partial : forall name fs v b rest, go_type (TStruct name fs) -> simple_arrays (TStruct name fs) -> members_whole fs ->
  has_type (TStruct name fs) v -> udt_shows (TStruct name fs) v b ->
  exists fill, unpack (TStruct name fs) (b ++ rest) = Ok (v, len b - len fill, fill ++ rest) /\ len fill < Z.max 4 (fields_alignment fs).
Proof.
  intros name fs v b rest G S W H Sh. destruct v as [| | | |vs]; try contradiction. destruct Sh as [L Hb]. cbn [go_type] in G. cbn [udt_size] in L.
  destruct (proj2 udt_same fs G W) as [A C]. rewrite A, C in L.
  assert (A0 : 0 < Z.max 4 (fields_alignment fs)) by lia.
  destruct (align_up_ge (bytes_for (cursor_after fs 0)) _ A0) as [AG _].
  assert (AL : align_up (bytes_for (cursor_after fs 0)) (Z.max 4 (fields_alignment fs)) - bytes_for (cursor_after fs 0) < Z.max 4 (fields_alignment fs)).
  { unfold align_up. pose proof (Z.mod_pos_bound (- bytes_for (cursor_after fs 0)) _ A0). lia. }
  pose proof (proj2 size_nonneg fs 0 G) as S0.
  assert (B0 : 0 <= bytes_for (cursor_after fs 0)) by (rewrite bytes_for_val; apply Z.div_pos; lia).
  set (n := Z.to_nat (bytes_for (cursor_after fs 0))) in *.
  assert (Ln : len (firstn n b) = size (TStruct name fs)) by (cbn [size]; unfold len in *; rewrite firstn_length; lia).
  exists (skipn n b). rewrite <- (firstn_skipn n b) at 1. rewrite <- app_assoc.
  rewrite (C74_reads_partial name fs (VStruct vs) (firstn n b) (skipn n b ++ rest) G S H).
  - split; [|unfold len in *; rewrite skipn_length; lia]. do 2 f_equal. unfold len in *. rewrite firstn_length, skipn_length. f_equal. lia.
  - split; [exact Ln|]. apply (proj2 udt_shows_same fs G W) in Hb.
    apply (holds_prefix fs G vs 0 (firstn n b) b H ltac:(lia)); [cbn [size] in Ln; lia|unfold len; rewrite firstn_length; lia| |exact Hb].
    intros k Hk. rewrite firstn_length in Hk. rewrite firstn_firstn. f_equal. lia.
Qed.
Print Assumptions C115_reads_partial.

(** ... and Pack writes it, up to that filling. *)
Theorem C115_layout_partial : forall name fs v, go_type (TStruct name fs) -> simple_arrays (TStruct name fs) -> members_whole fs ->
  has_type (TStruct name fs) v ->
  exists fill, udt_shows (TStruct name fs) v (fst (pack (TStruct name fs) v) ++ zeros fill) /\ Z.of_nat fill < Z.max 4 (fields_alignment fs).
Proof.
  intros name fs v G S W H. destruct (C15_layout_partial name fs v G S H) as [Sh _].
  destruct v as [| | | |vs]; try contradiction. destruct Sh as [L Hb]. cbn [go_type] in G. cbn [size] in L.
  set (b := fst (pack (TStruct name fs) (VStruct vs))) in *.
  destruct (proj2 udt_same fs G W) as [A C].
  assert (A0 : 0 < Z.max 4 (fields_alignment fs)) by lia.
  exists (Z.to_nat ((- bytes_for (cursor_after fs 0)) mod Z.max 4 (fields_alignment fs))).
  pose proof (Z.mod_pos_bound (- bytes_for (cursor_after fs 0)) _ A0).
  split; [|lia]. split.
  - rewrite len_app, L. cbn [udt_size]. rewrite A, C. unfold align_up, len, zeros. rewrite repeat_length. lia.
  - apply (proj2 udt_shows_same fs G W). refine (proj1 (holds_prefix fs G vs 0 b _ H ltac:(lia) _ _ _) Hb).
    + lia.
    + rewrite len_app. pose proof (len_nonneg (zeros (Z.to_nat ((- bytes_for (cursor_after fs 0)) mod Z.max 4 (fields_alignment fs))))). lia.
    + intros k Hk. rewrite firstn_app. replace (k - length b)%nat with 0%nat by lia. now rewrite app_nil_r.
Qed.
Print Assumptions C115_layout_partial.
Example ex_C115_layout : fst (pack (TStruct [] ex_udt) ex_uvalue) =
  [1; 0; 0; 0] ++ [2; 0; 0; 0; 3; 0; 4; 0] ++ [5; 0; 3; 0] ++ [6; 0; 0; 0; 0; 0; 0; 0; 0; 1; 2; 3; 4; 5; 6; 7].
Proof. reflexivity. Qed.

(** lgxtypes.STRING has 86 bytes, in the controller 88: a member after it is read
    from the wrong place... *)
Definition logix_string := TStruct (str "STRING") (FCons false (TInt true 4) (FCons false (TArr 82 (TInt true 1)) FNil)).
Definition string_flag := FCons false logix_string (FCons false (TInt true 1) FNil).
Definition string_flag_value (x : Z) := VStruct [VStruct [VInt 0; VArr (repeat (VInt 0) 82)]; VInt x].
Theorem C115_reads_refuted : exists v b v' n rest, has_type (TStruct [] string_flag) v /\ udt_shows (TStruct [] string_flag) v b /\
  unpack (TStruct [] string_flag) b = Ok (v', n, rest) /\ v' <> v.
Proof.
  exists (string_flag_value 7), (zeros 88 ++ [7; 0; 0; 0]), (string_flag_value 0), 87, [0; 7; 0; 0; 0].
  split; [|split; [|split; [vm_compute; reflexivity|discriminate]]].
  - cbn. repeat match goal with |- _ /\ _ => split | |- Forall _ _ => constructor | |- In _ _ => cbn; lia | _ => first [exact Logic.I | reflexivity | lia | cbn; lia] end.
  - cbn [udt_shows string_flag_value]. split; [vm_compute; reflexivity|]. vm_compute. repeat split; reflexivity.
Qed.
Print Assumptions C115_reads_refuted.
(** ... and written to it. *)
Theorem C115_layout_refuted : exists v, has_type (TStruct [] string_flag) v /\
  forall fill, ~ udt_shows (TStruct [] string_flag) v (fst (pack (TStruct [] string_flag) v) ++ zeros fill).
Proof.
  exists (string_flag_value 7). split.
  - cbn. repeat match goal with |- _ /\ _ => split | |- Forall _ _ => constructor | |- In _ _ => cbn; lia | _ => first [exact Logic.I | reflexivity | lia | cbn; lia] end.
  - intros fill [L H]. assert (fill = 5%nat) as ->.
    { rewrite len_app in L. unfold zeros, len at 2 in L. rewrite repeat_length in L.
      change (len (fst (pack (TStruct [] string_flag) (string_flag_value 7)))) with 87 in L. change (udt_size (TStruct [] string_flag)) with 92 in L. lia. }
    destruct H as [_ [H _]]. vm_compute in H. discriminate.
Qed.
Print Assumptions C115_layout_refuted.
(** A structure that ends in a short member is sent too short. *)
Theorem C115_length_refuted : exists name fs v, go_type (TStruct name fs) /\ simple_arrays (TStruct name fs) /\ members_whole fs /\ has_type (TStruct name fs) v /\
  len (fst (pack (TStruct name fs) v)) = 5 /\ udt_size (TStruct name fs) = 8.
Proof.
  exists (str "Pair"), (FCons false (TInt true 4) (FCons false (TInt true 1) FNil)), (VStruct [VInt 1; VInt 2]).
  split; [cbn; tauto|]. split; [cbn; tauto|]. split; [cbn; tauto|].
  split; [cbn; repeat split; tauto || lia|]. split; reflexivity.
Qed.
Print Assumptions C115_length_refuted.
(** The bytes have the structure's length exactly if its members end at a
    multiple of its alignment. *)
Theorem C115_length_partial : forall name fs v, go_type (TStruct name fs) -> simple_arrays (TStruct name fs) -> members_whole fs ->
  has_type (TStruct name fs) v ->
  (udt_shows (TStruct name fs) v (fst (pack (TStruct name fs) v)) <-> size (TStruct name fs) mod Z.max 4 (fields_alignment fs) = 0).
Proof.
  intros name fs v G S W H. destruct (C15_layout_partial name fs v G S H) as [Sh _].
  destruct v as [| | | |vs]; try contradiction. destruct Sh as [L Hb]. cbn [go_type] in G.
  destruct (proj2 udt_same fs G W) as [A C]. cbn [udt_shows udt_size]. rewrite A, C, L. cbn [size].
  set (n := bytes_for (cursor_after fs 0)). assert (A0 : 0 < Z.max 4 (fields_alignment fs)) by lia. split.
  - intros [E _]. rewrite E. apply (align_up_ge n _ A0).
  - intros E. split; [symmetry; apply align_up_id; assumption|]. now apply (proj2 udt_shows_same fs G W).
Qed.
Print Assumptions C115_length_partial.
Example ex_C115_length : udt_shows (TStruct [] ex_udt) ex_uvalue (fst (pack (TStruct [] ex_udt) ex_uvalue)).
Proof. destruct ex_udt_good as (G & S & W & H). apply (C115_length_partial [] ex_udt ex_uvalue G S W H). reflexivity. Qed.
