(** * Lemmas about structs with lgxtypes members *)
From Verif Require Import GoBase TypesModel IoiModel ItemsModel ReadModel PackTypes PackModel PackSpec PackProof PackRead PackBack
  LgxModel LgxSpec LgxProof WriteModel KnownModel KnownSpec.

Lemma logix_alignment : (forall k, alignment (under k) = alignment (logix k)) /\
  (forall fs, fields_alignment (under_fields fs) = fields_alignment (logix_fields fs)).
Proof.
  apply kty_mut; intros; cbn [under logix under_fields logix_fields alignment fields_alignment]; try reflexivity; try assumption.
  now rewrite H, H0.
Qed.
Lemma logix_align k : cip_align (under k) = cip_align (logix k).
Proof. rewrite !(proj1 (proj1 align_model _)). apply logix_alignment. Qed.

(** What the values of the structures look like. *)
Lemma flag_values n : forall vs, fields_have (flag_fields n) vs -> exists bs, length bs = n /\ vs = map VBool bs.
Proof.
  induction n as [|n IH]; intros vs H; cbn [flag_fields fields_have] in H.
  - destruct vs; [now exists []|contradiction].
  - destruct vs as [|v vs]; [contradiction|]. destruct H as [Hv H]. destruct v; try contradiction.
    destruct (IH _ H) as (bs & L & ->). exists (b :: bs). split; [cbn; lia|reflexivity].
Qed.
Lemma dint_value v : has_type dint v -> exists z, v = VInt z /\ int32 z.
Proof. intros H. destruct v; try contradiction. destruct H as [_ H]. eexists. split; [reflexivity|]. exact H. Qed.
Lemma two_values name n v : has_type (TStruct name (two_dints n)) v ->
  exists a b bs, v = VStruct (VInt a :: VInt b :: map VBool bs) /\ length bs = n /\ int32 a /\ int32 b.
Proof.
  intros H. destruct v; try contradiction. cbn [has_type] in H. unfold two_dints in H.
  destruct vs as [|x [|y vs]]; cbn [fields_have] in H; try tauto.
  destruct H as (H1 & H2 & H3). destruct (dint_value _ H1) as (a & -> & A). destruct (dint_value _ H2) as (b & -> & B).
  destruct (flag_values _ _ H3) as (bs & L & ->). exists a, b, bs. auto.
Qed.
Lemma timer_value v : has_type (under KTimer) v -> exists t, v = vtimer t /\ timer_of v = t /\ timer_ok t.
Proof.
  intros H. destruct (two_values _ _ _ H) as (a & b & bs & -> & L & A & B).
  destruct bs as [|b1 [|b2 [|b3 [|b4 [|b5 [|b6 [|b7 [|]]]]]]]]; try discriminate. cbn [map].
  exists (Timer a b b1 b2 b3 b4 b5 b6 b7). repeat split; assumption || apply A || apply B.
Qed.
Lemma counter_value v : has_type (under KCounter) v -> exists t, v = vcounter t /\ counter_of v = t /\ counter_ok t.
Proof.
  intros H. destruct (two_values _ _ _ H) as (a & b & bs & -> & L & A & B).
  destruct bs as [|b1 [|b2 [|b3 [|b4 [|b5 [|]]]]]]; try discriminate. cbn [map].
  exists (Counter a b b1 b2 b3 b4 b5). repeat split; assumption || apply A || apply B.
Qed.
Lemma control_value v : has_type (under KControl) v -> exists t, v = vcontrol t /\ control_of v = t /\ control_ok t.
Proof.
  intros H. destruct (two_values _ _ _ H) as (a & b & bs & -> & L & A & B).
  destruct bs as [|b1 [|b2 [|b3 [|b4 [|b5 [|b6 [|b7 [|b8 [|]]]]]]]]]; try discriminate. cbn [map].
  exists (Control a b b1 b2 b3 b4 b5 b6 b7 b8). repeat split; assumption || apply A || apply B.
Qed.

Lemma pack_three name w a b : pack (three name) (VStruct [VInt w; VInt a; VInt b]) = (le 4 w ++ le 4 a ++ le 4 b, 12).
Proof.
  transitivity (le 4 w ++ le 4 a ++ le 4 b ++ [], 12); [reflexivity|]. now rewrite app_nil_r.
Qed.
Lemma flags_le used w l : le 4 (as_dint w) = le 4 w -> w = flag_sum 31 (firstn used l) ->
  le 4 (as_dint (flag_sum 31 (firstn used l))) = le 4 w.
Proof. now intros H ->. Qed.
Lemma timer_logix t : timer_pack t = pack (logix KTimer) (flagged 3 (vtimer t)).
Proof.
  destruct t as [a b b1 b2 b3 b4 b5 b6 b7]. unfold vtimer, flagged, logix. cbn [tm_pre tm_acc tm_en tm_tt tm_dn tm_fs tm_ls tm_ov tm_er firstn].
  rewrite pack_three. unfold timer_pack. cbn [tm_pre tm_acc tm_en tm_tt tm_dn]. f_equal. f_equal. destruct b1, b2, b3; reflexivity.
Qed.
Lemma counter_logix t : counter_pack t = pack (logix KCounter) (flagged 5 (vcounter t)).
Proof.
  destruct t as [a b b1 b2 b3 b4 b5]. unfold vcounter, flagged, logix. cbn [ct_pre ct_acc ct_cu ct_cd ct_dn ct_ov ct_un firstn].
  rewrite pack_three. unfold counter_pack. cbn [ct_pre ct_acc ct_cu ct_cd ct_dn ct_ov ct_un]. f_equal. f_equal. destruct b1, b2, b3, b4, b5; reflexivity.
Qed.
Lemma control_logix t : control_pack t = pack (logix KControl) (flagged 8 (vcontrol t)).
Proof.
  destruct t as [a b b1 b2 b3 b4 b5 b6 b7 b8]. unfold vcontrol, flagged, logix. cbn [cl_len cl_pos cl_en cl_eu cl_dn cl_em cl_er cl_ul cl_in cl_fd firstn].
  rewrite pack_three. unfold control_pack. cbn [cl_len cl_pos cl_en cl_eu cl_dn cl_em cl_er cl_ul cl_in cl_fd]. f_equal. f_equal.
  destruct b1, b2, b3, b4, b5, b6, b7, b8; reflexivity.
Qed.

Lemma bits_logix np k : fit k -> bit_field np (under k) = bit_field np (logix k).
Proof. destruct k; intros F; try reflexivity. contradiction. Qed.
Lemma bit_same np k v : fit k -> bit_field np (under k) = true -> in_logix k v = v.
Proof. destruct k; cbn [under in_logix]; intros F H; try reflexivity; destruct np; discriminate. Qed.

(** Packing is packing what Logix has. *)
Lemma kpack_logix :
  (forall k v, fit k -> has_type (under k) v -> match under k with TStruct _ _ => True | _ => False end ->
    kpack k v = pack (logix k) (in_logix k v)) /\
  (forall fs vs pos bp acc, fields_fit fs -> fields_have (under_fields fs) vs ->
    kpack_fields fs vs pos bp acc = pack_fields (logix_fields fs) (fields_in_logix fs vs) pos bp acc).
Proof.
  apply kty_mut.
  - intros t v (_ & _ & F) _ T. cbn [under] in T. destruct t; contradiction.
  - intros v _ H _. destruct (timer_value _ H) as (t & -> & E & _). cbn [kpack in_logix]. rewrite E. apply timer_logix.
  - intros v _ H _. destruct (counter_value _ H) as (t & -> & E & _). cbn [kpack in_logix]. rewrite E. apply counter_logix.
  - intros v _ H _. destruct (control_value _ H) as (t & -> & E & _). cbn [kpack in_logix]. rewrite E. apply control_logix.
  - reflexivity.
  - intros n k _ v F. contradiction.
  - intros name fs IH v F H _. destruct v; try contradiction. cbn [kpack in_logix logix pack]. now apply IH.
  - intros vs pos bp acc _ H. destruct vs; [reflexivity|contradiction].
  - intros np k IHk fs IH vs pos bp acc [F1 F2] H. destruct vs as [|v vs]; [contradiction|]. destruct H as [H1 H2].
    cbn [kpack_fields logix_fields fields_in_logix pack_fields]. rewrite <- (bits_logix np k F1).
    destruct (bit_field np (under k)) eqn:B.
    + rewrite (bit_same np k v F1 B). destruct (match v with VArr l => _ | _ => _ end) as [[[o pos1] bp1] acc1]. now rewrite IH.
    + destruct (if (0 <? bp)%nat then _ else _) as [flush pos1]. rewrite <- logix_align.
      assert (E : match under k with TStruct _ _ => kpack k v | _ => (raw_write (under k) v, go_size (under k)) end =
                  match logix k with TStruct _ _ => pack (logix k) (in_logix k v) | _ => (raw_write (logix k) (in_logix k v), go_size (logix k)) end).
      { destruct k; try (apply IHk; [exact F1|exact H1|exact Logic.I]); [|contradiction].
        cbn [under logix in_logix]. destruct t; reflexivity. }
      rewrite E. destruct (match logix k with TStruct _ _ => _ | _ => _ end) as [body s]. now rewrite IH.
Qed.

(** The values, too, are as Logix has them. *)
Lemma as_dint_range w : 0 <= w < 2 ^ 32 -> int32 (as_dint w).
Proof. unfold as_dint, int32. intros H. destruct (Z.ltb_spec w (2 ^ 31)); lia. Qed.
Lemma flag_sum_range l : forall bit, -1 <= bit -> Z.of_nat (length l) <= bit + 1 -> 0 <= flag_sum bit l < 2 ^ (bit + 1).
Proof.
  induction l as [|v l IH]; intros bit Hb L; [cbn [flag_sum]; split; [lia|]; apply Z.pow_pos_nonneg; lia|].
  cbn [length] in L.
  assert (P : 2 ^ (bit + 1) = 2 * 2 ^ bit) by (rewrite Z.pow_add_r by lia; lia).
  destruct v; cbn [flag_sum]; try (split; [lia|]; apply Z.pow_pos_nonneg; lia).
  specialize (IH (bit - 1) ltac:(lia) ltac:(lia)). replace (bit - 1 + 1) with bit in IH by lia. destruct b; lia.
Qed.
Lemma three_typed name w a b : int32 w -> int32 a -> int32 b -> has_type (three name) (VStruct [VInt w; VInt a; VInt b]).
Proof. intros W A B. cbn. unfold int32 in *. repeat split; auto 6; tauto. Qed.
Lemma flagged_typed name m n used v : (used <= 32)%nat -> has_type (TStruct name (two_dints n)) v -> has_type (three m) (flagged used v).
Proof.
  intros U H. destruct (two_values _ _ _ H) as (a & b & bs & -> & L & A & B). cbn [flagged]. apply three_typed; try assumption.
  apply as_dint_range. pose proof (flag_sum_range (firstn used (map VBool bs)) 31 ltac:(lia)) as R. apply R.
  pose proof (firstn_le_length used (map VBool bs)). lia.
Qed.
Lemma logix_typed :
  (forall k v, fit k -> has_type (under k) v -> has_type (logix k) (in_logix k v)) /\
  (forall fs vs, fields_fit fs -> fields_have (under_fields fs) vs -> fields_have (logix_fields fs) (fields_in_logix fs vs)).
Proof.
  apply kty_mut.
  - intros t v _ H. exact H.
  - intros v _ H. exact (flagged_typed _ _ _ 3 v ltac:(lia) H).
  - intros v _ H. exact (flagged_typed _ _ _ 5 v ltac:(lia) H).
  - intros v _ H. exact (flagged_typed _ _ _ 8 v ltac:(lia) H).
  - intros v _ H. exact H.
  - intros n k _ v F. contradiction.
  - intros name fs IH v F H. destruct v; try contradiction. cbn [in_logix logix has_type]. now apply IH.
  - intros vs _ H. destruct vs; [exact Logic.I|contradiction].
  - intros np k IHk fs IH vs [F1 F2] H. destruct vs as [|v vs]; [contradiction|]. destruct H as [H1 H2].
    cbn [logix_fields fields_in_logix fields_have]. auto.
Qed.
Lemma logix_go : (forall k, fit k -> go_type (logix k)) /\ (forall fs, fields_fit fs -> go_fields (logix_fields fs)).
Proof.
  apply kty_mut; intros; cbn [logix logix_fields go_type go_fields fit fields_fit] in *; auto; try (cbn; tauto).
Qed.
Lemma logix_simple : (forall k, fit k -> simple_arrays (logix k)) /\ (forall fs, fields_fit fs -> fields_simple (logix_fields fs)).
Proof.
  apply kty_mut; intros; cbn [logix logix_fields simple_arrays fields_simple fit fields_fit] in *; auto; try (cbn; tauto).
Qed.

(** Unpacking is unpacking what Logix has, and taking the flags apart. *)
Lemma unpack_three name r : unpack (three name) r =
  let* (b0, r1) := rd 4 r in let* (b1, r2) := rd 4 r1 in let* (b2, r3) := rd 4 r2 in
  Ok (VStruct [VInt (sgn 32 (unle b0)); VInt (sgn 32 (unle b1)); VInt (sgn 32 (unle b2))], 12, r3).
Proof.
  assert (F : forall x a, fst (raw_decode (TInt true 4) (firstn 4 x)) = a -> VInt (sgn 32 (unle (firstn 4 x))) = a).
  { intros x a <-. cbn [raw_decode fst]. rewrite firstn_firstn. reflexivity. }
  assert (R : forall x, raw_read (TInt true 4) x = let* (b, r1) := rd 4 x in Ok (VInt (sgn 32 (unle b)), r1)).
  { intros x. unfold raw_read. cbn [raw_size]. unfold rd. destruct (4 <=? length x)%nat; [|now destruct x].
    cbn [bind]. now rewrite (F x _ eq_refl). }
  unfold three, DINT. cbn [unpack unpack_fields bit_field negb andb cip_align go_align].
  change (pad_len 0 (Z.of_nat 4)) with 0%nat. cbn [read_some bind]. rewrite R. destruct (rd 4 r) as [[b0 r1]| | |]; cbn [bind fst snd]; try reflexivity.
  change (pad_len (0 + Z.of_nat 0 + go_size (TInt true 4)) (Z.of_nat 4)) with 0%nat. cbn [read_some bind]. rewrite R. destruct (rd 4 r1) as [[b1 r2]| | |]; cbn [bind fst snd]; try reflexivity.
  change (pad_len (0 + Z.of_nat 0 + go_size (TInt true 4) + Z.of_nat 0 + go_size (TInt true 4)) (Z.of_nat 4)) with 0%nat. cbn [read_some bind]. rewrite R. destruct (rd 4 r2) as [[b2 r3]| | |]; cbn [bind fst snd]; reflexivity.
Qed.
Lemma sgn_bit z n : 0 <= n < 32 -> has_bit z n = Z.testbit (sgn 32 z) n.
Proof.
  intros H. rewrite has_bit_testbit by lia. rewrite <- (Z.mod_pow2_bits_low (sgn 32 z) 32 n) by lia.
  rewrite <- (Z.mod_pow2_bits_low z 32 n) by lia. f_equal. unfold sgn.
  destruct (_ <? _); [now rewrite Z.mod_mod|].
  rewrite <- (Z_mod_plus_full (_ - _) 1). replace (z mod 2 ^ 32 - 2 ^ 32 + 1 * 2 ^ 32) with (z mod 2 ^ 32) by lia. now rewrite Z.mod_mod.
Qed.
Lemma timer_meant old r : has_type (under KTimer) old ->
  kunpack KTimer old r = let* (x, rest) := unpack (logix KTimer) r in Ok (meant KTimer old (fst x), snd x, rest).
Proof.
  intros H. destruct (timer_value _ H) as (t & -> & E & _). cbn [kunpack logix]. rewrite E, unpack_three. unfold timer_unpack, unpack3.
  destruct (rd 4 r) as [[b0 r1]| | |]; cbn [bind method]; try reflexivity.
  destruct (rd 4 r1) as [[b1 r2]| | |]; cbn [bind method]; try reflexivity.
  destruct (rd 4 r2) as [[b2 r3]| | |]; cbn [bind method]; try reflexivity.
  destruct t as [x1 x2 x3 x4 x5 x6 x7 x8 x9]. unfold vtimer. cbn [tm_pre tm_acc tm_en tm_tt tm_dn tm_fs tm_ls tm_ov tm_er].
  cbn [fst snd meant meant3 unused_flags flags_of]. rewrite !sgn_bit by lia. reflexivity.
Qed.
Lemma counter_meant old r : has_type (under KCounter) old ->
  kunpack KCounter old r = let* (x, rest) := unpack (logix KCounter) r in Ok (meant KCounter old (fst x), snd x, rest).
Proof.
  intros H. destruct (counter_value _ H) as (t & -> & E & _). cbn [kunpack logix]. rewrite E, unpack_three. unfold counter_unpack, unpack3.
  destruct (rd 4 r) as [[b0 r1]| | |]; cbn [bind method]; try reflexivity.
  destruct (rd 4 r1) as [[b1 r2]| | |]; cbn [bind method]; try reflexivity.
  destruct (rd 4 r2) as [[b2 r3]| | |]; cbn [bind method]; try reflexivity.
  destruct t as [x1 x2 x3 x4 x5 x6 x7]. unfold vcounter. cbn [ct_pre ct_acc ct_cu ct_cd ct_dn ct_ov ct_un].
  cbn [fst snd meant meant3 flags_of]. rewrite !sgn_bit by lia. reflexivity.
Qed.
Lemma control_meant old r : has_type (under KControl) old ->
  kunpack KControl old r = let* (x, rest) := unpack (logix KControl) r in Ok (meant KControl old (fst x), snd x, rest).
Proof.
  intros H. destruct (control_value _ H) as (t & -> & E & _). cbn [kunpack logix]. rewrite E, unpack_three. unfold control_unpack, unpack3.
  destruct (rd 4 r) as [[b0 r1]| | |]; cbn [bind method]; try reflexivity.
  destruct (rd 4 r1) as [[b1 r2]| | |]; cbn [bind method]; try reflexivity.
  destruct (rd 4 r2) as [[b2 r3]| | |]; cbn [bind method]; try reflexivity.
  destruct t as [x1 x2 x3 x4 x5 x6 x7 x8 x9 x0]. unfold vcontrol. cbn [cl_len cl_pos cl_en cl_eu cl_dn cl_em cl_er cl_ul cl_in cl_fd].
  cbn [fst snd meant meant3 flags_of]. rewrite !sgn_bit by lia. reflexivity.
Qed.
Lemma meant_plain k old w : fit k -> match under k with TStruct _ _ => False | _ => True end -> meant k old w = w.
Proof. destruct k; cbn [under meant]; try contradiction; reflexivity. Qed.
Lemma kunpack_logix :
  (forall k old r, fit k -> has_type (under k) old -> match under k with TStruct _ _ => True | _ => False end ->
    kunpack k old r = let* (x, rest) := unpack (logix k) r in Ok (meant k old (fst x), snd x, rest)) /\
  (forall fs olds r cnt bp acc, fields_fit fs -> fields_have (under_fields fs) olds ->
    kunpack_fields fs olds r cnt bp acc =
    let* (y, rest) := unpack_fields (logix_fields fs) r cnt bp acc in Ok ((fields_meant fs olds (fst y), snd y), rest)).
Proof.
  apply kty_mut.
  - intros t v r (_ & _ & F) _ T. cbn [under] in T. destruct t; contradiction.
  - intros old r _ H _. now apply timer_meant.
  - intros old r _ H _. now apply counter_meant.
  - intros old r _ H _. now apply control_meant.
  - intros old r _ H _. cbn [kunpack]. change (under KString) with (logix KString). destruct (unpack (logix KString) r) as [[[v n] rest]| | |]; reflexivity.
  - intros n k _ old r F. contradiction.
  - intros name fs IH old r F H _. destruct old; try contradiction. cbn [kunpack logix unpack].
    rewrite IH by (exact F || exact H). destruct (unpack_fields _ r 0 0 0) as [[[v n] rest]| | |]; reflexivity.
  - intros olds r cnt bp acc _ H. destruct olds; [reflexivity|contradiction].
  - intros np k IHk fs IH olds r cnt bp acc [F1 F2] H. destruct olds as [|o olds]; [contradiction|]. destruct H as [H1 H2].
    cbn [kunpack_fields logix_fields unpack_fields tl hd]. rewrite <- (bits_logix np k F1). rewrite <- logix_align.
    destruct (bit_field np (under k)) eqn:B.
    + assert (E : under k = logix k) by (destruct k; try reflexivity; cbn [fit] in F1; try contradiction; destruct np; discriminate). rewrite <- E.
      assert (M : forall w, meant k o w = w) by (intros w; apply meant_plain; [exact F1|]; destruct (under k), np; try exact Logic.I; discriminate).
      destruct (unpack_bits _ r cnt bp acc) as [[[[[l r1] cnt1] bp1] acc1]| | |]; cbn [bind]; try reflexivity.
      rewrite IH by assumption. destruct (unpack_fields _ r1 cnt1 bp1 acc1) as [[[v n] rest]| | |]; cbn [bind fst snd fields_meant]; try reflexivity.
      now rewrite M.
    + destruct (read_some _ r) as [r1| | |]; cbn [bind]; try reflexivity.
      assert (E : match under k with TStruct _ _ => let* (y, r2) := kunpack k o r1 in Ok (y, r2) | _ => let* (v, r2) := raw_read (under k) r1 in Ok ((v, go_size (under k)), r2) end =
                  let* (x, r2) := match logix k with TStruct _ _ => let* (y, r2) := unpack (logix k) r1 in Ok (y, r2) | _ => let* (v, r2) := raw_read (logix k) r1 in Ok ((v, go_size (logix k)), r2) end in
                  Ok ((meant k o (fst x), snd x), r2)).
      { destruct k; try (rewrite (IHk o r1 F1 H1 Logic.I); cbn [under logix]; destruct (unpack _ r1) as [[[v n] rest]| | |]; reflexivity); [|contradiction].
        destruct F1 as (_ & _ & F1). cbn [under logix meant].
        destruct t; try contradiction; destruct (raw_read _ r1) as [[v rest]| | |]; reflexivity. }
      rewrite E. destruct (match logix k with TStruct _ _ => _ | _ => _ end) as [[[x n] r2]| | |]; cbn [bind fst snd]; try reflexivity.
      rewrite IH by assumption. destruct (unpack_fields _ r2 _ 0 acc) as [[[v m] rest]| | |]; reflexivity.
Qed.

(** Taking the flags apart undoes putting them together. *)
Lemma timer_back old v : has_type (under KTimer) v -> unused_flags old = unused_flags v -> meant KTimer old (in_logix KTimer v) = v.
Proof.
  intros H U. destruct (timer_value _ H) as (t & -> & _ & _). destruct t as [x1 x2 x3 x4 x5 x6 x7 x8 x9]. cbn [meant]. rewrite U.
  unfold in_logix, flagged, vtimer. cbn [tm_pre tm_acc tm_en tm_tt tm_dn tm_fs tm_ls tm_ov tm_er firstn unused_flags meant3].
  destruct x3, x4, x5; reflexivity.
Qed.
Lemma counter_back old v : has_type (under KCounter) v -> meant KCounter old (in_logix KCounter v) = v.
Proof.
  intros H. destruct (counter_value _ H) as (t & -> & _ & _). destruct t as [x1 x2 x3 x4 x5 x6 x7]. cbn [meant].
  unfold in_logix, flagged, vcounter. cbn [ct_pre ct_acc ct_cu ct_cd ct_dn ct_ov ct_un firstn meant3].
  destruct x3, x4, x5, x6, x7; reflexivity.
Qed.
Lemma control_back old v : has_type (under KControl) v -> meant KControl old (in_logix KControl v) = v.
Proof.
  intros H. destruct (control_value _ H) as (t & -> & _ & _). destruct t as [x1 x2 x3 x4 x5 x6 x7 x8 x9 x0]. cbn [meant].
  unfold in_logix, flagged, vcontrol. cbn [cl_len cl_pos cl_en cl_eu cl_dn cl_em cl_er cl_ul cl_in cl_fd firstn meant3].
  destruct x3, x4, x5, x6, x7, x8, x9, x0; reflexivity.
Qed.
Lemma meant_back :
  (forall k old v, fit k -> has_type (under k) old -> has_type (under k) v -> same_unused k old v -> meant k old (in_logix k v) = v) /\
  (forall fs olds vs, fields_fit fs -> fields_have (under_fields fs) olds -> fields_have (under_fields fs) vs -> fields_same_unused fs olds vs ->
    fields_meant fs olds (fields_in_logix fs vs) = vs).
Proof.
  apply kty_mut.
  - reflexivity.
  - intros old v _ _ H U. now apply timer_back.
  - intros old v _ _ H _. now apply counter_back.
  - intros old v _ _ H _. now apply control_back.
  - reflexivity.
  - contradiction.
  - intros name fs IH old v F Ho H U. destruct old; try contradiction. destruct v; try contradiction.
    cbn [in_logix meant]. f_equal. now apply IH.
  - intros olds vs _ _ H _. destruct vs; [destruct olds; reflexivity|contradiction].
  - intros np k IHk fs IH olds vs [F1 F2] Ho H U. destruct olds as [|o olds]; [contradiction|]. destruct vs as [|v vs]; [contradiction|].
    destruct Ho as [O1 O2], H as [H1 H2], U as [U1 U2]. cbn [fields_in_logix fields_meant]. f_equal; auto.
Qed.

(** The text is the text of what Logix has. *)
Lemma logix_struct k : match under k with TStruct _ _ => True | _ => False end <-> match logix k with TStruct _ _ => True | _ => False end.
Proof. destruct k; cbn [under logix three]; tauto. Qed.
Lemma kencode_both :
  (forall k, kencode k = type_encode (logix k) /\ match k with KArr _ k1 => kencode k1 = type_encode (logix k1) | _ => True end) /\
  (forall fs bp, kencode_fields fs bp = type_encode_fields (logix_fields fs) bp).
Proof.
  apply kty_mut; try (split; reflexivity || exact Logic.I); try reflexivity.
  - intros n k [IH _]. split; [reflexivity|exact IH].
  - intros name fs IH. split; [|exact Logic.I]. cbn [kencode logix type_encode]. now rewrite IH.
  - intros np k [IHk IHa] fs IH bp. cbn [kencode_fields logix_fields type_encode_fields].
    destruct k as [t| | | | |n k|name fs'].
    + destruct t; cbn [under logix]; rewrite ?IH; reflexivity.
    + cbn [under logix]. rewrite IH, IHk. reflexivity.
    + cbn [under logix]. rewrite IH, IHk. reflexivity.
    + cbn [under logix]. rewrite IH, IHk. reflexivity.
    + cbn [under logix]. rewrite IH, IHk. reflexivity.
    + cbn [under logix]. rewrite IH, IHa.
      destruct k as [t| | | | |m k|name fs']; cbn [under logix three]; reflexivity.
    + cbn [under logix]. rewrite IH, IHk. reflexivity.
Qed.
Lemma kencode_logix k : kencode k = type_encode (logix k).
Proof. exact (proj1 (proj1 kencode_both k)). Qed.
