(** * Structures of whole words *)
From Verif Require Import GoBase PackTypes PackModel PackSpec PackProof PackRead UdtSpec.

Lemma align_up_id x a : 0 < a -> x mod a = 0 -> align_up x a = x.
Proof. intros A H. unfold align_up. rewrite Z.mod_opp_l_z by lia. lia. Qed.
Lemma udt_same :
  (forall t, go_type t -> whole t -> udt_align t = alignment t /\ udt_size t = size t) /\
  (forall fs, go_fields fs -> members_whole fs -> udt_fields_align fs = fields_alignment fs /\ forall c, udt_cursor fs c = cursor_after fs c).
Proof.
  apply gty_mut; try (intros; split; reflexivity).
  - intros n t IH G W. cbn [go_type whole] in G, W. destruct (IH G W) as [A S]. cbn [udt_align udt_size alignment size]. rewrite A, S. split; reflexivity.
  - intros name fs IH G (W4 & Wm & W). cbn [go_type] in G. destruct (IH G W) as [A C]. cbn [udt_align udt_size alignment size]. rewrite A, C.
    rewrite Z.max_r by exact W4. split; [reflexivity|]. apply align_up_id; [lia|exact Wm].
  - intros np t IHt fs IH [G1 G2] [W1 W2]. destruct (IHt G1 W1) as [A S]. destruct (IH G2 W2) as [A2 C2].
    cbn [udt_fields_align fields_alignment]. rewrite A, A2. split; [reflexivity|]. intros c. cbn [udt_cursor cursor_after]. rewrite A, S. apply C2.
Qed.
Lemma udt_shows_same :
  (forall t, go_type t -> whole t -> forall v b, udt_shows t v b <-> shows t v b) /\
  (forall fs, go_fields fs -> members_whole fs -> forall vs c b, udt_holds fs vs c b <-> holds fs vs c b).
Proof.
  apply gty_mut; try (intros; cbn [udt_shows shows udt_holds holds]; reflexivity).
  - intros name fs IH G W v b. destruct v; try reflexivity. cbn [udt_shows shows].
    rewrite (proj2 (proj1 udt_same (TStruct name fs) G W)). destruct W as (_ & _ & W). cbn [go_type] in G. rewrite (IH G W). reflexivity.
  - intros np t IHt fs IH [G1 G2] [W1 W2] vs c b. destruct vs as [|v vr]; [reflexivity|]. cbn [udt_holds holds].
    destruct (proj1 udt_same t G1 W1) as [A S]. rewrite A, S. cbv zeta.
    destruct (as_bits np t); [|rewrite (IHt G1 W1 v _)]; rewrite IH by assumption; reflexivity.
Qed.

(** What lies after the last member does not matter. *)
Lemma firstn_skipn_firstn (b : bytes) n o k : (o + n <= k)%nat -> firstn n (skipn o (firstn k b)) = firstn n (skipn o b).
Proof. intros H. rewrite skipn_firstn_comm, firstn_firstn. f_equal. lia. Qed.
Lemma nth_firstn_lt (b : bytes) i k : (i < k)%nat -> nth i (firstn k b) 0 = nth i b 0.
Proof. revert i k. induction b as [|x b IH]; intros i k H; destruct k; try lia; [reflexivity|]. destruct i; [reflexivity|]. cbn [firstn nth]. apply IH. lia. Qed.
Lemma bools_len t v : as_bits false t = true -> has_type t v -> Z.of_nat (length (bools_of v)) = nbits t.
Proof.
  destruct t as [| | |n e|]; try discriminate; destruct v; try contradiction; cbn.
  - reflexivity.
  - intros _ [L _]. rewrite map_length. lia.
Qed.
Lemma as_bits_false np t : as_bits np t = true -> as_bits false t = true.
Proof. destruct np; [discriminate|auto]. Qed.
Lemma nbits_nonneg t : 0 <= nbits t.
Proof. destruct t; cbn; lia. Qed.
Lemma holds_prefix fs : go_fields fs -> forall vs c b b', fields_have fs vs -> 0 <= c -> bytes_for (cursor_after fs c) <= len b -> len b <= len b' ->
  (forall k, (k <= length b)%nat -> firstn k b = firstn k b') -> holds fs vs c b <-> holds fs vs c b'.
Proof.
  induction fs as [|np t fs IH]; intros G vs c b b' H C L L' E; [reflexivity|]. destruct vs as [|v vr]; [reflexivity|].
  destruct G as [G1 G2], H as [H1 H2]. cbn [holds cursor_after] in *.
  assert (EB : b = firstn (length b) b') by (rewrite <- (E (length b)) by lia; now rewrite firstn_all).
  destruct (as_bits np t) eqn:AB.
  - pose proof (bools_len t v (as_bits_false _ _ AB) H1) as BL. pose proof (proj2 size_nonneg fs (c + nbits t) G2) as SN. pose proof (nbits_nonneg t).
    rewrite (IH G2 vr (c + nbits t) b b' H2 ltac:(lia) L L' E).
    apply and_iff_compat_r. split; intros Q j Hj; rewrite <- (Q j Hj); unfold bit_at; f_equal; rewrite bytes_for_val in L;
      rewrite EB at 1; [symmetry|]; rewrite nth_firstn_lt; try reflexivity; unfold len in L; Z.to_euclidean_division_equations; lia.
  - cbv zeta. pose proof (proj1 size_nonneg t G1) as S0. pose proof (proj1 alignment_pos t G1) as A0.
    assert (0 <= bytes_for c) by (rewrite bytes_for_val; apply Z.div_pos; lia).
    destruct (align_up_ge (bytes_for c) (alignment t) A0) as [AG _]. set (o := align_up (bytes_for c) (alignment t)) in *.
    pose proof (proj2 size_nonneg fs (8 * (o + size t)) G2) as SN.
    rewrite (IH G2 vr (8 * (o + size t)) b b' H2 ltac:(lia) L L' E).
    assert (o + size t <= len b) by (rewrite bytes_for_val in L; Z.to_euclidean_division_equations; lia).
    rewrite EB at 1. rewrite firstn_skipn_firstn by (unfold len in *; lia). reflexivity.
Qed.
