(** * Unpacking bytes that show a value, whatever lies in the padding *)
From Verif Require Import GoBase PackTypes PackModel PackSpec PackProof.

Lemma bit_test x bp : (bp < 8)%nat -> negb (Z.land x (Z.shiftl 1 (Z.of_nat bp) mod 256) =? 0) = Z.testbit x (Z.of_nat bp).
Proof.
  intros H. assert (E : Z.shiftl 1 (Z.of_nat bp) mod 256 = 2 ^ Z.of_nat bp).
  { rewrite Z.shiftl_1_l. apply Z.mod_small. split; [apply Z.pow_nonneg; lia|]. change 256 with (2 ^ 8). apply Z.pow_lt_mono_r; lia. }
  rewrite E. destruct (Z.testbit x (Z.of_nat bp)) eqn:T.
  - destruct (Z.land x (2 ^ Z.of_nat bp) =? 0) eqn:Z0; [|reflexivity]. apply Z.eqb_eq in Z0.
    assert (Z.testbit (Z.land x (2 ^ Z.of_nat bp)) (Z.of_nat bp) = true) by (rewrite Z.land_spec, T, Z.pow2_bits_true; [reflexivity|lia]).
    rewrite Z0, Z.bits_0 in H0. discriminate.
  - assert (Z.land x (2 ^ Z.of_nat bp) = 0) as ->; [|reflexivity]. apply Z.bits_inj'. intros n Hn. rewrite Z.land_spec, Z.bits_0.
    destruct (Z.eq_dec n (Z.of_nat bp)) as [->|N]; [now rewrite T|]. rewrite Z.pow2_bits_false by lia. apply andb_false_r.
Qed.

(** The reader after the first [c] bits of [B]. *)
Definition at_cursor (B : bytes) (c : Z) (r : bytes) (cnt : Z) (bp : nat) (acc : Z) : Prop :=
  0 <= c /\ Z.of_nat bp = c mod 8 /\ cnt = bytes_for c /\ r = skipn (Z.to_nat cnt) B /\ ((0 < bp)%nat -> acc = nth (Z.to_nat (c / 8)) B 0).
Lemma bytes_for_val c : bytes_for c = (c + 7) / 8.
Proof. unfold bytes_for, align_up. Z.to_euclidean_division_equations; lia. Qed.
Lemma skipn_nth (B : bytes) n : (n < length B)%nat -> skipn n B = nth n B 0 :: skipn (Datatypes.S n) B.
Proof. revert n. induction B as [|b B IH]; intros [|n] H; cbn [length] in H; try lia; [reflexivity|]. cbn [skipn nth]. rewrite IH by lia. reflexivity. Qed.
Lemma bits_read l : forall B c r cnt bp acc, at_cursor B c r cnt bp acc -> c + len l <= 8 * len B ->
  (forall j, (j < length l)%nat -> bit_at B (c + Z.of_nat j) = nth j l false) ->
  exists r' cnt' bp' acc', unpack_bits (length l) r cnt bp acc = Ok (map VBool l, r', cnt', bp', acc') /\ at_cursor B (c + len l) r' cnt' bp' acc'.
Proof.
  induction l as [|x l IH]; intros B c r cnt bp acc A L H.
  - exists r, cnt, bp, acc. split; [reflexivity|]. change (len (@nil bool)) with 0. now rewrite Z.add_0_r.
  - destruct A as (C0 & Eb & Ec & Er & Ea). rewrite len_cons in L. cbn [length unpack_bits].
    assert (Bp : (bp < 8)%nat) by (pose proof (Z.mod_pos_bound c 8); lia).
    assert (Lc : c / 8 < len B) by (pose proof (len_nonneg l); Z.to_euclidean_division_equations; lia).
    assert (Hx : Z.testbit (nth (Z.to_nat (c / 8)) B 0) (Z.of_nat bp) = x).
    { specialize (H 0%nat ltac:(cbn; lia)). rewrite Z.add_0_r in H. unfold bit_at in H. rewrite <- Eb in H. exact H. }
    assert (exists r1 cnt1 bp1, (match bp with
                       | O => match r with [] => Err EEof | b :: r' => Ok ((b, cnt + 1), r') end
                       | _ => Ok ((acc, cnt), r) end) = Ok ((nth (Z.to_nat (c / 8)) B 0, cnt1), r1) /\
              bp1 = (if (8 <=? Datatypes.S bp)%nat then 0%nat else Datatypes.S bp) /\
              at_cursor B (c + 1) r1 cnt1 bp1 (nth (Z.to_nat (c / 8)) B 0)) as (r1 & cnt1 & bp1 & E1 & Eb1 & A1).
    { rewrite bytes_for_val in Ec. destruct bp as [|bp].
      - assert (Ec' : cnt = c / 8) by (Z.to_euclidean_division_equations; lia).
        rewrite Er, skipn_nth by (rewrite Ec'; unfold len in Lc; pose proof (Z.div_pos c 8); lia). rewrite Ec'.
        exists (skipn (Datatypes.S (Z.to_nat (c / 8))) B), (c / 8 + 1), 1%nat. split; [reflexivity|]. split; [reflexivity|].
        split; [lia|]. split; [Z.to_euclidean_division_equations; lia|]. split; [rewrite bytes_for_val; Z.to_euclidean_division_equations; lia|].
        split; [f_equal; pose proof (Z.div_pos c 8); lia|]. intros _. f_equal. f_equal. Z.to_euclidean_division_equations; lia.
      - rewrite Ea by lia. exists r, cnt. eexists. split; [reflexivity|]. split; [reflexivity|].
        split; [lia|]. split; [destruct (8 <=? _)%nat eqn:E8; Z.to_euclidean_division_equations; lia|].
        split; [rewrite bytes_for_val; Z.to_euclidean_division_equations; lia|]. split; [exact Er|].
        destruct (8 <=? _)%nat eqn:E8; [lia|]. intros _. f_equal. f_equal. Z.to_euclidean_division_equations; lia. }
    rewrite E1. cbn [bind fst snd]. rewrite bit_test, Hx by exact Bp. rewrite <- Eb1.
    destruct (IH B (c + 1) r1 cnt1 bp1 _ A1) as (r' & cnt' & bp' & acc' & E & A'); [lia| |].
    { intros j Hj. rewrite <- Z.add_assoc. specialize (H (Datatypes.S j) ltac:(cbn; lia)). cbn [nth] in H. rewrite <- H. f_equal. lia. }
    rewrite E. cbn [bind]. exists r', cnt', bp', acc'. split; [reflexivity|]. rewrite len_cons. replace (c + (1 + len l)) with (c + 1 + len l) by lia. exact A'.
Qed.

Lemma read_some_skip k r : (k <= length r)%nat -> read_some k r = Ok (skipn k r).
Proof. intros H. destruct k; [reflexivity|]. destruct r; [cbn in H; lia|reflexivity]. Qed.

Lemma shows_read :
  (forall t v b rest, go_type t -> simple_arrays t -> has_type t v -> match t with TStruct _ _ => True | _ => False end -> shows t v b ->
     unpack t (b ++ rest) = Ok (v, size t, rest)) /\
  (forall fs vs b rest c r cnt bp acc, go_fields fs -> fields_simple fs -> fields_have fs vs -> holds fs vs c b ->
     cursor_after fs c <= 8 * len b -> at_cursor (b ++ rest) c r cnt bp acc ->
     let n := bytes_for (cursor_after fs c) in
     unpack_fields fs r cnt bp acc = Ok ((vs, n), skipn (Z.to_nat n) (b ++ rest))).
Proof.
  apply gty_mut; try (intros; contradiction).
  - intros name fs IH v b rest G S H _ Sh. destruct v; try contradiction. cbn [shows size] in Sh. destruct Sh as [Lb Hd].
    assert (Cle : cursor_after fs 0 <= 8 * len b) by (rewrite Lb; apply bytes_for_ge).
    assert (At : at_cursor (b ++ rest) 0 (b ++ rest) 0 0 0) by (split; [lia|]; split; [reflexivity|]; split; [reflexivity|]; split; [reflexivity|lia]).
    pose proof (IH vs b rest 0 _ _ _ _ G S H Hd Cle At) as E. cbv zeta in E. cbn [unpack size]. rewrite E. cbn [bind fst snd].
    rewrite <- Lb. unfold len. rewrite Nat2Z.id, skipn_app_exact by reflexivity. reflexivity.
  - intros vs b rest c r cnt bp acc _ _ H _ _ (C0 & _ & -> & -> & _). destruct vs; [|contradiction]. reflexivity.
  - intros np t IHt fs IHf vs b rest c r cnt bp acc [Gt Gf] [St Sf] H Hd Cle At. destruct vs as [|v vr]; [contradiction|].
    cbn [fields_have] in H. destruct H as [H1 H2]. cbn [holds cursor_after] in Hd, Cle |- *.
    assert (Eas : as_bits np t = bit_field np t) by (destruct np; reflexivity). rewrite Eas in *. cbv zeta. cbn [unpack_fields].
    destruct (bit_field np t) eqn:Eb.
    + destruct Hd as [Hb Hd].
      assert (Hbt : match t with TBool => True | TArr _ TBool => True | _ => False end).
      { unfold bit_field in Eb. destruct np; [discriminate|]. cbn in Eb. destruct t; try discriminate; auto. destruct t; try discriminate; auto. }
      assert (Nb : nbits t = len (bools_of v) /\ match t with TArr n _ => n | _ => 1%nat end = length (bools_of v) /\
                   v = match t with TArr _ _ => VArr (map VBool (bools_of v)) | _ => hd (VBool false) (map VBool (bools_of v)) end).
      { clear - Hbt H1. destruct t; try contradiction.
        - destruct v; try contradiction. repeat split.
        - destruct t; try contradiction. destruct v; try contradiction. cbn [has_type] in H1. destruct H1 as [Hl H]. cbn [nbits bools_of]. unfold len. rewrite map_length, Hl. split; [reflexivity|]. split; [reflexivity|].
          f_equal. clear Hl Hbt. induction H as [|x l Hx Hl IH]; [reflexivity|]. destruct x; try contradiction. cbn [map]. f_equal. exact IH. }
      destruct Nb as (N1 & N2 & N3). rewrite N2, N1 in *.
      pose proof (proj2 size_nonneg fs (c + len (bools_of v)) Gf) as Mono.
      destruct (bits_read (bools_of v) (b ++ rest) c r cnt bp acc At) as (r1 & cnt1 & bp1 & acc1 & E & A1).
      { rewrite len_app. pose proof (len_nonneg rest). lia. }
      { intros j Hj. rewrite <- (Hb j Hj). unfold bit_at. rewrite app_nth1; [reflexivity|]. destruct At as (C0 & _). unfold len in *. pose proof (Z.div_lt_upper_bound (c + Z.of_nat j) 8 (len b)). unfold len in *. pose proof (Z.div_pos (c + Z.of_nat j) 8). lia. }
      rewrite E. cbn [bind]. rewrite <- N3.
      rewrite (IHf vr b rest _ _ _ _ _ Gf Sf H2 Hd Cle A1). reflexivity.
    + destruct Hd as [Sh Hd]. destruct At as (C0 & Ebp & -> & -> & _).
      set (o := align_up (bytes_for c) (alignment t)) in *.
      pose proof (proj2 size_nonneg fs (8 * (o + size t)) Gf) as Mono. pose proof (proj1 size_nonneg t Gt) as Sz. pose proof (proj1 alignment_pos t Gt) as Ap.
      assert (Ok1 : bytes_for c + Z.of_nat (pad_len (bytes_for c) (cip_align t)) = o) by (rewrite (proj1 (proj1 align_model t)); apply pad_spec, Ap).
      assert (Bf : 0 <= bytes_for c) by (rewrite bytes_for_val; apply Z.div_pos; lia).
      assert (Lo : o + size t <= len b) by lia.
      rewrite read_some_skip by (rewrite skipn_length, app_length; unfold len in Lo; lia). cbn [bind].
      rewrite skipn_skipn. replace (Z.to_nat (bytes_for c) + pad_len (bytes_for c) (cip_align t))%nat with (Z.to_nat o) by lia. rewrite Ok1.
      assert (Split : skipn (Z.to_nat o) (b ++ rest) = firstn (Z.to_nat (size t)) (skipn (Z.to_nat o) b) ++ skipn (Z.to_nat (o + size t)) (b ++ rest)).
      { rewrite !skipn_app. rewrite <- (firstn_skipn (Z.to_nat (size t)) (skipn (Z.to_nat o) b)) at 1. rewrite <- app_assoc. f_equal.
        rewrite skipn_skipn. f_equal; [f_equal; lia|]. unfold len in Lo.
        replace (Z.to_nat o - length b)%nat with 0%nat by lia. replace (Z.to_nat (o + size t) - length b)%nat with 0%nat by lia. reflexivity. }
      rewrite Split. set (mid := firstn (Z.to_nat (size t)) (skipn (Z.to_nat o) b)) in *. set (after := skipn (Z.to_nat (o + size t)) (b ++ rest)).
      assert (Ex : (match t with
          | TStruct _ _ => let* (y, r2) := unpack t (mid ++ after) in Ok (y, r2)
          | _ => let* (v0, r2) := raw_read t (mid ++ after) in Ok (v0, go_size t, r2)
          end) = Ok ((v, size t), after)).
      { clear IHf. destruct t;
          try (destruct (simple_plain _ v St I H1) as (P1 & P2 & P3); cbn [shows] in Sh; rewrite Sh, <- P1, raw_read_write, P2 by exact H1; reflexivity).
        rewrite (IHt v mid after Gt St H1 I Sh). reflexivity. }
      rewrite Ex. cbn [bind fst snd].
      assert (A1 : at_cursor (b ++ rest) (8 * (o + size t)) after (o + size t) 0 acc).
      { assert (E8 : bytes_for (8 * (o + size t)) = o + size t) by (rewrite bytes_for_val; Z.to_euclidean_division_equations; lia).
        split; [lia|]. split; [rewrite Z.mul_comm, Z.mod_mul by lia; reflexivity|]. split; [now rewrite E8|]. split; [reflexivity|lia]. }
      rewrite (IHf vr b rest _ _ _ _ _ Gf Sf H2 Hd Cle A1). reflexivity.
Qed.

(** ** How much is read *)
Lemma bits_taken n : forall c r cnt bp acc l r' cnt' bp' acc', 0 <= c -> Z.of_nat bp = c mod 8 -> cnt = bytes_for c ->
  unpack_bits n r cnt bp acc = Ok (l, r', cnt', bp', acc') ->
  Z.of_nat bp' = (c + Z.of_nat n) mod 8 /\ cnt' = bytes_for (c + Z.of_nat n) /\ cnt + len r = cnt' + len r' /\ length l = n /\ Forall is_vbool l.
Proof.
  induction n as [|n IH]; intros c r cnt bp acc l r' cnt' bp' acc' C0 Eb Ec E; cbn [unpack_bits] in E.
  - injection E as <- <- <- <- <-. rewrite Z.add_0_r. split; [exact Eb|]. split; [exact Ec|]. split; [reflexivity|]. split; [reflexivity|constructor].
  - assert (Bp : (bp < 8)%nat) by (pose proof (Z.mod_pos_bound c 8); lia).
    destruct (match bp with
              | O => match r with [] => Err EEof | b :: r' => Ok ((b, cnt + 1), r') end
              | _ => Ok ((acc, cnt), r) end) as [[[x cnt1] r1]| | |] eqn:E1; try discriminate. cbn [bind fst snd] in E.
    assert (St : cnt1 + len r1 = cnt + len r /\ cnt1 = bytes_for (c + 1) /\ Z.of_nat (if (8 <=? Datatypes.S bp)%nat then 0%nat else Datatypes.S bp) = (c + 1) mod 8).
    { rewrite bytes_for_val in *. destruct bp.
      - destruct r as [|b r2]; [discriminate|]. injection E1 as <- <- <-. rewrite len_cons. split; [lia|]. change (8 <=? 1)%nat with false. cbv iota. Z.to_euclidean_division_equations; lia.
      - injection E1 as <- <- <-. split; [reflexivity|]. destruct (8 <=? _)%nat eqn:E8; Z.to_euclidean_division_equations; lia. }
    destruct St as (S1 & S2 & S3).
    destruct (unpack_bits n r1 cnt1 _ x) as [[[[[l2 r2] cnt2] bp2] acc2]| | |] eqn:E2; try discriminate. cbn [bind] in E. injection E as <- <- <- <- <-.
    destruct (IH (c + 1) _ _ _ _ _ _ _ _ _ ltac:(lia) S3 S2 E2) as (A1 & A2 & A3 & A4 & A5).
    replace (c + Z.of_nat (Datatypes.S n)) with (c + 1 + Z.of_nat n) by lia. split; [exact A1|]. split; [exact A2|]. split; [lia|]. split; [cbn [length]; lia|]. constructor; [now eexists|exact A5].
Qed.
Lemma raw_sizes :
  (forall t, simple_arrays t -> match t with TStruct _ _ => False | _ => True end -> go_size t = size t /\ Z.of_nat (raw_size t) = size t).
Proof.
  assert (N : forall t, numeric t -> go_size t = size t /\ Z.of_nat (raw_size t) = size t).
  { induction t; cbn [numeric]; intros H; try contradiction; cbn [go_size size raw_size]; try (split; reflexivity). destruct (IHt H) as [-> <-]. split; [reflexivity|lia]. }
  intros t S M. destruct t; try contradiction; try (apply N; exact I); [split; reflexivity|].
  destruct t; try (apply N; exact S). cbn [go_size size raw_size]. split; [reflexivity|lia].
Qed.
Lemma unpack_taken :
  (forall t r v n rest, go_type t -> simple_arrays t -> solid t -> unpack t r = Ok (v, n, rest) -> n = size t /\ len r = size t + len rest) /\
  (forall fs c r cnt bp acc vs n rest, go_fields fs -> fields_simple fs -> solid_fields fs -> 0 <= c -> Z.of_nat bp = c mod 8 -> cnt = bytes_for c ->
     unpack_fields fs r cnt bp acc = Ok ((vs, n), rest) -> n = bytes_for (cursor_after fs c) /\ cnt + len r = n + len rest).
Proof.
  apply gty_mut; try (intros; discriminate).
  - intros name fs IH r v n rest G S So E. cbn [unpack] in E. destruct (unpack_fields fs r 0 0 0) as [[[vs n'] rest']| | |] eqn:E1; try discriminate.
    cbn [bind fst snd] in E. injection E as <- <- <-. destruct (IH 0 r 0 0%nat 0 vs n' rest' G S So ltac:(lia) eq_refl eq_refl E1) as [-> L]. cbn [size]. lia.
  - intros c r cnt bp acc vs n rest _ _ _ C0 Eb Ec E. cbn [unpack_fields cursor_after] in *. injection E as <- <- <-. lia.
  - intros np t IHt fs IHf c r cnt bp acc vs n rest [Gt Gf] [St Sf] (Nz & Sot & Sof) C0 Eb Ec E. cbn [cursor_after unpack_fields] in *.
    assert (Eas : as_bits np t = bit_field np t) by (destruct np; reflexivity). rewrite Eas in *.
    destruct (bit_field np t) eqn:Eb0.
    + destruct (unpack_bits _ r cnt bp acc) as [[[[[l r1] cnt1] bp1] acc1]| | |] eqn:E1; try discriminate. cbn [bind] in E.
      destruct (bits_taken _ c _ _ _ _ _ _ _ _ _ C0 Eb Ec E1) as (A1 & A2 & A3 & _).
      assert (Nb : Z.of_nat match t with TArr n _ => n | _ => 1%nat end = nbits t) by (destruct t; reflexivity). rewrite Nb in *.
      destruct (unpack_fields fs r1 cnt1 bp1 acc1) as [[[vs2 n2] rest2]| | |] eqn:E2; try discriminate. cbn [bind fst snd] in E. injection E as <- <- <-.
      assert (0 <= nbits t) by (rewrite <- Nb; lia).
      destruct (IHf (c + nbits t) _ _ _ _ _ _ _ Gf Sf Sof ltac:(lia) A1 A2 E2) as [-> L]. lia.
    + destruct Nz as [Nz|Nz]; [discriminate|].
      set (k := pad_len cnt (cip_align t)) in *. destruct (read_some k r) as [r1| | |] eqn:Er; try discriminate. cbn [bind] in E.
      assert (Ok1 : cnt + Z.of_nat k = align_up (bytes_for c) (alignment t)).
      { unfold k. rewrite (proj1 (proj1 align_model t)), Ec. apply pad_spec, (proj1 alignment_pos), Gt. }
      destruct (match t with
          | TStruct _ _ => let* (y, r2) := unpack t r1 in Ok (y, r2)
          | _ => let* (v0, r2) := raw_read t r1 in Ok (v0, go_size t, r2)
          end) as [[[v s] r2]| | |] eqn:Ev; try discriminate. cbn [bind fst snd] in E.
      assert (Hv : s = size t /\ len r1 = size t + len r2).
      { clear IHf E. destruct t;
          try (destruct (raw_sizes _ St I) as [G1 G2]; unfold raw_read in Ev;
               match type of Ev with context [rd ?w ?x] => destruct (rd w x) as [[d r3]| | |] eqn:Erd end; try discriminate; cbn [bind] in Ev;
               apply rd_ok_inv in Erd; destruct Erd as (-> & Ld); injection Ev as <- <- <-; rewrite len_app; unfold len at 1; rewrite Ld, G2; split; [exact G1|reflexivity]).
        destruct (unpack (TStruct name fs0) r1) as [[[v0 n0] rest0]| | |] eqn:Eu; try discriminate. cbn [bind] in Ev. injection Ev as <- <- <-.
        exact (IHt _ _ _ _ Gt St Sot Eu). }
      destruct Hv as [-> L1].
      assert (Lr : len r = Z.of_nat k + len r1).
      { pose proof (len_nonneg r2). destruct k as [|k]; [cbn in Er; injection Er as <-; lia|]. destruct r as [|x r]; [discriminate|]. cbn [read_some] in Er. injection Er as <-.
        change (skipn (Datatypes.S k) (x :: r)) with (skipn k r) in *. destruct (Nat.le_gt_cases k (length r)) as [Hk|Hk].
        - unfold len. rewrite skipn_length. cbn [length]. lia.
        - rewrite skipn_all2 in L1 by lia. change (len []) with 0 in L1. lia. }
      destruct (unpack_fields fs r2 _ 0 acc) as [[[vs2 n2] rest2]| | |] eqn:E2; try discriminate. cbn [bind fst snd] in E. injection E as <- <- <-.
      rewrite Ok1 in E2. set (o := align_up (bytes_for c) (alignment t)) in *.
      pose proof (proj1 alignment_pos t Gt) as Ap. assert (0 <= bytes_for c) by (rewrite bytes_for_val; apply Z.div_pos; lia). pose proof (align_up_ge (bytes_for c) _ Ap) as [O1 _]. fold o in O1.
      assert (E8 : bytes_for (8 * (o + size t)) = o + size t) by (rewrite bytes_for_val; Z.to_euclidean_division_equations; lia).
      destruct (IHf (8 * (o + size t)) r2 (o + size t) 0%nat acc vs2 n2 rest2 Gf Sf Sof ltac:(lia) ltac:(rewrite Z.mul_comm, Z.mod_mul by lia; reflexivity) ltac:(now rewrite E8) E2) as [-> L2]. lia.
Qed.

(** ** What is read has the type *)
Lemma decode_typed :
  (forall t r, go_type t -> bytes_ok r -> (raw_size t <= length r)%nat ->
     has_type t (fst (raw_decode t r)) /\ snd (raw_decode t r) = skipn (raw_size t) r) /\
  (forall fs r, go_fields fs -> bytes_ok r -> (raw_fields_size fs <= length r)%nat ->
     fields_have fs (fst (raw_decode_fields fs r)) /\ snd (raw_decode_fields fs r) = skipn (raw_fields_size fs) r).
Proof.
  assert (Fb : forall n (r : bytes), bytes_ok r -> bytes_ok (firstn n r)) by (intros n r H; now apply Forall_firstn).
  assert (Sb : forall n (r : bytes), bytes_ok r -> bytes_ok (skipn n r)).
  { intros n r H. rewrite <- (firstn_skipn n r) in H. now apply bytes_ok_app in H. }
  apply gty_mut.
  - intros r _ _ _. cbn. auto.
  - intros s w r G B L. cbn [raw_decode fst snd has_type raw_size go_type] in *. split; [|reflexivity].
    pose proof (unle_bound _ (Fb w r B)) as U. unfold len in U. rewrite firstn_length_le in U by exact L. rewrite <- pow256 in U.
    destruct s; (split; [exact G|]); [|exact U].
    unfold sgn. set (N := 8 * Z.of_nat w) in *. assert (0 < N) by (cbn [In] in G; unfold N; lia).
    assert (E2 : 2 ^ N = 2 * 2 ^ (N - 1)) by (rewrite <- Z.pow_succ_r by lia; f_equal; lia).
    rewrite Z.mod_small by exact U. destruct (_ <? _) eqn:E; lia.
  - intros w r G B L. cbn [raw_decode fst snd has_type raw_size go_type] in *. split; [|reflexivity].
    pose proof (unle_bound _ (Fb w r B)) as U. unfold len in U. rewrite firstn_length_le in U by exact L. rewrite <- pow256 in U. split; [exact G|exact U].
  - intros n t IH r G B L. cbn [raw_decode raw_size go_type has_type] in *.
    assert (D : length (fst (decode_n (raw_decode t) n r)) = n /\ Forall (has_type t) (fst (decode_n (raw_decode t) n r)) /\
                snd (decode_n (raw_decode t) n r) = skipn (n * raw_size t) r).
    { revert r B L. induction n as [|n IHn]; intros r B L; [cbn; auto|]. cbn [decode_n Nat.mul] in *.
      destruct (IH r G B ltac:(lia)) as [A1 A2]. destruct (raw_decode t r) as [v r1]. cbn [fst snd] in A1, A2. subst r1.
      destruct (IHn (skipn (raw_size t) r) (Sb _ _ B) ltac:(rewrite skipn_length; lia)) as (B1 & B2 & B3).
      destruct (decode_n (raw_decode t) n (skipn (raw_size t) r)) as [vs r2]. cbn [fst snd] in *. split; [cbn; lia|]. split; [constructor; assumption|]. rewrite B3. apply skipn_skipn. }
    destruct (decode_n (raw_decode t) n r) as [vs r1]. cbn [fst snd] in *. cbn [has_type]. tauto.
  - intros name fs IH r G B L. cbn [raw_decode raw_size go_type] in *. destruct (IH r G B L) as [A1 A2].
    destruct (raw_decode_fields fs r) as [vs r1]. cbn [fst snd has_type] in *. auto.
  - intros r _ _ _. cbn. auto.
  - intros np t IHt fs IHf r [Gt Gf] B L. cbn [raw_decode_fields raw_fields_size] in *.
    destruct (IHt r Gt B ltac:(lia)) as [A1 A2]. destruct (raw_decode t r) as [v r1]. cbn [fst snd] in A1, A2. subst r1.
    destruct (IHf (skipn (raw_size t) r) Gf (Sb _ _ B) ltac:(rewrite skipn_length; lia)) as [B1 B2].
    destruct (raw_decode_fields fs (skipn (raw_size t) r)) as [vs r2]. cbn [fst snd fields_have] in *. split; [auto|]. rewrite B2. apply skipn_skipn.
Qed.
Lemma raw_read_typed t r v r2 : go_type t -> bytes_ok r -> raw_read t r = Ok (v, r2) -> has_type t v /\ bytes_ok r2.
Proof.
  intros G B E. unfold raw_read in E. destruct (rd (raw_size t) r) as [[d r3]| | |] eqn:Er; try discriminate. cbn [bind] in E. injection E as <- <-.
  apply rd_ok_inv in Er as [-> L]. apply bytes_ok_app in B as [B1 B2]. split; [|exact B2]. apply (proj1 decode_typed); [exact G|exact B1|lia].
Qed.
Lemma read_some_ok k r r1 : bytes_ok r -> read_some k r = Ok r1 -> bytes_ok r1.
Proof.
  intros B E. destruct k; [cbn in E; injection E as <-; exact B|]. destruct r as [|x r]; [discriminate|]. cbn [read_some] in E. injection E as <-.
  rewrite <- (firstn_skipn (Datatypes.S k) (x :: r)) in B. now apply bytes_ok_app in B.
Qed.
Lemma bits_ok n : forall r cnt bp acc l r' cnt' bp' acc', bytes_ok r -> unpack_bits n r cnt bp acc = Ok (l, r', cnt', bp', acc') ->
  bytes_ok r' /\ length l = n /\ Forall is_vbool l.
Proof.
  induction n as [|n IH]; intros r cnt bp acc l r' cnt' bp' acc' B E; cbn [unpack_bits] in E.
  - injection E as <- <- <- <- <-. split; [exact B|]. split; [reflexivity|constructor].
  - destruct (match bp with
              | O => match r with [] => Err EEof | b :: r' => Ok ((b, cnt + 1), r') end
              | _ => Ok ((acc, cnt), r) end) as [[[x cnt1] r1]| | |] eqn:E1; try discriminate. cbn [bind fst snd] in E.
    assert (B1 : bytes_ok r1).
    { destruct bp; [|injection E1 as <- <- <-; exact B]. destruct r as [|b r2]; [discriminate|]. injection E1 as <- <- <-. now inversion B. }
    destruct (unpack_bits n r1 cnt1 _ x) as [[[[[l2 r2] cnt2] bp2] acc2]| | |] eqn:E2; try discriminate. cbn [bind] in E. injection E as <- <- <- <- <-.
    destruct (IH _ _ _ _ _ _ _ _ _ B1 E2) as (A1 & A2 & A3). split; [exact A1|]. split; [cbn [length]; lia|]. constructor; [now eexists|exact A3].
Qed.
Lemma bits_typed t l : match t with TBool => True | TArr _ TBool => True | _ => False end ->
  length l = match t with TArr n _ => n | _ => 1%nat end -> Forall is_vbool l ->
  has_type t match t with TArr _ _ => VArr l | _ => hd (VBool false) l end.
Proof.
  intros H L F. destruct t; try contradiction.
  - destruct F as [|x l [b ->] _]; exact I.
  - destruct t; try contradiction. cbn [has_type]. split; [exact L|]. eapply Forall_impl; [|exact F]. intros x [b ->]. exact I.
Qed.
Lemma unpack_typed :
  (forall t r v n rest, go_type t -> bytes_ok r -> unpack t r = Ok (v, n, rest) -> has_type t v /\ bytes_ok rest) /\
  (forall fs r cnt bp acc vs n rest, go_fields fs -> bytes_ok r -> unpack_fields fs r cnt bp acc = Ok ((vs, n), rest) -> fields_have fs vs /\ bytes_ok rest).
Proof.
  apply gty_mut; try (intros; discriminate).
  - intros name fs IH r v n rest G B E. cbn [unpack] in E. destruct (unpack_fields fs r 0 0 0) as [[[vs n'] rest']| | |] eqn:E1; try discriminate.
    cbn [bind fst snd] in E. injection E as <- <- <-. exact (IH _ _ _ _ _ _ _ G B E1).
  - intros r cnt bp acc vs n rest _ B E. cbn [unpack_fields] in E. injection E as <- <- <-. split; [exact I|exact B].
  - intros np t IHt fs IHf r cnt bp acc vs n rest [Gt Gf] B E. cbn [unpack_fields] in E. destruct (bit_field np t) eqn:Eb0.
    + destruct (unpack_bits _ r cnt bp acc) as [[[[[l r1] cnt1] bp1] acc1]| | |] eqn:E1; try discriminate. cbn [bind] in E.
      destruct (bits_ok _ _ _ _ _ _ _ _ _ _ B E1) as (A1 & A2 & A3).
      destruct (unpack_fields fs r1 cnt1 bp1 acc1) as [[[vs2 n2] rest2]| | |] eqn:E2; try discriminate. cbn [bind fst snd] in E. injection E as <- <- <-.
      destruct (IHf _ _ _ _ _ _ _ Gf A1 E2) as [F1 F2]. split; [|exact F2]. split; [|exact F1]. apply bits_typed; [|exact A2|exact A3].
      unfold bit_field in Eb0. destruct np; [discriminate|]. cbn in Eb0. destruct t; try discriminate; auto. destruct t; try discriminate; auto.
    + destruct (read_some _ r) as [r1| | |] eqn:Er; try discriminate. cbn [bind] in E. pose proof (read_some_ok _ _ _ B Er) as B1.
      destruct (match t with
          | TStruct _ _ => let* (y, r2) := unpack t r1 in Ok (y, r2)
          | _ => let* (v0, r2) := raw_read t r1 in Ok (v0, go_size t, r2)
          end) as [[[v s] r2]| | |] eqn:Ev; try discriminate. cbn [bind fst snd] in E.
      assert (Hv : has_type t v /\ bytes_ok r2).
      { clear IHf E. destruct t;
          try (match type of Ev with context [raw_read ?w ?x] => destruct (raw_read w x) as [[d r3]| | |] eqn:Erd end; try discriminate; cbn [bind] in Ev;
               injection Ev as <- <- <-; exact (raw_read_typed _ _ _ _ Gt B1 Erd)).
        destruct (unpack (TStruct name fs0) r1) as [[[v0 n0] rest0]| | |] eqn:Eu; try discriminate. cbn [bind] in Ev. injection Ev as <- <- <-.
        exact (IHt _ _ _ _ Gt B1 Eu). }
      destruct Hv as [Hv B2].
      destruct (unpack_fields fs r2 _ 0 acc) as [[[vs2 n2] rest2]| | |] eqn:E2; try discriminate. cbn [bind fst snd] in E. injection E as <- <- <-.
      destruct (IHf _ _ _ _ _ _ _ Gf B2 E2) as [F1 F2]. split; [split; assumption|exact F2].
Qed.
(** Unpacking into a struct succeeds or fails; it does nothing else. *)
Lemma bits_safe n : forall r cnt bp acc, (exists x, unpack_bits n r cnt bp acc = Ok x) \/ (exists e, unpack_bits n r cnt bp acc = Err e).
Proof.
  induction n as [|n IH]; intros r cnt bp acc; cbn [unpack_bits]; [left; now eexists|].
  destruct bp; [destruct r as [|b r]; [right; now eexists|]|]; cbn [bind fst snd];
    (match goal with |- context [unpack_bits n ?a ?b ?c ?d] => destruct (IH a b c d) as [[[[[[l r1] c1] b1] a1] ->]|[e ->]] end; [left; cbn [bind]; now eexists|right; now eexists]).
Qed.
Lemma unpack_safe :
  (forall t r, match t with TStruct _ _ => True | _ => False end -> (exists x, unpack t r = Ok x) \/ (exists e, unpack t r = Err e)) /\
  (forall fs r cnt bp acc, (exists x, unpack_fields fs r cnt bp acc = Ok x) \/ (exists e, unpack_fields fs r cnt bp acc = Err e)).
Proof.
  apply gty_mut; try (intros; contradiction).
  - intros name fs IH r _. cbn [unpack]. destruct (IH r 0 0%nat 0) as [[[[vs n] rest] ->]|[e ->]]; [left|right]; cbn [bind]; now eexists.
  - intros. left. cbn [unpack_fields]. now eexists.
  - intros np t IHt fs IHf r cnt bp acc. cbn [unpack_fields]. destruct (bit_field np t).
    + destruct (bits_safe match t with TArr n _ => n | _ => 1%nat end r cnt bp acc) as [[[[[[l r1] c1] b1] a1] ->]|[e ->]]; [|right; now eexists]. cbn [bind].
      destruct (IHf r1 c1 b1 a1) as [[[[vs n] rest] ->]|[e ->]]; [left|right]; cbn [bind]; now eexists.
    + assert (R : (exists r1, read_some (pad_len cnt (cip_align t)) r = Ok r1) \/ (exists e, read_some (pad_len cnt (cip_align t)) r = Err e)).
      { destruct (pad_len _ _); [left; now eexists|]. destruct r; [right|left]; now eexists. }
      destruct R as [[r1 ->]|[e ->]]; [|right; now eexists]. cbn [bind].
      assert (V : (exists x, (match t with
          | TStruct _ _ => let* (y, r2) := unpack t r1 in Ok (y, r2)
          | _ => let* (v0, r2) := raw_read t r1 in Ok (v0, go_size t, r2)
          end) = Ok x) \/ (exists e, (match t with
          | TStruct _ _ => let* (y, r2) := unpack t r1 in Ok (y, r2)
          | _ => let* (v0, r2) := raw_read t r1 in Ok (v0, go_size t, r2)
          end) = Err e)).
      { clear IHf. destruct t;
          try (unfold raw_read; match goal with |- context [rd ?w ?x] => destruct (rd w x) as [[d r3]| | |] eqn:Erd end;
               [left; cbn [bind]; now eexists|right; cbn [bind]; now eexists|destruct (rd_no_panic _ _ Erd)|destruct (rd_no_fuel _ _ Erd)]).
        destruct (IHt r1 I) as [[[[v0 n0] rest0] ->]|[e ->]]; [left|right]; cbn [bind]; now eexists. }
      destruct V as [[[[v s] r2] ->]|[e ->]]; [|right; now eexists]. cbn [bind fst snd].
      destruct (IHf r2 (cnt + Z.of_nat (pad_len cnt (cip_align t)) + s) 0%nat acc) as [[[[vs n] rest] ->]|[e ->]]; [left|right]; cbn [bind]; now eexists.
Qed.
