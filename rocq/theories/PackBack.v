(** * What Unpack has read is what the bytes show *)
From Verif Require Import GoBase PackTypes PackModel PackSpec PackProof PackRead.

Lemma bits_back n : forall B c r cnt bp acc l r' cnt' bp' acc', at_cursor B c r cnt bp acc -> c <= 8 * len B ->
  unpack_bits n r cnt bp acc = Ok (l, r', cnt', bp', acc') ->
  at_cursor B (c + Z.of_nat n) r' cnt' bp' acc' /\ c + Z.of_nat n <= 8 * len B /\ length l = n /\
  forall j, (j < n)%nat -> nth j l (VBool false) = VBool (bit_at B (c + Z.of_nat j)).
Proof.
  induction n as [|n IH]; intros B c r cnt bp acc l r' cnt' bp' acc' A L E; cbn [unpack_bits] in E.
  - injection E as <- <- <- <- <-. rewrite Z.add_0_r. split; [exact A|]. split; [exact L|]. split; [reflexivity|lia].
  - destruct (match bp with
              | O => match r with [] => Err EEof | b :: r' => Ok ((b, cnt + 1), r') end
              | _ => Ok ((acc, cnt), r) end) as [[[x cnt1] r1]| | |] eqn:E1; try discriminate. cbn [bind fst snd] in E.
    destruct A as (C0 & Eb & Ec & Er & Ea).
    assert (Bp : (bp < 8)%nat) by (pose proof (Z.mod_pos_bound c 8); lia).
    assert (St : x = nth (Z.to_nat (c / 8)) B 0 /\ c + 1 <= 8 * len B /\
      at_cursor B (c + 1) r1 cnt1 (if (8 <=? Datatypes.S bp)%nat then 0%nat else Datatypes.S bp) x).
    { rewrite bytes_for_val in Ec. destruct bp as [|bp].
      - destruct r as [|b r2]; [discriminate|]. injection E1 as <- <- <-.
        assert (Ec' : cnt = c / 8) by (Z.to_euclidean_division_equations; lia).
        assert (Lt : (Z.to_nat cnt < length B)%nat).
        { destruct (Nat.lt_ge_cases (Z.to_nat cnt) (length B)) as [H|H]; [exact H|]. rewrite skipn_all2 in Er by exact H. discriminate. }
        rewrite skipn_nth in Er by exact Lt. assert (Hb : b = nth (Z.to_nat cnt) B 0) by congruence.
        assert (Hr : r2 = skipn (Datatypes.S (Z.to_nat cnt)) B) by congruence. subst b r2. rewrite Ec'. split; [reflexivity|].
        split; [unfold len; pose proof (Z.div_pos c 8); Z.to_euclidean_division_equations; lia|].
        change (8 <=? 1)%nat with false. cbv iota.
        split; [lia|]. split; [Z.to_euclidean_division_equations; lia|]. split; [rewrite bytes_for_val; Z.to_euclidean_division_equations; lia|].
        split; [f_equal; pose proof (Z.div_pos c 8); lia|]. intros _. f_equal. f_equal. Z.to_euclidean_division_equations; lia.
      - injection E1 as <- <- <-. rewrite Ea by lia. split; [reflexivity|]. split; [Z.to_euclidean_division_equations; lia|].
        split; [lia|]. split; [destruct (8 <=? _)%nat eqn:E8; Z.to_euclidean_division_equations; lia|].
        split; [rewrite bytes_for_val; Z.to_euclidean_division_equations; lia|]. split; [exact Er|].
        destruct (8 <=? _)%nat eqn:E8; [lia|]. intros _. f_equal. f_equal. Z.to_euclidean_division_equations; lia. }
    destruct St as (Ex & L1 & A1).
    destruct (unpack_bits n r1 cnt1 _ x) as [[[[[l2 r2] cnt2] bp2] acc2]| | |] eqn:E2; try discriminate. cbn [bind] in E. injection E as <- <- <- <- <-.
    destruct (IH _ _ _ _ _ _ _ _ _ _ _ A1 L1 E2) as (A2 & L2 & Ln & N).
    replace (c + Z.of_nat (Datatypes.S n)) with (c + 1 + Z.of_nat n) by lia.
    split; [exact A2|]. split; [exact L2|]. split; [cbn [length]; lia|]. intros [|j] Hj.
    + cbn [nth]. rewrite Z.add_0_r, bit_test by exact Bp. unfold bit_at. rewrite Ex, Eb. reflexivity.
    + cbn [nth]. rewrite N by lia. do 2 f_equal. lia.
Qed.

(** Numbers are the bytes they were decoded from. *)
Lemma le_sgn w u : le w (sgn (8 * Z.of_nat w) u) = le w u.
Proof.
  rewrite <- (le_mod w (sgn _ u)), <- (le_mod w u). f_equal. rewrite <- pow256. unfold sgn.
  destruct (_ <? _); [apply Z.mod_mod; apply Z.pow_nonzero; lia|].
  rewrite <- (Z.mod_mod u (2 ^ (8 * Z.of_nat w))) at 2 by (apply Z.pow_nonzero; lia).
  rewrite <- (Z_mod_plus_full (u mod _ - _) 1). f_equal. lia.
Qed.
Lemma raw_back t : numeric t -> forall r, bytes_ok r -> (raw_size t <= length r)%nat ->
  plain_bytes t (fst (raw_decode t r)) = firstn (raw_size t) r /\ snd (raw_decode t r) = skipn (raw_size t) r.
Proof.
  induction t as [|s w|w|n t IH|]; intros N r B L; try contradiction; cbn [raw_decode raw_size fst snd plain_bytes] in *.
  - split; [|reflexivity]. assert (Bf : bytes_ok (firstn w r)) by now apply Forall_firstn.
    assert (Lf : length (firstn w r) = w) by now apply firstn_length_le.
    pose proof (le_unle _ Bf) as E. rewrite Lf in E. destruct s; [rewrite le_sgn|]; exact E.
  - split; [|reflexivity]. assert (Bf : bytes_ok (firstn w r)) by now apply Forall_firstn.
    assert (Lf : length (firstn w r) = w) by now apply firstn_length_le.
    pose proof (le_unle _ Bf) as E. rewrite Lf in E. exact E.
  - assert (D : concat (map (plain_bytes t) (fst (decode_n (raw_decode t) n r))) = firstn (n * raw_size t) r /\
                snd (decode_n (raw_decode t) n r) = skipn (n * raw_size t) r).
    { revert r B L. induction n as [|n IHn]; intros r B L; [split; reflexivity|]. cbn [decode_n Nat.mul] in *.
      destruct (IH N r B ltac:(lia)) as [A1 A2]. destruct (raw_decode t r) as [v r1]. cbn [fst snd] in A1, A2. subst r1.
      assert (Bs : bytes_ok (skipn (raw_size t) r)) by (rewrite <- (firstn_skipn (raw_size t) r) in B; now apply bytes_ok_app in B).
      destruct (IHn N (skipn (raw_size t) r) Bs ltac:(rewrite skipn_length; lia)) as [B1 B2].
      destruct (decode_n (raw_decode t) n (skipn (raw_size t) r)) as [vs r2]. cbn [fst snd map concat] in *.
      split; [rewrite A1, B1|rewrite B2; apply skipn_skipn].
      rewrite <- (firstn_skipn (raw_size t) (firstn (raw_size t + n * raw_size t) r)), firstn_firstn.
      rewrite (Nat.min_l (raw_size t) (raw_size t + _)) by lia. f_equal. rewrite firstn_skipn_comm. reflexivity. }
    destruct (decode_n (raw_decode t) n r) as [vs r1]. cbn [fst snd] in *. exact D.
Qed.

(** Whatever follows the part a struct takes up does not matter. *)
Lemma holds_prefix :
  (forall t : gty, True) /\
  (forall fs vs c b rest, go_fields fs -> fields_have fs vs -> 0 <= c -> cursor_after fs c <= 8 * len b -> holds fs vs c (b ++ rest) -> holds fs vs c b).
Proof.
  split; [auto|]. induction fs as [|np t r IH]; intros vs c b rest G Hv C0 L H; [exact I|]. destruct vs as [|v vs]; [exact I|].
  destruct G as [Gt Gr]. destruct Hv as [Hv Hr]. cbn [holds cursor_after] in *. destruct (as_bits np t) eqn:Eb.
  - destruct H as [Hb Hd]. pose proof (proj2 size_nonneg r (c + nbits t) Gr) as Mono.
    assert (0 <= nbits t) by (unfold nbits; destruct t; lia).
    assert (Nb : Z.of_nat (length (bools_of v)) = nbits t).
    { unfold as_bits in Eb. destruct np; [discriminate|]. destruct t; try discriminate; [destruct v; try contradiction; reflexivity|].
      destruct t; try discriminate. destruct v; try contradiction. cbn [has_type] in Hv. cbn [bools_of nbits]. rewrite map_length. now destruct Hv as [-> _]. }
    split; [|apply (IH vs _ b rest); auto; lia]. intros j Hj. rewrite <- (Hb j Hj). unfold bit_at. rewrite app_nth1; [reflexivity|].
    unfold len in *. pose proof (Z.div_lt_upper_bound (c + Z.of_nat j) 8 (Z.of_nat (length b))). pose proof (Z.div_pos (c + Z.of_nat j) 8). lia.
  - cbv zeta in *. destruct H as [Hs Hd]. set (o := align_up (bytes_for c) (alignment t)) in *.
    pose proof (proj2 size_nonneg r (8 * (o + size t)) Gr) as Mono. pose proof (proj1 size_nonneg t Gt) as Sz.
    assert (Bf : 0 <= bytes_for c) by (rewrite bytes_for_val; apply Z.div_pos; lia).
    pose proof (align_up_ge (bytes_for c) _ (proj1 alignment_pos t Gt)) as [Og _]. fold o in Og.
    split; [|apply (IH vs _ b rest); auto; lia].
    assert (E : firstn (Z.to_nat (size t)) (skipn (Z.to_nat o) (b ++ rest)) = firstn (Z.to_nat (size t)) (skipn (Z.to_nat o) b)).
    { rewrite skipn_app, firstn_app. unfold len in *.
      replace (Z.to_nat (size t) - length (skipn (Z.to_nat o) b))%nat with 0%nat by (rewrite skipn_length; lia).
      cbn [firstn]. apply app_nil_r. }
    now rewrite <- E.
Qed.

Lemma unpack_shows :
  (forall t r v n rest, go_type t -> simple_arrays t -> solid t -> bits_only t -> bytes_ok r -> unpack t r = Ok (v, n, rest) ->
     exists b, r = b ++ rest /\ shows t v b /\ n = size t /\ len b = size t) /\
  (forall fs B c r cnt bp acc vs n rest, go_fields fs -> fields_simple fs -> solid_fields fs -> fields_bits_only fs -> bytes_ok B ->
     at_cursor B c r cnt bp acc -> c <= 8 * len B -> unpack_fields fs r cnt bp acc = Ok ((vs, n), rest) ->
     n = bytes_for (cursor_after fs c) /\ rest = skipn (Z.to_nat n) B /\ cursor_after fs c <= 8 * len B /\ holds fs vs c B).
Proof.
  apply gty_mut; try (intros; discriminate).
  - intros name fs IH r v n rest G S So Bo B E. pose proof (proj1 unpack_typed _ _ _ _ _ G B E) as [Ht _].
    cbn [unpack] in E. destruct (unpack_fields fs r 0 0 0) as [[[vs n'] rest']| | |] eqn:E1; try discriminate.
    cbn [bind fst snd] in E. injection E as <- <- <-.
    assert (At : at_cursor r 0 r 0 0 0) by (split; [lia|]; split; [reflexivity|]; split; [reflexivity|]; split; [reflexivity|lia]).
    destruct (IH r 0 r 0 0%nat 0 vs n' rest' G S So Bo B At ltac:(pose proof (len_nonneg r); lia) E1) as (En & Er & L & H).
    exists (firstn (Z.to_nat n') r).
    assert (Bn : n' <= len r) by (rewrite En, bytes_for_val; Z.to_euclidean_division_equations; lia).
    assert (P : 0 <= n') by (rewrite En, bytes_for_val; apply Z.div_pos; pose proof (proj2 size_nonneg fs 0 G); lia).
    assert (Lf : len (firstn (Z.to_nat n') r) = size (TStruct name fs)).
    { cbn [size]. unfold len in *. rewrite firstn_length_le by lia. lia. }
    split; [rewrite Er; symmetry; apply firstn_skipn|]. split; [|split; [exact En|exact Lf]].
    cbn [shows]. split; [exact Lf|]. apply (proj2 holds_prefix fs vs 0 _ rest'); [exact G|exact Ht|lia| |].
    + rewrite Lf. apply bytes_for_ge.
    + rewrite Er, firstn_skipn. exact H.
  - intros B c r cnt bp acc vs n rest _ _ _ _ _ (_ & _ & Ec & Er & _) L E. cbn [unpack_fields cursor_after holds] in *.
    injection E as <- <- <-. auto.
  - intros np t IHt fs IHf B c r cnt bp acc vs n rest [Gt Gf] [St Sf] (Nz & Sot & Sof) (Nb0 & Bot & Bof) Bk At L E.
    cbn [cursor_after unpack_fields] in *.
    assert (Eas : as_bits np t = bit_field np t) by (destruct np; reflexivity). rewrite Eas in *.
    destruct (bit_field np t) eqn:Eb0.
    + destruct (unpack_bits _ r cnt bp acc) as [[[[[l r1] cnt1] bp1] acc1]| | |] eqn:E1; try discriminate. cbn [bind] in E.
      destruct (bits_back _ _ _ _ _ _ _ _ _ _ _ _ At L E1) as (A1 & L1 & Ln & N).
      assert (Nb : Z.of_nat match t with TArr n _ => n | _ => 1%nat end = nbits t) by (destruct t; reflexivity). rewrite Nb in *.
      destruct (unpack_fields fs r1 cnt1 bp1 acc1) as [[[vs2 n2] rest2]| | |] eqn:E2; try discriminate. cbn [bind fst snd] in E. injection E as <- <- <-.
      destruct (IHf _ _ _ _ _ _ _ _ _ Gf Sf Sof Bof Bk A1 L1 E2) as (F1 & F2 & F3 & F4).
      split; [exact F1|]. split; [exact F2|]. split; [exact F3|]. cbn [holds]. rewrite Eas. split; [|exact F4].
      assert (Hbt : match t with TBool => True | TArr _ TBool => True | _ => False end).
      { unfold bit_field in Eb0. destruct np; [discriminate|]. cbn in Eb0. destruct t; try discriminate; auto. destruct t; try discriminate; auto. }
      intros j Hj. destruct t; try contradiction.
      * destruct l as [|x l]; [discriminate|]. specialize (N 0%nat ltac:(lia)). cbn [nth] in N. subst x. cbn [hd bools_of length] in *.
        destruct j; [reflexivity|lia].
      * cbn [bools_of] in *. rewrite map_length in Hj.
        change false with ((fun v => match v with VBool b => b | _ => false end) (VBool false)). rewrite map_nth, N by lia. reflexivity.
    + destruct Nz as [Nz|Nz]; [discriminate|]. destruct At as (C0 & Eb & Ec & Er & _).
      set (k := pad_len cnt (cip_align t)) in *. destruct (read_some k r) as [r1| | |] eqn:Ers; try discriminate. cbn [bind] in E.
      assert (Ok1 : cnt + Z.of_nat k = align_up (bytes_for c) (alignment t)).
      { unfold k. rewrite (proj1 (proj1 align_model t)), Ec. apply pad_spec, (proj1 alignment_pos), Gt. }
      set (o := align_up (bytes_for c) (alignment t)) in *.
      assert (Bf : 0 <= bytes_for c) by (rewrite bytes_for_val; apply Z.div_pos; lia).
      destruct (match t with
          | TStruct _ _ => let* (y, r2) := unpack t r1 in Ok (y, r2)
          | _ => let* (v0, r2) := raw_read t r1 in Ok (v0, go_size t, r2)
          end) as [[[v s] r2]| | |] eqn:Ev; try discriminate. cbn [bind fst snd] in E.
      assert (Br1 : bytes_ok r1).
      { apply (read_some_ok k r); [|exact Ers]. rewrite Er. rewrite <- (firstn_skipn (Z.to_nat cnt) B) in Bk. now apply bytes_ok_app in Bk. }
      assert (Hv : s = size t /\ exists d, r1 = d ++ r2 /\ len d = size t /\ shows t v d).
      { clear IHf E. destruct t;
          try (destruct Nb0 as [Nb0|Nb0]; [discriminate|]; destruct (raw_sizes _ St I) as [G1 G2]; unfold raw_read in Ev;
               match type of Ev with context [rd ?w ?x] => destruct (rd w x) as [[d r3]| | |] eqn:Erd end; try discriminate; cbn [bind] in Ev;
               apply rd_ok_inv in Erd; destruct Erd as (-> & Ld); injection Ev as <- <- <-; split; [exact G1|]; exists d; split; [reflexivity|];
               apply bytes_ok_app in Br1 as [Bd _]; split; [unfold len; rewrite Ld; exact G2|]);
          try contradiction.
        - assert (Sh : d = plain_bytes (TInt signed w) (fst (raw_decode (TInt signed w) d))).
          { symmetry. rewrite (proj1 (raw_back (TInt signed w) I d Bd ltac:(lia))), <- Ld. apply firstn_all. }
          exact Sh.
        - assert (Sh : d = plain_bytes (TFloat w) (fst (raw_decode (TFloat w) d))).
          { symmetry. rewrite (proj1 (raw_back (TFloat w) I d Bd ltac:(lia))), <- Ld. apply firstn_all. }
          exact Sh.
        - assert (Nu : numeric (TArr n0 t)) by (destruct t; try contradiction; exact St).
          assert (Sh : d = plain_bytes (TArr n0 t) (fst (raw_decode (TArr n0 t) d))).
          { symmetry. rewrite (proj1 (raw_back (TArr n0 t) Nu d Bd ltac:(lia))), <- Ld. apply firstn_all. }
          exact Sh.
        - destruct (unpack (TStruct name fs0) r1) as [[[v0 n0] rest0]| | |] eqn:Eu; try discriminate. cbn [bind] in Ev. injection Ev as <- <- <-.
          destruct (IHt _ _ _ _ Gt St Sot Bot Br1 Eu) as (b & -> & Sh & -> & Lb). split; [reflexivity|]. exists b. auto. }
      destruct Hv as (-> & d & Ed & Ld & Sd).
      assert (Kl : (k <= length r)%nat /\ r1 = skipn k r).
      { destruct k as [|k]; [cbn in Ers; injection Ers as <-; split; [lia|reflexivity]|]. destruct r as [|x r']; [discriminate|]. cbn [read_some] in Ers.
        assert (Es : r1 = skipn (Datatypes.S k) (x :: r')) by (injection Ers as <-; reflexivity). split; [|exact Es].
        destruct (Nat.le_gt_cases (Datatypes.S k) (length (x :: r'))) as [H|H]; [exact H|]. rewrite skipn_all2 in Es by lia. rewrite Es in Ed.
        destruct d; [cbn in Ld; lia|discriminate]. }
      destruct Kl as [Kl Kr].
      assert (Er1 : r1 = skipn (Z.to_nat o) B) by (rewrite Kr, Er, skipn_skipn; f_equal; lia).
      assert (Lo : o + size t <= len B).
      { apply (f_equal (@length Z)) in Ed. rewrite Er1, skipn_length, app_length in Ed. unfold len in *. lia. }
      destruct (unpack_fields fs r2 _ 0 acc) as [[[vs2 n2] rest2]| | |] eqn:E2; try discriminate. cbn [bind fst snd] in E. injection E as <- <- <-.
      rewrite Ok1 in E2.
      pose proof (align_up_ge (bytes_for c) _ (proj1 alignment_pos t Gt)) as [Og _]. fold o in Og.
      assert (A1 : at_cursor B (8 * (o + size t)) r2 (o + size t) 0 acc).
      { assert (E8 : bytes_for (8 * (o + size t)) = o + size t) by (rewrite bytes_for_val; Z.to_euclidean_division_equations; lia).
        split; [lia|]. split; [rewrite Z.mul_comm, Z.mod_mul by lia; reflexivity|]. split; [now rewrite E8|]. split; [|lia].
        replace (Z.to_nat (o + size t)) with (Z.to_nat o + Z.to_nat (size t))%nat by lia. rewrite <- skipn_skipn, <- Er1, Ed.
        unfold len in Ld. now rewrite skipn_app_exact by lia. }
      destruct (IHf _ _ _ _ _ _ _ _ _ Gf Sf Sof Bof Bk A1 ltac:(lia) E2) as (F1 & F2 & F3 & F4).
      split; [exact F1|]. split; [exact F2|]. split; [exact F3|]. cbn [holds]. rewrite Eas. cbv zeta. fold o. split; [|exact F4].
      assert (Ef : firstn (Z.to_nat (size t)) (skipn (Z.to_nat o) B) = d).
      { rewrite <- Er1, Ed. unfold len in Ld. replace (Z.to_nat (size t)) with (length d) by lia. now rewrite firstn_app_exact. }
      rewrite Ef. exact Sd.
Qed.
