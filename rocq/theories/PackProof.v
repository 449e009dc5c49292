(** * Lemmas about packing *)
From Coq Require Import Sorted.
From Verif Require Import GoBase PackTypes PackModel PackSpec.

(** ** Bits of a byte *)

Definition range (n : nat) : list Z := map Z.of_nat (seq 0 n).
Lemma range_in n z : 0 <= z < Z.of_nat n -> In z (range n).
Proof.
  intros. unfold range. apply in_map_iff. exists (Z.to_nat z). split; [lia|]. apply in_seq. lia.
Qed.
Lemma range_all n (p : Z -> bool) : forallb p (range n) = true -> forall z, 0 <= z < Z.of_nat n -> p z = true.
Proof. intros H z Hz. rewrite forallb_forall in H. apply H, range_in, Hz. Qed.

Lemma bit_of_byte bp b : (bp < 8)%nat -> 0 <= b < 256 ->
  negb (Z.land b (Z.shiftl 1 (Z.of_nat bp) mod 256) =? 0) = Z.testbit b (Z.of_nat bp).
Proof.
  intros Hp Hb.
  assert (H : forallb (fun p => forallb (fun b => Bool.eqb (negb (Z.land b (Z.shiftl 1 p mod 256) =? 0))
                                                            (Z.testbit b p)) (range 256)) (range 8) = true)
    by (vm_compute; reflexivity).
  pose proof (range_all _ _ H (Z.of_nat bp) ltac:(lia)) as H1. cbv beta in H1.
  pose proof (range_all _ _ H1 b ltac:(lia)) as H2. cbv beta in H2.
  apply Bool.eqb_prop in H2. exact H2.
Qed.

Lemma acc_step b bp acc : (bp < 8)%nat -> 0 <= acc < 2 ^ Z.of_nat bp ->
  let acc' := Z.lor acc (Z.shiftl (bool_byte b) (Z.of_nat bp)) mod 256 in
  0 <= acc' < 2 ^ Z.of_nat (S bp) /\ acc' < 256 /\ acc' mod 2 ^ Z.of_nat bp = acc /\ Z.testbit acc' (Z.of_nat bp) = b.
Proof.
  intros Hp Ha.
  assert (H : forall b, forallb (fun p => forallb (fun acc =>
     if acc <? 2 ^ p then
      let acc' := Z.lor acc (Z.shiftl (bool_byte b) p) mod 256 in
      (0 <=? acc') && (acc' <? 2 ^ (p + 1)) && (acc' <? 256) && (acc' mod 2 ^ p =? acc) &&
      Bool.eqb (Z.testbit acc' p) b else true) (range 128)) (range 8) = true)
    by (intros []; vm_compute; reflexivity).
  pose proof (range_all _ _ (H b) (Z.of_nat bp) ltac:(lia)) as H1. cbv beta in H1.
  assert (2 ^ Z.of_nat bp <= 2 ^ 7) by (apply Z.pow_le_mono_r; lia).
  assert (2 ^ 7 = 128) by reflexivity.
  pose proof (range_all _ _ H1 acc ltac:(lia)) as G2. cbv beta in G2.
  replace (acc <? 2 ^ Z.of_nat bp) with true in G2 by lia.
  cbv zeta in G2 |- *.
  rewrite !Bool.andb_true_iff in G2. destruct G2 as [[[[? ?] ?] ?] E].
  apply Bool.eqb_prop in E. rewrite Nat2Z.inj_succ. unfold Z.succ.
  repeat split; try lia; try assumption.
Qed.

Lemma low_bits b bp acc : b mod 2 ^ Z.of_nat (S bp) = acc ->
  b mod 2 ^ Z.of_nat bp = acc mod 2 ^ Z.of_nat bp /\ Z.testbit b (Z.of_nat bp) = Z.testbit acc (Z.of_nat bp).
Proof.
  intros <-. split.
  - rewrite Nat2Z.inj_succ. apply Znumtheory.Zmod_div_mod.
    + apply Z.pow_pos_nonneg; lia.
    + apply Z.pow_pos_nonneg; lia.
    + exists 2. rewrite Z.pow_succ_r by lia. reflexivity.
  - rewrite Z.mod_pow2_bits_low by lia. reflexivity.
Qed.

(** ** binary.Write and binary.Read *)

Lemma raw_round :
  (forall t v rest, has_type t v ->
     raw_decode t (raw_write t v ++ rest) = (v, rest) /\ length (raw_write t v) = raw_size t) /\
  (forall fs vs rest, fields_have fs vs ->
     raw_decode_fields fs (raw_write_fields fs vs ++ rest) = (vs, rest) /\
     length (raw_write_fields fs vs) = raw_fields_size fs).
Proof.
  apply gty_mut.
  - intros v rest H. destruct v; cbn in H; try contradiction. destruct b; cbn; auto.
  - intros s w v rest H.
    destruct v; try (destruct s; contradiction).
    cbn [raw_write raw_decode raw_size]. rewrite le_length. split; [|reflexivity].
    assert (L : firstn w (le w z ++ rest) = le w z) by (apply firstn_app_exact; rewrite le_length; reflexivity).
    assert (K : skipn w (le w z ++ rest) = rest) by (apply skipn_app_exact; rewrite le_length; reflexivity).
    rewrite L, K. cbv zeta. f_equal. f_equal.
    destruct s; cbn [has_type] in H; destruct H as [Hw Hz].
    + rewrite unle_le, sgn_mod by lia. apply sgn_id; [|lia].
      cbn [In] in Hw. lia.
    + apply unle_le_small. rewrite <- pow256. lia.
  - intros w v rest H. destruct v; try contradiction.
    cbn [raw_write raw_decode raw_size]. rewrite le_length. split; [|reflexivity].
    assert (L : firstn w (le w bits ++ rest) = le w bits) by (apply firstn_app_exact; rewrite le_length; reflexivity).
    assert (K : skipn w (le w bits ++ rest) = rest) by (apply skipn_app_exact; rewrite le_length; reflexivity).
    rewrite L, K. f_equal. f_equal. cbn [has_type] in H. apply unle_le_small. rewrite <- pow256. lia.
  - intros n t IH v rest H. destruct v; try contradiction. cbn [has_type] in H. destruct H as [Hl H].
    cbn [raw_write raw_decode raw_size].
    assert (E : decode_n (raw_decode t) n (concat (map (raw_write t) vs) ++ rest) = (vs, rest) /\
                length (concat (map (raw_write t) vs)) = (n * raw_size t)%nat).
    { clear - IH Hl H. subst n. revert rest. induction H as [|v vs Hv Hvs IHv]; intros rest.
      - split; reflexivity.
      - cbn [map concat length decode_n]. rewrite <- app_assoc.
        destruct (IH v (concat (map (raw_write t) vs) ++ rest) Hv) as [E L]. rewrite E.
        destruct (IHv rest) as [E1 L1]. rewrite E1. split; [reflexivity|].
        rewrite app_length, L, L1. cbn. lia. }
    destruct E as [E L]. rewrite E. auto.
  - intros name fs IH v rest H. destruct v; try contradiction. cbn [raw_write raw_decode raw_size].
    destruct (IH vs rest H) as [E L]. rewrite E. auto.
  - intros vs rest H. destruct vs; [|contradiction]. cbn. auto.
  - intros np t IHt fs IHf vs rest H. destruct vs as [|v vr]; [contradiction|].
    cbn [fields_have] in H. destruct H as [H1 H2].
    cbn [raw_write_fields raw_decode_fields raw_fields_size]. rewrite <- app_assoc.
    destruct (IHt v (raw_write_fields fs vr ++ rest) H1) as [E L]. rewrite E.
    destruct (IHf vr rest H2) as [E1 L1]. rewrite E1. split; [reflexivity|].
    rewrite app_length. lia.
Qed.

Lemma raw_read_write t v rest : has_type t v -> raw_read t (raw_write t v ++ rest) = Ok (v, rest).
Proof.
  intros H. unfold raw_read.
  destruct (proj1 raw_round t v [] H) as [E L]. rewrite app_nil_r in E.
  rewrite rd_app by exact L. cbn [bind]. rewrite E. reflexivity.
Qed.

(** ** Packing and unpacking *)

(** [good pos bp acc out f X]: reading [out] with [f] gives [X] when [bp] bits,
    of value [acc], of the first byte have been read already. *)
Definition good {X} (pos : Z) (bp : nat) (acc : Z) (out : bytes)
    (f : bytes -> Z -> nat -> Z -> X) (x : X) : Prop :=
  match bp with
  | O => forall a, f out pos 0%nat a = x
  | _ => exists b out', out = b :: out' /\ 0 <= b < 256 /\ b mod 2 ^ Z.of_nat bp = acc /\ f out' (pos + 1) bp b = x
  end.

Definition ub {Y} (n : nat) (k : list gv -> bytes -> Z -> nat -> Z -> res Y) (r : bytes) (cnt : Z) (bp : nat) (acc : Z) : res Y :=
  let* (x, acc1) := unpack_bits n r cnt bp acc in
  let '(l, r1, cnt1, bp1) := x in k l r1 cnt1 bp1 acc1.

Lemma ub_step {Y} n (k : list gv -> bytes -> Z -> nat -> Z -> res Y) r cnt bp acc :
  ub (S n) k r cnt bp acc =
  let* (p, r1) := (match bp with
                   | O => match r with [] => Err EEof | b :: r' => Ok ((b, cnt + 1), r') end
                   | _ => Ok ((acc, cnt), r) end) in
  let v := negb (Z.land (fst p) (Z.shiftl 1 (Z.of_nat bp) mod 256) =? 0) in
  let bp1 := if (8 <=? S bp)%nat then 0%nat else S bp in
  ub n (fun l => k (VBool v :: l)) r1 (snd p) bp1 (fst p).
Proof.
  unfold ub. cbn [unpack_bits]. destruct bp.
  - destruct r; [reflexivity|]. cbn [bind fst snd]. destruct (unpack_bits n r _ _ _); [|reflexivity..].
    cbn [bind]. destruct a as [[[[? ?] ?] ?] ?]. reflexivity.
  - cbn [bind fst snd]. destruct (unpack_bits n r _ _ _); [|reflexivity..].
    cbn [bind]. destruct a as [[[[? ?] ?] ?] ?]. reflexivity.
Qed.

Definition is_vbool (v : gv) : Prop := exists b, v = VBool b.

Lemma bits_good {Y} vs : Forall is_vbool vs ->
  forall pos bp acc o pos1 bp1 acc1 o2 (k : list gv -> bytes -> Z -> nat -> Z -> res Y) x,
  (bp < 8)%nat -> 0 <= acc < 2 ^ Z.of_nat bp -> pack_bits vs pos bp acc = (o, pos1, bp1, acc1) ->
  ((bp1 < 8)%nat /\ 0 <= acc1 < 2 ^ Z.of_nat bp1) /\
  (good pos1 bp1 acc1 o2 (k vs) x -> good pos bp acc (o ++ o2) (ub (length vs) k) x).
Proof.
  induction 1 as [|v vs [b ->] Hvs IH]; intros pos bp acc o pos1 bp1 acc1 o2 k x Hbp Hacc E.
  - cbn in E. injection E as <- <- <- <-. split; [auto|].
    intros G. destruct bp; exact G.
  - cbn [pack_bits] in E. unfold pack_bit in E.
    destruct (acc_step b bp acc Hbp Hacc) as (A1 & A2 & A3 & A4).
    set (acc' := Z.lor acc (Z.shiftl (bool_byte b) (Z.of_nat bp)) mod 256) in *. cbv zeta in E.
    destruct (8 <=? S bp)%nat eqn:E8.
    + assert (bp = 7%nat) by lia. subst bp.
      destruct (pack_bits vs (pos + 1) 0 0) as [[[o' pos'] bp'] acc2] eqn:E'. injection E as <- <- <- <-.
      specialize (IH (pos + 1) 0%nat 0 o' pos' bp' acc2 o2 (fun l => k (VBool b :: l)) x ltac:(lia) ltac:(cbn; lia) E').
      destruct IH as [B G]. split; [exact B|]. intros Hg. specialize (G Hg).
      cbn [good]. exists acc', (o' ++ o2). split; [reflexivity|]. split; [lia|]. split; [exact A3|].
      cbn [length]. rewrite ub_step. cbn [bind fst snd].
      rewrite bit_of_byte by lia. rewrite A4.
      change (8 <=? 8)%nat with true. cbv iota zeta. apply G.
    + destruct (pack_bits vs pos (S bp) acc') as [[[o' pos'] bp'] acc2] eqn:E'. injection E as <- <- <- <-.
      specialize (IH pos (S bp) acc' o' pos' bp' acc2 o2 (fun l => k (VBool b :: l)) x ltac:(lia) ltac:(lia) E').
      destruct IH as [B G]. split; [exact B|]. intros Hg. specialize (G Hg).
      cbn [good] in G. destruct G as (b0 & out' & Eo & Hb & Hm & Hf).
      cbn [app]. rewrite Eo.
      destruct (low_bits b0 bp acc' Hm) as [L1 L2].
      destruct bp.
      * cbn [good]. intros a. cbn [length]. rewrite ub_step. cbn [bind fst snd].
        rewrite bit_of_byte by lia. rewrite L2, A4. cbv zeta.
        change (8 <=? 1)%nat with false. cbv iota. exact Hf.
      * cbn [good]. exists b0, out'. split; [reflexivity|]. split; [lia|]. split; [rewrite L1; exact A3|].
        cbn [length]. rewrite ub_step. cbn [bind fst snd].
        rewrite bit_of_byte by lia. rewrite L2, A4. cbv zeta. rewrite E8. exact Hf.
Qed.

Lemma read_some_zeros k x : read_some k (zeros k ++ x) = Ok x.
Proof.
  destruct k; [reflexivity|].
  transitivity (Ok (skipn (S k) (zeros (S k) ++ x))); [reflexivity|].
  f_equal. apply skipn_app_exact. unfold zeros. rewrite repeat_length. reflexivity.
Qed.

Lemma bool_values t v : match t with TBool => True | TArr _ TBool => True | _ => False end -> has_type t v ->
  exists l, Forall is_vbool l /\
    length l = match t with TArr n _ => n | _ => 1%nat end /\
    v = match t with TArr _ _ => VArr l | _ => hd (VBool false) l end /\
    (forall pos bp acc, match v with VArr l => pack_bits l pos bp acc | _ => pack_bits [v] pos bp acc end
                        = pack_bits l pos bp acc).
Proof.
  intros Hb H. destruct t; try contradiction.
  - destruct v; try contradiction. exists [VBool b]. repeat split. repeat constructor. exists b; reflexivity.
  - destruct t; try contradiction. destruct v; try contradiction. cbn in H. destruct H as [Hl H].
    exists vs. repeat split; [|exact Hl]. eapply Forall_impl; [|exact H]. intros [] K; try contradiction. exists b; reflexivity.
Qed.

Lemma pack_unpack :
  (forall t v rest, has_type t v -> match t with TStruct _ _ => True | _ => False end ->
     unpack t (fst (pack t v) ++ rest) = Ok (v, snd (pack t v), rest)) /\
  (forall fs vs rest pos bp acc, fields_have fs vs -> (bp < 8)%nat -> 0 <= acc < 2 ^ Z.of_nat bp ->
     good pos bp acc (fst (pack_fields fs vs pos bp acc) ++ rest) (unpack_fields fs)
          (Ok ((vs, snd (pack_fields fs vs pos bp acc)), rest))).
Proof.
  apply gty_mut; try (intros; contradiction).
  - intros name fs IH v rest H _. destruct v; try contradiction. cbn [has_type] in H.
    cbn [pack unpack].
    specialize (IH vs rest 0 0%nat 0 H ltac:(lia) ltac:(cbn; lia)). cbn [good] in IH. rewrite (IH 0). reflexivity.
  - intros vs rest pos bp acc H Hbp Hacc. destruct vs; [|contradiction]. cbn [pack_fields].
    destruct bp.
    + cbn. reflexivity.
    + cbn [Nat.ltb Nat.leb good fst snd unpack_fields]. exists acc, rest.
      split; [reflexivity|]. assert (2 ^ Z.of_nat (S bp) <= 2 ^ 8) by (apply Z.pow_le_mono_r; lia).
      split; [change (2 ^ 8) with 256 in *; lia|]. split; [apply Z.mod_small; lia|]. reflexivity.
  - intros np t IHt fs IHf vs rest pos bp acc H Hbp Hacc. destruct vs as [|v vr]; [contradiction|].
    cbn [fields_have] in H. destruct H as [H1 H2].
    cbn [pack_fields]. destruct (bit_field np t) eqn:Eb.
    + assert (Hb : match t with TBool => True | TArr _ TBool => True | _ => False end).
      { unfold bit_field in Eb. destruct np; [discriminate|]. cbn in Eb. destruct t; try discriminate; auto.
        destruct t; try discriminate; auto. }
      destruct (bool_values t v Hb H1) as (l & Hl & Ln & Ev & Ep). rewrite Ep.
      destruct (pack_bits l pos bp acc) as [[[o pos1] bp1] acc1] eqn:E.
      destruct (pack_fields fs vr pos1 bp1 acc1) as [o2 n] eqn:E2. cbn [fst snd]. rewrite <- app_assoc.
      set (K := fun (l : list gv) r1 cnt1 bp1 acc1 =>
            let* (y, r2) := unpack_fields fs r1 cnt1 bp1 acc1 in
            Ok ((match t with TArr _ _ => VArr l | _ => hd (VBool false) l end :: fst y, snd y), r2)).
      destruct (bits_good l Hl pos bp acc o pos1 bp1 acc1 (o2 ++ rest) K (Ok (v :: vr, n, rest)) Hbp Hacc E)
        as [[B1 B2] G].
      specialize (IHf vr rest pos1 bp1 acc1 H2 B1 B2). rewrite E2 in IHf. cbn [fst snd] in IHf.
      assert (G0 : good pos1 bp1 acc1 (o2 ++ rest) (K l) (Ok (v :: vr, n, rest))).
      { unfold K. destruct bp1; cbn [good] in IHf |- *.
        - intros a. rewrite IHf. cbn [bind fst snd]. rewrite <- Ev. reflexivity.
        - destruct IHf as (b & out' & F1 & F2 & F3 & F4). exists b, out'. repeat split; try assumption; try lia.
          rewrite F4. cbn [bind fst snd]. rewrite <- Ev. reflexivity. }
      specialize (G G0). rewrite Ln in G.
      destruct bp; cbn [good] in G |- *.
      * intros a. rewrite <- (G a). cbn [unpack_fields]. rewrite Eb. reflexivity.
      * destruct G as (b & out' & F1 & F2 & F3 & F4). exists b, out'. repeat split; try assumption; try lia.
        rewrite <- F4. cbn [unpack_fields]. rewrite Eb. reflexivity.
    + (* a field of its own *)
      assert (Main : forall a pos1,
        let k := pad_len pos1 (cip_align t) in
        let pos2 := pos1 + Z.of_nat k in
        let '(body, s) := match t with TStruct _ _ => pack t v | _ => (raw_write t v, go_size t) end in
        let '(o2, n) := pack_fields fs vr (pos2 + s) 0 0 in
        forall bp, unpack_fields (FCons np t fs) ((zeros k ++ body ++ o2) ++ rest) pos1 bp a = Ok ((v :: vr, n), rest)).
      { intros a pos1 k pos2.
        destruct (match t with TStruct _ _ => pack t v | _ => (raw_write t v, go_size t) end) as [body s] eqn:Ebody.
        destruct (pack_fields fs vr (pos2 + s) 0 0) as [o2 n] eqn:E2. intros bp0.
        cbn [unpack_fields]. rewrite Eb. fold k. rewrite <- !app_assoc. rewrite read_some_zeros. cbn [bind].
        assert (Ex : (match t with
          | TStruct _ _ => let* (y, r2) := unpack t (body ++ o2 ++ rest) in Ok (y, r2)
          | _ => let* (v0, r2) := raw_read t (body ++ o2 ++ rest) in Ok (v0, go_size t, r2)
          end) = Ok ((v, s), o2 ++ rest)).
        { clear IHf E2. destruct t; try (apply pair_equal_spec in Ebody; destruct Ebody as [<- <-]; rewrite raw_read_write by assumption; reflexivity).
          specialize (IHt v (o2 ++ rest) H1 I). rewrite Ebody in IHt. cbn [fst snd] in IHt. rewrite IHt. reflexivity. }
        rewrite Ex. cbn [bind fst snd]. fold pos2.
        specialize (IHf vr rest (pos2 + s) 0%nat 0 H2 ltac:(lia) ltac:(cbn; lia)). cbn [good] in IHf.
        rewrite E2 in IHf. cbn [fst snd] in IHf. rewrite IHf. reflexivity. }
      destruct bp.
      * cbn [Nat.ltb Nat.leb good]. intros a. specialize (Main a pos). cbv zeta in Main |- *.
        destruct (match t with TStruct _ _ => pack t v | _ => (raw_write t v, go_size t) end) as [body s].
        destruct (pack_fields fs vr (pos + Z.of_nat (pad_len pos (cip_align t)) + s) 0 0) as [o2 n].
        cbn [fst snd app]. apply Main.
      * change (0 <? S bp)%nat with true. cbv iota.
        specialize (Main acc (pos + 1)). cbv zeta in Main |- *.
        destruct (match t with TStruct _ _ => pack t v | _ => (raw_write t v, go_size t) end) as [body s].
        destruct (pack_fields fs vr (pos + 1 + Z.of_nat (pad_len (pos + 1) (cip_align t)) + s) 0 0) as [o2 n].
        cbn [fst snd app good]. exists acc, ((zeros (pad_len (pos + 1) (cip_align t)) ++ body ++ o2) ++ rest).
        split; [reflexivity|]. assert (2 ^ Z.of_nat (S bp) <= 2 ^ 8) by (apply Z.pow_le_mono_r; lia).
        split; [change (2 ^ 8) with 256 in *; lia|]. split; [apply Z.mod_small; lia|]. apply Main.
Qed.

(** ** Where the fields end up *)

Lemma align_model : (forall t, cip_align t = alignment t /\ go_align t = alignment t) /\
  (forall fs, cip_fields_align fs = fields_alignment fs /\ fields_align fs = fields_alignment fs).
Proof.
  apply gty_mut; intros; cbn [cip_align go_align alignment cip_fields_align fields_align fields_alignment]; try (split; lia); try tauto.
Qed.
Lemma alignment_pos : (forall t, go_type t -> 0 < alignment t) /\ (forall fs, go_fields fs -> 0 < fields_alignment fs).
Proof.
  apply gty_mut; intros; cbn [alignment fields_alignment go_type go_fields In] in *; intuition lia.
Qed.
Lemma pad_spec pos a : 0 < a -> pos + Z.of_nat (pad_len pos a) = align_up pos a.
Proof.
  intros Ha. unfold pad_len, align_up.
  pose proof (Z.mod_pos_bound pos a Ha). cbv zeta.
  destruct (Z.eq_dec (pos mod a) 0) as [E|E].
  - rewrite E. rewrite (Z.mod_opp_l_z pos a) by lia.
    replace (a - 0 <? a) with false by lia. cbn [andb]. lia.
  - rewrite (Z.mod_opp_l_nz pos a) by lia.
    replace (a - pos mod a <? a) with true by lia. replace (0 <? a - pos mod a) with true by lia. cbn [andb]. lia.
Qed.
Lemma bytes_for_spec pos bp : (bp < 8)%nat -> bytes_for (8 * pos + Z.of_nat bp) = pos + (if (0 <? bp)%nat then 1 else 0).
Proof.
  intros. unfold bytes_for, align_up. destruct (0 <? bp)%nat eqn:E; Z.to_euclidean_division_equations; lia.
Qed.

Lemma bits_placed vs : Forall is_vbool vs ->
  forall pre pos bp acc o pos1 bp1 acc1 o2,
  len pre = pos -> (bp < 8)%nat -> 0 <= acc < 2 ^ Z.of_nat bp -> pack_bits vs pos bp acc = (o, pos1, bp1, acc1) ->
  ((bp1 < 8)%nat /\ 0 <= acc1 < 2 ^ Z.of_nat bp1) /\
  len (pre ++ o) = pos1 /\
  8 * pos1 + Z.of_nat bp1 = 8 * pos + Z.of_nat bp + Z.of_nat (length vs) /\
  (((0 < bp1)%nat -> exists b o3, o2 = b :: o3 /\ b mod 2 ^ Z.of_nat bp1 = acc1) ->
   (forall j, (j < length vs)%nat ->
      VBool (bit_at (pre ++ o ++ o2) (8 * pos + Z.of_nat bp + Z.of_nat j)) = nth j vs (VBool false)) /\
   ((0 < bp)%nat -> exists b o3, o ++ o2 = b :: o3 /\ b mod 2 ^ Z.of_nat bp = acc)).
Proof.
  induction 1 as [|v vs [b ->] Hvs IH]; intros pre pos bp acc o pos1 bp1 acc1 o2 Hpre Hbp Hacc E.
  - cbn in E. injection E as <- <- <- <-. rewrite app_nil_r. split; [auto|]. split; [auto|].
    split; [cbn; lia|]. intros G. split; [intros; cbn in *; lia|exact G].
  - assert (Bit : forall b0 rest, bit_at (pre ++ b0 :: rest) (8 * pos + Z.of_nat bp) = Z.testbit b0 (Z.of_nat bp)).
    { intros. unfold bit_at.
      replace ((8 * pos + Z.of_nat bp) / 8) with pos by (Z.to_euclidean_division_equations; lia).
      replace ((8 * pos + Z.of_nat bp) mod 8) with (Z.of_nat bp) by (Z.to_euclidean_division_equations; lia).
      rewrite app_nth2 by (unfold len in Hpre; lia). replace (Z.to_nat pos - length pre)%nat with 0%nat by (unfold len in Hpre; lia).
      reflexivity. }
    cbn [pack_bits] in E. unfold pack_bit in E.
    destruct (acc_step b bp acc Hbp Hacc) as (A1 & A2 & A3 & A4).
    set (acc' := Z.lor acc (Z.shiftl (bool_byte b) (Z.of_nat bp)) mod 256) in *. cbv zeta in E.
    destruct (8 <=? S bp)%nat eqn:E8.
    + assert (bp = 7%nat) by lia. subst bp.
      destruct (pack_bits vs (pos + 1) 0 0) as [[[o' pos'] bp'] acc2] eqn:E'. injection E as <- <- <- <-.
      specialize (IH (pre ++ [acc']) (pos + 1) 0%nat 0 o' pos' bp' acc2 o2 ltac:(rewrite len_app; cbn; lia) ltac:(lia) ltac:(cbn; lia) E').
      destruct IH as (B & L & C & G). rewrite <- app_assoc in L, G. split; [exact B|]. split; [exact L|].
      split; [cbn [length]; lia|]. intros Hg. destruct (G Hg) as [G1 G2]. split.
      * intros [|j] Hj.
        -- cbn [nth app]. rewrite Nat2Z.inj_0, Z.add_0_r, Bit, A4. reflexivity.
        -- cbn [nth length] in Hj |- *. rewrite <- (G1 j) by lia. cbn [app]. f_equal. f_equal. lia.
      * intros _. exists acc', (o' ++ o2). split; [reflexivity|exact A3].
    + destruct (pack_bits vs pos (S bp) acc') as [[[o' pos'] bp'] acc2] eqn:E'. injection E as <- <- <- <-.
      specialize (IH pre pos (S bp) acc' o' pos' bp' acc2 o2 Hpre ltac:(lia) ltac:(lia) E').
      destruct IH as (B & L & C & G). cbn [app]. split; [exact B|]. split; [exact L|].
      split; [cbn [length]; lia|]. intros Hg. destruct (G Hg) as [G1 G2].
      destruct (G2 ltac:(lia)) as (b0 & o3 & Eo & Hm). destruct (low_bits b0 bp acc' Hm) as [L1 L2]. split.
      * intros [|j] Hj.
        -- cbn [nth]. rewrite Nat2Z.inj_0, Z.add_0_r, Eo, Bit, L2, A4. reflexivity.
        -- cbn [nth length] in Hj |- *. rewrite <- (G1 j) by lia. f_equal. f_equal. lia.
      * intros _. exists b0, o3. split; [exact Eo|]. rewrite L1. exact A3.
Qed.

Lemma numeric_plain t : numeric t -> forall v, has_type t v ->
  raw_write t v = plain_bytes t v /\ go_size t = size t /\ len (raw_write t v) = size t.
Proof.
  induction t; cbn [numeric]; intros N v H; try contradiction.
  - destruct v; try (destruct signed; contradiction). cbn [raw_write plain_bytes go_size size]. rewrite le_len. auto.
  - destruct v; try contradiction. cbn [raw_write plain_bytes go_size size]. rewrite le_len. auto.
  - destruct v; try contradiction. cbn [has_type] in H. destruct H as [Hl H].
    cbn [raw_write plain_bytes go_size size].
    destruct n as [|n].
    + destruct vs; [|discriminate]. cbn. split; [reflexivity|]. split; [|reflexivity]. lia.
    + assert (K : go_size t = size t).
      { destruct H as [|x l Hx _]; [discriminate|]. apply (IHt N x Hx). }
      split; [f_equal; apply map_ext_in; intros x Hx; rewrite Forall_forall in H; apply (IHt N x (H x Hx))|].
      split; [rewrite K; reflexivity|]. rewrite <- Hl. clear - IHt N H.
      induction H as [|x l Hx Hl IH]; [reflexivity|]. cbn [map concat length]. rewrite len_app, IH.
      destruct (IHt N x Hx) as (_ & _ & ->). lia.
Qed.

Lemma bool_array_plain n v : has_type (TArr n TBool) v ->
  raw_write (TArr n TBool) v = plain_bytes (TArr n TBool) v /\ go_size (TArr n TBool) = size (TArr n TBool) /\
  len (raw_write (TArr n TBool) v) = size (TArr n TBool).
Proof.
  intros H. destruct v; try contradiction. cbn [has_type] in H. destruct H as [Hl H].
  cbn [raw_write plain_bytes go_size size]. split; [|split; [reflexivity|]].
  - reflexivity.
  - rewrite <- Hl. clear Hl n. induction H as [|x l Hx Hl IH]; [reflexivity|]. cbn [map concat length]. rewrite len_app, IH.
    destruct x; try contradiction. change (len _) with 1. lia.
Qed.

Lemma simple_plain t v : simple_arrays t -> match t with TStruct _ _ => False | _ => True end -> has_type t v ->
  raw_write t v = plain_bytes t v /\ go_size t = size t /\ len (raw_write t v) = size t.
Proof.
  intros S N H. destruct t; try contradiction.
  - destruct v; try contradiction. destruct b; repeat split.
  - apply numeric_plain; [exact I|exact H].
  - apply numeric_plain; [exact I|exact H].
  - destruct t; try (apply numeric_plain; [exact S|exact H]). apply bool_array_plain, H.
Qed.

Lemma shows_plain t v : match t with TStruct _ _ => False | _ => True end -> shows t v (plain_bytes t v).
Proof. destruct t; cbn [shows]; try contradiction; reflexivity. Qed.

Lemma slice_mid (a b c : bytes) n o : len a = o -> len b = n -> firstn (Z.to_nat n) (skipn (Z.to_nat o) (a ++ b ++ c)) = b.
Proof.
  unfold len. intros <- <-. rewrite !Nat2Z.id. rewrite skipn_app_exact by reflexivity. apply firstn_app_exact. reflexivity.
Qed.

Lemma placed :
  (forall t v, go_type t -> simple_arrays t -> has_type t v -> match t with TStruct _ _ => True | _ => False end ->
     shows t v (fst (pack t v)) /\ snd (pack t v) = len (fst (pack t v)) /\ len (fst (pack t v)) = size t) /\
  (forall fs vs pre pos bp acc, go_fields fs -> fields_simple fs -> fields_have fs vs ->
     len pre = pos -> (bp < 8)%nat -> 0 <= acc < 2 ^ Z.of_nat bp ->
     let out := fst (pack_fields fs vs pos bp acc) in
     holds fs vs (8 * pos + Z.of_nat bp) (pre ++ out) /\
     snd (pack_fields fs vs pos bp acc) = len (pre ++ out) /\
     len (pre ++ out) = bytes_for (cursor_after fs (8 * pos + Z.of_nat bp)) /\
     ((0 < bp)%nat -> exists b o, out = b :: o /\ b mod 2 ^ Z.of_nat bp = acc)).
Proof.
  apply gty_mut; try (intros; contradiction).
  - intros name fs IH v G S H _. destruct v; try contradiction. cbn [pack shows].
    destruct (IH vs [] 0 0%nat 0 G S H ltac:(reflexivity) ltac:(lia) ltac:(cbn; lia)) as (I1 & I2 & I3 & _).
    cbn [app] in *. change (8 * 0 + Z.of_nat 0) with 0 in *. cbn [size]. auto.
  - intros vs pre pos bp acc _ _ H Hpre Hbp Hacc. destruct vs; [|contradiction]. cbn [pack_fields holds cursor_after].
    rewrite bytes_for_spec by assumption.
    destruct bp.
    + cbn [Nat.ltb Nat.leb fst snd]. rewrite app_nil_r. cbv zeta. repeat split; try lia.
    + change (0 <? S bp)%nat with true. cbn [fst snd]. cbv zeta. rewrite len_app. change (len [acc]) with 1.
      repeat split; try lia. intros _. exists acc, []. split; [reflexivity|]. apply Z.mod_small; lia.
  - intros np t IHt fs IHf vs pre pos bp acc [Gt Gf] [St Sf] H Hpre Hbp Hacc out. destruct vs as [|v vr]; [contradiction|].
    cbn [fields_have] in H. destruct H as [H1 H2].
    cbn [cursor_after holds].
    assert (Eas : as_bits np t = bit_field np t) by (destruct np; reflexivity). rewrite Eas.
    subst out. cbn [pack_fields]. destruct (bit_field np t) eqn:Eb.
    + assert (Hb : match t with TBool => True | TArr _ TBool => True | _ => False end).
      { unfold bit_field in Eb. destruct np; [discriminate|]. cbn in Eb. destruct t; try discriminate; auto.
        destruct t; try discriminate; auto. }
      destruct (bool_values t v Hb H1) as (l & Hl & Ln & Ev & Ep). rewrite Ep.
      destruct (pack_bits l pos bp acc) as [[[o pos1] bp1] acc1] eqn:E.
      destruct (pack_fields fs vr pos1 bp1 acc1) as [o2 n] eqn:E2.
      destruct (bits_placed l Hl pre pos bp acc o pos1 bp1 acc1 o2 Hpre Hbp Hacc E) as ([B1 B2] & L & C & G).
      specialize (IHf vr (pre ++ o) pos1 bp1 acc1 Gf Sf H2 L B1 B2). rewrite E2 in IHf. cbn [fst snd] in IHf |- *.
      rewrite <- app_assoc in IHf. cbv zeta in IHf |- *. destruct IHf as (I1 & I2 & I3 & I4).
      destruct (G I4) as [G1 G2].
      assert (Nb : nbits t = Z.of_nat (length l)) by (destruct t; try contradiction; cbn [nbits]; lia).
      rewrite C in I1, I3. rewrite Nb. repeat split; try assumption; try lia.
      intros j Hj.
      assert (Bo : length (bools_of v) = length l /\ VBool (nth j (bools_of v) false) = nth j l (VBool false)).
      { rewrite Ev. clear - Hl Ln Hb Hj Ev. subst v. destruct t; try contradiction.
        - destruct l as [|x [|]]; try discriminate. inversion Hl as [|? ? [b ->] _]. cbn. destruct j as [|[|]]; cbn; auto.
        - cbn [bools_of]. rewrite map_length. split; [reflexivity|]. clear Hj Ln Hb.
          revert j. induction Hl as [|x l [b ->] Hl IH]; intros [|j]; cbn; auto. }
      destruct Bo as [Bl Bn]. rewrite Bl in Hj. specialize (G1 j Hj). rewrite <- Bn in G1. congruence.
    + (* a field of its own *)
      destruct (if (0 <? bp)%nat then ([acc], pos + 1) else ([], pos)) as [flush pos1] eqn:Ef.
      assert (Lf : len (pre ++ flush) = pos1 /\ pos1 = bytes_for (8 * pos + Z.of_nat bp)).
      { rewrite bytes_for_spec by assumption. rewrite len_app.
        destruct (0 <? bp)%nat; injection Ef as <- <-; cbn; lia. }
      destruct Lf as [Lf Ec]. rewrite <- Ec.
      set (k := pad_len pos1 (cip_align t)).
      assert (Ek : pos1 + Z.of_nat k = align_up pos1 (alignment t)).
      { unfold k. rewrite (proj1 (proj1 align_model t)). apply pad_spec, (proj1 alignment_pos), Gt. }
      rewrite Ek.
      destruct (match t with TStruct _ _ => pack t v | _ => (raw_write t v, go_size t) end) as [body s] eqn:Ebody.
      assert (Hbody : shows t v body /\ len body = size t /\ s = size t).
      { clear IHf. destruct t;
          try (apply pair_equal_spec in Ebody; destruct Ebody as [<- <-];
               destruct (simple_plain _ v St I H1) as (P1 & P2 & P3);
               (split; [rewrite P1; apply shows_plain; exact I|split; [exact P3|exact P2]])).
        destruct (IHt v Gt St H1 I) as (I1 & I2 & I3). rewrite Ebody in *. cbn [fst snd] in *.
        split; [exact I1|]. split; [exact I3|]. congruence. }
      destruct Hbody as (Sh & Lb & ->).
      set (o := align_up pos1 (alignment t)) in *.
      specialize (IHf vr (pre ++ flush ++ zeros k ++ body) (o + size t) 0%nat 0 Gf Sf H2).
      destruct (pack_fields fs vr (o + size t) 0 0) as [o2 n] eqn:E2. cbn [fst snd] in IHf |- *.
      assert (La : len ((pre ++ flush) ++ zeros k) = o).
      { rewrite len_app, Lf. unfold zeros, len. rewrite repeat_length. exact Ek. }
      specialize (IHf ltac:(rewrite !app_assoc, len_app, La, Lb; reflexivity) ltac:(lia) ltac:(cbn; lia)).
      rewrite Z.add_0_r in IHf.
      cbv zeta in IHf |- *. destruct IHf as (I1 & I2 & I3 & _).
      rewrite <- !app_assoc in I1, I2, I3.
      split; [split; [|exact I1]|].
      * replace (pre ++ flush ++ zeros k ++ body ++ o2) with (((pre ++ flush) ++ zeros k) ++ body ++ o2)
          by (rewrite <- !app_assoc; reflexivity).
        rewrite slice_mid by assumption. exact Sh.
      * split; [exact I2|]. split; [exact I3|]. intros Hb0. destruct bp; [lia|].
        change (0 <? S bp)%nat with true in Ef. injection Ef as <- <-.
        exists acc, (zeros k ++ body ++ o2). split; [reflexivity|]. apply Z.mod_small; lia.
Qed.

(** Fields do not overlap. *)
Lemma align_up_ge x a : 0 < a -> x <= align_up x a /\ align_up x a mod a = 0.
Proof.
  intros Ha. unfold align_up. pose proof (Z.mod_pos_bound (- x) a Ha). split; [lia|].
  rewrite Z.add_mod_idemp_r by lia. rewrite Z.add_opp_diag_r. apply Z.mod_0_l. lia.
Qed.
Lemma bytes_for_ge c : c <= 8 * bytes_for c.
Proof. unfold bytes_for, align_up. Z.to_euclidean_division_equations. lia. Qed.
Lemma size_nonneg : (forall t, go_type t -> 0 <= size t) /\ (forall fs c, go_fields fs -> c <= cursor_after fs c).
Proof.
  apply gty_mut; cbn [size cursor_after go_type go_fields]; intros; try lia.
  - specialize (H 0 H0). pose proof (bytes_for_ge (cursor_after fs 0)). lia.
  - destruct H1 as [G1 G2]. specialize (H G1).
    destruct (as_bits nopack t).
    + specialize (H0 (c + nbits t) G2). assert (0 <= nbits t) by (destruct t; cbn [nbits]; lia). lia.
    + specialize (H0 (8 * (align_up (bytes_for c) (alignment t) + size t)) G2).
      pose proof (align_up_ge (bytes_for c) (alignment t) (proj1 alignment_pos _ G1)). pose proof (bytes_for_ge c). lia.
Qed.
Fixpoint ordered (c : Z) (l : list (Z * Z)) : Prop :=
  match l with [] => True | (s, e) :: r => c <= s /\ s <= e /\ ordered e r end.
Lemma extents_ordered fs : go_fields fs -> forall c, ordered c (extents fs c).
Proof.
  induction fs as [|np t fs IH]; intros G c; [exact I|]. cbn [go_fields] in G. destruct G as [G1 G2].
  cbn [extents]. cbv zeta. cbn [ordered].
  pose proof (proj1 size_nonneg t G1).
  pose proof (align_up_ge (bytes_for c) (alignment t) (proj1 alignment_pos _ G1)). pose proof (bytes_for_ge c).
  assert (0 <= nbits t) by (destruct t; cbn [nbits]; lia).
  destruct (as_bits np t); repeat split; try lia; apply IH, G2.
Qed.
Lemma ordered_sorted l : forall c, ordered c l -> StronglySorted (fun a b => snd a <= fst b) l /\ Forall (fun x => c <= fst x /\ fst x <= snd x) l.
Proof.
  induction l as [|[s e] l IH]; intros c H; [split; constructor|].
  cbn [ordered] in H. destruct H as (H1 & H2 & H3). destruct (IH e H3) as [S F]. split.
  - constructor; [exact S|]. eapply Forall_impl; [|exact F]. cbn. intros; lia.
  - constructor; [cbn; lia|]. eapply Forall_impl; [|exact F]. cbn. intros; lia.
Qed.

(** ** Type descriptions *)

Definition comma (l : list bytes) : bytes := concat (map (cons 44) l).
Lemma join_comma x l : join 44 (x :: l) = x ++ comma l.
Proof.
  revert x. induction l as [|y l IH]; intros x; [cbn; rewrite app_nil_r; reflexivity|].
  change (join 44 (x :: y :: l)) with (x ++ 44 :: join 44 (y :: l)). rewrite IH. reflexivity.
Qed.

Lemma sints_0 : sints 0 = [].
Proof. reflexivity. Qed.
Lemma sints_next run : 0 <= run -> sints (run + 1) = sints run ++ (if run mod 8 =? 0 then [str "SINT"] else []).
Proof.
  intros. unfold sints. destruct (run mod 8 =? 0) eqn:E.
  - replace (Z.to_nat (bytes_for (run + 1))) with (Z.to_nat (bytes_for run) + 1)%nat
      by (unfold bytes_for, align_up; Z.to_euclidean_division_equations; lia).
    rewrite repeat_app. reflexivity.
  - rewrite app_nil_r. f_equal. f_equal. unfold bytes_for, align_up. Z.to_euclidean_division_equations. lia.
Qed.

Definition struct_described (t : gty) : Prop :=
  match t with TStruct _ _ => regular t -> type_encode t = Ok (described t) | _ => True end.

Lemma encode_described :
  (forall t, struct_described t /\ match t with TArr _ e => struct_described e | _ => True end) /\
  (forall fs run, regular_fields fs run -> 0 <= run ->
     exists l, members fs run = sints run ++ l /\ type_encode_fields fs (Z.to_nat (run mod 8)) = Ok (comma l)).
Proof.
  apply gty_mut; try (intros; split; exact I).
  - intros n t [IH _]. split; [exact I|exact IH].
  - intros name fs IH. split; [|exact I]. intros R. cbn [regular] in R.
    destruct (IH 0 R ltac:(lia)) as (l & E & T). rewrite sints_0 in E. cbn [app] in E.
    cbn [type_encode described]. change (Z.to_nat (0 mod 8)) with 0%nat in T. rewrite T. cbn [bind].
    rewrite join_comma, E. reflexivity.
  - intros run _ _. exists []. cbn [members type_encode_fields]. rewrite app_nil_r. auto.
  - intros np t [IHt IHa] fs IHf run R Hr.
    assert (Next : regular_fields fs 0 -> exists l, members fs 0 = l /\ type_encode_fields fs 0 = Ok (comma l)).
    { intros R0. destruct (IHf 0 R0 ltac:(lia)) as (l & E & T). rewrite sints_0 in E. exists l. auto. }
    cbn [members type_encode_fields].
    destruct t; cbn [regular_fields] in R.
    + destruct R as [-> R]. cbn [as_bits nbits].
      destruct (IHf (run + 1) R ltac:(lia)) as (l & E & T).
      rewrite E, sints_next by lia. rewrite <- app_assoc. eexists. split; [reflexivity|].
      replace (if (8 <=? S (Z.to_nat (run mod 8)))%nat then 0%nat else S (Z.to_nat (run mod 8)))
        with (Z.to_nat ((run + 1) mod 8)).
      2:{ destruct (8 <=? S (Z.to_nat (run mod 8)))%nat eqn:E8; Z.to_euclidean_division_equations; lia. }
      rewrite T. cbn [bind].
      destruct (run mod 8 =? 0) eqn:E0.
      * replace (Z.to_nat (run mod 8) =? 0)%nat with true by lia. reflexivity.
      * replace (Z.to_nat (run mod 8) =? 0)%nat with false by (Z.to_euclidean_division_equations; lia). reflexivity.
    + destruct R as [_ R]. destruct (Next R) as (l & E & T). replace (as_bits np (TInt signed w)) with false by (destruct np; reflexivity).
      rewrite E, T. eexists. split; [reflexivity|]. reflexivity.
    + destruct R as [_ R]. destruct (Next R) as (l & E & T). replace (as_bits np (TFloat w)) with false by (destruct np; reflexivity).
      rewrite E, T. eexists. split; [reflexivity|]. reflexivity.
    + destruct R as (R0 & Re & R). destruct (Next R) as (l & E & T).
      replace (as_bits np (TArr n t)) with false by (destruct np; [reflexivity|]; destruct t; try contradiction; reflexivity).
      rewrite E. rewrite R0. change (Z.to_nat 0) with 0%nat. rewrite T.
      eexists. split; [reflexivity|].
      destruct t; try contradiction.
      * cbn [bind]. unfold comma at 2. cbn [map concat described]. cbn [app]; rewrite <- ?app_assoc; reflexivity.
      * cbn [bind]. unfold comma at 2. cbn [map concat described]. cbn [app]; rewrite <- ?app_assoc; reflexivity.
      * destruct Re as [Hn Re]. replace (n =? 0)%nat with false by lia.
        rewrite (IHa Re). cbn [bind]. unfold comma at 2. cbn [map concat].
        change (described (TArr n (TStruct name fs0))) with (described (TStruct name fs0) ++ str "[" ++ dec (Z.of_nat n) ++ str "]").
        cbn [app]; rewrite <- ?app_assoc; reflexivity.
    + destruct R as [Rt R]. destruct (Next R) as (l & E & T).
      replace (as_bits np (TStruct name fs0)) with false by (destruct np; reflexivity).
      rewrite E. rewrite (IHt Rt), T. cbn [bind]. eexists. split; [reflexivity|].
      unfold comma at 2. cbn [map concat]. cbn [app]; rewrite <- ?app_assoc; reflexivity.
Qed.

(** ** Slices *)

Lemma read_some_pad pad x k : length pad = S k -> read_some (S k) (pad ++ x) = Ok x.
Proof.
  intros L. destruct pad as [|p pad]; [discriminate|].
  transitivity (Ok (skipn (S k) ((p :: pad) ++ x))); [reflexivity|].
  f_equal. apply skipn_app_exact. exact L.
Qed.

Lemma slice_unpack t vs bs :
  go_type t -> simple_arrays t -> match t with TStruct _ _ => True | _ => False end ->
  Forall2 (fun v b => has_type t v /\ exists pad, b = fst (pack t v) ++ pad /\ len b = align_up (size t) (alignment t)) vs bs ->
  forall rest cnt, unpack_slice (length vs) t (concat bs ++ rest) cnt = Ok ((vs, cnt + len (concat bs)), rest).
Proof.
  intros G S St. induction 1 as [|v b vs bs (Hv & pad & Eb & Lb) F IH]; intros rest cnt.
  - cbn. rewrite Z.add_0_r. reflexivity.
  - cbn [length unpack_slice concat]. rewrite <- app_assoc. rewrite Eb at 1. rewrite <- app_assoc.
    rewrite (proj1 pack_unpack t v _ Hv St). cbn [bind fst snd]. cbv zeta.
    destruct (proj1 placed t v G S Hv St) as (_ & E1 & E2). rewrite E1, E2.
    rewrite (proj1 (proj1 align_model t)).
    pose proof (proj1 alignment_pos t G) as Ha. pose proof (proj1 size_nonneg t G).
    assert (Lp : len pad = (- size t) mod alignment t).
    { rewrite Eb, len_app, E2 in Lb. unfold align_up in Lb. lia. }
    pose proof (Z.mod_pos_bound (size t) (alignment t) Ha).
    destruct (size t mod alignment t =? 0) eqn:E0.
    + rewrite Z.mod_opp_l_z in Lp by lia. destruct pad; [|unfold len in Lp; cbn [length] in Lp; lia].
      cbn [app bind]. rewrite IH. cbn [bind fst snd]. rewrite app_nil_r in Eb. rewrite Eb, len_app, E2.
      apply f_equal, f_equal2; [apply f_equal; lia|reflexivity].
    + rewrite Z.mod_opp_l_nz in Lp by lia.
      destruct (Z.to_nat (alignment t - size t mod alignment t)) as [|k] eqn:Ek; [lia|].
      rewrite read_some_pad by (unfold len in Lp; lia). cbn [bind fst snd].
      replace (Z.min (Z.of_nat (Datatypes.S k)) (len (pad ++ concat bs ++ rest))) with (len pad)
        by (rewrite !len_app; unfold len in *; lia).
      rewrite IH. cbn [bind fst snd]. rewrite Eb, !len_app, E2. apply f_equal, f_equal2; [apply f_equal; lia|reflexivity].
Qed.
