(** * Lemmas about the Logix structures *)
From Verif Require Import GoBase LgxModel LgxSpec ReadProof.

Lemma has_bit_testbit w n : 0 <= n -> has_bit w n = Z.testbit w n.
Proof. intro H. unfold has_bit. rewrite Z.shiftl_1_l, land_pow2 by exact H. apply negb_involutive. Qed.
Lemma or_bit_testbit n b w m : 0 <= n -> 0 <= m -> Z.testbit (or_bit n b w) m = (b && (m =? n)) || Z.testbit w m.
Proof.
  intros Hn Hm. unfold or_bit. destruct b; [|reflexivity]. rewrite Z.lor_spec, Z.shiftl_1_l, orb_comm. f_equal. cbn [andb].
  destruct (Z.eqb_spec m n) as [->|N]; [now apply Z.pow2_bits_true|]. now apply Z.pow2_bits_false; lia.
Qed.
Lemma or_bit_range n b w : 0 <= n < 32 -> 0 <= w < 2 ^ 32 -> 0 <= or_bit n b w < 2 ^ 32.
Proof.
  intros Hn Hw. unfold or_bit. destruct b; [|exact Hw]. rewrite Z.shiftl_1_l. split; [apply Z.lor_nonneg; lia|].
  destruct (Z.eq_dec (Z.lor w (2 ^ n)) 0) as [->|N]; [lia|].
  assert (0 < Z.lor w (2 ^ n)) by (assert (0 <= Z.lor w (2 ^ n)) by (apply Z.lor_nonneg; lia); lia).
  apply Z.log2_lt_pow2; [lia|]. rewrite Z.log2_lor by lia. rewrite Z.log2_pow2 by lia.
  assert (Z.log2 w < 32); [|lia]. destruct (Z.eq_dec w 0) as [->|]; [cbn; lia|]. apply Z.log2_lt_pow2; lia.
Qed.
(** The control word built bit by bit. *)
Definition word_of (flags : list (Z * bool)) : Z := fold_left (fun w f => or_bit (fst f) (snd f) w) flags 0.
Lemma word_bits flags n : Forall (fun f => 0 <= fst f < 32) flags -> 0 <= n ->
  Z.testbit (word_of flags) n = true <-> In (n, true) flags.
Proof.
  intros F Hn. unfold word_of.
  assert (G : forall w, Z.testbit (fold_left (fun w f => or_bit (fst f) (snd f) w) flags w) n = true <-> In (n, true) flags \/ Z.testbit w n = true).
  { induction F as [|[m b] l Hm _ IH]; intro w; cbn [fold_left In]; [tauto|]. rewrite IH. cbn [fst snd] in *.
    rewrite or_bit_testbit by lia. rewrite orb_true_iff, andb_true_iff, Z.eqb_eq.
    split; [intros [H|[[-> ->]|H]]; auto|]. intros [[E|H]|H]; auto. injection E as -> ->. auto. }
  rewrite G, Z.bits_0. split; [intros [H|H]; [exact H|discriminate]|now left].
Qed.
Lemma word_range flags : Forall (fun f => 0 <= fst f < 32) flags -> 0 <= word_of flags < 2 ^ 32.
Proof.
  intro F. unfold word_of. assert (G : forall w, 0 <= w < 2 ^ 32 -> 0 <= fold_left (fun w f => or_bit (fst f) (snd f) w) flags w < 2 ^ 32).
  { induction F as [|[m b] l Hm _ IH]; intros w Hw; cbn [fold_left]; [exact Hw|]. apply IH. now apply or_bit_range. }
  apply G. lia.
Qed.
(** A flag that is listed once. *)
Lemma word_flag flags n b : Forall (fun f => 0 <= fst f < 32) flags -> NoDup (map fst flags) -> In (n, b) flags ->
  has_bit (word_of flags) n = b.
Proof.
  intros F D I. assert (Hn : 0 <= n) by (rewrite Forall_forall in F; specialize (F _ I); cbn in F; lia).
  rewrite has_bit_testbit by exact Hn. destruct (Z.testbit (word_of flags) n) eqn:E.
  - apply word_bits in E; [|exact F|exact Hn]. clear - D I E.
    induction flags as [|[m c] l IH]; [contradiction|]. cbn [map fst] in D. inversion D as [|? ? N D']; subst.
    destruct I as [I|I], E as [E|E].
    + congruence.
    + injection I as -> ->. elim N. now apply (in_map fst) in E.
    + injection E as -> ->. elim N. now apply (in_map fst) in I.
    + now apply IH.
  - destruct b; [|reflexivity]. assert (Z.testbit (word_of flags) n = true) by (now apply word_bits). congruence.
Qed.

Lemma unpack3_run {A} flags first second (t : A) w a b rest : 0 <= w < 2 ^ 32 -> int32 a -> int32 b ->
  unpack3 flags first second t ((le 4 w ++ le 4 a ++ le 4 b) ++ rest) = (second b (first a (flags w t)), 12, Ok tt, rest).
Proof.
  intros W Ha Hb. unfold unpack3. rewrite <- !app_assoc.
  rewrite rd_app by apply le_length. rewrite rd_app by apply le_length. rewrite rd_app by apply le_length.
  rewrite (unle_le_small 4 w) by (cbn; lia). unfold int32 in *.
  rewrite !unle_le. change (2 ^ (8 * Z.of_nat 4)) with (2 ^ 32). rewrite !sgn_mod by lia. now rewrite !sgn_id by (cbn; lia).
Qed.
(** Too few bytes. *)
Lemma unpack3_short {A} flags first second (t : A) r : (length r < 12)%nat ->
  exists t' n e, unpack3 flags first second t r = (t', n, Err e, []) /\ n = 4 * (len r / 4).
Proof.
  intro L. unfold unpack3, len.
  assert (Sh : forall r' : bytes, (length r' < 4)%nat -> exists e, rd 4 r' = Err e).
  { intros r' L'. unfold rd. rewrite (proj2 (Nat.leb_gt _ _)) by exact L'. destruct r'; eauto. }
  assert (Lo : forall r' : bytes, (4 <= length r')%nat -> rd 4 r' = Ok (firstn 4 r', skipn 4 r') /\ length (skipn 4 r') = (length r' - 4)%nat).
  { intros r' L'. unfold rd. rewrite (proj2 (Nat.leb_le _ _)) by exact L'. split; [reflexivity|apply skipn_length]. }
  destruct (Nat.leb_spec 4 (length r)) as [L1|L1].
  - destruct (Lo r L1) as [-> E1]. destruct (Nat.leb_spec 4 (length (skipn 4 r))) as [L2|L2].
    + destruct (Lo _ L2) as [-> E2]. destruct (Sh (skipn 4 (skipn 4 r))) as (e & ->); [lia|].
      do 3 eexists. split; [reflexivity|]. lia.
    + destruct (Sh _ L2) as (e & ->). do 3 eexists. split; [reflexivity|]. lia.
  - destruct (Sh _ L1) as (e & ->). do 3 eexists. split; [reflexivity|]. lia.
Qed.
(** Any twelve bytes. *)
Lemma unpack3_bytes {A} flags first second (t : A) r : bytes_ok r -> (12 <= length r)%nat -> exists w a b rest,
  r = le 4 w ++ le 4 a ++ le 4 b ++ rest /\ 0 <= w < 2 ^ 32 /\ int32 a /\ int32 b /\
  unpack3 flags first second t r = (second b (first a (flags w t)), 12, Ok tt, rest).
Proof.
  intros B L.
  assert (G : forall r', bytes_ok r' -> (4 <= length r')%nat -> exists z rest, 0 <= z < 2 ^ 32 /\ r' = le 4 z ++ rest /\ bytes_ok rest /\ length r' = (4 + length rest)%nat).
  { intros r' B' L'. exists (unle (firstn 4 r')), (skipn 4 r'). assert (L4 : length (firstn 4 r') = 4%nat) by (rewrite firstn_length; lia).
    assert (Bf : bytes_ok (firstn 4 r')) by (rewrite <- (firstn_skipn 4 r') in B'; now apply Forall_app in B').
    assert (Bs : bytes_ok (skipn 4 r')) by (rewrite <- (firstn_skipn 4 r') in B'; now apply Forall_app in B').
    split; [pose proof (unle_bound _ Bf) as U; unfold len in U; rewrite L4 in U; cbn in U |- *; lia|].
    split; [|split; [exact Bs|rewrite skipn_length; lia]]. rewrite <- L4 at 1. rewrite le_unle by exact Bf. now rewrite firstn_skipn. }
  destruct (G r B) as (w & r1 & Hw & -> & B1 & L1); [lia|].
  destruct (G r1 B1) as (x & r2 & Hx & -> & B2 & L2); [rewrite !app_length, le_length in L; lia|].
  destruct (G r2 B2) as (y & r3 & Hy & -> & B3 & L3); [rewrite !app_length, !le_length in L; lia|].
  assert (S : forall z, int32 (sgn 32 z) /\ le 4 (sgn 32 z) = le 4 z).
  { intro z. split; [unfold int32; apply (sgn_range 32); lia|]. rewrite <- (le_mod 4 (sgn 32 z)), <- (le_mod 4 z). f_equal.
    unfold sgn. change (2 ^ (8 * Z.of_nat 4)) with (2 ^ 32). destruct (_ <? _); [now rewrite Z.mod_mod by lia|].
    replace (z mod 2 ^ 32 - 2 ^ 32) with (z mod 2 ^ 32 + (-1) * 2 ^ 32) by lia. rewrite Z.mod_add by lia. apply Z.mod_mod. lia. }
  exists w, (sgn 32 x), (sgn 32 y), r3. rewrite (proj2 (S x)), (proj2 (S y)).
  split; [reflexivity|]. split; [exact Hw|]. split; [apply S|]. split; [apply S|].
  rewrite <- (proj2 (S x)) at 1. rewrite <- (proj2 (S y)) at 1. rewrite (app_assoc (le 4 (sgn 32 x))), (app_assoc (le 4 w)).
  apply unpack3_run; [exact Hw|apply S|apply S].
Qed.
