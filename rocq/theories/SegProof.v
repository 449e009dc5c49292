From Verif Require Import GoBase SegModel SegSpec.

Lemma div_chain z : z / 256 / 256 = z / 65536 /\ z / 256 / 256 / 256 = z / 16777216.
Proof. rewrite !Z.div_div by lia. split; reflexivity. Qed.

Lemma wide2 base p : 256 <= p < 65536 -> [base; 0] ++ le 2 p = [base; 0; p mod 256; p / 256].
Proof. intro. cbn [le app]. replace ((p / 256) mod 256) with (p / 256) by lia. reflexivity. Qed.
Lemma wide4 base p : 0 <= p < 2 ^ 32 -> [base; 0] ++ le 4 p =
  [base; 0; p mod 256; (p / 2 ^ 8) mod 256; (p / 2 ^ 16) mod 256; p / 2 ^ 24].
Proof.
  intro. cbn [le app]. destruct (div_chain p) as [-> ->].
  change (2 ^ 8) with 256. change (2 ^ 16) with 65536. change (2 ^ 24) with 16777216.
  replace ((p / 16777216) mod 256) with (p / 16777216) by lia. reflexivity.
Qed.

Ltac segs := unfold class_bytes, instance_bytes, attribute_bytes, element_bytes,
  class_segment, instance_segment, attribute_segment, elem_segment, logical;
  change (2 ^ 8) with 256; change (2 ^ 16) with 65536.

Lemma class_bytes_spec p : 0 <= p < 2 ^ 16 -> class_bytes p = class_segment p.
Proof.
  intro. segs. destruct (Z.ltb_spec p 256); [reflexivity|].
  destruct (Z.ltb_spec p 65536); [|lia]. rewrite wide2 by lia. reflexivity.
Qed.
Lemma attribute_bytes_spec p : 0 <= p < 2 ^ 16 -> attribute_bytes p = attribute_segment p.
Proof.
  intro. segs. destruct (Z.ltb_spec p 256); [reflexivity|].
  destruct (Z.ltb_spec p 65536); [|lia]. rewrite wide2 by lia. reflexivity.
Qed.
Lemma instance_bytes_spec p : 0 <= p < 2 ^ 32 -> instance_bytes p = instance_segment p.
Proof.
  intro. segs. destruct (Z.ltb_spec p 256); [reflexivity|].
  destruct (Z.leb_spec p 65535), (Z.ltb_spec p 65536); try lia.
  - rewrite wide2 by lia. reflexivity.
  - rewrite wide4 by lia. reflexivity.
Qed.
Lemma element_bytes_spec p : 0 <= p < 2 ^ 16 -> element_bytes p = elem_segment p.
Proof.
  intro. segs. destruct (Z.ltb_spec p 256); [reflexivity|].
  destruct (Z.ltb_spec p 65536); [|lia]. rewrite wide2 by lia. reflexivity.
Qed.

Lemma unle1 b : unle [b] = b. Proof. cbn [unle]. lia. Qed.
Lemma rd1 b r : rd 1 (b :: r) = Ok ([b], r). Proof. reflexivity. Qed.

Lemma class_read_bytes p rest : 0 <= p < 2 ^ 16 -> class_read (class_bytes p ++ rest) = Ok (p, rest).
Proof.
  intro. unfold class_bytes, class_read. destruct (Z.ltb_spec p 256).
  - cbn [app]. rewrite rd1. cbn [bind]. change (unle [32] =? 32) with true. cbn iota.
    rewrite rd1. cbn [bind]. now rewrite unle1.
  - rewrite <- app_assoc. cbn [app]. rewrite rd1. cbn [bind].
    change (unle [33] =? 32) with false. change (unle [33] =? 33) with true. cbn iota.
    rewrite rd1. cbn [bind]. rewrite rd_app by apply le_length. cbn [bind].
    rewrite unle_le_small by (change (256 ^ Z.of_nat 2) with (2 ^ 16); lia). reflexivity.
Qed.
Lemma attribute_read_bytes p rest : 0 <= p < 2 ^ 16 -> attribute_read (attribute_bytes p ++ rest) = Ok (p, rest).
Proof.
  intro. unfold attribute_bytes, attribute_read. destruct (Z.ltb_spec p 256).
  - cbn [app]. rewrite rd1. cbn [bind]. change (unle [48] =? 48) with true. cbn iota.
    rewrite rd1. cbn [bind]. now rewrite unle1.
  - rewrite <- app_assoc. cbn [app]. rewrite rd1. cbn [bind].
    change (unle [49] =? 48) with false. change (unle [49] =? 49) with true. cbn iota.
    rewrite rd1. cbn [bind]. rewrite rd_app by apply le_length. cbn [bind].
    rewrite unle_le_small by (change (256 ^ Z.of_nat 2) with (2 ^ 16); lia). reflexivity.
Qed.
Lemma instance_read_bytes p rest : 0 <= p < 2 ^ 32 -> instance_read (instance_bytes p ++ rest) = Ok (p, rest).
Proof.
  intro. unfold instance_bytes, instance_read. destruct (Z.ltb_spec p 256).
  - cbn [app]. rewrite rd1. cbn [bind]. change (unle [36] =? 36) with true. cbn iota.
    rewrite rd1. cbn [bind]. now rewrite unle1.
  - destruct (Z.leb_spec p 65535).
    + rewrite <- app_assoc. cbn [app]. rewrite rd1. cbn [bind].
      change (unle [37] =? 36) with false. change (unle [37] =? 37) with true. cbn iota.
      rewrite rd1. cbn [bind]. rewrite rd_app by apply le_length. cbn [bind].
      rewrite unle_le_small by (change (256 ^ Z.of_nat 2) with 65536; lia). reflexivity.
    + rewrite <- app_assoc. cbn [app]. rewrite rd1. cbn [bind].
      change (unle [38] =? 36) with false. change (unle [38] =? 37) with false.
      change (unle [38] =? 38) with true. cbn iota.
      rewrite rd1. cbn [bind]. rewrite rd_app by apply le_length. cbn [bind].
      rewrite unle_le_small by (change (256 ^ Z.of_nat 4) with (2 ^ 32); lia). reflexivity.
Qed.

Lemma class_len_ok p : 0 <= p -> len (class_bytes p) = class_len p.
Proof. intro. unfold class_bytes, class_len. destruct (p <? 256); reflexivity. Qed.
Lemma attribute_len_ok p : 0 <= p -> len (attribute_bytes p) = attribute_len p.
Proof. intro. unfold attribute_bytes, attribute_len. destruct (p <? 256); reflexivity. Qed.
Lemma instance_len_ok p : 0 <= p -> len (instance_bytes p) = instance_len p.
Proof. intro. unfold instance_bytes, instance_len. destruct (p <? 256); [reflexivity|].
  destruct (p <=? 65535); reflexivity. Qed.
Lemma element_len_ok p : 0 <= p -> p <> 65535 -> len (element_bytes p) = element_len p.
Proof. intros. unfold element_bytes, element_len. destruct (Z.ltb_spec p 256); [reflexivity|].
  destruct (Z.ltb_spec p 65536), (Z.ltb_spec p 65535); try lia; reflexivity. Qed.

(** Announced and carried width agree for the reference form. *)
Lemma logical_width base n : base mod 4 = 0 -> 0 <= base -> 0 <= n < 2 ^ 32 ->
  exists t r, logical base n = t :: r /\ announced_width t = carried_width (logical base n).
Proof.
  intros B B0 H. unfold logical.
  destruct (n <? 2 ^ 8); [|destruct (n <? 2 ^ 16)]; eexists; eexists; (split; [reflexivity|]);
  unfold announced_width, carried_width.
  - rewrite B. reflexivity.
  - replace ((base + 1) mod 4) with 1 by lia. reflexivity.
  - replace ((base + 2) mod 4) with 2 by lia. reflexivity.
Qed.

(** No bytes make a segment reader panic or loop. *)
Lemma bind_rd_safe {A} n r (k : bytes * bytes -> res A) :
  (forall x, k x <> Panic) -> bind (rd n r) k <> Panic.
Proof.
  intros H. destruct (rd n r) eqn:E; cbn [bind]; try discriminate; [apply H|now apply rd_no_panic in E].
Qed.
Lemma seg_reads_safe r : class_read r <> Panic /\ instance_read r <> Panic /\ attribute_read r <> Panic.
Proof.
  repeat split;
  (apply bind_rd_safe; intros [t r1];
   repeat match goal with
          | |- (if ?b then _ else _) <> _ => destruct b
          | |- bind (rd _ _) _ <> Panic => apply bind_rd_safe; intros [? ?]
          | |- (let '(_, _) := (_, _) in _) <> _ => cbv beta iota
          end; discriminate).
Qed.

Lemma element_segment_small p : 0 <= p < 65535 ->
  element_bytes p = elem_segment p /\ len (element_bytes p) = element_len p.
Proof. intro H. split; [apply element_bytes_spec; lia|apply element_len_ok; lia]. Qed.
