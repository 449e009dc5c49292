(** * Property C09: logical segments *)
From Verif Require Import GoBase SegModel SegSpec SegProof.

(** Class, instance and attribute segments: reference form, smallest width,
    decode back with any bytes following, truthful Len. *)
Theorem C09_class_segment : forall p rest, 0 <= p < 2 ^ 16 ->
  class_bytes p = class_segment p /\ class_read (class_bytes p ++ rest) = Ok (p, rest) /\
  len (class_bytes p) = class_len p.
Proof. exact (fun p rest H => conj (class_bytes_spec p H) (conj (class_read_bytes p rest H) (class_len_ok p (proj1 H)))). Qed.
Print Assumptions C09_class_segment.

Theorem C09_instance_segment : forall p rest, 0 <= p < 2 ^ 32 ->
  instance_bytes p = instance_segment p /\ instance_read (instance_bytes p ++ rest) = Ok (p, rest) /\
  len (instance_bytes p) = instance_len p.
Proof. exact (fun p rest H => conj (instance_bytes_spec p H) (conj (instance_read_bytes p rest H) (instance_len_ok p (proj1 H)))). Qed.
Print Assumptions C09_instance_segment.

Theorem C09_attribute_segment : forall p rest, 0 <= p < 2 ^ 16 ->
  attribute_bytes p = attribute_segment p /\ attribute_read (attribute_bytes p ++ rest) = Ok (p, rest) /\
  len (attribute_bytes p) = attribute_len p.
Proof. exact (fun p rest H => conj (attribute_bytes_spec p H) (conj (attribute_read_bytes p rest H) (attribute_len_ok p (proj1 H)))). Qed.
Print Assumptions C09_attribute_segment.

(** Elements below 65535 (above: see the refutation). *)
Theorem C09_element_segment_partial : forall p, 0 <= p < 65535 ->
  element_bytes p = elem_segment p /\ len (element_bytes p) = element_len p.
Proof.
  exact element_segment_small.
Qed.
Print Assumptions C09_element_segment_partial.

(** The type byte of the reference form announces the width carried. *)
Theorem C09_width_announced : forall base n, base mod 4 = 0 -> 0 <= base -> 0 <= n < 2 ^ 32 ->
  exists t r, logical base n = t :: r /\ announced_width t = carried_width (logical base n).
Proof. exact logical_width. Qed.
Print Assumptions C09_width_announced.

(** Arbitrary bytes never panic a segment reader. *)
Theorem C09_readers_never_panic : forall r,
  class_read r <> Panic /\ instance_read r <> Panic /\ attribute_read r <> Panic.
Proof. exact seg_reads_safe. Qed.
Print Assumptions C09_readers_never_panic.

(** Full statement refuted for elements: 32-bit elements announce 16 bits, and
    element 65535 reports 6 bytes but occupies 4. *)
Theorem C09_element_segment_refuted :
  (exists p t r, 0 <= p < 2 ^ 32 /\ element_bytes p = t :: r /\
     announced_width t <> carried_width (element_bytes p)) /\
  (exists p, 0 <= p < 2 ^ 32 /\ len (element_bytes p) <> element_len p).
Proof.
  split.
  - exists 70000. eexists. eexists. split; [lia|]. split; [vm_compute; reflexivity|]. vm_compute. discriminate.
  - exists 65535. split; [lia|]. vm_compute. discriminate.
Qed.
Print Assumptions C09_element_segment_refuted.

(** Node addresses and ports misreport their length too. *)
Theorem C09_address_port_len_refuted :
  (exists p, len (address_bytes p) <> address_len p) /\
  (exists no, len (port_bytes no 0) <> port_len).
Proof. split; exists 1; vm_compute; discriminate. Qed.
Print Assumptions C09_address_port_len_refuted.

Example ex_C09 : instance_bytes 70000 = [0x26; 0; 0x70; 0x11; 1; 0] /\
  instance_read ([0x26; 0; 0x70; 0x11; 1; 0] ++ [9]) = Ok (70000, [9]) /\
  class_bytes 0x6B = [0x20; 0x6B] /\ attribute_bytes 300 = [0x31; 0; 0x2C; 1].
Proof. vm_compute. repeat split; reflexivity. Qed.
