(** * C49: TIMER, COUNTER and CONTROL *)
From Verif Require Import GoBase LgxModel LgxSpec LgxProof.

Ltac flag_range := repeat (apply Forall_cons; [cbn; lia|]); apply Forall_nil.
Ltac flag_nodup := cbn [map fst]; repeat (apply NoDup_cons; [cbn; lia|]); apply NoDup_nil.

(** Where everything goes, and how many bytes. *)
Theorem C49_layout : (forall t, laid_out (timer_flags t) (tm_pre t) (tm_acc t) (fst (timer_pack t)) /\ snd (timer_pack t) = len (fst (timer_pack t)) /\ snd (timer_pack t) = 12) /\
  (forall t, laid_out (counter_flags t) (ct_pre t) (ct_acc t) (fst (counter_pack t)) /\ snd (counter_pack t) = len (fst (counter_pack t)) /\ snd (counter_pack t) = 12) /\
  (forall t, laid_out (control_flags t) (cl_len t) (cl_pos t) (fst (control_pack t)) /\ snd (control_pack t) = len (fst (control_pack t)) /\ snd (control_pack t) = 12).
Proof.
  assert (L : forall w a b, 12 = len (le 4 w ++ le 4 a ++ le 4 b)) by (intros; now rewrite !len_app, !le_len).
  split; [|split]; intro t; (split; [|split; [apply L|reflexivity]]).
  - exists (word_of (timer_flags t)). split; [reflexivity|]. split; [apply word_range; flag_range|]. intros n Hn. apply word_bits; [flag_range|exact Hn].
  - exists (word_of (counter_flags t)). split; [reflexivity|]. split; [apply word_range; flag_range|]. intros n Hn. apply word_bits; [flag_range|exact Hn].
  - exists (word_of (control_flags t)). split; [reflexivity|]. split; [apply word_range; flag_range|]. intros n Hn. apply word_bits; [flag_range|exact Hn].
Qed.
Print Assumptions C49_layout.
Example ex_C49_layout : fst (timer_pack (Timer 5000 (-1) true false true false false false false)) =
  [0; 0; 0; 0xA0; 0x88; 0x13; 0; 0; 0xFF; 0xFF; 0xFF; 0xFF].
Proof. reflexivity. Qed.

(** Counters and controls come back as they were, whatever was in the target. *)
Theorem C49_counter : forall t t0 rest, counter_ok t -> counter_unpack t0 (fst (counter_pack t) ++ rest) = (t, 12, Ok tt, rest).
Proof.
  intros t t0 rest [Hp Ha]. change (fst (counter_pack t)) with (le 4 (word_of (counter_flags t)) ++ le 4 (ct_pre t) ++ le 4 (ct_acc t)).
  unfold counter_unpack. rewrite unpack3_run; [|apply word_range; flag_range|exact Hp|exact Ha]. cbn [ct_pre ct_acc ct_cu ct_cd ct_dn ct_ov ct_un].
  rewrite (word_flag (counter_flags t) 31 (ct_cu t)), (word_flag (counter_flags t) 30 (ct_cd t)), (word_flag (counter_flags t) 29 (ct_dn t)),
    (word_flag (counter_flags t) 28 (ct_ov t)), (word_flag (counter_flags t) 27 (ct_un t)); try (cbn; tauto); try flag_nodup; try flag_range.
  now destruct t.
Qed.
Print Assumptions C49_counter.
Example ex_C49_counter : counter_ok (Counter (-5) 2147483647 true false true false true).
Proof. split; unfold int32; cbn; lia. Qed.
Theorem C49_control : forall t t0 rest, control_ok t -> control_unpack t0 (fst (control_pack t) ++ rest) = (t, 12, Ok tt, rest).
Proof.
  intros t t0 rest [Hp Ha]. change (fst (control_pack t)) with (le 4 (word_of (control_flags t)) ++ le 4 (cl_len t) ++ le 4 (cl_pos t)).
  unfold control_unpack. rewrite unpack3_run; [|apply word_range; flag_range|exact Hp|exact Ha]. cbn [cl_len cl_pos cl_en cl_eu cl_dn cl_em cl_er cl_ul cl_in cl_fd].
  rewrite (word_flag (control_flags t) 31 (cl_en t)), (word_flag (control_flags t) 30 (cl_eu t)), (word_flag (control_flags t) 29 (cl_dn t)),
    (word_flag (control_flags t) 28 (cl_em t)), (word_flag (control_flags t) 27 (cl_er t)), (word_flag (control_flags t) 26 (cl_ul t)),
    (word_flag (control_flags t) 25 (cl_in t)), (word_flag (control_flags t) 24 (cl_fd t)); try (cbn; tauto); try flag_nodup; try flag_range.
  now destruct t.
Qed.
Print Assumptions C49_control.
Example ex_C49_control : control_ok (Control (-2147483648) 7 true false true false true true false true).
Proof. split; unfold int32; cbn; lia. Qed.

(** Timers come back but for the four unused bits, which keep what the target
    had: unchanged when they are equal there, and only then. *)
Theorem C49_timer_partial : forall t t0 rest, timer_ok t -> exists t1,
  timer_unpack t0 (fst (timer_pack t) ++ rest) = (t1, 12, Ok tt, rest) /\ (t1 = t <-> unused_bits t0 = unused_bits t) /\
  tm_pre t1 = tm_pre t /\ tm_acc t1 = tm_acc t /\ tm_en t1 = tm_en t /\ tm_tt t1 = tm_tt t /\ tm_dn t1 = tm_dn t /\ unused_bits t1 = unused_bits t0.
Proof.
  intros t t0 rest [Hp Ha]. change (fst (timer_pack t)) with (le 4 (word_of (timer_flags t)) ++ le 4 (tm_pre t) ++ le 4 (tm_acc t)).
  unfold timer_unpack. rewrite unpack3_run; [|apply word_range; flag_range|exact Hp|exact Ha]. cbn [tm_pre tm_acc tm_en tm_tt tm_dn tm_fs tm_ls tm_ov tm_er].
  rewrite (word_flag (timer_flags t) 31 (tm_en t)), (word_flag (timer_flags t) 30 (tm_tt t)), (word_flag (timer_flags t) 29 (tm_dn t));
    try (cbn; tauto); try flag_nodup; try flag_range.
  eexists. split; [reflexivity|]. cbn [unused_bits tm_pre tm_acc tm_en tm_tt tm_dn tm_fs tm_ls tm_ov tm_er].
  split; [|auto 10]. destruct t as [a b c d e f g h i], t0 as [a' b' c' d' e' f' g' h' i']. cbn [unused_bits tm_pre tm_acc tm_en tm_tt tm_dn tm_fs tm_ls tm_ov tm_er].
  unfold unused_bits; cbn [tm_fs tm_ls tm_ov tm_er].
  split; intro E; injection E; intros; subst; reflexivity.
Qed.
Print Assumptions C49_timer_partial.
Example ex_C49_timer : timer_ok (Timer 5000 (-1) true false true false false false false) /\
  unused_bits (Timer 0 0 false false false false false false false) = unused_bits (Timer 5000 (-1) true false true false false false false).
Proof. split; [split; unfold int32; cbn; lia|reflexivity]. Qed.
(** In full it is false: a timer with FS set, unpacked into a new one. *)
Theorem C49_timer_refuted : exists t, timer_ok t /\
  fst (fst (fst (timer_unpack (Timer 0 0 false false false false false false false) (fst (timer_pack t))))) <> t.
Proof.
  exists (Timer 1 2 false false false true false false false). split; [split; unfold int32; cbn; lia|]. vm_compute. discriminate.
Qed.

(** Whatever twelve bytes a controller sends, the flags are the bits of the
    first word and the numbers the two others. *)
Theorem C49_unpack : forall r, bytes_ok r -> (12 <= length r)%nat -> exists w a b rest,
  r = le 4 w ++ le 4 a ++ le 4 b ++ rest /\ 0 <= w < 2 ^ 32 /\ int32 a /\ int32 b /\
  (forall t0, exists t, timer_unpack t0 r = (t, 12, Ok tt, rest) /\ tm_pre t = a /\ tm_acc t = b /\
     forall n f, In (n, f) (timer_flags t) -> Z.testbit w n = f) /\
  (forall t0, exists t, counter_unpack t0 r = (t, 12, Ok tt, rest) /\ ct_pre t = a /\ ct_acc t = b /\
     forall n f, In (n, f) (counter_flags t) -> Z.testbit w n = f) /\
  (forall t0, exists t, control_unpack t0 r = (t, 12, Ok tt, rest) /\ cl_len t = a /\ cl_pos t = b /\
     forall n f, In (n, f) (control_flags t) -> Z.testbit w n = f).
Proof.
  intros r B L. destruct (unpack3_bytes (fun _ (u : unit) => u) (fun _ u => u) (fun _ u => u) tt r B L) as (w & a & b & rest & E & Hw & Ha & Hb & _).
  exists w, a, b, rest. split; [exact E|]. split; [exact Hw|]. split; [exact Ha|]. split; [exact Hb|].
  assert (R : forall A f g h (t : A), unpack3 f g h t r = (h b (g a (f w t)), 12, Ok tt, rest)).
  { intros A f g h t. rewrite E, (app_assoc (le 4 a)), (app_assoc (le 4 w)). now apply unpack3_run. }
  split; [|split]; intro t0; (eexists; split; [apply R|]; split; [reflexivity|]; split; [reflexivity|]; intros n f I; cbn in I;
    repeat match type of I with _ \/ _ => destruct I as [I|I] end; [injection I as <- <-; now rewrite has_bit_testbit by lia..|contradiction]).
Qed.
Print Assumptions C49_unpack.
Example ex_C49_unpack : counter_unpack (Counter 0 0 false false false false false) ([0xFF; 0; 0; 0xC8] ++ le 4 9 ++ le 4 (-3) ++ [1; 2]) =
  (Counter 9 (-3) true true false false true, 12, Ok tt, [1; 2]).
Proof. reflexivity. Qed.
(** A source that ends before: an error, and the count says how many whole words
    were taken. *)
Theorem C49_short : forall r, (length r < 12)%nat ->
  (forall t0, exists t e, timer_unpack t0 r = (t, 4 * (len r / 4), Err e, [])) /\
  (forall t0, exists t e, counter_unpack t0 r = (t, 4 * (len r / 4), Err e, [])) /\
  (forall t0, exists t e, control_unpack t0 r = (t, 4 * (len r / 4), Err e, [])).
Proof.
  intros r L. split; [|split]; intro t0.
  - destruct (unpack3_short _ _ _ t0 r L : exists t n e, timer_unpack t0 r = _ /\ _) as (t & n & e & E & ->). now exists t, e.
  - destruct (unpack3_short _ _ _ t0 r L : exists t n e, counter_unpack t0 r = _ /\ _) as (t & n & e & E & ->). now exists t, e.
  - destruct (unpack3_short _ _ _ t0 r L : exists t n e, control_unpack t0 r = _ /\ _) as (t & n & e & E & ->). now exists t, e.
Qed.
Print Assumptions C49_short.
