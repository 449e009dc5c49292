(** * Logix structures with their own packing (lgxtypes/timer.go, counter.go, control.go) *)
From Verif Require Import GoBase.

(** timer.go L8-23: PRE, ACC (int32) and the flags. *)
Record timer := Timer { tm_pre : Z; tm_acc : Z; tm_en : bool; tm_tt : bool; tm_dn : bool;
                        tm_fs : bool; tm_ls : bool; tm_ov : bool; tm_er : bool }.
(** counter.go L8-16. *)
Record counter := Counter { ct_pre : Z; ct_acc : Z; ct_cu : bool; ct_cd : bool; ct_dn : bool; ct_ov : bool; ct_un : bool }.
(** control.go L8-19. *)
Record control := Control { cl_len : Z; cl_pos : Z; cl_en : bool; cl_eu : bool; cl_dn : bool; cl_em : bool;
                            cl_er : bool; cl_ul : bool; cl_in : bool; cl_fd : bool }.

(** if b { CtrlWord |= 1 << n } *)
Definition or_bit (n : Z) (b : bool) (w : Z) : Z := if b then Z.lor w (Z.shiftl 1 n) else w.
(** CtrlWord&(1<<n) != 0 *)
Definition has_bit (w n : Z) : bool := negb (Z.land w (Z.shiftl 1 n) =? 0).

(** Pack into a writer that takes everything (bytes.Buffer), with the count
    returned.  timer.go L25-54. *)
Definition timer_pack (t : timer) : bytes * Z :=
  let w := 0 in
  let w := or_bit 31 (tm_en t) w in
  let w := or_bit 30 (tm_tt t) w in
  let w := or_bit 29 (tm_dn t) w in
  (le 4 w ++ le 4 (tm_pre t) ++ le 4 (tm_acc t), 12).
(** counter.go L18-53. *)
Definition counter_pack (t : counter) : bytes * Z :=
  let w := 0 in
  let w := or_bit 31 (ct_cu t) w in
  let w := or_bit 30 (ct_cd t) w in
  let w := or_bit 29 (ct_dn t) w in
  let w := or_bit 28 (ct_ov t) w in
  let w := or_bit 27 (ct_un t) w in
  (le 4 w ++ le 4 (ct_pre t) ++ le 4 (ct_acc t), 12).
(** control.go L21-64. *)
Definition control_pack (t : control) : bytes * Z :=
  let w := 0 in
  let w := or_bit 31 (cl_en t) w in
  let w := or_bit 30 (cl_eu t) w in
  let w := or_bit 29 (cl_dn t) w in
  let w := or_bit 28 (cl_em t) w in
  let w := or_bit 27 (cl_er t) w in
  let w := or_bit 26 (cl_ul t) w in
  let w := or_bit 25 (cl_in t) w in
  let w := or_bit 24 (cl_fd t) w in
  (le 4 w ++ le 4 (cl_len t) ++ le 4 (cl_pos t), 12).

(** What the three Unpacks share: the word, [flags] set from it, then the two
    numbers; the structure as far as it got, the count, the error and what is
    left unread.  [rd] of too few bytes uses them up. *)
Definition unpack3 {A} (flags : Z -> A -> A) (first second : Z -> A -> A) (t : A) (r : bytes) : A * Z * res unit * bytes :=
  match rd 4 r with
  | Ok (b, r1) =>
      let t := flags (unle b) t in
      match rd 4 r1 with
      | Ok (b, r2) =>
          let t := first (sgn 32 (unle b)) t in
          match rd 4 r2 with
          | Ok (b, r3) => (second (sgn 32 (unle b)) t, 12, Ok tt, r3)
          | Err e => (t, 8, Err e, [])
          | Panic => (t, 8, Panic, []) | OutOfFuel => (t, 8, OutOfFuel, [])
          end
      | Err e => (t, 4, Err e, [])
      | Panic => (t, 4, Panic, []) | OutOfFuel => (t, 4, OutOfFuel, [])
      end
  | Err e => (t, 0, Err e, [])
  | Panic => (t, 0, Panic, []) | OutOfFuel => (t, 0, OutOfFuel, [])
  end.
(** timer.go L56-78. *)
Definition timer_unpack : timer -> bytes -> timer * Z * res unit * bytes :=
  unpack3
    (fun w t => Timer (tm_pre t) (tm_acc t) (has_bit w 31) (has_bit w 30) (has_bit w 29) (tm_fs t) (tm_ls t) (tm_ov t) (tm_er t))
    (fun z t => Timer z (tm_acc t) (tm_en t) (tm_tt t) (tm_dn t) (tm_fs t) (tm_ls t) (tm_ov t) (tm_er t))
    (fun z t => Timer (tm_pre t) z (tm_en t) (tm_tt t) (tm_dn t) (tm_fs t) (tm_ls t) (tm_ov t) (tm_er t)).
(** counter.go L55-78. *)
Definition counter_unpack : counter -> bytes -> counter * Z * res unit * bytes :=
  unpack3
    (fun w t => Counter (ct_pre t) (ct_acc t) (has_bit w 31) (has_bit w 30) (has_bit w 29) (has_bit w 28) (has_bit w 27))
    (fun z t => Counter z (ct_acc t) (ct_cu t) (ct_cd t) (ct_dn t) (ct_ov t) (ct_un t))
    (fun z t => Counter (ct_pre t) z (ct_cu t) (ct_cd t) (ct_dn t) (ct_ov t) (ct_un t)).
(** control.go L66-93. *)
Definition control_unpack : control -> bytes -> control * Z * res unit * bytes :=
  unpack3
    (fun w t => Control (cl_len t) (cl_pos t) (has_bit w 31) (has_bit w 30) (has_bit w 29) (has_bit w 28)
                  (has_bit w 27) (has_bit w 26) (has_bit w 25) (has_bit w 24))
    (fun z t => Control z (cl_pos t) (cl_en t) (cl_eu t) (cl_dn t) (cl_em t) (cl_er t) (cl_ul t) (cl_in t) (cl_fd t))
    (fun z t => Control (cl_len t) z (cl_en t) (cl_eu t) (cl_dn t) (cl_em t) (cl_er t) (cl_ul t) (cl_in t) (cl_fd t)).
