(** * C113: ReadPacked, and Read through a pointer to a slice *)
From Verif Require Import GoBase TypesModel IoiModel IoiSpec IoiProof ItemsModel ItemsSpec ReadModel ReadSpec ReadProof Prop_Read
  PackTypes PackModel PackSpec PackProof PackRead PackBack Prop_PackRead Prop_Pack LgxModel LgxSpec LgxProof Prop_Lgx CrashSpec Prop_Crash
  StructModel StructSpec Prop_Struct PackedModel.

(** ** Pointers to slices *)

(** A slice of one structure is filled like the structure itself. *)
Theorem C113_pointer_partial : forall S (ctl : controller S) fuel ops s0 s1 otid q tg t d v handle pad,
  named ops tg -> plain_target t -> sent t d v -> natural t -> length handle = 2%nat -> len (d ++ pad) = stride t ->
  answers_with ctl s0 otid q (encode tg) 1 0 0xA0 (handle ++ d ++ pad) s1 ->
  read_pointer fuel ctl (cl_run ops) s0 otid q (text tg) (PStructs [t]) = (Ok [v], s1, q + 1).
Proof.
  intros S ctl fuel ops s0 s1 otid q tg t d v handle pad N P Se Na H L A. unfold read_pointer. change T_struct with 0xA0.
  rewrite (C17_structure_bytes _ _ fuel _ _ _ _ _ _ _ _ _ N H A). cbn [as_bytes bind].
  pose proof (array_unpack [t] (d ++ pad ++ []) [v] (as_cons _ _ _ _ _ _ _ Se L as_nil)) as U.
  rewrite <- (app_nil_r (d ++ pad)), <- app_assoc, <- (app_nil_r (d ++ pad ++ [])).
  rewrite U; [reflexivity|constructor; [exact P|constructor]|constructor; [exact Na|constructor]].
Qed.
Print Assumptions C113_pointer_partial.

Lemma unpack_nothing t : plain_target t -> solid_target t -> 0 < room t -> exists e, unpack_into t [] = Err e.
Proof.
  intros P So R. destruct t as [name fs|t|t|t]; cbn [plain_target solid_target room unpack_into] in *; try (now exists EEof).
  destruct P as [G Si]. destruct (C74_short_partial name fs [] G Si So) as [e E]; [exact R|]. rewrite E. now exists e.
Qed.
(** One of two or more is not filled, though the controller has answered with
    what it was asked for: one element. *)
Theorem C113_longer_slice_fails : forall S (ctl : controller S) fuel ops s0 s1 otid q tg t t2 ts d v handle pad,
  named ops tg -> plain_target t -> sent t d v -> natural t -> length handle = 2%nat -> len (d ++ pad) = stride t ->
  plain_target t2 -> solid_target t2 -> 0 < room t2 ->
  answers_with ctl s0 otid q (encode tg) 1 0 0xA0 (handle ++ d ++ pad) s1 ->
  exists e, read_pointer fuel ctl (cl_run ops) s0 otid q (text tg) (PStructs (t :: t2 :: ts)) = (Err e, s1, q + 1).
Proof.
  intros S ctl fuel ops s0 s1 otid q tg t t2 ts d v handle pad N P Se Na H L P2 S2 R2 A. unfold read_pointer. change T_struct with 0xA0.
  rewrite (C17_structure_bytes _ _ fuel _ _ _ _ _ _ _ _ _ N H A). cbn [as_bytes bind].
  pose proof (array_unpack [t] (d ++ pad ++ []) [v] (as_cons _ _ _ _ _ _ _ Se L as_nil)) as U.
  specialize (U ltac:(constructor; [exact P|constructor]) ltac:(constructor; [exact Na|constructor]) []).
  rewrite !app_nil_r in U. cbn [unpack_each] in *. destruct (unpack_into t (d ++ pad)) as [[[x n] r]| | |]; try discriminate.
  cbn [bind fst snd] in *. destruct (if n mod target_align t =? 0 then _ else _) as [r2| | |]; cbn [bind] in *; try discriminate.
  injection U as _ ->. destruct (unpack_nothing t2 P2 S2 R2) as [e ->]. cbn [bind]. now exists e.
Qed.
Print Assumptions C113_longer_slice_fails.

(** Nothing but structures can be filled through a pointer: what is not one is
    left as it is when the slice is empty, and otherwise the call fails or
    crashes. *)
Theorem C113_only_structs : forall S (ctl : controller S) fuel ops s0 otid q tg,
  honest ctl -> named ops tg ->
  (forall n vs, fst (fst (read_pointer fuel ctl (cl_run ops) s0 otid q (text tg) (PItems n))) = Ok vs -> n = 0%nat) /\
  (forall vs, fst (fst (read_pointer fuel ctl (cl_run ops) s0 otid q (text tg) POther)) <> Ok vs) /\
  (forall p, fst (fst (read_pointer fuel ctl (cl_run ops) s0 otid q (text tg) p)) = Panic ->
     match p with PStructs _ => False | PItems n => n <> 0%nat | POther => True end /\
     exists handle d s1, length handle = 2%nat /\ answers_with ctl s0 otid q (encode tg) 1 0 0xA0 (handle ++ d) s1).
Proof.
  intros S ctl fuel ops s0 otid q tg Ho N. unfold read_pointer.
  pose proof (struct_bytes_inv ctl fuel ops s0 otid q tg 1) as Inv.
  assert (R : fst (fst (read_single fuel ctl (cl_run ops) s0 otid q (text tg) T_struct 1)) <> Panic).
  { intros E. destruct (C55_single_only_long_string_crashes S ctl ops tg T_struct 1 fuel s0 otid q Ho N E) as [X _]. discriminate. }
  destruct (read_single fuel ctl (cl_run ops) s0 otid q (text tg) T_struct 1) as [[r s1] q1]. cbn [fst snd] in *.
  destruct (as_bytes r) as [b| | |] eqn:Eb.
  - destruct (Inv b Ho N eq_refl) as (s2 & handle & Lh & _ & A & _). cbn [bind]. split; [|split].
    + intros [|n] vs E; [reflexivity|discriminate].
    + discriminate.
    + intros p E. split; [|now exists handle, b, s2]. destruct p as [tgs|n|]; [|destruct n; [discriminate|discriminate]|exact Logic.I].
      destruct (unpack_each tgs b) as [[ws r2]| | |] eqn:U; try discriminate. exact (each_safe _ _ U).
  - split; [discriminate|]. split; discriminate.
  - exfalso. destruct r as [v| | |]; cbn [as_bytes bind] in Eb; try discriminate; [destruct v; discriminate|now apply R].
  - split; [discriminate|]. split; discriminate.
Qed.
Print Assumptions C113_only_structs.

(** ** ReadPacked *)
Lemma zero_has_type :
  (forall t, go_type t -> has_type t (zero_value t)) /\ (forall fs, go_fields fs -> fields_have fs (zero_fields fs)).
Proof.
  apply gty_mut; cbn [go_type go_fields zero_value zero_fields has_type fields_have]; intros; auto.
  - destruct signed; (split; [assumption|]); assert (0 < 2 ^ (8 * Z.of_nat w - 1)) by (apply Z.pow_pos_nonneg; [lia|cbn [In] in *; lia]);
      [lia|]. assert (0 < 2 ^ (8 * Z.of_nat w)) by (apply Z.pow_pos_nonneg; lia). lia.
  - split; [assumption|]. assert (0 < 2 ^ (8 * Z.of_nat w)) by (apply Z.pow_pos_nonneg; lia). lia.
  - split; [apply repeat_length|]. apply Forall_forall. intros x I. apply repeat_spec in I as ->. auto.
  - tauto.
Qed.
Lemma pack_count_room p : plain_target (blank p) -> pack_count p = room (blank p).
Proof.
  intros P. destruct p as [name fs| | |]; try reflexivity. cbn [blank plain_target] in P. destruct P as [G Si].
  unfold pack_count. cbn [blank room].
  destruct (C15_layout_partial name fs (zero_value (TStruct name fs)) G Si (proj1 zero_has_type _ G)) as [Sh ->].
  cbn [zero_value shows] in Sh. exact (proj1 Sh).
Qed.

(** Whatever structure the controller answers with, and whatever the type, as
    long as it has something in it: the program crashes. *)
Theorem C113_packed_crashes : forall S (ctl : controller S) fuel ops s0 s1 otid q tg p d handle,
  named ops tg -> plain_target (blank p) -> 0 < room (blank p) -> length handle = 2%nat ->
  answers_with ctl s0 otid q (encode tg) 1 0 0xA0 (handle ++ d) s1 ->
  read_packed fuel ctl (cl_run ops) s0 otid q (text tg) p = (Panic, s1, q + 1).
Proof.
  intros S ctl fuel ops s0 s1 otid q tg p d handle N P R H A. unfold read_packed, read_pointer. change T_struct with 0xA0.
  rewrite (C17_structure_bytes _ _ fuel _ _ _ _ _ _ _ _ _ N H A). cbn [as_bytes bind].
  rewrite (pack_count_room p P). destruct (Z.to_nat (room (blank p))) as [|n] eqn:E; [lia|]. reflexivity.
Qed.
Print Assumptions C113_packed_crashes.

(** It never returns a value, and it returns an error only when there is no
    structure in the controller's answer. *)
Theorem C113_packed_fails : forall S (ctl : controller S) fuel ops s0 otid q tg p r s1 q1,
  honest ctl -> named ops tg -> plain_target (blank p) -> 0 < room (blank p) ->
  read_packed fuel ctl (cl_run ops) s0 otid q (text tg) p = (r, s1, q1) ->
  (forall v, r <> Ok v) /\
  (r = Panic -> exists handle d s2, length handle = 2%nat /\ answers_with ctl s0 otid q (encode tg) 1 0 0xA0 (handle ++ d) s2).
Proof.
  intros S ctl fuel ops s0 otid q tg p r s1 q1 Ho N P R E. unfold read_packed in E. rewrite (pack_count_room p P) in E.
  destruct (Z.to_nat (room (blank p))) as [|n] eqn:En; [lia|].
  destruct (C113_only_structs S ctl fuel ops s0 otid q tg Ho N) as (A & _ & C). specialize (A (Datatypes.S n)). specialize (C (PItems (Datatypes.S n))).
  destruct (read_pointer _ _ _ _ _ _ _ _) as [[x s2] q2]. cbn [fst] in *. injection E as <- _ _.
  destruct x as [vs|e| |]; cbn [bind].
  - specialize (A vs eq_refl). discriminate.
  - split; discriminate.
  - split; [discriminate|]. intros _. exact (proj2 (C eq_refl)).
  - split; discriminate.
Qed.
Print Assumptions C113_packed_fails.

(** *** Not so *)
Definition pair_fields : gfields := FCons false (TInt true 4) (FCons false (TInt true 2) FNil).
Definition pair_bytes : bytes := le 4 (-5) ++ le 2 6.
Definition pair_target : target := TgStruct (str "Pair") pair_fields.
Lemma pair_sent : sent pair_target pair_bytes (SStruct (VStruct [VInt (-5); VInt 6])).
Proof. split; [cbn; split; [|split]; try (split; [tauto|lia]); exact Logic.I|]. split; [reflexivity|]. cbn. split; [reflexivity|]. split; [reflexivity|exact Logic.I]. Qed.
(** ReadPacked and Read into a *T, of the same tag in the same controller. *)
Theorem C113_packed_refuted : exists ctl tg name fs d v, honest ctl /\ named [] tg /\ sent (TgStruct name fs) d v /\
  answers_with ctl [] 7 1 (encode tg) 1 0 0xA0 ([1; 2] ++ d) [read_request 7 1 (encode tg) 1] /\
  fst (fst (read_to 0 ctl (cl_run []) [] 7 1 (text tg) (DOne (TgStruct name fs)))) = Ok (OOne v) /\
  fst (fst (read_packed 0 ctl (cl_run []) [] 7 1 (text tg) (PkStruct name fs))) = Panic.
Proof.
  exists (fixed 0 0xA0 ([1; 2] ++ pair_bytes)), (ex_tag None), (str "Pair"), pair_fields, pair_bytes, (SStruct (VStruct [VInt (-5); VInt 6])).
  split; [intros log req; cbn [fixed fst]; apply check_bytes; vm_compute; reflexivity|]. split; [exact (ex_named None Logic.I)|].
  split; [exact pair_sent|]. split; [apply fixed_answers; vm_compute; reflexivity|]. split; vm_compute; reflexivity.
Qed.
Print Assumptions C113_packed_refuted.

(** A slice of two timers is filled when given itself, not through a pointer. *)
Definition t0 : target := TgTimer no_timer.
Definition one_timer : bytes := [1; 0; 0; 0xA0] ++ le 4 5000 ++ le 4 (-1).
Definition two_timers : bytes := one_timer ++ [0; 0; 0; 0x40] ++ le 4 7 ++ le 4 8.
Definition timer_one : sval := STimer (Timer 5000 (-1) true false true false false false false).
Definition timer_two : sval := STimer (Timer 7 8 false true false false false false false).
(** A controller with an array of two timers: as many are sent as are asked for. *)
Definition timers : controller unit := fun s req =>
  (Ok (0, plain_answer 1 0 0xA0 ([0x83; 0x0F] ++ (if bseq req (read_request 7 1 (encode (ex_tag None)) 2) then two_timers else one_timer))), s).
Lemma timer_one_sent : sent t0 one_timer timer_one.
Proof.
  exists 0xA0000001. split; [split; [reflexivity|cbn; unfold int32; lia]|]. split; [|reflexivity].
  intros n f I. cbn in I. repeat destruct I as [I|I]; try contradiction; injection I as <- <-; reflexivity.
Qed.
Theorem C113_slice_refuted : exists ctl tg ts vs, honest ctl /\ named [] tg /\ Forall plain_target ts /\ Forall natural ts /\
  (exists d, array_sent ts d vs /\ answers_with ctl tt 7 1 (encode tg) (len ts) 0 0xA0 ([0x83; 0x0F] ++ d) tt) /\
  fst (fst (read_to 0 ctl (cl_run []) tt 7 1 (text tg) (DMany ts))) = Ok (OMany vs) /\
  is_err (fst (fst (read_pointer 0 ctl (cl_run []) tt 7 1 (text tg) (PStructs ts)))) = true.
Proof.
  exists timers, (ex_tag None), [t0; t0], [timer_one; timer_two].
  split; [intros s req; unfold timers; cbn [fst]; destruct (bseq _ _); apply check_bytes; vm_compute; reflexivity|].
  split; [exact (ex_named None Logic.I)|]. split; [repeat constructor|]. split; [repeat constructor|].
  split; [|split; vm_compute; reflexivity].
  exists two_timers. split.
  - apply (as_cons t0 one_timer [] timer_one [t0] ([0; 0; 0; 0x40] ++ le 4 7 ++ le 4 8) [timer_two] timer_one_sent eq_refl).
    refine (as_cons t0 ([0; 0; 0; 0x40] ++ le 4 7 ++ le 4 8) [] timer_two [] [] [] _ eq_refl as_nil).
    exists 0x40000000. split; [split; [reflexivity|cbn; unfold int32; lia]|]. split; [|reflexivity].
    intros n f I. cbn in I. repeat destruct I as [I|I]; try contradiction; injection I as <- <-; reflexivity.
  - exists 0, (plain_answer 1 0 0xA0 ([0x83; 0x0F] ++ two_timers)). split; [vm_compute; reflexivity|]. apply plain_answer_ok. vm_compute. reflexivity.
Qed.
Print Assumptions C113_slice_refuted.

(** The hypotheses of the general theorems are met. *)
Example ex_C113_one : named [] (ex_tag None) /\ plain_target t0 /\ solid_target t0 /\ sent t0 one_timer timer_one /\ natural t0 /\ len (one_timer ++ []) = stride t0 /\
  0 < room t0 /\ answers_with timers tt 7 1 (encode (ex_tag None)) 1 0 0xA0 ([0x83; 0x0F] ++ one_timer ++ []) tt /\
  fst (fst (read_pointer 0 timers (cl_run []) tt 7 1 (text (ex_tag None)) (PStructs [t0]))) = Ok [timer_one] /\
  fst (fst (read_packed 0 timers (cl_run []) tt 7 1 (text (ex_tag None)) PkTimer)) = Panic /\
  fst (fst (read_packed 0 (fixed 5 0 []) (cl_run []) [] 7 1 (text (ex_tag None)) PkTimer)) = Err (EStatus 5).
Proof.
  split; [exact (ex_named None Logic.I)|]. split; [exact Logic.I|]. split; [exact Logic.I|]. split; [exact timer_one_sent|].
  split; [reflexivity|]. split; [reflexivity|]. split; [reflexivity|]. split; [|split; [|split]; vm_compute; reflexivity].
  exists 0, (plain_answer 1 0 0xA0 ([0x83; 0x0F] ++ one_timer)). split; [vm_compute; reflexivity|]. rewrite app_nil_r. apply plain_answer_ok. vm_compute. reflexivity.
Qed.
