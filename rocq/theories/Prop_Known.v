(** * C114: structs with TIMER, COUNTER, CONTROL and STRING members *)
From Verif Require Import GoBase SegModel IoiModel IoiSpec IoiProof ItemsModel ItemsSpec ItemsProof TypesModel
  ReadModel ReadSpec ReadProof Prop_Read BatchModel BatchSpec BatchProof Prop_Batch PackTypes PackModel PackSpec PackProof PackRead Prop_Pack Prop_PackRead
  WriteModel WriteSpec WriteProof Prop_Write LgxModel LgxSpec LgxProof KnownModel KnownSpec KnownProof.

(** The struct of the examples (TypeWithTimer of pack_test.go L247-253, and a
    CONTROL and a STRING in a struct of its own):
    struct { Field0 int32; Flag1, Flag2 bool; Timer TIMER; Field1 int32; Sub struct { F int8; C CONTROL; N COUNTER } } *)
Definition with_timer : kfields :=
  KCons false (KPlain dint) (KCons false (KPlain TBool) (KCons false (KPlain TBool) (KCons false KTimer (KCons false (KPlain dint) KNil)))).
Definition sub_struct : kty := KStruct (str "Sub") (KCons false (KPlain (TInt true 1)) (KCons false KControl (KCons false KCounter KNil))).
Definition ex_known : kfields :=
  KCons false (KPlain dint) (KCons false (KPlain TBool) (KCons false (KPlain TBool) (KCons false KTimer (KCons false (KPlain dint) (KCons false sub_struct KNil))))).
Definition ex_timer := vtimer (Timer 5000 (-1) true false true false false false false).
Definition ex_control := vcontrol (Control 10 3 true false false true false false false true).
Definition ex_counter := vcounter (Counter 100 7 false true false false true).
Definition ex_kvalue : gv :=
  VStruct [VInt 1; VBool true; VBool true; ex_timer; VInt (-2); VStruct [VInt 9; ex_control; ex_counter]].
Ltac typed := repeat match goal with
         | |- _ /\ _ => split
         | |- Forall _ _ => constructor
         | |- True => exact Logic.I
         | |- In _ _ => cbn [In]; lia
         | _ => first [reflexivity | lia | cbn; lia]
         end.
Lemma ex_known_typed : has_type (under (KStruct (str "Outer") ex_known)) ex_kvalue.
Proof. cbn. typed. Qed.
Lemma ex_known_fit : fit (KStruct (str "Outer") ex_known).
Proof. cbn. tauto. Qed.

(** Pack lays every member out as Logix does: TIMER, COUNTER and CONTROL as
    their flag word and two numbers, aligned, the other members around them; the
    count returned is the number of bytes. *)
Theorem C114_layout_partial : forall name fs v, fit (KStruct name fs) -> has_type (under (KStruct name fs)) v ->
  shows (logix (KStruct name fs)) (in_logix (KStruct name fs) v) (fst (kpack (KStruct name fs) v)) /\
  snd (kpack (KStruct name fs) v) = len (fst (kpack (KStruct name fs) v)).
Proof.
  intros name fs v F H. rewrite (proj1 kpack_logix _ v F H Logic.I).
  exact (C15_layout_partial name (logix_fields fs) _ (proj1 logix_go (KStruct name fs) F) (proj1 logix_simple (KStruct name fs) F) (proj1 logix_typed _ v F H)).
Qed.
Print Assumptions C114_layout_partial.
Example ex_C114_layout : fst (kpack (KStruct (str "Outer") ex_known) ex_kvalue) =
  [1; 0; 0; 0] ++ [3; 0; 0; 0] ++ ([0; 0; 0; 0xA0] ++ le 4 5000 ++ le 4 (-1)) ++ le 4 (-2) ++
  [9; 0; 0; 0] ++ ([0; 0; 0; 0x91] ++ le 4 10 ++ le 4 3) ++ ([0; 0; 0; 0x48] ++ le 4 100 ++ le 4 7).
Proof. reflexivity. Qed.

(** Unpack reads any bytes that show such a structure, whatever the padding and
    the bits of the flag words without a meaning hold, as what they mean. *)
Theorem C114_reads_partial : forall name fs old w b rest, fit (KStruct name fs) -> has_type (under (KStruct name fs)) old ->
  has_type (logix (KStruct name fs)) w -> shows (logix (KStruct name fs)) w b ->
  kunpack (KStruct name fs) old (b ++ rest) = Ok (meant (KStruct name fs) old w, len b, rest).
Proof.
  intros name fs old w b rest F Ho Hw Sh. rewrite (proj1 kunpack_logix _ old (b ++ rest) F Ho Logic.I).
  change (logix (KStruct name fs)) with (TStruct name (logix_fields fs)).
  rewrite (C74_reads_partial name (logix_fields fs) w b rest (proj1 logix_go (KStruct name fs) F) (proj1 logix_simple (KStruct name fs) F) Hw Sh).
  reflexivity.
Qed.
Print Assumptions C114_reads_partial.
(** A TIMER with ACC 7, EN and DN and other bits of its word set, between two SINTs. *)
Definition timer_between : kfields := KCons false (KPlain (TInt true 1)) (KCons false KTimer (KCons false (KPlain (TInt true 1)) KNil)).
Example ex_C114_reads :
  kunpack (KStruct [] timer_between) (VStruct [VInt 0; vtimer (Timer 0 0 false false false true false false true); VInt 0])
    ([5; 77; 77; 77] ++ [1; 2; 3; 0xBF] ++ le 4 100 ++ le 4 7 ++ [6] ++ [88]) =
  Ok (VStruct [VInt 5; vtimer (Timer 100 7 true false true true false false true); VInt 6], 17, [88]).
Proof. reflexivity. Qed.

(** Unpacking what Pack wrote gives the value back, if the four unused flags of
    the TIMERs are in the target what they are in the value. *)
Theorem C114_round_trip_partial : forall name fs old v rest, fit (KStruct name fs) ->
  has_type (under (KStruct name fs)) old -> has_type (under (KStruct name fs)) v -> same_unused (KStruct name fs) old v ->
  kunpack (KStruct name fs) old (fst (kpack (KStruct name fs) v) ++ rest) = Ok (v, snd (kpack (KStruct name fs) v), rest).
Proof.
  intros name fs old v rest F Ho H U. destruct (C114_layout_partial name fs v F H) as [Sh L].
  rewrite (C114_reads_partial name fs old _ _ rest F Ho (proj1 logix_typed _ v F H) Sh), L.
  now rewrite (proj1 meant_back _ old v F Ho H U).
Qed.
Print Assumptions C114_round_trip_partial.
Definition zero_known : gv :=
  VStruct [VInt 0; VBool false; VBool false; vtimer (Timer 0 0 false false false false false false false); VInt 0;
    VStruct [VInt 0; vcontrol (Control 0 0 false false false false false false false false); vcounter (Counter 0 0 false false false false false)]].
Example ex_C114_round : has_type (under (KStruct (str "Outer") ex_known)) zero_known /\ same_unused (KStruct (str "Outer") ex_known) zero_known ex_kvalue.
Proof. split; [cbn; typed|cbn; tauto]. Qed.

(** Otherwise not: FS, LS, OV and ER of a TIMER are not sent. *)
Theorem C114_round_trip_refuted : exists old v b n, has_type (under (KStruct [] timer_between)) old /\ has_type (under (KStruct [] timer_between)) v /\
  kpack (KStruct [] timer_between) v = (b, n) /\ exists v', kunpack (KStruct [] timer_between) old b = Ok (v', n, []) /\ v' <> v.
Proof.
  exists (VStruct [VInt 0; vtimer (Timer 0 0 false false false false false false false); VInt 0]).
  exists (VStruct [VInt 0; vtimer (Timer 0 0 false false false true false true false); VInt 0]). eexists _, _.
  split; [cbn; typed|]. split; [cbn; typed|]. split; [reflexivity|]. eexists. split; [vm_compute; reflexivity|discriminate].
Qed.
Print Assumptions C114_round_trip_refuted.

(** An array of TIMERs is not laid out like that: every TIMER is its fifteen
    bytes in the order of the Go fields, and the count is not their number. *)
Definition timers : kfields := KCons false (KArr 2 KTimer) KNil.
Theorem C114_array_refuted : exists v, has_type (under (KStruct (str "T") timers)) v /\
  len (fst (kpack (KStruct (str "T") timers) v)) = 30 /\ snd (kpack (KStruct (str "T") timers) v) = 32 /\
  size (logix (KStruct (str "T") timers)) = 24.
Proof.
  exists (VStruct [VArr [ex_timer; ex_timer]]). split; [cbn; typed|]. repeat split; vm_compute; reflexivity.
Qed.
Print Assumptions C114_array_refuted.
(** ... and what the controller sends for one is misread. *)
Theorem C114_array_read_refuted : exists b old v n rest, len b = 24 /\
  kunpack (KStruct (str "T") timers) old (b ++ zeros 6) = Ok (v, n, rest) /\
  b = fst (timer_pack (Timer 100 7 true false true false false false false)) ++ fst (timer_pack (Timer 200 8 true false true false false false false)) /\
  v <> VStruct [VArr [vtimer (Timer 100 7 true false true false false false false); vtimer (Timer 200 8 true false true false false false false)]].
Proof.
  exists (fst (timer_pack (Timer 100 7 true false true false false false false)) ++ fst (timer_pack (Timer 200 8 true false true false false false false))).
  exists (VStruct [VArr [ex_timer; ex_timer]]). eexists _, _, _. split; [reflexivity|]. split; [vm_compute; reflexivity|]. split; [reflexivity|]. discriminate.
Qed.
Print Assumptions C114_array_read_refuted.

(** The description of a structure lists the members Logix has, and its number
    is the one Logix gives it: fixed for its own, the checksum for others. *)
Theorem C114_description_partial : forall k, structure k -> regular (logix k) ->
  type_id crc16 k = Ok (logix_text k, logix_handle k (logix_text k)).
Proof.
  intros k St R. destruct k as [t| | | | |n k|name fs]; try contradiction; try reflexivity.
  unfold type_id. cbn [type_abbr]. rewrite kencode_logix. cbn [logix] in *. rewrite (C16_type_encode_partial _ _ R). reflexivity.
Qed.
Print Assumptions C114_description_partial.
(** The numbers the project's tests expect. *)
Example ex_C114_numbers : type_id crc16 (KStruct (str "TypeWithTimer") with_timer) = Ok (str "TypeWithTimer,DINT,SINT,TIMER,DINT,DINT,DINT,DINT", 0x9A39) /\
  type_id crc16 (KStruct (str "TimerWrapper") (KCons false KTimer KNil)) = Ok (str "TimerWrapper,TIMER,DINT,DINT,DINT", 0xC23B) /\
  type_id crc16 (KStruct (str "ControlWrapper") (KCons false KControl KNil)) = Ok (str "ControlWrapper,CONTROL,DINT,DINT,DINT", 0x6207) /\
  type_id crc16 (KStruct (str "CounterWrapper") (KCons false KCounter KNil)) = Ok (str "CounterWrapper,COUNTER,DINT,DINT,DINT", 0x8436) /\
  type_id crc16 (KStruct (str "StringWrapper") (KCons false KString KNil)) = Ok (str "StringWrapper,STRING,DINT,SINT[82]", 0x45FD).
Proof. repeat split; vm_compute; reflexivity. Qed.
(** UDT1 of pack_test.go L176-206. *)
Definition udt3 : kty := KStruct (str "UDT3") (KCons false (KPlain (TInt true 1)) (KCons false (KPlain (TArr 4 (TInt true 1))) KNil)).
Definition udt2 : kty := KStruct (str "UDT2") (KCons false (KPlain dint) (KCons false (KPlain (TArr 3 (TInt true 1))) (KCons false udt3 (KCons false (KArr 2 udt3) KNil)))).
Definition udt1 : kty := KStruct (str "UDT1") (KCons false (KPlain (TInt true 1)) (KCons false (KPlain (TArr 2 (TInt true 1))) (KCons false udt2 (KCons false (KArr 4 udt3) KNil)))).
Example ex_C114_udt1 : structure udt1 /\ regular (logix udt1) /\
  type_id crc16 udt1 = Ok (str "UDT1,SINT,SINT[2],UDT2,DINT,SINT[3],UDT3,SINT,SINT[4],UDT3,SINT,SINT[4][2],UDT3,SINT,SINT[4][4]", 0x5F58).
Proof. split; [exact Logic.I|]. split; [cbn; repeat split; discriminate|vm_compute; reflexivity]. Qed.

(** Write of such a structure sends one Write Tag request with that number and
    those bytes. *)
Theorem C114_write_partial : forall S (ctl : controller S) ops tg k v s otid q,
  named ops tg -> structure k -> fit k -> regular (logix k) -> has_type (under k) v -> len (fst (kpack k v)) < 64000 ->
  exists r s1, kwrite crc16 (asked ctl) (cl_run ops) (s, []) otid q (text tg) k v =
    (r, (s1, [write_request otid q (write_service (encode tg)
                ([0xA0; 0x02] ++ le 2 (logix_handle k (logix_text k))) 1 (fst (kpack k v)))]), q + 1) /\
    shows (logix k) (in_logix k v) (fst (kpack k v)).
Proof.
  intros S ctl ops tg k v s otid q N St F R H L.
  assert (U : match under k with TStruct _ _ => True | _ => False end) by (destruct k; try contradiction; exact Logic.I).
  assert (T : exists name fs, logix k = TStruct name fs) by (destruct k; try contradiction; repeat eexists). destruct T as (name & fs & T).
  assert (E : forall s', kwrite crc16 (asked ctl) (cl_run ops) s' otid q (text tg) k v =
    write_udt (fun _ => logix_handle k (logix_text k)) (asked ctl) (cl_run ops) s' otid q (text tg) (logix k) (in_logix k v)).
  { intros s'. unfold kwrite, write_udt. rewrite (C114_description_partial k St R). rewrite <- (proj1 kpack_logix k v F H U).
    destruct (fst (new_ioi _ _ _)); try reflexivity. rewrite T in R |- *. rewrite (C16_type_encode_partial _ _ R). reflexivity. }
  rewrite E. rewrite (proj1 kpack_logix k v F H U) in L |- *. rewrite T in R, L |- *.
  destruct (C58_udt_sends S (fun _ => logix_handle k (logix_text k)) ctl ops tg name fs (in_logix k v) s otid q N R L) as (r & s1 & E1).
  exists r, s1. split; [exact E1|]. rewrite <- T. rewrite <- (proj1 kpack_logix k v F H U).
  rewrite (proj1 kpack_logix k v F H U). rewrite T.
  refine (proj1 (C15_layout_partial name fs _ _ _ _)); rewrite <- T; [apply (proj1 logix_go), F|apply (proj1 logix_simple), F|apply (proj1 logix_typed); assumption].
Qed.
Print Assumptions C114_write_partial.
Example ex_C114_write : exists r s1, kwrite crc16 (asked (says 0)) (cl_run []) (tt, []) 7 1 (str "Speed") KTimer ex_timer =
  (r, (s1, [write_request 7 1 (write_service (encode t_speed) [0xA0; 2; 0x83; 0x0F] 1 ([0; 0; 0; 0xA0] ++ le 4 5000 ++ le 4 (-1)))]), 2).
Proof.
  destruct (C114_write_partial unit (says 0) [] t_speed KTimer ex_timer tt 7 1 speed_named Logic.I Logic.I) as (r & s1 & E & _).
  - cbn. tauto.
  - cbn. typed.
  - reflexivity.
  - exists r, s1. exact E.
Qed.

(** Read into such a struct gives what the controller's bytes mean. *)
Theorem C114_read_partial : forall S (ctl : controller S) fuel ops s0 s1 otid q tg name fs old w d handle rest,
  named ops tg -> fit (KStruct name fs) -> has_type (under (KStruct name fs)) old ->
  has_type (logix (KStruct name fs)) w -> shows (logix (KStruct name fs)) w d -> length handle = 2%nat ->
  answers_with ctl s0 otid q (encode tg) 1 0 0xA0 (handle ++ d ++ rest) s1 ->
  kread fuel ctl (cl_run ops) s0 otid q (text tg) (KStruct name fs) old = (Ok (meant (KStruct name fs) old w), s1, q + 1).
Proof.
  intros S ctl fuel ops s0 s1 otid q tg name fs old w d handle rest N F Ho Hw Sh Lh A. unfold kread. change T_struct with 0xA0.
  rewrite (C17_structure_bytes _ _ fuel _ _ _ _ _ _ _ _ _ N Lh A). cbn [StructModel.as_bytes bind].
  rewrite (C114_reads_partial name fs old w d rest F Ho Hw Sh). reflexivity.
Qed.
Print Assumptions C114_read_partial.
Example ex_C114_read : fst (fst (kread 0 (fixed 0 0xA0 ([1; 2] ++ fst (kpack (KStruct (str "Outer") ex_known) ex_kvalue))) (cl_run []) [] 7 1 (text (ex_tag None))
    (KStruct (str "Outer") ex_known) zero_known)) = Ok ex_kvalue.
Proof. vm_compute. reflexivity. Qed.
