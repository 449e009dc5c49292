(** * C94: reading structures into Go structs *)
From Verif Require Import GoBase TypesModel IoiModel IoiSpec IoiProof ItemsModel ItemsSpec ReadModel ReadSpec ReadProof Prop_Read
  PackTypes PackModel PackSpec PackProof PackRead PackBack Prop_PackRead Prop_Pack LgxModel LgxSpec LgxProof Prop_Lgx CrashSpec Prop_Crash StructModel StructSpec.

(** ** One structure *)
Lemma unpack3_three {A} flags first second (t : A) w a b d rest : three w a b d ->
  unpack3 flags first second t (d ++ rest) = (second b (first a (flags w t)), 12, Ok tt, rest).
Proof. intros (-> & W & Ha & Hb). rewrite <- !app_assoc. rewrite (app_assoc (le 4 a)), (app_assoc (le 4 w)). now apply unpack3_run. Qed.
Lemma has_flag w flags n f : flagged w flags -> 0 <= n -> In (n, f) flags -> has_bit w n = f.
Proof. intros F N I. rewrite has_bit_testbit by exact N. now apply F. Qed.
Lemma sent_unpack tg d v rest : plain_target tg -> sent tg d v -> unpack_into tg (d ++ rest) = Ok (v, room tg, rest) /\ len d = room tg.
Proof.
  intros P S. destruct tg as [name fs|t0|t0|t0], v as [x|t|t|t]; try contradiction; cbn [sent unpack_into room plain_target] in *.
  - destruct P as [G Si], S as [H Sh]. rewrite (C74_reads_partial name fs x d rest G Si H Sh). cbn [bind fst snd].
    destruct x; try contradiction. cbn [shows] in Sh. destruct Sh as [L _]. rewrite L. split; reflexivity.
  - destruct S as (w & T & F & U). split; [|destruct T as (-> & _); now rewrite !len_app, !le_len].
    unfold timer_unpack. rewrite (unpack3_three _ _ _ _ _ _ _ _ _ T). cbn [own tm_pre tm_acc tm_en tm_tt tm_dn tm_fs tm_ls tm_ov tm_er].
    rewrite (has_flag w _ 31 (tm_en t) F), (has_flag w _ 30 (tm_tt t) F), (has_flag w _ 29 (tm_dn t) F); try lia; try (cbn; tauto).
    unfold unused_bits in U. destruct t, t0. cbn in *. injection U as -> -> -> ->. reflexivity.
  - destruct S as (w & T & F). split; [|destruct T as (-> & _); now rewrite !len_app, !le_len].
    unfold counter_unpack. rewrite (unpack3_three _ _ _ _ _ _ _ _ _ T). cbn [own ct_pre ct_acc ct_cu ct_cd ct_dn ct_ov ct_un].
    rewrite (has_flag w _ 31 (ct_cu t) F), (has_flag w _ 30 (ct_cd t) F), (has_flag w _ 29 (ct_dn t) F),
      (has_flag w _ 28 (ct_ov t) F), (has_flag w _ 27 (ct_un t) F); try lia; try (cbn; tauto). now destruct t.
  - destruct S as (w & T & F). split; [|destruct T as (-> & _); now rewrite !len_app, !le_len].
    unfold control_unpack. rewrite (unpack3_three _ _ _ _ _ _ _ _ _ T). cbn [own cl_len cl_pos cl_en cl_eu cl_dn cl_em cl_er cl_ul cl_in cl_fd].
    rewrite (has_flag w _ 31 (cl_en t) F), (has_flag w _ 30 (cl_eu t) F), (has_flag w _ 29 (cl_dn t) F), (has_flag w _ 28 (cl_em t) F),
      (has_flag w _ 27 (cl_er t) F), (has_flag w _ 26 (cl_ul t) F), (has_flag w _ 25 (cl_in t) F), (has_flag w _ 24 (cl_fd t) F);
      try lia; try (cbn; tauto). now destruct t.
Qed.

Theorem C94_struct_partial : forall S (ctl : controller S) fuel ops s0 s1 otid q tg t d v handle rest,
  named ops tg -> plain_target t -> sent t d v -> length handle = 2%nat ->
  answers_with ctl s0 otid q (encode tg) 1 0 0xA0 (handle ++ d ++ rest) s1 ->
  read_to fuel ctl (cl_run ops) s0 otid q (text tg) (DOne t) = (Ok (OOne v), s1, q + 1).
Proof.
  intros S ctl fuel ops s0 s1 otid q tg t d v handle rest N P Se H A. unfold read_to. change T_struct with 0xA0.
  rewrite (C17_structure_bytes _ _ fuel _ _ _ _ _ _ _ _ _ N H A). cbn [as_bytes bind].
  rewrite (proj1 (sent_unpack t d v rest P Se)). reflexivity.
Qed.
Print Assumptions C94_struct_partial.

(** A *any takes the value of a scalar, whichever its type, and the bytes of a
    structure after its handle. *)
Theorem C94_any : forall S (ctl : controller S) fuel ops s0 s1 otid q tg,
  named ops tg ->
  (forall t v d rest, t_bit tg = None -> encodes t v d -> t <> 0xC9 ->
    answers_with ctl s0 otid q (encode tg) 1 0 t (d ++ rest) s1 ->
    read_to fuel ctl (cl_run ops) s0 otid q (text tg) DAny = (Ok (OAny v), s1, q + 1)) /\
  (forall d handle, length handle = 2%nat ->
    answers_with ctl s0 otid q (encode tg) 1 0 0xA0 (handle ++ d) s1 ->
    read_to fuel ctl (cl_run ops) s0 otid q (text tg) DAny = (Ok (OAny (GBytes d)), s1, q + 1)).
Proof.
  intros S ctl fuel ops s0 s1 otid q tg N. split.
  - intros t v d rest B E T A. unfold read_to.
    rewrite (C17_read_single_partial _ _ fuel _ _ _ _ _ _ _ _ _ _ T_struct N B E T A). reflexivity.
  - intros d handle H A. unfold read_to. change T_struct with 0xA0.
    rewrite (C17_structure_bytes _ _ fuel _ _ _ _ _ _ _ _ _ N H A). reflexivity.
Qed.
Print Assumptions C94_any.
Example ex_C94_any : fst (fst (read_to 0 (fixed 0 0xC4 (le 4 (-100000))) (cl_run []) [] 7 1 (text (ex_tag None)) DAny)) =
  Ok (OAny (GInt true 4 (-100000))).
Proof. vm_compute. reflexivity. Qed.

(** ** Slices *)
Lemma align_up_id x a : 0 < a -> align_up x a = x + (if x mod a =? 0 then 0 else a - x mod a).
Proof.
  intros A. unfold align_up. destruct (Z.eqb_spec (x mod a) 0) as [E|E]; [now rewrite Z.mod_opp_l_z by lia|]. now rewrite Z.mod_opp_l_nz by lia.
Qed.
Lemma target_align_pos tg : plain_target tg -> target_align tg = own_alignment tg /\ 0 < own_alignment tg.
Proof.
  intros P. destruct tg as [name fs|t|t|t]; cbn [target_align own_alignment plain_target] in *; try (split; [reflexivity|lia]).
  destruct P as [G _]. split; [apply (proj1 (proj1 align_model (TStruct name fs)))|exact (proj1 alignment_pos (TStruct name fs) G)].
Qed.
Lemma array_unpack tgs d vs : array_sent tgs d vs -> Forall plain_target tgs -> Forall natural tgs ->
  forall rest, unpack_each tgs (d ++ rest) = Ok (vs, rest).
Proof.
  induction 1 as [|tg d pad v tgs ds vs Se L A IH]; intros P N rest; [reflexivity|].
  inversion P as [|? ? P1 P2]; inversion N as [|? ? N1 N2]; subst. cbn [unpack_each]. rewrite <- !app_assoc.
  destruct (sent_unpack tg d v (pad ++ ds ++ rest) P1 Se) as [-> Ld]. cbn [bind fst snd].
  destruct (target_align_pos tg P1) as [-> Ap]. unfold natural in N1. rewrite N1, (align_up_id _ _ Ap), len_app, Ld in L.
  destruct (Z.eqb_spec (room tg mod own_alignment tg) 0) as [E|E].
  - assert (pad = []) as -> by (destruct pad; [reflexivity|rewrite len_cons in L; pose proof (len_nonneg pad); lia]).
    cbn [bind app]. rewrite (IH P2 N2). reflexivity.
  - pose proof (Z.mod_pos_bound (room tg) _ Ap) as M.
    assert (Lp : Z.to_nat (own_alignment tg - room tg mod own_alignment tg) = length pad) by (unfold len in L; lia). rewrite Lp.
    destruct pad as [|x pad]; [cbn [length] in Lp; lia|]. change (length (x :: pad)) with (Datatypes.S (length pad)).
    rewrite (read_some_pad (x :: pad) (ds ++ rest) (length pad) eq_refl). cbn [bind]. rewrite (IH P2 N2). reflexivity.
Qed.
Theorem C94_slice_partial : forall S (ctl : controller S) fuel ops s0 s1 otid q tg ts d vs handle rest,
  named ops tg -> Forall plain_target ts -> Forall natural ts -> array_sent ts d vs -> len ts < 65536 -> length handle = 2%nat ->
  answers_with ctl s0 otid q (encode tg) (len ts) 0 0xA0 (handle ++ d ++ rest) s1 ->
  read_to fuel ctl (cl_run ops) s0 otid q (text tg) (DMany ts) = (Ok (OMany vs), s1, q + 1).
Proof.
  intros S ctl fuel ops s0 s1 otid q tg ts d vs handle rest N P Na Ar L H A. unfold read_to. change T_struct with 0xA0.
  rewrite Z.mod_small by (pose proof (len_nonneg ts); lia).
  rewrite (C17_structure_bytes _ _ fuel _ _ _ _ _ _ _ _ _ N H A). cbn [as_bytes bind].
  rewrite (array_unpack ts d vs Ar P Na rest). reflexivity.
Qed.
Print Assumptions C94_slice_partial.
(** Which structures these are: TIMER, COUNTER, CONTROL and every struct with a
    member of four or more bytes. *)
Theorem C94_natural : forall tg, 4 <= own_alignment tg -> natural tg.
Proof. intros tg H. unfold natural, stride. now rewrite Z.max_r by lia. Qed.
Print Assumptions C94_natural.

(** ** What a successful Read means *)
Lemma read_value_not_bytes t r b r' : read_value t r <> Ok (GBytes b, r').
Proof.
  unfold read_value, read_int.
  repeat (match goal with |- context [if ?c then _ else _] => destruct c end;
          [first [discriminate | match goal with |- context [rd ?n ?x] => destruct (rd n x) as [[? ?]| | |] end; discriminate]|]).
  discriminate.
Qed.
Lemma struct_bytes_inv {S} (ctl : controller S) fuel ops s0 otid q tg e b : honest ctl -> named ops tg ->
  as_bytes (fst (fst (read_single fuel ctl (cl_run ops) s0 otid q (text tg) T_struct e))) = Ok b ->
  exists s1 handle, length handle = 2%nat /\ bytes_ok b /\ answers_with ctl s0 otid q (encode tg) e 0 0xA0 (handle ++ b) s1 /\
    snd (fst (read_single fuel ctl (cl_run ops) s0 otid q (text tg) T_struct e)) = s1.
Proof.
  intros H (V & K & L) E. unfold read_single in *. rewrite (C01_lemma ops tg T_struct V K) in *.
  unfold read_single_ioi in *. cbn [ioi_buf] in *. rewrite read_req_wire in * by exact L.
  pose proof (H s0 (read_request otid q (encode tg) e)) as Hs. unfold answers_with.
  destruct (ctl s0 (read_request otid q (encode tg) e)) as [[[x p]| | |] s1] eqn:Ec; cbn [fst] in *; try discriminate.
  destruct (parse_read_hdr p) as [h| | |] eqn:Ph; cbn [fst] in E; try discriminate.
  pose proof (parse_answer_inv p h Hs Ph) as A.
  assert (Nb : forall m, rh_type h <> 0xA0 -> forall i, as_bytes (decode_read i T_struct e (rh_type h) m) <> Ok b).
  { intros m N i. unfold decode_read. change (T_struct =? T_bool) with false. cbn [andb].
    destruct (Z.eqb_spec (rh_type h) T_struct) as [T|_]; [now unfold T_struct in T|].
    destruct (e =? 1).
    - destruct (read_value (rh_type h) m) as [[v r']| | |] eqn:R; cbn [bind as_bytes]; try discriminate.
      destruct v; try discriminate. now apply read_value_not_bytes in R.
    - destruct (read_values _ _ _) as [[vs r']| | |]; cbn [bind as_bytes]; discriminate. }
  unfold st_partial in *. destruct (Z.eqb_spec (rh_status h) 6) as [Z6|Z6].
  - destruct (Z.eqb_spec (rh_type h) T_struct) as [T|T]; [discriminate|].
    destruct (read_fragmented _ _ _ _ _ _ _ _) as [[[m| | |] s2] q2]; cbn [fst] in E; try discriminate. now apply Nb in E.
  - destruct (Z.eqb_spec (rh_status h) 0) as [Z0|Z0]; cbn [negb fst snd] in *; [|discriminate].
    destruct (Z.eq_dec (rh_type h) 0xA0) as [T|T]; [|now apply Nb in E].
    rewrite Z0, T in A. unfold decode_read in E. rewrite T in E. change (160 =? T_struct) with true in E. change (T_struct =? T_string) with false in E. cbn iota in E.
    destruct (rd 2 (rh_data h)) as [[hd r]| | |] eqn:R; cbn [bind as_bytes] in E; try discriminate. injection E as <-.
    apply rd_ok_inv in R as [D Lh]. rewrite D in A. exists s1, hd. split; [exact Lh|]. split; [|split; [exists x, p; auto|reflexivity]].
    destruct A as (pre & addr & id & sq & svc & resv & ext & y & rest & _ & _ & _ & Ep). rewrite Ep in Hs.
    unfold wire_list in Hs. cbn [map concat] in Hs. unfold wire_item in Hs. cbn [fst snd] in Hs.
    repeat (rewrite bytes_ok_app in Hs || rewrite <- app_assoc in Hs). tauto.
Qed.
Lemma unpack_sent tg b v n rest : plain_target tg -> solid_target tg -> exact_target tg -> bytes_ok b ->
  unpack_into tg b = Ok (v, n, rest) -> n = room tg /\ exists d, b = d ++ rest /\ sent tg d v /\ len d = room tg.
Proof.
  intros P So Ex B E. destruct tg as [name fs|t0|t0|t0]; cbn [unpack_into plain_target solid_target exact_target room] in *.
  - destruct P as [G Si]. destruct (unpack (TStruct name fs) b) as [[[x m] r]| | |] eqn:U; try discriminate. cbn [bind fst snd] in E. injection E as <- <- <-.
    destruct (proj1 unpack_shows _ _ _ _ _ G Si So Ex B U) as (d & -> & Sh & -> & Ld).
    split; [reflexivity|]. exists d. split; [reflexivity|]. split; [|exact Ld]. cbn [sent].
    split; [exact (proj1 (proj1 unpack_typed _ _ _ _ _ G B U))|exact Sh].
  - destruct (Nat.le_gt_cases 12 (length b)) as [L|L].
    + destruct (C49_unpack b B L) as (w & a & c & r & -> & W & Ia & Ic & T & _ & _).
      destruct (T t0) as (t & Et & Ea & Ec & F). pose proof Et as Eu.
      rewrite (app_assoc (le 4 a)), (app_assoc (le 4 w)) in Eu. unfold timer_unpack in Eu.
      rewrite unpack3_run in Eu by assumption. rewrite Et in E. cbn [own] in E. injection E as <- <- <-. split; [reflexivity|].
      exists (le 4 w ++ le 4 a ++ le 4 c). split; [now rewrite <- !app_assoc|]. split; [|now rewrite !len_app, !le_len].
      cbn [sent]. exists w. rewrite Ea, Ec. split; [split; auto|]. split; [exact F|]. injection Eu as <-. reflexivity.
    + destruct (C49_short b L) as [T _]. destruct (T t0) as (t & e & Et). rewrite Et in E. discriminate.
  - destruct (Nat.le_gt_cases 12 (length b)) as [L|L].
    + destruct (C49_unpack b B L) as (w & a & c & r & -> & W & Ia & Ic & _ & T & _).
      destruct (T t0) as (t & Et & Ea & Ec & F). rewrite Et in E. cbn [own] in E. injection E as <- <- <-. split; [reflexivity|].
      exists (le 4 w ++ le 4 a ++ le 4 c). split; [now rewrite <- !app_assoc|]. split; [|now rewrite !len_app, !le_len].
      cbn [sent]. exists w. rewrite Ea, Ec. split; [split; auto|]. exact F.
    + destruct (C49_short b L) as [_ [T _]]. destruct (T t0) as (t & e & Et). rewrite Et in E. discriminate.
  - destruct (Nat.le_gt_cases 12 (length b)) as [L|L].
    + destruct (C49_unpack b B L) as (w & a & c & r & -> & W & Ia & Ic & _ & _ & T).
      destruct (T t0) as (t & Et & Ea & Ec & F). rewrite Et in E. cbn [own] in E. injection E as <- <- <-. split; [reflexivity|].
      exists (le 4 w ++ le 4 a ++ le 4 c). split; [now rewrite <- !app_assoc|]. split; [|now rewrite !len_app, !le_len].
      cbn [sent]. exists w. rewrite Ea, Ec. split; [split; auto|]. exact F.
    + destruct (C49_short b L) as [_ [_ T]]. destruct (T t0) as (t & e & Et). rewrite Et in E. discriminate.
Qed.
(** Whatever the controller does, a value is returned only if it was sent in a
    successful reply to a request for the tag. *)
Theorem C94_sound_partial : forall S (ctl : controller S) fuel ops s0 otid q tg t o s1 q1,
  honest ctl -> named ops tg -> plain_target t -> solid_target t -> exact_target t ->
  read_to fuel ctl (cl_run ops) s0 otid q (text tg) (DOne t) = (Ok o, s1, q1) ->
  exists v d handle rest, o = OOne v /\ sent t d v /\ length handle = 2%nat /\
    answers_with ctl s0 otid q (encode tg) 1 0 0xA0 (handle ++ d ++ rest) s1.
Proof.
  intros S ctl fuel ops s0 otid q tg t o s1 q1 H N P So Ex E. unfold read_to in E.
  pose proof (struct_bytes_inv ctl fuel ops s0 otid q tg 1) as Inv.
  destruct (read_single fuel ctl (cl_run ops) s0 otid q (text tg) T_struct 1) as [[r s2] q2]. cbn [fst snd] in Inv.
  destruct (as_bytes r) as [b| | |]; cbn [bind] in E; try discriminate.
  destruct (Inv b H N eq_refl) as (s3 & handle & Lh & B & A & <-).
  destruct (unpack_into t b) as [[[v n] rest]| | |] eqn:U; cbn [bind fst] in E; try discriminate. injection E as <- <- <-.
  destruct (unpack_sent t b v n rest P So Ex B U) as (_ & d & -> & Se & _). exists v, d, handle, rest. auto.
Qed.
Print Assumptions C94_sound_partial.
(** The same for slices. *)
Lemma each_read tgs : forall b vs rest, Forall plain_target tgs -> Forall solid_target tgs -> Forall exact_target tgs -> Forall natural tgs ->
  Forall (fun t => 0 < room t) tgs -> bytes_ok b -> unpack_each tgs b = Ok (vs, rest) -> array_read tgs b vs.
Proof.
  induction tgs as [|tg tgs IH]; intros b vs rest P So Ex Na Ro B E; cbn [unpack_each] in E.
  - injection E as <- <-. constructor.
  - inversion P as [|? ? P1 P2]; inversion So as [|? ? So1 So2]; inversion Ex as [|? ? Ex1 Ex2]; inversion Na as [|? ? Na1 Na2];
      inversion Ro as [|? ? Ro1 Ro2]; subst.
    destruct (unpack_into tg b) as [[[v n] r1]| | |] eqn:U; try discriminate. cbn [bind fst snd] in E.
    destruct (unpack_sent tg b v n r1 P1 So1 Ex1 B U) as (-> & d & -> & Se & Ld).
    apply bytes_ok_app in B as [_ B1]. destruct (target_align_pos tg P1) as [Ea Ap]. rewrite Ea in E.
    match type of E with (let* _ := ?c in _) = _ => destruct c as [r2| | |] eqn:R2 end; try discriminate. cbn [bind] in E.
    destruct (unpack_each tgs r2) as [[ws r3]| | |] eqn:E2; try discriminate. cbn [bind fst] in E. injection E as <- <-.
    assert (B2 : bytes_ok r2).
    { destruct (_ =? 0); [injection R2 as <-; exact B1|]. exact (read_some_ok _ _ _ B1 R2). }
    pose proof (IH r2 ws r3 P2 So2 Ex2 Na2 Ro2 B2 E2) as A.
    destruct tgs as [|tg2 tgs].
    + inversion A; subst. now apply ar_last.
    + assert (Ne : r2 <> []).
      { intros ->. inversion Ro2 as [|? ? Ro3 _]; inversion P2 as [|? ? P3 _]; inversion So2 as [|? ? S3 _]; inversion Ex2 as [|? ? X3 _]; subst.
        cbn [unpack_each] in E2. destruct (unpack_into tg2 []) as [[[v2 n2] r4]| | |] eqn:U2; try discriminate.
        destruct (unpack_sent tg2 [] v2 n2 r4 P3 S3 X3 (Forall_nil _) U2) as (_ & d2 & Ed & _ & L2).
        destruct d2; [change (len []) with 0 in L2; lia|discriminate]. }
      assert (Pad : exists pad, r1 = pad ++ r2 /\ len (d ++ pad) = stride tg).
      { unfold natural in Na1. rewrite Na1, (align_up_id _ _ Ap). destruct (Z.eqb_spec (room tg mod own_alignment tg) 0) as [E0|E0].
        - injection R2 as <-. exists []. rewrite app_nil_r. split; [reflexivity|lia].
        - pose proof (Z.mod_pos_bound (room tg) _ Ap) as M. set (k := Z.to_nat (own_alignment tg - room tg mod own_alignment tg)) in *.
          assert (Kr : r2 = skipn k r1) by (destruct k; [injection R2 as <-; reflexivity|destruct r1; [discriminate|cbn [read_some] in R2; injection R2 as <-; reflexivity]]).
          assert (Kl : (k <= length r1)%nat).
          { destruct (Nat.le_gt_cases k (length r1)) as [H|H]; [exact H|]. rewrite skipn_all2 in Kr by lia. now destruct Ne. }
          exists (firstn k r1). split; [rewrite Kr; symmetry; apply firstn_skipn|]. rewrite len_app, Ld. unfold len. rewrite firstn_length_le by exact Kl. lia. }
      destruct Pad as (pad & -> & Lp). now apply ar_cons.
Qed.
Theorem C94_slice_sound_partial : forall S (ctl : controller S) fuel ops s0 otid q tg ts o s1 q1,
  honest ctl -> named ops tg -> Forall plain_target ts -> Forall solid_target ts -> Forall exact_target ts -> Forall natural ts ->
  Forall (fun t => 0 < room t) ts -> len ts < 65536 ->
  read_to fuel ctl (cl_run ops) s0 otid q (text tg) (DMany ts) = (Ok o, s1, q1) ->
  exists vs d handle, o = OMany vs /\ array_read ts d vs /\ length handle = 2%nat /\
    answers_with ctl s0 otid q (encode tg) (len ts) 0 0xA0 (handle ++ d) s1.
Proof.
  intros S ctl fuel ops s0 otid q tg ts o s1 q1 H N P So Ex Na Ro L E. unfold read_to in E.
  rewrite Z.mod_small in E by (pose proof (len_nonneg ts); lia).
  pose proof (struct_bytes_inv ctl fuel ops s0 otid q tg (len ts)) as Inv.
  destruct (read_single fuel ctl (cl_run ops) s0 otid q (text tg) T_struct (len ts)) as [[r s2] q2]. cbn [fst snd] in Inv.
  destruct (as_bytes r) as [b| | |]; cbn [bind] in E; try discriminate.
  destruct (Inv b H N eq_refl) as (s3 & handle & Lh & B & A & <-).
  destruct (unpack_each ts b) as [[vs rest]| | |] eqn:U; cbn [bind fst] in E; try discriminate. injection E as <- <- <-.
  exists vs, b, handle. split; [reflexivity|]. split; [now apply (each_read ts b vs rest)|]. auto.
Qed.
Print Assumptions C94_slice_sound_partial.

(** Reading into structs and slices of structs does not bring the program down. *)
Lemma into_safe tg b : unpack_into tg b <> Panic.
Proof.
  destruct tg as [name fs|t|t|t]; cbn [unpack_into].
  - destruct (proj1 unpack_safe (TStruct name fs) b I) as [[[[v n] r] ->]|[e ->]]; discriminate.
  - unfold timer_unpack, unpack3. repeat (match goal with |- context [rd 4 ?x] => pose proof (rd_no_panic 4 x); destruct (rd 4 x) as [[? ?]| | |] end; cbn [own]; try discriminate; try congruence).
  - unfold counter_unpack, unpack3. repeat (match goal with |- context [rd 4 ?x] => pose proof (rd_no_panic 4 x); destruct (rd 4 x) as [[? ?]| | |] end; cbn [own]; try discriminate; try congruence).
  - unfold control_unpack, unpack3. repeat (match goal with |- context [rd 4 ?x] => pose proof (rd_no_panic 4 x); destruct (rd 4 x) as [[? ?]| | |] end; cbn [own]; try discriminate; try congruence).
Qed.
Lemma each_safe tgs : forall b, unpack_each tgs b <> Panic.
Proof.
  induction tgs as [|tg tgs IH]; intros b; cbn [unpack_each]; [discriminate|].
  pose proof (into_safe tg b). destruct (unpack_into tg b) as [[[v n] r1]| | |]; cbn [bind fst snd]; try discriminate; [|congruence].
  assert (R : forall k r, read_some k r <> Panic) by (intros k r; destruct k, r; discriminate).
  destruct (n mod target_align tg =? 0); cbn [bind].
  - specialize (IH r1). destruct (unpack_each tgs r1) as [[? ?]| | |]; cbn [bind]; try discriminate; congruence.
  - specialize (R (Z.to_nat (target_align tg - n mod target_align tg)) r1). destruct (read_some _ r1) as [r2| | |]; cbn [bind]; try discriminate; [|congruence].
    specialize (IH r2). destruct (unpack_each tgs r2) as [[? ?]| | |]; cbn [bind]; try discriminate; congruence.
Qed.
Theorem C94_no_crash : forall S (ctl : controller S) fuel ops s0 otid q tg d,
  honest ctl -> named ops tg -> match d with DAnys _ => False | _ => True end ->
  fst (fst (read_to fuel ctl (cl_run ops) s0 otid q (text tg) d)) <> Panic.
Proof.
  intros S ctl fuel ops s0 otid q tg d H N D.
  assert (R : forall e, fst (fst (read_single fuel ctl (cl_run ops) s0 otid q (text tg) T_struct e)) <> Panic).
  { intros e E. destruct (C55_single_only_long_string_crashes S ctl ops tg T_struct e fuel s0 otid q H N E) as [X _]. discriminate. }
  destruct d as [t|ts| |n|]; try contradiction; cbn [read_to].
  - specialize (R 1). destruct (read_single _ _ _ _ _ _ _ _ _) as [[r s1] q1]. cbn [fst] in *.
    destruct r as [v| | |]; cbn [as_bytes bind]; try discriminate; [|congruence]. destruct v; cbn [bind]; try discriminate.
    match goal with |- context [unpack_into t ?x] => pose proof (into_safe t x); destruct (unpack_into t x) as [[[? ?] ?]| | |] end; cbn [bind]; try discriminate; congruence.
  - specialize (R (len ts mod 65536)). destruct (read_single _ _ _ _ _ _ _ _ _) as [[r s1] q1]. cbn [fst] in *.
    destruct r as [v| | |]; cbn [as_bytes bind]; try discriminate; [|congruence]. destruct v; cbn [bind]; try discriminate.
    match goal with |- context [unpack_each ts ?x] => pose proof (each_safe ts x); destruct (unpack_each ts x) as [[? ?]| | |] end;
      cbn [bind]; try discriminate; congruence.
  - specialize (R 1). destruct (read_single _ _ _ _ _ _ _ _ _) as [[r s1] q1]. cbn [fst] in *.
    destruct r as [v| | |]; cbn [bind]; try discriminate; congruence.
  - discriminate.
Qed.
Print Assumptions C94_no_crash.

(** ** Where it fails *)

(** A struct given by value, or anything else that is neither a pointer nor a
    slice: success, and nothing was asked. *)
Theorem C94_by_value_refuted : exists (ctl : controller (list bytes)) tg, honest ctl /\ named [] tg /\
  (forall log req, ctl log req = (Ok (0, plain_answer 1 5 0 []), log ++ [req])) /\
  is_err (fst (fst (read_to 0 ctl (cl_run []) [] 7 1 (text tg) (DOne (TgCounter (Counter 0 0 false false false false false)))))) = true /\
  read_to 0 ctl (cl_run []) [] 7 1 (text tg) DOther = (Ok ONothing, [], 1).
Proof.
  exists (fixed 5 0 []), (ex_tag None). split; [|split; [exact (ex_named None I)|]; split; [reflexivity|]; split; vm_compute; reflexivity].
  intros log req. cbn [fixed fst]. apply check_bytes. vm_compute. reflexivity.
Qed.
Print Assumptions C94_by_value_refuted.

(** An array of structures without a member of four bytes: the padding Logix
    puts behind each is taken for the next. *)
Definition word_struct : target := TgStruct (str "W") (FCons false (TInt true 2) FNil).
Theorem C94_small_members_refuted : exists ctl tg ts d vs ws, honest ctl /\ named [] tg /\ Forall plain_target ts /\ array_sent ts d vs /\
  answers_with ctl [] 7 1 (encode tg) (len ts) 0 0xA0 ([1; 2] ++ d) [read_request 7 1 (encode tg) (len ts)] /\
  fst (fst (read_to 0 ctl (cl_run []) [] 7 1 (text tg) (DMany ts))) = Ok (OMany ws) /\ ws <> vs.
Proof.
  exists (fixed 0 0xA0 ([1; 2] ++ [5; 0; 0; 0; 6; 0; 0; 0])), (ex_tag None), [word_struct; word_struct], [5; 0; 0; 0; 6; 0; 0; 0],
    [SStruct (VStruct [VInt 5]); SStruct (VStruct [VInt 6])], [SStruct (VStruct [VInt 5]); SStruct (VStruct [VInt 0])].
  split; [intros log req; cbn [fixed fst]; apply check_bytes; vm_compute; reflexivity|]. split; [exact (ex_named None I)|].
  split; [repeat (apply Forall_cons; [cbn; tauto|]); apply Forall_nil|].
  assert (Sh : forall z, z = 5 \/ z = 6 -> sent word_struct [z; 0] (SStruct (VStruct [VInt z]))).
  { intros z Hz. cbn [sent word_struct]. split; [cbn; lia|]. cbn [shows holds as_bits]. split; [reflexivity|]. cbv zeta. split; [|exact I].
    destruct Hz as [-> | ->]; vm_compute; reflexivity. }
  split.
  { apply (as_cons word_struct [5; 0] [0; 0] _ [word_struct] ([6; 0] ++ [0; 0] ++ []) _); [apply Sh; lia|reflexivity|].
    apply (as_cons word_struct [6; 0] [0; 0] _ [] [] []); [apply Sh; lia|reflexivity|constructor]. }
  split; [exact (fixed_answers 0 0xA0 ([1; 2] ++ [5; 0; 0; 0; 6; 0; 0; 0]) [] 7 1 (encode (ex_tag None)) 2 ltac:(vm_compute; reflexivity))|].
  split; [vm_compute; reflexivity|discriminate].
Qed.
Print Assumptions C94_small_members_refuted.

(** A []any: the program comes down with any structure that is read. *)
Theorem C94_any_slice_crashes : forall S (ctl : controller S) fuel ops s0 s1 otid q tg n d handle,
  named ops tg -> length handle = 2%nat ->
  answers_with ctl s0 otid q (encode tg) 1 0 0xA0 (handle ++ d) s1 ->
  read_to fuel ctl (cl_run ops) s0 otid q (text tg) (DAnys (Datatypes.S n)) = (Panic, s1, q + 1).
Proof.
  intros S ctl fuel ops s0 s1 otid q tg n d handle N H A. unfold read_to. change T_struct with 0xA0.
  rewrite (C17_structure_bytes _ _ fuel _ _ _ _ _ _ _ _ _ N H A). reflexivity.
Qed.
Print Assumptions C94_any_slice_crashes.

(** Two timers, and a struct with bools, a number and an inner struct. *)
Definition no_timer : timer := Timer 0 0 false false false false false false false.
Example ex_C94_slice : array_sent [TgTimer no_timer; TgTimer no_timer]
    (([1; 0; 0; 0xA0] ++ le 4 5000 ++ le 4 (-1)) ++ ([0; 0; 0; 0x40] ++ le 4 7 ++ le 4 8))
    [STimer (Timer 5000 (-1) true false true false false false false); STimer (Timer 7 8 false true false false false false false)] /\
  Forall natural [TgTimer no_timer; TgTimer no_timer] /\
  fst (fst (read_to 0 (fixed 0 0xA0 ([0x83; 0x0F] ++ ([1; 0; 0; 0xA0] ++ le 4 5000 ++ le 4 (-1)) ++ ([0; 0; 0; 0x40] ++ le 4 7 ++ le 4 8)))
    (cl_run []) [] 7 1 (text (ex_tag None)) (DMany [TgTimer no_timer; TgTimer no_timer]))) =
  Ok (OMany [STimer (Timer 5000 (-1) true false true false false false false); STimer (Timer 7 8 false true false false false false false)]).
Proof.
  split; [|split; [repeat (apply Forall_cons; [reflexivity|]); apply Forall_nil|vm_compute; reflexivity]].
  apply (as_cons (TgTimer no_timer) ([1; 0; 0; 0xA0] ++ le 4 5000 ++ le 4 (-1)) [] _ [TgTimer no_timer] (([0; 0; 0; 0x40] ++ le 4 7 ++ le 4 8) ++ [] ++ []) _).
  - exists 0xA0000001. split; [split; [reflexivity|]; unfold int32; cbn; lia|]. split; [|reflexivity].
    intros n f I. cbn in I. repeat destruct I as [I|I]; try contradiction; injection I as <- <-; reflexivity.
  - reflexivity.
  - apply (as_cons (TgTimer no_timer) ([0; 0; 0; 0x40] ++ le 4 7 ++ le 4 8) [] _ [] [] []); [|reflexivity|constructor].
    exists 0x40000000. split; [split; [reflexivity|]; unfold int32; cbn; lia|]. split; [|reflexivity].
    intros n f I. cbn in I. repeat destruct I as [I|I]; try contradiction; injection I as <- <-; reflexivity.
Qed.
Definition outer : target := match ex_type with TStruct name fs => TgStruct name fs | _ => word_struct end.
Example ex_C94_struct : sent outer dirty_bytes (SStruct ex_value) /\ plain_target outer /\ solid_target outer /\
  fst (fst (read_to 0 (fixed 0 0xA0 ([1; 2] ++ dirty_bytes ++ [3])) (cl_run []) [] 7 1 (text (ex_tag None)) (DOne outer))) = Ok (OOne (SStruct ex_value)).
Proof.
  split; [split; [|exact dirty_shows]|split; [|split; [|vm_compute; reflexivity]]].
  - cbn [ex_type inner ex_value has_type fields_have tt9 map]. repeat match goal with
           | |- _ /\ _ => split
           | |- Forall _ _ => constructor
           | |- True => exact I
           | |- In _ _ => cbn [In]; lia
           | _ => first [reflexivity | lia | cbn; lia]
           end.
  - cbn; tauto.
  - cbn [outer ex_type inner solid_target solid solid_fields]. repeat match goal with
           | |- _ /\ _ => split
           | |- True => exact I
           | |- _ \/ _ => first [left; reflexivity | right; vm_compute; reflexivity]
           end.
Qed.
