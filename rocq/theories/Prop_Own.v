(** C98 to C100: attributes, browsing and keep-alive of a client connected to the
    built-in server. *)
From Verif Require Import GoBase SegModel SegSpec SegProof IoiModel ItemsModel TypesModel ItemsSpec ItemsProof ReadModel ReadProof WriteModel WriteSpec EipModel EipSpec EipProof
  BatchSpec OpenModel TableModel ProvModel ProvSpec SrvValModel SrvModel SrvSpec SrvProof ReqSpec LinkModel ReqProof Prop_Srv Prop_Req
  IdentSpec IdentProof AttrModel AttrSpec AttrProof Prop_Attr BrowseSpec BrowseProof Prop_Browse ConnModel KeepModel OwnModel OwnSpec.
From Verif Require ListModel ListProof CannedModel ProvProof DataModel.

Lemma attribute_lookup m k v : attribute_of m k v <-> zlookup k m = Some v.
Proof.
  split.
  - induction 1 as [k v m|k v k' v' m N _ IH]; cbn [zlookup]; [now rewrite Z.eqb_refl|].
    destruct (k' =? k) eqn:E; [lia|exact IH].
  - induction m as [|[k' v'] m IH]; cbn [zlookup]; [discriminate|]. destruct (k' =? k) eqn:E.
    + intro H. injection H as ->. replace k' with k by lia. apply ao_here.
    + intro H. apply ao_later; [lia|now apply IH].
Qed.
Lemma image_ser v d : attribute_image v d -> item_ser [] (PV v) = Ok d.
Proof.
  intros [k v' N|s L].
  - now apply (item_ser_number k).
  - cbn [item_ser]. unfold ser_string, string_data, fit. f_equal. f_equal. rewrite firstn_all2; [reflexivity|]. unfold len in L. lia.
Qed.
Lemma image_len v d : attribute_image v d -> (match v with GInt _ w _ | GFloat w _ => (w <= 8)%nat | _ => True end) -> len d <= 88.
Proof.
  intros [k v' N|s L] W.
  - destruct v'; try contradiction; cbn [number_data]; rewrite ?le_len; unfold len; cbn [length]; lia.
  - unfold string_data. rewrite !len_app, le_len. unfold zeros, len in *. rewrite repeat_length. lia.
Qed.

(** ** One request over the connection *)
Lemma link_object session context otid i sh q svc path data : linked session context otid i sh -> 0 <= svc < 256 -> len path < 512 -> len data < 60000 ->
  link session context sh (object_request otid q svc path data) =
  link_result (unit_items (map mk [(0xA1, le 4 otid); (0xB1, le 2 q ++ [svc; len path / 2] ++ path ++ data)]) (receiving (fst sh) (snd sh) context)).
Proof.
  intros (Hs & Hc & Ho & Hh & _) Hv Lp Ld. pose proof (len_nonneg path). pose proof (len_nonneg data). unfold object_request. apply link_run; [exact Hs|exact Hc| |].
  - apply fits_pair; [rewrite le_len; lia|]. rewrite !len_app, le_len, !len_cons. change (len (@nil Z)) with 0. lia.
  - rewrite len_app, wire_pair_len, !len_app, !le_len, !len_cons. change (len (zeros 6)) with 6. change (len (@nil Z)) with 0. lia.
Qed.
(** A reply the server sends. *)
Lemma sent_reply session context otid i sh seq to svc status d h' : linked session context otid i sh -> len d < 60000 ->
  handler_ok h' -> h_context h' = context ->
  exists p, link_result (send 0x70 (serialize_items (map mk [(0xA1, le 4 to); (0xB1, le 2 seq ++ [svc; 0; status; 0] ++ d)])) (World (fst sh) h' [] [])) = (Ok (0, p), (fst sh, h')) /\
    reply p svc status 0 d /\ linked session context otid i (fst sh, h').
Proof.
  intros (Hs & Hc & Ho & Hh & Ld & Sp) L Hh' Ec.
  assert (F : fits [(0xA1, le 4 to); (0xB1, le 2 seq ++ [svc; 0; status; 0] ++ d)]).
  { apply fits_pair; [rewrite le_len; lia|]. rewrite !len_app, le_len, !len_cons. change (len (@nil Z)) with 0. lia. }
  rewrite recv_one; [|exact Hh'|rewrite Ec; exact Hc|lia|exact F|].
  - eexists. split; [reflexivity|]. split.
    + exists (zeros 6), (0xA1, le 4 to), 0xB1, (le 2 seq), 0, [], []. split; [reflexivity|]. split; [apply le_length|].
      split; [exact F|]. now rewrite app_nil_r.
    + unfold linked. cbn [fst snd]. auto 10.
  - rewrite len_app, wire_pair_len, !len_app, !le_len, !len_cons. change (len (zeros 6)) with 6. change (len (@nil Z)) with 0. lia.
Qed.
Lemma le_one n : 0 <= n < 256 -> unle [n] = n. Proof. intro H. cbn [unle]. lia. Qed.

(** Attribute [k] of the identity. *)
Lemma link_attr session context otid i sh q k v d : linked session context otid i sh -> 0 <= k < 256 ->
  zlookup k (sv_attrs (fst sh)) = Some v -> item_ser [] (PV v) = Ok d -> len d < 60000 ->
  exists p h1, link session context sh (object_request otid q 0x0E ([0x20; 1] ++ [0x24; 1] ++ [0x30; k]) []) = (Ok (0, p), (fst sh, h1)) /\
    reply p 0xD2 0 0 d /\ linked session context otid i (fst sh, h1).
Proof.
  intros L Hk Z E Ld. rewrite (link_object session context otid i) by (assumption || lia || (cbn; lia)).
  pose proof L as (Hs & Hc & Ho & Hh & (to & Li & cn & Ec & <- & Er) & Sp).
  change ([0x20; 1] ++ [0x24; 1] ++ [0x30; k]) with [0x20; 1; 0x24; 1; 0x30; k]. rewrite (app_nil_r [_; _; _; _; _; _]). change (len [0x20; 1; 0x24; 1; 0x30; k] / 2) with 3.
  rewrite unit_pair by lia. cbv zeta.
  change (0x0E =? svc_write) with false. change ((0x0E =? svc_fragread) || (0x0E =? svc_read)) with false.
  change (0x0E =? svc_multi) with false. change (0x0E =? svc_get_single) with true. cbv iota.
  unfold connected_get_attr. erewrite lift_ok by (rewrite <- (app_nil_r (le 4 otid)); apply rd_app; apply le_length). cbv beta iota.
  unfold bindM at 1, SrvModel.ask. cbn [w_srv receiving]. rewrite unle_le_small by (cbn; lia).
  erewrite lift_ok by exact Ec. cbv beta.
  erewrite lift_ok by (apply rd_app; apply le_length). cbv beta iota. cbn [app].
  erewrite lift_ok by apply rd_cons1. cbv beta iota. erewrite lift_ok by apply rd_cons1. cbv beta iota.
  change (negb (unle [3] =? 3)) with false. cbv iota.
  erewrite lift_ok by (apply (class_read_bytes 1); lia). cbv beta iota.
  erewrite lift_ok by (apply (instance_read_bytes 1); lia). cbv beta iota. cbn [Z.eqb Pos.eqb negb orb].
  assert (A : attribute_read [0x30; k] = Ok (k, [])).
  { pose proof (attribute_read_bytes k [] ltac:(lia)) as A. unfold attribute_bytes in A. destruct (k <? 256) eqn:B; [exact A|lia]. }
  erewrite lift_ok by exact A. cbv beta iota. rewrite Z.
  erewrite lift_ok by exact E. cbv beta. unfold conn_reply. rewrite conn_items.
  change (as_response svc_fragread) with 0xD2. cbn [concat]. rewrite app_nil_r. unfold receiving.
  cbn [w_h w_in w_sent h_handle h_options h_context h_ot h_to h_seq].
  destruct (sent_reply session context otid i sh (unle (le 2 q)) (sc_to cn) 0xD2 0 d (Handler (h_handle (snd sh)) (h_options (snd sh)) context (h_ot (snd sh)) (h_to (snd sh)) (q mod 65536)) L Ld)
    as (p & P1 & P2 & P3); [split; [apply (proj1 Hh)|apply (proj2 Hh)]|reflexivity|].
  exists p. eexists. split; [|split; [exact P2|exact P3]]. cbn [w_srv]. rewrite <- P1. reflexivity.
Qed.

(** ** C98

    Full statement: the client gets every attribute of the server's identity,
    single or all at once, whichever call it uses; asking for what is not there is
    an error and the connection stays usable.  False for GenericCIPMessage with
    GetAttributeSingle and for what is not there (below). *)
Theorem C98_single_partial : forall session context otid i sh q k v d, linked session context otid i sh -> 0 <= k < 256 ->
  attribute_of (sv_attrs (fst sh)) k v -> attribute_image v d -> len d < 60000 ->
  exists it h1, get_attr_single (link session context) sh otid q 1 1 k = (Ok it, (fst sh, h1), q + 1) /\ item_rest it = Ok d /\
    linked session context otid i (fst sh, h1).
Proof.
  intros session context otid i sh q k v d L Hk A I Ld. apply attribute_lookup in A. apply image_ser in I.
  destruct (link_attr session context otid i sh q k v d L Hk A I Ld) as (p & h1 & E & R & L1).
  assert (X : single_request otid q 1 1 k = object_request otid q 0x0E ([0x20; 1] ++ [0x24; 1] ++ [0x30; k]) []).
  { rewrite single_request_wire by lia. unfold class_segment, instance_segment, attribute_segment, logical. destruct (k <? 2 ^ 8) eqn:B; [reflexivity|lia]. }
  rewrite <- X in E. destruct (C53_single_data_partial _ _ _ _ _ _ _ _ _ _ _ _ _ _ _ E R) as (it & E1 & R1).
  exists it, h1. auto.
Qed.
Print Assumptions C98_single_partial.
(** The firmware revision the client works with (it chooses between names and
    instance numbers by it) is the low byte of attribute 4, and stays so once it is
    known, without another request. *)
Theorem C98_firmware_partial : forall session context otid i sh q rev, linked session context otid i sh ->
  attribute_of (sv_attrs (fst sh)) 4 (GInt true 2 rev) ->
  exists h1, firmware (link session context) sh otid q 0 = (Ok (rev mod 256), (fst sh, h1), q + 1) /\ linked session context otid i (fst sh, h1) /\
    (rev mod 256 <> 0 -> forall sh' q', firmware (link session context) sh' otid q' (rev mod 256) = (Ok (rev mod 256), sh', q')).
Proof.
  intros session context otid i sh q rev L A.
  destruct (C98_single_partial session context otid i sh q 4 _ (number_data (GInt true 2 rev)) L ltac:(lia) A) as (it & h1 & E & R & L1).
  - now apply (ai_number (KInt true 2)).
  - cbn [number_data]. rewrite le_len. lia.
  - exists h1. split; [|split; [exact L1|intros Hr sh' q'; unfold firmware; destruct (Z.eqb_spec (rev mod 256) 0); [contradiction|reflexivity]]].
    unfold firmware. change (negb (0 =? 0)) with false. cbv iota. rewrite E. f_equal. f_equal.
    unfold item_rest in R. unfold item_uint. change (number_data (GInt true 2 rev)) with (le 2 rev) in R.
    assert (P : len (it_data it) = it_pos it + 2).
    { unfold slice_from in R. destruct ((0 <=? it_pos it) && (it_pos it <=? len (it_data it))) eqn:B; [|discriminate].
      assert (R' : skipn (Z.to_nat (it_pos it)) (it_data it) = le 2 rev) by congruence.
      apply (f_equal len) in R'. rewrite le_len in R'. unfold len in *. rewrite skipn_length in R'. lia. }
    destruct (len (it_data it) <=? it_pos it + (Z.of_nat 1 - 1)) eqn:B; [lia|]. rewrite R. cbn [fst]. cbn [le firstn unle]. f_equal. lia.
Qed.
Print Assumptions C98_firmware_partial.

(** Requests answered with sendUnitDataReply. *)
Lemma link_unit session context otid i sh q svc path data status d w1 : linked session context otid i sh -> 0 <= svc < 256 -> len path < 512 -> len data < 60000 ->
  w1 = World (fst sh) (Handler (h_handle (snd sh)) (h_options (snd sh)) context (h_ot (snd sh)) (h_to (snd sh)) (q mod 65536)) [] [] ->
  unit_items (map mk [(0xA1, le 4 otid); (0xB1, le 2 q ++ [svc; len path / 2] ++ path ++ data)]) (receiving (fst sh) (snd sh) context) = unit_reply svc status [d] w1 ->
  len d < 60000 ->
  exists p h1, link session context sh (object_request otid q svc path data) = (Ok (0, p), (fst sh, h1)) /\
    reply p (as_response svc) status 0 d /\ linked session context otid i (fst sh, h1).
Proof.
  intros L Hs Lp Ldt -> E Ld. rewrite (link_object session context otid i) by assumption. rewrite E, unit_reply_run.
  pose proof L as (_ & _ & _ & Hh & _).
  cbn [w_h h_to h_seq concat]. rewrite app_nil_r, <- app_assoc.
  destruct (sent_reply session context otid i sh (q mod 65536) (h_to (snd sh)) (as_response svc) status d
    (Handler (h_handle (snd sh)) (h_options (snd sh)) context (h_ot (snd sh)) (h_to (snd sh)) (q mod 65536)) L Ld) as (p & P1 & P2 & P3);
    [split; [apply (proj1 Hh)|apply (proj2 Hh)]|reflexivity|].
  exists p. eexists. split; [exact P1|]. split; [exact P2|exact P3].
Qed.
Lemma unit_reply_nil svc st w : unit_reply svc st [] w = unit_reply svc st [[]] w.
Proof. rewrite !unit_reply_run. reflexivity. Qed.

(** All attributes at once. *)
Definition short_string (s : bytes) : bytes := [len s] ++ s.
Definition identity_image (a : attributes) : bytes :=
  le 2 (at_vendor a) ++ le 2 (at_device a) ++ le 2 (at_code a) ++ le 2 (at_revision a) ++ le 2 (at_status a) ++ le 4 (at_serial a) ++
  short_string (firstn 255 (at_name a)).
(** What the server has to say about an object as a whole: its identity, and its
    name as that of the program running in it. *)
Inductive described (a : attributes) : Z -> Z -> bytes -> Prop :=
| de_identity : described a 1 1 (identity_image a)
| de_program : described a 0x64 1 (short_string (firstn 255 (at_name a))).
Lemma described_lookup a class inst : (exists d, described a class inst d) <-> (class = 1 \/ class = 0x64) /\ inst = 1.
Proof. split; [intros (d & H); inversion H; auto|]. intros ([-> | ->] & ->); eexists; constructor. Qed.
Lemma object_path_len class inst : 0 <= class < 2 ^ 16 -> 0 <= inst < 2 ^ 32 ->
  let path := class_segment class ++ instance_segment inst in len path <= 10 /\ 2 * (len path / 2) = len path.
Proof.
  intros Hc Hi. cbv zeta. rewrite <- class_bytes_spec, <- instance_bytes_spec by assumption.
  rewrite len_app, class_len_ok, instance_len_ok by lia. unfold class_len, instance_len.
  destruct (class <? 256), (inst <? 256), (inst <=? 65535); cbn; lia.
Qed.
Lemma all_answer session context otid i sh q class inst a : linked session context otid i sh -> typed (sv_attrs (fst sh)) a ->
  0 <= class < 2 ^ 16 -> 0 <= inst < 2 ^ 32 ->
  let path := class_segment class ++ instance_segment inst in
  let w1 := World (fst sh) (Handler (h_handle (snd sh)) (h_options (snd sh)) context (h_ot (snd sh)) (h_to (snd sh)) (q mod 65536)) [] [] in
  exists st d, unit_items (map mk [(0xA1, le 4 otid); (0xB1, le 2 q ++ [0x01; len path / 2] ++ path ++ [])]) (receiving (fst sh) (snd sh) context) =
      unit_reply 0x01 st [d] w1 /\ 0 <= st < 256 /\ len d <= 270 /\
    (forall d', described a class inst d' -> st = 0 /\ d = d') /\ ((forall d', ~ described a class inst d') -> st <> 0).
Proof.
  intros L T Hc Hi path w1. destruct (object_path_len class inst Hc Hi) as [Lp Ev]. fold path in Lp, Ev. pose proof (len_nonneg path).
  assert (Ln : len (firstn 255 (at_name a)) <= 255) by (unfold len; rewrite firstn_length; lia).
  assert (U : unit_items (map mk [(0xA1, le 4 otid); (0xB1, le 2 q ++ [0x01; len path / 2] ++ path ++ [])]) (receiving (fst sh) (snd sh) context) =
    (if class =? 1 then if inst =? 1 then unit_reply 0x01 0 [identity_image a] w1 else unit_reply 0x01 5 [[]] w1
     else if class =? 0x64 then if inst =? 1 then unit_reply 0x01 0 [short_string (firstn 255 (at_name a))] w1 else unit_reply 0x01 5 [[]] w1
     else unit_reply 0x01 5 [[]] w1)).
  { rewrite app_nil_r, unit_pair by lia. cbv zeta.
    change (1 =? svc_write) with false. change ((1 =? svc_fragread) || (1 =? svc_read)) with false.
    change (1 =? svc_multi) with false. change (1 =? svc_get_single) with false. change (1 =? svc_get_all) with true. cbv iota.
    unfold get_attribute_all. erewrite lift_ok by apply rd_cons1. cbv beta iota.
    replace (Z.to_nat (unle [len path / 2] * 2)) with (length path) by (cbn [unle]; unfold len in *; lia).
    erewrite lift_ok by (rewrite <- (app_nil_r path) at 2; apply rd_app; reflexivity). cbv beta iota.
    unfold bindM at 1, SrvModel.ask. cbn [w_srv receiving].
    assert (C : class_instance path = Ok (class, inst)).
    { unfold class_instance, path. rewrite <- class_bytes_spec, <- instance_bytes_spec by assumption. rewrite class_read_bytes by lia. cbn [bind].
      rewrite <- (app_nil_r (instance_bytes inst)), instance_read_bytes by lia. reflexivity. }
    rewrite C. cbn [or_reply]. change obj_identity with 1.
    destruct (class =? 1); [|destruct (class =? 0x64); [|apply unit_reply_nil]]; (destruct (inst =? 1); cbn [negb]; [|apply unit_reply_nil]).
    - rewrite (identity_attrs_ok _ a T). erewrite lift_ok by reflexivity. reflexivity.
    - unfold program_attrs, attr_string. destruct T as (_ & _ & _ & _ & _ & _ & ->). cbn [bind]. erewrite lift_ok by reflexivity. reflexivity. }
  rewrite U.
  assert (D0 : forall d', described a class inst d' -> inst = 1 /\ ((class = 1 /\ d' = identity_image a) \/ (class = 0x64 /\ d' = short_string (firstn 255 (at_name a))))).
  { intros d' D. inversion D; subst; auto. }
  destruct (Z.eqb_spec class 1) as [->|N1]; [|destruct (Z.eqb_spec class 0x64) as [->|N2]];
    [destruct (Z.eqb_spec inst 1) as [->|Ni]|destruct (Z.eqb_spec inst 1) as [->|Ni]|];
    eexists; eexists; (split; [reflexivity|]); (split; [lia|]).
  - split; [unfold identity_image, short_string; rewrite !len_app, !le_len, len_cons; change (len (@nil Z)) with 0; lia|].
    split; [intros d' D; destruct (D0 d' D) as (_ & [(_ & ->)|(X & _)]); [auto|discriminate]|].
    intros Nd. elim (Nd _ (de_identity a)).
  - change (len []) with 0. split; [lia|]. split; [intros d' D; destruct (D0 d' D); lia|lia].
  - split; [unfold short_string; rewrite !len_app, len_cons; change (len (@nil Z)) with 0; lia|].
    split; [intros d' D; destruct (D0 d' D) as (_ & [(X & _)|(_ & ->)]); [discriminate|auto]|].
    intros Nd. elim (Nd _ (de_program a)).
  - change (len []) with 0. split; [lia|]. split; [intros d' D; destruct (D0 d' D); lia|lia].
  - change (len []) with 0. split; [lia|]. split; [intros d' D; destruct (D0 d' D); lia|lia].
Qed.
(** GetAttributesAll gives them, is refused with an error for any other object,
    and the connection stays usable. *)
Theorem C98_all_partial : forall session context otid i sh q class inst a, linked session context otid i sh -> typed (sv_attrs (fst sh)) a ->
  0 <= class < 2 ^ 16 -> 0 <= inst < 2 ^ 32 ->
  exists r h1, generic (link session context) sh otid q 0x01 (class_segment class ++ instance_segment inst) [] = (r, (fst sh, h1), q + 1) /\
    linked session context otid i (fst sh, h1) /\
    (forall d, described a class inst d -> exists it, r = Ok it /\ item_rest it = Ok d) /\
    ((forall d, ~ described a class inst d) -> is_ok r = false).
Proof.
  intros session context otid i sh q class inst a L T Hc Hi.
  set (path := class_segment class ++ instance_segment inst).
  destruct (all_answer session context otid i sh q class inst a L T Hc Hi) as (st & d & U & Hst & Ld & Yes & No). fold path in U.
  destruct (object_path_len class inst Hc Hi) as [Lp _]. fold path in Lp.
  destruct (link_unit session context otid i sh q 0x01 path [] st d _ L ltac:(lia) ltac:(lia) ltac:(cbn; lia) eq_refl U ltac:(lia)) as (p & h1 & E & R & L1).
  assert (X : path_request otid q 0x01 path [] = object_request otid q 0x01 path []) by (apply object_request_wire; cbn; lia).
  rewrite <- X in E.
  destruct (C53_generic_reports _ _ _ _ _ _ _ _ _ _ _ _ _ _ _ E R ltac:(cbn; lia) Hst ltac:(lia)) as (G0 & G1).
  assert (G : snd (fst (generic (link session context) sh otid q 0x01 path [])) = (fst sh, h1) /\ snd (generic (link session context) sh otid q 0x01 path []) = q + 1).
  { unfold generic, AttrModel.ask. rewrite E. auto. }
  destruct (generic (link session context) sh otid q 0x01 path []) as [[r sh1] q1]. cbn [fst snd] in *. destruct G as [-> ->].
  exists r, h1. split; [reflexivity|]. split; [exact L1|]. split.
  - intros d' D. destruct (Yes d' D) as [-> ->]. exact (G1 eq_refl eq_refl eq_refl).
  - intros Nd. apply G0. left. exact (No Nd).
Qed.
Print Assumptions C98_all_partial.

(** What is not there: the client gets an error, but only because the server ends
    the TCP connection. *)
Definition offered (s : server) (class inst k : Z) : Prop := class = 1 /\ inst = 1 /\ k < 256 /\ exists v, attribute_of (sv_attrs s) k v.
Lemma unoffered s class inst k otid q w : 0 <= class < 2 ^ 16 -> 0 <= inst < 2 ^ 32 -> 0 <= k < 2 ^ 16 -> ~ offered s class inst k -> w_srv w = s ->
  let path := class_segment class ++ instance_segment inst ++ attribute_segment k in
  exists e, connected_get_attr (le 4 otid) (le 2 q ++ [0x0E; len path / 2] ++ path) w = (Err e, w).
Proof.
  intros Hc Hi Hk NO Ew path. unfold connected_get_attr.
  erewrite lift_ok by (rewrite <- (app_nil_r (le 4 otid)); apply rd_app; apply le_length). cbv beta iota.
  unfold bindM at 1, SrvModel.ask. rewrite Ew. rewrite unle_le. change (2 ^ (8 * Z.of_nat 4)) with (2 ^ 32).
  destruct (conn_by_ot s (otid mod 2 ^ 32)) as [cn|e| |] eqn:Ec; try (unfold conn_by_ot in Ec; destruct (conn_get _ _); discriminate).
  2:{ exists e. reflexivity. }
  erewrite lift_ok by reflexivity. cbv beta.
  erewrite lift_ok by (apply rd_app; apply le_length). cbv beta iota. cbn [app].
  erewrite lift_ok by apply rd_cons1. cbv beta iota. erewrite lift_ok by apply rd_cons1. cbv beta iota.
  assert (Lc : len (class_bytes class) = class_len class) by (apply class_len_ok; lia).
  assert (Li : len (instance_bytes inst) = instance_len inst) by (apply instance_len_ok; lia).
  assert (La : len (attribute_bytes k) = attribute_len k) by (apply attribute_len_ok; lia).
  assert (P : path = class_bytes class ++ instance_bytes inst ++ attribute_bytes k)
    by (unfold path; now rewrite <- class_bytes_spec, <- instance_bytes_spec, <- attribute_bytes_spec by assumption).
  assert (Lp : len path = class_len class + instance_len inst + attribute_len k) by (rewrite P, !len_app; lia).
  assert (B1 : class_len class = (if class <? 256 then 2 else 4)) by reflexivity.
  assert (B2 : attribute_len k = (if k <? 256 then 2 else 4)) by reflexivity.
  assert (B3 : instance_len inst = 2 \/ instance_len inst = 4 \/ instance_len inst = 6).
  { unfold instance_len. destruct (inst <? 256); [auto|]. destruct (inst <=? 65535); auto. }
  replace (unle [len path / 2]) with (len path / 2) by (cbn [unle]; lia).
  destruct (len path / 2 =? 3) eqn:E3; cbn [negb]; [|now exists EMsg].
  rewrite P. erewrite lift_ok by (apply class_read_bytes; lia). cbv beta iota.
  erewrite lift_ok by (apply instance_read_bytes; lia). cbv beta iota.
  destruct (negb (class =? 1) || negb (inst =? 1)) eqn:E1; [now exists EMsg|].
  erewrite lift_ok by (rewrite <- (app_nil_r (attribute_bytes k)); apply attribute_read_bytes; lia). cbv beta iota.
  destruct (zlookup k (sv_attrs s)) as [v|] eqn:Z; [|now exists EMsg].
  elim NO. split; [lia|]. split; [lia|]. split; [destruct (k <? 256) eqn:?; destruct (class <? 256); lia|]. exists v. now apply attribute_lookup.
Qed.
Lemma served_frame session context sh l : 0 <= session < 2 ^ 32 -> 0 <= context < 2 ^ 64 -> fits l -> len (zeros 6 ++ wire_list l) < 2 ^ 16 ->
  serve_one (World (fst sh) (snd sh) (send_msg_build session context cmd_unitdata [zeros 6 ++ wire_list l]) []) =
  unit_items (map mk l) (receiving (fst sh) (snd sh) context).
Proof.
  intros Hs Hc F L.
  assert (FO : frame_ok (item_frame 0x70 session 0 context 0 (zeros 6) l)).
  { unfold item_frame. unfold frame_ok. cbn [f_command f_session f_status f_context f_options f_payload]. lia. }
  rewrite (serve_unit _ session 0 context 0 (zeros 6) l []); [reflexivity|exact FO|exact F|reflexivity|].
  cbn [w_in]. rewrite app_nil_r. unfold cmd_unitdata. rewrite client_build by (cbn [concat]; rewrite app_nil_r; exact L).
  unfold frame_of, item_frame. cbn [concat]. now rewrite app_nil_r.
Qed.
Theorem C98_missing_hangup : forall session context otid i sh q class inst k, linked session context otid i sh ->
  0 <= class < 2 ^ 16 -> 0 <= inst < 2 ^ 32 -> 0 <= k < 2 ^ 16 -> ~ offered (fst sh) class inst k ->
  (exists e sh1, get_attr_single (link session context) sh otid q class inst k = (Err e, sh1, q + 1)) /\
  ~ still_open (received (fst sh) (snd sh) (send_msg_build session context cmd_unitdata [single_request otid q class inst k])).
Proof.
  intros session context otid i sh q class inst k L Hc Hi Hk NO.
  set (path := class_segment class ++ instance_segment inst ++ attribute_segment k).
  assert (Lp : len path <= 18).
  { unfold path. rewrite <- class_bytes_spec, <- instance_bytes_spec, <- attribute_bytes_spec by assumption.
    rewrite !len_app, class_len_ok, instance_len_ok, attribute_len_ok by lia. unfold class_len, instance_len, attribute_len.
    destruct (class <? 256), (inst <? 256), (inst <=? 65535), (k <? 256); lia. }
  pose proof (len_nonneg path) as Lp0.
  assert (X : single_request otid q class inst k = object_request otid q 0x0E path []) by (now apply single_request_wire).
  pose proof L as (Hs & Hx & _).
  set (w1 := World (fst sh) (Handler (h_handle (snd sh)) (h_options (snd sh)) context (h_ot (snd sh)) (h_to (snd sh)) (q mod 65536)) [] []).
  destruct (unoffered (fst sh) class inst k otid q w1 Hc Hi Hk NO eq_refl) as (e & U). fold path in U.
  assert (I : unit_items (map mk [(0xA1, le 4 otid); (0xB1, le 2 q ++ [0x0E; len path / 2] ++ path ++ [])]) (receiving (fst sh) (snd sh) context) = (Err e, w1)).
  { rewrite app_nil_r, unit_pair by lia. cbv zeta.
    change (0x0E =? svc_write) with false. change ((0x0E =? svc_fragread) || (0x0E =? svc_read)) with false.
    change (0x0E =? svc_multi) with false. change (0x0E =? svc_get_single) with true. cbv iota. exact U. }
  rewrite X. split.
  - unfold get_attr_single, AttrModel.ask. rewrite X, (link_object session context otid i) by (assumption || lia || (cbn; lia)). rewrite I.
    unfold link_result. cbn [fst snd w1 w_sent]. change (fst (recv_data [])) with (@Err (eip_header * bytes) EEof). cbn [bind]. now exists EEof, (fst sh, w_h w1).
  - unfold received, happens. cbn [fold_left happen si_down si_peers nth_error pe_open negb pe_h pe_in pe_sent si_srv].
    unfold object_request. rewrite served_frame; [|exact Hs|exact Hx| |].
    + rewrite I. cbn [setn]. intros (p & E & O). cbn in E. injection E as <-. discriminate.
    + apply fits_pair; [rewrite le_len; lia|]. rewrite app_nil_r, !len_app, le_len, !len_cons. change (len (@nil Z)) with 0. lia.
    + rewrite len_app, wire_pair_len, !len_app, !le_len, !len_cons. change (len (zeros 6)) with 6. change (len (@nil Z)) with 0. lia.
Qed.
Print Assumptions C98_missing_hangup.

(** GenericCIPMessage refuses the reply to GetAttributeSingle: it names another
    service (0x52, read tag fragmented). *)
Theorem C98_generic_fails : forall session context otid i sh q k v d, linked session context otid i sh -> 0 <= k < 256 ->
  attribute_of (sv_attrs (fst sh)) k v -> attribute_image v d -> len d < 60000 ->
  is_ok (fst (fst (generic (link session context) sh otid q 0x0E (class_segment 1 ++ instance_segment 1 ++ attribute_segment k) []))) = false.
Proof.
  intros session context otid i sh q k v d L Hk A I Ld. apply attribute_lookup in A. apply image_ser in I.
  destruct (link_attr session context otid i sh q k v d L Hk A I Ld) as (p & h1 & E & R & L1).
  assert (X : path_request otid q 0x0E (class_segment 1 ++ instance_segment 1 ++ attribute_segment k) [] = object_request otid q 0x0E ([0x20; 1] ++ [0x24; 1] ++ [0x30; k]) []).
  { assert (P : attribute_segment k = [0x30; k]) by (unfold attribute_segment, logical; destruct (k <? 2 ^ 8) eqn:B; [reflexivity|lia]). rewrite P. apply object_request_wire; cbn; lia. }
  rewrite <- X in E.
  destruct (C53_generic_reports _ _ _ _ _ _ _ _ _ _ _ _ _ _ _ E R ltac:(lia) ltac:(lia) ltac:(lia)) as (G & _). apply G. right. right. cbn. lia.
Qed.
Print Assumptions C98_generic_fails.

(** The demo server has the attributes NewServer gives a server (server.go L51-57). *)
Example ex_C98 : linked 77 9 5 0 demo /\ attribute_of (sv_attrs (fst demo)) 3 (GInt true 2 1) /\ attribute_image (GInt true 2 1) [1; 0] /\
  attribute_of (sv_attrs (fst demo)) 7 (GStr (str "Gologix")) /\ attribute_image (GStr (str "Gologix")) ([7; 0; 0; 0] ++ str "Gologix" ++ zeros 77) /\
  attribute_of (sv_attrs (fst demo)) 4 (GInt true 2 0x1412) /\
  fst (fst (firmware (link 77 9) demo 5 1 0)) = Ok 0x12 /\
  typed (sv_attrs (fst demo)) (Attributes 0x1776 0x0E 1 0x1412 0x3060 42 (str "Gologix")) /\
  identity_image (Attributes 0x1776 0x0E 1 0x1412 0x3060 42 (str "Gologix")) =
    [0x76; 0x17; 0x0E; 0; 1; 0; 0x12; 0x14; 0x60; 0x30; 42; 0; 0; 0; 7] ++ str "Gologix".
Proof.
  split; [exact demo_linked|]. split; [apply attribute_lookup; reflexivity|]. split; [now apply (ai_number (KInt true 2) (GInt true 2 1))|].
  split; [apply attribute_lookup; reflexivity|]. split; [now apply (ai_string (str "Gologix"))|]. split; [apply attribute_lookup; reflexivity|].
  split; [vm_compute; reflexivity|]. split; [vm_compute; auto 10|reflexivity].
Qed.
Example ex_C98_program : exists it, fst (fst (generic (link 77 9) demo 5 1 0x01 [0x20; 0x64; 0x24; 1] [])) = Ok it /\ item_rest it = Ok (7 :: str "Gologix").
Proof. eexists. split; [vm_compute; reflexivity|reflexivity]. Qed.
Theorem C98_missing_refuted : exists sh, linked 77 9 5 0 sh /\ sv_attrs (fst sh) = demo_attrs /\
  ~ still_open (received (fst sh) (snd sh) (send_msg_build 77 9 cmd_unitdata [single_request 5 1 1 1 8])) /\
  ~ still_open (received (fst sh) (snd sh) (send_msg_build 77 9 cmd_unitdata [single_request 5 1 1 1 11])) /\
  ~ still_open (received (fst sh) (snd sh) (send_msg_build 77 9 cmd_unitdata [single_request 5 1 0x8B 1 11])) /\
  still_open (received (fst sh) (snd sh) (send_msg_build 77 9 cmd_unitdata [single_request 5 1 1 1 7])).
Proof.
  exists demo. split; [exact demo_linked|]. split; [reflexivity|].
  assert (K : forall class inst k, 0 <= class < 2 ^ 16 -> 0 <= inst < 2 ^ 32 -> 0 <= k < 2 ^ 16 -> ~ offered (fst demo) class inst k ->
    ~ still_open (received (fst demo) (snd demo) (send_msg_build 77 9 cmd_unitdata [single_request 5 1 class inst k]))).
  { intros class inst k Hc Hi Hk NO. exact (proj2 (C98_missing_hangup 77 9 5 0 demo 1 class inst k demo_linked Hc Hi Hk NO)). }
  split; [apply K; try lia; intros (_ & _ & _ & v & A); apply attribute_lookup in A; discriminate A|].
  split; [apply K; try lia; intros (_ & _ & _ & v & A); apply attribute_lookup in A; discriminate A|].
  split; [apply K; try lia; intros (A & _); discriminate A|].
  eexists. split; [vm_compute; reflexivity|reflexivity].
Qed.
Print Assumptions C98_missing_refuted.
Theorem C98_generic_refuted : exists sh it h1, linked 77 9 5 0 sh /\ attribute_of (sv_attrs (fst sh)) 3 (GInt true 2 1) /\
  get_attr_single (link 77 9) sh 5 1 1 1 3 = (Ok it, (fst sh, h1), 2) /\ item_rest it = Ok [1; 0] /\
  is_ok (fst (fst (generic (link 77 9) sh 5 1 0x0E (class_segment 1 ++ instance_segment 1 ++ attribute_segment 3) []))) = false.
Proof.
  destruct ex_C98 as (L & A & I & _).
  destruct (C98_single_partial 77 9 5 0 demo 1 3 _ _ L ltac:(lia) A I ltac:(cbn; lia)) as (it & h1 & E & R & _).
  exists demo, it, h1. split; [exact L|]. split; [exact A|]. split; [exact E|]. split; [exact R|].
  exact (C98_generic_fails 77 9 5 0 demo 1 3 _ _ L ltac:(lia) A I ltac:(cbn; lia)).
Qed.
Print Assumptions C98_generic_refuted.

(** ** C99

    Full statement: ListAllTags of a client connected to the built-in server finds
    the tags of its provider.  False: it fails whenever there are tags. *)
Lemma link_listing session context otid i sh q path data : linked session context otid i sh -> len path < 512 -> len data < 60000 ->
  len (symbol_list 0 (sort_tags (tag_list (prov_at (fst sh) i)))) < 60000 ->
  exists p h1, link session context sh (object_request otid q 0x55 path data) = (Ok (0, p), (fst sh, h1)) /\
    reply p 0xD5 0 0 (symbol_list 0 (sort_tags (tag_list (prov_at (fst sh) i)))) /\ linked session context otid i (fst sh, h1).
Proof.
  intros L Lp Ld Lb.
  destruct (link_unit session context otid i sh q 0x55 path data 0 (symbol_list 0 (sort_tags (tag_list (prov_at (fst sh) i)))) _ L ltac:(lia) Lp Ld eq_refl) as (p & h1 & E & R & L1).
  - pose proof L as (Hs & Hc & Ho & Hh & (to & Li & cn & Ec & <- & Er) & Sp).
    rewrite unit_pair by lia. cbv zeta. change (0x55 =? svc_write) with false. change ((0x55 =? svc_fragread) || (0x55 =? svc_read)) with false.
    change (0x55 =? svc_multi) with false. change (0x55 =? svc_get_single) with false. change (0x55 =? svc_get_all) with false. change (0x55 =? svc_list) with true. cbv iota.
    unfold connected_symbols. erewrite lift_ok by (rewrite <- (app_nil_r (le 4 otid)); apply rd_app; apply le_length). cbv beta iota.
    unfold bindM at 1, SrvModel.ask. cbn [w_srv receiving]. rewrite unle_le_small by (cbn; lia).
    erewrite lift_ok by exact Ec. erewrite lift_ok by exact Er. cbv beta. reflexivity.
  - exact Lb.
  - exists p, h1. auto.
Qed.
Definition entry_size (x : bytes * Z) (n : Z) : Z := 8 + len (fst x) + n.
Lemma symbol_size : forall l i, Forall (fun x => len (fst x) <= 255) l -> len (symbol_list i l) = fold_right entry_size 0 l.
Proof.
  induction l as [|[n t] l IH]; intros i F; [reflexivity|]. inversion F; subst. cbn [symbol_list fold_right]. cbn [fst] in *.
  rewrite firstn_all2 by (unfold len in *; lia). rewrite !len_app, !le_len, IH by assumption. unfold entry_size. cbn [fst]. lia.
Qed.
Lemma size_perm a b : Permutation.Permutation a b -> fold_right entry_size 0 a = fold_right entry_size 0 b.
Proof. induction 1; cbn [fold_right]; unfold entry_size in *; lia. Qed.
Lemma tag_list_size p : fold_right entry_size 0 (tag_list p) = listing_size p.
Proof. unfold tag_list, listing_size. induction (pv_data p) as [|[k v] d IH]; [reflexivity|]. cbn [map fold_right]. unfold entry_size at 1. cbn [fst]. now rewrite IH. Qed.
Lemma in_tags p n : In n (map fst (tag_list p)) <-> tags_of p n.
Proof. rewrite tag_list_names. symmetry. apply mget_in. Qed.
Lemma listing_len p : (forall n, tags_of p n -> spelled n) -> len (symbol_list 0 (sort_tags (tag_list p))) = listing_size p.
Proof.
  intro Sp. rewrite symbol_size.
  - rewrite (size_perm _ _ (sort_tags_perm (tag_list p))). apply tag_list_size.
  - apply Forall_forall. intros x Hx. apply (Permutation.Permutation_in _ (sort_tags_perm _)) in Hx. apply (in_map fst) in Hx. apply in_tags in Hx. apply Sp in Hx. apply Hx.
Qed.
(** Taken for a list of programs, the length of the first name seems to be at least
    65536. *)
Lemma programs_fail p acc : (forall n, tags_of p n -> spelled n) -> (exists n, tags_of p n) -> listing_size p < 60000 ->
  let d := symbol_list 0 (sort_tags (tag_list p)) in
  exists e, ListModel.programs (Datatypes.S (length d)) d acc = Err e /\ forall z, e <> EStatus z.
Proof.
  intros Sp (n0 & T0) Ls d. pose proof (listing_len p Sp) as Ld. fold d in Ld.
  destruct (sort_tags (tag_list p)) as [|[n t] l] eqn:El.
  { apply in_tags in T0. apply (Permutation.Permutation_in _ (Permutation.Permutation_map fst (Permutation.Permutation_sym (sort_tags_perm (tag_list p))))) in T0. rewrite El in T0. contradiction. }
  assert (Sn : spelled n).
  { apply Sp, in_tags. apply (Permutation.Permutation_in _ (Permutation.Permutation_map fst (sort_tags_perm (tag_list p)))). rewrite El. now left. }
  destruct Sn as (Ne & Fc & Ln). destruct n as [|c n]; [congruence|].
  assert (Hc : 0 < c < 256) by (now inversion Fc).
  assert (Ed : exists x r, d = (le 4 1 ++ le 2 (len (c :: n)) ++ [c; x]) ++ r /\ 0 <= x < 256).
  { unfold d. cbn [symbol_list]. rewrite (firstn_all2 (c :: n)) by (unfold len in Ln; lia). destruct n as [|c' n].
    - exists (t mod 256). eexists. split; [rewrite <- !app_assoc; cbn [app le]; reflexivity|]. apply Z.mod_pos_bound. lia.
    - exists c'. eexists. split; [rewrite <- !app_assoc; cbn [app]; reflexivity|]. inversion Fc as [|? ? _ F2]; subst. inversion F2; subst. lia. }
  destruct Ed as (x & r & Ed & Hx). rewrite Ed in Ld |- *. cbn [ListModel.programs]. rewrite rd_app by (rewrite !app_length, !le_length; reflexivity). cbv iota beta.
  replace (skipn 4 (le 4 1 ++ le 2 (len (c :: n)) ++ [c; x])) with (le 2 (len (c :: n)) ++ [c; x]) by reflexivity.
  assert (U : unle (le 2 (len (c :: n)) ++ [c; x]) = len (c :: n) + 65536 * (c + 256 * x)).
  { set (z := len (c :: n)) in *. assert (0 <= z) by apply len_nonneg. cbn [le app unle]. lia. }
  rewrite U. assert (Lr : len r < 60000) by (rewrite len_app in Ld; pose proof (len_nonneg (le 4 1 ++ le 2 (len (c :: n)) ++ [c; x])); lia).
  unfold rd at 1. destruct (Z.to_nat (len (c :: n) + 65536 * (c + 256 * x)) <=? length r)%nat eqn:B; [exfalso; apply Nat.leb_le in B; unfold len in *; lia|].
  destruct r; cbn [bind]; eexists; (split; [reflexivity|]); discriminate.
Qed.

Lemma list_programs_run session context otid i w : linked session context otid i (ListModel.l_ctl w) ->
  listing_size (prov_at (fst (ListModel.l_ctl w)) i) < 60000 -> (forall n, tags_of (prov_at (fst (ListModel.l_ctl w)) i) n -> spelled n) ->
  let d := symbol_list 0 (sort_tags (tag_list (prov_at (fst (ListModel.l_ctl w)) i))) in
  exists h1, let w1 := ListModel.LState (fst (ListModel.l_ctl w), h1) (ListModel.l_seq w + 1) (ListModel.l_lists w) in
  linked session context otid i (ListModel.l_ctl w1) /\
  ListModel.list_programs (link session context) otid w =
  match ListModel.programs (Datatypes.S (length d)) d [] with
  | Ok ps => ListModel.change (ListModel.set_progs ps) w1
  | Err e => (Err e, w1)
  | Panic => (Panic, w1) | OutOfFuel => (OutOfFuel, w1)
  end.
Proof.
  intros L Ls Sp d. pose proof (listing_len _ Sp) as Ld. set (sh := ListModel.l_ctl w) in *.
  destruct (link_listing session context otid i sh (ListModel.l_seq w) (class_bytes 0x68 ++ instance_bytes 0) (le 2 1 ++ le 2 28) L) as (p & h1 & E & R & L1);
    [cbn; lia|cbn; lia|lia|].
  rewrite <- object_request_wire in E by (cbn; lia).
  destruct (C53_generic_reports _ _ _ _ _ _ _ _ _ _ _ _ _ _ _ E R ltac:(lia) ltac:(lia) ltac:(lia)) as (_ & G).
  destruct G as (it & G1 & G2); [reflexivity|reflexivity|reflexivity|].
  exists h1. cbv zeta. split; [exact L1|]. unfold ListModel.list_programs. fold sh. change ListModel.svc_instances with 0x55.
  assert (G : generic (link session context) sh otid (ListModel.l_seq w) 0x55 (class_bytes 0x68 ++ instance_bytes 0) (le 2 1 ++ le 2 28) = (Ok it, (fst sh, h1), ListModel.l_seq w + 1)).
  { unfold generic, AttrModel.ask in *. rewrite E in *. cbn [fst] in G1. now rewrite G1. }
  rewrite G. cbv iota beta. cbn [bind].
  assert (X : skipn (Z.to_nat (it_pos it)) (it_data it) = d).
  { unfold item_rest, slice_from in G2. destruct ((0 <=? it_pos it) && (it_pos it <=? len (it_data it))); [|discriminate].
    exact (f_equal (fun r => match r with Ok x => x | _ => [] end) G2). }
  rewrite X. reflexivity.
Qed.
Theorem C99_fails : forall session context otid i w fuel order start, linked session context otid i (ListModel.l_ctl w) -> start <= 1 ->
  let p := prov_at (fst (ListModel.l_ctl w)) i in
  (forall n, tags_of p n -> spelled n) -> (exists n, tags_of p n) -> listing_size p < 60000 ->
  exists e w', ListModel.list_all_tags (Datatypes.S fuel) order (link session context) otid start w = (Err e, w') /\ ListModel.l_lists w' = ListModel.l_lists w.
Proof.
  intros session context otid i w fuel order start L Hs p Sp Ex Ls. cbn [ListModel.list_all_tags].
  destruct (list_programs_run session context otid i w L Ls Sp) as (h1 & L1 & E).
  destruct (programs_fail p [] Sp Ex Ls) as (e & Pe & Ns). fold p in E. cbv zeta in E. rewrite Pe in E.
  assert (S1 : (if start <? 1 then 1 else start) = 1) by (destruct (start <? 1) eqn:?; lia). rewrite S1. change (1 =? 1) with true. cbv iota.
  unfold ListModel.lbind at 1 2, ListModel.attempt at 1. rewrite E. cbv iota beta.
  destruct e as [| |z|]; [| |now elim (Ns z)|]; cbv iota beta; unfold ListModel.lbind at 1, ListModel.llift at 1; do 2 eexists; (split; [reflexivity|reflexivity]).
Qed.
Print Assumptions C99_fails.

Theorem C99_empty_partial : forall session context otid i w fuel order start, linked session context otid i (ListModel.l_ctl w) -> start <= 1 ->
  pv_data (prov_at (fst (ListModel.l_ctl w)) i) = [] -> (forall l, Permutation.Permutation (order l) l) ->
  exists w', ListModel.list_all_tags (Datatypes.S fuel) order (link session context) otid start w = (Ok tt, w') /\
    ListModel.l_tags (ListModel.l_lists w') = ListModel.l_tags (ListModel.l_lists w) /\ linked session context otid i (ListModel.l_ctl w').
Proof.
  intros session context otid i w fuel order start L Hs Em Po. set (p := prov_at (fst (ListModel.l_ctl w)) i) in *.
  assert (Sp : forall n, tags_of p n -> spelled n) by (intros n T; unfold tags_of in T; rewrite Em in T; now elim T).
  assert (Ls : listing_size p < 60000) by (unfold listing_size; rewrite Em; cbn; lia).
  assert (D : symbol_list 0 (sort_tags (tag_list p)) = []) by (unfold tag_list; rewrite Em; reflexivity).
  destruct (list_programs_run session context otid i w L Ls Sp) as (h1 & L1 & E). fold p in E. cbv zeta in E. rewrite D in E.
  change (ListModel.programs (Datatypes.S (length (@nil Z))) [] []) with (@Ok (list (bytes * known_program)) []) in E. cbv iota in E.
  assert (O : order [] = []) by (apply Permutation.Permutation_nil, Permutation.Permutation_sym, Po).
  assert (S1 : (if start <? 1 then 1 else start) = 1) by (destruct (start <? 1) eqn:?; lia).
  cbn [ListModel.list_all_tags]. rewrite S1. change (1 =? 1) with true. cbv iota.
  unfold ListModel.change in E. cbn [ListModel.l_ctl ListModel.l_seq ListModel.l_lists] in E, L1.
  set (w1 := ListModel.LState _ _ _) in E.
  unfold ListModel.lbind at 1 2, ListModel.attempt at 1. rewrite E. cbv iota beta.
  unfold ListModel.lbind at 1 2, ListModel.lret at 1. cbv iota beta.
  unfold ListModel.look. cbv iota beta. unfold ListModel.set_progs. cbn [w1 ListModel.l_lists ListModel.l_progs ListModel.set_progs map].
  rewrite O. cbn [ListModel.each_program]. unfold ListModel.lbind at 1, ListModel.lret at 1 2. cbv iota beta.
  destruct (link_listing session context otid i (fst (ListModel.l_ctl w), h1) (ListModel.l_seq w + 1) (class_bytes obj_symbol ++ instance_bytes 1) ListModel.tag_attrs L1)
    as (pl & h2 & E2 & R2 & L2); [cbn; lia|cbn; lia|cbn [fst]; fold p; rewrite D; cbn; lia|].
  cbn [fst] in R2. fold p in R2. rewrite D in R2.
  destruct (ListProof.send_ok _ (link session context) otid 0x55 (class_bytes obj_symbol ++ instance_bytes 1) ListModel.tag_attrs w1 0 pl (fst (ListModel.l_ctl w), h2) 0xD5 0 0 [] ltac:(cbn; lia) ltac:(cbn; lia)
    E2 R2) as (a & b & resv & E3).
  unfold ListModel.lbind at 1. change ListModel.svc_instances with 0x55. fold w1.
  match goal with |- context [ListModel.send ?c ?o ?v ?pa ?t ?x] => change (ListModel.send c o v pa t x) with (ListModel.send c o v pa t w1) end.
  rewrite E3. cbv iota beta.
  unfold ListModel.lbind at 1, ListModel.llift at 1. change (ListModel.page_header [a; b; 213; resv; 0; 0]) with (@Ok (Z * bytes) (0, [])). cbv iota beta.
  unfold ListModel.lbind at 1. cbn [ListModel.all_page length]. unfold ListModel.lret. change (0 =? st_partial) with false. cbv iota.
  eexists. split; [reflexivity|]. split; [reflexivity|]. exact L2.
Qed.
Print Assumptions C99_empty_partial.
Definition fresh_lists {S} (s : S) : ListModel.lstate S := ListModel.LState s 1 (ListModel.Lists [] [] [] []).
Lemma demo_names : forall n, tags_of (prov_at (fst demo) 0) n -> spelled n.
Proof.
  intros n T. apply mget_in in T. vm_compute in T. destruct T as [<-|[<-|[]]]; (split; [discriminate|]); (split; [|vm_compute; discriminate]);
    repeat (apply Forall_cons; [lia|]); apply Forall_nil.
Qed.
(** Two tags, speed and arr: an error, and nothing known. *)
Theorem C99_refuted : exists sh e w', linked 77 9 5 0 sh /\ tags_of (prov_at (fst sh) 0) (str "speed") /\
  ListModel.list_all_tags 9 (fun l => l) (link 77 9) 5 0 (fresh_lists sh) = (Err e, w') /\ ListModel.l_tags (ListModel.l_lists w') = [].
Proof.
  assert (T : tags_of (prov_at (fst demo) 0) (str "speed")) by (vm_compute; discriminate).
  destruct (C99_fails 77 9 5 0 (fresh_lists demo) 8 (fun l => l) 0 demo_linked ltac:(lia) demo_names (ex_intro _ _ T)) as (e & w' & E & U).
  - vm_compute. reflexivity.
  - exists demo, e, w'. split; [exact demo_linked|]. split; [exact T|]. split; [exact E|]. rewrite U. reflexivity.
Qed.
Print Assumptions C99_refuted.
Example ex_C99 : exists sh, linked 77 9 5 0 sh /\ pv_data (prov_at (fst sh) 0) = [] /\
  fst (ListModel.list_all_tags 9 (fun l => l) (link 77 9) 5 0 (fresh_lists sh)) = Ok tt.
Proof.
  exists (set_prov 0 prov_empty demo_server, demo_handler). split; [|split; [reflexivity|vm_compute; reflexivity]].
  destruct demo_linked as (A & B & C & D & E & F). split; [exact A|]. split; [exact B|]. split; [exact C|]. split; [exact D|]. split; [exact E|]. exact ProvProof.separate_empty.
Qed.

(** ** C100

    Full statement: a service, class or instance the server does not know is an
    error to the client, and the connection stays as it was; and a client keeps its
    connection to the server alive.  The last is false (below). *)
Lemma link_unknown session context otid i sh q svc path data : linked session context otid i sh -> 0 <= svc < 256 -> ~ In svc connected_services ->
  len path < 512 -> len data < 60000 ->
  exists p h1, link session context sh (object_request otid q svc path data) = (Ok (0, p), (fst sh, h1)) /\
    reply p (as_response svc) 8 0 [] /\ linked session context otid i (fst sh, h1).
Proof.
  intros L Hs N Lp Ld. apply (link_unit session context otid i sh q svc path data 8 [] _ L Hs Lp Ld eq_refl); [|cbn; lia].
  rewrite unit_pair by lia. cbv zeta.
  assert (K : forall k, In k connected_services -> (svc =? k) = false) by (intros k I; destruct (svc =? k) eqn:E; [elim N; now replace svc with k by lia|reflexivity]).
  rewrite (K svc_write), (K svc_fragread), (K svc_read), (K svc_multi), (K svc_get_single), (K svc_get_all), (K svc_list) by (cbn; tauto).
  cbv iota. cbn [orb]. now rewrite unit_reply_nil.
Qed.
Lemma response_byte svc : 0 <= svc < 256 -> 0 <= as_response svc < 256.
Proof.
  intro H. unfold as_response. assert (N : 0 <= Z.lor svc 128) by (apply Z.lor_nonneg; lia). split; [exact N|].
  apply (Z.log2_lt_pow2 (Z.lor svc 128) 8).
  - destruct (Z.eq_dec (Z.lor svc 128) 0) as [E|]; [|lia]. apply Z.lor_eq_0_iff in E. lia.
  - rewrite Z.log2_lor by lia. apply Z.max_lub_lt; [|reflexivity]. destruct (Z.eq_dec svc 0) as [->|]; [reflexivity|]. apply Z.log2_lt_pow2; lia.
Qed.
Theorem C100_service_partial : forall session context otid i sh q svc path data, linked session context otid i sh -> 0 <= svc < 256 -> ~ In svc connected_services ->
  len path < 512 -> len data < 60000 ->
  exists r h1, generic (link session context) sh otid q svc path data = (r, (fst sh, h1), q + 1) /\ is_ok r = false /\
    linked session context otid i (fst sh, h1).
Proof.
  intros session context otid i sh q svc path data L Hs N Lp Ld.
  destruct (link_unknown session context otid i sh q svc path data L Hs N Lp Ld) as (p & h1 & E & R & L1).
  rewrite <- object_request_wire in E by (assumption || lia).
  assert (A : 0 <= as_response svc < 256) by (now apply response_byte).
  destruct (C53_generic_reports _ _ _ _ _ _ _ _ _ _ _ _ _ _ _ E R A ltac:(lia) ltac:(lia)) as (G & _).
  exists (fst (fst (generic (link session context) sh otid q svc path data))), h1. split; [|split; [apply G; left; lia|exact L1]].
  unfold generic, AttrModel.ask. rewrite E. reflexivity.
Qed.
Print Assumptions C100_service_partial.
Lemma attrs_len attrs : len (concat (map (le 2) attrs)) = 2 * len attrs.
Proof. induction attrs as [|a l IH]; [reflexivity|]. cbn [map concat]. rewrite len_app, le_len, len_cons. lia. Qed.
Theorem C100_list_partial : forall session context otid i sh q class inst attrs, linked session context otid i sh ->
  0 <= class < 2 ^ 16 -> 0 <= inst < 2 ^ 32 -> len attrs < 29000 ->
  exists h1, get_attr_list (link session context) sh otid q class inst attrs = (Err (EStatus 8), (fst sh, h1), q + 1) /\
    linked session context otid i (fst sh, h1).
Proof.
  intros session context otid i sh q class inst attrs L Hc Hi La.
  assert (Lp : len (class_bytes class ++ instance_bytes inst) <= 10).
  { rewrite len_app, class_len_ok, instance_len_ok by lia. unfold class_len, instance_len. destruct (class <? 256), (inst <? 256), (inst <=? 65535); lia. }
  assert (Ld : len (le 2 (len attrs) ++ concat (map (le 2) attrs)) < 60000) by (rewrite len_app, le_len, attrs_len; lia).
  destruct (link_unknown session context otid i sh q 3 (class_bytes class ++ instance_bytes inst) (le 2 (len attrs) ++ concat (map (le 2) attrs)) L ltac:(lia)) as (p & h1 & E & R & L1);
    [unfold connected_services; cbn; lia|lia|exact Ld|].
  rewrite <- object_request_wire in E by lia.
  destruct (C53_list_reports _ _ _ _ _ _ _ _ _ _ _ _ _ _ _ E R ltac:(lia) ltac:(lia)) as (G & _).
  exists h1. split; [|exact L1]. specialize (G ltac:(lia)). change (8 + 256 * 0) with 8 in G. revert G. unfold get_attr_list, AttrModel.ask, svc_getattrlist. rewrite E. cbn [fst].
  intros ->. reflexivity.
Qed.
Print Assumptions C100_list_partial.
(** The calls made for a controller. *)
Theorem C100_canned_partial : forall session context otid i sh q, linked session context otid i sh ->
  (exists h1, CannedModel.get_props (link session context) sh otid q = (Err (EStatus 8), (fst sh, h1), q + 1) /\ linked session context otid i (fst sh, h1)) /\
  (exists h1, CannedModel.get_forces (link session context) sh otid q = (Err (EStatus 8), (fst sh, h1), q + 1) /\ linked session context otid i (fst sh, h1)) /\
  (exists e h1, CannedModel.get_faults (link session context) sh otid q = (Err e, (fst sh, h1), q + 1) /\ linked session context otid i (fst sh, h1)).
Proof.
  intros session context otid i sh q L. split; [|split].
  - destruct (C100_list_partial session context otid i sh q 0xAC 1 [1; 2; 3; 4; 10] L) as (h1 & E & L1); try (cbn; lia).
    exists h1. split; [|exact L1]. unfold CannedModel.get_props. rewrite E. reflexivity.
  - destruct (C100_list_partial session context otid i sh q 0x69 0 [9] L) as (h1 & E & L1); try (cbn; lia).
    exists h1. split; [|exact L1]. unfold CannedModel.get_forces. rewrite E. reflexivity.
  - destruct (link_unit session context otid i sh q 0x01 [0x20; 0x73; 0x24; 1] [] 5 [] _ L ltac:(lia) ltac:(cbn; lia) ltac:(cbn; lia) eq_refl) as (p & h1 & E & R & L1); [|cbn; lia|].
    + change (len [0x20; 0x73; 0x24; 1] / 2) with 2. rewrite unit_pair by lia. cbv zeta.
      change (1 =? svc_write) with false. change ((1 =? svc_fragread) || (1 =? svc_read)) with false.
      change (1 =? svc_multi) with false. change (1 =? svc_get_single) with false. change (1 =? svc_get_all) with true. cbv iota.
      unfold get_attribute_all. rewrite app_nil_r. erewrite lift_ok by apply rd_cons1. cbv beta iota.
      erewrite lift_ok by reflexivity. cbv beta iota. unfold bindM at 1, SrvModel.ask. cbn [w_srv receiving].
      match goal with |- context [class_instance ?x] => change (class_instance x) with (@Ok (Z * Z) (0x73, 1)) end. cbn [or_reply].
      change (0x73 =? obj_identity) with false. change (0x73 =? 0x64) with false. cbv iota. apply unit_reply_nil.
    + assert (X : path_request otid q 0x01 (class_bytes 0x73 ++ instance_bytes 1) [] = object_request otid q 0x01 [0x20; 0x73; 0x24; 1] []) by (apply object_request_wire; cbn; lia).
      rewrite <- X in E. change (as_response 1) with 129 in R.
      unfold CannedModel.get_faults, generic, AttrModel.ask. rewrite E.
      destruct (second_item_reply true p 129 5 0 [] R) as (it & a & b & resv & -> & C0 & U0). cbn [bind].
      destruct (item_int2 _ _ _ _ C0 U0) as (i1 & -> & C1 & U1). cbn [bind].
      destruct (item_int2 _ _ _ _ C1 U1) as (i2 & -> & C2 & U2). cbn [bind].
      destruct (item_int2 _ _ _ _ C2 U2) as (i3 & -> & C3 & U3). cbn [bind].
      destruct (negb ((sgn 16 (unle [129; resv]) mod 256) mod 128 =? 1)); eexists; exists h1; (split; [reflexivity|exact L1]).
Qed.
Print Assumptions C100_canned_partial.
(** So is a buffer of tags: none can be made. *)
Theorem C100_buffer_partial : forall session context otid i sh q, linked session context otid i sh ->
  exists e h1, DataModel.new_buffer (link session context) sh otid q = (Err e, (fst sh, h1), q + 1) /\ linked session context otid i (fst sh, h1).
Proof.
  intros session context otid i sh q L.
  destruct (link_unknown session context otid i sh q 0x08 (DataModel.table_path 0) [1; 0; 3; 0; 3; 0] L ltac:(lia)) as (p & h1 & E & R & L1);
    [unfold connected_services; cbn; lia|cbn; lia|cbn; lia|].
  rewrite <- object_request_wire in E by (cbn; lia). change (as_response 8) with 136 in R.
  unfold DataModel.new_buffer, generic, AttrModel.ask. rewrite E.
  destruct (second_item_reply true p 136 8 0 [] R) as (it & a & b & resv & -> & C0 & U0). cbn [bind].
  destruct (item_int2 _ _ _ _ C0 U0) as (i1 & -> & C1 & U1). cbn [bind].
  destruct (item_int2 _ _ _ _ C1 U1) as (i2 & -> & C2 & U2). cbn [bind].
  destruct (item_int2 _ _ _ _ C2 U2) as (i3 & -> & C3 & U3). cbn [bind].
  destruct (negb ((sgn 16 (unle [136; resv]) mod 256) mod 128 =? 8)); eexists; exists h1; (split; [reflexivity|exact L1]).
Qed.
Print Assumptions C100_buffer_partial.
(** The keep-alive ends with its first question. *)
Theorem C100_keep_alive_fails : forall session context otid i sh q relist poll ticks, linked session context otid i sh ->
  exists h1, keep_alive (ask_props (link session context) otid [1; 2; 3; 4; 10]) relist poll ticks (sh, q) = ([Asked (Err (EStatus 8))], ((fst sh, h1), q + 1)) /\
    linked session context otid i (fst sh, h1).
Proof.
  intros session context otid i sh q relist poll ticks L.
  destruct (C100_list_partial session context otid i sh q 0xAC 1 [1; 2; 3; 4; 10] L) as (h1 & E & L1); try (cbn; lia).
  exists h1. split; [|exact L1]. unfold keep_alive, ask_props. cbn [fst snd]. rewrite E. reflexivity.
Qed.
Print Assumptions C100_keep_alive_fails.
(** A keep-alive asks again at every tick while the client is connected. *)
Definition asks_on (ticks : list bool) (acts : list kact) : Prop :=
  Forall (fun t => t = true) ticks -> (length (filter (fun a => match a with Asked _ => true | _ => false end) acts) >= S (length ticks))%nat.
Theorem C100_keep_alive_refuted : exists sh ticks, linked 77 9 5 0 sh /\
  ~ asks_on ticks (fst (keep_alive (ask_props (link 77 9) 5 [1; 2; 3; 4; 10]) (fun s => (Ok tt, s)) false ticks (sh, 1))).
Proof.
  exists demo, [true]. split; [exact demo_linked|].
  destruct (C100_keep_alive_fails 77 9 5 0 demo 1 (fun s => (Ok tt, s)) false [true] demo_linked) as (h1 & -> & _).
  intro H. specialize (H ltac:(repeat constructor)). cbn in H. lia.
Qed.
Print Assumptions C100_keep_alive_refuted.
Example ex_C100 : linked 77 9 5 0 demo /\ ~ In 0x53 connected_services /\ ~ In 3 connected_services /\
  fst (fst (get_attr_list (link 77 9) demo 5 1 0xAC 1 [1; 2])) = Err (EStatus 8) /\
  fst (fst (CannedModel.get_faults (link 77 9) demo 5 1)) = Err (EStatus 5).
Proof. split; [exact demo_linked|]. split; [cbn; lia|]. split; [cbn; lia|]. split; vm_compute; reflexivity. Qed.
