(** * C53, C55 (attribute reads), C60: attribute reads and generic messages *)
From Verif Require Import GoBase SegModel SegSpec SegProof IoiModel ItemsModel ItemsSpec ItemsProof ReadModel ReadProof
  BatchSpec AttrModel AttrSpec AttrProof.

(** What comes over the wire is bytes. *)
Definition sends_bytes {S} (ctl : controller S) : Prop := forall s req st p s1, ctl s req = (Ok (st, p), s1) -> bytes_ok p.
Definition answers (p : bytes) (s : unit) (req : bytes) : res (Z * bytes) * unit := (Ok (0, p), s).
Lemma plain_reply_ok svc st ext d : len d < 60000 -> reply (plain_reply svc st ext d) svc st ext d.
Proof.
  intros L. exists (zeros 6), (0xA1, [1; 2; 3; 4]), 0xB1, [1; 0], 0, [], [].
  split; [reflexivity|]. split; [reflexivity|]. split; [|rewrite app_nil_r; reflexivity].
  split; [vm_compute; reflexivity|]. constructor; [split; [cbn; lia|vm_compute; reflexivity]|].
  constructor; [|constructor]. cbn [fst snd]. split; [lia|]. rewrite !len_app.
  change (len [1; 0]) with 2. change (len [svc; 0; st; ext]) with 4. lia.
Qed.

(** C60: what is sent, for every class, instance, attribute, service, path and data. *)
Theorem C60_single_sends : forall S (ctl : controller S) s otid q class inst attr,
  0 <= class < 2 ^ 16 -> 0 <= inst < 2 ^ 32 -> 0 <= attr < 2 ^ 16 ->
  exists r s1, get_attr_single (asked ctl) (s, []) otid q class inst attr =
    (r, (s1, [object_request otid q 0x0E (class_segment class ++ instance_segment inst ++ attribute_segment attr) []]), q + 1).
Proof.
  intros S ctl s otid q class inst attr Hc Hi Ha. unfold get_attr_single. rewrite single_request_wire by assumption.
  unfold ask, asked. cbn [fst snd]. destruct (ctl s _) as [[[x p]| | |] s1]; cbn [app]; repeat eexists.
Qed.
Print Assumptions C60_single_sends.
Theorem C60_list_sends : forall S (ctl : controller S) s otid q class inst attrs,
  0 <= class < 2 ^ 16 -> 0 <= inst < 2 ^ 32 -> len attrs < 32000 ->
  exists r s1, get_attr_list (asked ctl) (s, []) otid q class inst attrs =
    (r, (s1, [object_request otid q 0x03 (class_segment class ++ instance_segment inst) (le 2 (len attrs) ++ concat (map (le 2) attrs))]), q + 1).
Proof.
  intros S ctl s otid q class inst attrs Hc Hi L. unfold get_attr_list.
  rewrite class_bytes_spec, instance_bytes_spec by assumption.
  assert (Lp := attr_path_len class inst ltac:(lia) ltac:(lia)). rewrite class_bytes_spec, instance_bytes_spec in Lp by assumption.
  rewrite object_request_wire.
  - unfold ask, asked. cbn [fst snd]. destruct (ctl s _) as [[[x p]| | |] s1]; cbn [app]; repeat eexists.
  - lia.
  - rewrite len_app, le_len. assert (X : len (concat (map (le 2) attrs)) = 2 * len attrs).
    { clear. induction attrs as [|a l IH]; [reflexivity|]. cbn [map concat]. rewrite len_app, le_len, len_cons. lia. }
    lia.
Qed.
Print Assumptions C60_list_sends.
Theorem C60_generic_sends : forall S (ctl : controller S) s otid q service path data,
  len path < 512 -> len data < 65000 ->
  exists r s1, generic (asked ctl) (s, []) otid q service path data =
    (r, (s1, [object_request otid q service path data]), q + 1).
Proof.
  intros S ctl s otid q service path data L1 L2. unfold generic. rewrite object_request_wire by assumption.
  unfold ask, asked. cbn [fst snd]. destruct (ctl s _) as [[[x p]| | |] s1]; cbn [app]; repeat eexists.
Qed.
Print Assumptions C60_generic_sends.
Example C60_example :
  snd (fst (get_attr_single (asked (answers [])) (tt, []) 7 1 0x300 70000 4)) =
    (tt, [zeros 6 ++ [2; 0; 0xA1; 0; 4; 0; 7; 0; 0; 0; 0xB1; 0; 16; 0; 1; 0; 0x0E; 6; 0x21; 0; 0; 3; 0x26; 0; 0x70; 0x11; 1; 0; 0x30; 4]]) /\
  snd (fst (get_attr_list (asked (answers [])) (tt, []) 7 1 0xAC 1 [1; 2; 10])) =
    (tt, [zeros 6 ++ [2; 0; 0xA1; 0; 4; 0; 7; 0; 0; 0; 0xB1; 0; 16; 0; 1; 0; 3; 2; 0x20; 0xAC; 0x24; 1; 3; 0; 1; 0; 2; 0; 10; 0]]).
Proof. split; vm_compute; reflexivity. Qed.
(** Beyond 255 words the length byte of a generic path wraps around. *)
Theorem C60_long_path_refuted : exists path, len path = 512 /\ forall S (ctl : controller S) s otid q service,
  exists r s1, generic (asked ctl) (s, []) otid q service path [] =
    (r, (s1, [zeros 6 ++ wire_list [(0xA1, le 4 otid); (0xB1, le 2 q ++ [service; 0] ++ path)]]), q + 1).
Proof.
  exists (zeros 512). split; [reflexivity|]. intros S ctl s otid q service. unfold generic, path_request.
  change (path_size_byte (zeros 512)) with 0. rewrite app_nil_r.
  rewrite item_write_new, <- app_assoc. change (new_item item_connaddr (le 4 otid)) with (mk (0xA1, le 4 otid)).
  change [mk (161, le 4 otid); mk (item_conndata, le 2 q ++ [service; 0] ++ zeros 512)] with
    (map mk [(161, le 4 otid); (0xB1, le 2 q ++ [service; 0] ++ zeros 512)]).
  rewrite serialize_mk.
  - unfold ask, asked. cbn [fst snd]. destruct (ctl s _) as [[[x p]| | |] s1]; cbn [app]; repeat eexists.
  - split; [vm_compute; reflexivity|]. repeat constructor; cbn [fst snd]; rewrite ?le_len; try lia.
Qed.
Print Assumptions C60_long_path_refuted.

(** C53, GenericCIPMessage: any status or additional status is an error; *)
Theorem C53_generic_reports : forall S (ctl : controller S) s s1 otid q service path data p eip svc st ext d,
  ctl s (path_request otid q service path data) = (Ok (eip, p), s1) -> reply p svc st ext d ->
  0 <= svc < 256 -> 0 <= st < 256 -> 0 <= ext < 256 ->
  (st <> 0 \/ ext <> 0 \/ svc mod 128 <> service -> is_ok (fst (fst (generic ctl s otid q service path data))) = false) /\
  (st = 0 -> ext = 0 -> svc mod 128 = service ->
     exists it, fst (fst (generic ctl s otid q service path data)) = Ok it /\ item_rest it = Ok d).
Proof.
  intros S ctl s s1 otid q service path data p eip svc st ext d E R Hs Ht He.
  unfold generic, ask. rewrite E. cbn [fst].
  destruct (second_item_reply true p svc st ext d R) as (it & a & b & resv & -> & C0 & U0). cbn [bind].
  destruct (item_int2 _ _ _ _ C0 U0) as (i1 & -> & C1 & U1). cbn [bind].
  destruct (item_int2 _ _ _ _ C1 U1) as (i2 & -> & C2 & U2). cbn [bind].
  destruct (item_int2 _ _ _ _ C2 U2) as (i3 & E3 & C3 & U3). rewrite E3.
  assert (M' : sgn 16 (unle [svc; resv]) mod 256 = svc).
  { cbn [unle]. unfold sgn. change (2 ^ 16) with 65536. destruct (_ <? _); Z.to_euclidean_division_equations; lia. }
  rewrite M'. split.
  - intros H. destruct (svc mod 128 =? service) eqn:Es; cbn [negb]; [|reflexivity]. cbn [bind].
    destruct (word_sgn st ext Ht He) as [_ Z0].
    destruct (sgn 16 (unle [st; ext]) =? 0) eqn:Ez; cbn [negb]; [|reflexivity]. lia.
  - intros -> -> ->. rewrite Z.eqb_refl. cbn [negb bind]. exists i3. split; [reflexivity|].
    unfold item_rest. rewrite slice_from_ok by exact C3. now rewrite U3.
Qed.
Print Assumptions C53_generic_reports.
Example C53_generic_example : exists it,
  fst (fst (generic (answers (plain_reply 0xCC 0 0 [7; 8])) tt 7 1 0x4C [0x20; 0xB2] [])) = Ok it /\ item_rest it = Ok [7; 8] /\
  fst (fst (generic (answers (plain_reply 0xCC 5 0 [])) tt 7 1 0x4C [0x20; 0xB2] [])) = Err (EStatus 5).
Proof.
  destruct (C53_generic_reports unit (answers (plain_reply 0xCC 0 0 [7; 8])) tt tt 7 1 0x4C [0x20; 0xB2] [] _ _ 0xCC 0 0 [7; 8]
              eq_refl (plain_reply_ok _ _ _ [7; 8] eq_refl) ltac:(lia) ltac:(lia) ltac:(lia)) as [_ H].
  destruct H as (it & E & R); [reflexivity|reflexivity|reflexivity|].
  - exists it. split; [exact E|]. split; [exact R|]. vm_compute. reflexivity.
Qed.

(** and success means a reply with status 0 to this service was received. *)
Theorem C53_generic_confirmed : forall S (ctl : controller S) s s' otid q q' service path data it,
  sends_bytes ctl -> generic ctl s otid q service path data = (Ok it, s', q') ->
  exists p eip svc d, ctl s (path_request otid q service path data) = (Ok (eip, p), s') /\
    reply p svc 0 0 d /\ svc mod 128 = service /\ item_rest it = Ok d.
Proof.
  intros S ctl s s' otid q q' service path data it B. unfold generic, ask.
  destruct (ctl s _) as [[[x p]| | |] s1] eqn:E; try discriminate.
  assert (Bp := B _ _ _ _ _ E). destruct (second_item true p) as [i0| | |] eqn:E0; try discriminate. cbn [bind].
  destruct (second_item_pos _ _ _ Bp E0) as [P0 B0].
  intros X. injection X as X <- <-.
  destruct (item_int 2 i0) as [r0 i1] eqn:E1. destruct r0 as [z0| | |]; try discriminate. cbn [bind] in X.
  assert (P0' : it_pos i0 >= 0) by lia.
  destruct (item_int2_inv _ _ _ P0' E1) as (a & b & rest & U0 & _ & U1 & P1 & D1).
  destruct (item_int 2 i1) as [r1 i2] eqn:E2. destruct r1 as [z1| | |]; try discriminate. cbn [bind] in X.
  destruct (item_int2_inv _ _ _ P1 E2) as (svc & resv & rest2 & U1' & Z1 & U2 & P2 & D2).
  destruct (z1 mod 256 mod 128 =? service) eqn:Es; cbn [negb] in X; [|discriminate].
  destruct (item_int 2 i2) as [r2 i3] eqn:E3. destruct r2 as [z2| | |]; try discriminate. cbn [bind] in X.
  destruct (item_int2_inv _ _ _ P2 E3) as (st & ext & d & U2' & Z2 & U3 & P3 & D3).
  destruct (z2 =? 0) eqn:Ez; cbn [negb] in X; [|discriminate]. injection X as <-.
  assert (U : unread i0 = a :: b :: svc :: resv :: st :: ext :: d) by congruence.
  assert (Bu : bytes_ok (a :: b :: svc :: resv :: st :: ext :: d)).
  { rewrite <- U. unfold unread. rewrite P0. exact B0. }
  assert (Hb : 0 <= svc < 256 /\ 0 <= resv < 256 /\ 0 <= st < 256 /\ 0 <= ext < 256).
  { unfold bytes_ok in Bu. rewrite Forall_forall in Bu. repeat split; apply Bu; cbn [In]; tauto. }
  destruct (word_sgn st ext ltac:(lia) ltac:(lia)) as [_ W]. destruct (proj1 W ltac:(lia)) as [-> ->].
  destruct (word_sgn svc resv ltac:(lia) ltac:(lia)) as [W' _].
  exists p, x, svc, d. split; [reflexivity|]. split; [eapply second_item_sound; eauto|]. split; [rewrite <- W'; lia|].
  unfold item_rest. rewrite slice_from_ok; [now rewrite U3|]. unfold cursor_ok. split; [lia|].
  apply (f_equal snd) in E3. unfold item_int, item_uint in E3.
  destruct (len (it_data i2) <=? _) eqn:El.
  - cbn in E3. subst i3. assert (length (unread i2) = length (unread i2)) by reflexivity. rewrite U2' in H at 1. rewrite U3 in H. cbn in H. lia.
  - destruct (slice_from _ _); cbn [snd] in E3; subst i3; cbn [it_pos it_data item_at]; lia.
Qed.
Print Assumptions C53_generic_confirmed.
Example C53_generic_confirmed_example : sends_bytes (answers (plain_reply 0xCC 0 0 [7; 8])).
Proof. intros s req st p s1 E. injection E as <- <- <-. repeat constructor; lia. Qed.

(** C53, GetAttrList: the same; the count in front of the attributes is skipped. *)
Theorem C53_list_reports : forall S (ctl : controller S) s s1 otid q class inst attrs p eip svc st ext d,
  ctl s (path_request otid q 0x03 (class_bytes class ++ instance_bytes inst) (le 2 (len attrs) ++ concat (map (le 2) attrs))) =
    (Ok (eip, p), s1) -> reply p svc st ext d ->
  0 <= st < 256 -> 0 <= ext < 256 ->
  (st <> 0 \/ ext <> 0 -> fst (fst (get_attr_list ctl s otid q class inst attrs)) = Err (EStatus (st + 256 * ext))) /\
  (st = 0 -> ext = 0 -> forall c0 c1 values, d = c0 :: c1 :: values ->
     exists it, fst (fst (get_attr_list ctl s otid q class inst attrs)) = Ok it /\ item_rest it = Ok values).
Proof.
  intros S ctl s s1 otid q class inst attrs p eip svc st ext d E R Ht He.
  unfold get_attr_list, ask. unfold svc_getattrlist. rewrite E. cbn [fst].
  destruct (second_item_reply true p svc st ext d R) as (it & a & b & resv & -> & C0 & U0). cbn [bind].
  destruct (item_des6 _ _ _ _ _ _ _ _ C0 U0) as (i1 & -> & C1 & U1).
  change (skipn 4 [a; b; svc; resv; st; ext]) with [st; ext]. replace (unle [st; ext]) with (st + 256 * ext) by (cbn [unle]; lia). split.
  - intros H. destruct (st + 256 * ext =? 0) eqn:Z0; [lia|]. reflexivity.
  - intros -> -> c0 c1 values ->. change (0 + 256 * 0) with 0. cbn [negb Z.eqb].
    destruct (item_int2 _ _ _ _ C1 U1) as (i2 & -> & C2 & U2). exists i2. split; [reflexivity|].
    unfold item_rest. rewrite slice_from_ok by exact C2. now rewrite U2.
Qed.
Print Assumptions C53_list_reports.
Example C53_list_example :
  fst (fst (get_attr_list (answers (plain_reply 0x83 0x0A 0 [1; 0; 1; 0; 9; 0])) tt 7 1 0xAC 1 [1])) = Err (EStatus 0x0A) /\
  exists it, fst (fst (get_attr_list (answers (plain_reply 0x83 0 0 [1; 0; 1; 0; 0; 0; 5; 6])) tt 7 1 0xAC 1 [1])) = Ok it /\
             item_rest it = Ok [1; 0; 0; 0; 5; 6].
Proof.
  split.
  - apply (proj1 (C53_list_reports unit (answers (plain_reply 0x83 0x0A 0 [1; 0; 1; 0; 9; 0])) tt tt 7 1 0xAC 1 [1] _ _ 0x83 0x0A 0
      [1; 0; 1; 0; 9; 0] eq_refl (plain_reply_ok _ _ _ [1; 0; 1; 0; 9; 0] eq_refl) ltac:(lia) ltac:(lia))). lia.
  - apply (proj2 (C53_list_reports unit (answers (plain_reply 0x83 0 0 [1; 0; 1; 0; 0; 0; 5; 6])) tt tt 7 1 0xAC 1 [1] _ _ 0x83 0 0
      [1; 0; 1; 0; 0; 0; 5; 6] eq_refl (plain_reply_ok _ _ _ [1; 0; 1; 0; 0; 0; 5; 6] eq_refl) ltac:(lia) ltac:(lia)) eq_refl eq_refl 1 0). reflexivity.
Qed.

(** C53, GetAttrSingle: the status is never looked at; *)
Theorem C53_single_any_status : forall st ext d, len d < 60000 ->
  exists it, fst (fst (get_attr_single (answers (plain_reply 0x8E st ext d)) tt 7 1 1 1 4)) = Ok it /\ item_rest it = Ok d.
Proof.
  intros st ext d L. unfold get_attr_single, ask, answers. cbn [fst].
  destruct (second_item_reply false _ _ _ _ _ (plain_reply_ok 0x8E st ext d L)) as (it & a & b & resv & -> & C0 & U0). cbn [bind].
  destruct (item_des6 _ _ _ _ _ _ _ _ C0 U0) as (i1 & -> & C1 & U1). exists i1. split; [reflexivity|].
  unfold item_rest. rewrite slice_from_ok by exact C1. now rewrite U1.
Qed.
Print Assumptions C53_single_any_status.
Theorem C53_single_refuted : exists st d it, st <> 0 /\ d <> [] /\
  fst (fst (get_attr_single (answers (plain_reply 0x8E st 0 d)) tt 7 1 1 1 4)) = Ok it /\ item_rest it = Ok d.
Proof.
  destruct (C53_single_any_status 5 0 [9]) as (it & A & B); [reflexivity|].
  exists 5, [9], it. split; [discriminate|]. split; [discriminate|]. split; [exact A|exact B].
Qed.
Print Assumptions C53_single_refuted.
(** a well-formed reply always gives its data. *)
Theorem C53_single_data_partial : forall S (ctl : controller S) s s1 otid q class inst attr p eip svc st ext d,
  ctl s (single_request otid q class inst attr) = (Ok (eip, p), s1) -> reply p svc st ext d ->
  exists it, get_attr_single ctl s otid q class inst attr = (Ok it, s1, q + 1) /\ item_rest it = Ok d.
Proof.
  intros S ctl s s1 otid q class inst attr p eip svc st ext d E R. unfold get_attr_single, ask. rewrite E.
  destruct (second_item_reply false _ _ _ _ _ R) as (it & a & b & resv & -> & C0 & U0). cbn [bind].
  destruct (item_des6 _ _ _ _ _ _ _ _ C0 U0) as (i1 & -> & C1 & U1). exists i1. split; [reflexivity|].
  unfold item_rest. rewrite slice_from_ok by exact C1. now rewrite U1.
Qed.
Print Assumptions C53_single_data_partial.
Example C53_single_example : reply (plain_reply 0x8E 0 0 [1; 2]) 0x8E 0 0 [1; 2].
Proof. now apply plain_reply_ok. Qed.

(** C55: replies of fewer than two items crash all three. *)
Theorem C55_attr_reply_refuted : exists p,
  fst (fst (get_attr_single (answers p) tt 7 1 1 1 4)) = Panic /\
  fst (fst (get_attr_list (answers p) tt 7 1 1 1 [4])) = Panic /\
  fst (fst (generic (answers p) tt 7 1 0x0E [0x20; 1] [])) = Panic.
Proof. exists (zeros 8). vm_compute. auto. Qed.
Print Assumptions C55_attr_reply_refuted.
