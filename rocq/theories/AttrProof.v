(** * Proofs about attribute reads *)
From Verif Require Import GoBase SegModel SegSpec SegProof IoiModel ItemsModel ItemsSpec ItemsProof ReadModel ReadProof AttrModel AttrSpec.

Lemma object_request_wire otid q svc path data : len path < 512 -> len data < 65000 ->
  path_request otid q svc path data = object_request otid q svc path data.
Proof. apply path_request_wire. Qed.


Lemma item_write2 it a b : item_write (item_write it a) b = item_write it (a ++ b).
Proof. unfold item_write. cbn [it_id it_data it_pos]. now rewrite <- app_assoc. Qed.
Lemma single_request_wire otid q class inst attr : 0 <= class < 2 ^ 16 -> 0 <= inst < 2 ^ 32 -> 0 <= attr < 2 ^ 16 ->
  single_request otid q class inst attr =
  object_request otid q svc_getattr (class_segment class ++ instance_segment inst ++ attribute_segment attr) [].
Proof.
  intros Hc Hi Ha.
  rewrite <- class_bytes_spec, <- instance_bytes_spec, <- attribute_bytes_spec by assumption.
  assert (Lc : len (class_bytes class) = class_len class) by (apply class_len_ok; lia).
  assert (Li : len (instance_bytes inst) = instance_len inst) by (apply instance_len_ok; lia).
  assert (La : len (attribute_bytes attr) = attribute_len attr) by (apply attribute_len_ok; lia).
  assert (0 <= class_len class <= 6) by (unfold class_len; destruct (class <? 256); lia).
  assert (0 <= instance_len inst <= 6) by (unfold instance_len; destruct (inst <? 256); [|destruct (inst <=? 65535)]; lia).
  assert (0 <= attribute_len attr <= 6) by (unfold attribute_len; destruct (attr <? 256); lia).
  unfold single_request, object_request.
  rewrite <- Lc, <- Li, <- La, <- len_app, <- len_app.
  rewrite <- (app_assoc (class_bytes class)).
  set (path := class_bytes class ++ instance_bytes inst ++ attribute_bytes attr).
  assert (L : 0 <= len path <= 18) by (unfold path; rewrite !len_app; lia).
  rewrite Z.mod_small by lia.
  rewrite <- serialize_mk.
  - rewrite !item_write2. fold path. rewrite app_nil_r, item_write_new, <- app_assoc. reflexivity.
  - split; [vm_compute; reflexivity|]. repeat constructor; cbn [fst snd]; rewrite ?le_len; try lia.
    rewrite !len_app, le_len, !len_cons, !len_nil. lia.
Qed.

Lemma attr_path_len class inst : 0 <= class -> 0 <= inst -> 0 <= len (class_bytes class ++ instance_bytes inst) <= 12.
Proof.
  intros Hc Hi. rewrite len_app, class_len_ok, instance_len_ok by assumption. unfold class_len, instance_len.
  destruct (class <? 256), (inst <? 256), (inst <=? 65535); lia.
Qed.

(** ** Replies *)
Lemma item_des_fits it w : cursor_ok it -> (0 < w)%nat -> (w <= length (unread it))%nat ->
  item_des w it = (Ok (firstn w (unread it)), item_at it (it_pos it + Z.of_nat w)).
Proof.
  intros H H0 Hw. unfold item_des. destruct w as [|w]; [lia|]. pose proof (unread_length it H) as L. unfold len in L at 1.
  destruct (Z.leb_spec (len (it_data it)) (it_pos it)); [lia|].
  rewrite slice_from_ok by exact H. destruct (Nat.leb_spec (S w) (length (unread it))); [|lia]. reflexivity.
Qed.
Lemma item_int2 it a b rest : cursor_ok it -> unread it = a :: b :: rest ->
  exists it', item_int 2 it = (Ok (sgn 16 (unle [a; b])), it') /\ cursor_ok it' /\ unread it' = rest.
Proof.
  intros H U. exists (item_at it (it_pos it + 2)). unfold item_int.
  assert (W : (2 <= length (unread it))%nat) by (rewrite U; cbn; lia).
  rewrite item_uint_fits by (try lia; assumption). rewrite U. cbn [firstn].
  destruct (unread_advance it 2 H W) as [C E]. change (Z.of_nat 2) with 2 in *. split; [reflexivity|]. split; [exact C|]. rewrite E, U. reflexivity.
Qed.
Lemma item_des6 it a b c d e f rest : cursor_ok it -> unread it = a :: b :: c :: d :: e :: f :: rest ->
  exists it', item_des 6 it = (Ok [a; b; c; d; e; f], it') /\ cursor_ok it' /\ unread it' = rest.
Proof.
  intros H U. exists (item_at it (it_pos it + 6)).
  assert (W : (6 <= length (unread it))%nat) by (rewrite U; cbn; lia).
  rewrite item_des_fits by (try lia; assumption). rewrite U. cbn [firstn].
  destruct (unread_advance it 6 H W) as [C E]. change (Z.of_nat 6) with 6 in *. split; [reflexivity|]. split; [exact C|]. rewrite E, U. reflexivity.
Qed.

Lemma word_sgn a b : 0 <= a < 256 -> 0 <= b < 256 -> sgn 16 (unle [a; b]) mod 256 = a /\ (sgn 16 (unle [a; b]) = 0 <-> a = 0 /\ b = 0).
Proof.
  intros Ha Hb. cbn [unle]. unfold sgn. change (2 ^ 16) with 65536. change (2 ^ (16 - 1)) with 32768.
  rewrite (Z.mod_small (a + 256 * (b + 256 * 0)) 65536) by lia.
  destruct (_ <? 32768) eqn:E; split; try (Z.to_euclidean_division_equations; lia); lia.
Qed.

Lemma second_item_reply strict payload svc st ext d : reply payload svc st ext d ->
  exists it a b resv, second_item strict payload = Ok it /\ cursor_ok it /\ unread it = a :: b :: svc :: resv :: st :: ext :: d.
Proof.
  intros (pre & addr & id & q & resv & others & rest & L & Q & F & ->).
  destruct (length2 q Q) as (a & b & ->).
  exists (mk (id, [a; b] ++ [svc; resv; st; ext] ++ d)), a, b, resv.
  unfold second_item. rewrite rd_app by exact L. cbn [bind]. rewrite read_items_wire by exact F. cbn [bind map].
  split; [reflexivity|]. split; [|reflexivity]. unfold cursor_ok, mk, new_item, item_write, item_empty. cbn [it_pos it_data fst snd].
  match goal with |- _ <= _ <= len ?x => pose proof (len_nonneg x) end. lia.
Qed.

(** Conversely, six bytes in the second item make a reply. *)
Lemma second_item_sound strict payload it a b svc resv st ext d : bytes_ok payload ->
  second_item strict payload = Ok it -> unread it = a :: b :: svc :: resv :: st :: ext :: d -> it_pos it = 0 ->
  reply payload svc st ext d.
Proof.
  intros B. unfold second_item. destruct (rd 6 payload) as [[pre r]|e| |] eqn:R; cbn [bind]; try discriminate.
  2:{ destruct strict; cbn; discriminate. }
  destruct (rd_ok_inv _ _ _ _ R) as [-> L]. apply bytes_ok_app in B. destruct B as [_ B].
  destruct (read_items r) as [[its rest]| | |] eqn:E; cbn [bind]; try discriminate.
  apply read_items_sound in E; [|exact B]. destruct E as [-> F].
  destruct its as [|i0 [|i1 others]]; try discriminate. intros X U P. injection X as ->.
  unfold unread in U. rewrite P in U. cbn [Z.to_nat skipn] in U.
  exists pre, (it_id i0, it_data i0), (it_id it), [a; b], resv, (map (fun it => (it_id it, it_data it)) others), rest.
  unfold contents in *. cbn [map] in *. rewrite U in *. repeat split; auto; apply F.
Qed.
Lemma second_item_pos strict payload it : bytes_ok payload -> second_item strict payload = Ok it -> it_pos it = 0 /\ bytes_ok (it_data it).
Proof.
  intros B. unfold second_item. destruct (rd 6 payload) as [[pre r]|e| |] eqn:R; cbn [bind]; try discriminate.
  2:{ destruct strict; cbn; discriminate. }
  destruct (rd_ok_inv _ _ _ _ R) as [-> L]. apply bytes_ok_app in B. destruct B as [_ B].
  unfold read_items. destruct (rd 2 r) as [[c r1]|e| |] eqn:E; cbn [bind]; try discriminate.
  apply rd_ok_inv in E as [-> L2]. apply bytes_ok_app in B as [_ B].
  destruct (read_items_n _ r1) as [[its rest]| | |] eqn:E2; cbn [bind]; try discriminate.
  destruct (read_items_n_sound _ _ _ _ B E2) as (_ & -> & F).
  apply bytes_ok_app in B. destruct B as [B _].
  destruct its as [|i0 [|i1 others]]; try discriminate. intros X. injection X as ->.
  inversion_clear F as [|? ? _ F']. inversion_clear F' as [|? ? (_ & Hp & _) _]. split; [exact Hp|].
  cbn [map concat] in B. apply bytes_ok_app in B as [_ B]. apply bytes_ok_app in B as [B _].
  unfold item_bytes in B. do 2 apply bytes_ok_app in B as [_ B]. exact B.
Qed.

Lemma item_int2_inv it z it' : it_pos it >= 0 -> item_int 2 it = (Ok z, it') ->
  exists a b rest, unread it = a :: b :: rest /\ z = sgn 16 (unle [a; b]) /\ unread it' = rest /\ it_pos it' >= 0 /\ it_data it' = it_data it.
Proof.
  intros P. unfold item_int, item_uint. destruct (Z.leb_spec (len (it_data it)) (it_pos it + (Z.of_nat 2 - 1))); [discriminate|].
  assert (C : cursor_ok it) by (unfold cursor_ok; lia). rewrite slice_from_ok by exact C.
  pose proof (unread_length it C) as L.
  destruct (unread it) as [|a [|b rest]] eqn:U; [change (@len Z []) with 0 in L; lia|change (len [a]) with 1 in L; lia|].
  intros E. injection E as <- <-. exists a, b, rest. split; [reflexivity|]. split; [reflexivity|].
  destruct (unread_advance it 2 C) as [C' E]; [rewrite U; cbn; lia|]. change (Z.of_nat 2) with 2 in *.
  rewrite E, U. split; [reflexivity|]. cbn [it_pos it_data item_at]. split; [lia|reflexivity].
Qed.
Lemma item_des6_inv it h it' : it_pos it >= 0 -> item_des 6 it = (Ok h, it') ->
  exists a b c d e f rest, unread it = a :: b :: c :: d :: e :: f :: rest /\ h = [a; b; c; d; e; f] /\ unread it' = rest /\ it_pos it' >= 0 /\ it_data it' = it_data it.
Proof.
  intros P. unfold item_des. destruct (Z.leb_spec (len (it_data it)) (it_pos it)); [discriminate|].
  assert (C : cursor_ok it) by (unfold cursor_ok; lia). rewrite slice_from_ok by exact C.
  destruct (Nat.leb_spec 6 (length (unread it))); [|discriminate]. intros E.
  assert (A := unread_advance it 6 C ltac:(lia)). destruct A as [C' A].
  destruct (unread it) as [|a [|b [|c [|d [|e [|f rest]]]]]] eqn:U; cbn [length] in *; try lia.
  injection E as <- <-. exists a, b, c, d, e, f, rest. repeat split; auto. cbn [it_pos item_at]. lia.
Qed.
