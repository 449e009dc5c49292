(** * Reads of arrays of texts *)
From Verif Require Import GoBase SegModel IoiModel IoiSpec IoiProof ItemsModel TypesModel ItemsSpec ItemsProof ReadModel ReadSpec ReadProof
  WriteModel WriteSpec BatchSpec EipModel EipSpec EipProof OpenModel TableModel ProvModel ProvSpec ProvProof SrvValModel SrvValSpec SrvValProof
  SrvModel SrvSpec SrvProof Prop_SrvVal ReqSpec LinkModel ReqProof TextsSpec.

(** What is sent for a value, whatever the provider keeps it in. *)
Definition sends (v : view) (d : bytes) : Prop := forall h x, see 2 h x = v -> exists ps, read_payload h x = Ok ps /\ concat ps = d.

Lemma packer_short s : len s <= 82 -> string_packer s = text_type ++ text_data s.
Proof.
  intros L. rewrite packer_wire. unfold text_type, text_data. rewrite Z.min_l by lia. rewrite firstn_all2 by (unfold len in L; lia). reflexivity.
Qed.
Lemma sends_texts ss : Forall short_text ss -> sends (VMany (EK KString) (map (fun s => VOne (GStr s)) ss)) (text_slots ss).
Proof.
  intros F h x E. destruct x as [g|e arr off n]; cbn [see] in E; [discriminate|]. injection E as -> E.
  replace (map (fun s => VOne (GStr s)) ss) with (map VOne (map GStr ss)) in E by (rewrite map_map; reflexivity).
  symmetry in E. apply see_ones in E. unfold read_payload. change (pval_cip (PS (EK KString) arr off n) =? T_string) with true. cbv iota.
  rewrite E. eexists. split; [reflexivity|]. unfold text_slots. f_equal. rewrite !map_map. apply map_ext_in. intros s I.
  cbn [pstr]. apply packer_short. rewrite Forall_forall in F. apply F, I.
Qed.

Lemma connected_read_sends svc otid q t n more to i v d w :
  svc = 0x4C \/ svc = 0x52 -> 0 <= otid < 2 ^ 32 -> 0 <= q < 2 ^ 16 -> leads (w_srv w) otid i to ->
  separate (prov_at (w_srv w) i) -> addressed t -> clear_count n ->
  ProvSpec.reads (shows (prov_at (w_srv w) i)) (text t) n v -> sends v d ->
  connected_read svc (le 4 otid) (le 2 q ++ [svc; len (encode t) / 2] ++ encode t ++ le 2 n ++ more) w =
  send 0x70 (serialize_items (map mk [(0xA1, le 4 to); (0xB1, le 2 q ++ [svc + 0x80; 0; 0; 0] ++ d)])) w.
Proof.
  intros Hs Ho Hq (Li & cn & Ec & <- & Er) S Ad Cc R W.
  unfold connected_read. unfold bindM at 1, ask.
  rewrite <- (app_nil_r (le 4 otid)), rd_app by apply le_length. cbn [or_send]. erewrite lift_ok by reflexivity. cbv beta iota.
  rewrite unle_le_small by (cbn; lia). rewrite Ec. cbn [or_send]. erewrite lift_ok by reflexivity. cbv beta iota.
  rewrite rd_app by apply le_length. cbn [or_send]. erewrite lift_ok by reflexivity. cbv beta iota.
  rewrite rd_app by reflexivity. cbn [or_send]. erewrite lift_ok by reflexivity. cbv beta iota.
  rewrite addressed_path by (exact Ad || now apply clear_rest). cbn [or_send]. erewrite lift_ok by reflexivity. cbv beta iota.
  rewrite rd_app by apply le_length. cbn [or_send]. erewrite lift_ok by reflexivity. cbv beta iota.
  rewrite Er. cbn [or_send]. erewrite lift_ok by reflexivity. cbv beta iota.
  rewrite clear_sgn by exact Cc. rewrite tag_read_lower.
  pose proof (tag_read_spec (prov_at (w_srv w) i) (text t) n S (proj1 (proj1 Cc))) as Q.
  destruct (tag_read (prov_at (w_srv w) i) (text t) n) as [x|e| |]; try contradiction.
  2: now elim (Q v). cbn [or_send]. erewrite lift_ok by reflexivity. cbv beta iota.
  destruct (W _ _ (eq_sym (reads_fun _ _ _ _ _ R Q))) as (ps & E & <-).
  erewrite lift_ok by exact E. unfold conn_reply. rewrite conn_items, (unle_le_small 2 q) by (cbn; lia).
  rewrite svc_response by (destruct Hs; auto). reflexivity.
Qed.
Lemma link_read_sends session context otid i sh q t n v type x d :
  linked session context otid i sh -> addressed t -> len (encode t) < 512 -> clear_count n ->
  ProvSpec.reads (behind i sh) (text t) n v -> sends v ([type; x] ++ d) -> len d < 65000 ->
  exists p sh1, link session context sh (read_request otid q (encode t) n) = (Ok (0, p), sh1) /\
    answer p 0 type d /\ linked session context otid i sh1 /\ fst sh1 = fst sh.
Proof.
  intros (Hs & Hc & Ho & Hh & (to & Ld) & S) Ad Lt Cc R W Ld'. pose proof (len_nonneg (encode t)). pose proof (len_nonneg d).
  unfold read_request. rewrite link_run; [|exact Hs|exact Hc| |].
  - rewrite unit_pair by lia. cbv zeta.
    change (0x4C =? svc_write) with false. change ((0x4C =? svc_fragread) || (0x4C =? svc_read)) with true. cbv iota.
    rewrite (le2_wrap q). rewrite <- (app_nil_r (le 2 n)).
    rewrite (connected_read_sends 0x4C otid (q mod 65536) t n [] to i v ([type; x] ++ d)); try assumption; try (now left).
    2: apply Z.mod_pos_bound; lia.
    unfold receiving. cbn [w_srv w_h w_in w_sent h_handle h_options h_context h_ot h_to h_seq].
    rewrite recv_one; [|exact Hh|exact Hc|lia| |].
    + eexists _, _. split; [reflexivity|]. split; [|split].
      * exists (zeros 6), (0xA1, le 4 to), 0xB1, (le 2 (q mod 65536)), 0xCC, 0, 0, x, [].
        split; [reflexivity|]. split; [apply le_length|]. split; [|now rewrite app_nil_r].
        apply fits_pair; [rewrite le_len; lia|]. rewrite !len_app, le_len, !len_cons. change (len (@nil Z)) with 0. lia.
      * split; [exact Hs|]. split; [exact Hc|]. split; [exact Ho|]. split; [exact Hh|]. split; [now exists to|exact S].
      * reflexivity.
    + apply fits_pair; [rewrite le_len; lia|]. rewrite !len_app, le_len, !len_cons. change (len (@nil Z)) with 0. lia.
    + rewrite len_app, wire_pair_len, !len_app, !le_len, !len_cons. change (len (zeros 6)) with 6. change (len (@nil Z)) with 0. lia.
  - apply fits_pair; [rewrite le_len; lia|]. rewrite !len_app, !le_len, !len_cons. change (len (@nil Z)) with 0. lia.
  - rewrite len_app, wire_pair_len, !len_app, !le_len, !len_cons. change (len (zeros 6)) with 6. change (len (@nil Z)) with 0. lia.
Qed.

Lemma text_data_len s : len s <= 82 -> len (text_data s) = 88.
Proof. intros L. unfold text_data. rewrite !len_app, le_len. unfold zeros, len in *. rewrite repeat_length. lia. Qed.
Lemma text_slots_len ss : Forall short_text ss -> len (text_slots ss) = 92 * len ss.
Proof.
  induction 1 as [|s ss [_ L] F IH]; [reflexivity|]. unfold text_slots in *. cbn [map concat]. rewrite !len_app, IH, text_data_len by exact L.
  rewrite len_cons. change (len text_type) with 4. lia.
Qed.
