(** * Property C123: messages over paths made with the builder *)
From Verif Require Import GoBase SegModel SegSpec SegProof IoiModel IoiSpec IoiProof PathModel PathSpec PathProof Prop_Ioi Prop_Path BuildSpec
  ItemsModel TypesModel ItemsSpec ItemsProof ReadModel ReadProof WriteModel WriteSpec EipModel EipSpec OpenModel TableModel ProvModel ProvSpec
  SrvValModel SrvValSpec Prop_SrvVal SrvModel SrvSpec SrvProof ReqSpec LinkModel ReqProof Prop_Srv Prop_Req AttrModel AttrSpec AttrProof Prop_Attr.
From Verif Require Prop_Own Prop_Many.

Definition narrow (t : tag) : Prop := Forall (fun m => Forall (fun i => i < 65536) (m_subs m)) (t_members t).
Lemma spelling_raw t : spelling t = concat (map raw_member (t_members t)).
Proof. reflexivity. Qed.
Lemma spelling_lower t : spelling (lower_tag t) = encode t.
Proof. rewrite spelling_raw. apply raw_lower. Qed.
Lemma elem_same i : 0 <= i < 65536 -> elem_segment i = element_segment i.
Proof.
  intro H. unfold elem_segment, logical, element_segment. destruct (i <? 2 ^ 8); [reflexivity|]. destruct (i <? 2 ^ 16) eqn:E; [|lia].
  cbn [le app]. repeat f_equal; lia.
Qed.

(** The builder's calls give the tag's path, in the user's spelling; in lower
    case it is the path the client itself uses for the tag's name. *)
Theorem C123_path_partial : forall t, valid_tag t -> narrow t ->
  pb_run pb0 (by_levels t) = Ok {| pb_buf := spelling t; pb_err := false |} /\
  (forall ops dtype, lookup (lower (text t)) (cl_known (cl_run ops)) = None ->
     exists b, fst (new_ioi (cl_run ops) (text t) dtype) = Ok b /\ ioi_buf b = spelling (lower_tag t)).
Proof.
  intros t V N. split.
  - assert (F : Forall2 denotes (by_levels t) (flat_map (fun m => symbol_segment (m_name m) :: map element_segment (m_subs m)) (t_members t))).
    { unfold by_levels, narrow in *. destruct V as (_ & V & _). revert N. induction V as [|m l [Vn Vs] _ IH]; intro N; [constructor|].
      inversion N as [|? ? N1 N2]; subst. cbn [flat_map]. apply Forall2_app; [|now apply IH]. constructor; [now apply den_symbol|].
      clear - Vs N1. induction (m_subs m) as [|i is IH]; [constructor|]. inversion Vs; inversion N1; subst. cbn [map].
      constructor; [|auto]. rewrite <- elem_same by lia. apply den_element. lia. }
    rewrite (C08_builder_concatenates _ _ F). do 2 f_equal. unfold spelling. clear. induction (t_members t) as [|m l IH]; [reflexivity|].
    cbn [flat_map map concat]. rewrite <- IH. now rewrite concat_app.
  - intros ops dtype L. rewrite C01_tag_name_encoding by assumption. eexists. split; [reflexivity|]. cbn [ioi_buf]. now rewrite spelling_lower.
Qed.
Print Assumptions C123_path_partial.

Lemma spelling_path t rest : addressed t -> (match rest with [] => True | b :: _ => b <> 0x28 /\ b <> 0x29 /\ b <> 0x91 end) ->
  get_tag_from_path (spelling t ++ rest) = Ok (text t, rest).
Proof.
  intros (V & B & S) R. rewrite spelling_raw, get_tag_decode; [now rewrite text_members|apply V|apply V|exact S|exact R].
Qed.
Lemma spelling_len t : len (spelling t) = len (encode t).
Proof.
  unfold spelling, encode. induction (t_members t) as [|m l IH]; [reflexivity|]. cbn [map concat]. unfold encode_member at 1.
  rewrite !len_app, IH. unfold symbol_segment. rewrite !len_cons, !len_app, lower_len. lia.
Qed.
(** connected_read_ok (ReqProof) for the user's spelling. *)
Lemma read_spelled otid q t n to i v d w :
  0 <= otid < 2 ^ 32 -> 0 <= q < 2 ^ 16 -> leads (w_srv w) otid i to ->
  separate (prov_at (w_srv w) i) -> addressed t -> clear_count n ->
  ProvSpec.reads (shows (prov_at (w_srv w) i)) (text t) n v -> wire_view v d ->
  connected_read 0x4C (le 4 otid) (le 2 q ++ [0x4C; len (spelling t) / 2] ++ spelling t ++ le 2 n) w =
  SrvModel.send 0x70 (serialize_items (map mk [(0xA1, le 4 to); (0xB1, le 2 q ++ [0xCC; 0; 0; 0] ++ d)])) w.
Proof.
  intros Ho Hq (Li & cn & Ec & <- & Er) S Ad Cc R W.
  unfold connected_read. unfold bindM at 1, SrvModel.ask.
  rewrite <- (app_nil_r (le 4 otid)), rd_app by apply le_length. cbn [or_send]. erewrite lift_ok by reflexivity. cbv beta iota.
  rewrite unle_le_small by (cbn; lia). rewrite Ec. cbn [or_send]. erewrite lift_ok by reflexivity. cbv beta iota.
  rewrite rd_app by apply le_length. cbn [or_send]. erewrite lift_ok by reflexivity. cbv beta iota.
  rewrite rd_app by reflexivity. cbn [or_send]. erewrite lift_ok by reflexivity. cbv beta iota.
  rewrite <- (app_nil_r (le 2 n)).
  rewrite spelling_path by (exact Ad || now apply clear_rest). cbn [or_send]. erewrite lift_ok by reflexivity. cbv beta iota.
  rewrite rd_app by apply le_length. cbn [or_send]. erewrite lift_ok by reflexivity. cbv beta iota.
  rewrite Er. cbn [or_send]. erewrite lift_ok by reflexivity. cbv beta iota.
  rewrite clear_sgn by exact Cc.
  pose proof (ProvProof.tag_read_spec (prov_at (w_srv w) i) (text t) n S (proj1 (proj1 Cc))) as Q.
  destruct (tag_read (prov_at (w_srv w) i) (text t) n) as [x|e| |]; try contradiction.
  2: now elim (Q v). cbn [or_send]. erewrite lift_ok by reflexivity. cbv beta iota.
  rewrite (ProvProof.reads_fun _ _ _ _ _ R Q) in W. destruct (ReqProof.payload_wire _ _ _ W) as (ps & E & <-).
  erewrite lift_ok by exact E. unfold conn_reply. rewrite conn_items, (unle_le_small 2 q) by (cbn; lia).
  rewrite svc_response by auto. reflexivity.
Qed.

(** A Read (0x4C) sent as a generic message over that path brings what the
    server holds: type and data. *)
Theorem C123_read_partial : forall session context otid i sh q t n v d b,
  linked session context otid i sh -> addressed t -> len (encode t) < 512 -> clear_count n ->
  pb_run pb0 (by_levels t) = Ok b ->
  ProvSpec.reads (behind i sh) (text t) n v -> wire_view v d -> len d < 60000 ->
  exists it h1, generic (link session context) sh otid q 0x4C (pb_buf b) (le 2 n) = (Ok it, (fst sh, h1), q + 1) /\ item_rest it = Ok d /\
    linked session context otid i (fst sh, h1).
Proof.
  intros session context otid i sh q t n v d b L Ad Lt Cc Eb R W Ld.
  rewrite (proj1 (C123_path_partial t (proj1 Ad) (proj2 (proj2 Ad)))) in Eb. injection Eb as <-. cbn [pb_buf].
  pose proof (spelling_len t) as Ls. pose proof (len_nonneg (spelling t)).
  assert (Wp : path_request otid q 0x4C (spelling t) (le 2 n) = object_request otid q 0x4C (spelling t) (le 2 n)) by (apply object_request_wire; rewrite ?le_len; lia).
  assert (X : exists p h1, link session context sh (path_request otid q 0x4C (spelling t) (le 2 n)) = (Ok (0, p), (fst sh, h1)) /\
    reply p 0xCC 0 0 d /\ linked session context otid i (fst sh, h1)).
  { rewrite Wp, (Prop_Own.link_object session context otid i) by (assumption || rewrite ?le_len; lia).
    pose proof L as (Hs & Hc & Ho & Hh & (to & Ldd) & Sp).
    rewrite unit_pair by lia. cbv zeta. change (0x4C =? svc_write) with false. change ((0x4C =? svc_fragread) || (0x4C =? svc_read)) with true. cbv iota.
    rewrite (le2_wrap q). rewrite (read_spelled otid (q mod 65536) t n to i v d); try assumption.
    2: apply Z.mod_pos_bound; lia.
    unfold receiving. cbn [w_srv w_h w_in w_sent h_handle h_options h_context h_ot h_to h_seq].
    destruct (Prop_Own.sent_reply session context otid i sh (q mod 65536) to 0xCC 0 d
      (Handler (h_handle (snd sh)) (h_options (snd sh)) context (h_ot (snd sh)) (h_to (snd sh)) (q mod 65536)) L Ld) as (p & P1 & P2 & P3);
      [split; [apply (proj1 Hh)|apply (proj2 Hh)]|reflexivity|].
    exists p. eexists. split; [exact P1|]. split; [exact P2|exact P3]. }
  destruct X as (p & h1 & E & Rp & L1).
  destruct (C53_generic_reports _ _ _ _ _ _ _ _ _ _ _ _ _ _ _ E Rp ltac:(lia) ltac:(lia) ltac:(lia)) as (_ & G).
  destruct (G eq_refl eq_refl eq_refl) as (it & E1 & R1). exists it, h1. split; [|now split].
  unfold generic, AttrModel.ask in *. rewrite E in *. cbn [fst] in E1. now rewrite E1.
Qed.
Print Assumptions C123_read_partial.

Lemma write_spelled d0 x t b body w : addressed t -> b <> 0x28 /\ b <> 0x29 /\ b <> 0x91 ->
  connected_write d0 ([x] ++ spelling t ++ b :: body) w = connected_write d0 ([x] ++ encode t ++ b :: body) w.
Proof.
  intros Ad Hb.
  assert (E : forall i vs w, write_values i (lower (text t)) vs w = write_values i (text t) vs w).
  { intros i [|v [|v' vs]] w'; unfold write_values, bindM, SrvModel.ask; rewrite ?write_given_lower; reflexivity. }
  unfold connected_write, bindM, SrvModel.ask, lift. rewrite !(rd_app 1 [x]) by reflexivity. cbv beta iota.
  rewrite spelling_path, addressed_path by assumption. cbv beta iota.
  destruct (parse_write_values (b :: body)) as [[vs l]|?| |]; try reflexivity.
  destruct (rd 4 d0) as [[c ?]|?| |]; try reflexivity.
  destruct (conn_by_ot _ _) as [cn|?| |]; try reflexivity.
  destruct (resolve _ _) as [i|?| |]; try reflexivity. now rewrite E.
Qed.

(** and a Write (0x4D) of a value, as the client writes it, either changes the
    tag and succeeds or changes nothing and fails. *)
Theorem C123_write_partial : forall session context otid i sh q t v ty e d b,
  linked session context otid i sh -> addressed t -> len (encode t) < 512 ->
  pb_run pb0 (by_levels t) = Ok b -> carries v ty e d ->
  Forall representable (given_values v) -> given_values v <> [] -> (forall l, v = WMany KString l -> len l <= 1) ->
  len (ty ++ le 2 e ++ d) < 60000 ->
  exists r sh1, generic (link session context) sh otid q 0x4D (pb_buf b) (ty ++ le 2 e ++ d) = (r, sh1, q + 1) /\
    linked session context otid i sh1 /\ others_same i (fst sh) (fst sh1) /\
    ((is_ok r = true /\ writes (behind i sh) (text t) (as_given (given_values v)) (behind i sh1)) \/
     (is_ok r = false /\ (forall m, ~ writes (behind i sh) (text t) (as_given (given_values v)) m) /\
      forall k, behind i sh1 k = behind i sh k)).
Proof.
  intros session context otid i sh q t v ty e d pb L Ad Lt Eb C R NE Ns Lb.
  rewrite (proj1 (C123_path_partial t (proj1 Ad) (proj2 (proj2 Ad)))) in Eb. injection Eb as <-. cbn [pb_buf].
  pose proof (spelling_len t) as Ls. pose proof (len_nonneg (spelling t)).
  destruct (C43_values_partial v ty e d [] C R Ns) as (left & Ep & _). rewrite app_nil_r in Ep.
  destruct (carries_first v ty e d C) as (b & r & -> & Hb). pose proof (carries_not_nil _ _ _ _ C) as Nn.
  set (body := r ++ le 2 e ++ d) in *. change ((b :: r) ++ le 2 e ++ d) with (b :: body) in *.
  assert (Wp : path_request otid q 0x4D (spelling t) (b :: body) = object_request otid q 0x4D (spelling t) (b :: body)) by (apply object_request_wire; lia).
  unfold generic, AttrModel.ask. rewrite Wp.
  rewrite (Prop_Own.link_object session context otid i) by (assumption || lia).
  pose proof L as (Hs & Hc & Ho & Hh & (to & Ldd) & Sp).
  rewrite unit_pair by lia. cbv zeta. change (0x4D =? svc_write) with true. cbv iota.
  set (w0 := World _ _ _ _).
  change (len (spelling t) / 2 :: spelling t ++ b :: body) with ([len (spelling t) / 2] ++ spelling t ++ b :: body).
  rewrite write_spelled by assumption. rewrite Ls.
  pose proof (connected_write_parsed otid t b body (given_values v) left to i w0 Ho Ldd Sp Ad Hb Ep Nn NE) as W.
  destruct (connected_write _ _ w0) as [[u|er| |] w']; try contradiction.
  - destruct W as (w1 & W1 & W2 & W3 & W4). pose proof W3 as (E1 & E2 & E3 & E4 & E5 & E6 & E7).
    destruct u. rewrite W4. destruct w1 as [s1 h1 i1 o1]. cbn [w_srv w_h w_in w_sent w0 receiving] in *. subst h1 i1 o1.
    assert (L1 : linked session context otid i (s1, snd sh)).
    { split; [exact Hs|]. split; [exact Hc|]. split; [exact Ho|]. split; [exact Hh|]. split; [|exact W2].
      exists to. now apply (leads_same _ _ _ _ _ Ldd). }
    set (h2 := Handler _ _ _ _ _ _).
    destruct (Prop_Own.sent_reply session context otid i (s1, snd sh) (h_seq h2) (h_to h2) 0xCD 0 [] h2 L1 ltac:(reflexivity)) as (p & P1 & P2 & P3);
      [split; [apply (proj1 Hh)|apply (proj2 Hh)]|reflexivity|].
    change ([0xCD; 0; 0; 0] ++ []) with [0xCD; 0; 0; 0] in P1. cbn [fst] in P1. rewrite P1.
    set (k := fun it : item => _).
    eexists _, _. split; [reflexivity|]. split; [exact P3|].
    split; [split; [exact E4|]; split; [exact E5|]; split; [exact E6|exact E7]|].
    left. split; [|exact W1].
    pose (ctl := fun (_ : unit) (_ : bytes) => (@Ok (Z * bytes) (0, p), tt)).
    destruct (C53_generic_reports unit ctl tt tt otid q 0x4D (spelling t) (b :: body) p 0 0xCD 0 0 [] eq_refl P2 ltac:(lia) ltac:(lia) ltac:(lia)) as (_ & G).
    destruct (G eq_refl eq_refl eq_refl) as (it & G1 & _). unfold generic, AttrModel.ask, ctl in G1. cbn [fst] in G1. fold k in G1. now rewrite G1.
  - destruct W as (O & S' & N & Sh). pose proof O as (E1 & E2 & E3 & E4 & E5 & E6 & E7).
    unfold link_result. cbn [fst snd]. rewrite E3. cbn [w0 receiving w_sent].
    change (fst (recv_data [])) with (@Err (eip_header * bytes) EEof). cbn [bind].
    eexists _, _. split; [reflexivity|]. split.
    + split; [exact Hs|]. split; [exact Hc|]. split; [exact Ho|]. split; [cbn [snd]; rewrite E1; exact Hh|]. split; [|exact S'].
      exists to. cbn [fst]. now apply (leads_same _ _ _ _ _ Ldd).
    + split; [split; [exact E4|]; split; [exact E5|]; split; [exact E6|exact E7]|]. right. split; [reflexivity|]. split; [exact N|exact Sh].
Qed.
Print Assumptions C123_write_partial.

(** On the demo server: the tag written ARR[1], whose int16 is 2. *)
Definition arr1 : tag := nm (str "ARR") [1].
Example ex_C123 : exists b it h1, linked 77 9 5 0 demo /\ addressed arr1 /\ by_levels arr1 = [PbSymbolic (str "ARR"); PbElement 1] /\
  pb_run pb0 (by_levels arr1) = Ok b /\ generic (link 77 9) demo 5 1 0x4C (pb_buf b) [1; 0] = (Ok it, (fst demo, h1), 2) /\
  item_rest it = Ok [0xC3; 0; 2; 0].
Proof.
  assert (Ad : addressed arr1) by (apply nm_addressed; vm_compute; reflexivity).
  destruct (C123_read_partial 77 9 5 0 demo 1 arr1 1 (VOne (GInt true 2 2)) [0xC3; 0; 2; 0] _ demo_linked Ad ltac:(vm_compute; reflexivity)
    ltac:(unfold clear_count; cbn; lia) (proj1 (C123_path_partial arr1 (proj1 Ad) (proj2 (proj2 Ad))))) as (it & h1 & E & Rr & _).
  - apply (r_elem _ _ _ (lower (text (nm (str "ARR") []))) 1 (EK (KInt true 2)) (map VOne [GInt true 2 1; GInt true 2 2; GInt true 2 3]));
      [apply Prop_Many.elem_nm; reflexivity|vm_compute; reflexivity|lia|reflexivity|vm_compute; reflexivity].
  - apply (wv_number (KInt true 2) 0xC3 (GInt true 2 2)); [reflexivity|]. cbn. auto.
  - vm_compute. reflexivity.
  - eexists _, it, h1. split; [exact demo_linked|]. split; [exact Ad|]. split; [reflexivity|].
    split; [exact (proj1 (C123_path_partial arr1 (proj1 Ad) (proj2 (proj2 Ad))))|]. split; [exact E|exact Rr].
Qed.

(** A whole name given to Symbolic, as its documentation has it ("MyTag" or
    "Program:MyProg.MyTag"), gives no error and not the tag's path; with a
    subscript the number is lost and the symbol is "arr[]". *)
Definition prog_tag : tag := {| t_members := [{| m_name := str "Program:MyProg"; m_subs := [] |}; {| m_name := str "MyTag"; m_subs := [] |}]; t_bit := None |}.
Theorem C123_symbolic_refuted : exists t b, valid_tag t /\ text t = str "Program:MyProg.MyTag" /\
  pb_run pb0 [PbSymbolic (text t)] = Ok b /\ pb_err b = false /\ pb_buf b <> spelling t /\ lower (pb_buf b) <> encode t.
Proof.
  eexists prog_tag, _. split; [apply valid_tagb_sound; vm_compute; reflexivity|]. split; [vm_compute; reflexivity|].
  split; [vm_compute; reflexivity|]. split; [reflexivity|]. split; vm_compute; discriminate.
Qed.
Print Assumptions C123_symbolic_refuted.
Theorem C123_subscript_refuted : exists t b, valid_tag t /\ text t = str "arr[3]" /\
  pb_run pb0 [PbSymbolic (text t)] = Ok b /\ pb_err b = false /\ pb_buf b = symbol_segment (str "arr[]") /\ pb_buf b <> encode t.
Proof.
  eexists (nm (str "arr") [3]), _. split; [apply valid_tagb_sound; vm_compute; reflexivity|].
  split; [vm_compute; reflexivity|].
  split; [vm_compute; reflexivity|]. split; [reflexivity|]. split; vm_compute; [reflexivity|discriminate].
Qed.
Print Assumptions C123_subscript_refuted.
(** An element beyond 65535 is written as a 16-bit one. *)
Theorem C123_element_refuted : exists t b, valid_tag t /\ text t = str "arr[65536]" /\
  pb_run pb0 (by_levels t) = Ok b /\ pb_err b = false /\ pb_buf b <> encode t /\
  fst (new_ioi (cl_run []) (text t) 0xC4) = Ok {| ioi_buf := encode t; ioi_bit := false; ioi_bitpos := 0 |}.
Proof.
  eexists (nm (str "arr") [65536]), _. split; [apply valid_tagb_sound; vm_compute; reflexivity|]. split; [vm_compute; reflexivity|].
  split; [vm_compute; reflexivity|]. split; [reflexivity|]. split; [vm_compute; discriminate|].
  apply C01_tag_name_encoding; [apply valid_tagb_sound; vm_compute; reflexivity|reflexivity].
Qed.
Print Assumptions C123_element_refuted.
