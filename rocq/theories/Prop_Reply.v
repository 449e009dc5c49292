(** * C105: replies name what they answer *)
From Verif Require Import GoBase SegModel IoiModel ItemsModel ItemsSpec ItemsProof TypesModel WriteModel ReadModel ReadProof EipModel EipSpec OpenModel TableModel ProvModel
  SrvModel SrvSpec SrvProof ReqProof BrowseProof Prop_Srv RouteSpec Prop_Route SendSpec SendProof Prop_Send ReplySpec ReplyProof.

(** ** C105

    Full statement: a reply is addressed to the connection its request came over,
    and carries the request's sequence count and its service; an unconnected reply
    carries the service of the request, or of the message in an Unconnected Send.

    Proved: of unconnected requests whole ([C105_unconnected]); of reads and
    multi-service requests, whatever they contain, whole, and of other connected
    requests when the connection is the one opened last on that TCP connection
    ([C105_connected_partial], [C105_last_opened]).  False: writes, identity and
    tag-list requests over an older connection are answered to the newer one
    ([C105_address_refuted]); Get Attribute Single is answered as a fragmented
    read ([C105_attribute_service], [C105_service_refuted]). *)
Theorem C105_connected_partial : forall s h sent rest ot to seq svc r session status context options six,
  0 <= ot < 2 ^ 32 -> 0 <= seq < 2 ^ 16 -> 0 <= svc < 256 -> listens s ot to -> length six = 6%nat ->
  svc <> 0x0E -> (h_to h = to \/ svc = 0x4C \/ svc = 0x52 \/ svc = 0x0A) ->
  let f := item_frame 0x70 session status context options six [(0xA1, le 4 ot); (0xB1, le 2 seq ++ svc :: r)] in
  frame_ok f ->
  exists fs, w_sent (snd (serve_one (World s h (frame_bytes f ++ rest) sent))) = sent ++ fs /\ Forall (over_connection to seq svc) fs.
Proof.
  intros s h sent rest ot to seq svc r session status context options six Ho Hq Hs L L6 N T f O.
  pose proof (item_sizes session status context options six) as Sz.
  assert (F : fits [(0xA1, le 4 ot); (0xB1, le 2 seq ++ svc :: r)]).
  { split; [cbn; lia|]. apply Forall_cons; [cbn; lia|]. apply Forall_cons; [|apply Forall_nil]. split; [cbn; lia|]. apply (Sz _ _ O). cbn; auto. }
  rewrite (serve_unit (World s h (frame_bytes f ++ rest) sent) session status context options six _ rest O F L6 eq_refl).
  unfold with_context. cbn [w_srv w_h w_sent]. set (h' := Handler _ _ _ _ _ _).
  assert (T' : h_to h' = to \/ svc = 0x4C \/ svc = 0x52 \/ svc = 0x0A) by exact T. clearbody h'.
  enough (G : says (over_connection to seq svc) (World s h' rest sent) (unit_items (map mk [(0xA1, le 4 ot); (0xB1, le 2 seq ++ svc :: r)]) (World s h' rest sent))) by exact G.
  unfold unit_items. cbn [map]. rewrite !mk_data. cbn [snd].
  change (negb (it_id (mk (0xA1, le 4 ot)) =? item_connaddr)) with false. cbv iota.
  apply says_lift. intros [x r1] _.
  rewrite (rd_app 2 (le 2 seq)) by apply le_length. erewrite lift_ok by reflexivity. cbv beta iota zeta.
  rewrite unle_le_small by lia. apply says_put_h0. cbn [w_h w_srv w_in w_sent]. set (w := World _ _ _ _).
  erewrite lift_ok by apply rd_cons1. cbv beta iota zeta. rewrite unle1.
  assert (Lw : listens (w_srv w) ot to) by exact L.
  assert (R : svc <> 0x4C -> svc <> 0x52 -> svc <> 0x0A -> h_to (w_h w) = to) by (intros; cbn; tauto).
  assert (Q : h_seq (w_h w) = seq) by reflexivity.
  destruct (Z.eqb_spec svc svc_write) as [->|N1].
  { rewrite <- R by discriminate. rewrite <- Q. apply write_says. }
  destruct (Z.eqb_spec svc svc_fragread) as [->|N2]; [apply read_says; assumption|].
  destruct (Z.eqb_spec svc svc_read) as [->|N3]; [apply read_says; assumption|]. cbn [orb].
  destruct (Z.eqb_spec svc svc_multi) as [->|N4]; [apply multi_says; assumption|].
  destruct (Z.eqb_spec svc svc_get_single) as [->|N5]; [contradiction|].
  rewrite <- R by assumption. rewrite <- Q.
  destruct (Z.eqb_spec svc svc_get_all) as [->|N6]; [apply get_all_says; intros; apply unit_reply_says|].
  destruct (Z.eqb_spec svc svc_list) as [->|N7]; [apply symbols_says|]. apply unit_reply_says.
Qed.
Print Assumptions C105_connected_partial.

Theorem C105_unconnected : forall s h sent rest d svc session status context options six,
  asks_for d svc -> length six = 6%nat ->
  let f := item_frame 0x6F session status context options six [(0, []); (0xB2, d)] in
  frame_ok f ->
  exists fs, w_sent (snd (serve_one (World s h (frame_bytes f ++ rest) sent))) = sent ++ fs /\ Forall (unconnected_answer svc) fs.
Proof.
  intros s h sent rest d svc session status context options six A L6 f O.
  assert (F : fits [(0, []); (0xB2, d)]) by (apply fits_rr; apply (item_sizes _ _ _ _ _ _ _ O (0xB2, d)); cbn; auto).
  rewrite (serve_rr (World s h (frame_bytes f ++ rest) sent) session status context options six _ rest O F L6 eq_refl).
  rewrite rr_unconnected. apply (unconnected_says d svc (with_context (World s h (frame_bytes f ++ rest) sent) context rest) A).
Qed.
Print Assumptions C105_unconnected.

(** After a forward open is answered the handler's connection is the new one, the
    one its reply names. *)
Theorem C105_last_opened : forall s h sent rest svc r v session status context options six,
  svc = 0x54 \/ svc = 0x5B -> length six = 6%nat ->
  let f := item_frame 0x6F session status context options six [(0, []); (0xB2, svc :: r)] in
  frame_ok f -> serve_one (World s h (frame_bytes f ++ rest) sent) = (Ok tt, v) ->
  exists g, w_sent v = sent ++ [g] /\ firstn 4 (skipn 48 g) = le 4 (h_to (w_h v)) /\
  exists cn, nth_error (cm_heap (sv_cm (w_srv v))) (length (cm_heap (sv_cm s))) = Some cn /\ sc_to cn = h_to (w_h v) /\ sc_ot cn = h_ot (w_h v).
Proof.
  intros s h sent rest svc r v session status context options six Sv L6 f O E.
  assert (F : fits [(0, []); (0xB2, svc :: r)]) by (apply fits_rr; apply (item_sizes _ _ _ _ _ _ _ O (0xB2, svc :: r)); cbn; auto).
  rewrite (serve_rr (World s h (frame_bytes f ++ rest) sent) session status context options six _ rest O F L6 eq_refl) in E.
  rewrite rr_unconnected in E. set (w := with_context _ _ _) in E.
  assert (exists large, fwd_open large (svc :: r) w = (Ok tt, v)) as [large R] by (destruct Sv as [->| ->]; [exists false|exists true]; exact E).
  destruct (open_run large svc r w v R) as (g & ot & to & d & cn & S & H1 & H2 & B & C & A1 & A2).
  destruct (build_bytes (h_handle (w_h v)) (h_context (w_h v)) (h_options (w_h v)) 0x6F (0, []) (0xB2, [as_response svc; 0; 0; 0] ++ le 4 ot ++ le 4 to ++ d)) as (hd & l & X & L).
  exists g. split; [exact S|]. split.
  - rewrite B, X, H2. cbn [fst snd].
    rewrite (app_assoc (le 2 0x6F ++ hd)), (app_assoc (_ ++ _) (le 2 0xB2 ++ le 2 l)), (app_assoc (_ ++ _) [as_response svc; 0; 0; 0]), (app_assoc (_ ++ _) (le 4 ot)).
    rewrite skip_all by (rewrite !app_length, !le_length, L; reflexivity). apply first_all. apply le_length.
  - exists cn. rewrite H1, H2. auto.
Qed.
Print Assumptions C105_last_opened.

(** Get Attribute Single over a connection is always answered as service 0x52. *)
Theorem C105_attribute_service : forall s h sent rest ot to seq r session status context options six,
  0 <= ot < 2 ^ 32 -> 0 <= seq < 2 ^ 16 -> listens s ot to -> length six = 6%nat ->
  let f := item_frame 0x70 session status context options six [(0xA1, le 4 ot); (0xB1, le 2 seq ++ 0x0E :: r)] in
  frame_ok f ->
  exists fs, w_sent (snd (serve_one (World s h (frame_bytes f ++ rest) sent))) = sent ++ fs /\ Forall (over_connection to seq 0x52) fs.
Proof.
  intros s h sent rest ot to seq r session status context options six Ho Hq L L6 f O.
  assert (F : fits [(0xA1, le 4 ot); (0xB1, le 2 seq ++ 0x0E :: r)]).
  { split; [cbn; lia|]. apply Forall_cons; [cbn; lia|]. apply Forall_cons; [|apply Forall_nil]. split; [cbn; lia|]. apply (item_sizes _ _ _ _ _ _ _ O). cbn; auto. }
  rewrite (serve_unit (World s h (frame_bytes f ++ rest) sent) session status context options six _ rest O F L6 eq_refl).
  unfold with_context. cbn [w_srv w_h w_sent]. set (h' := Handler _ _ _ _ _ _).
  enough (G : says (over_connection to seq 0x52) (World s h' rest sent) (unit_items (map mk [(0xA1, le 4 ot); (0xB1, le 2 seq ++ 0x0E :: r)]) (World s h' rest sent))) by exact G.
  unfold unit_items. cbn [map]. rewrite !mk_data. cbn [snd].
  change (negb (it_id (mk (0xA1, le 4 ot)) =? item_connaddr)) with false. cbv iota.
  apply says_lift. intros [x r1] _.
  rewrite (rd_app 2 (le 2 seq)) by apply le_length. erewrite lift_ok by reflexivity. cbv beta iota zeta.
  rewrite unle_le_small by lia. apply says_put_h0. cbn [w_h w_srv w_in w_sent].
  erewrite lift_ok by apply rd_cons1. cbv beta iota zeta. rewrite unle1.
  change (0x0E =? svc_write) with false. change ((0x0E =? svc_fragread) || (0x0E =? svc_read)) with false.
  change (0x0E =? svc_multi) with false. change (0x0E =? svc_get_single) with true. cbv iota.
  apply get_attr_says; assumption.
Qed.
Print Assumptions C105_attribute_service.

(** A client opens two connections over one TCP connection and writes over the
    first: the answer goes to the second. *)
Definition opening_as (ot to : Z) : bytes :=
  Prop_Srv.unconnected ([0x54; 2; 0x20; 6; 0x24; 1; 5; 10] ++ le 4 ot ++ le 4 to ++ le 2 ot ++ le 2 42 ++ le 4 43 ++ le 4 0 ++ le 4 1000 ++ le 2 500 ++
    le 4 1000 ++ le 2 500 ++ [0xA3; 3; 1; 0; 0x20; 2; 0x24; 1]).
Definition addresses (s : site) : list (list bytes) := map (fun p => map (fun f => firstn 8 (skipn 32 f)) (pe_sent p)) (si_peers s).
Theorem C105_address_refuted : exists s, s = two_site 9 [opening_as 101 201 ++ opening_as 102 202 ++ over 101 write_speed ++ over 101 read_speed] /\
  listens (si_srv (happens s [Turn 0; Turn 0])) 101 201 /\ listens (si_srv (happens s [Turn 0; Turn 0])) 102 202 /\
  nth_error (addresses (happens s [Turn 0; Turn 0; Turn 0; Turn 0])) 0 =
    Some [[0; 0; 0; 0; 0xB2; 0; 30; 0]; [0; 0; 0; 0; 0xB2; 0; 30; 0]; [0xA1; 0; 4; 0; 202; 0; 0; 0]; [0xA1; 0; 4; 0; 201; 0; 0; 0]].
Proof.
  eexists. split; [reflexivity|]. split; [eexists; split; vm_compute; reflexivity|]. split; [eexists; split; vm_compute; reflexivity|].
  vm_compute. reflexivity.
Qed.
Print Assumptions C105_address_refuted.

Definition get_vendor : bytes := [0x0E; 3; 0x20; 1; 0x24; 1; 0x30; 1].
Theorem C105_service_refuted : exists s f, s = two_site 9 [over 5 get_vendor] /\ listens (si_srv s) 5 6 /\
  map pe_sent (si_peers (happens s [Turn 0])) = [[f]] /\ over_connection 6 9 0x52 f /\ ~ over_connection 6 9 0x0E f.
Proof.
  eexists; eexists. split; [reflexivity|]. split; [eexists; split; vm_compute; reflexivity|].
  split; [vm_compute; reflexivity|]. split; [constructor; reflexivity|]. intros [_ _ _ H]. discriminate H.
Qed.
Print Assumptions C105_service_refuted.

(** Hypotheses met: a read and a write over the connection opened last, and an
    Unconnected Send. *)
Example ex_C105 : let s := happens (two_site 9 [opening_as 101 201 ++ over 101 write_speed ++ of_send read_speed [1; 0]]) [Turn 0] in
  listens (si_srv s) 101 201 /\ map (fun p => h_to (pe_h p)) (si_peers s) = [201] /\
  asks_for (unconnected_send [5; 10] read_speed [1; 0]) 0x4C /\
  nth_error (addresses (happens s [Turn 0; Turn 0])) 0 =
    Some [[0; 0; 0; 0; 0xB2; 0; 30; 0]; [0xA1; 0; 4; 0; 201; 0; 0; 0]; [0; 0; 0; 0; 0xB2; 0; 10; 0]].
Proof.
  cbv zeta. split; [eexists; split; vm_compute; reflexivity|]. split; [vm_compute; reflexivity|].
  split; [|vm_compute; reflexivity].
  apply (af_inside 2 [0x20; 6; 0x24; 1] [5; 10; 12; 0] 0x4C); reflexivity.
Qed.
