(** * C104: Unconnected Send and connected requests *)
From Verif Require Import GoBase IoiModel ItemsModel TypesModel WriteModel ReadModel SegModel ItemsSpec ItemsProof EipModel EipSpec OpenModel TableModel ProvModel ProvProof ProvSpec SrvModel SrvSpec
  SrvProof ReqProof BrowseProof Prop_Srv RouteSpec RouteProof Prop_Route SendSpec SendProof.

(** ** C104

    Full statement: a read or write sent in an Unconnected Send does what it does
    over a connection to the same route: the same tags change in the same way, and
    the reply has the same contents.  When it cannot be done the sender is told.

    Proved of requests of even length ([C104_same_partial]): the server goes on, ends
    the TCP connection or crashes alike, its whole state afterwards is the same, and
    replies have the same contents after the 46 and 40 bytes in front of them; when
    the request cannot be done nothing at all is sent.  False: of odd length
    ([C104_odd_refuted], [C104_odd_fails]), the byte that makes it even is taken for the size of the
    route; and a read of a missing tag is answered over a connection but not in an
    Unconnected Send ([C104_told_refuted]). *)
Theorem C104_same_partial : forall s h sent rest ot route seq tick m session status context options six,
  request m -> Z.even (len m) = true -> 0 <= ot < 2 ^ 32 -> connected_to s ot route -> Z.even (len route) = true -> len route < 512 ->
  length tick = 2%nat -> length six = 6%nat ->
  let connected := item_frame 0x70 session status context options six [(0xA1, le 4 ot); (0xB1, le 2 seq ++ m)] in
  let unconnected := item_frame 0x6F session status context options six [(0, []); (0xB2, unconnected_send tick m route)] in
  frame_ok connected -> frame_ok unconnected ->
  let '(r1, v1) := serve_one (World s h (frame_bytes connected ++ rest) sent) in
  let '(r2, v2) := serve_one (World s h (frame_bytes unconnected ++ rest) sent) in
  r2 = r1 /\ w_srv v2 = w_srv v1 /\ w_in v2 = w_in v1 /\
  (r1 = Ok tt -> exists h1 h2 body, length h1 = 46%nat /\ length h2 = 40%nat /\
     w_sent v1 = sent ++ [h1 ++ body] /\ w_sent v2 = sent ++ [h2 ++ body]) /\
  (r1 <> Ok tt -> w_sent v2 = sent).
Proof.
  intros s h sent rest ot route seq tick m session status context options six Rq Em Ho C Er Lr Lt L6 f1 f2 O1 O2.
  pose proof (item_sizes session status context options six) as Sz.
  assert (F1 : fits [(0xA1, le 4 ot); (0xB1, le 2 seq ++ m)]).
  { split; [cbn; lia|]. apply Forall_cons; [cbn; lia|]. apply Forall_cons; [|apply Forall_nil]. split; [cbn; lia|]. apply (Sz _ _ O1). cbn; auto. }
  assert (F2 : fits [(0, []); (0xB2, unconnected_send tick m route)]) by (apply fits_rr; apply (Sz _ _ O2 (0xB2, unconnected_send tick m route)); cbn; auto).
  rewrite (serve_unit (World s h (frame_bytes f1 ++ rest) sent) session status context options six _ rest O1 F1 L6 eq_refl).
  rewrite (serve_rr (World s h (frame_bytes f2 ++ rest) sent) session status context options six _ rest O2 F2 L6 eq_refl). clear Sz O1 O2 F1 F2.
  rewrite rr_unconnected. unfold with_context. cbn [w_srv w_h w_sent].
  set (h' := Handler _ _ _ _ _ _). set (h1 := Handler (h_handle h') (h_options h') (h_context h') (h_ot h') (h_to h') (seq mod 65536)).
  assert (Pw : paired sent (World s h1 rest sent) (World s h' rest sent)) by (repeat split).
  enough (G : same_way sent (unit_items (map mk [(0xA1, le 4 ot); (0xB1, le 2 seq ++ m)]) (World s h' rest sent))
    (unconnected_data (unconnected_send tick m route) (World s h' rest sent))).
  { revert G. destruct (unit_items _ _) as [r1 v1], (unconnected_data _ _) as [r2 v2]. unfold same_way. cbn [fst snd]. intro G. exact G. }
  assert (D : forall svc r, m = svc :: r ->
    unconnected_data (unconnected_send tick m route) (World s h' rest sent) =
    embedded svc (r ++ [len route / 2; 0] ++ route) (World s h' rest sent)).
  { intros svc r Em'. rewrite (carried_data tick m route svc r _ Em' Lt). rewrite <- Z.negb_even, Em. reflexivity. }
  destruct Rq as [l p lo hi P N1 N2 N3|l p t info n z vals P V Ln N0 Lv].
  - rewrite (D _ _ eq_refl). change (0x4C :: l :: p ++ [lo; hi]) with ([0x4C; l] ++ p ++ [lo; hi]). rewrite (unit_pair ot seq 0x4C l) by lia. cbv zeta.
    change (0x4C =? svc_write) with false. change ((0x4C =? svc_fragread) || (0x4C =? svc_read)) with true. cbv iota.
    change (embedded 0x4C ?x) with (unconnected_read x).
    replace ((l :: p ++ [lo; hi]) ++ [len route / 2; 0] ++ route) with ([l] ++ p ++ [lo; hi] ++ [len route / 2; 0] ++ route) by (cbn [app]; now rewrite <- app_assoc).
    apply read_same; try assumption; [|apply le_length]. cbn. auto.
  - rewrite (D _ _ eq_refl). change (0x4D :: l :: p ++ t :: len info :: info ++ n ++ vals) with ([0x4D; l] ++ p ++ t :: len info :: info ++ n ++ vals).
    rewrite (unit_pair ot seq 0x4D l) by lia. cbv zeta.
    change (0x4D =? svc_write) with true. cbv iota. change (embedded 0x4D ?x) with (unconnected_write x).
    replace ((l :: p ++ t :: len info :: info ++ n ++ vals) ++ [len route / 2; 0] ++ route)
      with ([l] ++ p ++ t :: len info :: info ++ n ++ vals ++ [len route / 2; 0] ++ route)
      by (cbn [app]; rewrite <- !app_assoc; cbn [app]; now rewrite <- !app_assoc).
    change (l :: p ++ ?x) with ([l] ++ p ++ x).
    apply (write_same sent p t info n z vals l ot route (World s h1 rest sent) (World s h' rest sent)); assumption.
Qed.
Print Assumptions C104_same_partial.

(** Requests of odd length, to any route of up to 127 words: never done, never
    answered. *)
Theorem C104_odd_fails : forall s h sent rest route tick m session status context options six,
  request m -> Z.odd (len m) = true -> Z.even (len route) = true -> 0 < len route < 256 -> length tick = 2%nat -> length six = 6%nat ->
  let f := item_frame 0x6F session status context options six [(0, []); (0xB2, unconnected_send tick m route)] in
  frame_ok f ->
  let '(r, v) := serve_one (World s h (frame_bytes f ++ rest) sent) in
  r <> Ok tt /\ w_srv v = s /\ w_sent v = sent.
Proof.
  intros s h sent rest route tick m session status context options six Rq Om Er Lr Lt L6 f O.
  pose proof (item_sizes session status context options six) as Sz.
  assert (F : fits [(0, []); (0xB2, unconnected_send tick m route)]) by (apply fits_rr; apply (Sz _ _ O (0xB2, unconnected_send tick m route)); cbn; auto).
  rewrite (serve_rr (World s h (frame_bytes f ++ rest) sent) session status context options six _ rest O F L6 eq_refl).
  rewrite rr_unconnected. set (w := with_context _ _ _).
  enough (G : fails_quietly w (unconnected_data (unconnected_send tick m route) w)).
  { revert G. destruct (unconnected_data _ _) as [r v]. unfold fails_quietly. cbn [fst snd]. intros (A & B & C & _). auto. }
  destruct Rq as [l p lo hi P N1 N2 N3|l p t info n z vals P V Ln N0 Lv].
  - rewrite (carried_data tick _ route _ _ _ eq_refl Lt). rewrite Om.
    change (embedded 0x4C ?x) with (unconnected_read x).
    replace ((l :: p ++ [lo; hi]) ++ [0] ++ [len route / 2; 0] ++ route) with ([l] ++ p ++ [lo; hi] ++ [0; len route / 2] ++ 0 :: route) by (cbn [app]; now rewrite <- app_assoc).
    apply read_odd; try assumption. cbn. auto.
  - rewrite (carried_data tick _ route _ _ _ eq_refl Lt). rewrite Om.
    change (embedded 0x4D ?x) with (unconnected_write x).
    replace ((l :: p ++ t :: len info :: info ++ n ++ vals) ++ [0] ++ [len route / 2; 0] ++ route)
      with ([l] ++ p ++ t :: len info :: info ++ n ++ vals ++ [0; len route / 2] ++ 0 :: route)
      by (cbn [app]; rewrite <- !app_assoc; cbn [app]; now rewrite <- !app_assoc).
    apply (write_odd p t info n z vals l route w); assumption.
Qed.
Print Assumptions C104_odd_fails.

(** A tag at route 1,0, connection 5 to it.  The same one-byte value: over the
    connection it is written, in an Unconnected Send the TCP connection ends and
    the tag keeps its value. *)
Definition of_send (m route : bytes) : bytes := Prop_Srv.unconnected (unconnected_send [5; 10] m route).
Definition write_byte : bytes := [0x4D; 4] ++ speed_path ++ [0xC2; 0; 1; 0; 33].
Definition open_peers (s : site) : list bool := map pe_open (si_peers s).
Definition answers (s : site) : list (list bytes) := map (fun p => map (skipn 40) (pe_sent p)) (si_peers s).
Theorem C104_odd_refuted : exists m s t, request m /\ Z.odd (len m) = true /\ connected_to (si_srv s) 5 [1; 0] /\
  s = two_site 9 [over 5 m] /\ t = two_site 9 [of_send m [1; 0]] /\
  speeds (happens s [Turn 0]) = [Some (PV (GInt true 1 33)); Some (PV (GInt true 4 9))] /\ open_peers (happens s [Turn 0]) = [true] /\
  speeds (happens t [Turn 0]) = [Some (PV (GInt true 4 7)); Some (PV (GInt true 4 9))] /\ open_peers (happens t [Turn 0]) = [false] /\
  answers (happens t [Turn 0]) = [[]].
Proof.
  exists write_byte, (two_site 9 [over 5 write_byte]), (two_site 9 [of_send write_byte [1; 0]]).
  split. { apply (rq_write 4 speed_path 0xC2 [] [1; 0] 1 [33]); try reflexivity; [|vm_compute; discriminate]. apply (tp_symbol (str "speed") [0] []); [vm_compute; reflexivity|reflexivity|constructor]. }
  split; [reflexivity|]. split. { eexists. split; vm_compute; reflexivity. }
  split; [reflexivity|]. split; [reflexivity|]. repeat split; vm_compute; reflexivity.
Qed.
Print Assumptions C104_odd_refuted.

(** Reading a tag that is not there: over a connection the client learns it with
    status 0x28, in an Unconnected Send it gets nothing. *)
Definition read_missing : bytes := [0x4C; 2; 0x91; 2; 110; 111; 1; 0].
Theorem C104_told_refuted : exists s t, request read_missing /\ Z.even (len read_missing) = true /\ connected_to (si_srv s) 5 [1; 0] /\
  s = two_site 9 [over 5 read_missing] /\ t = two_site 9 [of_send read_missing [1; 0]] /\
  answers (happens s [Turn 0]) = [[[0xB1; 0; 6; 0; 9; 0; 0xCC; 0; 0x28; 0]]] /\ answers (happens t [Turn 0]) = [[]] /\
  open_peers (happens s [Turn 0]) = [false] /\ open_peers (happens t [Turn 0]) = [false].
Proof.
  exists (two_site 9 [over 5 read_missing]), (two_site 9 [of_send read_missing [1; 0]]).
  split. { apply (rq_read 2 [0x91; 2; 110; 111] 1 0); try discriminate. apply (tp_symbol [110; 111] [] []); [vm_compute; reflexivity|reflexivity|constructor]. }
  split; [reflexivity|]. split. { eexists. split; vm_compute; reflexivity. }
  split; [reflexivity|]. split; [reflexivity|]. repeat split; vm_compute; reflexivity.
Qed.
Print Assumptions C104_told_refuted.

(** The theorem at work: a read and a write of "speed" both ways. *)
Example ex_C104 : request read_speed /\ Z.even (len read_speed) = true /\ request write_speed /\ Z.even (len write_speed) = true /\
  let by_conn m := two_site 9 [over 5 m] in let by_send m := two_site 9 [of_send m [1; 0]] in
  answers (happens (by_conn read_speed) [Turn 0]) = [[[0xB1; 0; 12; 0; 9; 0; 0xCC; 0; 0; 0; 0xC4; 0; 7; 0; 0; 0]]] /\
  answers (happens (by_send read_speed) [Turn 0]) = [[[0xCC; 0; 0; 0; 0xC4; 0; 7; 0; 0; 0]]] /\
  speeds (happens (by_conn write_speed) [Turn 0]) = [Some (PV (GInt true 4 33)); Some (PV (GInt true 4 9))] /\
  speeds (happens (by_send write_speed) [Turn 0]) = [Some (PV (GInt true 4 33)); Some (PV (GInt true 4 9))] /\
  answers (happens (by_send write_speed) [Turn 0]) = [[[0xCD; 0; 0; 0]]].
Proof.
  assert (T : tag_path speed_path) by (apply (tp_symbol (str "speed") [0] []); [vm_compute; reflexivity|reflexivity|constructor]).
  split. { apply (rq_read 4 speed_path 1 0); try discriminate. exact T. }
  split; [reflexivity|].
  split. { apply (rq_write 4 speed_path 0xC4 [] [1; 0] 4 [33; 0; 0; 0]); try reflexivity; [exact T|vm_compute; discriminate]. }
  split; [reflexivity|]. repeat split; vm_compute; reflexivity.
Qed.
