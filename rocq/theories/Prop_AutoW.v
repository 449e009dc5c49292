(** * C129: writes with AutoConnect *)
From Verif Require Import GoBase IoiModel IoiSpec IoiProof ItemsModel TypesModel ItemsSpec ItemsProof ReadModel ReadSpec ReadProof Prop_Read WriteModel WriteSpec WriteProof
  EipModel EipSpec OpenModel OpenSpec OpenProof TableModel TableSpec TableProof SrvValModel SrvValSpec SrvValProof ProvModel ProvSpec ProvProof Prop_SrvVal SrvModel SrvSpec
  SrvProof Prop_Srv ReqSpec LinkModel ReqProof Prop_Req MeetModel MeetSpec MeetProof Prop_Meet AgainSpec Prop_Again AutoModel AutoSpec AutoProof Prop_Auto.

(** What a write comes to at the server. *)
Lemma got_write s h c q tg ty e d : 0 <= s_handle c < 2 ^ 32 -> 0 <= s_context c < 2 ^ 64 -> len (encode tg) < 512 -> len (ty ++ le 2 e ++ d) < 64000 ->
  got s h c (write_request (s_otid c) q (write_service (encode tg) ty e d)) =
  connected_write (le 4 (s_otid c)) ([len (encode tg) / 2] ++ encode tg ++ ty ++ le 2 e ++ d)
    (World s (Handler (h_handle h) (h_options h) (s_context c) (h_ot h) (h_to h) (q mod 65536)) [] []).
Proof.
  intros Hs Hc L Lb. pose proof (len_nonneg (encode tg)). unfold write_request, write_service.
  rewrite got_unit; [|exact Hs|exact Hc| |].
  - rewrite unit_pair by lia. cbv zeta. change (0x4D =? svc_write) with true. cbv iota. reflexivity.
  - apply fits_pair; [rewrite le_len; lia|]. rewrite !len_app, !le_len, !len_cons in *. change (len (@nil Z)) with 0. lia.
  - rewrite len_app, wire_pair_len, !len_app, !le_len, !len_cons in *. change (len (zeros 6)) with 6. change (len (@nil Z)) with 0. lia.
Qed.
(** Without an answer both sides are done with the TCP connection. *)
Lemma over_ended c sh req e w : got (fst sh) (snd sh) c req = (Err e, w) -> w_sent w = [] ->
  over_wire c (Wire sh true true) req = (Err EEof, Wire (w_srv w, w_h w) false false).
Proof. intros G S. unfold over_wire. cbn [wr_up wr_tcp wr_sh negb]. unfold got in G. rewrite G, S. reflexivity. Qed.

(** Values a client can write, given to the server as they are. *)
Definition plain (v : wvalue) (ty : bytes) (e : Z) (d : bytes) : Prop :=
  WriteSpec.carries v ty e d /\ Forall representable (given_values v) /\ given_values v <> [] /\ (forall l, v = WMany KString l -> len l <= 1) /\
  len (ty ++ le 2 e ++ d) < 64000.

Lemma over_write c sh i q tg v ty e d : linked (s_handle c) (s_context c) (s_otid c) i sh -> addressed tg -> len (encode tg) < 512 -> plain v ty e d ->
  exists x, others_same i (fst sh) (fst (wr_sh x)) /\
   ((exists p, over_wire c (Wire sh true true) (write_request (s_otid c) q (write_service (encode tg) ty e d)) = (Ok (0, p), x) /\ write_answer p 0 /\
      writes (behind i sh) (text tg) (as_given (given_values v)) (behind i (wr_sh x)) /\ wr_tcp x = true /\ wr_up x = true) \/
    (over_wire c (Wire sh true true) (write_request (s_otid c) q (write_service (encode tg) ty e d)) = (Err EEof, x) /\
      (forall m, ~ writes (behind i sh) (text tg) (as_given (given_values v)) m) /\ wr_up x = false /\
      forall k, behind i (wr_sh x) k = behind i sh k)).
Proof.
  intros (Hh & Hc & Ho & Hk & (to & Ld) & Sp) Ad Lt (C & R & NE & Ns & Lb).
  destruct (C43_values_partial v ty e d [] C R Ns) as (left & Ep & _). rewrite app_nil_r in Ep.
  destruct (carries_first v ty e d C) as (b & r & Et & Hb).
  pose proof (got_write (fst sh) (snd sh) c q tg ty e d Hh Hc Lt Lb) as G. set (w0 := World _ _ _ _) in G.
  assert (Et2 : ty ++ le 2 e ++ d = b :: (r ++ le 2 e ++ d)) by (rewrite Et; reflexivity). rewrite Et2 in G, Ep.
  pose proof (connected_write_parsed (s_otid c) tg b _ (given_values v) left to i w0 Ho Ld Sp Ad Hb Ep (carries_not_nil _ _ _ _ C) NE) as W.
  destruct (connected_write _ _ w0) as [[u|er| |] w']; try contradiction.
  - destruct W as (w1 & W1 & W2 & W3 & W4). pose proof W3 as (E1 & E2 & E3 & E4 & E5 & E6 & E7).
    destruct u. rewrite W4 in G. destruct w1 as [s1 h1 i1 o1]. cbn [w_srv w_h w_in w_sent w0] in *. subst h1 i1 o1.
    assert (F : fits [(0xA1, le 4 (h_to (snd sh))); (0xB1, le 2 (q mod 65536) ++ [0xCD; 0; 0; 0])]).
    { apply fits_pair; [rewrite le_len; lia|]. rewrite len_app, le_len. vm_compute. reflexivity. }
    assert (G2 : got (fst sh) (snd sh) c (write_request (s_otid c) q (write_service (encode tg) ty e d)) =
      (Ok tt, snd (send 0x70 (serialize_items (map mk [(0xA1, le 4 (h_to (snd sh))); (0xB1, le 2 (q mod 65536) ++ [0xCD; 0; 0; 0])]))
        (World s1 (Handler (h_handle (snd sh)) (h_options (snd sh)) (s_context c) (h_ot (snd sh)) (h_to (snd sh)) (q mod 65536)) [] [])))) by exact G.
    assert (L : len (zeros 6 ++ wire_list [(0xA1, le 4 (h_to (snd sh))); (0xB1, le 2 (q mod 65536) ++ [0xCD; 0; 0; 0])]) < 2 ^ 16).
    { rewrite len_app, wire_pair_len, len_app, !le_len. vm_compute. reflexivity. }
    pose proof (over_sent c sh _ _ _ _ _ _ G2 (or_introl eq_refl) ltac:(exact Hk) ltac:(exact Hc) F L) as O.
    eexists. split; [|left; eexists; split; [exact O|]].
    + exact (conj E4 (conj E5 (conj E6 E7))).
    + split; [|split; [exact W1|split; reflexivity]].
      exists (zeros 6), (0xA1, le 4 (h_to (snd sh))), 0xB1, (le 2 (q mod 65536)), 0xCD, 0, 0, [], [], [].
      split; [reflexivity|]. split; [apply le_length|]. split; [exact F|reflexivity].
  - destruct W as (O & S' & N & Sh). pose proof O as (E1 & E2 & E3 & E4 & E5 & E6 & E7).
    pose proof (over_ended c sh _ er w' G ltac:(rewrite E3; reflexivity)) as Ov.
    eexists. split; [|right; split; [exact Ov|]].
    + exact (conj E4 (conj E5 (conj E6 E7))).
    + split; [exact N|]. split; [reflexivity|exact Sh].
Qed.

Lemma over_unlinked c sh q tg v ty e d : over_ok c -> addressed tg -> len (encode tg) < 512 -> plain v ty e d -> conn_by_ot (fst sh) (s_otid c) = Err EMsg ->
  exists h1, over_wire c (Wire sh true true) (write_request (s_otid c) q (write_service (encode tg) ty e d)) = (Err EEof, Wire (fst sh, h1) false false).
Proof.
  intros (Hh & Hc & Ho) Ad Lt (C & R & NE & Ns & Lb) Ec.
  destruct (C43_values_partial v ty e d [] C R Ns) as (left & Ep & _). rewrite app_nil_r in Ep.
  destruct (carries_first v ty e d C) as (b & r & Et & Hb).
  pose proof (got_write (fst sh) (snd sh) c q tg ty e d Hh Hc Lt Lb) as G. set (w0 := World _ _ _ _) in G.
  assert (Et2 : ty ++ le 2 e ++ d = b :: (r ++ le 2 e ++ d)) by (rewrite Et; reflexivity). rewrite Et2 in G, Ep.
  assert (E : connected_write (le 4 (s_otid c)) ([len (encode tg) / 2] ++ encode tg ++ b :: r ++ le 2 e ++ d) w0 = (Err EMsg, w0)).
  { unfold connected_write. cbn [app]. erewrite lift_ok by apply rd_cons1. cbv beta iota.
    erewrite lift_ok by (apply addressed_path; [exact Ad|exact Hb]). cbv beta iota. erewrite lift_ok by exact Ep. cbv beta iota.
    erewrite lift_ok by (rewrite <- (app_nil_r (le 4 (s_otid c))); apply rd_app; apply le_length). cbv beta iota.
    unfold bindM at 1, ask. rewrite unle_le_small by (cbn; lia). cbn [w0 w_srv]. rewrite Ec. reflexivity. }
  rewrite E in G. eexists. exact (over_ended c sh _ _ _ G eq_refl).
Qed.

(** A write the client can make: a name it knows, a value it can send. *)
Definition able (ops : list cl_op) (tg : tag) (v : wvalue) : Prop := named ops tg /\ addressed tg /\ exists ty e d, plain v ty e d.

Lemma request_len otid q tg ty e d : len (encode tg) < 512 -> len (ty ++ le 2 e ++ d) < 64000 -> len (write_request otid q (write_service (encode tg) ty e d)) < 2 ^ 16.
Proof.
  intros L Lb. unfold write_request, write_service. rewrite len_app, wire_pair_len, !len_app, !le_len, !len_cons in *. change (len (zeros 6)) with 6. change (len (@nil Z)) with 0. lia.
Qed.

(** Full statement: a Write of a client with AutoConnect that returns nil was done,
    at the tag named and nowhere else; one that returns an error was not done at
    all, and the client is ready for the next call.  Proved for numbers, texts and
    slices of numbers if all clients of the server use one route. *)
Theorem C129_write_partial : forall hop i s0 a ops tg v now q r b, in_order hop i s0 -> among hop s0 a -> able ops tg v ->
  auto_write (cl_run ops) now q (text tg) v a = (r, b) ->
  among hop s0 b /\
  ((r = Ok tt /\ done i a (text tg) (as_given (given_values v)) b /\ wr_up (a_wire b) = true /\ wr_tcp (a_wire b) = true) \/
   (failed r /\ undone a b /\ wr_up (a_wire b) = false /\ (wr_up (a_wire a) = false -> forall m, ~ writes (tags i a) (text tg) (as_given (given_values v)) m))).
Proof.
  intros hop i s0 a ops tg v now q r b I0 (V & Vc & Ho & Hh) (N & Ad & ty & e & d & P) E. destruct a as [c [sh tcp up]]. cbn [a_session a_wire wr_sh wr_up wr_tcp] in *.
  pose proof (visits_order hop i s0 _ I0 V) as In. pose proof Vc as (Vs & Vh & Vx & Vr & Vn & Vp). pose proof P as (C & _ & _ & _ & Lb).
  pose proof (proj2 (proj2 N)) as Nl. assert (Lb' : len (ty ++ le 2 e ++ d) < 65000) by lia.
  assert (X : forall c sh, visitor hop c -> visits hop s0 (fst sh) -> handler_ok (snd sh) -> 0 <= s_otid c < 2 ^ 32 ->
    forall x, x = snd (over_wire c (Wire sh true true) (write_request (s_otid c) q (write_service (encode tg) ty e d))) -> among hop s0 (Auto c x)).
  { intros c0 sh0 Vc0 V0 Hh0 Ho0 x ->. destruct (over_visits hop s0 c0 (Wire sh0 true true) _ Vc0 (request_len (s_otid c0) q tg ty e d Nl Lb) V0 Hh0) as (V1 & H1).
    split; [exact V1|]. split; [exact Vc0|]. split; [exact Ho0|exact H1]. }
  assert (Y : forall c sh, visitor hop c -> visits hop s0 (fst sh) -> handler_ok (snd sh) -> 0 <= s_otid c < 2 ^ 32 -> linked (s_handle c) (s_context c) (s_otid c) i sh ->
    (forall j, prov_at (fst sh) j = prov_at (fst (wr_sh (a_wire (Auto c (Wire sh tcp up))))) j) ->
    forall r x, write_single (over_wire c) (cl_run ops) (Wire sh true true) (s_otid c) q (text tg) v = (r, x, q + 1) ->
    among hop s0 (Auto c x) /\
    ((r = Ok tt /\ done i (Auto c (Wire sh tcp up)) (text tg) (as_given (given_values v)) (Auto c x) /\ wr_up x = true /\ wr_tcp x = true) \/
     (failed r /\ undone (Auto c (Wire sh tcp up)) (Auto c x) /\ wr_up x = false /\ forall m, ~ writes (tags i (Auto c (Wire sh tcp up))) (text tg) (as_given (given_values v)) m))).
  { intros c0 sh0 Vc0 V0 Hh0 Ho0 L0 _ r0 x0 E0. rewrite (write_single_sends _ ops tg v ty e d _ _ q N C Lb') in E0. unfold exchange in E0.
    destruct (over_write c0 sh0 i q tg v ty e d L0 Ad Nl P) as (x & (_ & _ & _ & Os) & [(p & Ew & A & W & T & U)|(Ew & Nw & U & K)]).
    - rewrite Ew, (write_answer_parsed _ _ A) in E0. apply (f_equal fst) in E0. cbn [fst] in E0. apply pair_equal_spec in E0 as [<- <-].
      split; [eapply X; try eassumption; now rewrite Ew|]. left. split; [reflexivity|]. split; [|split; assumption].
      split; [exact W|]. intros j k Nj. unfold tags. cbn [a_wire wr_sh]. now rewrite Os.
    - rewrite Ew in E0. apply (f_equal fst) in E0. cbn [fst] in E0. apply pair_equal_spec in E0 as [<- <-].
      split; [eapply X; try eassumption; now rewrite Ew|]. right. split; [now exists EEof|]. split; [|split; [exact U|exact Nw]].
      intros j k. unfold tags. cbn [a_wire wr_sh]. destruct (Nat.eq_dec j i) as [->|Nj]; [exact (K k)|now rewrite Os]. }
  unfold auto_write, auto_check in E. cbn [a_session a_wire wr_sh wr_up] in E. destruct up.
  - cbn [a_session a_wire] in E. destruct tcp.
    + destruct (conn_by_ot (fst sh) (s_otid c)) as [cn|er| |] eqn:Ec; try (unfold conn_by_ot in Ec; destruct (conn_get _ _); discriminate).
      * pose proof (found_linked hop i (fst sh) (snd sh) c cn In Vc Ho Hh Ec) as L. rewrite <- surjective_pairing in L.
        destruct (write_single _ _ _ _ _ _ _) as [[r1 x1] q1] eqn:Ew.
        assert (q1 = q + 1) as -> by (rewrite (write_single_sends _ ops tg v ty e d _ _ q N C Lb') in Ew; destruct (exchange _ _ _ _); congruence).
        apply pair_equal_spec in E as [<- <-]. destruct (Y c sh Vc V Hh Ho L (fun j => eq_refl) r1 x1 Ew) as (Am & [K|(K1 & K2 & K3 & _)]); (split; [exact Am|]); [now left|right]. split; [exact K1|]. split; [exact K2|]. split; [exact K3|discriminate].
      * assert (er = EMsg) by (unfold conn_by_ot in Ec; destruct (conn_get _ _); congruence). subst er.
        destruct (over_unlinked c sh q tg v ty e d (conj Vh (conj Vx Ho)) Ad Nl P Ec) as (h1 & Ew).
        rewrite (write_single_sends _ ops tg v ty e d _ _ q N C Lb') in E. unfold exchange in E. rewrite Ew in E. apply pair_equal_spec in E as [<- <-].
        split; [eapply X; try eassumption; now rewrite Ew|]. right. split; [now exists EEof|]. split; [intros j k; reflexivity|]. split; [reflexivity|discriminate].
    + rewrite (write_single_sends _ ops tg v ty e d _ _ q N C Lb') in E. unfold exchange, over_wire in E. cbn [wr_up wr_tcp negb] in E. apply pair_equal_spec in E as [<- <-].
      split; [|right; split; [now exists EMsg|split; [intros j k; reflexivity|split; [reflexivity|discriminate]]]]. split; [exact V|]. split; [exact Vc|]. split; [exact Ho|exact Hh].
  - pose proof In as (S & O & R1 & R2 & R3).
    assert (Rt : routed (fst (fst sh, handler_new)) (s_route c) i) by (cbn [fst]; split; [rewrite Vp; exact R1|]; split; assumption).
    destruct (joins (fst sh, handler_new) now c i (visitor_ok _ _ Vc) S Rt) as (c' & sh' & E1 & Cx & Cr & T & S' & L & O'); [rewrite Vp; exact O|].
    destruct (connect_run (fst sh, handler_new) now c i (visitor_ok _ _ Vc) S Rt) as (c2 & sh2 & to & rpi & E2 & _ & _ & Hn & _).
    rewrite E1 in E2. injection E2 as <- _ _. rewrite E1 in E. cbn [a_session a_wire] in E.
    assert (Vc' : visitor hop c').
    { split; [exact (connect_size _ _ _ _ _ _ Vs E1)|]. split; [apply L|]. split; [apply L|]. rewrite Cr. split; [exact Vr|]. split; [exact Hn|exact Vp]. }
    assert (V' : visits hop s0 (fst sh')) by (destruct sh' as [s2 h2]; exact (v_come hop s0 (fst sh) now c c' s2 h2 (s_handle c') V Vc E1)).
    destruct (write_single _ _ _ _ _ _ _) as [[r1 x1] q1] eqn:Ew.
    assert (q1 = q + 1) as -> by (rewrite (write_single_sends _ ops tg v ty e d _ _ q N C Lb') in Ew; destruct (exchange _ _ _ _); congruence).
    apply pair_equal_spec in E as [<- <-].
    destruct (Y c' sh' Vc' V' ltac:(apply L) ltac:(apply L) L (fun j => eq_refl) r1 x1 Ew) as (Am & K). split; [exact Am|].
    assert (Tg : forall j, tags j (Auto c' (Wire sh' tcp false)) = tags j (Auto c (Wire sh tcp false))) by (intro j; unfold tags; cbn [a_wire wr_sh]; now rewrite (prov_tags _ _ j T)).
    unfold done, undone in *. rewrite Tg in K. destruct K as [(K1 & (K2 & K3) & K4)|(K1 & K2 & K3 & K4)]; [left|right].
    + split; [exact K1|]. split; [|exact K4]. split; [exact K2|]. intros j k Nj. rewrite <- Tg. now apply K3.
    + split; [exact K1|]. split; [|split; [exact K3|intros _; exact K4]]. intros j k. rewrite <- Tg. apply K2.
Qed.
Print Assumptions C129_write_partial.

(** A write that failed leaves the client ready: the next one that is possible is
    done, whatever others did in between. *)
Theorem C129_next : forall hop i s0 a ops tg v now q e b b2 ops2 tg2 v2 now2 q2 r2 b3, in_order hop i s0 -> among hop s0 a -> able ops tg v ->
  auto_write (cl_run ops) now q (text tg) v a = (Err e, b) -> meanwhile hop b b2 -> able ops2 tg2 v2 ->
  (exists m, writes (tags i b2) (text tg2) (as_given (given_values v2)) m) ->
  auto_write (cl_run ops2) now2 q2 (text tg2) v2 b2 = (r2, b3) -> r2 = Ok tt /\ done i b2 (text tg2) (as_given (given_values v2)) b3.
Proof.
  intros hop i s0 a ops tg v now q e b b2 ops2 tg2 v2 now2 q2 r2 b3 I0 Am Ab E M Ab2 (m & W) E2.
  destruct (C129_write_partial _ _ _ _ _ _ _ _ _ _ _ I0 Am Ab E) as (Amb & [(X & _)|(_ & _ & U & _)]); [discriminate|].
  destruct (C129_write_partial _ _ _ _ _ _ _ _ _ _ _ I0 (meanwhile_among _ _ _ _ M Amb) Ab2 E2) as (_ & [(-> & D & _)|(_ & _ & _ & N)]); [auto|].
  destruct M as (_ & _ & Mu & _). rewrite Mu in N. exfalso. exact (N U m W).
Qed.
Print Assumptions C129_next.

(** So does the next read. *)
Theorem C129_next_read : forall hop i s0 a ops tg v now q e b b2 ops2 tg2 k2 v2 now2 q2 fuel r2 b3, in_order hop i s0 -> among hop s0 a -> able ops tg v ->
  auto_write (cl_run ops) now q (text tg) v a = (Err e, b) -> meanwhile hop b b2 -> fair i b2 ops2 tg2 k2 v2 ->
  auto_read fuel (cl_run ops2) now2 q2 (text tg2) k2 b2 = (r2, b3) -> r2 = Ok v2.
Proof.
  intros hop i s0 a ops tg v now q e b b2 ops2 tg2 k2 v2 now2 q2 fuel r2 b3 I0 Am Ab E M F E2.
  destruct (C129_write_partial _ _ _ _ _ _ _ _ _ _ _ I0 Am Ab E) as (Amb & [(X & _)|(_ & _ & U & _)]); [discriminate|].
  destruct (one_read _ _ _ _ _ _ _ _ _ _ _ _ _ I0 (meanwhile_among _ _ _ _ M Amb) F E2) as (_ & X).
  destruct M as (_ & _ & Mu & _). rewrite Mu, U in X. apply X.
Qed.
Print Assumptions C129_next_read.

(** With several routes the claim is false: a client of route 1,1 that connects in
    the millisecond in which one of route 1,0 did gets a connection of the same
    number; its write is answered and done at the tags of route 1,0. *)
Definition crowd : auto := Auto (new_client 1) (Wire (fst (snd (arrives 100 (new_client 0) two_routes))) false false).
Definition set_speed (v now q : Z) (a : auto) : res unit * auto := auto_write (cl_run []) now q (text (nm (str "speed") [])) (WOne (GInt true 4 v)) a.
Lemma speed_able v : - 2 ^ 31 <= v < 2 ^ 31 -> able [] (nm (str "speed") []) (WOne (GInt true 4 v)).
Proof.
  intro H. split; [demo_tag|]. split; [demo_tag|]. exists [0xC4; 0], 1, (number_data (GInt true 4 v)).
  split; [exact (c_one (KInt true 4) (GInt true 4 v) 0xC4 eq_refl eq_refl)|]. split; [constructor; [cbn; lia|constructor]|].
  split; [discriminate|]. split; [discriminate|]. cbn [number_data]. rewrite !len_app, !le_len. vm_compute. reflexivity.
Qed.
Lemma crowd_tags : same_tags two_routes (fst (wr_sh (a_wire crowd))) /\ server_ok (fst (wr_sh (a_wire crowd)), handler_new).
Proof.
  destruct (connect_run (two_routes, handler_new) 100 (new_client 0) 0) as (c' & sh' & to & rpi & E & _ & _ & _ & _ & _ & _ & _ & T & S & _).
  - apply new_client_ok.
  - apply two_ok. split; cbn; lia.
  - apply (two_routed 0). now left.
  - assert (X : fst (wr_sh (a_wire crowd)) = fst sh') by (unfold crowd, arrives; cbn [a_wire wr_sh]; rewrite E; reflexivity).
    rewrite X. split; [exact T|]. destruct S as (_ & S2). split; [split; cbn; lia|exact S2].
Qed.
Theorem C129_routes_refuted : exists a, client_ok (a_session a) /\ server_ok (fst (wr_sh (a_wire a)), handler_new) /\
  routed (fst (wr_sh (a_wire a))) (s_route (a_session a)) 1 /\ able [] (nm (str "speed") []) (WOne (GInt true 4 9)) /\
  fst (set_speed 9 100 1 a) = Ok tt /\ tags 1 (snd (set_speed 9 100 1 a)) (str "speed") = Some (VOne (GInt true 4 8)) /\
  tags 0 (snd (set_speed 9 100 1 a)) (str "speed") = Some (VOne (GInt true 4 9)).
Proof.
  destruct crowd_tags as (T & S). exists crowd. split; [apply new_client_ok|]. split; [exact S|]. split.
  - destruct (two_routed 1 (or_intror eq_refl)) as (R1 & R2 & R3). split; [rewrite (resolve_tags _ _ _ T); exact R1|].
    split; [destruct T as (-> & _); exact R2|]. rewrite (prov_tags _ _ _ T). exact R3.
  - split; [apply speed_able; lia|]. split; [vm_compute; reflexivity|]. split; vm_compute; reflexivity.
Qed.
Print Assumptions C129_routes_refuted.

(** A client that is not connected sets the speed to 9 and reads it; after reading
    a tag that does not exist its write fails and is not done, and the next is. *)
Definition step1 := set_speed 9 100 1 newcomer.
Definition step2 := read_of (str "sped") 200 2 (snd step1).
Definition step3 := set_speed 10 300 3 (snd step2).
Definition step4 := set_speed 11 400 4 (snd step3).
Example ex_C129 : in_order [1; 0] 0 two_routes /\ among [1; 0] two_routes newcomer /\ able [] (nm (str "speed") []) (WOne (GInt true 4 9)) /\
  fst step1 = Ok tt /\ tags 0 (snd step1) (str "speed") = Some (VOne (GInt true 4 9)) /\ fst (read_of (str "speed") 200 2 (snd step1)) = Ok (GInt true 4 9) /\
  fst step2 = Err EShort /\ fst step3 = Err EMsg /\ tags 0 (snd step3) (str "speed") = Some (VOne (GInt true 4 9)) /\
  fst step4 = Ok tt /\ tags 0 (snd step4) (str "speed") = Some (VOne (GInt true 4 11)).
Proof.
  split; [exact two_order|]. split; [exact newcomer_among|]. split; [apply speed_able; lia|]. vm_compute. repeat split.
Qed.
