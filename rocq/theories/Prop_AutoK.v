(** * C129: structures written with AutoConnect *)
From Verif Require Import GoBase IoiModel IoiSpec IoiProof ItemsModel TypesModel ItemsSpec ItemsProof ReadModel ReadSpec ReadProof Prop_Read WriteModel WriteSpec WriteProof
  PackTypes PackModel PackSpec PackProof KnownModel KnownSpec KnownProof
  EipModel EipSpec OpenModel OpenSpec OpenProof TableModel TableSpec TableProof SrvValModel SrvValSpec SrvValProof ProvModel ProvSpec ProvProof Prop_SrvVal SrvModel SrvSpec
  SrvProof Prop_Srv ReqSpec LinkModel ReqProof Prop_Req MeetModel MeetSpec MeetProof Prop_Meet AgainSpec Prop_Again AutoModel AutoSpec AutoProof Prop_Auto Prop_AutoW
  Prop_Known Prop_Structs AutoKModel.

(** Data the server takes for the values [vs]. *)
Definition taken (ty : bytes) (e : Z) (d : bytes) (vs : list gval) : Prop := exists b body left,
  ty ++ le 2 e ++ d = b :: body /\ (b <> 0x28 /\ b <> 0x29 /\ b <> 0x91) /\ parse_write_values (b :: body) = Ok (vs, left) /\ Forall not_nil vs /\ vs <> [] /\
  len (ty ++ le 2 e ++ d) < 64000.

Lemma over_taken c sh i q tg ty e d vs : linked (s_handle c) (s_context c) (s_otid c) i sh -> addressed tg -> len (encode tg) < 512 -> taken ty e d vs ->
  exists x, others_same i (fst sh) (fst (wr_sh x)) /\
   ((exists p, over_wire c (Wire sh true true) (write_request (s_otid c) q (write_service (encode tg) ty e d)) = (Ok (0, p), x) /\ write_answer p 0 /\
      writes (behind i sh) (text tg) (as_given vs) (behind i (wr_sh x)) /\ wr_tcp x = true /\ wr_up x = true) \/
    (over_wire c (Wire sh true true) (write_request (s_otid c) q (write_service (encode tg) ty e d)) = (Err EEof, x) /\
      (forall m, ~ writes (behind i sh) (text tg) (as_given vs) m) /\ wr_up x = false /\
      forall k, behind i (wr_sh x) k = behind i sh k)).
Proof.
  intros (Hh & Hc & Ho & Hk & (to & Ld) & Sp) Ad Lt (b & body & left & Et2 & Hb & Ep & Nn & NE & Lb).
  pose proof (got_write (fst sh) (snd sh) c q tg ty e d Hh Hc Lt Lb) as G. set (w0 := World _ _ _ _) in G.
  rewrite Et2 in G.
  pose proof (connected_write_parsed (s_otid c) tg b body vs left to i w0 Ho Ld Sp Ad Hb Ep Nn NE) as W.
  destruct (connected_write _ _ w0) as [[u|er| |] w']; try contradiction.
  - destruct W as (w1 & W1 & W2 & W3 & W4). pose proof W3 as (E1 & E2 & E3 & E4 & E5 & E6 & E7).
    destruct u. rewrite W4 in G. destruct w1 as [s1 h1 i1 o1]. cbn [w_srv w_h w_in w_sent w0] in *. subst h1 i1 o1.
    assert (F : fits [(0xA1, le 4 (h_to (snd sh))); (0xB1, le 2 (q mod 65536) ++ [0xCD; 0; 0; 0])]).
    { apply fits_pair; [rewrite le_len; lia|]. rewrite len_app, le_len. vm_compute. reflexivity. }
    assert (G2 : got (fst sh) (snd sh) c (write_request (s_otid c) q (write_service (encode tg) ty e d)) =
      (Ok tt, snd (send 0x70 (serialize_items (map mk [(0xA1, le 4 (h_to (snd sh))); (0xB1, le 2 (q mod 65536) ++ [0xCD; 0; 0; 0])]))
        (World s1 (Handler (h_handle (snd sh)) (h_options (snd sh)) (s_context c) (h_ot (snd sh)) (h_to (snd sh)) (q mod 65536)) [] [])))) by exact G.
    assert (L : len (zeros 6 ++ wire_list [(0xA1, le 4 (h_to (snd sh))); (0xB1, le 2 (q mod 65536) ++ [0xCD; 0; 0; 0])]) < 2 ^ 16).
    { rewrite len_app, wire_pair_len, len_app, !le_len. vm_compute. reflexivity. }
    pose proof (over_sent c sh _ _ _ _ _ _ G2 (or_introl eq_refl) ltac:(exact Hk) ltac:(exact Hc) F L) as O.
    eexists. split; [|left; eexists; split; [exact O|]].
    + exact (conj E4 (conj E5 (conj E6 E7))).
    + split; [|split; [exact W1|split; reflexivity]].
      exists (zeros 6), (0xA1, le 4 (h_to (snd sh))), 0xB1, (le 2 (q mod 65536)), 0xCD, 0, 0, [], [], [].
      split; [reflexivity|]. split; [apply le_length|]. split; [exact F|reflexivity].
  - destruct W as (O & S' & N & Sh). pose proof O as (E1 & E2 & E3 & E4 & E5 & E6 & E7).
    pose proof (over_ended c sh _ er w' G ltac:(rewrite E3; reflexivity)) as Ov.
    eexists. split; [|right; split; [exact Ov|]].
    + exact (conj E4 (conj E5 (conj E6 E7))).
    + split; [exact N|]. split; [reflexivity|exact Sh].
Qed.

Lemma over_taken_unlinked c sh q tg ty e d vs : over_ok c -> addressed tg -> len (encode tg) < 512 -> taken ty e d vs -> conn_by_ot (fst sh) (s_otid c) = Err EMsg ->
  exists h1, over_wire c (Wire sh true true) (write_request (s_otid c) q (write_service (encode tg) ty e d)) = (Err EEof, Wire (fst sh, h1) false false).
Proof.
  intros (Hh & Hc & Ho) Ad Lt (b & body & left & Et2 & Hb & Ep & Nn & NE & Lb) Ec.
  pose proof (got_write (fst sh) (snd sh) c q tg ty e d Hh Hc Lt Lb) as G. set (w0 := World _ _ _ _) in G.
  rewrite Et2 in G.
  assert (E : connected_write (le 4 (s_otid c)) ([len (encode tg) / 2] ++ encode tg ++ b :: body) w0 = (Err EMsg, w0)).
  { unfold connected_write. cbn [app]. erewrite lift_ok by apply rd_cons1. cbv beta iota.
    erewrite lift_ok by (apply addressed_path; [exact Ad|exact Hb]). cbv beta iota. erewrite lift_ok by exact Ep. cbv beta iota.
    erewrite lift_ok by (rewrite <- (app_nil_r (le 4 (s_otid c))); apply rd_app; apply le_length). cbv beta iota.
    unfold bindM at 1, ask. rewrite unle_le_small by (cbn; lia). cbn [w0 w_srv]. rewrite Ec. reflexivity. }
  rewrite E in G. eexists. exact (over_ended c sh _ _ _ G eq_refl).
Qed.

Lemma taken_write : forall hop i s0 a ops tg ty e d vs k v now q r b, in_order hop i s0 -> among hop s0 a -> named ops tg -> addressed tg -> taken ty e d vs ->
  (forall (ctl : controller wire) s otid, kwrite crc16 ctl (cl_run ops) s otid q (text tg) k v =
    (let '(r, s1) := exchange ctl s (write_request otid q (write_service (encode tg) ty e d)) write_reply in (r, s1, q + 1))) ->
  auto_kwrite crc16 (cl_run ops) now q (text tg) k v a = (r, b) ->
  among hop s0 b /\
  ((r = Ok tt /\ done i a (text tg) (as_given vs) b /\ wr_up (a_wire b) = true /\ wr_tcp (a_wire b) = true) \/
   (failed r /\ undone a b /\ wr_up (a_wire b) = false /\ (wr_up (a_wire a) = false -> forall m, ~ writes (tags i a) (text tg) (as_given vs) m))).
Proof.
  intros hop i s0 a ops tg ty e d vs kk v now q r b I0 (V & Vc & Ho & Hh) N Ad P Sends E. destruct a as [c [sh tcp up]]. cbn [a_session a_wire wr_sh wr_up wr_tcp] in *.
  pose proof (visits_order hop i s0 _ I0 V) as In. pose proof Vc as (Vs & Vh & Vx & Vr & Vn & Vp). assert (Lb : len (ty ++ le 2 e ++ d) < 64000) by (destruct P as (? & ? & ? & _ & _ & _ & _ & _ & Lb); exact Lb).
  pose proof (proj2 (proj2 N)) as Nl. assert (Lb' : len (ty ++ le 2 e ++ d) < 65000) by lia.
  assert (X : forall c sh, visitor hop c -> visits hop s0 (fst sh) -> handler_ok (snd sh) -> 0 <= s_otid c < 2 ^ 32 ->
    forall x, x = snd (over_wire c (Wire sh true true) (write_request (s_otid c) q (write_service (encode tg) ty e d))) -> among hop s0 (Auto c x)).
  { intros c0 sh0 Vc0 V0 Hh0 Ho0 x ->. destruct (over_visits hop s0 c0 (Wire sh0 true true) _ Vc0 (request_len (s_otid c0) q tg ty e d Nl Lb) V0 Hh0) as (V1 & H1).
    split; [exact V1|]. split; [exact Vc0|]. split; [exact Ho0|exact H1]. }
  assert (Y : forall c sh, visitor hop c -> visits hop s0 (fst sh) -> handler_ok (snd sh) -> 0 <= s_otid c < 2 ^ 32 -> linked (s_handle c) (s_context c) (s_otid c) i sh ->
    (forall j, prov_at (fst sh) j = prov_at (fst (wr_sh (a_wire (Auto c (Wire sh tcp up))))) j) ->
    forall r x, kwrite crc16 (over_wire c) (cl_run ops) (Wire sh true true) (s_otid c) q (text tg) kk v = (r, x, q + 1) ->
    among hop s0 (Auto c x) /\
    ((r = Ok tt /\ done i (Auto c (Wire sh tcp up)) (text tg) (as_given vs) (Auto c x) /\ wr_up x = true /\ wr_tcp x = true) \/
     (failed r /\ undone (Auto c (Wire sh tcp up)) (Auto c x) /\ wr_up x = false /\ forall m, ~ writes (tags i (Auto c (Wire sh tcp up))) (text tg) (as_given vs) m))).
  { intros c0 sh0 Vc0 V0 Hh0 Ho0 L0 _ r0 x0 E0. rewrite Sends in E0. unfold exchange in E0.
    destruct (over_taken c0 sh0 i q tg ty e d vs L0 Ad Nl P) as (x & (_ & _ & _ & Os) & [(p & Ew & A & W & T & U)|(Ew & Nw & U & K)]).
    - rewrite Ew, (write_answer_parsed _ _ A) in E0. apply (f_equal fst) in E0. cbn [fst] in E0. apply pair_equal_spec in E0 as [<- <-].
      split; [eapply X; try eassumption; now rewrite Ew|]. left. split; [reflexivity|]. split; [|split; assumption].
      split; [exact W|]. intros j k Nj. unfold tags. cbn [a_wire wr_sh]. now rewrite Os.
    - rewrite Ew in E0. apply (f_equal fst) in E0. cbn [fst] in E0. apply pair_equal_spec in E0 as [<- <-].
      split; [eapply X; try eassumption; now rewrite Ew|]. right. split; [now exists EEof|]. split; [|split; [exact U|exact Nw]].
      intros j k. unfold tags. cbn [a_wire wr_sh]. destruct (Nat.eq_dec j i) as [->|Nj]; [exact (K k)|now rewrite Os]. }
  unfold auto_kwrite, auto_check in E. cbn [a_session a_wire wr_sh wr_up] in E. destruct up.
  - cbn [a_session a_wire] in E. destruct tcp.
    + destruct (conn_by_ot (fst sh) (s_otid c)) as [cn|er| |] eqn:Ec; try (unfold conn_by_ot in Ec; destruct (conn_get _ _); discriminate).
      * pose proof (found_linked hop i (fst sh) (snd sh) c cn In Vc Ho Hh Ec) as L. rewrite <- surjective_pairing in L.
        destruct (kwrite _ _ _ _ _ _ _ _ _) as [[r1 x1] q1] eqn:Ew.
        assert (q1 = q + 1) as -> by (rewrite Sends in Ew; destruct (exchange _ _ _ _); congruence).
        apply pair_equal_spec in E as [<- <-]. destruct (Y c sh Vc V Hh Ho L (fun j => eq_refl) r1 x1 Ew) as (Am & [K|(K1 & K2 & K3 & _)]); (split; [exact Am|]); [now left|right]. split; [exact K1|]. split; [exact K2|]. split; [exact K3|discriminate].
      * assert (er = EMsg) by (unfold conn_by_ot in Ec; destruct (conn_get _ _); congruence). subst er.
        destruct (over_taken_unlinked c sh q tg ty e d vs (conj Vh (conj Vx Ho)) Ad Nl P Ec) as (h1 & Ew).
        rewrite Sends in E. unfold exchange in E. rewrite Ew in E. apply pair_equal_spec in E as [<- <-].
        split; [eapply X; try eassumption; now rewrite Ew|]. right. split; [now exists EEof|]. split; [intros j k; reflexivity|]. split; [reflexivity|discriminate].
    + rewrite Sends in E. unfold exchange, over_wire in E. cbn [wr_up wr_tcp negb] in E. apply pair_equal_spec in E as [<- <-].
      split; [|right; split; [now exists EMsg|split; [intros j k; reflexivity|split; [reflexivity|discriminate]]]]. split; [exact V|]. split; [exact Vc|]. split; [exact Ho|exact Hh].
  - pose proof In as (S & O & R1 & R2 & R3).
    assert (Rt : routed (fst (fst sh, handler_new)) (s_route c) i) by (cbn [fst]; split; [rewrite Vp; exact R1|]; split; assumption).
    destruct (joins (fst sh, handler_new) now c i (visitor_ok _ _ Vc) S Rt) as (c' & sh' & E1 & Cx & Cr & T & S' & L & O'); [rewrite Vp; exact O|].
    destruct (connect_run (fst sh, handler_new) now c i (visitor_ok _ _ Vc) S Rt) as (c2 & sh2 & to & rpi & E2 & _ & _ & Hn & _).
    rewrite E1 in E2. injection E2 as <- _ _. rewrite E1 in E. cbn [a_session a_wire] in E.
    assert (Vc' : visitor hop c').
    { split; [exact (connect_size _ _ _ _ _ _ Vs E1)|]. split; [apply L|]. split; [apply L|]. rewrite Cr. split; [exact Vr|]. split; [exact Hn|exact Vp]. }
    assert (V' : visits hop s0 (fst sh')) by (destruct sh' as [s2 h2]; exact (v_come hop s0 (fst sh) now c c' s2 h2 (s_handle c') V Vc E1)).
    destruct (kwrite _ _ _ _ _ _ _ _ _) as [[r1 x1] q1] eqn:Ew.
    assert (q1 = q + 1) as -> by (rewrite Sends in Ew; destruct (exchange _ _ _ _); congruence).
    apply pair_equal_spec in E as [<- <-].
    destruct (Y c' sh' Vc' V' ltac:(apply L) ltac:(apply L) L (fun j => eq_refl) r1 x1 Ew) as (Am & K). split; [exact Am|].
    assert (Tg : forall j, tags j (Auto c' (Wire sh' tcp false)) = tags j (Auto c (Wire sh tcp false))) by (intro j; unfold tags; cbn [a_wire wr_sh]; now rewrite (prov_tags _ _ j T)).
    unfold done, undone in *. rewrite Tg in K. destruct K as [(K1 & (K2 & K3) & K4)|(K1 & K2 & K3 & K4)]; [left|right].
    + split; [exact K1|]. split; [|exact K4]. split; [exact K2|]. intros j k Nj. rewrite <- Tg. now apply K3.
    + split; [exact K1|]. split; [|split; [exact K3|intros _; exact K4]]. intros j k. rewrite <- Tg. apply K2.
Qed.

(** Write of a lgxtypes.STRING with AutoConnect: done, and reported as done, or not
    done and reported as an error. *)
Theorem C129_string_partial : forall hop i s0 a ops tg v now q r b, in_order hop i s0 -> among hop s0 a -> named ops tg -> addressed tg -> has_type (under KString) v ->
  auto_kwrite crc16 (cl_run ops) now q (text tg) KString v a = (r, b) ->
  among hop s0 b /\
  ((r = Ok tt /\ done i a (text tg) (GiveOne (GStr (characters v))) b /\ wr_up (a_wire b) = true /\ wr_tcp (a_wire b) = true) \/
   (failed r /\ undone a b /\ wr_up (a_wire b) = false /\ (wr_up (a_wire a) = false -> forall m, ~ writes (tags i a) (text tg) (GiveOne (GStr (characters v))) m))).
Proof.
  intros hop i s0 a ops tg v now q r b I0 Am N Ad H E.
  assert (Lp : len (fst (kpack KString v)) = 86).
  { destruct (string_typed_inv v H) as (n & cs & -> & _ & Lc & F). rewrite pack_string by assumption. rewrite len_app, le_len. unfold len. rewrite map_length, Lc. reflexivity. }
  apply (taken_write hop i s0 a ops tg ([0xA0; 0x02] ++ le 2 0x0FCE) 1 (fst (kpack KString v)) [GStr (characters v)] KString v now q r b I0 Am N Ad); [|intros; exact (kwrite_sends _ ops tg KString v _ _ q N Logic.I Logic.I string_regular H ltac:(lia))|exact E].
  exists 0xA0, (([0x02] ++ le 2 0x0FCE) ++ le 2 1 ++ fst (kpack KString v)), []. split; [reflexivity|]. split; [lia|]. split; [exact (string_parsed v H)|].
  split; [constructor; [discriminate|constructor]|]. split; [discriminate|]. rewrite !len_app, Lp, !le_len. reflexivity.
Qed.
Print Assumptions C129_string_partial.

(** Any other structure is refused: nothing is done, and the client is ready to
    connect again. *)
Lemma over_refused c sh q tg ty e d b body er : over_ok c -> addressed tg -> len (encode tg) < 512 -> ty ++ le 2 e ++ d = b :: body -> b <> 0x28 /\ b <> 0x29 /\ b <> 0x91 ->
  parse_write_values (b :: body) = Err er -> len (ty ++ le 2 e ++ d) < 64000 ->
  exists h1, over_wire c (Wire sh true true) (write_request (s_otid c) q (write_service (encode tg) ty e d)) = (Err EEof, Wire (fst sh, h1) false false).
Proof.
  intros (Hh & Hc & Ho) Ad Lt Et Hb Ep Lb.
  pose proof (got_write (fst sh) (snd sh) c q tg ty e d Hh Hc Lt Lb) as G. set (w0 := World _ _ _ _) in G. rewrite Et in G.
  assert (E : connected_write (le 4 (s_otid c)) ([len (encode tg) / 2] ++ encode tg ++ b :: body) w0 = (Err er, w0)).
  { unfold connected_write. cbn [app]. erewrite lift_ok by apply rd_cons1. cbv beta iota.
    erewrite lift_ok by (apply addressed_path; [exact Ad|exact Hb]). cbv beta iota. unfold bindM at 1, lift. rewrite Ep. reflexivity. }
  rewrite E in G. eexists. exact (over_ended c sh _ _ _ G eq_refl).
Qed.
Theorem C129_other_partial : forall hop i s0 a ops tg k v now q r b, in_order hop i s0 -> among hop s0 a -> named ops tg -> addressed tg ->
  structure k -> fit k -> regular (logix k) -> has_type (under k) v -> len (fst (kpack k v)) < 63990 -> logix_handle k (logix_text k) mod 65536 <> 0x0FCE ->
  auto_kwrite crc16 (cl_run ops) now q (text tg) k v a = (r, b) ->
  among hop s0 b /\ failed r /\ undone a b /\ wr_up (a_wire b) = false.
Proof.
  intros hop i s0 a ops tg k v now q r b I0 (V & Vc & Ho & Hh) N Ad St F R H Lp Nh E. destruct a as [c [sh tcp up]]. cbn [a_session a_wire wr_sh wr_up wr_tcp] in *.
  pose proof (visits_order hop i s0 _ I0 V) as In. pose proof Vc as (Vs & Vh & Vx & Vr & Vn & Vp). pose proof (proj2 (proj2 N)) as Nl.
  assert (Sends : forall (ctl : controller wire) s otid, kwrite crc16 ctl (cl_run ops) s otid q (text tg) k v =
    (let '(r, s1) := exchange ctl s (write_request otid q (write_service (encode tg) ([0xA0; 0x02] ++ le 2 (logix_handle k (logix_text k))) 1 (fst (kpack k v)))) write_reply in (r, s1, q + 1)))
    by (intros; apply kwrite_sends; try assumption; lia).
  set (h := logix_handle k (logix_text k)) in *. set (ty := [0xA0; 0x02] ++ le 2 h) in *. set (d := fst (kpack k v)) in *.
  assert (Lb : len (ty ++ le 2 1 ++ d) < 64000) by (unfold ty; rewrite !len_app, !le_len; change (len [160; 2]) with 2; lia).
  assert (Rf : forall c sh, visitor hop c -> visits hop s0 (fst sh) -> handler_ok (snd sh) -> 0 <= s_otid c < 2 ^ 32 ->
    exists h1, over_wire c (Wire sh true true) (write_request (s_otid c) q (write_service (encode tg) ty 1 d)) = (Err EEof, Wire (fst sh, h1) false false) /\
      among hop s0 (Auto c (Wire (fst sh, h1) false false))).
  { intros c0 sh0 Vc0 V0 Hh0 Ho0. pose proof Vc0 as (_ & Vh0 & Vx0 & _).
    destruct (over_refused c0 sh0 q tg ty 1 d 0xA0 (([0x02] ++ le 2 h) ++ le 2 1 ++ d) EMsg (conj Vh0 (conj Vx0 Ho0)) Ad Nl eq_refl ltac:(lia)) as (h1 & Ew); [|exact Lb|].
    - change (160 :: ([2] ++ le 2 h) ++ le 2 1 ++ d) with (([0xA0; 0x02] ++ le 2 h) ++ le 2 1 ++ d). rewrite struct_parsed. now destruct (Z.eqb_spec (h mod 65536) 0x0FCE).
    - exists h1. split; [exact Ew|]. destruct (over_visits hop s0 c0 (Wire sh0 true true) _ Vc0 (request_len (s_otid c0) q tg ty 1 d Nl Lb) V0 Hh0) as (V1 & H1). rewrite Ew in V1, H1.
      split; [exact V1|]. split; [exact Vc0|]. split; [exact Ho0|exact H1]. }
  unfold auto_kwrite, auto_check in E. cbn [a_session a_wire wr_sh wr_up] in E. destruct up.
  - cbn [a_session a_wire] in E. rewrite Sends in E. unfold exchange in E. destruct tcp.
    + destruct (Rf c sh Vc V Hh Ho) as (h1 & Ew & Am). rewrite Ew in E. apply pair_equal_spec in E as [<- <-]. split; [exact Am|]. split; [now exists EEof|]. split; [intros j x; reflexivity|reflexivity].
    + unfold over_wire in E. cbn [wr_up wr_tcp negb] in E. apply pair_equal_spec in E as [<- <-].
      split; [|split; [now exists EMsg|split; [intros j x; reflexivity|reflexivity]]]. split; [exact V|]. split; [exact Vc|]. split; [exact Ho|exact Hh].
  - pose proof In as (S & O & R1 & R2 & R3).
    assert (Rt : routed (fst (fst sh, handler_new)) (s_route c) i) by (cbn [fst]; split; [rewrite Vp; exact R1|]; split; assumption).
    destruct (joins (fst sh, handler_new) now c i (visitor_ok _ _ Vc) S Rt) as (c' & sh' & E1 & Cx & Cr & T & S' & L & O'); [rewrite Vp; exact O|].
    destruct (connect_run (fst sh, handler_new) now c i (visitor_ok _ _ Vc) S Rt) as (c2 & sh2 & to & rpi & E2 & _ & _ & Hn & _).
    rewrite E1 in E2. injection E2 as <- _ _. rewrite E1 in E. cbn [a_session a_wire] in E.
    assert (Vc' : visitor hop c').
    { split; [exact (connect_size _ _ _ _ _ _ Vs E1)|]. split; [apply L|]. split; [apply L|]. rewrite Cr. split; [exact Vr|]. split; [exact Hn|exact Vp]. }
    assert (V' : visits hop s0 (fst sh')) by (destruct sh' as [s2 h2]; exact (v_come hop s0 (fst sh) now c c' s2 h2 (s_handle c') V Vc E1)).
    rewrite Sends in E. unfold exchange in E. destruct (Rf c' sh' Vc' V' ltac:(apply L) ltac:(apply L)) as (h1 & Ew & Am). rewrite Ew in E. apply pair_equal_spec in E as [<- <-].
    split; [exact Am|]. split; [now exists EEof|]. split; [|reflexivity].
    intros j x. unfold tags. cbn [a_wire wr_sh fst]. now rewrite (prov_tags _ _ j T).
Qed.
Print Assumptions C129_other_partial.

(** A write of a STRING that failed, and the refused write of another structure,
    leave the client ready: the next write that is possible is done, whatever others
    did in between. *)
Theorem C129_string_next : forall hop i s0 a ops tg v now q e b b2 ops2 tg2 v2 now2 q2 r2 b3, in_order hop i s0 -> among hop s0 a -> named ops tg -> addressed tg ->
  has_type (under KString) v -> auto_kwrite crc16 (cl_run ops) now q (text tg) KString v a = (Err e, b) -> meanwhile hop b b2 -> able ops2 tg2 v2 ->
  (exists m, writes (tags i b2) (text tg2) (as_given (given_values v2)) m) ->
  auto_write (cl_run ops2) now2 q2 (text tg2) v2 b2 = (r2, b3) -> r2 = Ok tt /\ done i b2 (text tg2) (as_given (given_values v2)) b3.
Proof.
  intros hop i s0 a ops tg v now q e b b2 ops2 tg2 v2 now2 q2 r2 b3 I0 Am N Ad H E M Ab2 (m & W) E2.
  destruct (C129_string_partial _ _ _ _ _ _ _ _ _ _ _ I0 Am N Ad H E) as (Amb & [(X & _)|(_ & _ & U & _)]); [discriminate X|].
  destruct (C129_write_partial _ _ _ _ _ _ _ _ _ _ _ I0 (meanwhile_among _ _ _ _ M Amb) Ab2 E2) as (_ & [(-> & D & _)|(_ & _ & _ & Nn)]); [split; [reflexivity|exact D]|].
  destruct M as (_ & _ & Mu & _). rewrite Mu in Nn. exfalso. exact (Nn U m W).
Qed.
Print Assumptions C129_string_next.
Theorem C129_other_next : forall hop i s0 a ops tg k v now q r b b2 ops2 tg2 v2 now2 q2 r2 b3, in_order hop i s0 -> among hop s0 a -> named ops tg -> addressed tg ->
  structure k -> fit k -> regular (logix k) -> has_type (under k) v -> len (fst (kpack k v)) < 63990 -> logix_handle k (logix_text k) mod 65536 <> 0x0FCE ->
  auto_kwrite crc16 (cl_run ops) now q (text tg) k v a = (r, b) -> meanwhile hop b b2 -> able ops2 tg2 v2 ->
  (exists m, writes (tags i b2) (text tg2) (as_given (given_values v2)) m) ->
  auto_write (cl_run ops2) now2 q2 (text tg2) v2 b2 = (r2, b3) -> r2 = Ok tt /\ done i b2 (text tg2) (as_given (given_values v2)) b3.
Proof.
  intros hop i s0 a ops tg k v now q r b b2 ops2 tg2 v2 now2 q2 r2 b3 I0 Am N Ad St F R H Lp Nh E M Ab2 (m & W) E2.
  destruct (C129_other_partial _ _ _ _ _ _ _ _ _ _ _ _ I0 Am N Ad St F R H Lp Nh E) as (Amb & _ & _ & U).
  destruct (C129_write_partial _ _ _ _ _ _ _ _ _ _ _ I0 (meanwhile_among _ _ _ _ M Amb) Ab2 E2) as (_ & [(-> & D & _)|(_ & _ & _ & Nn)]); [split; [reflexivity|exact D]|].
  destruct M as (_ & _ & Mu & _). rewrite Mu in Nn. exfalso. exact (Nn U m W).
Qed.
Print Assumptions C129_other_next.

(** A client that is not connected writes a STRING to the tag note, then a TIMER to
    the tag speed. *)
Definition put_note (a : auto) : res unit * auto := auto_kwrite crc16 (cl_run []) 100 1 (str "note") KString (string_struct (str "hello")) a.
Lemma hello_typed : has_type (under KString) (string_struct (str "hello")).
Proof. apply string_struct_typed; [unfold bytes_ok; cbn; repeat (constructor; [unfold byte_ok; lia|]); constructor|vm_compute; discriminate]. Qed.
Example ex_C129_string : in_order [1; 0] 0 two_routes /\ among [1; 0] two_routes newcomer /\ fst (put_note newcomer) = Ok tt /\
  tags 0 (snd (put_note newcomer)) (str "note") = Some (VOne (GStr (str "hello"))).
Proof. split; [exact two_order|]. split; [exact newcomer_among|]. vm_compute. split; reflexivity. Qed.
Example ex_C129_string_thm : exists r b, auto_kwrite crc16 (cl_run []) 100 1 (text (nm (str "note") [])) KString (string_struct (str "hello")) newcomer = (r, b) /\ among [1; 0] two_routes b.
Proof.
  destruct (auto_kwrite crc16 (cl_run []) 100 1 (text (nm (str "note") [])) KString (string_struct (str "hello")) newcomer) as [r b] eqn:E. exists r, b. split; [reflexivity|].
  exact (proj1 (C129_string_partial [1; 0] 0 two_routes newcomer [] (nm (str "note") []) (string_struct (str "hello")) 100 1 r b two_order newcomer_among
    ltac:(demo_tag) ltac:(demo_tag) hello_typed E)).
Qed.
Example ex_C129_other : exists r b, auto_kwrite crc16 (cl_run []) 100 1 (text (nm (str "speed") [])) KTimer ex_timer newcomer = (r, b) /\ failed r /\ undone newcomer b.
Proof.
  destruct (auto_kwrite crc16 (cl_run []) 100 1 (text (nm (str "speed") [])) KTimer ex_timer newcomer) as [r b] eqn:E. exists r, b. split; [reflexivity|].
  destruct (C129_other_partial [1; 0] 0 two_routes newcomer [] (nm (str "speed") []) KTimer ex_timer 100 1 r b two_order newcomer_among
    ltac:(demo_tag) ltac:(demo_tag) Logic.I Logic.I ltac:(cbn; tauto) ltac:(cbn; typed) eq_refl ltac:(discriminate) E) as (_ & K1 & K2 & _). now split.
Qed.

(** After the refused TIMER a number is written to the tag speed. *)
Example ex_C129_other_next :
  let b := snd (auto_kwrite crc16 (cl_run []) 100 1 (str "speed") KTimer ex_timer newcomer) in
  fst (auto_kwrite crc16 (cl_run []) 100 1 (str "speed") KTimer ex_timer newcomer) = Err EEof /\ wr_up (a_wire b) = false /\
  fst (set_speed 7 200 2 b) = Ok tt /\ tags 0 (snd (set_speed 7 200 2 b)) (str "speed") = Some (VOne (GInt true 4 7)).
Proof. vm_compute. repeat split; reflexivity. Qed.
(** A STRING written to an address with an element beyond an array fails; the next is done. *)
Example ex_C129_string_next :
  let w := auto_kwrite crc16 (cl_run []) 100 1 (str "note[7]") KString (string_struct (str "hello")) newcomer in
  fst w = Err EEof /\ fst (set_speed 7 200 2 (snd w)) = Ok tt.
Proof. vm_compute. repeat split; reflexivity. Qed.

(** If Connect does not succeed, no write returns nil. *)
Theorem C129_unreached : forall cl now q tag k v w a, wr_up (a_wire a) = false ->
  fst (fst (OpenModel.connect (served (s_context (a_session a))) ((fst (wr_sh (a_wire a)), handler_new), s_handle (a_session a)) now (a_session a))) <> Ok tt ->
  fst (auto_kwrite crc16 cl now q tag k v a) <> Ok tt /\ fst (auto_write cl now q tag w a) <> Ok tt.
Proof.
  intros cl now q tag k v w a U H. unfold auto_kwrite, auto_write, auto_check. rewrite U.
  destruct (OpenModel.connect (served (s_context (a_session a))) (fst (wr_sh (a_wire a)), handler_new, s_handle (a_session a)) now (a_session a)) as [[r c1] [sh h1]] eqn:E.
  cbn [fst] in H. destruct r as [u|e| |].
  - destruct u. now destruct H.
  - split; intro X; discriminate X.
  - split; intro X; discriminate X.
  - split; intro X; discriminate X.
Qed.
Print Assumptions C129_unreached.
(** A client with a route too long for a request. *)
Definition stray : auto := Auto {| s_size := 4002; s_counter := 0; s_handle := 0; s_context := 0; s_otid := 0; s_serial := 0; s_vendor := 39321; s_orig := 42; s_rpi := 2500;
  s_route := repeat 1 (Z.to_nat 65500) |} (Wire (two_routes, handler_new) false false).
Example ex_C129_unreached : wr_up (a_wire stray) = false /\
  fst (fst (OpenModel.connect (served (s_context (a_session stray))) ((fst (wr_sh (a_wire stray)), handler_new), s_handle (a_session stray)) 100 (a_session stray))) <> Ok tt /\
  fst (put_note stray) = Err EEof.
Proof.
  split; [reflexivity|]. split; [|vm_compute; reflexivity].
  assert (E : fst (fst (OpenModel.connect (served (s_context (a_session stray))) ((fst (wr_sh (a_wire stray)), handler_new), s_handle (a_session stray)) 100 (a_session stray))) = Err EEof)
    by (vm_compute; reflexivity). intro X. rewrite E in X. discriminate X.
Qed.
