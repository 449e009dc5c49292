(** * C128: a failed call and the next one *)
From Verif Require Import GoBase IoiModel IoiSpec IoiProof ItemsModel TypesModel ItemsSpec ItemsProof ReadModel ReadSpec ReadProof Prop_Read WriteModel WriteSpec
  EipModel EipSpec OpenModel OpenSpec OpenProof TableModel TableSpec TableProof SrvValModel SrvValSpec SrvValProof ProvModel ProvSpec ProvProof Prop_SrvVal SrvModel SrvSpec
  SrvProof Prop_Srv ReqSpec LinkModel ReqProof Prop_Req MeetModel MeetSpec MeetProof Prop_Meet AgainSpec Prop_Again AutoModel AutoSpec AutoProof.
From Verif Require Prop_Prov.

(** Full statement: a client with AutoConnect that got an error, say because the
    tag does not exist, can go on with its next call.  It is false: the server
    answers and ends the TCP connection, which the client only notices at the next
    call ([C128_next_fails]).  True is that of three reads of existing tags in a
    row at least one succeeds ([C128_recovers_partial]), whatever happened before,
    if all clients use one route. *)

(** A name the client knows, of a tag with a value of the type asked for. *)
Definition fair (i : nat) (a : auto) (ops : list cl_op) (tg : tag) (k : gokind) (v : gval) : Prop :=
  named ops tg /\ addressed tg /\ scalar k v /\ shown i a (text tg) v.

Lemma read_linked c sh i fuel ops q tg k v : linked (s_handle c) (s_context c) (s_otid c) i sh -> named ops tg -> addressed tg -> scalar k v ->
  ProvSpec.reads (behind i sh) (text tg) 1 (VOne v) ->
  exists sh1, client_read fuel (over_wire c) (cl_run ops) (Wire sh true true) (s_otid c) q (text tg) k = (Ok v, Wire sh1 true true, q + 1) /\
    linked (s_handle c) (s_context c) (s_otid c) i sh1 /\ fst sh1 = fst sh.
Proof.
  intros L N Ad Sc R.
  assert (Cc : clear_count 1) by (unfold clear_count; rewrite Z.mod_small by lia; lia).
  pose proof (proj2 (proj2 N)) as Nl. pose proof Ad as (_ & B & _).
  destruct Sc as [(code & Nc & I & Rp)|(s & -> & Ls & ->)].
  - assert (En := number_encodes k v code Nc I Rp). destruct En as (En & C9 & _).
    assert (Lv : len (number_data v) < 65000) by (apply encodes_length in En; unfold len; lia).
    destruct (over_read c sh i q tg 1 (VOne v) code 0 (number_data v) L Ad Nl Cc R (wv_number k code v Nc I) Lv) as (p & sh1 & E & A & L1 & F1).
    exists sh1. split; [|split; assumption].
    assert (Aw : answers_with (over_wire c) (Wire sh true true) (s_otid c) q (encode tg) 1 0 code (number_data v ++ []) (Wire sh1 true true))
      by (rewrite app_nil_r; now exists 0, p).
    apply (proj1 (C17_scalar_partial _ _ fuel ops _ _ (s_otid c) q tg code v (number_data v) [] k N B En C9 Aw)).
    destruct v; cbn [is_number] in I; try contradiction; now subst k.
  - assert (Es : firstn 82 s = s) by (apply firstn_all2; unfold len in Ls; lia).
    pose proof (wv_string s) as W. rewrite Es in W. rewrite Z.min_l in W by lia.
    change ([160; 2; 206; 15] ++ ?x) with ([160; 2] ++ ([206; 15] ++ x)) in W.
    assert (Lv : len ([206; 15] ++ le 4 (len s) ++ s ++ zeros (84 - length s)) < 65000).
    { rewrite !len_app, le_len. unfold zeros. unfold len in *. rewrite repeat_length. cbn [length]. lia. }
    destruct (over_read c sh i q tg 1 _ _ _ _ L Ad Nl Cc R W Lv) as (p & sh1 & E & A & L1 & F1).
    exists sh1. split; [|split; assumption].
    apply (C17_string _ _ fuel ops _ _ (s_otid c) q tg s (le 4 (len s) ++ s ++ zeros (84 - length s)) [206; 15] [] N); [|reflexivity|].
    + exists (zeros (82 - length s)), [0; 0]. split; [exact Ls|]. unfold len in Ls. split; [rewrite app_length; unfold zeros; rewrite repeat_length; lia|].
      split; [reflexivity|]. do 2 f_equal. change [0; 0] with (zeros 2). unfold zeros. rewrite <- repeat_app. f_equal. lia.
    + exists 0, p. split; [exact E|]. rewrite app_nil_r. exact A.
Qed.

(** A connection found leads where the clients go. *)
Lemma found_linked hop i s h c cn : in_order hop i s -> visitor hop c -> 0 <= s_otid c < 2 ^ 32 -> handler_ok h -> conn_by_ot s (s_otid c) = Ok cn ->
  linked (s_handle c) (s_context c) (s_otid c) i (s, h).
Proof.
  intros (S & O & R1 & R2 & R3) (_ & B & C & _) Ho Hh E.
  split; [exact B|]. split; [exact C|]. split; [exact Ho|]. split; [exact Hh|]. split; [|exact R3].
  exists (sc_to cn). split; [exact R2|]. exists cn. split; [exact E|]. split; [reflexivity|].
  unfold conn_by_ot in E. destruct (conn_get (sv_cm s) (KeyOT (s_otid c))) as [a|] eqn:G; [|discriminate].
  assert (Gd : good (sv_cm s)) by (apply reached_good, S). destruct (get_live' _ _ _ Gd G) as (x & Nx & _ & _). injection E as E. rewrite (conn_at_nth _ _ _ Nx) in E. subst x.
  unfold one_hop in O. rewrite Forall_forall in O. destruct (O cn (nth_error_In _ _ Nx)) as [-> _]. exact R1.
Qed.

(** One read of an existing tag: a client that is not connected connects and gets
    the value; one whose TCP connection the server has ended gets an error and is
    not connected any more; any other gets the value, or an error after which the
    TCP connection is ended. *)
Lemma one_read hop i s0 a ops tg k v fuel now q r b : in_order hop i s0 -> among hop s0 a -> fair i a ops tg k v ->
  auto_read fuel (cl_run ops) now q (text tg) k a = (r, b) ->
  among hop s0 b /\
  match wr_up (a_wire a), wr_tcp (a_wire a) with
  | false, _ => r = Ok v /\ wr_up (a_wire b) = true /\ wr_tcp (a_wire b) = true
  | true, false => failed r /\ wr_up (a_wire b) = false
  | true, true => (r = Ok v /\ wr_up (a_wire b) = true /\ wr_tcp (a_wire b) = true) \/ (failed r /\ wr_up (a_wire b) = true /\ wr_tcp (a_wire b) = false)
  end.
Proof.
  intros I0 (V & Vc & Ho & Hh) (N & Ad & Sc & Sh) E. destruct a as [c [sh tcp up]]. cbn [a_session a_wire wr_sh wr_up wr_tcp] in *.
  pose proof (visits_order hop i s0 _ I0 V) as In. pose proof Ad as (_ & B & _). pose proof Vc as (Vs & Vh & Vx & Vr & Vn & Vp).
  unfold auto_read, auto_check in E. cbn [a_session a_wire wr_sh wr_up] in E. destruct up.
  - cbn [a_session a_wire] in E. destruct tcp.
    + destruct (conn_by_ot (fst sh) (s_otid c)) as [cn|e| |] eqn:Ec; try (unfold conn_by_ot in Ec; destruct (conn_get _ _); discriminate).
      * pose proof (found_linked hop i (fst sh) (snd sh) c cn In Vc Ho Hh Ec) as L. destruct sh as [s h]. cbn [fst snd] in *.
        destruct (read_linked c (s, h) i fuel ops q tg k v L N Ad Sc Sh) as (sh1 & Er & L1 & F1). rewrite Er in E. injection E as <- <-.
        split; [|left; auto]. split; [cbn [a_wire wr_sh]; rewrite F1; exact V|]. split; [exact Vc|]. split; [exact Ho|]. apply L1.
      * assert (e = EMsg) by (unfold conn_by_ot in Ec; destruct (conn_get _ _); congruence). subst e.
        destruct (read_unlinked c sh fuel ops q tg k (conj Vh (conj Vx Ho)) Hh N B Ec) as (e & sh1 & Er & F1 & H1).
        rewrite Er in E. injection E as <- <-. split; [|right; split; [now exists e|auto]].
        split; [cbn [a_wire wr_sh]; rewrite F1; exact V|]. split; [exact Vc|]. split; [exact Ho|]. exact H1.
    + rewrite (read_lost fuel (over_wire c) ops (Wire sh false true) (Wire sh false false) (s_otid c) q tg k EMsg N B eq_refl) in E. injection E as <- <-.
      split; [|split; [now exists EMsg|reflexivity]]. split; [exact V|]. split; [exact Vc|]. split; [exact Ho|exact Hh].
  - pose proof In as (S & O & R1 & R2 & R3).
    assert (Rt : routed (fst (fst sh, handler_new)) (s_route c) i) by (cbn [fst]; split; [rewrite Vp; exact R1|]; split; assumption).
    destruct (joins (fst sh, handler_new) now c i (visitor_ok _ _ Vc) S Rt) as (c' & sh' & E1 & Cx & Cr & T & S' & L & O'); [rewrite Vp; exact O|].
    destruct (connect_run (fst sh, handler_new) now c i (visitor_ok _ _ Vc) S Rt) as (c2 & sh2 & to & rpi & E2 & _ & _ & Hn & _).
    rewrite E1 in E2. injection E2 as <- _ _. rewrite E1 in E. cbn [a_session a_wire] in E.
    assert (Vc' : visitor hop c').
    { split; [exact (connect_size _ _ _ _ _ _ Vs E1)|]. split; [apply L|]. split; [apply L|]. rewrite Cr. split; [exact Vr|]. split; [exact Hn|exact Vp]. }
    assert (Sh' : ProvSpec.reads (behind i sh') (text tg) 1 (VOne v)) by (unfold behind; rewrite (prov_tags _ _ i T); exact Sh).
    destruct (read_linked c' sh' i fuel ops q tg k v L N Ad Sc Sh') as (sh1 & Er & L1 & F1). rewrite Er in E. injection E as <- <-.
    split; [|auto]. split; [|split; [exact Vc'|split; [apply L|apply L1]]]. cbn [a_wire wr_sh]. rewrite F1.
    destruct sh' as [s2 h2]. exact (v_come hop s0 (fst sh) now c c' s2 h2 (s_handle c') V Vc E1).
Qed.

Lemma meanwhile_among hop s0 a b : meanwhile hop a b -> among hop s0 a -> among hop s0 b.
Proof.
  intros (M1 & _ & _ & M4 & M5) (V & Vc & Ho & Hh). split; [exact (visits_trans _ _ _ _ V M5)|]. rewrite M1, M4. auto.
Qed.

(** Three reads of existing tags, each at a time of its own and with anything
    done by others in between: one succeeds. *)
Theorem C128_recovers_partial : forall hop i s0 a1 a2 a3 b1 b2 b3 ops1 ops2 ops3 tg1 tg2 tg3 k1 k2 k3 v1 v2 v3 r1 r2 r3 now1 now2 now3 q1 q2 q3 fuel,
  in_order hop i s0 -> among hop s0 a1 ->
  fair i a1 ops1 tg1 k1 v1 -> auto_read fuel (cl_run ops1) now1 q1 (text tg1) k1 a1 = (r1, b1) -> meanwhile hop b1 a2 ->
  fair i a2 ops2 tg2 k2 v2 -> auto_read fuel (cl_run ops2) now2 q2 (text tg2) k2 a2 = (r2, b2) -> meanwhile hop b2 a3 ->
  fair i a3 ops3 tg3 k3 v3 -> auto_read fuel (cl_run ops3) now3 q3 (text tg3) k3 a3 = (r3, b3) ->
  r1 = Ok v1 \/ (failed r1 /\ (r2 = Ok v2 \/ (failed r2 /\ r3 = Ok v3))).
Proof.
  intros hop i s0 a1 a2 a3 b1 b2 b3 ops1 ops2 ops3 tg1 tg2 tg3 k1 k2 k3 v1 v2 v3 r1 r2 r3 now1 now2 now3 q1 q2 q3 fuel I0 A1 F1 E1 M1 F2 E2 M2 F3 E3.
  destruct (one_read _ _ _ _ _ _ _ _ _ _ _ _ _ I0 A1 F1 E1) as (B1 & X1). pose proof (meanwhile_among _ _ _ _ M1 B1) as A2.
  destruct (one_read _ _ _ _ _ _ _ _ _ _ _ _ _ I0 A2 F2 E2) as (B2 & X2). pose proof (meanwhile_among _ _ _ _ M2 B2) as A3.
  destruct (one_read _ _ _ _ _ _ _ _ _ _ _ _ _ I0 A3 F3 E3) as (B3 & X3).
  destruct M1 as (_ & T1 & U1 & _). destruct M2 as (_ & T2 & U2 & _). rewrite T1, U1 in X2. rewrite T2, U2 in X3.
  destruct (wr_up (a_wire a1)); [|left; apply X1].
  destruct (wr_tcp (a_wire a1)).
  - destruct X1 as [(X1 & _)|(X1 & Xu & Xt)]; [now left|]. right. split; [exact X1|]. rewrite Xu, Xt in X2. destruct X2 as (X2 & Xv). right. split; [exact X2|]. rewrite Xv in X3. apply X3.
  - destruct X1 as (X1 & Xu). right. split; [exact X1|]. rewrite Xu in X2. left. apply X2.
Qed.
Print Assumptions C128_recovers_partial.

(** A client in good order goes on reading: value after value. *)
Theorem C128_steady : forall c i sh ops tg k v fuel now q, linked (s_handle c) (s_context c) (s_otid c) i sh -> fair i (Auto c (Wire sh true true)) ops tg k v ->
  exists sh1, auto_read fuel (cl_run ops) now q (text tg) k (Auto c (Wire sh true true)) = (Ok v, Auto c (Wire sh1 true true)) /\
    linked (s_handle c) (s_context c) (s_otid c) i sh1 /\ fst sh1 = fst sh.
Proof.
  intros c i sh ops tg k v fuel now q L (N & Ad & Sc & R). destruct (read_linked c sh i fuel ops q tg k v L N Ad Sc R) as (sh1 & E & L1 & F1).
  exists sh1. split; [|split; assumption]. unfold auto_read, auto_check. cbn [a_wire wr_up a_session]. rewrite E. reflexivity.
Qed.
Print Assumptions C128_steady.

(** But for every client in good order and every tag that does not exist: the read
    of it is an error, and the next read, whatever existing tag it is of and
    whatever others do in between, is one too. *)
Theorem C128_next_fails : forall c i sh ops tg k ops2 tg2 k2 v2 fuel now q now2 q2 hop, linked (s_handle c) (s_context c) (s_otid c) i sh ->
  named ops tg -> addressed tg -> (forall v, ~ ProvSpec.reads (behind i sh) (text tg) 1 v) ->
  exists r1 b1, auto_read fuel (cl_run ops) now q (text tg) k (Auto c (Wire sh true true)) = (r1, b1) /\ failed r1 /\
    forall a2, meanwhile hop b1 a2 -> fair i a2 ops2 tg2 k2 v2 ->
      exists r2 b2, auto_read fuel (cl_run ops2) now2 q2 (text tg2) k2 a2 = (r2, b2) /\ failed r2 /\ wr_up (a_wire b2) = false.
Proof.
  intros c i sh ops tg k ops2 tg2 k2 v2 fuel now q now2 q2 hop L N Ad Ms. pose proof L as (Hh & Hc & Ho & _).
  destruct (read_missing c sh i fuel ops q tg k (conj Hh (conj Hc Ho)) L N Ad Ms) as (e & sh1 & E & F1 & H1).
  exists (Err e), (Auto c (Wire sh1 false true)). split; [unfold auto_read, auto_check; cbn [a_wire wr_up a_session]; rewrite E; reflexivity|].
  split; [now exists e|]. intros [c2 [sh2 tcp2 up2]] (M1 & M2 & M3 & _) (N2 & Ad2 & _). cbn [a_session a_wire wr_tcp wr_up wr_sh] in M1, M2, M3. subst c2 tcp2 up2.
  eexists _, _. unfold auto_read, auto_check. cbn [a_wire wr_up a_session].
  rewrite (read_lost fuel (over_wire c) ops2 (Wire sh2 false true) (Wire sh2 false false) (s_otid c) q2 tg2 k2 EMsg N2 (proj1 (proj2 Ad2)) eq_refl).
  split; [reflexivity|]. split; [now exists EMsg|reflexivity].
Qed.
Print Assumptions C128_next_fails.

(** The histories the theorems start from include whatever the client itself sent
    over its connection: any bytes as a request. *)
Theorem C128_any_request : forall hop s0 c x req, among hop s0 (Auto c x) -> len req < 2 ^ 16 -> among hop s0 (Auto c (snd (over_wire c x req))).
Proof.
  intros hop s0 c x req (V & Vc & Ho & Hh) L. destruct (over_visits hop s0 c x req Vc L V Hh) as (V1 & H1).
  split; [exact V1|]. split; [exact Vc|]. split; [exact Ho|exact H1].
Qed.
Print Assumptions C128_any_request.

(** A client of a server with the tag "speed" reads "sped", "speed" and "speed". *)
Definition newcomer : auto := Auto (new_client 0) (Wire (two_routes, handler_new) false false).
Definition read_of (name : bytes) (now q : Z) (a : auto) : res gval * auto := auto_read 0 (cl_run []) now q (text (nm name [])) (KInt true 4) a.
Definition trip1 := read_of (str "speed") 100 1 newcomer.
Definition trip2 := read_of (str "sped") 200 2 (snd trip1).
Definition trip3 := read_of (str "speed") 300 3 (snd trip2).
Definition trip4 := read_of (str "speed") 400 4 (snd trip3).
Lemma newcomer_among : among [1; 0] two_routes newcomer.
Proof.
  split; [constructor|]. split; [|split; [cbn; lia|split; cbn; lia]].
  unfold visitor. cbn [newcomer a_session]. unfold new_client. cbn [s_size s_handle s_context s_route s_serial]. change (len [1; 0]) with 2. repeat split; try lia.
Qed.
Lemma two_order : in_order [1; 0] 0 two_routes.
Proof. split; [apply two_ok; split; cbn; lia|]. split; [constructor|]. apply (two_routed 0). now left. Qed.
Lemma speed_shown a : prov_at (fst (wr_sh (a_wire a))) 0 = prov_at two_routes 0 -> fair 0 a [] (nm (str "speed") []) (KInt true 4) (GInt true 4 7).
Proof.
  intro E. split; [demo_tag|]. split; [demo_tag|]. split.
  - left. exists 0xC4. split; [reflexivity|]. split; [reflexivity|]. cbn. lia.
  - unfold shown. rewrite E. apply r_one; [|vm_compute; reflexivity]. apply Prop_Prov.plain_no_bracket. intro I. vm_compute in I. intuition discriminate.
Qed.
Theorem C128_refuted : exists a, in_order [1; 0] 0 two_routes /\ among [1; 0] two_routes a /\
  failed (fst (read_of (str "sped") 200 2 a)) /\
  fair 0 (snd (read_of (str "sped") 200 2 a)) [] (nm (str "speed") []) (KInt true 4) (GInt true 4 7) /\
  failed (fst (read_of (str "speed") 300 3 (snd (read_of (str "sped") 200 2 a)))).
Proof.
  exists (snd trip1). split; [exact two_order|]. split.
  - eapply one_read; [exact two_order|exact newcomer_among|apply speed_shown; reflexivity|unfold trip1, read_of; apply surjective_pairing].
  - split; [|split].
    + exists EShort. vm_compute. reflexivity.
    + apply speed_shown. vm_compute. reflexivity.
    + exists EMsg. vm_compute. reflexivity.
Qed.
Print Assumptions C128_refuted.

(** The read after that connects again and has the value. *)
Example ex_C128 : fst trip1 = Ok (GInt true 4 7) /\ fst trip2 = Err EShort /\ fst trip3 = Err EMsg /\ fst trip4 = Ok (GInt true 4 7) /\
  map sc_open (connections (fst (wr_sh (a_wire (snd trip4))))) = [true; true].
Proof. vm_compute. repeat split. Qed.

(** The case of two failures without a missing tag: another client closed the
    connection, having the same serial number. *)
Definition closed_by (c : session) (a : auto) : auto := Auto (a_session a)
  (Wire (fst (fst (snd (disconnect (served (s_context c)) (fst (wr_sh (a_wire a)), handler_new, s_handle c) c))), snd (wr_sh (a_wire a)))
        (wr_tcp (a_wire a)) (wr_up (a_wire a))).
Lemma closed_meanwhile c a : visitor [1; 0] c ->
  fst (disconnect (served (s_context c)) (fst (wr_sh (a_wire a)), handler_new, s_handle c) c) = Ok tt -> meanwhile [1; 0] a (closed_by c a).
Proof.
  intros V E. unfold meanwhile, closed_by. cbn [a_session a_wire wr_tcp wr_up wr_sh fst snd]. repeat split.
  destruct (disconnect _ _ _) as [r [[s2 h2] z]] eqn:D. cbn [fst snd] in *. subst r.
  apply (v_leave [1; 0] _ _ handler_new c s2 h2 z (v_none _ _) V); [split; cbn; lia|exact D].
Qed.
Definition closed_for : auto := closed_by (leaver 101) (snd trip1).
Definition trip5 := read_of (str "speed") 200 2 closed_for.
Definition trip6 := read_of (str "speed") 300 3 (snd trip5).
Definition trip7 := read_of (str "speed") 400 4 (snd trip6).
Example ex_C128_recovers : meanwhile [1; 0] (snd trip1) closed_for /\
  fst trip5 = Err EShort /\ fst trip6 = Err EMsg /\ fst trip7 = Ok (GInt true 4 7).
Proof.
  split; [|vm_compute; repeat split]. apply closed_meanwhile; [|vm_compute; reflexivity].
  unfold visitor, leaver. cbn [s_size s_handle s_context s_route s_serial]. change (len [1; 0]) with 2. repeat split; lia.
Qed.
