(** * C128 for slices *)
From Verif Require Import GoBase IoiModel IoiSpec IoiProof ItemsModel TypesModel ItemsSpec ItemsProof ReadModel ReadSpec ReadProof Prop_Read WriteModel WriteSpec WriteProof
  EipModel EipSpec OpenModel OpenSpec OpenProof TableModel TableSpec TableProof SrvValModel SrvValSpec SrvValProof ProvModel ProvSpec ProvProof Prop_SrvVal SrvModel SrvSpec
  SrvProof Prop_Srv ReqSpec LinkModel ReqProof Prop_Req MeetModel MeetSpec MeetProof Prop_Meet AgainSpec Prop_Again AutoModel AutoSpec AutoProof Prop_Auto.

Lemma slice_lost {S} fuel (ctl : controller S) ops s s1 otid q tg k n e : named ops tg -> t_bit tg = None -> 2 <= n < 65536 ->
  ctl s (read_request otid q (encode tg) n) = (Err e, s1) -> client_read_slice fuel ctl (cl_run ops) s otid q (text tg) k n = (Err e, s1, q + 1).
Proof.
  intros (V & K & L) B Hn E. pose proof (C01_lemma ops tg (kind_cip k) V K) as New. rewrite B in New.
  unfold client_read_slice. rewrite (Z.mod_small n) by lia. destruct (Z.eqb_spec n 0); [lia|].
  unfold read_single. rewrite New. unfold read_single_ioi. cbn [ioi_buf]. rewrite read_req_wire by exact L. rewrite E. unfold cast_array. destruct (Z.eqb_spec n 0); [lia|reflexivity].
Qed.
Lemma slice_short {S} fuel (ctl : controller S) ops s s1 otid q tg k n x p e : named ops tg -> t_bit tg = None -> 2 <= n < 65536 ->
  ctl s (read_request otid q (encode tg) n) = (Ok (x, p), s1) -> parse_read_hdr p = Err e ->
  client_read_slice fuel ctl (cl_run ops) s otid q (text tg) k n = (Err e, s1, q + 1).
Proof.
  intros (V & K & L) B Hn E P. pose proof (C01_lemma ops tg (kind_cip k) V K) as New. rewrite B in New.
  unfold client_read_slice. rewrite (Z.mod_small n) by lia. destruct (Z.eqb_spec n 0); [lia|].
  unfold read_single. rewrite New. unfold read_single_ioi. cbn [ioi_buf]. rewrite read_req_wire by exact L. rewrite E, P. unfold cast_array. destruct (Z.eqb_spec n 0); [lia|reflexivity].
Qed.

(** An array of numbers of the type asked for, at least as long as asked for. *)
Definition fair_slice (i : nat) (a : auto) (ops : list cl_op) (tg : tag) (k : gokind) (l : list gval) : Prop :=
  named ops tg /\ addressed tg /\ (exists code, number_code k = Some code) /\ k <> KBool /\ Forall (is_number k) l /\ Forall representable l /\
  2 <= len l /\ clear_count (len l) /\ len (concat (map number_data l)) < 63990 /\
  ProvSpec.reads (tags i a) (text tg) (len l) (VMany (EK k) (map VOne l)).

Lemma slice_linked c sh i fuel ops q tg k l tcp up : linked (s_handle c) (s_context c) (s_otid c) i sh -> fair_slice i (Auto c (Wire sh tcp up)) ops tg k l ->
  exists sh1, client_read_slice fuel (over_wire c) (cl_run ops) (Wire sh true true) (s_otid c) q (text tg) k (len l) = (Ok l, Wire sh1 true true, q + 1) /\
    linked (s_handle c) (s_context c) (s_otid c) i sh1 /\ fst sh1 = fst sh.
Proof.
  intros L (N & Ad & (code & Nc) & Nb & I & R & L2 & Cc & Lb & Rd).
  destruct (over_read c sh i q tg (len l) _ code 0 _ L Ad (proj2 (proj2 N)) Cc Rd (wv_numbers k code l Nc Nb I)) as (p & sh1 & E & A & L1 & F1); [lia|].
  exists sh1. split; [|split; assumption]. pose proof (proj1 Cc) as C1. assert (Ln : 2 <= len l < 65536) by lia.
  assert (Ea : encodes_all code l (concat (map number_data l)) /\ code <> 0xC9).
  { split.
    - clear - Nc I R. revert R. induction I as [|v l Iv _ IH]; intro R; [constructor|]. inversion R; subst. cbn [map concat]. constructor; [|now apply IH].
      now apply (number_encodes k v code).
    - destruct l as [|v l]; [change (len (@nil gval)) with 0 in L2; lia|]. inversion I; subst. inversion R; subst.
      now apply (number_encodes k v code). }
  destruct Ea as [Ea C9].
  assert (Aw : answers_with (over_wire c) (Wire sh true true) (s_otid c) q (encode tg) (len l) 0 code (concat (map number_data l) ++ []) (Wire sh1 true true))
    by (rewrite app_nil_r; now exists 0, p).
  apply (proj1 (C17_array_partial _ _ fuel ops _ _ (s_otid c) q tg code l (concat (map number_data l)) [] k N Ea C9 Ln Aw)).
  eapply Forall_impl; [|exact I]. intros v Iv. destruct v; cbn [is_number] in Iv; try contradiction; now subst k.
Qed.
Lemma slice_unlinked c sh fuel ops q tg k n : over_ok c -> handler_ok (snd sh) -> named ops tg -> t_bit tg = None -> 2 <= n < 65536 -> conn_by_ot (fst sh) (s_otid c) = Err EMsg ->
  exists e sh1, client_read_slice fuel (over_wire c) (cl_run ops) (Wire sh true true) (s_otid c) q (text tg) k n = (Err e, Wire sh1 false true, q + 1) /\ fst sh1 = fst sh /\ handler_ok (snd sh1).
Proof.
  intros (Hh & Hc & Ho) Hk N B Hn Ec. pose proof (proj2 (proj2 N)) as Nl.
  pose proof (got_read (fst sh) (snd sh) c q tg n Hh Hc Nl) as G.
  set (h1 := Handler _ _ _ _ _ _) in G.
  assert (R : got (fst sh) (snd sh) c (read_request (s_otid c) q (encode tg) n) =
    (Err EMsg, snd (send 0x70 (serialize_items (map mk [(0xA1, le 4 0); (0xB1, le 2 0 ++ [0xCC; 0; 7; 0])])) (World (fst sh) h1 [] [])))).
  { rewrite G. unfold connected_read. unfold bindM at 1, ask. rewrite <- (app_nil_r (le 4 (s_otid c))), rd_app by apply le_length. cbn [or_send]. erewrite lift_ok by reflexivity. cbv beta iota.
    rewrite unle_le_small by (cbn; lia). cbn [w_srv]. rewrite Ec. reflexivity. }
  pose proof (over_sent c sh _ _ _ _ _ _ R (or_intror (ex_intro _ EMsg eq_refl)) ltac:(exact Hk) ltac:(exact Hc) (fits_short _ _ _ _) (short_len _ _ _ _)) as O.
  destruct (short_header 0 0 0xCC 7 (fits_short _ _ _ _)) as (e & P).
  exists e, (fst sh, h1). split; [|split; [reflexivity|exact Hk]]. exact (slice_short fuel (over_wire c) ops _ _ (s_otid c) q tg k n _ _ e N B Hn O P).
Qed.
Lemma one_slice hop i s0 a ops tg k l fuel now q r b : in_order hop i s0 -> among hop s0 a -> fair_slice i a ops tg k l ->
  auto_read_slice fuel (cl_run ops) now q (text tg) k (len l) a = (r, b) ->
  among hop s0 b /\
  match wr_up (a_wire a), wr_tcp (a_wire a) with
  | false, _ => r = Ok l /\ wr_up (a_wire b) = true /\ wr_tcp (a_wire b) = true
  | true, false => failed r /\ wr_up (a_wire b) = false
  | true, true => (r = Ok l /\ wr_up (a_wire b) = true /\ wr_tcp (a_wire b) = true) \/ (failed r /\ wr_up (a_wire b) = true /\ wr_tcp (a_wire b) = false)
  end.
Proof.
  intros I0 (V & Vc & Ho & Hh) Fs E. destruct a as [c [sh tcp up]]. cbn [a_session a_wire wr_sh wr_up wr_tcp] in *.
  pose proof Fs as (N & Ad & F3 & F4 & F5 & F6 & F7 & F8 & F9 & Sh). pose proof (proj1 F8) as C1. assert (Ln : 2 <= len l < 65536) by lia.
  pose proof (visits_order hop i s0 _ I0 V) as In. pose proof Ad as (_ & B & _). pose proof Vc as (Vs & Vh & Vx & Vr & Vn & Vp).
  unfold auto_read_slice, auto_check in E. cbn [a_session a_wire wr_sh wr_up] in E. destruct up.
  - cbn [a_session a_wire] in E. destruct tcp.
    + destruct (conn_by_ot (fst sh) (s_otid c)) as [cn|e| |] eqn:Ec; try (unfold conn_by_ot in Ec; destruct (conn_get _ _); discriminate).
      * pose proof (found_linked hop i (fst sh) (snd sh) c cn In Vc Ho Hh Ec) as L. destruct sh as [s h]. cbn [fst snd] in *.
        destruct (slice_linked c (s, h) i fuel ops q tg k l _ _ L Fs) as (sh1 & Er & L1 & F1). rewrite Er in E. injection E as <- <-.
        split; [|left; auto]. split; [cbn [a_wire wr_sh]; rewrite F1; exact V|]. split; [exact Vc|]. split; [exact Ho|]. apply L1.
      * assert (e = EMsg) by (unfold conn_by_ot in Ec; destruct (conn_get _ _); congruence). subst e.
        destruct (slice_unlinked c sh fuel ops q tg k (len l) (conj Vh (conj Vx Ho)) Hh N B Ln Ec) as (e & sh1 & Er & F1 & H1).
        rewrite Er in E. injection E as <- <-. split; [|right; split; [now exists e|auto]].
        split; [cbn [a_wire wr_sh]; rewrite F1; exact V|]. split; [exact Vc|]. split; [exact Ho|]. exact H1.
    + rewrite (slice_lost fuel (over_wire c) ops (Wire sh false true) (Wire sh false false) (s_otid c) q tg k (len l) EMsg N B Ln eq_refl) in E. injection E as <- <-.
      split; [|split; [now exists EMsg|reflexivity]]. split; [exact V|]. split; [exact Vc|]. split; [exact Ho|exact Hh].
  - pose proof In as (S & O & R1 & R2 & R3).
    assert (Rt : routed (fst (fst sh, handler_new)) (s_route c) i) by (cbn [fst]; split; [rewrite Vp; exact R1|]; split; assumption).
    destruct (joins (fst sh, handler_new) now c i (visitor_ok _ _ Vc) S Rt) as (c' & sh' & E1 & Cx & Cr & T & S' & L & O'); [rewrite Vp; exact O|].
    destruct (connect_run (fst sh, handler_new) now c i (visitor_ok _ _ Vc) S Rt) as (c2 & sh2 & to & rpi & E2 & _ & _ & Hn & _).
    rewrite E1 in E2. injection E2 as <- _ _. rewrite E1 in E. cbn [a_session a_wire] in E.
    assert (Vc' : visitor hop c').
    { split; [exact (connect_size _ _ _ _ _ _ Vs E1)|]. split; [apply L|]. split; [apply L|]. rewrite Cr. split; [exact Vr|]. split; [exact Hn|exact Vp]. }
    assert (Fs' : fair_slice i (Auto c' (Wire sh' true true)) ops tg k l).
    { repeat (split; [assumption|]). unfold tags in *. cbn [a_wire wr_sh] in *. rewrite (prov_tags _ _ i T). exact Sh. }
    destruct (slice_linked c' sh' i fuel ops q tg k l _ _ L Fs') as (sh1 & Er & L1 & F1). rewrite Er in E. injection E as <- <-.
    split; [|auto]. split; [|split; [exact Vc'|split; [apply L|apply L1]]]. cbn [a_wire wr_sh]. rewrite F1.
    destruct sh' as [s2 h2]. exact (v_come hop s0 (fst sh) now c c' s2 h2 (s_handle c') V Vc E1).
Qed.

(** Three reads of arrays, each at a time of its own and with anything done by
    others in between: one succeeds. *)
Theorem C128_slices_partial : forall hop i s0 a1 a2 a3 b1 b2 b3 ops1 ops2 ops3 tg1 tg2 tg3 k1 k2 k3 l1 l2 l3 r1 r2 r3 now1 now2 now3 q1 q2 q3 fuel,
  in_order hop i s0 -> among hop s0 a1 ->
  fair_slice i a1 ops1 tg1 k1 l1 -> auto_read_slice fuel (cl_run ops1) now1 q1 (text tg1) k1 (len l1) a1 = (r1, b1) -> meanwhile hop b1 a2 ->
  fair_slice i a2 ops2 tg2 k2 l2 -> auto_read_slice fuel (cl_run ops2) now2 q2 (text tg2) k2 (len l2) a2 = (r2, b2) -> meanwhile hop b2 a3 ->
  fair_slice i a3 ops3 tg3 k3 l3 -> auto_read_slice fuel (cl_run ops3) now3 q3 (text tg3) k3 (len l3) a3 = (r3, b3) ->
  r1 = Ok l1 \/ (failed r1 /\ (r2 = Ok l2 \/ (failed r2 /\ r3 = Ok l3))).
Proof.
  intros hop i s0 a1 a2 a3 b1 b2 b3 ops1 ops2 ops3 tg1 tg2 tg3 k1 k2 k3 l1 l2 l3 r1 r2 r3 now1 now2 now3 q1 q2 q3 fuel I0 A1 F1 E1 M1 F2 E2 M2 F3 E3.
  destruct (one_slice _ _ _ _ _ _ _ _ _ _ _ _ _ I0 A1 F1 E1) as (B1 & X1). pose proof (meanwhile_among _ _ _ _ M1 B1) as A2.
  destruct (one_slice _ _ _ _ _ _ _ _ _ _ _ _ _ I0 A2 F2 E2) as (B2 & X2). pose proof (meanwhile_among _ _ _ _ M2 B2) as A3.
  destruct (one_slice _ _ _ _ _ _ _ _ _ _ _ _ _ I0 A3 F3 E3) as (_ & X3).
  destruct M1 as (_ & T1 & U1 & _), M2 as (_ & T2 & U2 & _). rewrite T1, U1 in X2. rewrite T2, U2 in X3.
  destruct (wr_up (a_wire a1)); [|left; apply X1].
  destruct (wr_tcp (a_wire a1)).
  - destruct X1 as [(-> & _)|(Fl & Ub & Tb)]; [now left|right]. split; [exact Fl|]. rewrite Ub, Tb in X2.
    destruct X2 as (Fl2 & Ub2). right. split; [exact Fl2|]. rewrite Ub2 in X3. apply X3.
  - destruct X1 as (Fl & Ub). right. split; [exact Fl|]. rewrite Ub in X2. left. apply X2.
Qed.
Print Assumptions C128_slices_partial.

(** A client that reads a tag that does not exist and then the first two elements
    of an array three times: the array comes with the second. *)
Definition two : list gval := [GInt true 2 1; GInt true 2 2].
Definition read_two (now q : Z) (a : auto) : res (list gval) * auto := auto_read_slice 0 (cl_run []) now q (text (nm (str "arr") [])) (KInt true 2) 2 a.
Definition after_sped : auto := snd trip2.
Definition arr1 := read_two 300 3 after_sped.
Definition arr2 := read_two 400 4 (snd arr1).
Definition arr3 := read_two 500 5 (snd arr2).
Example ex_C128_slices : fair_slice 0 after_sped [] (nm (str "arr") []) (KInt true 2) two /\
  fst arr1 = Err EMsg /\ fst arr2 = Ok two /\ fst arr3 = Ok two.
Proof.
  split; [|vm_compute; repeat split].
  split; [demo_tag|]. split; [demo_tag|]. split; [now exists 0xC3|]. split; [discriminate|].
  split; [repeat constructor|]. split; [unfold two; repeat (constructor; [cbn; lia|]); constructor|].
  split; [vm_compute; discriminate|]. split; [unfold clear_count; change (len two) with 2; rewrite Z.mod_small by lia; lia|]. split; [vm_compute; reflexivity|].
  assert (T : tags 0 after_sped (str "arr") = Some (VMany (EK (KInt true 2)) [VOne (GInt true 2 1); VOne (GInt true 2 2); VOne (GInt true 2 3)])) by (vm_compute; reflexivity).
  change (map VOne two) with (firstn (Z.to_nat (len two)) [VOne (GInt true 2 1); VOne (GInt true 2 2); VOne (GInt true 2 3)]).
  apply (r_many _ _ _ (EK (KInt true 2))); [|exact T|].
  - apply Prop_Prov.plain_no_bracket. intro I. vm_compute in I. intuition discriminate.
  - change (len two) with 2. cbn. lia.
Qed.
