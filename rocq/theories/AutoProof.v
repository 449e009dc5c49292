(** * Lemmas about a client with AutoConnect *)
From Verif Require Import GoBase SegModel IoiModel IoiSpec IoiProof ItemsModel TypesModel ItemsSpec ItemsProof ReadModel ReadSpec ReadProof WriteModel WriteSpec
  EipModel EipSpec EipProof OpenModel OpenSpec OpenProof TableModel TableSpec TableProof SrvValModel SrvValSpec ProvModel ProvSpec ProvProof SrvModel SrvSpec SrvProof ReqSpec LinkModel ReqProof
  MeetModel MeetSpec MeetProof Prop_Meet AgainSpec Prop_Again AutoModel AutoSpec.
From Verif Require ConcProof.

(** ** A connected request changes no more than tags *)
Lemma used_refl s : tags_used s s.
Proof. split; [reflexivity|]. split; [reflexivity|]. split; [reflexivity|]. split; [reflexivity|]. auto. Qed.
Lemma used_trans s t u : tags_used s t -> tags_used t u -> tags_used s u.
Proof.
  intros (A1 & A2 & A3 & A4 & A5) (B1 & B2 & B3 & B4 & B5).
  split; [congruence|]. split; [congruence|]. split; [congruence|]. split; [congruence|]. intros i H. auto.
Qed.
Definition spares {A} (m : M A) : Prop := forall w, tags_used (w_srv w) (w_srv (snd (m w))) /\
  h_handle (w_h (snd (m w))) = h_handle (w_h w) /\ h_options (w_h (snd (m w))) = h_options (w_h w).
Lemma spares_lift {A} (r : res A) : spares (lift r).
Proof. intro w. split; [apply used_refl|split; reflexivity]. Qed.
Lemma spares_ask {A} (f : world -> A) : spares (ask f).
Proof. intro w. split; [apply used_refl|split; reflexivity]. Qed.
Lemma spares_send c p : spares (send c p).
Proof. intro w. split; [apply used_refl|split; reflexivity]. Qed.
Lemma spares_take n : spares (take n).
Proof. intro w. unfold take. destruct (rd n (w_in w)) as [[? ?]| | |]; (split; [apply used_refl|split; reflexivity]). Qed.
Lemma spares_bind {A B} (m : M A) (k : A -> M B) : spares m -> (forall a, spares (k a)) -> spares (bindM m k).
Proof.
  intros Hm Hk w. unfold bindM. destruct (Hm w) as (H1 & H2 & H3). destruct (m w) as [[a|e| |] w1]; cbn [fst snd] in *; try (split; [exact H1|split; assumption]).
  destruct (Hk a w1) as (K1 & K2 & K3). split; [now apply (used_trans _ (w_srv w1))|split; congruence].
Qed.
Lemma spares_prov i p : forall w, (separate (prov_at (w_srv w) i) -> separate p) -> tags_used (w_srv w) (set_prov i p (w_srv w)).
Proof.
  intros w H. split; [reflexivity|]. split; [reflexivity|]. split; [reflexivity|]. split; [cbn [set_prov sv_provs]; apply setn_length|].
  intros j Hj. destruct (ConcProof.prov_at_set i p (w_srv w) j) as [->|[-> ->]]; auto.
Qed.
Lemma spares_write i tag vs : spares (write_values i tag vs).
Proof.
  intro w. destruct vs as [|v vs].
  - split; [apply used_refl|split; reflexivity].
  - rewrite write_values_run by discriminate. destruct (write_given _ _ _ _) as [p r] eqn:E. cbn [snd w_srv w_h].
    split; [|split; reflexivity]. apply spares_prov. intro Hs. exact (proj1 (write_given_spec _ _ _ _ _ _ Hs E)).
Qed.
Lemma spares_or_send {A} (r : res A) m : spares m -> spares (or_send r m).
Proof. intro H. destruct r; try apply spares_lift. cbn [or_send]. apply spares_bind; [exact H|intro; apply spares_lift]. Qed.
Lemma spares_or_reply {A} (r : res A) m k : spares m -> (forall a, spares (k a)) -> spares (or_reply r m k).
Proof. intros H K. destruct r; cbn [or_reply]; try apply spares_lift; auto. Qed.
Ltac spare :=
  repeat match goal with
     | |- forall _, spares _ => intro
     | |- forall _ _, spares _ => intros ? ?
     | |- spares (lift _) => apply spares_lift
     | |- spares (ask _) => apply spares_ask
     | |- spares (send _ _) => apply spares_send
     | |- spares (take _) => apply spares_take
     | |- spares (write_values _ _ _) => apply spares_write
     | |- spares (bindM _ _) => apply spares_bind
     | |- spares (or_send _ _) => apply spares_or_send
     | |- spares (or_reply _ _ _) => apply spares_or_reply
     | |- spares (let '(_, _) := ?x in _) => destruct x
     | |- spares (if ?b then _ else _) => destruct b
     | |- spares (match ?x with _ => _ end) => destruct x
     | |- spares fail => apply spares_lift
     | |- spares (ret _) => apply spares_lift
     | |- spares (unit_reply _ _ _) => unfold unit_reply
     | |- spares (conn_reply _ _ _ _) => unfold conn_reply
     | |- spares (conn_error _ _ _ _) => unfold conn_error
     | |- _ => progress cbv zeta
     end.
Lemma spares_multi_subs i d1 offs : spares (multi_subs i d1 offs).
Proof.
  induction offs as [|o offs IH]; [apply spares_lift|]. cbn [multi_subs]. apply spares_bind; [unfold multi_sub; spare|].
  intro x. apply spares_bind; [exact IH|spare].
Qed.
Lemma spares_unit_items its : spares (unit_items its).
Proof.
  unfold unit_items. destruct its as [|i0 [|i1 [|]]]; try (spare; fail).
  destruct (negb _); [spare|]. apply spares_bind; [spare|]. intros _. apply spares_bind; [spare|]. intros [q r1].
  apply spares_bind; [intro w; split; [apply used_refl|split; reflexivity]|]. intros _. apply spares_bind; [spare|]. intros [sv r2].
  cbv zeta. destruct (_ =? svc_write); [unfold connected_write; spare|]. destruct (_ || _); [unfold connected_read; spare|].
  destruct (_ =? svc_multi); [unfold connected_multi; spare; apply spares_multi_subs|].
  destruct (_ =? svc_get_single); [unfold connected_get_attr; spare|].
  destruct (_ =? svc_get_all); [unfold get_attribute_all; spare|].
  destruct (_ =? svc_list); [unfold connected_symbols; spare|]. spare.
Qed.
Lemma spares_unit_data : spares unit_data.
Proof.
  unfold unit_data. apply spares_bind; [spare|]. intros _. apply spares_bind; [spare|]. intros _. unfold with_items.
  apply spares_bind; [spare|]. intro w. destruct (read_items (w_in w)) as [[its r]| | |]; [|spare..].
  apply spares_bind; [intro w1; split; [apply used_refl|split; reflexivity]|]. intros _. apply spares_unit_items.
Qed.

Definition got (s : server) (h : handler) (c : session) (req : bytes) : res unit * world :=
  serve_one (World s h (send_msg_build (s_handle c) (s_context c) cmd_unitdata [req]) []).
Lemma got_used s h c req : len req < 2 ^ 16 -> 0 <= s_handle c < 2 ^ 32 -> 0 <= s_context c < 2 ^ 64 ->
  tags_used s (w_srv (snd (got s h c req))) /\ (handler_ok h -> handler_ok (w_h (snd (got s h c req)))).
Proof.
  intros L Hh Hc. unfold got.
  assert (FO : frame_ok (frame_of cmd_unitdata (s_handle c) (s_context c) 0 [req])).
  { unfold frame_ok, frame_of. cbn [f_command f_session f_status f_context f_options f_payload concat]. rewrite app_nil_r. unfold cmd_unitdata. lia. }
  rewrite client_build by (cbn [concat]; now rewrite app_nil_r).
  destruct (frame_split _ FO) as (hb & Ef & Lh & Hcmd & Hx & _ & _). rewrite Ef.
  erewrite serve_one_ok by (now apply take_app).
  unfold dispatch. rewrite Hcmd. cbn [frame_of f_command]. change (cmd_unitdata =? cmd_register) with false.
  change (cmd_unitdata =? cmd_rrdata) with false. change (cmd_unitdata =? cmd_unitdata) with true. cbn iota.
  set (w1 := with_context _ _ _). destruct (spares_unit_data w1) as (U & K1 & K2).
  split; [exact U|]. intros (O1 & O2). split; [rewrite K1|rewrite K2]; assumption.
Qed.

(** ** The server among its visitors *)
Lemma gives_up_visits hop s0 c sh tcp : visitor hop c -> handler_ok (snd sh) -> visits hop s0 (fst sh) ->
  visits hop s0 (fst (wr_sh (gives_up c sh tcp))) /\ handler_ok (snd (wr_sh (gives_up c sh tcp))).
Proof.
  intros Vc Hh V. unfold gives_up. cbn [wr_sh]. destruct tcp; [|split; assumption].
  pose proof Vc as (_ & B & C & D & F & _). pose proof (disconnect_run (s_context c) sh (s_handle c) c B C F ltac:(lia)) as E.
  destruct (disconnect (served (s_context c)) (sh, s_handle c) c) as [r [[s2 h2] z]] eqn:Ed. injection E as -> Es Eh Ez. cbn [fst snd].
  split; [|subst h2; exact Hh].
  destruct sh as [s h]. exact (v_leave hop s0 s h c s2 h2 z V Vc Hh Ed).
Qed.
Lemma over_visits hop s0 c x req : visitor hop c -> len req < 2 ^ 16 -> visits hop s0 (fst (wr_sh x)) -> handler_ok (snd (wr_sh x)) ->
  visits hop s0 (fst (wr_sh (snd (over_wire c x req)))) /\ handler_ok (snd (wr_sh (snd (over_wire c x req)))).
Proof.
  intros Vc L V Hh. unfold over_wire. destruct (negb (wr_up x)); [split; assumption|].
  destruct (negb (wr_tcp x)); [apply gives_up_visits; assumption|].
  pose proof Vc as (_ & B & C & _). destruct (got_used (fst (wr_sh x)) (snd (wr_sh x)) c req L B C) as (U & K). unfold got in U, K.
  destruct (serve_one _) as [r w]. cbn [snd] in U, K. specialize (K Hh).
  assert (V1 : visits hop s0 (w_srv w)) by (exact (v_tags hop s0 _ _ V U)).
  destruct r as [[]|e| |]; [| |split; assumption|split; assumption];
    (destruct (fst (recv_data (w_sent w))) as [[h d]|e'| |]; [split; assumption|apply gives_up_visits; assumption|split; assumption|split; assumption]).
Qed.
Lemma visits_trans hop s t u : visits hop s t -> visits hop t u -> visits hop s u.
Proof.
  intros A B. induction B; [exact A|eapply v_come; eassumption|eapply v_leave; eassumption|eapply v_tags; eassumption].
Qed.

(** Connecting keeps the size in its range. *)
Lemma forward_open_size {S} (p : OpenModel.peer S) s c it c' s' : forward_open p s c it = (Ok c', s') -> s_size c' = s_size c.
Proof.
  unfold forward_open. destruct (p _ _ _) as [[[h d]|e| |] s1]; try discriminate. intro E. apply (f_equal fst) in E. cbn [fst] in E.
  destruct (parse_response h d) as [it2|e| |]; try discriminate. cbn [bind] in E. destruct (item_des 26 it2) as [[r|e| |] it3]; try discriminate.
  injection E as <-. reflexivity.
Qed.
Lemma large_size c it c' : 0 <= s_size c < 65536 -> new_open_large c = (it, c') -> 0 <= s_size c' < 65536.
Proof.
  intros H E. apply (f_equal (fun x => s_size (snd x))) in E. cbn [snd] in E. rewrite <- E. unfold new_open_large. cbv zeta. cbn [snd].
  destruct (s_size c =? 0); cbn; lia.
Qed.
Lemma standard_size c it c' : 0 <= s_size c < 65536 -> new_open_standard c = (it, c') -> 0 <= s_size c' < 65536.
Proof.
  intros H E. apply (f_equal (fun x => s_size (snd x))) in E. cbn [snd] in E. rewrite <- E. unfold new_open_standard. cbv zeta. cbn [snd].
  destruct (s_size c =? 0); [cbn; lia|]; destruct (511 <? s_size c); cbn; lia.
Qed.
Lemma connect_size {S} (p : OpenModel.peer S) s now c c' s' : 0 <= s_size c < 65536 -> OpenModel.connect p s now c = (Ok tt, c', s') -> 0 <= s_size c' < 65536.
Proof.
  intros H E. unfold OpenModel.connect in E. set (c0 := add_counter (if s_size c =? 0 then with_size c 4000 else c) now) in E.
  assert (H0 : 0 <= s_size c0 < 65536) by (unfold c0; destruct (s_size c =? 0); cbn; lia). clearbody c0.
  unfold OpenModel.register_session in E. destruct (p s cmd_register _) as [[[h d]|e| |] s1]; try discriminate.
  set (c1 := with_handle c0 (eh_session h)) in E. assert (H1 : 0 <= s_size c1 < 65536) by exact H0. clearbody c1.
  assert (X : forall c2 s2, 0 <= s_size c2 < 65536 -> 
    (if s_size c2 <=? 511 then let '(it, c) := new_open_standard c2 in
       match forward_open p s2 c it with (Ok c, s) => (Ok tt, c, s) | (Err e, s) => (Err e, c, s) | (Panic, s) => (Panic, c, s) | (OutOfFuel, s) => (OutOfFuel, c, s) end
     else (Ok tt, c2, s2)) = (Ok tt, c', s') -> 0 <= s_size c' < 65536).
  { intros c2 s2 H2 E2. destruct (s_size c2 <=? 511).
    - destruct (new_open_standard c2) as [it c3] eqn:En. pose proof (standard_size _ _ _ H2 En) as H3.
      destruct (forward_open p s2 c3 it) as [[c4|e| |] s4] eqn:Ef; try discriminate. injection E2 as <- _. now rewrite (forward_open_size _ _ _ _ _ _ Ef).
    - injection E2 as <- _. exact H2. }
  destruct (511 <? s_size c1); [|exact (X c1 s1 H1 E)].
  destruct (new_open_large c1) as [it c2] eqn:En. pose proof (large_size _ _ _ H1 En) as H2.
  destruct (forward_open p s1 c2 it) as [[c3|e| |] s3] eqn:Ef; try discriminate.
  - apply (X c3 s3); [now rewrite (forward_open_size _ _ _ _ _ _ Ef)|exact E].
  - apply (X (with_size c2 511) s3); [cbn; lia|exact E].
Qed.

(** ** One read *)
Lemma got_unit s h c l : 0 <= s_handle c < 2 ^ 32 -> 0 <= s_context c < 2 ^ 64 -> fits l -> len (zeros 6 ++ wire_list l) < 2 ^ 16 ->
  got s h c (zeros 6 ++ wire_list l) = unit_items (map mk l) (receiving s h (s_context c)).
Proof.
  intros Hs Hc F L. unfold got.
  assert (FO : frame_ok (item_frame 0x70 (s_handle c) 0 (s_context c) 0 (zeros 6) l)).
  { unfold item_frame. unfold frame_ok. cbn [f_command f_session f_status f_context f_options f_payload]. lia. }
  rewrite (serve_unit _ (s_handle c) 0 (s_context c) 0 (zeros 6) l []); [reflexivity|exact FO|exact F|reflexivity|].
  cbn [w_in]. rewrite app_nil_r. unfold cmd_unitdata. rewrite client_build by (cbn [concat]; rewrite app_nil_r; exact L).
  unfold frame_of, item_frame. cbn [concat]. now rewrite app_nil_r.
Qed.
(** A reply sent, whether the server goes on or not. *)
Lemma over_sent c sh req r s h inp l : got (fst sh) (snd sh) c req = (r, snd (send 0x70 (serialize_items (map mk l)) (World s h inp []))) ->
  r = Ok tt \/ failed r -> handler_ok h -> 0 <= h_context h < 2 ^ 64 -> fits l -> len (zeros 6 ++ wire_list l) < 2 ^ 16 ->
  over_wire c (Wire sh true true) req = (Ok (0, zeros 6 ++ wire_list l), Wire (s, h) (match r with Ok _ => true | _ => false end) true).
Proof.
  intros G R Hh Hc F L. unfold over_wire. cbn [wr_up wr_tcp wr_sh negb]. unfold got in G. rewrite G.
  pose proof (recv_one h 0x70 l s inp ltac:(exact Hh) Hc ltac:(lia) F L) as X. unfold link_result in X.
  assert (Es : forall c' p w, fst (send c' p w) = Ok tt) by reflexivity. rewrite Es in X.
  set (w1 := snd (send 0x70 (serialize_items (map mk l)) (World s h inp []))) in *.
  assert (Y : exists hd, fst (recv_data (w_sent w1)) = Ok (hd, zeros 6 ++ wire_list l) /\ eh_status hd = 0 /\ w_srv w1 = s /\ w_h w1 = h).
  { apply pair_equal_spec in X as [X1 _]. assert (X2 : w_srv w1 = s) by reflexivity. assert (X3 : w_h w1 = h) by reflexivity.
    destruct (fst (recv_data (w_sent w1))) as [[hd d]|e| |]; cbn [bind] in X1; try discriminate X1. apply (f_equal (fun x => match x with Ok y => y | _ => (0, []) end)) in X1.
    apply pair_equal_spec in X1 as [X1 X4]. exists hd. rewrite X1, X4. auto. }
  clearbody w1. clear X Es. destruct Y as (hd & -> & <- & <- & <-). destruct R as [->|(e & ->)]; reflexivity.
Qed.

Lemma short_header to q svc st : fits [(0xA1, le 4 to); (0xB1, le 2 q ++ [svc; 0; st; 0])] ->
  exists e, parse_read_hdr (zeros 6 ++ wire_list [(0xA1, le 4 to); (0xB1, le 2 q ++ [svc; 0; st; 0])]) = Err e.
Proof.
  intro F. unfold parse_read_hdr, reply_items. rewrite rd_app by reflexivity.
  rewrite <- (app_nil_r (wire_list _)). rewrite read_items_wire by exact F. cbn [bind map]. rewrite mk_data. cbn [snd].
  eexists. reflexivity.
Qed.
Lemma read_lost {S} fuel (ctl : controller S) ops s s1 otid q tg k e : named ops tg -> t_bit tg = None ->
  ctl s (read_request otid q (encode tg) 1) = (Err e, s1) -> client_read fuel ctl (cl_run ops) s otid q (text tg) k = (Err e, s1, q + 1).
Proof.
  intros (V & K & L) B E. pose proof (C01_lemma ops tg (kind_cip k) V K) as New. rewrite B in New.
  unfold client_read, read_single. rewrite New. unfold read_single_ioi. cbn [ioi_buf]. rewrite read_req_wire by exact L. rewrite E. reflexivity.
Qed.
Lemma read_short {S} fuel (ctl : controller S) ops s s1 otid q tg k x p e : named ops tg -> t_bit tg = None ->
  ctl s (read_request otid q (encode tg) 1) = (Ok (x, p), s1) -> parse_read_hdr p = Err e ->
  client_read fuel ctl (cl_run ops) s otid q (text tg) k = (Err e, s1, q + 1).
Proof.
  intros (V & K & L) B E P. pose proof (C01_lemma ops tg (kind_cip k) V K) as New. rewrite B in New.
  unfold client_read, read_single. rewrite New. unfold read_single_ioi. cbn [ioi_buf]. rewrite read_req_wire by exact L. rewrite E, P. reflexivity.
Qed.

Lemma fits_short to q svc st : fits [(0xA1, le 4 to); (0xB1, le 2 q ++ [svc; 0; st; 0])].
Proof. apply fits_pair; [rewrite le_len; lia|]. rewrite len_app, le_len, !len_cons. change (len (@nil Z)) with 0. lia. Qed.
Lemma short_len to q svc st : len (zeros 6 ++ wire_list [(0xA1, le 4 to); (0xB1, le 2 q ++ [svc; 0; st; 0])]) < 2 ^ 16.
Proof. rewrite len_app, wire_pair_len, len_app, !le_len, !len_cons. change (len (zeros 6)) with 6. change (len (@nil Z)) with 0. lia. Qed.

(** What a read of one element comes to at the server. *)
Lemma got_read s h c q tg n : 0 <= s_handle c < 2 ^ 32 -> 0 <= s_context c < 2 ^ 64 -> len (encode tg) < 512 ->
  got s h c (read_request (s_otid c) q (encode tg) n) =
  connected_read 0x4C (le 4 (s_otid c)) (le 2 (q mod 65536) ++ [0x4C; len (encode tg) / 2] ++ encode tg ++ le 2 n)
    (World s (Handler (h_handle h) (h_options h) (s_context c) (h_ot h) (h_to h) (q mod 65536)) [] []).
Proof.
  intros Hs Hc L. pose proof (len_nonneg (encode tg)). unfold read_request.
  rewrite got_unit; [|exact Hs|exact Hc| |].
  - rewrite unit_pair by lia. cbv zeta.
    change (0x4C =? svc_write) with false. change ((0x4C =? svc_fragread) || (0x4C =? svc_read)) with true. cbv iota.
    rewrite (le2_wrap q). reflexivity.
  - apply fits_pair; [rewrite le_len; lia|]. rewrite !len_app, !le_len, !len_cons. change (len (@nil Z)) with 0. lia.
  - rewrite len_app, wire_pair_len, !len_app, !le_len, !len_cons. change (len (zeros 6)) with 6. change (len (@nil Z)) with 0. lia.
Qed.

Definition over_ok (c : session) : Prop := 0 <= s_handle c < 2 ^ 32 /\ 0 <= s_context c < 2 ^ 64 /\ 0 <= s_otid c < 2 ^ 32.

(** The connection is not there (any more): an answer, and the end of the TCP
    connection. *)
Lemma read_unlinked c sh fuel ops q tg k : over_ok c -> handler_ok (snd sh) -> named ops tg -> t_bit tg = None -> conn_by_ot (fst sh) (s_otid c) = Err EMsg ->
  exists e sh1, client_read fuel (over_wire c) (cl_run ops) (Wire sh true true) (s_otid c) q (text tg) k = (Err e, Wire sh1 false true, q + 1) /\ fst sh1 = fst sh /\ handler_ok (snd sh1).
Proof.
  intros (Hh & Hc & Ho) Hk N B Ec. pose proof (proj2 (proj2 N)) as Nl.
  pose proof (got_read (fst sh) (snd sh) c q tg 1 Hh Hc Nl) as G.
  set (h1 := Handler _ _ _ _ _ _) in G.
  assert (R : got (fst sh) (snd sh) c (read_request (s_otid c) q (encode tg) 1) =
    (Err EMsg, snd (send 0x70 (serialize_items (map mk [(0xA1, le 4 0); (0xB1, le 2 0 ++ [0xCC; 0; 7; 0])])) (World (fst sh) h1 [] [])))).
  { rewrite G. unfold connected_read. unfold bindM at 1, ask. rewrite <- (app_nil_r (le 4 (s_otid c))), rd_app by apply le_length. cbn [or_send]. erewrite lift_ok by reflexivity. cbv beta iota.
    rewrite unle_le_small by (cbn; lia). cbn [w_srv]. rewrite Ec. reflexivity. }
  pose proof (over_sent c sh _ _ _ _ _ _ R (or_intror (ex_intro _ EMsg eq_refl)) ltac:(exact Hk) ltac:(exact Hc) (fits_short _ _ _ _) (short_len _ _ _ _)) as O.
  destruct (short_header 0 0 0xCC 7 (fits_short _ _ _ _)) as (e & P).
  exists e, (fst sh, h1). split; [|split; [reflexivity|exact Hk]]. exact (read_short fuel (over_wire c) ops _ _ (s_otid c) q tg k _ _ e N B O P).
Qed.
(** A tag that is not there: the same. *)
Lemma read_missing c sh i fuel ops q tg k : over_ok c -> linked (s_handle c) (s_context c) (s_otid c) i sh -> named ops tg -> addressed tg ->
  (forall v, ~ ProvSpec.reads (behind i sh) (text tg) 1 v) ->
  exists e sh1, client_read fuel (over_wire c) (cl_run ops) (Wire sh true true) (s_otid c) q (text tg) k = (Err e, Wire sh1 false true, q + 1) /\ fst sh1 = fst sh /\ handler_ok (snd sh1).
Proof.
  intros _ (Hh & Hc & Ho & Hk & (to & Ld) & Sp) N Ad Ms. pose proof (proj2 (proj2 N)) as Nl. pose proof Ad as (_ & B & _).
  pose proof (got_read (fst sh) (snd sh) c q tg 1 Hh Hc Nl) as G.
  set (h1 := Handler _ _ _ _ _ _) in G. rewrite <- (app_nil_r (le 2 1)) in G.
  assert (Cc : clear_count 1) by (unfold clear_count; rewrite Z.mod_small by lia; lia).
  destruct (connected_read_missing 0x4C (s_otid c) (q mod 65536) tg 1 [] to i (World (fst sh) h1 [] []) (or_introl eq_refl) Ho ltac:(apply Z.mod_pos_bound; lia) Ld Sp Ad Cc Ms) as (e0 & Em).
  rewrite Em in G.
  pose proof (over_sent c sh _ _ _ _ _ _ G (or_intror (ex_intro _ e0 eq_refl)) ltac:(exact Hk) ltac:(exact Hc) (fits_short _ _ _ _) (short_len _ _ _ _)) as O.
  destruct (short_header to (q mod 65536) (0x4C + 0x80) 0x28 (fits_short _ _ _ _)) as (e & P).
  exists e, (fst sh, h1). split; [|split; [reflexivity|exact Hk]]. exact (read_short fuel (over_wire c) ops _ _ (s_otid c) q tg k _ _ e N B O P).
Qed.

Lemma over_read c sh i q t n v type x d : linked (s_handle c) (s_context c) (s_otid c) i sh -> addressed t -> len (encode t) < 512 -> clear_count n ->
  ProvSpec.reads (behind i sh) (text t) n v -> wire_view v ([type; x] ++ d) -> len d < 65000 ->
  exists p sh1, over_wire c (Wire sh true true) (read_request (s_otid c) q (encode t) n) = (Ok (0, p), Wire sh1 true true) /\
    answer p 0 type d /\ linked (s_handle c) (s_context c) (s_otid c) i sh1 /\ fst sh1 = fst sh.
Proof.
  intros (Hh & Hc & Ho & Hk & (to & Ld) & Sp) Ad Lt Cc R W Ld'. pose proof (len_nonneg d).
  pose proof (got_read (fst sh) (snd sh) c q t n Hh Hc Lt) as G. set (h1 := Handler _ _ _ _ _ _) in G. rewrite <- (app_nil_r (le 2 n)) in G.
  rewrite (connected_read_ok 0x4C (s_otid c) (q mod 65536) t n [] to i v ([type; x] ++ d)) in G; try assumption; try (now left).
  2: apply Z.mod_pos_bound; lia.
  assert (G2 : got (fst sh) (snd sh) c (read_request (s_otid c) q (encode t) n) = (Ok tt, snd (send 0x70 (serialize_items (map mk [(0xA1, le 4 to);
      (0xB1, le 2 (q mod 65536) ++ [0x4C + 0x80; 0; 0; 0] ++ [type; x] ++ d)])) (World (fst sh) h1 [] [])))) by exact G.
  assert (F : fits [(0xA1, le 4 to); (0xB1, le 2 (q mod 65536) ++ [0x4C + 0x80; 0; 0; 0] ++ [type; x] ++ d)]).
  { apply fits_pair; [rewrite le_len; lia|]. rewrite !len_app, le_len, !len_cons. change (len (@nil Z)) with 0. lia. }
  assert (L : len (zeros 6 ++ wire_list [(0xA1, le 4 to); (0xB1, le 2 (q mod 65536) ++ [0x4C + 0x80; 0; 0; 0] ++ [type; x] ++ d)]) < 2 ^ 16).
  { rewrite len_app, wire_pair_len, !len_app, !le_len, !len_cons. change (len (zeros 6)) with 6. change (len (@nil Z)) with 0. lia. }
  pose proof (over_sent c sh _ _ _ _ _ _ G2 (or_introl eq_refl) ltac:(exact Hk) ltac:(exact Hc) F L) as O.
  eexists _, (fst sh, h1). split; [exact O|]. split; [|split; [|reflexivity]].
  - exists (zeros 6), (0xA1, le 4 to), 0xB1, (le 2 (q mod 65536)), 0xCC, 0, 0, x, [].
    split; [reflexivity|]. split; [apply le_length|]. split; [exact F|now rewrite app_nil_r].
  - split; [exact Hh|]. split; [exact Hc|]. split; [exact Ho|]. split; [exact Hk|]. split; [now exists to|exact Sp].
Qed.
