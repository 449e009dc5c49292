(** * C127: leaving the built-in server *)
From Verif Require Import GoBase ItemsModel ItemsSpec ItemsProof EipModel EipSpec EipProof OpenModel OpenSpec OpenProof TableModel TableSpec TableProof SrvModel SrvSpec SrvProof BrowseProof ReqSpec ReqProof
  MeetModel MeetSpec MeetProof Prop_Meet LeaveSpec.
From Verif Require LifeModel WaitModel.

Definition leaving (c : session) : bytes := send_msg_build (s_handle c) (s_context c) cmd_rrdata [close_payload c].

Lemma handled_rr session context s h l : 0 <= session < 2 ^ 32 -> 0 <= context < 2 ^ 64 -> fits l -> len (zeros 6 ++ wire_list l) < 2 ^ 16 ->
  handled s h (send_msg_build session context cmd_rrdata [zeros 6 ++ wire_list l]) = rr_items (map mk l) (receiving s h context).
Proof.
  intros Hs Hc F L. unfold handled.
  assert (FO : frame_ok (item_frame 0x6F session 0 context 0 (zeros 6) l)).
  { unfold item_frame. unfold frame_ok. cbn [f_command f_session f_status f_context f_options f_payload]. lia. }
  rewrite (serve_rr _ session 0 context 0 (zeros 6) l []); [|exact FO|exact F|reflexivity|].
  - reflexivity.
  - cbn [w_in]. rewrite app_nil_r. rewrite client_build by (cbn [concat]; rewrite app_nil_r; exact L).
    unfold frame_of, item_frame. cbn [concat]. now rewrite app_nil_r.
Qed.

Lemma fwd_close_found serial vendor orig words path w m : 0 <= serial < 2 ^ 16 -> 3 <= len path -> conn_close (sv_cm (w_srv w)) (KeyID serial) = (m, true) ->
  fwd_close (close_message serial vendor orig words path) w = (Ok tt, World (set_cm m (w_srv w)) (w_h w) (w_in w) (w_sent w)).
Proof.
  intros Hs Hp Ec. unfold fwd_close.
  set (f := [0x4E; 2; 0x20; 6; 0x24; 1; 0x0A; 0x0E] ++ le 2 serial ++ le 2 vendor ++ le 4 orig ++ [words]).
  assert (Em : close_message serial vendor orig words path = f ++ 0 :: path).
  { unfold close_message, f. rewrite <- !app_assoc. reflexivity. }
  rewrite Em. rewrite (lift_ok _ _ _ (f, 0 :: path)) by (now apply rd_app). cbv beta iota.
  assert (F8 : firstn 2 (skipn 8 f) = le 2 serial) by reflexivity. rewrite F8, unle_le_small by (cbn; lia).
  unfold bindM at 1. unfold ask. cbv beta iota. rewrite Ec. cbn [negb].
  unfold bindM, put_srv, lift. cbv beta iota.
  change (Z.to_nat (nth 1 f 0 * 2 mod 256)) with 4%nat.
  destruct path as [|a [|b [|d p]]]; try (change (3 <= 0) in Hp || change (3 <= 1) in Hp || change (3 <= 2) in Hp; lia).
  reflexivity.
Qed.

Lemma close_live m k : good m -> (exists a, live (cm_heap m) k a) -> exists m', conn_close m k = (m', true) /\ exists a, live (cm_heap m) k a /\ closes (cm_heap m) a (cm_heap m').
Proof.
  intros G (a & La). pose proof (step_refines m (OpClose k) G) as (_ & X). cbn [cman_step] in X. destruct (conn_close m k) as [m' ok]. cbn [fst snd] in X.
  destruct ok; [|inversion X; subst; match goal with N : forall _, ~ live _ _ _ |- _ => destruct (N a La) end].
  exists m'. split; [reflexivity|]. inversion X; subst. eauto.
Qed.
Lemma close_unknown m k : good m -> ~ (exists a, live (cm_heap m) k a) -> snd (conn_close m k) = false.
Proof.
  intros G N. pose proof (step_refines m (OpClose k) G) as (_ & X). cbn [cman_step] in X. destruct (conn_close m k) as [m' ok]. cbn [fst snd] in *.
  destruct ok; [|reflexivity]. inversion X; subst. exfalso. eauto.
Qed.

Lemma leaving_run s h c : 0 <= s_handle c < 2 ^ 32 -> 0 <= s_context c < 2 ^ 64 -> 0 <= s_serial c < 2 ^ 16 -> len (s_route c) < 60000 ->
  handled s h (leaving c) = fwd_close (close_message (s_serial c) (s_vendor c) (s_orig c) ((len (session_path c) / 2) mod 256) (session_path c)) (receiving s h (s_context c)).
Proof.
  intros Hs Hc Hse Hl. unfold leaving. rewrite close_message_wire, unconnected_wire. set (msg := close_message _ _ _ _ _).
  assert (Lm : len msg < 60100) by (unfold msg; rewrite close_message_len, session_path_len; lia).
  rewrite handled_rr; [|exact Hs|exact Hc|apply fits_rr; lia|rewrite wire_rr_len; lia].
  rewrite rr_unconnected. unfold msg. apply unconnected_close.
Qed.

(** The request to close a connection the server has: the connection is closed,
    the TCP connection stays, and nothing is sent back. *)
Theorem C127_silent : forall s h c, good (sv_cm s) -> 0 <= s_handle c < 2 ^ 32 -> 0 <= s_context c < 2 ^ 64 -> 0 <= s_serial c < 2 ^ 16 -> len (s_route c) < 60000 ->
  holds s (s_serial c) -> exists w, handled s h (leaving c) = (Ok tt, w) /\ w_sent w = [] /\
    exists a, live (cm_heap (sv_cm s)) (KeyID (s_serial c)) a /\ closes (cm_heap (sv_cm s)) a (cm_heap (sv_cm (w_srv w))).
Proof.
  intros s h c G Hs Hc Hse Hl Ho. destruct (close_live (sv_cm s) (KeyID (s_serial c)) G Ho) as (m' & Em & Cl).
  rewrite leaving_run by assumption. pose proof (session_path_len c) as Lp. pose proof (len_nonneg (s_route c)) as Lr.
  rewrite (fwd_close_found _ _ _ _ _ _ m' Hse) by (lia || exact Em).
  eexists. split; [reflexivity|]. split; [reflexivity|]. exact Cl.
Qed.
Print Assumptions C127_silent.

(** A request to close a connection it has not: nothing is sent either, but the
    server ends the TCP connection. *)
Theorem C127_unknown_partial : forall s h c t b, good (sv_cm s) -> 0 <= s_handle c < 2 ^ 32 -> 0 <= s_context c < 2 ^ 64 -> 0 <= s_serial c < 2 ^ 16 -> len (s_route c) < 60000 ->
  ~ holds s (s_serial c) -> (exists e, fst (handled s h (leaving c)) = Err e) /\ waited t b (handled s h (leaving c)) <= b.
Proof.
  intros s h c t b G Hs Hc Hse Hl Ho. pose proof (close_unknown (sv_cm s) (KeyID (s_serial c)) G Ho) as Ec.
  rewrite leaving_run by assumption. unfold fwd_close.
  set (pth := session_path c). set (words := _ mod 256).
  set (f := [0x4E; 2; 0x20; 6; 0x24; 1; 0x0A; 0x0E] ++ le 2 (s_serial c) ++ le 2 (s_vendor c) ++ le 4 (s_orig c) ++ [words]).
  assert (Em : close_message (s_serial c) (s_vendor c) (s_orig c) words pth = f ++ 0 :: pth).
  { unfold close_message, f. rewrite <- !app_assoc. reflexivity. }
  rewrite Em. rewrite (lift_ok _ _ _ (f, 0 :: pth)) by (now apply rd_app). cbv beta iota.
  assert (F8 : firstn 2 (skipn 8 f) = le 2 (s_serial c)) by reflexivity. rewrite F8, unle_le_small by (cbn; lia).
  unfold bindM, ask. cbv beta iota. cbn [receiving w_srv]. destruct (conn_close _ _) as [m' ok]. cbn [snd] in Ec. subst ok. cbn [negb].
  split; [eexists; reflexivity|apply Z.le_min_l].
Qed.
Print Assumptions C127_unknown_partial.

(** A client of the library that connected waits for the whole of SocketTimeout
    when it disconnects, on any network and whatever the timeout. *)
Theorem C127_waits_fails : forall sh now c i t a b, client_ok c -> server_ok sh -> routed (fst sh) (s_route c) i -> 0 <= a < t ->
  exists c' sh', OpenModel.connect (served (s_context c)) (sh, s_handle c) now c = (Ok tt, c', (sh', s_handle c')) /\
    WaitModel.request_time t (a, waited t b (handled (fst sh') (snd sh') (leaving c')), 0) = a + t /\
    exists s'', disconnect (served (s_context c')) (sh', s_handle c') c' = (Ok tt, s'').
Proof.
  intros sh now c i t a b C S R Ha. destruct (connect_run sh now c i C S R) as (c' & sh' & to & rpi & E & A1 & A2 & A3 & A4 & _ & _ & _ & T & S' & Cm & _).
  exists c', sh'. split; [exact E|]. destruct C as (C1 & C2 & C3 & C4).
  assert (Hc : 0 <= s_context c' < 2 ^ 64) by (rewrite A1; exact C3).
  assert (Hl : len (s_route c') < 60000) by (rewrite A2; lia).
  pose proof (reached_good _ (proj1 (proj2 S'))) as G.
  assert (Ho : holds (fst sh') (s_serial c')).
  { exists (length (cm_heap (sv_cm (fst sh)))). rewrite Cm. eexists. split; [unfold conn_add; cbn [cm_heap]; rewrite nth_error_app2, Nat.sub_diag by lia; reflexivity|].
    split; reflexivity. }
  destruct (C127_silent (fst sh') (snd sh') c' G A4 Hc A3 Hl Ho) as (w & Ew & Es & _). split.
  - rewrite Ew. cbn [waited]. rewrite Es. unfold WaitModel.request_time, WaitModel.cut.
    destruct (Z.leb_spec t a); [lia|]. rewrite Z.leb_refl. lia.
  - eexists. now apply disconnect_run.
Qed.
Print Assumptions C127_waits_fails.

(** So the claim is false: with nothing but the network between them, here one
    that takes a millisecond each way, leaving takes ten seconds and a millisecond (the default SocketTimeout). *)
Theorem C127_refuted : exists sh now c i t a b, client_ok c /\ server_ok sh /\ routed (fst sh) (s_route c) i /\ 0 <= a < t /\ 0 <= b < t /\
  exists c' sh', OpenModel.connect (served (s_context c)) (sh, s_handle c) now c = (Ok tt, c', (sh', s_handle c')) /\
    a + b < t /\ WaitModel.request_time t (a, waited t b (handled (fst sh') (snd sh') (leaving c')), 0) >= t.
Proof.
  assert (C : client_ok (new_client 0)) by (unfold client_ok; cbn; repeat split; lia).
  assert (S : server_ok (two_routes, handler_new)) by (apply two_ok; split; cbn; lia).
  assert (R : routed two_routes (s_route (new_client 0)) 0) by (apply (two_routed 0); now left).
  exists (two_routes, handler_new), 100, (new_client 0), 0%nat, 10000, 1, 2.
  split; [exact C|]. split; [exact S|]. split; [exact R|]. split; [lia|]. split; [lia|].
  destruct (C127_waits_fails (two_routes, handler_new) 100 (new_client 0) 0%nat 10000 1 2 C S R ltac:(lia)) as (c' & sh' & E & W & _).
  exists c', sh'. split; [exact E|]. split; [lia|]. rewrite W. lia.
Qed.
Print Assumptions C127_refuted.

(** A client that never connected, or whose connection the server closed. *)
Example ex_C127_unknown : good (sv_cm two_routes) /\ ~ holds two_routes (s_serial (new_client 0)) /\
  fst (handled two_routes handler_new (leaving (new_client 0))) = Err EMsg /\ waited 10000 2 (handled two_routes handler_new (leaving (new_client 0))) = 2.
Proof.
  split; [apply reached_good; apply (two_ok handler_new); split; cbn; lia|].
  split; [intros (a & x & N & _); destruct a; discriminate N|]. split; vm_compute; reflexivity.
Qed.

(** The first client of a server with two routes, leaving. *)
Definition arrived : session := snd (fst (arrives 100 (new_client 0) two_routes)).
Definition after_arrival : server := fst (fst (snd (arrives 100 (new_client 0) two_routes))).
Example ex_C127_silent : good (sv_cm after_arrival) /\ holds after_arrival (s_serial arrived) /\
  fst (handled after_arrival handler_new (leaving arrived)) = Ok tt /\ w_sent (snd (handled after_arrival handler_new (leaving arrived))) = [] /\
  map sc_open (cm_heap (sv_cm after_arrival)) = [true] /\ map sc_open (cm_heap (sv_cm (w_srv (snd (handled after_arrival handler_new (leaving arrived)))))) = [false].
Proof.
  split.
  { assert (C : client_ok (new_client 0)) by (unfold client_ok; cbn; repeat split; lia).
    assert (S : server_ok (two_routes, handler_new)) by (apply two_ok; split; cbn; lia).
    destruct (connect_run (two_routes, handler_new) 100 (new_client 0) 0 C S (two_routed 0 (or_introl eq_refl))) as (c' & sh' & to & rpi & E & X).
    unfold after_arrival, arrives. rewrite E. cbn [fst snd]. apply reached_good, X. }
  split; [exists 0%nat; eexists; split; [vm_compute; reflexivity|]; split; vm_compute; reflexivity|].
  repeat split; vm_compute; reflexivity.
Qed.
