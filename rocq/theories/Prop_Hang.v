(** C102: the end of a client's TCP connection. *)
From Verif Require Import GoBase SegModel IoiModel IoiSpec IoiProof ItemsModel TypesModel ItemsSpec ReadModel ReadSpec ReadProof WriteModel WriteSpec
  EipModel EipSpec OpenModel OpenSpec OpenProof TableModel TableSpec TableProof SrvValModel SrvValSpec ProvModel ProvSpec ProvProof SrvModel SrvSpec Prop_Srv ReqSpec LinkModel ReqProof Prop_Req
  MeetModel MeetSpec MeetProof Prop_Meet HangSpec.

(** ** C102

    Full statement: when a client's TCP connection ends, the server gives up the
    connections opened over it, and nothing else changes.  The first half is false
    (below): only Disconnect's request takes a connection out of the table. *)
Lemma setn_other {A} (l : list A) i x : forall j, j <> i -> nth_error (setn l i x) j = nth_error l j.
Proof. revert i. induction l as [|y l IH]; intros [|i] [|j] N; cbn; try reflexivity; try congruence. apply IH. congruence. Qed.
Lemma setn_same {A} (l : list A) i x : (i < length l)%nat -> nth_error (setn l i x) i = Some x.
Proof. revert i. induction l as [|y l IH]; intros [|i] N; cbn in *; try lia; [reflexivity|]. apply IH. lia. Qed.

Theorem C102_hangup_partial : forall s k p, si_down s = false -> nth_error (si_peers s) k = Some p -> pe_open p = true -> len (pe_in p) < 24 ->
  let s' := happen s (Turn k) in
  si_srv s' = si_srv s /\ si_down s' = false /\ (exists p', nth_error (si_peers s') k = Some p' /\ pe_open p' = false /\ pe_sent p' = pe_sent p) /\
  forall j, j <> k -> nth_error (si_peers s') j = nth_error (si_peers s) j.
Proof.
  intros s k p D N O L. cbv zeta.
  assert (E : exists e, serve_one (World (si_srv s) (pe_h p) (pe_in p) (pe_sent p)) = (Err e, World (si_srv s) (pe_h p) [] (pe_sent p))).
  { unfold serve_one, bindM at 1, take. cbn [w_in w_srv w_h w_sent]. unfold rd. destruct (24 <=? length (pe_in p))%nat eqn:X; [unfold len in L; lia|].
    destruct (pe_in p); [exists EEof|exists EShort]; reflexivity. }
  destruct E as (e & E). unfold happen. rewrite D, N, O. cbn [negb]. rewrite E. cbn [si_srv si_down si_peers w_srv w_h w_in w_sent].
  split; [reflexivity|]. split; [reflexivity|]. split.
  - eexists. split; [apply setn_same; apply nth_error_Some; congruence|]. split; reflexivity.
  - intros j Nj. now apply setn_other.
Qed.
Print Assumptions C102_hangup_partial.
(** So the connection of a client that is gone is still there, *)
Lemma hung_up s h : si_srv (happens (Site s [Peer h [] [] true] false) [Turn 0]) = s.
Proof. exact (proj1 (C102_hangup_partial (Site s [Peer h [] [] true] false) 0 (Peer h [] [] true) eq_refl eq_refl eq_refl eq_refl)). Qed.
Lemma same_trans s1 s2 s3 : same_tags s1 s2 -> same_tags s2 s3 -> same_tags s1 s3.
Proof. intros (A & B & C & D) (A' & B' & C' & D'). repeat split; congruence. Qed.
Lemma routed_same s s' r i : same_tags s s' -> routed s r i -> routed s' r i.
Proof.
  intros (A & B & C & D) (R1 & R2 & R3). unfold routed, resolve, prov_at in *. rewrite A, B. auto.
Qed.
Lemma new_handler_ok s h : server_ok (s, h) -> server_ok (s, handler_new).
Proof. intros (_ & R). split; [split; cbn; lia|exact R]. Qed.
(** one for every client that came, and they are never removed. *)
Theorem C102_grows : forall cs s, server_ok (s, handler_new) -> Forall (fun x => client_ok (snd x) /\ exists i, routed s (s_route (snd x)) i) cs ->
  (exists s', visits cs s s') /\
  forall s', visits cs s s' -> length (open_connections s') = (length (open_connections s) + length cs)%nat /\ same_tags s s' /\ server_ok (s', handler_new).
Proof.
  induction cs as [|[now c] cs IH]; intros s S F.
  - split; [exists s; constructor|]. intros s' V. inversion V. subst. split; [cbn; lia|]. split; [now repeat split|exact S].
  - inversion F as [|x y [C (i & R)] F' E1]. subst. cbn [snd] in C, R.
    destruct (C79_connects_partial (s, handler_new) now c i C S R) as (c' & [s1 h1] & to & rpi & E & _ & _ & T & S1 & Cn & _). cbn [fst] in *.
    assert (F1 : Forall (fun x => client_ok (snd x) /\ exists i, routed s1 (s_route (snd x)) i) cs).
    { eapply Forall_impl; [|exact F']. intros x [Cx (j & Rj)]. split; [exact Cx|]. exists j. now apply (routed_same s). }
    destruct (IH s1 (new_handler_ok _ _ S1) F1) as ((s2 & V2) & G). split.
    + exists s2. eapply vi_one; [exact E|]. now rewrite hung_up.
    + intros s' V. inversion V as [|now' c0 rest s0 c2 s3 h3 z s4 E' V' X1 X2 X3]. subst. rewrite E in E'. injection E' as <- <- <- <-. rewrite hung_up in V'.
      destruct (G s' V') as (G1 & G2 & G3). split; [|split; [now apply (same_trans s s1)|exact G3]].
      rewrite G1. unfold open_connections. rewrite Cn, filter_app, app_length. cbn [filter sc_open length]. lia.
Qed.
Print Assumptions C102_grows.
(** and anyone may use it: [h2] is the handler of any TCP connection. *)
Theorem C102_anyone : forall sh now c i ops tg k v fuel session2 context2 h2, client_ok c -> server_ok sh -> routed (fst sh) (s_route c) i ->
  named ops tg -> addressed tg -> scalar k v -> ProvSpec.reads (behind i sh) (text tg) 1 (VOne v) ->
  0 <= session2 < 2 ^ 32 -> 0 <= context2 < 2 ^ 64 -> handler_ok h2 ->
  exists c' sh', OpenModel.connect (served (s_context c)) (sh, s_handle c) now c = (Ok tt, c', (sh', s_handle c')) /\
    (unused (fst sh) (KeyOT (s_otid c')) -> forall q, exists sh2,
       client_read fuel (link session2 context2) (cl_run ops) (si_srv (happens (Site (fst sh') [Peer (snd sh') [] [] true] false) [Turn 0]), h2) (s_otid c') q (text tg) k = (Ok v, sh2, q + 1)).
Proof.
  intros sh now c i ops tg k v fuel session2 context2 h2 C S R N Ad Sc Rd Hs Hc Hh.
  destruct (connect_run sh now c i C S R) as (c' & sh' & to & rpi & E & _ & _ & _ & _ & _ & _ & _ & T & _ & _ & L).
  exists c', sh'. split; [exact E|]. intros Un q. specialize (L Un). rewrite hung_up.
  assert (L2 : linked session2 context2 (s_otid c') i (fst sh', h2)).
  { destruct L as (_ & _ & L3 & _ & L5 & L6). split; [exact Hs|]. split; [exact Hc|]. split; [exact L3|]. split; [exact Hh|]. split; [exact L5|exact L6]. }
  assert (Rd' : ProvSpec.reads (behind i (fst sh', h2)) (text tg) 1 (VOne v)) by (unfold behind in *; cbn [fst]; rewrite (prov_tags _ _ i T); exact Rd).
  destruct (C44_read _ _ _ _ (fst sh', h2) ops tg k v fuel q L2 N Ad Sc Rd') as (sh2 & Er & _). exists sh2. exact Er.
Qed.
Print Assumptions C102_anyone.
(** Two clients came and went; both connections are open, and a third client that
    has opened none reads over the first's. *)
Lemma two_visits now1 c1 now2 c2 s : fst (fst (arrives now1 c1 s)) = Ok tt -> fst (fst (arrives now2 c2 (fst (fst (snd (arrives now1 c1 s)))))) = Ok tt ->
  visits [(now1, c1); (now2, c2)] s (fst (fst (snd (arrives now2 c2 (fst (fst (snd (arrives now1 c1 s)))))))).
Proof.
  intros E1 E2. unfold arrives in *. destruct (OpenModel.connect (served (s_context c1)) (s, handler_new, s_handle c1) now1 c1) as [[r1 d1] [[s1 h1] z1]] eqn:X1.
  cbn [fst snd] in *. subst r1.
  destruct (OpenModel.connect (served (s_context c2)) (s1, handler_new, s_handle c2) now2 c2) as [[r2 d2] [[s2 h2] z2]] eqn:X2. cbn [fst snd] in *. subst r2.
  eapply vi_one; [exact X1|]. rewrite hung_up. eapply vi_one; [exact X2|]. rewrite hung_up. constructor.
Qed.
Theorem C102_refuted : exists s' otid, visits [(100, new_client 0); (200, new_client 1)] two_routes s' /\ open_connections two_routes = [] /\
  length (open_connections s') = 2%nat /\
  fst (fst (client_read 0 (link 12345 0) (cl_run []) (s', handler_new) otid 1 (text (nm (str "speed") [])) (KInt true 4))) = Ok (GInt true 4 7).
Proof.
  exists (fst (fst (snd (arrives 200 (new_client 1) (fst (fst (snd (arrives 100 (new_client 0) two_routes)))))))).
  exists (s_otid (snd (fst (arrives 100 (new_client 0) two_routes)))). split.
  - apply two_visits; vm_compute; reflexivity.
  - split; [reflexivity|]. split; vm_compute; reflexivity.
Qed.
Print Assumptions C102_refuted.
Example ex_C102 : server_ok (two_routes, handler_new) /\ Forall (fun x => client_ok (snd x) /\ exists i, routed two_routes (s_route (snd x)) i) [(100, new_client 0); (200, new_client 1)] /\
  let s := Site two_routes [Peer handler_new (le 2 0x65 ++ le 2 4) [] true; Peer handler_new [] [] true] false in
  si_down s = false /\ exists p, nth_error (si_peers s) 0 = Some p /\ pe_open p = true /\ len (pe_in p) < 24.
Proof.
  split; [apply two_ok; split; cbn; lia|]. split.
  - constructor; [split; [apply new_client_ok|exists 0%nat; apply (two_routed 0); now left]|].
    constructor; [split; [apply new_client_ok|exists 1%nat; apply (two_routed 1); now right]|constructor].
  - split; [reflexivity|]. eexists. split; [reflexivity|]. split; [reflexivity|]. cbn. lia.
Qed.
