(** * C79, C80: clients of this library connecting to and leaving the built-in server *)
From Verif Require Import GoBase SegModel IoiModel IoiSpec IoiProof ItemsModel TypesModel ItemsSpec ReadModel ReadSpec ReadProof WriteModel WriteSpec
  EipModel EipSpec OpenModel OpenSpec OpenProof TableModel TableSpec TableProof SrvValModel SrvValSpec ProvModel ProvSpec ProvProof SrvModel SrvSpec Prop_Srv ReqSpec LinkModel ReqProof Prop_Req
  MeetModel MeetSpec MeetProof.

(** What a client may be set to, before Connect: numbers in the range of their
    types, a route of at least one hop that fits the request. *)
Definition client_ok (c : session) : Prop :=
  0 <= s_size c < 65536 /\ 0 <= s_handle c < 2 ^ 32 /\ 0 <= s_context c < 2 ^ 64 /\ 2 <= len (s_route c) <= 251.
(** A server and one of its handlers, at any time. *)
Definition server_ok (sh : server * handler) : Prop :=
  handler_ok (snd sh) /\ reached (sv_cm (fst sh)) /\ (forall n, 0 <= sv_rand (fst sh) n < 2 ^ 32).

Lemma large_context c it c' : new_open_large c = (it, c') -> s_context c' = s_context c.
Proof.
  intro E. apply (f_equal (fun x => s_context (snd x))) in E. cbn [snd] in E. rewrite <- E. unfold new_open_large. cbv zeta. cbn [snd].
  destruct (s_size c =? 0); reflexivity.
Qed.
Lemma standard_context c it c' : new_open_standard c = (it, c') -> s_context c' = s_context c.
Proof.
  intro E. apply (f_equal (fun x => s_context (snd x))) in E. cbn [snd] in E. rewrite <- E. unfold new_open_standard. cbv zeta. cbn [snd].
  destruct (s_size c =? 0); destruct (511 <? s_size _); reflexivity.
Qed.

Lemma open_run p0 sh session c o c1 it i : 0 <= session < 2 ^ 32 -> s_handle c1 = session -> 0 <= p0 < 2 ^ 64 -> server_ok sh ->
  2 <= len (s_route c) <= 251 -> routed (fst sh) (s_route c) i -> s_route c1 = s_route c -> s_context c1 = p0 -> s_serial c1 = o_serial o ->
  open_payload it = OpenSpec.unconnected (open_message o) -> common c o ->
  exists c2 sh2 to rpi, forward_open (served p0) (sh, session) c1 it = (Ok c2, (sh2, session)) /\
    s_size c2 = s_size c1 /\ s_handle c2 = session /\ s_context c2 = p0 /\ s_route c2 = s_route c /\ s_serial c2 = o_serial o /\ 0 <= s_serial c2 < 2 ^ 16 /\
    same_tags (fst sh) (fst sh2) /\ server_ok sh2 /\ (o_ot o <> 0 -> s_otid c2 = o_ot o) /\
    sv_cm (fst sh2) = conn_add (sv_cm (fst sh)) (SConn (s_serial c2) (s_otid c2) to rpi (firstn 2 (s_route c)) true) /\
    (unused (fst sh) (KeyOT (s_otid c2)) -> linked session p0 (s_otid c2) i sh2).
Proof.
  intros Hs Hh Hp (H1 & H2 & H3) Lr (R1 & R2 & R3) Er Ec Ese Ep (C1 & C2 & C3 & C4 & C5 & C6 & C7 & C8).
  pose proof (session_path_len c) as Lp.
  assert (Hw : 2 <= 2 * o_words o <= len (o_path o)) by (rewrite C8, C7, Lp, Z.mod_small by lia; lia).
  assert (Hw1 : 0 <= o_words o < 128) by (rewrite C8, Lp, Z.mod_small by lia; lia).
  assert (Ho : 0 <= o_ot o < 2 ^ 32) by (rewrite C2; apply Z.mod_pos_bound; lia).
  assert (Ht : 0 <= o_to o < 2 ^ 32) by (rewrite C3; apply Z.mod_pos_bound; lia).
  assert (Hse : 0 <= o_serial o < 2 ^ 16) by (rewrite C1; change 65536 with (2 ^ 16); apply Z.mod_pos_bound; lia).
  destruct (served_open p0 sh session o Hs Hp H1 H3 Hw Hw1 ltac:(rewrite C7, Lp; lia) Ho Ht Hse)
    as (hd & d & ot & to & rpi & s2 & h2 & E & St & G & Hk & Oe & T & Sr & Sc).
  rewrite <- Ep in E. pose proof (forward_open_grants (served p0) (sh, session) c1 it hd d _ ot E St G) as F.
  assert (Po : 0 <= ot < 2 ^ 32) by (destruct G as (? & ? & ? & ? & ? & ? & ? & ? & ? & ? & _ & _ & _ & _ & _ & _ & X); exact X).
  assert (Pth : firstn 2 (o_path o) = firstn 2 (s_route c)).
  { rewrite C7. unfold session_path. rewrite firstn_app. replace (2 - length (s_route c))%nat with 0%nat by (unfold len in Lr; lia).
    cbn [firstn]. now rewrite app_nil_r. }
  rewrite Pth in Sc.
  exists (with_otid c1 ot), (s2, h2), to, rpi. split; [exact F|]. cbn [fst snd with_otid s_size s_handle s_context s_route s_serial s_otid]. rewrite Ese.
  split; [reflexivity|]. split; [exact Hh|]. split; [exact Ec|]. split; [exact Er|]. split; [reflexivity|]. split; [exact Hse|]. split; [exact T|].
  assert (Rc : reached (sv_cm s2)) by (rewrite Sc; now apply reached_add).
  split; [split; [exact Hk|]; split; [exact Rc|]; intro n; cbn [fst]; rewrite Sr; apply H3|]. split; [exact Oe|]. split; [exact Sc|].
  intro Un. split; [exact Hs|]. split; [exact Hp|]. split; [exact Po|]. split; [exact Hk|]. cbn [fst snd].
  split; [|rewrite (prov_tags _ _ i T); exact R3].
  exists to. split; [destruct T as (-> & _); exact R2|].
  exists (SConn (o_serial o) ot to rpi (firstn 2 (s_route c)) true). cbn [sc_to sc_path]. rewrite (resolve_tags _ _ _ T). split; [|split; [reflexivity|exact R1]].
  unfold conn_by_ot. rewrite Sc. destruct (get_add_new (sv_cm (fst sh)) (KeyOT ot) (SConn (o_serial o) ot to rpi (firstn 2 (s_route c)) true)) as (G1 & G2).
  - rewrite <- Sc. now apply reached_good.
  - reflexivity.
  - reflexivity.
  - exact Un.
  - now rewrite G1, G2.
Qed.

Lemma connect_run sh now c i : client_ok c -> server_ok sh -> routed (fst sh) (s_route c) i ->
  exists c' sh' to rpi, OpenModel.connect (served (s_context c)) (sh, s_handle c) now c = (Ok tt, c', (sh', s_handle c')) /\
    s_context c' = s_context c /\ s_route c' = s_route c /\ 0 <= s_serial c' < 2 ^ 16 /\ 0 <= s_handle c' < 2 ^ 32 /\ (s_handle c <> 0 -> s_handle c' = s_handle c) /\
    s_serial c' = (s_counter c + now + 1) mod 2 ^ 16 /\ ((s_counter c + now + 2) mod 2 ^ 32 <> 0 -> s_otid c' = (s_counter c + now + 2) mod 2 ^ 32) /\
    same_tags (fst sh) (fst sh') /\ server_ok sh' /\
    sv_cm (fst sh') = conn_add (sv_cm (fst sh)) (SConn (s_serial c') (s_otid c') to rpi (firstn 2 (s_route c)) true) /\
    (unused (fst sh) (KeyOT (s_otid c')) -> linked (s_handle c') (s_context c') (s_otid c') i sh').
Proof.
  intros (Hs & Hh & Hc & Hr) (K1 & K2 & K3) R. unfold OpenModel.connect.
  set (c0 := add_counter (if s_size c =? 0 then with_size c 4000 else c) now).
  assert (X0 : s_handle c0 = s_handle c /\ s_context c0 = s_context c /\ s_route c0 = s_route c /\ 0 < s_size c0 < 65536 /\ s_counter c0 = (s_counter c + now) mod 2 ^ 32).
  { unfold c0. destruct (Z.eqb_spec (s_size c) 0); cbn; repeat split; try reflexivity; lia. }
  clearbody c0. destruct X0 as (X1 & X2 & X3 & X4 & X5).
  destruct (served_register (s_context c) sh (s_handle c) Hh Hc K3) as (hd & d & s1 & h1 & E & He & Hk & T & Cm & K3' & Keep).
  unfold OpenModel.register_session. change (le 2 1 ++ le 2 0) with [1; 0; 0; 0]. rewrite E. cbv beta iota.
  set (c1 := with_handle c0 (eh_session hd)).
  assert (S1 : server_ok (s1, h1)) by (split; [exact Hk|]; split; [cbn [fst]; rewrite Cm; exact K2|exact K3']).
  assert (R1 : routed s1 (s_route c1) i).
  { destruct R as (A & B & C). change (s_route c1) with (s_route c0). rewrite X3. split; [rewrite (resolve_tags _ _ _ T); exact A|].
    split; [destruct T as (-> & _); exact B|rewrite (prov_tags _ _ i T); exact C]. }
  assert (L1 : 2 <= len (s_route c1) <= 251) by (change (s_route c1) with (s_route c0); rewrite X3; exact Hr).
  assert (Lift : forall c2 sh2 to rpi, s_handle c2 = eh_session hd -> s_context c2 = s_context c -> s_route c2 = s_route c1 -> 0 <= s_serial c2 < 2 ^ 16 ->
    same_tags s1 (fst sh2) -> server_ok sh2 ->
    sv_cm (fst sh2) = conn_add (sv_cm s1) (SConn (s_serial c2) (s_otid c2) to rpi (firstn 2 (s_route c1)) true) ->
    (unused s1 (KeyOT (s_otid c2)) -> linked (eh_session hd) (s_context c) (s_otid c2) i sh2) ->
    s_context c2 = s_context c /\ s_route c2 = s_route c /\ 0 <= s_serial c2 < 2 ^ 16 /\ 0 <= s_handle c2 < 2 ^ 32 /\ (s_handle c <> 0 -> s_handle c2 = s_handle c) /\
    same_tags (fst sh) (fst sh2) /\ server_ok sh2 /\
    sv_cm (fst sh2) = conn_add (sv_cm (fst sh)) (SConn (s_serial c2) (s_otid c2) to rpi (firstn 2 (s_route c)) true) /\
    (unused (fst sh) (KeyOT (s_otid c2)) -> linked (s_handle c2) (s_context c2) (s_otid c2) i sh2)).
  { intros c2 sh2 to rpi Y1 Y2 Y3 Y4 Y5 Y6 Y7 Y8. change (s_route c1) with (s_route c0) in *. rewrite X3 in *. rewrite Y1, Y2.
    split; [reflexivity|]. split; [exact Y3|]. split; [exact Y4|]. split; [exact He|]. split; [exact Keep|].
    split; [destruct T as (T1 & T2 & T3 & T4), Y5 as (U1 & U2 & U3 & U4); repeat split; congruence|].
    split; [exact Y6|]. split; [rewrite Y7, Cm; reflexivity|]. intro Un. apply Y8. unfold unused, connections in *. now rewrite Cm. }
  assert (Num : forall o, common c1 o -> o_serial o = (s_counter c + now + 1) mod 2 ^ 16 /\ o_ot o = (s_counter c + now + 2) mod 2 ^ 32).
  { intros o (A & B & _). change (s_counter c1) with (s_counter c0) in *. rewrite X5 in *. rewrite A, B. split.
    - rewrite Zplus_mod_idemp_l. change 65536 with (2 ^ 16). change (2 ^ 16) with 65536. change (2 ^ 32) with 4294967296. lia.
    - now rewrite Zplus_mod_idemp_l. }
  destruct (Z.ltb_spec 511 (s_size c1)) as [Hl|Hl].
  - destruct (new_open_large c1) as [it c2] eqn:E2. cbv beta iota.
    destruct (open_large_spec c1 it c2 X4 E2) as (o & O1 & _ & _ & _ & O2 & O3 & O4 & O5 & O6 & _).
    pose proof (large_context _ _ _ E2) as O7. change (s_context c1) with (s_context c0) in O7. rewrite X2 in O7.
    destruct (open_run (s_context c) (s1, h1) (eh_session hd) c1 o c2 it i He O6 Hc S1 L1 R1 O5 O7 O4 O1 O2)
      as (c3 & sh3 & to & rpi & F & F1 & F2 & F3 & F4 & F5 & F6 & F7 & F8 & F9 & F10 & F11).
    rewrite F. cbv beta iota. rewrite F1, O3. destruct (Z.leb_spec (s_size c1) 511) as [Y|_]; [lia|].
    exists c3, sh3, to, rpi. split; [now rewrite F2|].
    destruct (Num o O2) as (N1 & N2). rewrite <- N1, <- N2.
    destruct (Lift c3 sh3 to rpi F2 F3 F4 F6 F7 F8 F10 F11) as (Z1 & Z2 & Z3 & Z4 & Z5 & Z6).
    split; [exact Z1|]. split; [exact Z2|]. split; [exact Z3|]. split; [exact Z4|]. split; [exact Z5|]. split; [exact F5|]. split; [exact F9|exact Z6].
  - cbv beta iota. destruct (Z.leb_spec (s_size c1) 511) as [_|Y]; [|lia].
    destruct (new_open_standard c1) as [it c2] eqn:E2. cbv beta iota.
    assert (X4' : 0 < s_size c1 <= 511) by (change (s_size c1) with (s_size c0) in *; lia).
    destruct (open_standard_spec c1 it c2 X4' E2) as (o & O1 & _ & _ & _ & O2 & O3 & O4 & O5 & O6 & _).
    pose proof (standard_context _ _ _ E2) as O7. change (s_context c1) with (s_context c0) in O7. rewrite X2 in O7.
    destruct (open_run (s_context c) (s1, h1) (eh_session hd) c1 o c2 it i He O6 Hc S1 L1 R1 O5 O7 O4 O1 O2)
      as (c3 & sh3 & to & rpi & F & F1 & F2 & F3 & F4 & F5 & F6 & F7 & F8 & F9 & F10 & F11).
    rewrite F. cbv beta iota.
    exists c3, sh3, to, rpi. split; [now rewrite F2|].
    destruct (Num o O2) as (N1 & N2). rewrite <- N1, <- N2.
    destruct (Lift c3 sh3 to rpi F2 F3 F4 F6 F7 F8 F10 F11) as (Z1 & Z2 & Z3 & Z4 & Z5 & Z6).
    split; [exact Z1|]. split; [exact Z2|]. split; [exact Z3|]. split; [exact Z4|]. split; [exact Z5|]. split; [exact F5|]. split; [exact F9|exact Z6].
Qed.

(** ** C79: connecting *)

(** Connect succeeds against the built-in server, leaves its tags as they are and
    adds one open connection with the client's serial number, the number the
    client will use in its requests, and the first hop of its route.  If no other
    open connection has that number, the client is linked to the provider at its
    route: what C44, C47, C72 and C73 say holds for it. *)
Theorem C79_connects_partial : forall sh now c i, client_ok c -> server_ok sh -> routed (fst sh) (s_route c) i ->
  exists c' sh' to rpi, OpenModel.connect (served (s_context c)) (sh, s_handle c) now c = (Ok tt, c', (sh', s_handle c')) /\
    s_context c' = s_context c /\ s_route c' = s_route c /\ same_tags (fst sh) (fst sh') /\ server_ok sh' /\
    connections (fst sh') = connections (fst sh) ++ [SConn (s_serial c') (s_otid c') to rpi (firstn 2 (s_route c)) true] /\
    (unused (fst sh) (KeyOT (s_otid c')) -> linked (s_handle c') (s_context c') (s_otid c') i sh').
Proof.
  intros sh now c i C S R. destruct (connect_run sh now c i C S R) as (c' & sh' & to & rpi & E & A1 & A2 & _ & _ & _ & _ & _ & A3 & A4 & A5 & A6).
  exists c', sh', to, rpi. split; [exact E|]. split; [exact A1|]. split; [exact A2|]. split; [exact A3|]. split; [exact A4|]. split; [|exact A6].
  unfold connections. rewrite A5. reflexivity.
Qed.
Print Assumptions C79_connects_partial.

(** From Connect to a Read's result. *)
Theorem C79_read_partial : forall sh now c i ops tg k v fuel, client_ok c -> server_ok sh -> routed (fst sh) (s_route c) i ->
  named ops tg -> addressed tg -> scalar k v -> ProvSpec.reads (behind i sh) (text tg) 1 (VOne v) ->
  exists c' sh', OpenModel.connect (served (s_context c)) (sh, s_handle c) now c = (Ok tt, c', (sh', s_handle c')) /\
    (unused (fst sh) (KeyOT (s_otid c')) -> forall q, exists sh2,
       client_read fuel (link (s_handle c') (s_context c')) (cl_run ops) sh' (s_otid c') q (text tg) k = (Ok v, sh2, q + 1)).
Proof.
  intros sh now c i ops tg k v fuel C S R N Ad Sc Rd.
  destruct (connect_run sh now c i C S R) as (c' & sh' & to & rpi & E & _ & _ & _ & _ & _ & _ & _ & T & _ & _ & L).
  exists c', sh'. split; [exact E|]. intros Un q. specialize (L Un).
  assert (Rd' : ProvSpec.reads (behind i sh') (text tg) 1 (VOne v)) by (unfold behind in *; rewrite (prov_tags _ _ i T); exact Rd).
  destruct (C44_read _ _ _ _ sh' ops tg k v fuel q L N Ad Sc Rd') as (sh2 & Er & _). exists sh2. exact Er.
Qed.
Print Assumptions C79_read_partial.

(** Which numbers those are: the client's own counter, set from the clock.  The
    connection number is the server's choice only when the client's would be zero. *)
Theorem C79_numbers : forall sh now c i, client_ok c -> server_ok sh -> routed (fst sh) (s_route c) i ->
  let '(_, c', _) := OpenModel.connect (served (s_context c)) (sh, s_handle c) now c in
  s_serial c' = (s_counter c + now + 1) mod 2 ^ 16 /\
  ((s_counter c + now + 2) mod 2 ^ 32 <> 0 -> s_otid c' = (s_counter c + now + 2) mod 2 ^ 32) /\
  (s_handle c <> 0 -> s_handle c' = s_handle c).
Proof.
  intros sh now c i C S R. destruct (connect_run sh now c i C S R) as (c' & sh' & to & rpi & -> & _ & _ & _ & _ & A1 & A2 & A3 & _).
  split; [exact A2|]. split; [exact A3|exact A1].
Qed.
Print Assumptions C79_numbers.

(** Clients that are linked stay linked, to the same provider, whatever number the
    new client takes. *)
Theorem C79_others : forall sh now c i h2 session context otid j, client_ok c -> server_ok sh -> routed (fst sh) (s_route c) i ->
  linked session context otid j (fst sh, h2) ->
  let '(_, _, (sh', _)) := OpenModel.connect (served (s_context c)) (sh, s_handle c) now c in
  linked session context otid j (fst sh', h2) /\ behind j (fst sh', h2) = behind j (fst sh, h2).
Proof.
  intros sh now c i h2 session context otid j C S R L. destruct (connect_run sh now c i C S R) as (c' & sh' & to & rpi & -> & _ & _ & _ & _ & _ & _ & _ & T & _ & Cm & _).
  split.
  - apply (linked_added (fst sh) (fst sh') _ h2 session context otid j (reached_good _ (proj1 (proj2 S))) T Cm L).
  - unfold behind. cbn [fst]. now rewrite (prov_tags _ _ j T).
Qed.
Print Assumptions C79_others.

(** ** C80: leaving *)

(** [only s k a]: connection [a] is open, has that number, and is the only open
    one that has it. *)
Definition only (s : server) (k : ckey) (a : nat) : Prop := live (connections s) k a /\ forall b, live (connections s) k b -> b = a.

(** Disconnect returns without an error, and closes the client's connection, if
    that is the only open one with its serial number, and no other; tags are as
    they were.  (The server sends no reply; Disconnect waits for its timeout.) *)
Theorem C80_closes_partial : forall sh c a, server_ok sh -> 0 <= s_handle c < 2 ^ 32 -> 0 <= s_context c < 2 ^ 64 -> 0 <= s_serial c < 2 ^ 16 -> len (s_route c) < 60000 ->
  only (fst sh) (KeyID (s_serial c)) a ->
  exists sh', disconnect (served (s_context c)) (sh, s_handle c) c = (Ok tt, (sh', s_handle c)) /\
    closes (connections (fst sh)) a (connections (fst sh')) /\ unused (fst sh') (KeyID (s_serial c)) /\ same_tags (fst sh) (fst sh') /\ server_ok sh'.
Proof.
  intros sh c a (K1 & K2 & K3) Hh Hc Hs Hl (L & O). pose proof (reached_good _ K2) as G.
  rewrite (disconnect_run (s_context c) sh (s_handle c) c Hh Hc Hs Hl).
  pose proof (step_refines (sv_cm (fst sh)) (OpClose (KeyID (s_serial c))) G) as (_ & X). cbn [cman_step] in X.
  pose proof (reached_close (sv_cm (fst sh)) (KeyID (s_serial c)) K2) as Rc.
  destruct (conn_close (sv_cm (fst sh)) (KeyID (s_serial c))) as [m ok]. cbn [fst snd] in X, Rc |- *.
  inversion X as [| | |k b h' Lb Cl E1 E2 E3|k N E1 E2 E3]; subst.
  - rewrite (O b Lb) in Cl. eexists. split; [reflexivity|]. cbn [fst snd set_cm connections sv_cm]. split; [exact Cl|].
    split; [|split; [now repeat split|]].
    + intros x (c2 & N2 & O2 & C2). destruct Cl as (_ & Co & cl & Ca1 & Ca2 & Ca3). unfold connections in N2. cbn [set_cm sv_cm] in N2.
      destruct (Nat.eq_dec x a) as [->|Nx].
      * rewrite Ca3 in N2. assert (sc_open c2 = false) by (injection N2 as <-; reflexivity). congruence.
      * rewrite (Co x Nx) in N2. apply Nx, O. exists c2. auto.
    + split; [split; apply K1|]. split; [exact Rc|exact K3].
  - destruct (N a L).
Qed.
Print Assumptions C80_closes_partial.

(** Another client whose connection number is its own stays linked. *)
Theorem C80_others : forall sh c a h2 session context otid j b, server_ok sh -> 0 <= s_handle c < 2 ^ 32 -> 0 <= s_context c < 2 ^ 64 -> 0 <= s_serial c < 2 ^ 16 ->
  len (s_route c) < 60000 -> only (fst sh) (KeyID (s_serial c)) a -> only (fst sh) (KeyOT otid) b -> b <> a -> linked session context otid j (fst sh, h2) ->
  let '(_, (sh', _)) := disconnect (served (s_context c)) (sh, s_handle c) c in
  linked session context otid j (fst sh', h2) /\ behind j (fst sh', h2) = behind j (fst sh, h2).
Proof.
  intros sh c a h2 session context otid j b S Hh Hc Hs Hl Oa (Lb & Ob) Nb L.
  destruct (C80_closes_partial sh c a S Hh Hc Hs Hl Oa) as (sh' & -> & Cl & _ & T & S').
  split.
  - apply (linked_closed (fst sh) (fst sh') a b h2 session context otid j); try assumption; [exact (reached_good _ (proj1 (proj2 S)))|exact (reached_good _ (proj1 (proj2 S')))].
  - unfold behind. cbn [fst]. now rewrite (prov_tags _ _ j T).
Qed.
Print Assumptions C80_others.

(** With no open connection of that serial number left (a second Disconnect, or
    one after the server was restarted), nothing changes. *)
Theorem C80_nothing_left : forall sh c, server_ok sh -> 0 <= s_handle c < 2 ^ 32 -> 0 <= s_context c < 2 ^ 64 -> 0 <= s_serial c < 2 ^ 16 -> len (s_route c) < 60000 ->
  unused (fst sh) (KeyID (s_serial c)) ->
  exists h', disconnect (served (s_context c)) (sh, s_handle c) c = (Ok tt, ((fst sh, h'), s_handle c)).
Proof.
  intros sh c (K1 & K2 & K3) Hh Hc Hs Hl N. rewrite (disconnect_run (s_context c) sh (s_handle c) c Hh Hc Hs Hl).
  unfold conn_close. pose proof (get_live _ (KeyID (s_serial c)) (reached_good _ K2)) as X.
  destruct (find_conn _ _ _ _) as [[j b]|]; [destruct (N b X)|]. cbn [fst snd]. eexists. reflexivity.
Qed.
Print Assumptions C80_nothing_left.

Lemma same_entries {A} (l : list A) : forall l', (forall b, nth_error l b = nth_error l' b) -> l = l'.
Proof.
  induction l as [|x l IH]; intros [|y l'] H; [reflexivity|specialize (H 0%nat); discriminate|specialize (H 0%nat); discriminate|].
  pose proof (H 0%nat) as E. injection E as ->. f_equal. apply IH. intro b. exact (H (S b)).
Qed.
(** There and back: a client that connected with numbers of its own and
    disconnects leaves the open connections as they were before it came. *)
Theorem C80_round : forall sh now c i, client_ok c -> server_ok sh -> routed (fst sh) (s_route c) i ->
  exists c' sh1 sh2, OpenModel.connect (served (s_context c)) (sh, s_handle c) now c = (Ok tt, c', (sh1, s_handle c')) /\
    (unused (fst sh) (KeyID (s_serial c')) ->
     disconnect (served (s_context c')) (sh1, s_handle c') c' = (Ok tt, (sh2, s_handle c')) /\
     exists old, connections (fst sh2) = connections (fst sh) ++ [old] /\ sc_open old = false /\ same_tags (fst sh) (fst sh2)).
Proof.
  intros sh now c i C S R. destruct (connect_run sh now c i C S R) as (c' & sh' & to & rpi & E & A1 & A2 & A3 & A4 & A5 & A6 & A7 & T & S1 & Cm & L).
  pose proof C as (C1 & C2 & C3 & C4).
  set (cn := SConn (s_serial c') (s_otid c') to rpi (firstn 2 (s_route c)) true) in *.
  assert (Hx : connections (fst sh') = connections (fst sh) ++ [cn]) by (unfold connections; rewrite Cm; reflexivity).
  assert (Nn : nth_error (connections (fst sh')) (length (connections (fst sh))) = Some cn) by (rewrite Hx, nth_error_app2, Nat.sub_diag by lia; reflexivity).
  destruct (disconnect (served (s_context c')) (sh', s_handle c') c') as [r [sh2 z]] eqn:Ed.
  exists c', sh', sh2. split; [exact E|]. intro Un.
  assert (On : only (fst sh') (KeyID (s_serial c')) (length (connections (fst sh)))).
  { split; [exists cn; split; [exact Nn|]; split; reflexivity|]. intros b (c0 & E0 & O0 & K0).
    destruct (Nat.lt_ge_cases b (length (connections (fst sh)))) as [Hl|Hl].
    - rewrite Hx, nth_error_app1 in E0 by exact Hl. destruct (Un b). exists c0. auto.
    - assert (b < length (connections (fst sh')))%nat by (apply nth_error_Some; congruence). rewrite Hx, app_length in H. cbn [length] in H. lia. }
  destruct (C80_closes_partial sh' c' _ S1 A4 ltac:(rewrite A1; exact C3) A3 ltac:(rewrite A2; lia) On) as (sh3 & E3 & Cl & _ & T3 & _).
  rewrite Ed in E3. injection E3 as -> -> ->. split; [exact Ed|].
  destruct Cl as (Cl & Co & cl & Ca1 & Ca2 & Ca3). rewrite Nn in Ca1. injection Ca1 as <-.
  eexists. split; [|split; [|destruct T as (T1 & T2 & T3' & T4), T3 as (U1 & U2 & U3 & U4); repeat split; congruence]].
  - apply same_entries. intro b. destruct (Nat.eq_dec b (length (connections (fst sh)))) as [->|Nb].
    + rewrite Ca3, nth_error_app2, Nat.sub_diag by lia. reflexivity.
    + rewrite (Co b Nb), Hx. destruct (Nat.lt_ge_cases b (length (connections (fst sh)))) as [Hl|Hl].
      * now rewrite !nth_error_app1 by exact Hl.
      * rewrite (proj2 (nth_error_None _ b)), (proj2 (nth_error_None _ b)); [reflexivity| |]; rewrite app_length; cbn [length]; lia.
  - reflexivity.
Qed.
Print Assumptions C80_round.

(** ** Examples and refutations

    A server with two sets of tags, speed = 7 at the route 1,0 and speed = 8 at
    1,1, and clients as NewClient makes them. *)
Definition other_prov : prov := Prov [(str "speed", PV (GInt true 4 8))] [].
Definition two_routes : server :=
  Server cman_init [([1; 0], 0%nat); ([1; 1], 1%nat)] [demo_prov; other_prov] demo_attrs
    (fun n => 1000 + Z.of_nat n mod 7) 0 [] (Conv (fun _ z => z) (fun _ _ => 0) (fun _ => [])) [127; 0; 0; 1] 44818.
Definition new_client (slot : Z) : session :=
  {| s_size := 4002; s_counter := 0; s_handle := 0; s_context := 0; s_otid := 0; s_serial := 0;
     s_vendor := 0x9999; s_orig := 42; s_rpi := 2500; s_route := [1; slot] |}.
Definition arrives (now : Z) (c : session) (s : server) : res unit * session * (server * handler * Z) :=
  OpenModel.connect (served (s_context c)) ((s, handler_new), s_handle c) now c.
Definition read_speed (c : session) (s : server) : res gval :=
  fst (fst (client_read 0 (link (s_handle c) (s_context c)) (cl_run []) (s, handler_new) (s_otid c) 1 (text (nm (str "speed") [])) (KInt true 4))).

Lemma other_separate : separate other_prov.
Proof.
  assert (E : run_writes (sv_conv demo_server) (Prov [] []) [(str "speed", GiveOne (GInt true 4 8))] = (other_prov, [true])) by (vm_compute; reflexivity).
  exact (proj1 (run_history _ _ _ _ _ separate_empty E)).
Qed.
Lemma two_ok h : handler_ok h -> server_ok (two_routes, h).
Proof.
  intro H. split; [exact H|]. split; [exists []; reflexivity|]. intro n. cbn [fst two_routes sv_rand].
  pose proof (Z.mod_pos_bound (Z.of_nat n) 7 ltac:(lia)). lia.
Qed.
Lemma two_routed slot : slot = 0 \/ slot = 1 -> routed two_routes [1; slot] (Z.to_nat slot).
Proof.
  intros [->| ->]; (split; [reflexivity|]; split; [cbn; lia|]).
  - exact demo_separate.
  - exact other_separate.
Qed.
Lemma new_client_ok slot : client_ok (new_client slot).
Proof. unfold client_ok, new_client. cbn [s_size s_handle s_context s_route]. change (len [1; slot]) with 2. lia. Qed.

(** A client at each route, the second connecting while the first is connected,
    at different times: each is linked to its own tags, and reads them; the first
    leaves, and only the second's connection stays open. *)
Example ex_C79 : exists c1 s1 c2 s2,
  client_ok (new_client 0) /\ client_ok (new_client 1) /\ server_ok (two_routes, handler_new) /\ routed two_routes [1; 0] 0 /\ routed two_routes [1; 1] 1 /\
  arrives 100 (new_client 0) two_routes = (Ok tt, c1, s1) /\ arrives 200 (new_client 1) (fst (fst s1)) = (Ok tt, c2, s2) /\
  unused two_routes (KeyOT (s_otid c1)) /\ unused (fst (fst s1)) (KeyOT (s_otid c2)) /\
  read_speed c1 (fst (fst s2)) = Ok (GInt true 4 7) /\ read_speed c2 (fst (fst s2)) = Ok (GInt true 4 8).
Proof.
  do 4 eexists. split; [apply new_client_ok|]. split; [apply new_client_ok|]. split; [apply two_ok; split; cbn; lia|].
  split; [apply (two_routed 0); now left|]. split; [apply (two_routed 1); now right|].
  split; [vm_compute; reflexivity|]. split; [vm_compute; reflexivity|].
  split; [intros [|a] (c & E & _); discriminate|].
  split; [|split; vm_compute; reflexivity].
  intros [|[|a]] (c & E & _ & K); [|discriminate|discriminate]. cbn in E. injection E as <-. cbn in K. discriminate.
Qed.
Example ex_C80 : exists c1 s1 c2 s2 s3,
  arrives 100 (new_client 0) two_routes = (Ok tt, c1, s1) /\ arrives 200 (new_client 1) (fst (fst s1)) = (Ok tt, c2, s2) /\
  only (fst (fst s2)) (KeyID (s_serial c1)) 0 /\ only (fst (fst s2)) (KeyOT (s_otid c2)) 1 /\
  disconnect (served (s_context c1)) (fst (fst s2), handler_new, s_handle c1) c1 = (Ok tt, s3) /\
  map sc_open (connections (fst (fst s3))) = [false; true] /\
  (exists e, read_speed c1 (fst (fst s3)) = Err e) /\ read_speed c2 (fst (fst s3)) = Ok (GInt true 4 8).
Proof.
  do 5 eexists. split; [vm_compute; reflexivity|]. split; [vm_compute; reflexivity|].
  split; [split; [eexists; split; [reflexivity|]; split; reflexivity|]|].
  { intros [|[|a]] (c & E & _ & K); [reflexivity| |destruct a; discriminate]. cbn in E. injection E as <-. cbn in K. discriminate. }
  split; [split; [eexists; split; [reflexivity|]; split; reflexivity|]|].
  { intros [|[|a]] (c & E & _ & K); [|reflexivity|destruct a; discriminate]. cbn in E. injection E as <-. cbn in K. discriminate. }
  split; [vm_compute; reflexivity|]. split; [vm_compute; reflexivity|]. split; [eexists; vm_compute; reflexivity|vm_compute; reflexivity].
Qed.

(** Two clients that connect in the same millisecond take the same numbers: the
    second, whose route leads to the other tags, reads the first's. *)
Theorem C79_same_time_refuted : exists now c1 s1 c2 s2, client_ok (new_client 1) /\ routed two_routes (s_route (new_client 1)) 1 /\
  arrives now (new_client 0) two_routes = (Ok tt, c1, s1) /\ arrives now (new_client 1) (fst (fst s1)) = (Ok tt, c2, s2) /\
  behind 1 (fst s2) (str "speed") = Some (VOne (GInt true 4 8)) /\ read_speed c2 (fst (fst s2)) = Ok (GInt true 4 7).
Proof.
  exists 1763300000000. do 4 eexists. split; [apply new_client_ok|]. split; [apply (two_routed 1); now right|].
  split; [vm_compute; reflexivity|]. split; [vm_compute; reflexivity|]. split; vm_compute; reflexivity.
Qed.
Print Assumptions C79_same_time_refuted.
(** Connect succeeds for a route with nothing behind it; only the requests fail. *)
Theorem C79_no_route_refuted : exists c1 s1, client_ok (new_client 5) /\ (forall i, ~ routed two_routes (s_route (new_client 5)) i) /\
  arrives 100 (new_client 5) two_routes = (Ok tt, c1, s1) /\ exists e, read_speed c1 (fst (fst s1)) = Err e.
Proof.
  do 2 eexists. split; [apply new_client_ok|]. split; [intros i (E & _); discriminate|].
  split; [vm_compute; reflexivity|]. eexists. vm_compute. reflexivity.
Qed.
Print Assumptions C79_no_route_refuted.
(** Two clients that connect 65.536 seconds apart have different connection
    numbers but the same serial number: when the second leaves, it is the first's
    connection that is closed, and its own stays open. *)
Theorem C80_other_refuted : exists now c1 s1 c2 s2 s3,
  arrives now (new_client 0) two_routes = (Ok tt, c1, s1) /\ arrives (now + 65536) (new_client 1) (fst (fst s1)) = (Ok tt, c2, s2) /\
  s_otid c1 <> s_otid c2 /\ read_speed c1 (fst (fst s2)) = Ok (GInt true 4 7) /\
  disconnect (served (s_context c2)) (fst s2, s_handle c2) c2 = (Ok tt, s3) /\
  map sc_open (connections (fst (fst s3))) = [false; true] /\ map sc_ot (connections (fst (fst s3))) = [s_otid c1; s_otid c2] /\
  exists e, read_speed c1 (fst (fst s3)) = Err e.
Proof.
  exists 1763300000000. do 5 eexists. split; [vm_compute; reflexivity|]. split; [vm_compute; reflexivity|]. split; [discriminate|].
  split; [vm_compute; reflexivity|]. split; [vm_compute; reflexivity|]. split; [vm_compute; reflexivity|]. split; [vm_compute; reflexivity|].
  eexists. vm_compute. reflexivity.
Qed.
Print Assumptions C80_other_refuted.
