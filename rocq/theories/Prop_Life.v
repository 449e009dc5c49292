(** * C95, C96, C97: the connection over a client's life *)
From Verif Require Import GoBase ConnModel LifeModel LifeSpec LifeProof.

(** ** C95: no socket is left behind *)

(** Exactly the current socket of a connected client is open, and besides it every
    socket on which no connection was granted: Connect does not close those. *)
Theorem C95_open_sockets : forall fs auto os k,
  let w := after fs os (life0 auto) in
  left_open w k <-> never_granted w k \/ is_connected w /\ newest w k.
Proof.
  intros fs auto os k w. assert (Cm : calm w) by apply after_calm, life0_calm. destruct Cm as [I St].
  unfold left_open, never_granted, is_connected, newest. change 2 with connected.
  assert (Cn : forall j, l_conn w = Some j <-> last_dial (l_log w) = Some (Some j)).
  { intro j. rewrite (i_conn _ I). destruct (last_dial (l_log w)); split; congruence. }
  rewrite <- Cn. split.
  - intros [D N]. assert (Dec : {In (Granted k) (l_log w)} + {~ In (Granted k) (l_log w)}).
    { apply in_dec. intros a b. decide equality; apply Nat.eq_dec. }
    destruct Dec as [G|G]; [|auto]. right. destruct (proj1 (i_live _ I k) (conj G N)) as [[S|S] C]; [auto|]. destruct St; rewrite S in *; discriminate.
  - intros [[D G]|[S C]].
    + split; [exact D|]. intro X. apply G, (i_closed _ I), X.
    + destruct (proj2 (i_live _ I k) (conj (or_introl S) C)) as [G N]. split; [|exact N]. apply (i_dial _ I), (i_grant _ I), G.
Qed.
Print Assumptions C95_open_sockets.

(** If every connection dialled was granted, nothing but the current one is open. *)
Theorem C95_partial : forall fs auto os k,
  let w := after fs os (life0 auto) in
  (forall j, In (Dialled j) (l_log w) -> In (Granted j) (l_log w)) ->
  (left_open w k <-> is_connected w /\ newest w k).
Proof.
  intros fs auto os k w G. pose proof (C95_open_sockets fs auto os k) as X. cbv zeta in X. fold w in X. rewrite X.
  unfold never_granted. split; [intros [[D N]|Y]; [exfalso; auto|exact Y]|auto].
Qed.
Print Assumptions C95_partial.

(** Disconnect closes the socket, whatever becomes of its request. *)
Theorem C95_disconnect : forall fs auto os k,
  let w := after fs os (life0 auto) in let '(r, w') := disconnect fs w in
  is_connected w -> newest w k -> l_locked w = false ->
  r = Returns true /\ ~ is_connected w' /\ In (Closed k) (l_log w').
Proof.
  intros fs auto os k w. destruct (disconnect fs w) as [r w'] eqn:E. intros C N L.
  assert (Cm : calm w) by apply after_calm, life0_calm.
  pose proof (disconnect_spec _ _ _ _ (proj1 Cm) (calm_statuses _ Cm) E) as (_ & _ & _ & _ & _ & _ & _ & X).
  destruct r as [b| |]; [|contradiction|destruct X; congruence]. destruct X as (_ & _ & X). rewrite C in X. change (2 =? connected) with true in X. cbv iota in X.
  destruct X as (-> & S & j & Cj & X). split; [reflexivity|]. split; [unfold is_connected; rewrite S; discriminate|].
  assert (j = k) as ->; [|exact X]. rewrite (i_conn _ (proj1 Cm)), N in Cj. congruence.
Qed.
Print Assumptions C95_disconnect.

(** A controller that grants nothing: every Read leaves one more socket open. *)
Definition refusing : nat -> fate := fun _ => Fate true Refused.
Lemma refused_read n w : calm w -> l_locked w = false -> l_status w = disconnected -> l_auto w = true ->
  exists w', run refusing (read_life n) w = (Returns false, w') /\ calm w' /\ l_locked w' = false /\ l_status w' = disconnected /\ l_auto w' = true /\ l_next w' = S (l_next w) /\
    (forall j, In (Closed j) (l_log w') -> In (Closed j) (l_log w)).
Proof.
  intros Cm L Sc A. cbn [read_life guarded run]. destruct (check refusing w) as [r w1] eqn:E.
  pose proof (check_spec _ _ _ _ Cm E) as (C1 & A1 & K1 & T1 & X).
  assert (r = Returns false /\ l_next w1 = S (l_next w) /\ (forall j, In (Closed j) (l_log w1) -> In (Closed j) (l_log w))) as (-> & N & Cl).
  { unfold check in E. rewrite L, Sc, A in E. cbn [Z.eqb disconnected connected] in E. change (disconnected =? connected) with false in E. cbv iota in E.
    unfold connect in E. rewrite L, Sc in E. change (start_connect disconnected) with (Some connecting) in E. cbv iota zeta in E.
    change (f_dial (refusing _)) with true in E. cbv iota in E. change (l_next (set_status w connecting)) with (l_next w) in E.
    set (v := tick (see _ _)) in E.
    assert (N : ~ In (Closed (l_next w)) (l_log w)). { intro Y. apply (i_closed _ (proj1 Cm)), (i_grant _ (proj1 Cm)) in Y. lia. }
    assert (Ex : forall u, l_locked u = false -> l_conn u = Some (l_next w) -> is_closed u (l_next w) = false -> exchange refusing u = (Returns Refused, tick (see u (Sent (l_next w))))).
    { intros u Lu Cu Nu. unfold exchange, ask. rewrite Lu, Cu, Nu. reflexivity. }
    assert (F : is_closed w (l_next w) = false). { destruct (is_closed w (l_next w)) eqn:Y; [apply is_closed_in in Y; contradiction|reflexivity]. }
    rewrite (Ex v L eq_refl F) in E. unfold open_any, open_standard in E.
    set (v2 := tick (see v _)) in E. rewrite (Ex v2 L eq_refl F) in E. cbv iota beta in E.
    set (v3 := Life _ _ _ false _ _ _ _ _) in E. rewrite (Ex v3 L eq_refl F) in E.
    destruct (l_large v2); injection E as <- <-; (split; [reflexivity|]; split; [reflexivity|]);
      subst v v2 v3; cbn; intros j Y; repeat (destruct Y as [Y|Y]; [discriminate|]); exact Y. }
  exists w1. split; [reflexivity|]. split; [exact C1|]. destruct X as (_ & L1 & _ & S1 & _). split; [exact L1|]. split; [now apply S1|]. split; [congruence|]. split; [exact N|exact Cl].
Qed.
Theorem C95_refused_refuted : exists fs, forall n,
  let w := after fs (repeat (OCall (read_life 0)) n) (life0 true) in
  ~ is_connected w /\ forall k, (k < n)%nat -> left_open w k.
Proof.
  exists refusing. intros n.
  assert (H : forall n w, calm w -> l_locked w = false -> l_status w = disconnected -> l_auto w = true ->
    let w' := after refusing (repeat (OCall (read_life 0)) n) w in l_status w' = disconnected /\ l_next w' = (n + l_next w)%nat /\ calm w' /\
      (forall j, In (Closed j) (l_log w') -> In (Closed j) (l_log w))).
  { clear n. induction n as [|n IH]; intros w Cm L Sc A; [auto|]. cbn [repeat after do_op].
    destruct (refused_read 0 w Cm L Sc A) as (w' & E & C' & L' & S' & A' & N' & Cl). rewrite E. cbn [snd].
    destruct (IH w' C' L' S' A') as (X1 & X2 & X3 & X4). split; [exact X1|]. split; [rewrite X2, N'; lia|]. split; [exact X3|auto]. }
  destruct (H n (life0 true) (life0_calm true) eq_refl eq_refl eq_refl) as (S & N & Cm & Cl). cbv zeta. split.
  - unfold is_connected. rewrite S. discriminate.
  - intros k Hk. split; [apply (i_dial _ (proj1 Cm)); rewrite N; cbn; lia|]. intro X. exact (Cl k X).
Qed.
Print Assumptions C95_refused_refuted.

(** A connection, a lost one, another: two sockets dialled, the first closed. *)
Definition rainy (t : nat) : fate := if (t =? 5)%nat then Fate true Lost else Fate true Fine.
Example ex_C95 : let w := after rainy [OConnect; OCall (read_life 0); OCall (read_life 0); OCall (read_life 0)] (life0 true) in
  is_connected w /\ newest w 1 /\ In (Closed 0) (l_log w) /\ left_open w 1.
Proof. vm_compute. intuition discriminate. Qed.

(** ** C96: without a connection there is an error, not a crash *)

(** Connecting, disconnecting, reading and writing single tags and attributes
    always come back.  So do batches when the firmware version is known, and the
    methods without checkConnection when the last dial worked. *)
Theorem C96_partial : forall fs auto os,
  all_returned fs os (life0 auto) ->
  let w := after fs os (life0 auto) in
  returns (fst (connect fs w)) /\ returns (fst (disconnect fs w)) /\
  returns (fst (run fs get_attr_single w)) /\ returns (fst (run fs write_life w)) /\
  (forall n, returns (fst (run fs (read_life n) w)) /\ returns (fst (run fs (read_single_life n) w))) /\
  (l_known w = true -> forall n l, returns (fst (run fs (read_map_life l) w)) /\ returns (fst (run fs (read_multi_life n) w)) /\ returns (fst (run fs (write_multi_life n) w))) /\
  (forall k, newest w k -> forall n, returns (fst (run fs (list_life n) w)) /\ (l_known w = true -> returns (fst (run fs (write_map_life n) w)))).
Proof.
  intros fs auto os R w. assert (Cm : calm w) by apply after_calm, life0_calm.
  assert (L : l_locked w = false) by exact (all_returned_unlocked fs os _ (life0_calm auto) eq_refl R).
  assert (Sf : forall l p, safe (l_known w) l p -> linked l w -> returns (fst (run fs p w))).
  { intros l p H C. destruct (run_safe fs p l w Cm L H C) as (ok & w' & E & _). rewrite E. now exists ok. }
  assert (Gd : forall p, safe (l_known w) Up p -> safe (l_known w) Unsure (guarded p)).
  { intros p H. split; [exact H|]. intros _. exact Logic.I. }
  assert (As : forall n kn l, l <> Unsure -> safe kn l (asks n)) by exact asks_safe.
  assert (One : forall n, safe (l_known w) Up (new_ioi (asks n))) by (intro n; apply new_ioi_safe, As).
  split; [|split; [|split; [|split; [|split; [|split]]]]].
  - destruct (connect fs w) as [r w'] eqn:E. pose proof (connect_spec _ _ _ _ Cm E) as (_ & _ & _ & _ & X).
    destruct r as [b| |]; [now exists b|contradiction|destruct X; congruence].
  - destruct (disconnect fs w) as [r w'] eqn:E. pose proof (disconnect_spec _ _ _ _ (proj1 Cm) (calm_statuses _ Cm) E) as (_ & _ & _ & _ & _ & _ & _ & X).
    destruct r as [b| |]; [now exists b|contradiction|destruct X; congruence].
  - apply (Sf Unsure); [|exact Logic.I]. apply Gd, As. discriminate.
  - apply (Sf Unsure); [|exact Logic.I]. apply Gd, One.
  - intro n. split; (apply (Sf Unsure); [|exact Logic.I]).
    + apply Gd. split; [apply One|congruence].
    + apply Gd, One.
  - intros K n l. rewrite K in *. split; [|split]; (apply (Sf Unsure); [apply Gd|exact Logic.I]).
    + apply batches_known. discriminate.
    + apply iois_known, As. discriminate.
    + apply iois_known, As. discriminate.
  - intros k N n. assert (C : linked Some_ w). { cbn. rewrite (i_conn _ (proj1 Cm)), N. discriminate. }
    split; [apply (Sf Some_); [apply As; discriminate|exact C]|]. intro K. rewrite K in *. apply (Sf Some_); [|exact C]. apply iois_known, As. discriminate.
Qed.
Print Assumptions C96_partial.
Example ex_C96 : all_returned rainy [OConnect; OCall (read_life 0); OCall (read_life 0)] (life0 true) /\
  let w := after rainy [OConnect; OCall (read_life 0); OCall (read_life 0)] (life0 true) in l_known w = true /\ ~ is_connected w /\ newest w 0.
Proof. split; [cbn; repeat (split; [eexists; reflexivity|]); exact I|]. vm_compute. intuition discriminate. Qed.

(** A client that never connected, or whose last dial failed: every method without
    checkConnection panics. *)
Theorem C96_list_crashes : forall fs auto os n,
  all_returned fs os (life0 auto) ->
  let w := after fs os (life0 auto) in
  (forall k, ~ newest w k) -> fst (run fs (list_life n) w) = Crashes.
Proof.
  intros fs auto os n R w N. assert (Cm : calm w) by apply after_calm, life0_calm.
  assert (L : l_locked w = false) by exact (all_returned_unlocked fs os _ (life0_calm auto) eq_refl R).
  assert (C : l_conn w = None).
  { rewrite (i_conn _ (proj1 Cm)). destruct (last_dial (l_log w)) as [[k|]|] eqn:E; [|reflexivity|reflexivity]. exfalso. apply (N k E). }
  cbn [list_life asks run]. unfold exchange, ask. rewrite L, C. reflexivity.
Qed.
Print Assumptions C96_list_crashes.

(** WriteMap with a controller that cannot be reached. *)
Theorem C96_write_map_crashes : forall fs n, (forall t, f_dial (fs t) = false) -> fst (run fs (write_map_life n) (life0 true)) = Crashes.
Proof.
  intros fs n D. unfold write_map_life.
  assert (H : forall n w, l_locked w = false -> l_conn w = None -> l_status w = disconnected -> l_auto w = true -> l_known w = false ->
    fst (run fs (iois n (asks 1)) w) = Crashes).
  { clear n. induction n as [|n IH]; intros w L C Sc A K.
    - cbn [iois asks run]. unfold exchange, ask. rewrite L, C. reflexivity.
    - cbn [iois new_ioi run]. rewrite K. cbn [run]. unfold check, connect. rewrite L, Sc, A.
      change (disconnected =? connected) with false. change (start_connect disconnected) with (Some connecting). cbv iota zeta. rewrite D. apply IH; auto. }
  apply H; reflexivity.
Qed.
Print Assumptions C96_write_map_crashes.

(** ReadMap of a single tag on a connected client whose version is not known yet:
    the controller goes away, and the panic is in a read. *)
Theorem C96_read_map_refuted : exists fs,
  all_returned fs [OConnect] (life0 true) /\ is_connected (after fs [OConnect] (life0 true)) /\
  fst (run fs (read_map_life [(1, 1)%nat]) (after fs [OConnect] (life0 true))) = Crashes.
Proof.
  exists (fun t => if (t <? 3)%nat then Fate true Fine else Fate false Lost).
  split; [cbn; split; [eexists; reflexivity|exact I]|]. split; reflexivity.
Qed.
Print Assumptions C96_read_map_refuted.

(** Whoever recovers from the panic finds the client stuck: the mutex stays locked. *)
Theorem C96_recovered_hangs : forall fs auto os p os2 q n,
  let w := after fs os (life0 auto) in
  fst (run fs p w) = Crashes ->
  let w2 := after fs os2 (snd (run fs p w)) in
  fst (connect fs w2) = Hangs /\ fst (disconnect fs w2) = Hangs /\ fst (run fs (guarded q) w2) = Hangs /\ fst (run fs (list_life n) w2) = Hangs.
Proof.
  intros fs auto os p os2 q n w H w2. assert (Cm : calm w) by apply after_calm, life0_calm.
  assert (L : l_locked w2 = true) by apply after_locked, (run_crash _ _ _ Cm H).
  split; [unfold connect; now rewrite L|]. split; [unfold disconnect; now rewrite L|].
  split; [cbn [guarded run]; now rewrite check_locked|]. cbn [list_life asks run]. now rewrite exchange_locked.
Qed.
Print Assumptions C96_recovered_hangs.

(** ** C97: AutoConnect *)

(** Whatever has happened before, once the controller answers again the next read
    or write works, and the client is connected. *)
Theorem C97_reconnects_partial : forall fs auto os p,
  all_returned fs os (life0 auto) ->
  let w := after fs os (life0 auto) in
  l_auto w = true -> answers_from fs (l_clock w) ->
  (exists n l, In p [read_life n; read_single_life n; write_life; get_attr_single; read_map_life l; read_multi_life n; write_multi_life n]) ->
  exists w' k, run fs p w = (Returns true, w') /\ is_connected w' /\ newest w' k /\ left_open w' k.
Proof.
  intros fs auto os p R w A G P. assert (Cm : calm w) by apply after_calm, life0_calm.
  assert (L : l_locked w = false) by exact (all_returned_unlocked fs os _ (life0_calm auto) eq_refl R).
  assert (Gf : forall q, (forall kn, ideal kn q = true) -> exists w' k, run fs (guarded q) w = (Returns true, w') /\ is_connected w' /\ newest w' k /\ left_open w' k).
  { intros q I. destruct (guarded_fine fs q w Cm L A G) as (w' & E & L' & S'). rewrite I in E.
    assert (C' : calm w'). { pose proof (run_calm fs (guarded q) w Cm) as X. now rewrite E in X. }
    destruct (l_conn w') as [k|] eqn:C; [|exfalso; apply (i_some _ (proj1 C')); auto].
    exists w', k. split; [exact E|]. split; [exact S'|]. split.
    - pose proof (i_conn _ (proj1 C')) as X. rewrite C in X. unfold newest. destruct (last_dial (l_log w')) as [o|]; [congruence|discriminate].
    - destruct (proj2 (i_live _ (proj1 C') k) (conj (or_introl S') C)) as [Gr N]. split; [|exact N]. apply (i_dial _ (proj1 C')), (i_grant _ (proj1 C')), Gr. }
  assert (Io : forall n kn, ideal kn (new_ioi (asks n)) = true) by (intros n; exact (ideal_iois 1 (asks n) (ideal_asks n))).
  destruct P as (n & l & P). cbn [In] in P. destruct P as [<-|[<-|[<-|[<-|[<-|[<-|[<-|[]]]]]]]]; apply Gf; intro kn.
  - apply Io.
  - apply Io.
  - apply Io.
  - apply ideal_asks.
  - apply ideal_batches.
  - apply ideal_iois, ideal_asks.
  - apply ideal_iois, ideal_asks.
Qed.
Print Assumptions C97_reconnects_partial.
Example ex_C97 : let os := [OConnect; OCall (read_life 0); OCall (read_life 0)] in
  all_returned rainy os (life0 true) /\ answers_from rainy (l_clock (after rainy os (life0 true))) /\ l_auto (after rainy os (life0 true)) = true.
Proof.
  split; [cbn; repeat (split; [eexists; reflexivity|]); exact I|]. split; [|reflexivity].
  intros u Hu. unfold rainy. cbn in Hu. destruct (Nat.eqb_spec u 5); [lia|]. auto.
Qed.

(** Without it, nothing is sent and an error comes back. *)
Theorem C97_off : forall fs auto os p,
  all_returned fs os (life0 auto) ->
  let w := after fs os (life0 auto) in
  l_auto w = false -> ~ is_connected w -> run fs (guarded p) w = (Returns false, w).
Proof.
  intros fs auto os p R w A N. assert (L : l_locked w = false) by exact (all_returned_unlocked fs os _ (life0_calm auto) eq_refl R).
  cbn [guarded run]. unfold check. rewrite L, A. destruct (Z.eqb_spec (l_status w) connected); [contradiction|]. reflexivity.
Qed.
Print Assumptions C97_off.

(** A read or write that reports success was answered over the connection the
    client then has. *)
Lemma asks_sound fs n : forall w w', calm w -> l_status w = connected \/ (exists k, l_conn w = Some k /\ In (Closed k) (l_log w)) ->
  run fs (asks (S n)) w = (Returns true, w') ->
  is_connected w' /\ exists k r, newest w' k /\ left_open w' k /\ l_log w' = Sent k :: r.
Proof.
  induction n as [|n IH]; intros w w' Cm H; cbn [asks run]; destruct (exchange fs w) as [[x| |] w1] eqn:E; try discriminate;
    pose proof (exchange_spec _ _ _ _ (proj1 Cm) (calm_statuses _ Cm) E) as (A & K & La & Co & N & T & I' & X);
    pose proof (exchange_calm _ _ _ _ Cm E) as C1; destruct x; try discriminate;
    destruct X as (_ & _ & _ & Q & _ & X); destruct (X ltac:(discriminate)) as (_ & k & Ck & Nk & Lg);
    (destruct Q as [Q|(Q & _)]; [|discriminate]);
    assert (S1 : l_status w1 = connected) by (rewrite (q_status _ _ Q); destruct H as [H|(k' & H1 & H2)]; [exact H|exfalso; apply Nk; congruence]).
  - intro R. injection R as <-. split; [exact S1|]. exists k, (l_log w). rewrite Ck in Co.
    destruct (proj2 (i_live _ I' k) (conj (or_introl S1) Co)) as [Gr Nc]. split; [|split; [split; [apply (i_dial _ I'), (i_grant _ I'), Gr|exact Nc]|exact Lg]].
    pose proof (i_conn _ I') as Y. rewrite Co in Y. unfold newest. destruct (last_dial (l_log w1)) as [o|]; [congruence|discriminate].
  - apply (IH w1 w' C1). now left.
Qed.
Theorem C97_sound : forall fs auto os p,
  let w := after fs os (life0 auto) in let '(r, w') := run fs p w in
  (exists n, In p [read_life n; read_single_life n; write_life; get_attr_single]) -> r = Returns true ->
  is_connected w' /\ exists k l, newest w' k /\ left_open w' k /\ l_log w' = Sent k :: l.
Proof.
  intros fs auto os p w. destruct (run fs p w) as [r w'] eqn:E. intros P ->. assert (Cm : calm w) by apply after_calm, life0_calm. clearbody w.
  assert (Gs : forall q w, calm w -> (forall v v', calm v -> l_status v = connected -> run fs q v = (Returns true, v') -> is_connected v' /\ exists k l, newest v' k /\ left_open v' k /\ l_log v' = Sent k :: l) ->
    run fs (guarded q) w = (Returns true, w') -> is_connected w' /\ exists k l, newest w' k /\ left_open w' k /\ l_log w' = Sent k :: l).
  { intros q v Cv Hq Er. cbn [guarded run] in Er. destruct (check fs v) as [[b| |] v1] eqn:Ec; try discriminate.
    pose proof (check_spec _ _ _ _ Cv Ec) as (C1 & _ & _ & _ & _ & _ & X & _). destruct b; [|discriminate]. exact (Hq v1 w' C1 (X eq_refl) Er). }
  assert (Io : forall n v v', calm v -> l_status v = connected -> run fs (new_ioi (asks (S n))) v = (Returns true, v') -> is_connected v' /\ exists k l, newest v' k /\ left_open v' k /\ l_log v' = Sent k :: l).
  { intros n v v' Cv Sv Er. unfold new_ioi in Er. cbn [run] in Er. destruct (l_known v) eqn:Kn; [exact (asks_sound fs n v v' Cv (or_introl Sv) Er)|].
    cbn [run] in Er. destruct (check fs v) as [[b| |] v1] eqn:Ec; try discriminate.
    pose proof (check_spec _ _ _ _ Cv Ec) as (C1 & _ & _ & _ & _ & _ & _ & _ & X & _). destruct (X Sv) as [-> ->]. cbn [run] in Er.
    destruct (exchange fs v) as [[x| |] v2] eqn:Ex; try discriminate. pose proof (exchange_calm _ _ _ _ Cv Ex) as C2.
    pose proof (exchange_spec _ _ _ _ (proj1 Cv) (calm_statuses _ Cv) Ex) as (A & K & La & Co & N & T & I' & Y).
    destruct Y as (_ & _ & _ & Q & _ & _).
    assert (St : l_status v2 = connected \/ exists k, l_conn v2 = Some k /\ In (Closed k) (l_log v2)).
    { destruct Q as [Q|(_ & _ & _ & Q)]; [left; rewrite (q_status _ _ Q); exact Sv|right; rewrite Co; exact Q]. }
    destruct x; [exact (asks_sound fs n v2 v' C2 St Er)|exact (asks_sound fs n v2 v' C2 St Er)|].
    revert Er. cbn [run]. apply asks_sound; [|exact St]. destruct C2 as [I2 S2]. split; [|exact S2]. apply (inv_quiet v2); [split; reflexivity|exact I2]. }
  destruct P as (n & P). cbn [In] in P. destruct P as [<-|[<-|[<-|[<-|[]]]]].
  - revert E. apply Gs; [exact Cm|]. intros v v' Cv Sv. cbn [run guarded read_single_life]. destruct (check fs v) as [[b| |] v1] eqn:Ec; try discriminate.
    pose proof (check_spec _ _ _ _ Cv Ec) as (C1 & _ & _ & _ & _ & _ & _ & _ & X & _). destruct (X Sv) as [-> ->]. now apply Io.
  - revert E. apply Gs; [exact Cm|]. intros v v' Cv Sv. now apply Io.
  - revert E. apply Gs; [exact Cm|]. intros v v' Cv Sv. now apply Io.
  - revert E. apply Gs; [exact Cm|]. intros v v' Cv Sv. apply asks_sound; auto.
Qed.
Print Assumptions C97_sound.

Lemma wet_write_map w n : l_locked w = false -> l_known w = true -> l_status w = disconnected ->
  (exists k, l_conn w = Some k /\ is_closed w k = true) -> run rainy (write_map_life n) w = (Returns false, w).
Proof.
  intros L K Sc (k & C & X). unfold write_map_life. induction n as [|n IH].
  - cbn [iois asks run]. unfold exchange, ask, disconnect. rewrite L, C, X. cbv iota beta. rewrite L, Sc. reflexivity.
  - cbn [iois new_ioi run]. rewrite K. exact IH.
Qed.
Lemma wet_forever w : l_locked w = false -> l_known w = true -> l_status w = disconnected ->
  (exists k, l_conn w = Some k /\ is_closed w k = true) ->
  forall m n, run rainy (write_map_life n) (after rainy (repeat (OCall (write_map_life 1)) m) w) = (Returns false, w).
Proof.
  intros L K Sc X m n. pose proof (fun n => wet_write_map w n L K Sc X) as H.
  induction m as [|m IH]; [exact (H n)|]. cbn [repeat after do_op]. rewrite (H 1%nat). exact IH.
Qed.
(** WriteMap never reconnects once the version is known: one lost connection, a
    controller that answers everything from then on, and all WriteMaps fail. *)
Theorem C97_write_map_refuted : exists fs os,
  all_returned fs os (life0 true) /\
  let w := after fs os (life0 true) in
  l_auto w = true /\ answers_from fs (l_clock w) /\
  forall m n, run fs (write_map_life n) (after fs (repeat (OCall (write_map_life 1)) m) w) = (Returns false, w).
Proof.
  exists rainy, [OConnect; OCall (read_life 0); OCall (read_life 0)]. cbv zeta. split; [exact (proj1 ex_C97)|].
  split; [exact (proj2 (proj2 ex_C97))|]. split; [exact (proj1 (proj2 ex_C97))|].
  apply wet_forever; [vm_compute; reflexivity..|]. exists 0%nat. split; vm_compute; reflexivity.
Qed.
Print Assumptions C97_write_map_refuted.
