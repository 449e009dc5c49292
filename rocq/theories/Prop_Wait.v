(** * C111: calls come back in time *)
From Verif Require Import GoBase ConnModel LifeModel LifeSpec LifeProof WaitModel WaitProof.

(** ** C111

    Full statement: whatever the network does, a call comes back within a number of
    socket timeouts fixed by the number of messages it takes (connecting included).
    Proved for all calls once the firmware version is known, and before that for
    those with one tag: Connect 10, Disconnect 3, an attribute 16, a Write 19, a Read
    19 and 3 more for each fragment, reads of several tags 13 and 3 for each message.
    As long as the version is not known every name of a batch asks for it again, and
    connects again ([C111_names_refuted]); the bound then goes by names.
    The times are those of the socket; the calls are those of LifeModel, and that they
    return at all is C96. *)
Definition spent (t : Z) (net : nat -> Z * Z * Z) (fs : nat -> fate) (o : op) (w : life) : Z :=
  elapsed t net (l_log (snd (do_op fs o w))) - elapsed t net (l_log w).

Theorem C111_single_partial : forall t net fs auto os, 0 <= t -> let w := after fs os (life0 auto) in
  spent t net fs OConnect w <= 10 * t /\ spent t net fs ODisconnect w <= 3 * t /\
  spent t net fs (OCall get_attr_single) w <= 16 * t /\ spent t net fs (OCall write_life) w <= 19 * t /\
  forall n, spent t net fs (OCall (read_life n)) w <= (19 + 3 * Z.of_nat n) * t /\ spent t net fs (OCall (read_single_life n)) w <= (19 + 3 * Z.of_nat n) * t /\
    spent t net fs (OCall (list_life n)) w <= (6 + 3 * Z.of_nat n) * t.
Proof.
  intros t net fs auto os T w. assert (Cm : calm w) by apply after_calm, life0_calm. clearbody w. unfold spent. cbn [do_op].
  assert (Rd : forall n, adds w (snd (run fs (read_single_life n) w)) (19 + 3 * Z.of_nat n)).
  { intro n. apply (adds_le _ _ (10 + (3 * Z.of_nat (S n) + 6))); [|lia]. apply guarded_adds; [exact Cm| |lia]. intros w1 _ St _. now apply new_ioi_asks. }
  split; [|split; [|split; [|split]]].
  - apply adds_elapsed; [exact T|]. destruct (connect fs w) as [r w1] eqn:E. now apply connect_adds in E.
  - apply adds_elapsed; [exact T|]. destruct (disconnect fs w) as [r w1] eqn:E. now apply disconnect_adds in E.
  - apply adds_elapsed; [exact T|]. apply (guarded_adds fs (asks 1) w 6 Cm); [|lia]. intros w1 _ _ _. exact (asks_adds fs 1 w1).
  - apply adds_elapsed; [exact T|]. apply (guarded_adds fs (new_ioi (asks 1)) w 9 Cm); [|lia]. intros w1 _ St _. exact (new_ioi_asks fs 1 w1 St).
  - intro n. split; [|split]; (apply adds_elapsed; [exact T|]).
    + apply (adds_le _ _ (10 + (3 * Z.of_nat (S n) + 6))); [|lia]. apply guarded_adds; [exact Cm| |lia]. intros w1 _ St _. unfold read_single_life.
      destruct (guarded_connected fs (new_ioi (asks (S n))) w1 St) as [->| ->]; [now apply new_ioi_asks|apply adds_same; [reflexivity|lia]].
    + apply Rd.
    + apply (adds_le _ _ _ _ (asks_adds fs (S n) w)). lia.
Qed.
Print Assumptions C111_single_partial.

Theorem C111_several_partial : forall t net fs auto os, 0 <= t -> let w := after fs os (life0 auto) in l_known w = true ->
  forall n l, spent t net fs (OCall (read_map_life l)) w <= (13 + 3 * len l) * t /\ spent t net fs (OCall (read_multi_life n)) w <= 16 * t /\
    spent t net fs (OCall (write_multi_life n)) w <= 16 * t /\ spent t net fs (OCall (write_map_life n)) w <= 6 * t.
Proof.
  intros t net fs auto os T w K n l. assert (Cm : calm w) by apply after_calm, life0_calm. clearbody w. unfold spent. cbn [do_op]. pose proof (len_nonneg l).
  split; [|split; [|split]]; (apply adds_elapsed; [exact T|]).
  - apply (adds_le _ _ (10 + (3 * len l + 3))); [|lia]. apply guarded_adds; [exact Cm| |lia]. intros w1 _ _ K1. apply batches_known_adds. congruence.
  - apply (guarded_adds fs (iois n (asks 1)) w 6 Cm); [|lia]. intros w1 _ _ K1. rewrite iois_known_run by congruence. exact (asks_adds fs 1 w1).
  - apply (guarded_adds fs (iois n (asks 1)) w 6 Cm); [|lia]. intros w1 _ _ K1. rewrite iois_known_run by congruence. exact (asks_adds fs 1 w1).
  - unfold write_map_life. rewrite iois_known_run by exact K. exact (asks_adds fs 1 w).
Qed.
Print Assumptions C111_several_partial.

(** With the version unknown: 16 timeouts for each name. *)
Theorem C111_unknown_partial : forall t net fs auto os, 0 <= t -> let w := after fs os (life0 auto) in
  forall n l, spent t net fs (OCall (read_map_life l)) w <= (13 + 3 * len l + 16 * names l) * t /\
    spent t net fs (OCall (read_multi_life n)) w <= (16 + 16 * Z.of_nat n) * t /\ spent t net fs (OCall (write_map_life n)) w <= (6 + 16 * Z.of_nat n) * t.
Proof.
  intros t net fs auto os T w n l. assert (Cm : calm w) by apply after_calm, life0_calm. clearbody w. unfold spent. cbn [do_op]. pose proof (len_nonneg l). pose proof (names_nonneg l).
  split; [|split]; (apply adds_elapsed; [exact T|]).
  - apply (adds_le _ _ (10 + (16 * names l + 3 * len l + 3))); [|lia]. apply guarded_adds; [exact Cm| |lia]. intros w1 _ _ _. apply batches_adds.
  - apply (adds_le _ _ (10 + (16 * Z.of_nat n + 6))); [|lia]. apply guarded_adds; [exact Cm| |lia]. intros w1 _ _ _. apply iois_adds; [|lia]. intro w2. exact (asks_adds fs 1 w2).
  - apply (adds_le _ _ (16 * Z.of_nat n + 6)); [|lia]. apply iois_adds; [|lia]. intro w2. exact (asks_adds fs 1 w2).
Qed.
Print Assumptions C111_unknown_partial.

(** ** Examples
    A Write on a new client, ten seconds of timeout: everything takes nine, and the
    write itself is never answered. *)
Definition slow (i : nat) : Z * Z * Z := (9000, 9000, 9000).
Example ex_C111 : let fs := fun t => Fate true (if (t <? 4)%nat then Fine else Lost) in
  fst (do_op fs (OCall write_life) (life0 true)) = Returns false /\
  map (fun e => match e with Closed _ | Granted _ => 0 | _ => 1 end) (l_log (snd (do_op fs (OCall write_life) (life0 true)))) = [0; 1; 1; 1; 0; 1; 1; 1] /\
  spent 10000 slow fs (OCall write_life) (life0 true) = 144000.
Proof. repeat split; vm_compute; reflexivity. Qed.
(** A reply that does not come costs one timeout, not three. *)
Example ex_C111_silent : spent 10000 (fun _ => (1, 20000, 5)) (fun _ => Fate true Lost) OConnect (life0 true) = 10002.
Proof. vm_compute. reflexivity. Qed.

(** ** Refuted: a controller that opens connections at once and answers neither the
    question for its version nor the request to close.  ReadMap of [n] tags in one
    message waits for it twice for each name looked up. *)
Definition mute (t : nat) : fate := Fate true (if (t mod 5 <? 3)%nat then Fine else Lost).
Definition mute_net (T : Z) (i : nat) : Z * Z * Z := if (i mod 7 =? 4)%nat || (i mod 7 =? 5)%nat then (0, T, 0) else (0, 0, 0).
Definition lap (k : nat) : list event := [Closed k; Sent k; Sent k; Granted k; Sent k; Sent k; Dialled k].
Fixpoint laps (k : nat) : list event := match k with O => [] | S k => lap k ++ laps k end.
Definition gone (k : nat) : life := Life disconnected (match k with O => None | S j => Some j end) k true false false true (5 * k) (laps k).
Definition here (k : nat) : life := Life connected (Some k) (S k) true false false true (5 * k + 3) (skipn 3 (lap k) ++ laps k).
Lemma laps_closed k j : (k <= j)%nat -> existsb (fun e => match e with Closed i => (i =? j)%nat | _ => false end) (laps k) = false.
Proof.
  induction k as [|k IH]; intro L; [reflexivity|]. cbn [laps lap app existsb]. rewrite IH by lia. destruct (Nat.eqb_spec k j); [lia|reflexivity].
Qed.
Lemma laps_length k : length (laps k) = (7 * k)%nat.
Proof. induction k as [|k IH]; [reflexivity|]. cbn [laps lap app length]. rewrite IH. lia. Qed.
Lemma mute_at k r : (r < 5)%nat -> mute (5 * k + r) = Fate true (if (r <? 3)%nat then Fine else Lost).
Proof. intro R. unfold mute. replace ((5 * k + r) mod 5)%nat with r; [reflexivity|]. rewrite Nat.add_comm, Nat.mul_comm, Nat.mod_add by lia. now rewrite Nat.mod_small. Qed.
Lemma mute_open k : connect mute (gone k) = (Returns true, here k).
Proof.
  assert (F0 : mute (5 * k) = Fate true Fine) by (rewrite <- (Nat.add_0_r (5 * k)); now rewrite (mute_at k 0) by lia).
  assert (F1 : mute (S (5 * k)) = Fate true Fine) by (replace (S (5 * k)) with (5 * k + 1)%nat by lia; now rewrite mute_at by lia).
  assert (F2 : mute (S (S (5 * k))) = Fate true Fine) by (replace (S (S (5 * k))) with (5 * k + 2)%nat by lia; now rewrite mute_at by lia).
  pose proof (laps_closed k k ltac:(lia)) as Cl. unfold here. replace (5 * k + 3)%nat with (S (S (S (5 * k)))) by lia.
  unfold connect, gone. cbn [l_locked l_status]. change (start_connect disconnected) with (Some connecting). cbv iota zeta. cbn [set_status l_clock]. rewrite F0. cbn [f_dial].
  unfold exchange at 1, ask at 1. cbn [tick see set_status l_locked l_conn l_next l_log l_clock l_status l_large l_known l_auto]. unfold is_closed at 1. cbn [l_log tick see set_status existsb orb].
  rewrite Cl, F1. cbn [f_reply].
  unfold open_any. cbn [l_large]. unfold exchange at 1, ask at 1. cbn [tick see set_status l_locked l_conn l_next l_log l_clock l_status l_large l_known l_auto]. unfold is_closed at 1. cbn [l_log tick see set_status existsb orb]. rewrite Cl, F2. cbn [f_reply].
  reflexivity.
Qed.
Lemma mute_ask k : exchange mute (here k) = (Returns Lost, gone (S k)).
Proof.
  assert (F3 : mute (5 * k + 3) = Fate true Lost) by now rewrite mute_at by lia.
  pose proof (laps_closed k k ltac:(lia)) as Cl. unfold gone. replace (5 * S k)%nat with (S (S (5 * k + 3))) by lia.
  unfold exchange, ask, here. cbn [l_locked l_conn]. unfold is_closed at 1. cbn [l_log skipn lap app existsb orb]. rewrite Cl. cbn [l_clock]. rewrite F3. cbn [f_reply].
  unfold disconnect. cbn [tick see l_locked l_status]. change (start_disconnect connected) with (Some disconnecting). cbv iota.
  unfold ask. cbn [tick see set_status l_locked l_conn l_next l_log l_clock l_status l_large l_known l_auto]. unfold is_closed at 1. cbn [l_log tick see set_status existsb orb]. rewrite Cl.
  reflexivity.
Qed.
Lemma mute_names p : (forall k, exists w1, run mute p (gone (S k)) = (Returns false, w1) /\ l_log w1 = laps (S k)) ->
  forall n k, exists w1, run mute (iois (S n) p) (gone k) = (Returns false, w1) /\ l_log w1 = laps (k + S n).
Proof.
  intro H. induction n as [|n IH]; intro k.
  - cbn [iois new_ioi run]. unfold gone at 1. cbn [l_known run]. unfold check. unfold gone at 1 2 3. cbn [l_locked l_status l_auto]. change (disconnected =? connected) with false. cbv iota.
    rewrite mute_open. change (l_auto (gone k)) with true. cbv iota beta. cbn [run]. rewrite mute_ask. destruct (H k) as (w1 & E & L). exists w1. split; [exact E|]. rewrite L. f_equal. lia.
  - change (iois (S (S n)) p) with (new_ioi (iois (S n) p)). cbn [new_ioi run]. unfold gone at 1. cbn [l_known run]. unfold check. unfold gone at 1 2 3. cbn [l_locked l_status l_auto]. change (disconnected =? connected) with false. cbv iota.
    rewrite mute_open. change (l_auto (gone k)) with true. cbv iota beta. cbn [run]. rewrite mute_ask. destruct (IH (S k)) as (w1 & E & L). exists w1. split; [exact E|]. rewrite L. f_equal. lia.
Qed.
Lemma laps_elapsed T k : 0 < T -> elapsed T (mute_net T) (laps k) = 2 * T * Z.of_nat k.
Proof.
  intro P. induction k as [|k IH]; [cbn; lia|]. cbn [laps lap app elapsed length]. rewrite IH, laps_length.
  assert (M : forall r, (r < 7)%nat -> mute_net T (r + 7 * k) = if (r =? 4)%nat || (r =? 5)%nat then (0, T, 0) else (0, 0, 0)).
  { intros r R. unfold mute_net. replace ((r + 7 * k) mod 7)%nat with r; [reflexivity|]. rewrite (Nat.mul_comm 7 k), Nat.mod_add by lia. now rewrite Nat.mod_small. }
  pose proof (M 0%nat ltac:(lia)) as M0. pose proof (M 1%nat ltac:(lia)) as M1. pose proof (M 2%nat ltac:(lia)) as M2. pose proof (M 4%nat ltac:(lia)) as M4. pose proof (M 5%nat ltac:(lia)) as M5.
  cbn [Nat.add] in M0, M1, M2, M4, M5. rewrite M0, M1, M2, M4, M5. cbn [Nat.eqb orb event_time fst]. unfold request_time, cut.
  assert (E0 : (T <=? 0) = false) by lia. assert (E1 : (T <=? T) = true) by lia. rewrite E0, E1. lia.
Qed.
Lemma mute_first p n w1 : run mute (iois n p) (gone 1) = (Returns false, w1) -> run mute (iois (S n) p) (here 0) = (Returns false, w1).
Proof.
  intro E. cbn [iois new_ioi run]. change (l_known (here 0)) with false. cbn [run]. unfold check.
  change (l_locked (here 0)) with false. change (l_status (here 0) =? connected) with true. cbv iota beta. cbn [run]. rewrite mute_ask. exact E.
Qed.
Lemma mute_map p w1 : run mute p (here 0) = (Returns false, w1) -> run mute (guarded p) (gone 0) = (Returns false, w1).
Proof.
  intro E. cbn [guarded run]. unfold check. change (l_locked (gone 0)) with false. change (l_status (gone 0) =? connected) with false. change (l_auto (gone 0)) with true. cbv iota beta.
  rewrite mute_open. exact E.
Qed.
Definition last_ask : prog := Ask (fun x => match x with Fine => Done true | _ => Done false end).
Lemma mute_last k : run mute last_ask (gone (S k)) = (Returns false, gone (S k)).
Proof.
  unfold last_ask. cbn [run]. rewrite exchange_dead; [reflexivity|]. split; [reflexivity|]. split; [reflexivity|]. exists k. split; [reflexivity|].
  unfold is_closed, gone. cbn [l_log laps lap app existsb]. now rewrite Nat.eqb_refl.
Qed.
Lemma mute_read m : exists w1, run mute (read_map_life [(S m, S m)]) (gone 0) = (Returns false, w1) /\ l_log w1 = laps (S m + S m).
Proof.
  destruct (mute_names last_ask (fun k => ex_intro _ (gone (S k)) (conj (mute_last k) eq_refl)) (m + m) 1) as (w1 & E & L). exists w1.
  replace (S m + S m)%nat with (1 + S (m + m))%nat by lia. split; [|exact L]. apply mute_map. cbn [batches]. fold last_ask.
  replace (S m + S m)%nat with (S (S (m + m))) by lia. now apply mute_first.
Qed.
Theorem C111_names_refuted : forall T bound, 0 < T -> exists n net fs w1,
  run fs (read_map_life [(n, n)]) (life0 true) = (Returns false, w1) /\ spent T net fs (OCall (read_map_life [(n, n)])) (life0 true) > bound * T.
Proof.
  intros T bound P. destruct (mute_read (Z.to_nat bound)) as (w1 & E & L). exists (S (Z.to_nat bound)), (mute_net T), mute, w1. change (life0 true) with (gone 0). split; [exact E|].
  unfold spent. cbn [do_op]. rewrite E. cbn [snd]. rewrite L. rewrite laps_elapsed by exact P. cbn [gone l_log laps elapsed]. nia.
Qed.
Print Assumptions C111_names_refuted.
