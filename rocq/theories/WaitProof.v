(** * Lemmas for C111 *)
From Verif Require Import GoBase ConnModel LifeModel LifeSpec LifeProof WaitModel.

Definition weight (e : event) : Z := match e with Dialled _ | InVain => 1 | Sent _ => 3 | _ => 0 end.
Fixpoint weights (l : list event) : Z := match l with [] => 0 | e :: r => weight e + weights r end.
Lemma weights_app a b : weights (a ++ b) = weights a + weights b.
Proof. induction a as [|e a IH]; [reflexivity|]. cbn [app weights]. lia. Qed.
Lemma cut_range t a : 0 <= t -> 0 <= cut t a <= t.
Proof. unfold cut. lia. Qed.
Lemma event_time_le t d e : 0 <= t -> event_time t d e <= t * weight e.
Proof.
  intro T. destruct d as [[a b] c]. pose proof (cut_range t a T). pose proof (cut_range t b T). pose proof (cut_range t c T).
  destruct e; cbn [event_time weight fst]; try lia. unfold request_time. destruct (t <=? a); [lia|]. destruct (t <=? b); lia.
Qed.
Lemma elapsed_le t net l ev : 0 <= t -> elapsed t net (ev ++ l) <= elapsed t net l + t * weights ev.
Proof. intro T. induction ev as [|e ev IH]; cbn [app elapsed weights]; [lia|]. pose proof (event_time_le t (net (length (ev ++ l))) e T). lia. Qed.

Definition adds (w w' : life) (n : Z) : Prop := exists ev, l_log w' = ev ++ l_log w /\ weights ev <= n.
Lemma adds_same w w' n : l_log w' = l_log w -> 0 <= n -> adds w w' n.
Proof. intros E N. exists []. split; [exact E|exact N]. Qed.
Lemma adds_trans a b c n m k : adds a b n -> adds b c m -> n + m <= k -> adds a c k.
Proof. intros (e1 & E1 & W1) (e2 & E2 & W2) K. exists (e2 ++ e1). rewrite E2, E1, app_assoc. split; [reflexivity|]. rewrite weights_app. lia. Qed.
Lemma adds_le a b n m : adds a b n -> n <= m -> adds a b m.
Proof. intros (e & E & W) L. exists e. split; [exact E|lia]. Qed.
Lemma adds_elapsed t net w w' n : 0 <= t -> adds w w' n -> elapsed t net (l_log w') - elapsed t net (l_log w) <= n * t.
Proof. intros T (ev & -> & W). pose proof (elapsed_le t net (l_log w) ev T). nia. Qed.

(** ** The steps *)
Lemma ask_adds fs w r w' : ask fs w = (r, w') -> adds w w' 3.
Proof.
  unfold ask. destruct (l_locked w); [intros [= <- <-]; apply adds_same; [reflexivity|lia]|].
  destruct (l_conn w) as [k|]; [|intros [= <- <-]; apply adds_same; [reflexivity|lia]].
  destruct (is_closed w k); intros [= <- <-]; [apply adds_same; [reflexivity|lia]|]. exists [Sent k]. split; [reflexivity|cbn; lia].
Qed.
Lemma ask_status fs w r w' : ask fs w = (r, w') -> l_status w' = l_status w /\ (r <> Crashes -> l_conn w' = l_conn w /\ l_locked w' = l_locked w) /\ l_known w' = l_known w.
Proof. unfold ask. destruct (l_locked w) eqn:L; [|destruct (l_conn w) as [k|] eqn:C; [destruct (is_closed w k)|]]; intros [= <- <-]; cbn; repeat split; auto; congruence. Qed.
Lemma disconnect_adds fs w r w' : disconnect fs w = (r, w') -> adds w w' 3.
Proof.
  unfold disconnect. destruct (l_locked w); [intros [= <- <-]; apply adds_same; [reflexivity|lia]|].
  destruct (start_disconnect (l_status w)) as [st|]; [|intros [= <- <-]; apply adds_same; [reflexivity|lia]].
  destruct (ask fs (set_status w st)) as [x w1] eqn:E. apply ask_adds in E as (ev & El & W). change (l_log (set_status w st)) with (l_log w) in El.
  destruct x as [a| |]; intros [= <- <-].
  - destruct (l_conn w1) as [k|].
    + exists (Closed k :: ev). cbn [set_status see l_log app]. rewrite El. split; [reflexivity|cbn [weights weight]; lia].
    + exists ev. split; [exact El|exact W].
  - exists ev. now split.
  - exists ev. now split.
Qed.
Lemma disconnect_idle fs w : start_disconnect (l_status w) = None -> l_log (snd (disconnect fs w)) = l_log w /\ l_status (snd (disconnect fs w)) = l_status w.
Proof. intro E. unfold disconnect. destruct (l_locked w); [now split|]. rewrite E. now split. Qed.
Lemma disconnect_no_crash fs w w' : disconnect fs w <> (Crashes, w').
Proof.
  unfold disconnect. destruct (l_locked w); [discriminate|]. destruct (start_disconnect (l_status w)); [|discriminate]. destruct (ask fs (set_status w z)) as [[a| |] w1]; discriminate.
Qed.
Lemma exchange_adds fs w r w' : exchange fs w = (r, w') -> adds w w' 6 /\ (r <> Returns Lost -> r <> Hangs -> adds w w' 3).
Proof.
  unfold exchange. destruct (ask fs w) as [x w1] eqn:E. pose proof (ask_adds _ _ _ _ E) as A. destruct x as [[| |]| |].
  - destruct (disconnect fs w1) as [y w2] eqn:D. pose proof (disconnect_adds _ _ _ _ D) as B. destruct y as [b| |].
    + intros [= <- <-]. split; [apply (adds_trans _ _ _ _ _ _ A B); lia|congruence].
    + exfalso. exact (disconnect_no_crash _ _ _ D).
    + intros [= <- <-]. split; [apply (adds_trans _ _ _ _ _ _ A B); lia|congruence].
  - intros [= <- <-]. split; [apply (adds_le _ _ _ _ A); lia|now intros].
  - intros [= <- <-]. split; [apply (adds_le _ _ _ _ A); lia|now intros].
  - intros [= <- <-]. split; [apply (adds_le _ _ _ _ A); lia|now intros].
  - intros [= <- <-]. split; [apply (adds_le _ _ _ _ A); lia|congruence].
Qed.
(** While connecting, no close request is sent. *)
Lemma exchange_while fs w r w' : l_status w = connecting -> exchange fs w = (r, w') -> adds w w' 3 /\ l_status w' = connecting.
Proof.
  intro St. unfold exchange. destruct (ask fs w) as [x w1] eqn:E. pose proof (ask_adds _ _ _ _ E) as A. pose proof (ask_status _ _ _ _ E) as (S1 & _).
  assert (St1 : l_status w1 = connecting) by congruence.
  destruct x as [[| |]| |]; try (intros [= <- <-]; now split).
  destruct (disconnect_idle fs w1) as (D1 & D2); [now rewrite St1|]. destruct (disconnect fs w1) as [y w2] eqn:D. cbn [snd] in D1, D2.
  assert (adds w w2 3) by (destruct A as (ev & Ea & W); exists ev; split; [now rewrite D1|exact W]).
  destruct y as [b| |]; intros [= <- <-]; (split; [assumption|congruence]).
Qed.
Lemma connect_adds fs w r w' : connect fs w = (r, w') -> adds w w' 10.
Proof.
  unfold connect. destruct (l_locked w) eqn:L; [intros [= <- <-]; apply adds_same; [reflexivity|lia]|].
  destruct (start_connect (l_status w)) as [st|] eqn:Sc; [|intros [= <- <-]; apply adds_same; [reflexivity|lia]].
  assert (st = connecting).
  { unfold start_connect in Sc. repeat match type of Sc with (if ?b then _ else _) = _ => destruct b end; congruence. } subst st.
  cbv zeta. change (l_clock (set_status w connecting)) with (l_clock w). destruct (f_dial (fs (l_clock w))).
  2: { intros [= <- <-]. exists [InVain]. split; [reflexivity|cbn; lia]. }
  set (k := l_next (set_status w connecting)). match goal with |- context [exchange fs ?x] => set (w1 := x) end.
  assert (A1 : adds w w1 1) by (exists [Dialled k]; split; [reflexivity|cbn; lia]).
  assert (S1 : l_status w1 = connecting) by reflexivity. clearbody w1 k.
  destruct (exchange fs w1) as [x w2] eqn:E. destruct (exchange_while _ _ _ _ S1 E) as (A2 & S2).
  assert (A12 : adds w w2 4) by (apply (adds_trans _ _ _ _ _ _ A1 A2); lia).
  assert (O : forall y w3, open_any fs w2 = (y, w3) -> adds w2 w3 6).
  { assert (Os : forall w2 y w3, l_status w2 = connecting -> open_standard fs w2 = (y, w3) -> adds w2 w3 3).
    { intros v y v3 Sv. unfold open_standard. destruct (exchange fs v) as [z v1] eqn:Ez. destruct (exchange_while _ _ _ _ Sv Ez) as (Av & _). destruct z as [[| |]| |]; intros [= <- <-]; exact Av. }
    intros y w3. unfold open_any. destruct (l_large w2); [|intro Eo; apply Os in Eo; [apply (adds_le _ _ _ _ Eo); lia|exact S2]].
    destruct (exchange fs w2) as [z v1] eqn:Ez. destruct (exchange_while _ _ _ _ S2 Ez) as (Av & Sv).
    destruct z as [[| |]| |]; try (intros [= <- <-]; apply (adds_le _ _ _ _ Av); lia).
    - intro Eo. apply Os in Eo; [|exact Sv]. apply (adds_trans w2 v1 w3 3 3); [exact Av|exact Eo|lia].
    - intro Eo. apply Os in Eo; [|exact Sv]. apply (adds_trans w2 v1 w3 3 3); [exact Av|exact Eo|lia]. }
  destruct x as [[| |]| |]; try (intros [= <- <-]; apply (adds_le _ _ _ _ A12); lia).
  - destruct (open_any fs w2) as [y w3] eqn:Eo. specialize (O _ _ eq_refl). assert (A : adds w w3 10) by (apply (adds_trans _ _ _ _ _ _ A12 O); lia).
    destruct y as [[|]| |]; intros [= <- <-]; try exact A. apply (adds_trans w w3 _ 10 0); [exact A|exists [Granted k]; split; [reflexivity|cbn; lia]|lia].
  - destruct (open_any fs w2) as [y w3] eqn:Eo. specialize (O _ _ eq_refl). assert (A : adds w w3 10) by (apply (adds_trans _ _ _ _ _ _ A12 O); lia).
    destruct y as [[|]| |]; intros [= <- <-]; try exact A. apply (adds_trans w w3 _ 10 0); [exact A|exists [Granted k]; split; [reflexivity|cbn; lia]|lia].
Qed.
Lemma check_adds fs w r w' : check fs w = (r, w') -> adds w w' 10 /\ (l_status w = connected -> w' = w).
Proof.
  unfold check. destruct (l_locked w); [intros [= <- <-]; split; [apply adds_same; [reflexivity|lia]|reflexivity]|].
  destruct (Z.eqb_spec (l_status w) connected); [intros [= <- <-]; split; [apply adds_same; [reflexivity|lia]|reflexivity]|].
  destruct (l_auto w); [|intros [= <- <-]; split; [apply adds_same; [reflexivity|lia]|reflexivity]]. intro E. split; [now apply connect_adds in E|congruence].
Qed.

(** ** Whole methods *)
Lemma asks_adds fs n : forall w, adds w (snd (run fs (asks n) w)) (3 * Z.of_nat n + 3).
Proof.
  induction n as [|n IH]; intro w; [apply adds_same; [reflexivity|lia]|]. cbn [asks run].
  destruct (exchange fs w) as [r w1] eqn:E. destruct (exchange_adds _ _ _ _ E) as [A6 A3].
  destruct r as [[| |]| |]; cbn [run snd]; try (apply (adds_le _ _ _ _ A6); lia).
  assert (A : adds w w1 3) by (apply A3; congruence). apply (adds_trans _ _ _ _ _ _ A (IH w1)). lia.
Qed.
(** A client whose connection is gone asks nothing. *)
Definition dead (w : life) : Prop := l_locked w = false /\ l_status w = disconnected /\ exists k, l_conn w = Some k /\ is_closed w k = true.
Lemma exchange_dead fs w : dead w -> exchange fs w = (Returns Lost, w).
Proof. intros (L & St & k & C & K). unfold exchange, ask. rewrite L, C, K. unfold disconnect. now rewrite L, St. Qed.
Lemma asks_dead fs n w : dead w -> snd (run fs (asks n) w) = w.
Proof. intro D. destruct n; [reflexivity|]. cbn [asks run]. now rewrite exchange_dead. Qed.
Lemma closed_now w k : is_closed (see w (Closed k)) k = true.
Proof. unfold is_closed, see. cbn [l_log existsb]. now rewrite Nat.eqb_refl. Qed.
Lemma exchange_lost fs w w' : l_status w = connected -> exchange fs w = (Returns Lost, w') -> dead w'.
Proof.
  intros St E. unfold exchange in E. destruct (ask fs w) as [x w1] eqn:Ea. pose proof (ask_status _ _ _ _ Ea) as (S1 & C1 & _).
  destruct x as [[| |]| |]; try discriminate E. destruct (C1 ltac:(discriminate)) as (C & L). assert (Ls : l_locked w = false /\ l_conn w <> None).
  { unfold ask in Ea. destruct (l_locked w); [discriminate|]. split; [reflexivity|]. destruct (l_conn w); [discriminate|]. discriminate. }
  destruct Ls as (L0 & C0). destruct (disconnect fs w1) as [y w2] eqn:D. destruct y as [b| |]; try discriminate E. injection E as <-.
  unfold disconnect in D. rewrite L, L0, S1, St in D. change (start_disconnect connected) with (Some disconnecting) in D. cbv iota in D.
  destruct (ask fs (set_status w1 disconnecting)) as [z w3] eqn:Ea2. pose proof (ask_status _ _ _ _ Ea2) as (_ & C2 & _).
  destruct z as [a| |]; try discriminate D. injection D as <- <-. destruct (C2 ltac:(discriminate)) as (C3 & L3). cbn [set_status l_conn l_locked] in C3, L3.
  destruct (l_conn w) as [k|] eqn:Ck; [|congruence]. rewrite C3, C. split; [|split; [reflexivity|]].
  - cbn [set_status see l_locked]. congruence.
  - exists k. split; [cbn [set_status see l_conn]; congruence|]. exact (closed_now w3 k).
Qed.
Lemma new_ioi_asks fs n w : l_status w = connected -> adds w (snd (run fs (new_ioi (asks n)) w)) (3 * Z.of_nat n + 6).
Proof.
  intro St. cbn [new_ioi run]. destruct (l_known w); [apply (adds_le _ _ _ _ (asks_adds fs n w)); lia|]. cbn [run].
  destruct (check fs w) as [c w1] eqn:Ec. destruct (check_adds _ _ _ _ Ec) as (_ & Hw). specialize (Hw St). subst w1.
  destruct c as [[|]| |]; cbn [run snd]; try (apply adds_same; [reflexivity|lia]).
  2: { apply (adds_le _ _ _ _ (asks_adds fs n w)); lia. }
  destruct (exchange fs w) as [r w1] eqn:E. destruct (exchange_adds _ _ _ _ E) as [A6 A3].
  destruct r as [[| |]| |]; cbn [run snd]; try (apply (adds_le _ _ _ _ A6); lia).
  - apply (exchange_lost _ _ _ St) in E. rewrite asks_dead by exact E. apply (adds_le _ _ _ _ A6); lia.
  - assert (A : adds w w1 3) by (apply A3; congruence). apply (adds_trans _ _ _ _ _ _ A (asks_adds fs n w1)). lia.
  - assert (A : adds w w1 3) by (apply A3; congruence). match goal with |- adds _ (snd (run fs _ ?x)) _ => apply (adds_trans w x _ 3 _ _ A (asks_adds fs n x)) end. lia.
Qed.
Lemma guarded_adds fs p w n : calm w -> (forall w1, calm w1 -> l_status w1 = connected -> l_known w1 = l_known w -> adds w1 (snd (run fs p w1)) n) -> 0 <= n -> adds w (snd (run fs (guarded p) w)) (10 + n).
Proof.
  intros Cm H N. cbn [guarded run]. destruct (check fs w) as [c w1] eqn:Ec. destruct (check_adds _ _ _ _ Ec) as (A & _).
  pose proof (check_spec _ _ _ _ Cm Ec) as (Cm1 & _ & K1 & _ & X).
  destruct c as [[|]| |]; cbn [run snd]; try (apply (adds_le _ _ _ _ A); lia).
  apply (adds_trans _ _ _ _ _ _ A (H w1 Cm1 (proj1 (proj2 (proj2 X)) eq_refl) K1)). lia.
Qed.
Lemma guarded_connected fs p w : l_status w = connected -> snd (run fs (guarded p) w) = snd (run fs p w) \/ snd (run fs (guarded p) w) = w.
Proof.
  intro St. cbn [guarded run]. unfold check. destruct (l_locked w); [now right|]. rewrite St. change (connected =? connected) with true. cbv iota. now left.
Qed.
(** Any number of names, the version unknown. *)
Lemma iois_adds fs p b n : (forall w, adds w (snd (run fs p w)) b) -> 0 <= b -> forall w, adds w (snd (run fs (iois n p) w)) (16 * Z.of_nat n + b).
Proof.
  intros H B. induction n as [|n IH]; intro w; [apply (adds_le _ _ _ _ (H w)); lia|]. cbn [iois new_ioi run].
  destruct (l_known w); [apply (adds_le _ _ _ _ (IH w)); lia|]. cbn [run]. destruct (check fs w) as [c w1] eqn:Ec. destruct (check_adds _ _ _ _ Ec) as (A & _).
  destruct c as [[|]| |]; cbn [run snd]; try (apply (adds_le _ _ _ _ A); lia).
  - destruct (exchange fs w1) as [r w2] eqn:E. destruct (exchange_adds _ _ _ _ E) as [A6 _]. assert (A2 : adds w w2 16) by (apply (adds_trans _ _ _ _ _ _ A A6); lia).
    destruct r as [[| |]| |]; cbn [run snd]; try (apply (adds_le _ _ _ _ A2); lia).
    + apply (adds_trans _ _ _ _ _ _ A2 (IH w2)). lia.
    + apply (adds_trans _ _ _ _ _ _ A2 (IH w2)). lia.
    + match goal with |- adds _ (snd (run fs _ ?x)) _ => apply (adds_trans w x _ 16 _ _ A2 (IH x)) end. lia.
  - apply (adds_trans _ _ _ _ _ _ A (IH w1)). lia.
Qed.
Fixpoint names (l : list (nat * nat)) : Z := match l with [] => 0 | (a, b) :: r => Z.of_nat a + Z.of_nat b + names r end.
Lemma names_nonneg l : 0 <= names l.
Proof. induction l as [|[a b] l IH]; cbn [names]; lia. Qed.
Lemma batches_adds fs l : forall w, adds w (snd (run fs (batches l) w)) (16 * names l + 3 * len l + 3).
Proof.
  induction l as [|[a b] l IH]; intro w; [apply adds_same; [reflexivity|cbn; lia]|]. cbn [batches names]. pose proof (names_nonneg l) as Nn.
  replace (16 * (Z.of_nat a + Z.of_nat b + names l) + 3 * len ((a, b) :: l) + 3) with (16 * Z.of_nat (a + b) + (16 * names l + 3 * len l + 6)) by (rewrite len_cons; lia).
  apply iois_adds; [|pose proof (len_nonneg l); lia]. intro w1. cbn [run]. destruct (exchange fs w1) as [r w2] eqn:E. destruct (exchange_adds _ _ _ _ E) as [A6 A3]. pose proof (len_nonneg l).
  destruct r as [[| |]| |]; cbn [run snd]; try (apply (adds_le _ _ _ _ A6); lia).
  assert (A : adds w1 w2 3) by (apply A3; congruence). apply (adds_trans _ _ _ _ _ _ A (IH w2)). lia.
Qed.
(** The version known. *)
Lemma exchange_known fs w : l_known (snd (exchange fs w)) = l_known w.
Proof.
  unfold exchange. destruct (ask fs w) as [x w1] eqn:E. pose proof (ask_status _ _ _ _ E) as (_ & _ & K). destruct x as [[| |]| |]; cbn [snd]; try exact K.
  assert (D : l_known (snd (disconnect fs w1)) = l_known w1).
  { unfold disconnect. destruct (l_locked w1); [reflexivity|]. destruct (start_disconnect (l_status w1)) as [st|]; [|reflexivity].
    destruct (ask fs (set_status w1 st)) as [y w2] eqn:E2. pose proof (ask_status _ _ _ _ E2) as (_ & _ & K2). destruct y as [a| |]; cbn [snd]; try exact K2. cbn [set_status l_known]. destruct (l_conn w2); exact K2. }
  destruct (disconnect fs w1) as [y w2]. cbn [snd] in D. destruct y; cbn [snd]; congruence.
Qed.
Lemma iois_known_run fs n p : forall w, l_known w = true -> run fs (iois n p) w = run fs p w.
Proof. induction n as [|n IH]; intros w K; [reflexivity|]. cbn [iois new_ioi run]. rewrite K. now apply IH. Qed.
Lemma batches_known_adds fs l : forall w, l_known w = true -> adds w (snd (run fs (batches l) w)) (3 * len l + 3).
Proof.
  induction l as [|[a b] l IH]; intros w K; [apply adds_same; [reflexivity|cbn; lia]|]. cbn [batches]. rewrite iois_known_run by exact K. cbn [run].
  pose proof (exchange_known fs w) as K1. destruct (exchange fs w) as [r w2] eqn:E. cbn [snd] in K1. destruct (exchange_adds _ _ _ _ E) as [A6 A3]. rewrite len_cons. pose proof (len_nonneg l).
  destruct r as [[| |]| |]; cbn [run snd]; try (apply (adds_le _ _ _ _ A6); lia).
  assert (A : adds w w2 3) by (apply A3; congruence). apply (adds_trans _ _ _ _ _ _ A (IH w2 ltac:(congruence))). lia.
Qed.
