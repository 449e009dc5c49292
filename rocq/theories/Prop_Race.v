(** * C130: AutoConnect and several goroutines *)
From Verif Require Import GoBase ConnModel RaceModel RaceSpec.

(** Full statement: as long as network and controller work, calls of a client with
    AutoConnect by several goroutines succeed.  It is false: who calls while
    another goroutine's call is connecting gets an error ([C130_others_fail]). *)

Lemma set_same {A} (l : list A) t x y : nth_error l t = Some y -> nth_error (ConnModel.set_nth t x l) t = Some x.
Proof. revert t. induction l as [|a l IH]; intros [|t] E; try discriminate; cbn in *; [reflexivity|now apply IH]. Qed.
Lemma set_other {A} (l : list A) t u x : u <> t -> nth_error (ConnModel.set_nth t x l) u = nth_error l u.
Proof. revert t u. induction l as [|a l IH]; intros [|t] [|u] N; cbn; try reflexivity; [congruence|]. apply IH. congruence. Qed.

Lemma run_snoc g ms m : gang_run g (ms ++ [m]) = gang_step (gang_run g ms) m.
Proof. unfold gang_run. now rewrite fold_left_app. Qed.
Lemma results_grow g ms : exists l, g_results (gang_run g ms) = l ++ g_results g.
Proof.
  induction ms as [|[t ok] ms (l & IH)] using rev_ind; [exists []; reflexivity|]. rewrite run_snoc. unfold gang_step.
  destruct (nth_error _ t) as [s|]; [|exists l; exact IH]. destruct (stage_step _ s ok) as [[st s'] [b|]]; cbn [g_results]; [|exists l; exact IH].
  exists ((t, b) :: l). cbn [app]. now rewrite IH.
Qed.

(** As long as all is well nobody disconnects, and the client is in one of three
    states: nobody has entered Connect yet; one goroutine is in Connect and none
    behind it; connected, and somebody has the connection or had an answer. *)
Definition new (g : gang) : Prop :=
  g_status g = disconnected /\ (forall t s, nth_error (g_stages g) t = Some s -> s = Rests \/ s = Looks \/ s = Enters) /\ g_results g = [].
Definition dialling (g : gang) : Prop := g_status g = connecting /\
  exists t, nth_error (g_stages g) t = Some Dials /\ forall u s, u <> t -> nth_error (g_stages g) u = Some s -> s = Rests \/ s = Looks \/ s = Enters.
Definition up (g : gang) : Prop := g_status g = connected /\
  (forall t s, nth_error (g_stages g) t = Some s -> s = Rests \/ s = Looks \/ s = Enters \/ s = Works) /\
  ((exists t, nth_error (g_stages g) t = Some Works) \/ exists t, In (t, true) (g_results g)).
Definition calm (g : gang) : Prop := new g \/ dialling g \/ up g.

Ltac others t := intros u s0 Hu; destruct (Nat.eq_dec u t) as [->|Nu];
  [erewrite set_same in Hu by eassumption; injection Hu as <-; tauto|rewrite set_other in Hu by exact Nu; eauto].

Lemma step_calm g t : calm g -> calm (gang_step g (t, true)).
Proof.
  intro C. unfold gang_step. destruct (nth_error (g_stages g) t) as [s|] eqn:Et; [|exact C].
  destruct C as [(St & Fo & Re)|[(St & d & Hd & Fo)|(St & Fo & So)]].
  - rewrite St. destruct (Fo t s Et) as [-> |[-> | ->]].
    + left. split; [reflexivity|]. split; [|exact Re]. cbn [g_stages stage_step]. others t.
    + left. split; [reflexivity|]. split; [|exact Re]. cbn [g_stages stage_step]. change (disconnected =? connected) with false. cbv iota. others t.
    + right. left. split; [reflexivity|]. exists t. cbn [g_stages stage_step]. change (start_connect disconnected) with (Some connecting). cbv iota.
      cbn [g_stages]. split; [eapply set_same; exact Et|]. intros u s0 Nu Hu. rewrite set_other in Hu by exact Nu. eauto.
  - rewrite St. destruct (Nat.eq_dec t d) as [->|Nt].
    + rewrite Hd in Et. injection Et as <-. right. right. cbn [stage_step]. split; [reflexivity|]. cbn [g_stages g_results].
      split; [|left; exists d; eapply set_same; exact Hd]. intros u s0 Hu. destruct (Nat.eq_dec u d) as [->|Nu].
      * erewrite set_same in Hu by exact Hd. injection Hu as <-. tauto.
      * rewrite set_other in Hu by exact Nu. destruct (Fo u s0 Nu Hu); tauto.
    + right. left. assert (Hd' : forall x, nth_error (ConnModel.set_nth t x (g_stages g)) d = Some Dials) by (intro x; rewrite set_other by congruence; exact Hd).
      destruct (Fo t s Nt Et) as [-> |[-> | ->]]; cbn [stage_step]; try (change (connecting =? connected) with false; cbv iota);
        try (change (start_connect connecting) with (@None Z); cbv iota); (split; [reflexivity|]); exists d; cbn [g_stages]; (split; [apply Hd'|]);
        intros u s0 Nu Hu; (destruct (Nat.eq_dec u t) as [->|Nut]; [erewrite set_same in Hu by exact Et; injection Hu as <-; tauto|rewrite set_other in Hu by exact Nut; eauto]).
  - right. right. rewrite St.
    assert (So' : forall x r, (x = Works \/ s <> Works \/ In (t, true) r) -> (forall p, In p (g_results g) -> In p r) ->
      (exists u, nth_error (ConnModel.set_nth t x (g_stages g)) u = Some Works) \/ exists u, In (u, true) r).
    { intros x r [-> |[N|I]] Sub.
      - left. exists t. eapply set_same; exact Et.
      - destruct So as [(u & Hu)|(u & I)]; [|right; exists u; auto]. left. exists u. rewrite set_other; [exact Hu|]. intros ->. congruence.
      - right. now exists t. }
    destruct (Fo t s Et) as [-> |[-> |[-> | ->]]]; cbn [stage_step]; try (change (connected =? connected) with true; cbv iota);
      try (change (start_connect connected) with (@None Z); cbv iota); (split; [reflexivity|]); cbn [g_stages g_results]; (split; [others t|]).
    + apply So'; [right; left; discriminate|auto].
    + apply So'; [now left|auto].
    + apply So'; [right; left; discriminate|intros; now right].
    + apply So'; [right; right; now left|intros; now right].
Qed.
Lemma calm_run g ms : calm g -> all_well ms -> calm (gang_run g ms).
Proof.
  intros C A. induction ms as [|[t ok] ms IH] using rev_ind; [exact C|]. apply Forall_app in A as [A B]. inversion B as [|? ? E _]; subst. cbn in E. subst ok.
  rewrite run_snoc. apply step_calm. auto.
Qed.
Lemma calm0 n : calm (gang0 n).
Proof.
  left. split; [reflexivity|]. split; [|reflexivity]. intros t s E. apply nth_error_In, repeat_spec in E. now left.
Qed.

(** One step while connected: what goroutine [t] is at, and what is returned. *)
Lemma step_up g u t s : up g -> nth_error (g_stages g) t = Some s -> s = Rests \/ s = Looks \/ s = Works ->
  up (gang_step g (u, true)) /\ (exists s', nth_error (g_stages (gang_step g (u, true))) t = Some s' /\ (s' = Rests \/ s' = Looks \/ s' = Works)) /\
  (g_results (gang_step g (u, true)) = g_results g \/ exists b, g_results (gang_step g (u, true)) = (u, b) :: g_results g /\ (u = t -> b = true)).
Proof.
  intros U Hs Cs. pose proof (step_calm g u (or_intror (or_intror U))) as C1. pose proof U as (Su & Fo & _).
  assert (S1 : g_status (gang_step g (u, true)) = connected).
  { unfold gang_step. destruct (nth_error (g_stages g) u) as [x|] eqn:Ex; [|exact Su]. rewrite Su. destruct (Fo u x Ex) as [-> |[-> |[-> | ->]]]; reflexivity. }
  split; [destruct C1 as [(E & _)|[(E & _)|U2]]; [rewrite S1 in E; discriminate|rewrite S1 in E; discriminate|exact U2]|].
  unfold gang_step. destruct (nth_error (g_stages g) u) as [x|] eqn:Ex; [|split; [now exists s|now left]]. rewrite Su.
  destruct (Nat.eq_dec u t) as [->|Nu].
  - rewrite Hs in Ex. injection Ex as <-. destruct Cs as [-> |[-> | ->]]; cbn [stage_step]; try (change (connected =? connected) with true; cbv iota); cbn [g_stages g_results].
    + split; [|now left]. exists Looks. split; [eapply set_same; exact Hs|tauto].
    + split; [|now left]. exists Works. split; [eapply set_same; exact Hs|tauto].
    + split; [|right; now exists true]. exists Rests. split; [eapply set_same; exact Hs|tauto].
  - destruct (stage_step connected x true) as [[st s'] [b|]]; cbn [g_stages g_results]; (split; [exists s; split; [now rewrite set_other by congruence|exact Cs]|]).
    + right. exists b. split; [reflexivity|congruence].
    + now left.
Qed.

(** A call that begins when the client is connected succeeds, as do all calls of
    that goroutine after it. *)
Theorem C130_begun_partial : forall n ms ms' t, all_well ms -> all_well ms' -> g_status (gang_run (gang0 n) ms) = connected ->
  resting (gang_run (gang0 n) ms) t -> ~ returned_since (gang_run (gang0 n) ms) (gang_run (gang_run (gang0 n) ms) ms') t false.
Proof.
  intros n ms ms' t A A' St Rs. pose proof (calm_run _ _ (calm0 n) A) as C. set (g := gang_run (gang0 n) ms) in *. clearbody g.
  assert (U : up g) by (destruct C as [(E & _)|[(E & _)|U]]; [rewrite St in E; discriminate|rewrite St in E; discriminate|exact U]).
  assert (K : up (gang_run g ms') /\ (exists s, nth_error (g_stages (gang_run g ms')) t = Some s /\ (s = Rests \/ s = Looks \/ s = Works)) /\
    exists l, g_results (gang_run g ms') = l ++ g_results g /\ ~ In (t, false) l).
  { induction ms' as [|[u ok] ms' IH] using rev_ind.
    - split; [exact U|]. split; [exists Rests; auto|]. exists []. auto.
    - apply Forall_app in A' as [A1 A2]. inversion A2 as [|? ? E _]; subst. cbn in E. subst ok. destruct (IH A1) as (U1 & (s & Hs & Cs) & l & El & Nl).
      rewrite run_snoc. destruct (step_up _ u t s U1 Hs Cs) as (U2 & S2 & R2). split; [exact U2|]. split; [exact S2|].
      destruct R2 as [-> |(b & -> & Hb)]; [now exists l|]. exists ((u, b) :: l). rewrite El. split; [reflexivity|].
      intros [X|X]; [|exact (Nl X)]. injection X as -> ->. specialize (Hb eq_refl). discriminate. }
  destruct K as (_ & _ & l & El & Nl). intros (l' & El' & I). rewrite El in El'. apply app_inv_tail in El'. now subst l'.
Qed.
Print Assumptions C130_begun_partial.

(** Goroutines starting together: when all are done, at least one has its answer,
    and the client is connected. *)
Theorem C130_one_partial : forall n ms t b, all_well ms -> (forall u, (u < n)%nat -> resting (gang_run (gang0 n) ms) u) ->
  In (t, b) (g_results (gang_run (gang0 n) ms)) -> g_status (gang_run (gang0 n) ms) = connected /\ exists u, In (u, true) (g_results (gang_run (gang0 n) ms)).
Proof.
  intros n ms t b A Rs I. pose proof (calm_run _ _ (calm0 n) A) as C.
  assert (Ln : length (g_stages (gang_run (gang0 n) ms)) = n).
  { clear. induction ms as [|[u ok] ms IH] using rev_ind; [apply repeat_length|]. rewrite run_snoc. unfold gang_step.
    destruct (nth_error _ u); [|exact IH]. destruct (stage_step _ _ ok) as [[st s'] r]. cbn [g_stages]. rewrite <- IH at 2. clear.
    generalize (g_stages (gang_run (gang0 n) ms)). intro l. revert u. induction l as [|a l IHl]; intros [|u]; cbn; try reflexivity. now rewrite IHl. }
  set (g := gang_run (gang0 n) ms) in *.
  assert (Al : forall u s, nth_error (g_stages g) u = Some s -> s = Rests).
  { intros u s E. assert (u < n)%nat by (rewrite <- Ln; apply nth_error_Some; congruence). specialize (Rs u H). unfold resting in Rs. congruence. }
  destruct C as [(_ & _ & E)|[(_ & u & Hu & _)|(St & _ & [(u & Hu)|(u & Hu)])]].
  - rewrite E in I. destruct I.
  - apply Al in Hu. discriminate.
  - apply Al in Hu. discriminate.
  - split; [exact St|now exists u].
Qed.
Print Assumptions C130_one_partial.

(** A goroutine on its own never gets an error. *)
Theorem C130_alone : forall ms b, all_well ms -> In b (g_results (gang_run (gang0 1) ms)) -> b = (0%nat, true).
Proof.
  intros ms b A. revert b.
  assert (K : (forall b, In b (g_results (gang_run (gang0 1) ms)) -> b = (0%nat, true)) /\ exists s, g_stages (gang_run (gang0 1) ms) = [s] /\
    match s with Rests | Looks => g_status (gang_run (gang0 1) ms) = disconnected \/ g_status (gang_run (gang0 1) ms) = connected
      | Enters => g_status (gang_run (gang0 1) ms) = disconnected | Dials => True | Works => g_status (gang_run (gang0 1) ms) = connected | _ => False end).
  { induction ms as [|[u ok] ms IH] using rev_ind; [split; [intros b []|exists Rests; split; [reflexivity|now left]]|].
    apply Forall_app in A as [A B]. inversion B as [|? ? E _]; subst. cbn in E. subst ok. destruct (IH A) as (R & s & Es & Cs).
    rewrite run_snoc. set (g := gang_run (gang0 1) ms) in *. unfold gang_step. rewrite Es. destruct u as [|u]; cbn [nth_error].
    - destruct s; cbn [stage_step]; try contradiction.
      + destruct Cs as [Cs|Cs]; rewrite Cs; (split; [exact R|]); eexists; (split; [reflexivity|]); cbn [g_status]; reflexivity.
      + rewrite Cs. split; [exact R|]. eexists. split; [reflexivity|exact Logic.I].
      + split; [exact R|]. eexists. split; reflexivity.
      + split; [|eexists; split; [reflexivity|now right]]. intros b [X|X]; [congruence|auto].
      + split; [exact R|]. eexists. split; [reflexivity|exact Cs].
    - destruct u; cbn [nth_error]; (split; [exact R|]); exists s; split; assumption. }
  apply K.
Qed.
Print Assumptions C130_alone.

(** Any number of goroutines can fail while one connects: each looks at the status
    and enters Connect while the first is in it. *)
Definition fails (t : nat) : list (nat * bool) := [(t, true); (t, true); (t, true)].
Definition all_fail (n : nat) : list (nat * bool) := [(0%nat, true); (0%nat, true); (0%nat, true)] ++ concat (map fails (seq 1 n)) ++ [(0%nat, true); (0%nat, true)].
Lemma step_at g t s st s' r : nth_error (g_stages g) t = Some s -> stage_step (g_status g) s true = (st, s', r) ->
  gang_step g (t, true) = {| g_status := st; g_stages := set_nth t s' (g_stages g); g_results := match r with Some b => (t, b) :: g_results g | None => g_results g end |}.
Proof. intros E E1. unfold gang_step. now rewrite E, E1. Qed.
Lemma one_fails g t : g_status g = connecting -> resting g t ->
  g_status (gang_run g (fails t)) = connecting /\ (forall u, nth_error (g_stages (gang_run g (fails t))) u = nth_error (g_stages g) u) /\
  g_results (gang_run g (fails t)) = (t, false) :: g_results g.
Proof.
  intros St Rs. destruct g as [st l r]. cbn [g_status] in St. subst st. unfold resting in Rs. cbn [g_stages] in Rs. unfold fails, gang_run. cbn [fold_left].
  rewrite (step_at {| g_status := connecting; g_stages := l; g_results := r |} t Rests connecting Looks None Rs eq_refl). cbn [g_stages g_results].
  pose proof (set_same _ _ Looks _ Rs) as E1. rewrite (step_at {| g_status := connecting; g_stages := set_nth t Looks l; g_results := r |} t Looks connecting Enters None E1 eq_refl). cbn [g_stages g_results].
  pose proof (set_same _ _ Enters _ E1) as E2. rewrite (step_at {| g_status := connecting; g_stages := set_nth t Enters (set_nth t Looks l); g_results := r |} t Enters connecting Rests (Some false) E2 eq_refl).
  cbn [g_status g_stages g_results]. split; [reflexivity|]. split; [|reflexivity]. intro u. destruct (Nat.eq_dec u t) as [->|N].
  - rewrite (set_same _ _ _ _ E2). congruence.
  - now rewrite !set_other.
Qed.
Theorem C130_others_fail : forall n, exists ms, all_well ms /\ (forall t, (1 <= t <= n)%nat -> In (t, false) (g_results (gang_run (gang0 (S n)) ms))) /\
  In (0%nat, true) (g_results (gang_run (gang0 (S n)) ms)).
Proof.
  intro n. exists (all_fail n). split.
  - unfold all_well, all_fail. rewrite !Forall_app. split; [repeat constructor|]. split; [|repeat constructor].
    apply Forall_concat, Forall_map, Forall_forall. intros t _. repeat constructor.
  - unfold all_fail, gang_run. rewrite !fold_left_app. set (g := fold_left gang_step _ (gang0 (S n))).
    assert (St : g_status g = connecting /\ nth_error (g_stages g) 0 = Some Dials /\ g_results g = []) by (split; [reflexivity|split; reflexivity]).
    assert (Rs : forall t, (1 <= t <= n)%nat -> resting g t).
    { intros [|t] H; [lia|]. unfold resting, g. cbn. apply nth_error_repeat. lia. }
    assert (K : forall k, (k <= n)%nat -> let h := fold_left gang_step (concat (map fails (seq 1 k))) g in
      g_status h = connecting /\ (forall u, nth_error (g_stages h) u = nth_error (g_stages g) u) /\ forall t, (1 <= t <= k)%nat -> In (t, false) (g_results h)).
    { induction k as [|k IH]; intros Hk h; [split; [apply St|split; [reflexivity|lia]]|]. destruct (IH ltac:(lia)) as (S1 & S2 & S3).
      unfold h. rewrite seq_S, map_app, concat_app, fold_left_app. cbn [map concat plus]. rewrite app_nil_r. set (h1 := fold_left gang_step (concat (map fails (seq 1 k))) g) in *.
      destruct (one_fails h1 (S k) S1) as (T1 & T2 & T3); [unfold resting; rewrite S2; apply Rs; lia|].
      change (fold_left gang_step (fails (S k)) h1) with (gang_run h1 (fails (S k))). split; [exact T1|]. split; [intro u; now rewrite T2|].
      intros t Ht. rewrite T3. destruct (Nat.eq_dec t (S k)) as [->|N]; [now left|right; apply S3; lia]. }
    destruct (K n ltac:(lia)) as (S1 & S2 & S3). cbv zeta in *. set (h := fold_left gang_step (concat (map fails (seq 1 n))) g) in *.
    assert (H0 : nth_error (g_stages h) 0 = Some Dials) by (rewrite S2; apply St).
    cbn [fold_left]. unfold gang_step at 2 4. rewrite H0. cbn [stage_step]. unfold gang_step. cbn [g_stages]. rewrite (set_same _ _ _ _ H0). cbn [stage_step g_results].
    split; [intros t Ht; right; now apply S3|now left].
Qed.
Print Assumptions C130_others_fail.
Theorem C130_refuted : exists n ms t, all_well ms /\ In (t, false) (g_results (gang_run (gang0 n) ms)).
Proof. destruct (C130_others_fail 1) as (ms & A & F & _). exists 2%nat, ms, 1%nat. split; [exact A|]. apply F. lia. Qed.
Print Assumptions C130_refuted.

(** Whatever failed: who is in Connect or Disconnect will set the status. *)
Definition settled (g : gang) : Prop := g_status g = disconnected \/ g_status g = connected \/
  (g_status g = connecting /\ exists t, nth_error (g_stages g) t = Some Dials) \/ (g_status g = disconnecting /\ exists t, nth_error (g_stages g) t = Some Leaves).
Lemma settled_step g m : settled g -> settled (gang_step g m).
Proof.
  intro H. destruct m as [t ok]. unfold gang_step. destruct (nth_error (g_stages g) t) as [s|] eqn:Et; [|exact H].
  assert (Go : forall s' r, s <> Dials -> s <> Leaves -> settled (Gang (g_status g) (ConnModel.set_nth t s' (g_stages g)) r)).
  { intros s' r N1 N2. destruct H as [H|[H|[(H & u & Hu)|(H & u & Hu)]]]; [now left|right; now left|right; right; left|right; right; right];
      (split; [exact H|]); exists u; cbn [g_stages]; rewrite set_other; try exact Hu; intros ->; congruence. }
  destruct s; cbn [stage_step].
  - apply Go; discriminate.
  - destruct (start_connect (g_status g)) as [st|] eqn:Sc; [|apply Go; discriminate].
    assert (st = connecting) as -> by (unfold start_connect in Sc; repeat (match type of Sc with context [if ?b then _ else _] => destruct b end); congruence).
    right. right. left. split; [reflexivity|]. exists t. eapply set_same. exact Et.
  - destruct ok; [right; now left|now left].
  - destruct ok; apply Go; discriminate.
  - destruct (start_disconnect (g_status g)) as [st|] eqn:Sc; [|apply Go; discriminate].
    assert (st = disconnecting) as -> by (unfold start_disconnect in Sc; repeat (match type of Sc with context [if ?b then _ else _] => destruct b end); congruence).
    right. right. right. split; [reflexivity|]. exists t. eapply set_same. exact Et.
  - now left.
  - apply Go; discriminate.
Qed.
Lemma race_at g t s st s' r : nth_error (g_stages g) t = Some s -> stage_step (g_status g) s true = (st, s', r) ->
  gang_step g (t, true) = Gang st (ConnModel.set_nth t s' (g_stages g)) (match r with Some b => (t, b) :: g_results g | None => g_results g end).
Proof. exact (step_at g t s st s' r). Qed.

(** After any failures: when no call is under way, the next one succeeds if network
    and controller do their part during it. *)
Theorem C130_recovers_partial : forall n ms t, (forall u, (u < n)%nat -> resting (gang_run (gang0 n) ms) u) -> (t < n)%nat ->
  exists k, g_results (gang_run (gang_run (gang0 n) ms) (repeat (t, true) k)) = (t, true) :: g_results (gang_run (gang0 n) ms).
Proof.
  intros n ms t Rs Lt. assert (H : settled (gang_run (gang0 n) ms)).
  { clear. induction ms as [|m ms IH] using rev_ind; [now left|]. rewrite run_snoc. now apply settled_step. }
  assert (Ln : length (g_stages (gang_run (gang0 n) ms)) = n).
  { clear. induction ms as [|[u ok] ms IH] using rev_ind; [apply repeat_length|]. rewrite run_snoc. unfold gang_step.
    destruct (nth_error _ u); [|exact IH]. destruct (stage_step _ _ ok) as [[st s'] r]. cbn [g_stages]. rewrite <- IH at 2. clear.
    generalize (g_stages (gang_run (gang0 n) ms)). intro l. revert u. induction l as [|a l IHl]; intros [|u]; cbn; try reflexivity. now rewrite IHl. }
  pose proof (Rs t Lt) as E0. set (g := gang_run (gang0 n) ms) in *. clearbody g. unfold resting in E0. destruct g as [st l r]. cbn [g_status g_stages g_results] in *.
  assert (Al : forall u s, nth_error l u = Some s -> s = Rests).
  { intros u s E. assert (u < n)%nat by (rewrite <- Ln; apply nth_error_Some; congruence). specialize (Rs u H0). unfold resting in Rs. cbn [g_stages] in Rs. congruence. }
  pose proof (set_same _ _ Looks _ E0) as E1.
  destruct H as [H|[H|[(_ & u & Hu)|(_ & u & Hu)]]]; cbn [g_status g_stages] in *; try (apply Al in Hu; discriminate); subst st.
  - exists 5%nat. unfold gang_run. cbn [repeat fold_left]. rewrite (race_at (Gang disconnected l r) t Rests disconnected Looks None E0 eq_refl). cbn [g_stages g_results].
    rewrite (race_at (Gang disconnected _ r) t Looks disconnected Enters None E1 eq_refl). cbn [g_stages g_results]. pose proof (set_same _ _ Enters _ E1) as E2.
    rewrite (race_at (Gang disconnected _ r) t Enters connecting Dials None E2 eq_refl). cbn [g_stages g_results]. pose proof (set_same _ _ Dials _ E2) as E3.
    rewrite (race_at (Gang connecting _ r) t Dials connected Works None E3 eq_refl). cbn [g_stages g_results]. pose proof (set_same _ _ Works _ E3) as E4.
    rewrite (race_at (Gang connected _ r) t Works connected Rests (Some true) E4 eq_refl). reflexivity.
  - exists 3%nat. unfold gang_run. cbn [repeat fold_left]. rewrite (race_at (Gang connected l r) t Rests connected Looks None E0 eq_refl). cbn [g_stages g_results].
    rewrite (race_at (Gang connected _ r) t Looks connected Works None E1 eq_refl). cbn [g_stages g_results]. pose proof (set_same _ _ Works _ E1) as E4.
    rewrite (race_at (Gang connected _ r) t Works connected Rests (Some true) E4 eq_refl). reflexivity.
Qed.
Print Assumptions C130_recovers_partial.
(** Two goroutines share a connection, both requests fail, one Disconnect ends in an
    error. *)
Example ex_C130_recovers : let ms := [(0%nat, true); (0%nat, true); (0%nat, true); (0%nat, true); (1%nat, true); (1%nat, true); (0%nat, false); (1%nat, false); (0%nat, true); (1%nat, true); (0%nat, true)] in
  (forall u, (u < 2)%nat -> resting (gang_run (gang0 2) ms) u) /\ g_results (gang_run (gang0 2) ms) = [(0%nat, false); (1%nat, false)].
Proof. split; [|reflexivity]. intros [|[|u]] H; [reflexivity|reflexivity|lia]. Qed.

(** A goroutine for which network and controller never do their part is never told
    that a call succeeded. *)
Theorem C130_honest : forall n ms t, (forall ok, In (t, ok) ms -> ok = false) -> ~ In (t, true) (g_results (gang_run (gang0 n) ms)).
Proof.
  intros n ms t. induction ms as [|[u ok] ms IH] using rev_ind; intro A; [intros []|]. rewrite run_snoc.
  assert (A1 : forall ok, In (t, ok) ms -> ok = false) by (intros o I; apply A, in_or_app; now left). specialize (IH A1). unfold gang_step.
  destruct (nth_error (g_stages (gang_run (gang0 n) ms)) u) as [s|]; [|exact IH]. destruct (stage_step (g_status (gang_run (gang0 n) ms)) s ok) as [[st s'] [b|]] eqn:E; cbn [g_results]; [|exact IH].
  intros [X|X]; [|exact (IH X)]. injection X as -> ->. rewrite (A ok) in E by (apply in_or_app; right; now left).
  destruct s; cbn [stage_step] in E; try discriminate; [destruct (start_connect _)|destruct (start_disconnect _)]; discriminate.
Qed.
Print Assumptions C130_honest.
Example ex_C130_honest : g_results (gang_run (gang0 2) [(0%nat, true); (0%nat, true); (0%nat, true); (0%nat, true); (1%nat, false); (1%nat, false); (1%nat, false); (1%nat, false); (1%nat, false); (0%nat, true)]) = [(0%nat, true); (1%nat, false)].
Proof. reflexivity. Qed.

(** Two goroutines call at the same moment: the second gets an error, its next call
    succeeds. *)
Definition together : list (nat * bool) := all_fail 1.
Example ex_C130 : all_well together /\ g_results (gang_run (gang0 2) together) = [(0%nat, true); (1%nat, false)] /\
  (forall u, (u < 2)%nat -> resting (gang_run (gang0 2) together) u) /\ g_status (gang_run (gang0 2) together) = connected /\
  g_results (gang_run (gang_run (gang0 2) together) [(1%nat, true); (0%nat, true); (1%nat, true); (1%nat, true)]) = [(1%nat, true); (0%nat, true); (1%nat, false)].
Proof.
  split; [repeat constructor|]. split; [reflexivity|]. split; [|split; reflexivity]. intros [|[|u]] H; [reflexivity|reflexivity|lia].
Qed.
Example ex_C130_alone : all_well [(0%nat, true); (0%nat, true); (0%nat, true); (0%nat, true); (0%nat, true)] /\
  g_results (gang_run (gang0 1) [(0%nat, true); (0%nat, true); (0%nat, true); (0%nat, true); (0%nat, true)]) = [(0%nat, true)].
Proof. split; [repeat constructor|reflexivity]. Qed.
