(** * Lemmas about a client's connection *)
From Verif Require Import GoBase ConnModel LifeModel LifeSpec.

Definition marks (l : list event) : list event := filter (fun e => match e with Sent _ => false | _ => true end) l.
Lemma marks_in e l : (match e with Sent _ => False | _ => True end) -> (In e (marks l) <-> In e l).
Proof. intro H. unfold marks. rewrite filter_In. destruct e; [tauto..|contradiction|tauto]. Qed.
Lemma marks_dial l : last_dial (marks l) = last_dial l.
Proof. induction l as [|[k| |k|k|k] l IH]; cbn; try reflexivity; exact IH. Qed.
Lemma is_closed_in w k : is_closed w k = true <-> In (Closed k) (l_log w).
Proof.
  unfold is_closed. rewrite existsb_exists. split.
  - intros ([j| |j|j|j] & I & E); try discriminate. apply Nat.eqb_eq in E. now subst.
  - intro I. exists (Closed k). split; [exact I|apply Nat.eqb_refl].
Qed.

(** Nothing but requests sent. *)
Record quiet (w w' : life) : Prop := {
  q_status : l_status w' = l_status w; q_conn : l_conn w' = l_conn w; q_next : l_next w' = l_next w;
  q_marks : marks (l_log w') = marks (l_log w) }.
Lemma quiet_refl w : quiet w w. Proof. split; reflexivity. Qed.
Lemma quiet_trans a b c : quiet a b -> quiet b c -> quiet a c.
Proof. intros [A B C D] [A' B' C' D']. split; congruence. Qed.

Record inv (w : life) : Prop := {
  i_dial : forall k, In (Dialled k) (l_log w) <-> (k < l_next w)%nat;
  i_grant : forall k, In (Granted k) (l_log w) -> (k < l_next w)%nat;
  i_closed : forall k, In (Closed k) (l_log w) -> In (Granted k) (l_log w);
  i_conn : l_conn w = match last_dial (l_log w) with Some o => o | None => None end;
  i_some : l_status w = connected \/ l_status w = disconnecting -> l_conn w <> None;
  i_live : forall k, In (Granted k) (l_log w) /\ ~ In (Closed k) (l_log w) <->
    (l_status w = connected \/ l_status w = disconnecting) /\ l_conn w = Some k }.
Lemma inv_quiet w w' : quiet w w' -> inv w -> inv w'.
Proof.
  intros [A B C D] [I1 I2 I3 I4 I5 I6].
  assert (E : forall e, (match e with Sent _ => False | _ => True end) -> (In e (l_log w') <-> In e (l_log w))).
  { intros e H. rewrite <- (marks_in e (l_log w') H), <- (marks_in e (l_log w) H). now rewrite D. }
  split; intros.
  - rewrite (E (Dialled k) I), C. apply I1.
  - rewrite C. apply I2. now apply (E (Granted k) I).
  - apply (E (Granted k) I), I3. now apply (E (Closed k) I).
  - rewrite B, I4, <- (marks_dial (l_log w')), D, marks_dial. reflexivity.
  - rewrite B. apply I5. now rewrite <- A.
  - rewrite (E (Granted k) I), (E (Closed k) I), A, B. apply I6.
Qed.
Lemma conn_lt w k : inv w -> l_conn w = Some k -> (k < l_next w)%nat.
Proof.
  intros I E. rewrite (i_conn _ I) in E. apply (i_dial _ I).
  clear I. induction (l_log w) as [|[j| |j|j|j] l IH]; cbn [last_dial] in E; try discriminate; try (right; apply IH, E).
  left. congruence.
Qed.

(** ** The steps *)
Lemma ask_spec fs w r w' : ask fs w = (r, w') ->
  quiet w w' /\ l_auto w' = l_auto w /\ l_known w' = l_known w /\ l_large w' = l_large w /\ (l_clock w <= l_clock w')%nat /\
  match r with
  | Returns x => l_locked w = false /\ l_locked w' = false /\ exists k, l_conn w = Some k /\
      (if is_closed w k then x = Lost /\ w' = w else x = f_reply (fs (l_clock w)) /\ l_log w' = Sent k :: l_log w)
  | Crashes => l_locked w = false /\ l_conn w = None /\ l_locked w' = true
  | Hangs => l_locked w = true /\ w' = w
  end.
Proof.
  unfold ask. destruct (l_locked w) eqn:L.
  - intro E. injection E as <- <-. split; [apply quiet_refl|]. auto 10.
  - destruct (l_conn w) as [k|] eqn:C.
    + destruct (is_closed w k) eqn:X; intro E; injection E as <- <-.
      * split; [apply quiet_refl|]. repeat (split; [first [reflexivity|exact L|cbn; lia]|]). exists k. rewrite X. auto.
      * split; [split; reflexivity|]. repeat (split; [first [reflexivity|exact L|cbn; lia]|]). exists k. rewrite X. auto.
    + intro E. injection E as <- <-. split; [split; try reflexivity; exact (eq_sym C)|]. auto 10.
Qed.
Definition statuses (w : life) : Prop := l_status w = disconnected \/ l_status w = connecting \/ l_status w = connected \/ l_status w = disconnecting.
Lemma start_disconnect_cases st : st = disconnected \/ st = connecting \/ st = connected \/ st = disconnecting ->
  start_disconnect st = if st =? connected then Some disconnecting else None.
Proof. intros [->|[->|[->| ->]]]; reflexivity. Qed.

Lemma disconnect_spec fs w r w' : inv w -> statuses w -> disconnect fs w = (r, w') ->
  l_auto w' = l_auto w /\ l_known w' = l_known w /\ l_large w' = l_large w /\ l_conn w' = l_conn w /\ l_next w' = l_next w /\ (l_clock w <= l_clock w')%nat /\ inv w' /\
  match r with
  | Returns b => l_locked w = false /\ l_locked w' = false /\
      (if l_status w =? connected then b = true /\ l_status w' = disconnected /\ exists k, l_conn w = Some k /\ In (Closed k) (l_log w')
       else b = false /\ w' = w)
  | Crashes => False
  | Hangs => l_locked w = true /\ w' = w
  end.
Proof.
  intros I St. unfold disconnect. destruct (l_locked w) eqn:L.
  { intro E. injection E as <- <-. auto 12. }
  rewrite (start_disconnect_cases _ St). destruct (Z.eqb_spec (l_status w) connected) as [Sc|Sc].
  2: { intro E. injection E as <- <-. auto 12. }
  destruct (ask fs (set_status w disconnecting)) as [x w1] eqn:A. pose proof (ask_spec _ _ _ _ A) as (Q & Qa & Qk & Ql & Qc & X).
  assert (Cn : l_conn w <> None) by (apply (i_some _ I); auto). destruct (l_conn w) as [k|] eqn:C; [|congruence].
  pose proof (q_conn _ _ Q) as Q2. cbn [set_status l_conn] in Q2. rewrite C in Q2.
  destruct x as [y| |].
  2: { destruct X as (_ & X & _). cbn in X. congruence. }
  2: { destruct X as (X & _). cbn in X. congruence. }
  destruct X as (_ & Lk & k' & Ck & X). cbn [set_status l_conn] in Ck. rewrite C in Ck. injection Ck as <-.
  rewrite Q2. intro E. injection E as <- <-. cbn [set_status see l_auto l_known l_large l_conn l_next l_clock l_locked l_status l_log] in *.
  pose proof (q_next _ _ Q) as Qn. cbn in Qn.
  assert (I1 : inv (set_status w disconnecting)).
  { destruct I as [H1 H2 H3 H4 H5 H6]. split; cbn [set_status l_log l_next l_conn l_status]; [exact H1|exact H2|exact H3|congruence|intros _; congruence|].
    intro j. rewrite H6, Sc. tauto. }
  pose proof (inv_quiet _ _ Q I1) as I2.
  assert (G : In (Granted k) (l_log w1)). { apply (i_live _ I2). rewrite (q_status _ _ Q), Q2. cbn. auto. }
  repeat (split; [assumption || reflexivity|]). split.
  - destruct I2 as [J1 J2 J3 J4 J5 J6].
    split; cbn [set_status see l_log l_next l_conn l_status In last_dial].
    + intro j. rewrite <- J1. split; [intros [X1|X1]; [discriminate|exact X1]|auto].
    + intros j [X1|X1]; [discriminate|auto].
    + intros j [X1|X1]; [injection X1 as <-; auto|auto].
    + exact J4.
    + intros [X1|X1]; discriminate.
    + intro j. split.
      * intros [[X1|X1] X2]; [discriminate|]. exfalso. assert (Y : In (Granted j) (l_log w1) /\ ~ In (Closed j) (l_log w1)) by tauto.
        apply J6 in Y. destruct Y as [_ Y]. apply X2. left. congruence.
      * intros [[X1|X1] _]; discriminate.
  - split; [reflexivity|]. split; [exact Lk|]. split; [reflexivity|]. split; [reflexivity|]. exists k. split; [reflexivity|now left].
Qed.

(** A request: as [ask], and the connection is taken down when it is lost. *)
Lemma exchange_spec fs w r w' : inv w -> statuses w -> exchange fs w = (r, w') ->
  l_auto w' = l_auto w /\ l_known w' = l_known w /\ l_large w' = l_large w /\ l_conn w' = l_conn w /\ l_next w' = l_next w /\ (l_clock w <= l_clock w')%nat /\ inv w' /\
  match r with
  | Returns x => l_locked w = false /\ l_locked w' = false /\ l_conn w <> None /\
      (quiet w w' \/ x = Lost /\ l_status w = connected /\ l_status w' = disconnected /\ exists k, l_conn w = Some k /\ In (Closed k) (l_log w')) /\
      (x = Lost -> l_status w' <> connected) /\
      (x <> Lost -> x = f_reply (fs (l_clock w)) /\ exists k, l_conn w = Some k /\ ~ In (Closed k) (l_log w) /\ l_log w' = Sent k :: l_log w)
  | Crashes => l_locked w = false /\ l_conn w = None /\ l_locked w' = true /\ quiet w w'
  | Hangs => l_locked w = true /\ w' = w
  end.
Proof.
  intros I St. unfold exchange. destruct (ask fs w) as [x w1] eqn:A. pose proof (ask_spec _ _ _ _ A) as (Q & Qa & Qk & Ql & Qc & X).
  pose proof (inv_quiet _ _ Q I) as I1. pose proof (q_conn _ _ Q) as Qcn. pose proof (q_next _ _ Q) as Qn. pose proof (q_status _ _ Q) as Qs.
  destruct x as [y| |].
  - destruct X as (L & L1 & k & Ck & X). destruct y.
    + destruct (disconnect fs w1) as [d w2] eqn:D.
      assert (St1 : statuses w1) by (unfold statuses in *; rewrite Qs; exact St).
      pose proof (disconnect_spec _ _ _ _ I1 St1 D) as (Da & Dk & Dl & Dc & Dn & Dt & Di & Y).
      destruct d as [b| |].
      * intro E. injection E as <- <-. rewrite Da, Dk, Dl, Dc, Dn, Qa, Qk, Ql, Qcn, Qn. repeat (split; [reflexivity|]). split; [lia|]. split; [exact Di|].
        destruct Y as (_ & L2 & Y). split; [exact L|]. split; [exact L2|]. split; [congruence|].
        destruct (Z.eqb_spec (l_status w1) connected) as [Sc|Sc].
        -- destruct Y as (_ & Y & Yk). rewrite Qcn in Yk. split; [right; rewrite <- Qs; auto|]. split; [intros _; rewrite Y; discriminate|congruence].
        -- destruct Y as (_ & ->). split; [left; exact Q|]. split; [intros _; exact Sc|congruence].
      * contradiction.
      * destruct Y as (Y & _). congruence.
    + intro E. injection E as <- <-. rewrite Qa, Qk, Ql, Qcn, Qn. repeat (split; [reflexivity|]). split; [exact Qc|]. split; [exact I1|].
      split; [exact L|]. split; [exact L1|]. split; [congruence|]. split; [left; exact Q|]. split; [discriminate|]. intros _.
      destruct (is_closed w k) eqn:Cl; [destruct X; discriminate|]. destruct X as [X1 X2]. split; [exact X1|]. exists k. split; [exact Ck|]. split; [|exact X2].
      intro Hc. apply is_closed_in in Hc. congruence.
    + intro E. injection E as <- <-. rewrite Qa, Qk, Ql, Qcn, Qn. repeat (split; [reflexivity|]). split; [exact Qc|]. split; [exact I1|].
      split; [exact L|]. split; [exact L1|]. split; [congruence|]. split; [left; exact Q|]. split; [discriminate|]. intros _.
      destruct (is_closed w k) eqn:Cl; [destruct X; discriminate|]. destruct X as [X1 X2]. split; [exact X1|]. exists k. split; [exact Ck|]. split; [|exact X2].
      intro Hc. apply is_closed_in in Hc. congruence.
  - intro E. injection E as <- <-. rewrite Qa, Qk, Ql, Qcn, Qn. repeat (split; [reflexivity|]). split; [exact Qc|]. split; [exact I1|].
    destruct X as (X1 & X2 & X3). auto.
  - intro E. injection E as <- <-. rewrite Qa, Qk, Ql, Qcn, Qn. repeat (split; [reflexivity|]). split; [exact Qc|]. split; [exact I1|]. exact X.
Qed.

Lemma exchange_connecting fs w : inv w -> l_status w = connecting -> l_locked w = false -> l_conn w <> None ->
  exists x w', exchange fs w = (Returns x, w') /\ quiet w w' /\ l_locked w' = false /\ l_auto w' = l_auto w /\ l_known w' = l_known w /\
    l_large w' = l_large w /\ (l_clock w <= l_clock w')%nat /\ inv w'.
Proof.
  intros I Sc L C. destruct (exchange fs w) as [r w'] eqn:E.
  assert (St : statuses w) by (unfold statuses; auto).
  pose proof (exchange_spec _ _ _ _ I St E) as (A & K & La & Cn & N & T & I' & X). destruct r as [x| |].
  - destruct X as (_ & L' & _ & Q & _). exists x, w'. split; [reflexivity|]. split; [|auto 10].
    destruct Q as [Q|(_ & Q & _)]; [exact Q|]. rewrite Sc in Q. discriminate.
  - destruct X as (_ & X & _). congruence.
  - destruct X as (X & _). congruence.
Qed.
Lemma open_spec fs w : inv w -> l_status w = connecting -> l_locked w = false -> l_conn w <> None ->
  exists b w', open_any fs w = (Returns b, w') /\ quiet w w' /\ l_locked w' = false /\ l_auto w' = l_auto w /\ l_known w' = l_known w /\
    (l_clock w <= l_clock w')%nat /\ inv w'.
Proof.
  assert (Std : forall w, inv w -> l_status w = connecting -> l_locked w = false -> l_conn w <> None ->
    exists b w', open_standard fs w = (Returns b, w') /\ quiet w w' /\ l_locked w' = false /\ l_auto w' = l_auto w /\ l_known w' = l_known w /\
    (l_clock w <= l_clock w')%nat /\ inv w').
  { clear w. intros w I Sc L C. destruct (exchange_connecting fs w I Sc L C) as (x & w' & E & Q & L' & A & K & _ & T & I').
    unfold open_standard. rewrite E. destruct x; eexists _, w'; (split; [reflexivity|]); auto 10. }
  intros I Sc L C. unfold open_any. destruct (l_large w); [|exact (Std w I Sc L C)].
  destruct (exchange_connecting fs w I Sc L C) as (x & w' & E & Q & L' & A & K & _ & T & I'). rewrite E.
  assert (Again : exists b w2, open_standard fs (Life (l_status w') (l_conn w') (l_next w') false (l_known w') (l_locked w') (l_auto w') (l_clock w') (l_log w')) = (Returns b, w2) /\
    quiet w w2 /\ l_locked w2 = false /\ l_auto w2 = l_auto w /\ l_known w2 = l_known w /\ (l_clock w <= l_clock w2)%nat /\ inv w2).
  { set (w0 := Life _ _ _ _ _ _ _ _ _). assert (Q0 : quiet w' w0) by (split; reflexivity).
    destruct (Std w0) as (b & w2 & E2 & Q2 & L2 & A2 & K2 & T2 & I2).
    - exact (inv_quiet _ _ Q0 I').
    - rewrite (q_status _ _ Q0), (q_status _ _ Q). exact Sc.
    - exact L'.
    - rewrite (q_conn _ _ Q0), (q_conn _ _ Q). exact C.
    - exists b, w2. split; [exact E2|]. split; [exact (quiet_trans _ _ _ Q (quiet_trans _ _ _ Q0 Q2))|]. split; [exact L2|].
      split; [rewrite A2; exact A|]. split; [rewrite K2; exact K|]. split; [cbn in T2; lia|exact I2]. }
  destruct x; try exact Again. exists true, w'. auto 10.
Qed.

Definition calm (w : life) : Prop := inv w /\ (l_status w = connected \/ l_status w = disconnected).
Lemma calm_statuses w : calm w -> statuses w. Proof. intros [_ [H|H]]; unfold statuses; auto. Qed.

Lemma connect_spec fs w r w' : calm w -> connect fs w = (r, w') ->
  calm w' /\ l_auto w' = l_auto w /\ l_known w' = l_known w /\ (l_clock w <= l_clock w')%nat /\
  match r with
  | Returns b => l_locked w = false /\ l_locked w' = false /\
      (if l_status w =? connected then b = false /\ w' = w
       else l_status w' = if b then connected else disconnected)
  | Crashes => False
  | Hangs => l_locked w = true /\ w' = w
  end.
Proof.
  intros [I St]. unfold connect. destruct (l_locked w) eqn:L.
  { intro E. injection E as <- <-. split; [split; assumption|]. auto 10. }
  destruct St as [Sc|Sc]; rewrite Sc.
  { cbn. intro E. injection E as <- <-. split; [split; auto|]. auto 10. }
  change (start_connect disconnected) with (Some connecting). cbv iota zeta.
  assert (NoLive : forall j, In (Granted j) (l_log w) -> In (Closed j) (l_log w)).
  { intros j G. destruct (is_closed w j) eqn:X; [now apply is_closed_in|]. exfalso.
    assert (N : ~ In (Closed j) (l_log w)) by (intro N; apply is_closed_in in N; congruence).
    destruct (proj1 (i_live _ I j) (conj G N)) as [[Y|Y] _]; rewrite Sc in Y; discriminate. }
  change (l_clock (set_status w connecting)) with (l_clock w).
  destruct (f_dial (fs (l_clock w))) eqn:Dl.
  - set (k := l_next (set_status w connecting)). set (w1 := tick (see _ _)).
    assert (I1 : inv w1).
    { destruct I as [H1 H2 H3 H4 H5 H6]. subst w1 k. split; cbn [tick see set_status l_log l_next l_conn l_status In last_dial].
      - intro j. rewrite H1. split; [intros [X|X]; [injection X as <-; lia|lia]|]. intro X. destruct (Nat.eq_dec j (l_next w)) as [->|N]; [now left|right; lia].
      - intros j [X|X]; [discriminate|]. specialize (H2 j X). lia.
      - intros j [X|X]; [discriminate|]. right. auto.
      - reflexivity.
      - intros [X|X]; discriminate.
      - intro j. split; [|intros [[X|X] _]; discriminate]. intros [[X|X] Y]; [discriminate|]. exfalso. apply Y. right. auto. }
    destruct (exchange_connecting fs w1 I1 eq_refl L) as (x & w2 & E & Q & L2 & A2 & K2 & _ & T2 & I2); [discriminate|].
    rewrite E.
    assert (T1 : (l_clock w <= l_clock w1)%nat) by (subst w1; cbn; lia).
    assert (Down : forall v, quiet w1 v -> inv v -> calm (set_status v disconnected)).
    { intros v Qv [H1 H2 H3 H4 H5 H6]. split; [|right; reflexivity]. split; cbn [set_status l_log l_next l_conn l_status]; auto.
      - intros [X|X]; discriminate.
      - intro j. rewrite H6, (q_status _ _ Qv). cbn. split; [intros [[X|X] _]; discriminate|intros [[X|X] _]; discriminate]. }
    assert (Next : (let '(o, w3) := open_any fs w2 in exists b, o = Returns b) /\
      forall o w3 r w', open_any fs w2 = (o, w3) ->
      (match o with Returns true => (Returns true, set_status (see w3 (Granted k)) connected) | Returns false => (Returns false, set_status w3 disconnected) | _ => (Hangs, w3) end) = (r, w') ->
      calm w' /\ l_auto w' = l_auto w /\ l_known w' = l_known w /\ (l_clock w <= l_clock w')%nat /\
      match r with Returns b => false = false /\ l_locked w' = false /\ l_status w' = (if b then connected else disconnected) | Crashes => False | Hangs => False end).
    { assert (C2 : l_conn w2 = Some k) by (rewrite (q_conn _ _ Q); reflexivity).
      destruct (open_spec fs w2 I2) as (b & w3 & E3 & Q3 & L3 & A3 & K3 & T3 & I3); [rewrite (q_status _ _ Q); reflexivity|exact L2|congruence|].
      rewrite E3. split; [now exists b|]. intros o w3' r0 w0 Eo. injection Eo as <- <-.
      assert (Qk : quiet w1 w3) by exact (quiet_trans _ _ _ Q Q3).
      assert (Au : l_auto w1 = l_auto w /\ l_known w1 = l_known w) by (split; reflexivity). destruct Au as [Au Ku].
      destruct b; intro Er; injection Er as <- <-; cbn [set_status see l_auto l_known l_clock l_locked l_status].
      - split; [|rewrite A3, A2, K3, K2; split; [exact Au|split; [exact Ku|split; [lia|auto]]]].
        assert (C3 : l_conn w3 = Some k) by (rewrite (q_conn _ _ Q3); exact C2).
        assert (N3 : l_next w3 = S k) by (rewrite (q_next _ _ Qk); reflexivity).
        assert (Fresh : ~ In (Granted k) (l_log w3)).
        { intro X. apply (marks_in (Granted k) (l_log w3) Logic.I) in X. rewrite (q_marks _ _ Qk) in X. apply (marks_in (Granted k) (l_log w1) Logic.I) in X.
          subst w1 k. cbn in X. destruct X as [X|X]; [discriminate|]. apply (i_grant _ I) in X. lia. }
        destruct I3 as [H1 H2 H3 H4 H5 H6]. split; [|left; reflexivity]. split; cbn [set_status see l_log l_next l_conn l_status In last_dial].
        + intro j. rewrite <- H1. split; [intros [X|X]; [discriminate|exact X]|auto].
        + intros j [X|X]; [injection X as <-; lia|auto].
        + intros j [X|X]; [discriminate|auto].
        + exact H4.
        + intros _. congruence.
        + intro j. split.
          * intros [[X|X] Y]; [injection X as <-; auto|]. exfalso. assert (Z : In (Granted j) (l_log w3) /\ ~ In (Closed j) (l_log w3)) by tauto.
            apply H6 in Z. rewrite (q_status _ _ Qk) in Z. destruct Z as [[Z|Z] _]; discriminate.
          * intros [_ X]. rewrite C3 in X. injection X as <-. split; [now left|]. intros [X|X]; [discriminate|]. apply Fresh, H3, X.
      - split; [exact (Down _ Qk I3)|]. rewrite A3, A2, K3, K2. split; [exact Au|split; [exact Ku|split; [lia|auto]]]. }
    change (disconnected =? connected) with false. cbv iota.
    assert (Au : l_auto w1 = l_auto w /\ l_known w1 = l_known w) by (split; reflexivity). destruct Au as [Au Ku].
    destruct x; intro Er.
    + injection Er as <- <-. split; [exact (Down _ Q I2)|]. cbn [set_status l_auto l_known l_clock l_locked l_status].
      rewrite A2, K2. split; [exact Au|]. split; [exact Ku|]. split; [lia|]. auto.
    + destruct (open_any fs w2) as [o w3] eqn:Eo. destruct (proj2 Next _ _ _ _ eq_refl Er) as (X1 & X2 & X3 & X4 & X5).
      split; [exact X1|]. split; [exact X2|]. split; [exact X3|]. split; [exact X4|]. destruct r; [exact X5|contradiction|contradiction].
    + destruct (open_any fs w2) as [o w3] eqn:Eo. destruct (proj2 Next _ _ _ _ eq_refl Er) as (X1 & X2 & X3 & X4 & X5).
      split; [exact X1|]. split; [exact X2|]. split; [exact X3|]. split; [exact X4|]. destruct r; [exact X5|contradiction|contradiction].
  - intro E. injection E as <- <-. cbn [tick see set_status l_auto l_known l_clock l_locked l_status]. split.
    + destruct I as [H1 H2 H3 H4 H5 H6]. split; [|right; reflexivity]. split; cbn [tick see set_status l_log l_next l_conn l_status In last_dial].
      * intro j. rewrite <- H1. split; [intros [X|X]; [discriminate|exact X]|auto].
      * intros j [X|X]; [discriminate|auto].
      * intros j [X|X]; [discriminate|auto].
      * reflexivity.
      * intros [X|X]; discriminate.
      * intro j. split; [|intros [[X|X] _]; discriminate]. intros [[X|X] Y]; [discriminate|]. exfalso. apply Y. right. auto.
    + split; [reflexivity|]. split; [reflexivity|]. split; [lia|]. split; [reflexivity|]. split; [exact L|reflexivity].
Qed.

Lemma check_spec fs w r w' : calm w -> check fs w = (r, w') ->
  calm w' /\ l_auto w' = l_auto w /\ l_known w' = l_known w /\ (l_clock w <= l_clock w')%nat /\
  match r with
  | Returns b => l_locked w = false /\ l_locked w' = false /\
      (b = true -> l_status w' = connected) /\ (b = false -> l_status w' = disconnected) /\
      (l_status w = connected -> b = true /\ w' = w) /\ (l_status w <> connected -> l_auto w = false -> b = false /\ w' = w)
  | Crashes => False
  | Hangs => l_locked w = true /\ w' = w
  end.
Proof.
  intro Cm. unfold check. destruct (l_locked w) eqn:L.
  { intro E. injection E as <- <-. split; [assumption|]. auto 10. }
  destruct (Z.eqb_spec (l_status w) connected) as [Sc|Sc].
  { intro E. injection E as <- <-. split; [assumption|]. repeat (split; [first [reflexivity|exact L]|]). split; [auto|]. split; [discriminate|]. split; [auto|congruence]. }
  destruct (l_auto w) eqn:Au.
  - intro E. pose proof (connect_spec _ _ _ _ Cm E) as (X1 & X2 & X3 & X4 & X5). split; [exact X1|]. split; [congruence|]. split; [exact X3|]. split; [exact X4|].
    destruct r as [b| |]; [|contradiction|destruct X5; congruence]. destruct X5 as (_ & L' & X5). destruct (Z.eqb_spec (l_status w) connected); [contradiction|].
    split; [reflexivity|]. split; [exact L'|]. split; [intros ->; exact X5|]. split; [intros ->; exact X5|]. split; [congruence|discriminate].
  - intro E. injection E as <- <-. split; [assumption|]. repeat (split; [first [reflexivity|exact L|exact Au]|]).
    split; [discriminate|]. split; [intros _; destruct Cm as [_ [X|X]]; [contradiction|exact X]|]. split; [congruence|auto].
Qed.

(** Whatever a method does, the invariant stays. *)
Lemma exchange_calm fs w r w' : calm w -> exchange fs w = (r, w') -> calm w'.
Proof.
  intros Cm E. pose proof (exchange_spec _ _ _ _ (proj1 Cm) (calm_statuses _ Cm) E) as (A & K & La & Cn & N & T & I' & X).
  split; [exact I'|]. destruct r as [x| |].
  - destruct X as (_ & _ & _ & [Q|(_ & _ & Q & _)] & _); [rewrite (q_status _ _ Q); apply Cm|auto].
  - destruct X as (_ & _ & _ & Q). rewrite (q_status _ _ Q). apply Cm.
  - destruct X as (_ & ->). apply Cm.
Qed.
Lemma run_calm fs p : forall w, calm w -> calm (snd (run fs p w)).
Proof.
  induction p as [ok|k IH|k IH|k IH|p IH]; intros w Cm; cbn [run].
  - exact Cm.
  - destruct (exchange fs w) as [[r| |] w1] eqn:E; pose proof (exchange_calm _ _ _ _ Cm E) as C1; [apply IH, C1|exact C1|exact C1].
  - destruct (check fs w) as [[r| |] w1] eqn:E; pose proof (proj1 (check_spec _ _ _ _ Cm E)) as C1; [apply IH, C1|exact C1|exact C1].
  - apply IH, Cm.
  - apply IH. destruct Cm as [I St]. split; [|exact St]. apply (inv_quiet w); [split; reflexivity|exact I].
Qed.
Lemma op_calm fs o w : calm w -> calm (snd (do_op fs o w)).
Proof.
  intro Cm. destruct o as [| |on|p]; cbn [do_op].
  - destruct (connect fs w) as [r w'] eqn:E. apply (connect_spec _ _ _ _ Cm E).
  - destruct (disconnect fs w) as [r w'] eqn:E. pose proof (disconnect_spec _ _ _ _ (proj1 Cm) (calm_statuses _ Cm) E) as (A & K & La & Cn & N & T & I' & X).
    split; [exact I'|]. destruct r as [b| |].
    + destruct X as (_ & _ & X). destruct (l_status w =? connected); [right; apply X|destruct X as [_ ->]; apply Cm].
    + contradiction.
    + destruct X as [_ ->]. apply Cm.
  - destruct Cm as [I St]. split; [|exact St]. apply (inv_quiet w); [split; reflexivity|exact I].
  - apply run_calm, Cm.
Qed.
Lemma after_calm fs os : forall w, calm w -> calm (after fs os w).
Proof. induction os as [|o os IH]; intros w Cm; [exact Cm|]. apply IH, op_calm, Cm. Qed.
Lemma life0_calm auto : calm (life0 auto).
Proof.
  split; [|right; reflexivity]. split; cbn [life0 l_log l_next l_conn l_status In last_dial].
  - intro k. split; [contradiction|lia].
  - contradiction.
  - contradiction.
  - reflexivity.
  - intros [X|X]; discriminate.
  - intro k. split; [intros [X _]; contradiction|intros [[X|X] _]; discriminate].
Qed.

(** ** Methods that never ask without a connection *)

(** What is known of the connection: connected; there is one, perhaps closed;
    perhaps none. *)
Inductive link := Up | Some_ | Unsure.
Fixpoint safe (known : bool) (l : link) (p : prog) : Prop :=
  match p with
  | Done _ => True
  | Ask k => l <> Unsure /\ safe known Some_ (k Lost) /\ safe known l (k Refused) /\ safe known l (k Fine)
  | Check k => safe known Up (k true) /\ (l <> Up -> safe known Unsure (k false))
  | Known k => safe known l (k known)
  | Learn p => safe true l p
  end.
Definition linked (l : link) (w : life) : Prop :=
  match l with Up => l_status w = connected | Some_ => l_conn w <> None | Unsure => True end.
Lemma run_safe fs p : forall l w, calm w -> l_locked w = false -> safe (l_known w) l p -> linked l w ->
  exists ok w', run fs p w = (Returns ok, w') /\ l_locked w' = false.
Proof.
  induction p as [ok|k IH|k IH|k IH|p IH]; intros l w Cm L Sf Lk; cbn [run safe] in *.
  - eauto.
  - destruct Sf as (Nu & S1 & S2 & S3).
    assert (Cn : l_conn w <> None). { destruct l; cbn in Lk; [apply (i_some _ (proj1 Cm)); auto|exact Lk|congruence]. }
    destruct (exchange fs w) as [r w1] eqn:E.
    pose proof (exchange_spec _ _ _ _ (proj1 Cm) (calm_statuses _ Cm) E) as (A & K & La & Co & N & T & I' & X). destruct r as [x| |].
    + destruct X as (_ & L1 & _ & Q & _ & X).
      assert (Y : x <> Lost -> linked l w1).
      { intro Nl. destruct Q as [Q|(Q & _)]; [|contradiction]. destruct l; cbn; [rewrite (q_status _ _ Q); exact Lk|rewrite Co; exact Lk|exact Logic.I]. }
      destruct x.
      * apply (IH Lost Some_ w1 (exchange_calm _ _ _ _ Cm E) L1); [rewrite K; exact S1|cbn; rewrite Co; exact Cn].
      * apply (IH Refused l w1 (exchange_calm _ _ _ _ Cm E) L1); [rewrite K; exact S2|apply Y; discriminate].
      * apply (IH Fine l w1 (exchange_calm _ _ _ _ Cm E) L1); [rewrite K; exact S3|apply Y; discriminate].
    + destruct X as (_ & X & _). contradiction.
    + destruct X as (X & _). congruence.
  - destruct (check fs w) as [r w1] eqn:E. pose proof (check_spec _ _ _ _ Cm E) as (C1 & A & K & T & X). destruct r as [b| |].
    + destruct X as (_ & L1 & X1 & _ & X3 & _). destruct b.
      * apply (IH true Up w1 C1 L1); [rewrite K; apply Sf|]. now apply X1.
      * apply (IH false Unsure w1 C1 L1); [rewrite K; apply Sf|exact Logic.I]. intros ->. destruct (X3 Lk). discriminate.
    + contradiction.
    + destruct X as (X & _). congruence.
  - exact (IH (l_known w) l w Cm L Sf Lk).
  - apply (IH l _).
    + destruct Cm as [I St]. split; [|exact St]. apply (inv_quiet w); [split; reflexivity|exact I].
    + exact L.
    + exact Sf.
    + destruct l; exact Lk.
Qed.
Lemma asks_safe n : forall known l, l <> Unsure -> safe known l (asks n).
Proof. induction n as [|n IH]; intros known l N; cbn; [exact I|]. auto. Qed.
Lemma iois_known n l p : safe true l p -> safe true l (iois n p).
Proof. intro H. induction n as [|n IH]; [exact H|exact IH]. Qed.
Lemma batches_known l : forall k, k <> Unsure -> safe true k (batches l).
Proof.
  induction l as [|[a b] l IH]; intros k N; [exact I|]. cbn [batches]. apply iois_known. cbn. auto.
Qed.
(** The one place a version is asked for, when connected. *)
Lemma new_ioi_safe known p : (forall kn l, l <> Unsure -> safe kn l p) -> safe known Up (new_ioi p).
Proof.
  intro H. destruct known; cbn; [apply H; discriminate|]. split; [|congruence]. split; [discriminate|]. repeat split; apply H; discriminate.
Qed.

(** ** With a controller that answers *)
Fixpoint ideal (known : bool) (p : prog) : bool :=
  match p with
  | Done ok => ok
  | Ask k => ideal known (k Fine)
  | Check k => ideal known (k true)
  | Known k => ideal known (k known)
  | Learn p => ideal true p
  end.
Lemma exchange_fine fs w k : l_locked w = false -> l_conn w = Some k -> ~ In (Closed k) (l_log w) -> f_reply (fs (l_clock w)) = Fine ->
  exchange fs w = (Returns Fine, tick (see w (Sent k))).
Proof.
  intros L C N F. unfold exchange, ask. rewrite L, C.
  destruct (is_closed w k) eqn:X; [exfalso; apply N; now apply is_closed_in|]. now rewrite F.
Qed.
Lemma connect_fine fs w : calm w -> l_locked w = false -> l_status w = disconnected -> answers_from fs (l_clock w) ->
  exists w', connect fs w = (Returns true, w').
Proof.
  intros [I _] L Sc G. unfold connect. rewrite L, Sc. change (start_connect disconnected) with (Some connecting). cbv iota zeta.
  change (l_clock (set_status w connecting)) with (l_clock w). rewrite (proj1 (G (l_clock w) (Nat.le_refl _))).
  change (l_next (set_status w connecting)) with (l_next w).
  set (w1 := tick (see _ _)).
  assert (N : ~ In (Closed (l_next w)) (l_log w)).
  { intro X. apply (i_closed _ I), (i_grant _ I) in X. lia. }
  assert (E1 : exchange fs w1 = (Returns Fine, tick (see w1 (Sent (l_next w))))).
  { apply exchange_fine; [exact L|reflexivity|subst w1; cbn; intros [X|X]; [discriminate|exact (N X)]|]. apply G. subst w1. cbn. lia. }
  rewrite E1. set (w2 := tick (see w1 _)).
  assert (E2 : exchange fs w2 = (Returns Fine, tick (see w2 (Sent (l_next w))))).
  { apply exchange_fine; [exact L|reflexivity|subst w2 w1; cbn; intros [X|[X|X]]; [discriminate|discriminate|exact (N X)]|]. apply G. subst w2 w1. cbn. lia. }
  unfold open_any, open_standard. rewrite E2. destruct (l_large w2); eauto.
Qed.
Lemma check_fine fs w : calm w -> l_locked w = false -> l_status w = connected \/ l_auto w = true -> answers_from fs (l_clock w) ->
  exists w', check fs w = (Returns true, w') /\ calm w' /\ l_locked w' = false /\ l_status w' = connected /\ l_known w' = l_known w /\ (l_clock w <= l_clock w')%nat.
Proof.
  intros Cm L Sa G. destruct (check fs w) as [r w'] eqn:E. pose proof (check_spec _ _ _ _ Cm E) as (C1 & A & K & T & X).
  assert (r = Returns true) as ->.
  { unfold check in E. rewrite L in E. destruct (Z.eqb_spec (l_status w) connected) as [Sc|Sc]; [congruence|].
    destruct Sa as [Sa|Sa]; [contradiction|]. rewrite Sa in E. destruct Cm as [I [St|St]]; [contradiction|].
    destruct (connect_fine fs w (conj I (or_intror St)) L St G) as [w2 E2]. congruence. }
  destruct X as (_ & L1 & X & _). exists w'. auto 10.
Qed.
Lemma run_fine fs p : forall w, calm w -> l_locked w = false -> l_status w = connected -> answers_from fs (l_clock w) ->
  exists w', run fs p w = (Returns (ideal (l_known w) p), w') /\ l_locked w' = false /\ l_status w' = connected.
Proof.
  induction p as [ok|k IH|k IH|k IH|p IH]; intros w Cm L Sc G; cbn [run ideal].
  - eauto.
  - destruct (l_conn w) as [j|] eqn:Cj; [|exfalso; apply (i_some _ (proj1 Cm)); auto].
    assert (N : ~ In (Closed j) (l_log w)) by (apply (i_live _ (proj1 Cm) j); auto).
    assert (E : exchange fs w = (Returns Fine, tick (see w (Sent j)))) by (apply exchange_fine; auto; apply G; lia).
    rewrite E. apply (IH Fine (tick (see w (Sent j)))); [exact (exchange_calm _ _ _ _ Cm E)|exact L|exact Sc|]. intros u Hu. apply G. cbn in Hu. lia.
  - destruct (check_fine fs w Cm L (or_introl Sc) G) as (w' & E & C1 & L1 & S1 & K1 & T1). rewrite E, <- K1. apply IH; auto.
    intros u Hu. apply G. lia.
  - exact (IH (l_known w) w Cm L Sc G).
  - apply (IH (Life (l_status w) (l_conn w) (l_next w) (l_large w) true (l_locked w) (l_auto w) (l_clock w) (l_log w))); [|exact L|exact Sc|exact G].
    destruct Cm as [I St]. split; [|exact St]. apply (inv_quiet w); [split; reflexivity|exact I].
Qed.
Lemma guarded_fine fs p w : calm w -> l_locked w = false -> l_auto w = true -> answers_from fs (l_clock w) ->
  exists w', run fs (guarded p) w = (Returns (ideal (l_known w) p), w') /\ l_locked w' = false /\ l_status w' = connected.
Proof.
  intros Cm L A G. unfold guarded. cbn [run]. destruct (check_fine fs w Cm L (or_intror A) G) as (w' & E & C1 & L1 & S1 & K1 & T1).
  rewrite E, <- K1. apply run_fine; auto. intros u Hu. apply G. lia.
Qed.
Lemma ideal_asks n : forall kn, ideal kn (asks n) = true.
Proof. induction n as [|n IH]; intro kn; [reflexivity|apply IH]. Qed.
Lemma ideal_iois n p : (forall kn, ideal kn p = true) -> forall kn, ideal kn (iois n p) = true.
Proof. intro H. induction n as [|n IH]; intro kn; [apply H|]. cbn. destruct kn; apply IH. Qed.
Lemma ideal_batches l : forall kn, ideal kn (batches l) = true.
Proof. induction l as [|[a b] l IH]; intro kn; [reflexivity|]. cbn [batches]. apply ideal_iois. intro kn'. apply IH. Qed.

(** ** After a panic *)
Lemma ask_locked fs w : l_locked w = true -> ask fs w = (Hangs, w).
Proof. intro L. unfold ask. now rewrite L. Qed.
Lemma exchange_locked fs w : l_locked w = true -> exchange fs w = (Hangs, w).
Proof. intro L. unfold exchange. now rewrite ask_locked. Qed.
Lemma check_locked fs w : l_locked w = true -> check fs w = (Hangs, w).
Proof. intro L. unfold check. now rewrite L. Qed.
Lemma op_locked fs o w : l_locked w = true -> l_locked (snd (do_op fs o w)) = true.
Proof.
  intro L. destruct o as [| |on|p]; cbn [do_op].
  - unfold connect. now rewrite L.
  - unfold disconnect. now rewrite L.
  - exact L.
  - revert w L. induction p as [ok|k IH|k IH|k IH|p IH]; intros w L; cbn [run].
    + exact L.
    + now rewrite exchange_locked.
    + now rewrite check_locked.
    + now apply IH.
    + now apply IH.
Qed.
Lemma after_locked fs os : forall w, l_locked w = true -> l_locked (after fs os w) = true.
Proof. induction os as [|o os IH]; intros w L; [exact L|]. apply IH, op_locked, L. Qed.
Lemma run_crash fs p : forall w, calm w -> fst (run fs p w) = Crashes -> l_locked (snd (run fs p w)) = true.
Proof.
  induction p as [ok|k IH|k IH|k IH|p IH]; intros w Cm H; cbn [run] in *.
  - discriminate.
  - destruct (exchange fs w) as [[x| |] w1] eqn:E; [apply IH; [exact (exchange_calm _ _ _ _ Cm E)|exact H]| |discriminate].
    pose proof (exchange_spec _ _ _ _ (proj1 Cm) (calm_statuses _ Cm) E) as (_ & _ & _ & _ & _ & _ & _ & X). apply X.
  - destruct (check fs w) as [[x| |] w1] eqn:E; pose proof (check_spec _ _ _ _ Cm E) as (C1 & _ & _ & _ & X); [apply IH; [exact C1|exact H]|contradiction|discriminate].
  - apply IH; assumption.
  - apply IH; [|exact H]. destruct Cm as [I St]. split; [|exact St]. apply (inv_quiet w); [split; reflexivity|exact I].
Qed.
Lemma op_returns_unlocked fs o w : calm w -> l_locked w = false -> returns (fst (do_op fs o w)) -> l_locked (snd (do_op fs o w)) = false.
Proof.
  intros Cm L [b H]. destruct o as [| |on|p]; cbn [do_op] in *.
  - destruct (connect fs w) as [r w'] eqn:E. cbn [fst] in H. subst r. apply (connect_spec _ _ _ _ Cm E).
  - destruct (disconnect fs w) as [r w'] eqn:E. cbn [fst] in H. subst r.
    pose proof (disconnect_spec _ _ _ _ (proj1 Cm) (calm_statuses _ Cm) E) as (_ & _ & _ & _ & _ & _ & _ & _ & X & _). exact X.
  - exact L.
  - revert w Cm L H. induction p as [ok|k IH|k IH|k IH|p IH]; intros w Cm L H; cbn [run] in *.
    + exact L.
    + destruct (exchange fs w) as [[x| |] w1] eqn:E; try discriminate. apply IH; [exact (exchange_calm _ _ _ _ Cm E)| |exact H].
      pose proof (exchange_spec _ _ _ _ (proj1 Cm) (calm_statuses _ Cm) E) as (_ & _ & _ & _ & _ & _ & _ & _ & X & _). exact X.
    + destruct (check fs w) as [[x| |] w1] eqn:E; try discriminate. pose proof (check_spec _ _ _ _ Cm E) as (C1 & _ & _ & _ & _ & X & _). now apply IH.
    + now apply IH.
    + apply IH; [|exact L|exact H]. destruct Cm as [I St]. split; [|exact St]. apply (inv_quiet w); [split; reflexivity|exact I].
Qed.
Lemma all_returned_unlocked fs os : forall w, calm w -> l_locked w = false -> all_returned fs os w -> l_locked (after fs os w) = false.
Proof.
  induction os as [|o os IH]; intros w Cm L H; [exact L|]. destruct H as [R H]. cbn [after]. apply IH; [apply op_calm, Cm| |exact H].
  now apply op_returns_unlocked.
Qed.
