(** * C131, C132, C133: sessions and connections under several goroutines *)
From Verif Require Import GoBase ConnModel CrewModel CrewSpec CrewProof.

(** Full statement of C131: every request a client sends names the session of the
    connection it is sent on, and an error ends only the connection it occurred on.
    Full statement of C132: no interleaving of calls makes one of them crash.  Both
    are false: the request is built before the mutex is taken, and by the time it is
    sent another goroutine may have reconnected, or have failed to
    ([C131_all_foreign], [C131_ended_refuted], [C132_crashes]). *)

Lemma base_run n ms : base (crew_run (crew0 n) ms).
Proof. induction ms as [|m ms IH] using rev_ind; [apply base0|]. rewrite crew_snoc. now apply base_step. Qed.
Lemma run_len n ms : length (c_acts (crew_run (crew0 n) ms)) = n.
Proof.
  induction ms as [|m ms IH] using rev_ind; [apply repeat_length|]. rewrite crew_snoc. rewrite <- IH at 2. generalize (crew_run (crew0 n) ms). intro w. unfold crew_step.
  destruct (nth_error (c_acts w) (m_who m)) as [[]|]; try reflexivity; try (cbn [to status_to logged c_acts]; apply set_nth_len);
    repeat (match goal with |- context [match ?x with _ => _ end] => destruct x end); try reflexivity; cbn [to status_to logged c_acts]; apply set_nth_len.
Qed.

(** The requests under way that are about to go out under a foreign session. *)
Definition stale (w : crew) (a : act) : bool :=
  match a with ABuild => negb (Nat.eqb (c_session w) (c_dialled w)) | ASend s => negb (Nat.eqb s (c_dialled w)) | _ => false end.
Definition b2n (b : bool) : nat := if b then 1 else 0.
Fixpoint count (p : act -> bool) (l : list act) : nat := match l with [] => 0 | a :: r => b2n (p a) + count p r end.
Lemma count_set p l t a b : nth_error l t = Some a -> (count p (ConnModel.set_nth t b l) + b2n (p a) = count p l + b2n (p b))%nat.
Proof. revert t. induction l as [|x l IH]; intros [|t] E; try discriminate; cbn in *; [injection E as ->; lia|]. specialize (IH t E). lia. Qed.
Lemma count_len p l t a : nth_error l t = Some a -> p a = false -> (S (count p l) <= length l)%nat.
Proof.
  assert (L : forall l, (count p l <= length l)%nat) by (clear; induction l as [|x l IH]; cbn; [lia|]; destruct (p x); cbn; lia).
  revert t. induction l as [|x l IH]; intros [|t] E N; try discriminate; cbn in *.
  - injection E as ->. rewrite N. cbn. specialize (L l). lia.
  - specialize (IH t E N). destruct (p x); cbn; lia.
Qed.
Lemma count_le p q l : (forall a, q a = true -> p a = true) -> (count q l <= count p l)%nat.
Proof. intro H. induction l as [|x l IH]; cbn; [lia|]. specialize (H x). destruct (q x), (p x); cbn; try lia; discriminate (H eq_refl). Qed.

Definition bound (n : nat) (w : crew) : Prop := (foreign (c_log w) + count (stale w) (c_acts w) <= (c_dialled w - 1) * (n - 1))%nat.
Lemma bound_step n w m : base w -> length (c_acts w) = n -> bound n w -> bound n (crew_step w m).
Proof.
  intros B Ln Bd. unfold crew_step. set (t := m_who m). destruct (nth_error (c_acts w) t) as [a|] eqn:Et; [|exact Bd].
  assert (Go : forall b, stale w b = false \/ stale w b = stale w a -> bound n (to t b w)).
  { intros b Sb. unfold bound in *. cbn [to c_log c_acts c_dialled]. change (stale (to t b w)) with (stale w).
    pose proof (count_set (stale w) _ t a b Et) as K. destruct Sb as [Sb|Sb]; rewrite Sb in K; [destruct (stale w a)|destruct (stale w a)]; cbn [b2n] in K; lia. }
  assert (St : forall st b, stale w b = false -> bound n (to t b (status_to st w))) by (intros st b Sb; exact (Go b (or_introl Sb))).
  pose proof (b_fits w B t a Et) as F. destruct a; cbn [fits] in F.
  - apply Go. left. now destruct (m_quit m).
  - destruct (c_status w =? connected) eqn:E; [|apply Go; now left]. apply Go. left. cbn [stale].
    assert (E' : c_status w = connected) by lia. destruct (b_up w B (or_introl E')) as (_ & -> & _). now rewrite Nat.eqb_refl.
  - destruct (start_connect (c_status w)); [now apply St|apply Go; now left].
  - destruct (m_dial m).
    + unfold bound in *. cbn [c_log c_acts c_dialled]. set (w' := Crew _ _ _ _ _ _ _).
      destruct (c_dialled w) as [|d] eqn:D.
      * assert (Z : forall l, (forall u a, nth_error l u = Some a -> early a = true) -> count (stale w') l = 0%nat).
        { clear. induction l as [|x l IH]; intro H; [reflexivity|]. cbn [count]. rewrite IH by (intros u a E; exact (H (S u) a E)). pose proof (H 0%nat x eq_refl) as Hx.
          destruct x; cbn in *; try discriminate; reflexivity. }
        pose proof (count_set (stale w') _ t ADial ARegister Et) as K. rewrite (Z (c_acts w) (b_zero w B D)) in K. cbn in K |- *. lia.
      * pose proof (count_len (stale w') _ t ARegister (set_nth_same _ _ ARegister _ Et) eq_refl) as K. rewrite set_nth_len, Ln in K.
        replace (S (S d) - 1)%nat with (S d) by lia. replace (S d - 1)%nat with d in Bd by lia. cbn [Nat.mul]. lia.
    + exact (Go AIdle (or_introl eq_refl)).
  - destruct F as [F1 F2]. destruct (m_answer m); [|now apply St]. rewrite F2. unfold bound in *. cbn [c_log c_acts c_dialled]. set (w' := Crew _ _ _ _ _ _ _).
    pose proof (count_set (stale w') _ t ARegister AOpen Et) as K. cbn [stale b2n] in K.
    assert (Le : (count (stale w') (c_acts w) <= count (stale w) (c_acts w))%nat); [|lia].
    apply count_le. intros [] H; cbn in *; try discriminate; [rewrite Nat.eqb_refl in H; discriminate|exact H].
  - destruct F as (F1 & F2 & F3). destruct (m_answer m); [|now apply St]. apply St. cbn [stale]. rewrite F3. now rewrite Nat.eqb_refl.
  - apply Go. now right.
  - destruct (c_conn w) as [c|] eqn:Cn; [destruct (c_open w)|].
    + apply (b_conn w B) in Cn. subst c. unfold bound in *. cbn [logged to c_log c_acts c_dialled foreign].
      set (b := if m_answer m then AIdle else ADrop (c_dialled w)). pose proof (count_set (stale w) _ t (ASend s) b Et) as K.
      replace (stale w b) with false in K by (unfold b; now destruct (m_answer m)). cbn [stale] in K.
      change (stale (logged (Sent (c_dialled w) s) (to t b w))) with (stale w).
      rewrite Nat.eqb_sym. destruct (Nat.eqb s (c_dialled w)); cbn [negb b2n] in K; lia.
    + apply Go. now left.
    + exact (Go AIdle (or_introl eq_refl)).
  - destruct (start_disconnect (c_status w)); [now apply St|apply Go; now left].
  - destruct (start_disconnect (c_status w)); [now apply St|apply Go; now left].
  - destruct (c_conn w); exact (Go AIdle (or_introl eq_refl)).
Qed.

(** Under a foreign session go at most as many requests for each reconnection as
    there are other goroutines. *)
Theorem C131_bounded_partial : forall n ms, let w := crew_run (crew0 n) ms in (foreign (c_log w) <= (c_dialled w - 1) * (n - 1))%nat.
Proof.
  intros n ms w. assert (Bd : bound n w); [|unfold bound in Bd; lia]. unfold w. clear w. induction ms as [|m ms IH] using rev_ind.
  - unfold bound. assert (Z : forall p, p AIdle = false -> count p (repeat AIdle n) = 0%nat) by (intros p E; induction n as [|k IHk]; cbn; [reflexivity|now rewrite E, IHk]).
    cbn [crew0 crew_run fold_left c_log c_acts c_dialled foreign]. rewrite Z by reflexivity. lia.
  - rewrite crew_snoc. apply bound_step; [apply base_run|apply run_len|exact IH].
Qed.
Print Assumptions C131_bounded_partial.

Lemma foreign_none l : foreign l = 0%nat -> own_session l.
Proof.
  induction l as [|[c s|c e|] l IH]; intros E c0 s0 I; cbn in *; [destruct I| | |].
  - destruct (Nat.eqb_spec c s) as [->|N]; [|discriminate]. destruct I as [X|I]; [congruence|now apply (IH E)].
  - destruct I as [X|I]; [discriminate|now apply (IH E)].
  - destruct I as [X|I]; [discriminate|now apply (IH E)].
Qed.

(** One goroutine on its own, whatever the network does. *)
Definition alone_ok (w : crew) : Prop := own_errors (c_log w) /\ no_crash (c_log w) /\
  forall t a, nth_error (c_acts w) t = Some a -> match a with ABuild | ASend _ => c_conn w <> None | ADrop c | AClose c => c = c_dialled w /\ c_conn w = Some c | _ => True end.
Lemma alone_step w m : base w -> length (c_acts w) = 1%nat -> alone_ok w -> alone_ok (crew_step w m).
Proof.
  intros B Ln (Oe & Nc & Fo). unfold crew_step. set (t := m_who m). destruct (nth_error (c_acts w) t) as [a|] eqn:Et; [|repeat split; assumption].
  assert (T0 : t = 0%nat) by (assert (t < 1)%nat by (rewrite <- Ln; apply nth_error_Some; congruence); lia).
  assert (One : forall b u x, nth_error (ConnModel.set_nth t b (c_acts w)) u = Some x -> x = b).
  { intros b u x E. apply set_nth_at in E as [[_ ->]|[N E]]; [reflexivity|]. exfalso. assert (u < 1)%nat by (rewrite <- Ln; apply nth_error_Some; congruence). lia. }
  pose proof (Fo t a Et) as Fa. pose proof (b_fits w B t a Et) as F. clear Fo.
  assert (Go : forall w' b, c_acts w' = ConnModel.set_nth t b (c_acts w) -> own_errors (c_log w') -> no_crash (c_log w') ->
    match b with ABuild | ASend _ => c_conn w' <> None | ADrop c | AClose c => c = c_dialled w' /\ c_conn w' = Some c | _ => True end -> alone_ok w').
  { intros w' b Ea O1 N1 M. split; [exact O1|]. split; [exact N1|]. intros u x E. rewrite Ea in E. now rewrite (One b u x E). }
  destruct a; cbn [fits] in F.
  - destruct (m_quit m); (eapply Go; [reflexivity|assumption|assumption|exact Logic.I]).
  - destruct (c_status w =? connected) eqn:E; [|eapply Go; [reflexivity|assumption|assumption|exact Logic.I]]. eapply Go; [reflexivity|assumption|assumption|].
    assert (E' : c_status w = connected) by lia. destruct (b_up w B (or_introl E')) as (Cn & _ & _). cbn [to c_conn]. now rewrite Cn.
  - destruct (start_connect (c_status w)); (eapply Go; [reflexivity|assumption|assumption|exact Logic.I]).
  - destruct (m_dial m); (eapply Go; [reflexivity|assumption|assumption|exact Logic.I]).
  - destruct (m_answer m); (eapply Go; [reflexivity|assumption|assumption|exact Logic.I]).
  - destruct (m_answer m); (eapply Go; [reflexivity|assumption|assumption|]); [|exact Logic.I]. destruct F as (_ & Cn & _). cbn [to status_to c_conn]. now rewrite Cn.
  - eapply Go; [reflexivity|assumption|assumption|exact Fa].
  - destruct (c_conn w) as [c|] eqn:Cn; [|now elim Fa]. pose proof (b_conn w B c Cn) as Ec. destruct (c_open w).
    + eapply Go; [reflexivity|intros c0 e [X|I]; [discriminate|now apply Oe]|intros [X|I]; [discriminate|now apply Nc]|]. destruct (m_answer m); [exact Logic.I|now split].
    + eapply Go; [reflexivity|assumption|assumption|now split].
  - destruct Fa as [Ec Cn]. destruct (start_disconnect (c_status w)); (eapply Go; [reflexivity|assumption|assumption|]); [now split|exact Logic.I].
  - destruct (start_disconnect (c_status w)) as [st|] eqn:Sd; (eapply Go; [reflexivity|assumption|assumption|]); [|exact Logic.I].
    apply (start_disconnect_only w st B) in Sd as [St ->]. destruct (b_up w B (or_introl St)) as (U1 & _ & _). cbn [to status_to c_conn c_dialled]. rewrite U1. now split.
  - destruct Fa as [Ec Cn]. rewrite Cn. eapply Go; [reflexivity|intros c0 e [X|I]; [congruence|now apply Oe]|intros [X|I]; [discriminate|now apply Nc]|exact Logic.I].
Qed.
Theorem C131_alone : forall ms, let w := crew_run (crew0 1) ms in own_session (c_log w) /\ own_errors (c_log w) /\ no_crash (c_log w).
Proof.
  intros ms w. split; [apply foreign_none; pose proof (C131_bounded_partial 1 ms) as K; cbv zeta in K; rewrite Nat.mul_0_r in K; unfold w; lia|].
  assert (A : alone_ok w); [|destruct A as (A1 & A2 & _); split; assumption]. unfold w. clear w. induction ms as [|m ms IH] using rev_ind.
  - split; [intros c e []|]. split; [intros []|]. intros t a E. destruct t as [|t]; cbn in E; [injection E as <-; exact Logic.I|destruct t; discriminate].
  - rewrite crew_snoc. apply alone_step; [apply base_run|apply run_len|exact IH].
Qed.
Print Assumptions C131_alone.

(** Several goroutines as long as every dial works, whatever else fails. *)
Theorem C132_dials_partial : forall n ms, dials_work ms -> no_crash (c_log (crew_run (crew0 n) ms)).
Proof.
  intros n ms A. assert (K : no_crash (c_log (crew_run (crew0 n) ms)) /\ (c_conn (crew_run (crew0 n) ms) = None -> c_dialled (crew_run (crew0 n) ms) = 0%nat)); [|apply K].
  induction ms as [|m ms IH] using rev_ind; [split; [intros []|reflexivity]|]. apply Forall_app in A as [A1 A2]. inversion A2 as [|? ? Md _]; subst. specialize (IH A1).
  rewrite crew_snoc. pose proof (base_run n ms) as B. set (w := crew_run (crew0 n) ms) in *. clearbody w. destruct IH as [Nc Z]. unfold crew_step. set (t := m_who m).
  rewrite Md. destruct (nth_error (c_acts w) t) as [a|] eqn:Et; [|split; assumption]. destruct a; try (split; assumption).
  - now destruct (start_connect (c_status w)).
  - split; [exact Nc|discriminate].
  - now destruct (m_answer m).
  - now destruct (m_answer m).
  - pose proof (late w t _ B Et eq_refl) as D. destruct (c_conn w) as [c|] eqn:Cn; [|now elim D; apply Z]. destruct (c_open w); (split; [|cbn [logged to c_conn]; rewrite Cn; discriminate]); [|exact Nc].
    intros [X|I]; [discriminate|exact (Nc I)].
  - now destruct (start_disconnect (c_status w)).
  - now destruct (start_disconnect (c_status w)).
  - pose proof (late w t _ B Et eq_refl) as D. destruct (c_conn w) as [c'|] eqn:Cn; [|now elim D; apply Z]. split; [|discriminate]. intros [X|I]; [discriminate|exact (Nc I)].
Qed.
Print Assumptions C132_dials_partial.

(** Several goroutines while network and controller do their part. *)
Definition well (w : crew) : Prop := (forall c e, ~ In (Ended c e) (c_log w)) /\
  (forall t a, nth_error (c_acts w) t = Some a -> match a with ADrop _ | AQuit | AClose _ => False | ADial => c_dialled w = 0%nat | _ => True end) /\
  (c_dialled w = 0%nat /\ (c_status w = disconnected \/ c_status w = connecting) \/ c_dialled w = 1%nat /\ c_open w = true /\ (c_status w = connecting \/ c_status w = connected)).
Lemma well_step w m : base w -> m_dial m = true -> m_answer m = true -> m_quit m = false -> well w -> well (crew_step w m).
Proof.
  intros B Md Ma Mq W. pose proof W as (Ne & Fo & Ph). unfold crew_step. rewrite Md, Ma, Mq. set (t := m_who m). destruct (nth_error (c_acts w) t) as [a|] eqn:Et; [|exact W].
  pose proof (Fo t a Et) as Fa. pose proof (b_fits w B t a Et) as F.
  assert (Go : forall b, match b with ADrop _ | AQuit | AClose _ => False | ADial => c_dialled w = 0%nat | _ => True end -> well (to t b w)).
  { intros b M. split; [exact Ne|]. split; [|exact Ph]. intros u x E. apply set_nth_at in E as [[-> ->]|[N E]]; [exact M|exact (Fo u x E)]. }
  destruct a; cbn [fits] in F; try contradiction.
  - apply Go. exact Logic.I.
  - apply Go. now destruct (c_status w =? connected).
  - destruct (start_connect (c_status w)) as [st|] eqn:Sc; [|now apply Go]. apply start_connect_only in Sc as [St ->].
    assert (D : c_dialled w = 0%nat) by (destruct Ph as [[D _]|(_ & _ & [E|E])]; [exact D|rewrite St in E; discriminate|rewrite St in E; discriminate]).
    split; [exact Ne|]. split; [|left; split; [exact D|now right]]. intros u x E. apply set_nth_at in E as [[-> ->]|[N E]]; [exact D|exact (Fo u x E)].
  - split; [exact Ne|]. split.
    + intros u x E. apply set_nth_at in E as [[-> ->]|[N E]]; [exact Logic.I|]. pose proof (Fo u x E) as Fx. destruct x; try exact Fx.
      exfalso. apply N. apply (b_one w B u t ADial ADial E Et); reflexivity.
    + right. cbn [c_dialled c_open c_status]. rewrite Fa. repeat split. now left.
  - destruct F as [St _]. pose proof (late w t _ B Et eq_refl) as D. split; [exact Ne|]. split.
    + intros u x E. apply set_nth_at in E as [[-> ->]|[N E]]; [exact Logic.I|exact (Fo u x E)].
    + right. destruct Ph as [[Z _]|(D1 & O & _)]; [contradiction|]. repeat split; [exact D1|exact O|now left].
  - destruct F as (St & _ & _). pose proof (late w t _ B Et eq_refl) as D. split; [exact Ne|]. split.
    + intros u x E. apply set_nth_at in E as [[-> ->]|[N E]]; [exact Logic.I|exact (Fo u x E)].
    + right. destruct Ph as [[Z _]|(D1 & O & _)]; [contradiction|]. repeat split; [exact D1|exact O|now right].
  - apply Go. exact Logic.I.
  - pose proof (late w t _ B Et eq_refl) as D. destruct Ph as [[Z _]|(D1 & O & Sx)]; [contradiction|]. rewrite O.
    destruct (c_conn w) as [c|]; (split; [intros c0 e [X|I]; [discriminate|exact (Ne _ _ I)]|apply Go; exact Logic.I]).
Qed.
Theorem C131_works_partial : forall n ms, works ms -> let w := crew_run (crew0 n) ms in own_session (c_log w) /\ own_errors (c_log w) /\ no_crash (c_log w).
Proof.
  intros n ms A w. assert (W : well w).
  { unfold w. clear w. induction ms as [|m ms IH] using rev_ind.
    - split; [intros c e []|]. split; [|left; split; [reflexivity|now left]]. intros t a E. apply nth_error_In, repeat_spec in E. subst a. exact Logic.I.
    - apply Forall_app in A as [A1 A2]. inversion A2 as [|? ? (Md & Ma & Mq) _]; subst. rewrite crew_snoc. apply well_step; [apply base_run|exact Md|exact Ma|exact Mq|exact (IH A1)]. }
  destruct W as (Ne & _ & Ph). split; [|split].
  - apply foreign_none. pose proof (C131_bounded_partial n ms) as K. cbv zeta in K. fold w in K.
    replace (c_dialled w - 1)%nat with 0%nat in K by (destruct Ph as [[D _]|[D _]]; lia). cbn in K. lia.
  - intros c e I. now elim (Ne c e).
  - apply C132_dials_partial. unfold dials_work, works in *. eapply Forall_impl; [|exact A]. tauto.
Qed.
Print Assumptions C131_works_partial.

(** A goroutine goes on with everything working. *)
Definition go (t : nat) : move := Move t true true false.
(** It connects and holds a request, built and not yet sent. *)
Definition held (t : nat) : list move := [go t; go t; go t].
Definition all_held (n : nat) : list move := concat (map held (seq 1 n)).
(** Goroutine 0 connects; the others build requests; its own request fails, it
    disconnects and connects again, or fails to. *)
Definition first : list move := [go 0; go 0; go 0; go 0; go 0; go 0].
Definition fails_and_reconnects : list move := [go 0; Move 0 true false false; go 0; go 0; go 0; go 0; go 0; go 0; go 0; go 0].
Definition fails_and_cannot : list move := [go 0; Move 0 true false false; go 0; go 0; go 0; go 0; go 0; Move 0 false true false].
Definition sends_all (n : nat) : list move := map go (seq 1 n).

Lemma nth_mid {A} (l1 l2 : list A) x : nth_error (l1 ++ x :: l2) (length l1) = Some x.
Proof. induction l1; [reflexivity|exact IHl1]. Qed.
Lemma set_mid {A} (l1 l2 : list A) x y : ConnModel.set_nth (length l1) y (l1 ++ x :: l2) = l1 ++ y :: l2.
Proof. induction l1; cbn; [reflexivity|now rewrite IHl1]. Qed.
Ltac at_mid E := unfold crew_step, go, to, logged; cbv zeta; cbn [m_who m_answer m_dial c_status c_acts c_conn c_open c_session c_dialled c_log]; rewrite E; change (connected =? connected) with true; cbv iota.
Lemma mid_held cn op ss dl l1 l2 lg : crew_run (Crew connected cn op ss dl (l1 ++ AIdle :: l2) lg) (held (length l1)) = Crew connected cn op ss dl (l1 ++ ASend ss :: l2) lg.
Proof.
  unfold held, crew_run. cbn [fold_left]. 
  assert (E1 : crew_step (Crew connected cn op ss dl (l1 ++ AIdle :: l2) lg) (go (length l1)) = Crew connected cn op ss dl (l1 ++ ALook :: l2) lg) by (at_mid (nth_mid l1 l2 AIdle); now rewrite set_mid).
  assert (E2 : crew_step (Crew connected cn op ss dl (l1 ++ ALook :: l2) lg) (go (length l1)) = Crew connected cn op ss dl (l1 ++ ABuild :: l2) lg) by (at_mid (nth_mid l1 l2 ALook); now rewrite set_mid).
  assert (E3 : crew_step (Crew connected cn op ss dl (l1 ++ ABuild :: l2) lg) (go (length l1)) = Crew connected cn op ss dl (l1 ++ ASend ss :: l2) lg) by (at_mid (nth_mid l1 l2 ABuild); now rewrite set_mid).
  now rewrite E1, E2, E3.
Qed.
Lemma run_app w a b : crew_run w (a ++ b) = crew_run (crew_run w a) b.
Proof. apply fold_left_app. Qed.
Lemma many_held cn op ss dl a n j k lg : crew_run (Crew connected cn op ss dl (a :: repeat (ASend ss) j ++ repeat AIdle (n + k)) lg) (concat (map held (seq (S j) n))) =
  Crew connected cn op ss dl (a :: repeat (ASend ss) (j + n) ++ repeat AIdle k) lg.
Proof.
  revert j. induction n as [|n IH]; intro j; [now rewrite Nat.add_0_r|]. cbn [seq map concat]. rewrite run_app. cbn [plus repeat].
  pose proof (mid_held cn op ss dl (a :: repeat (ASend ss) j) (repeat AIdle (n + k)) lg) as E. cbn [length app] in E. rewrite repeat_length in E. rewrite E.
  replace (repeat (ASend ss) j ++ ASend ss :: repeat AIdle (n + k)) with (repeat (ASend ss) (S j) ++ repeat AIdle (n + k)).
  - rewrite (IH (S j)). now replace (S j + n)%nat with (j + S n)%nat by lia.
  - change (ASend ss :: repeat AIdle (n + k)) with ([ASend ss] ++ repeat AIdle (n + k)). rewrite app_assoc. f_equal. apply repeat_cons.
Qed.
Lemma mid_sends st c ss dl l1 l2 s lg : crew_step (Crew st (Some c) true ss dl (l1 ++ ASend s :: l2) lg) (go (length l1)) = Crew st (Some c) true ss dl (l1 ++ AIdle :: l2) (Sent c s :: lg).
Proof. at_mid (nth_mid l1 l2 (ASend s)). now rewrite set_mid. Qed.
Lemma many_sends st c ss dl a s n j lg : crew_run (Crew st (Some c) true ss dl (a :: repeat AIdle j ++ repeat (ASend s) n) lg) (map go (seq (S j) n)) =
  Crew st (Some c) true ss dl (a :: repeat AIdle (j + n)) (repeat (Sent c s) n ++ lg).
Proof.
  revert j lg. induction n as [|n IH]; intros j lg; [cbn [repeat seq map app]; now rewrite app_nil_r, Nat.add_0_r|]. cbn [seq map]. unfold crew_run. cbn [fold_left].
  pose proof (mid_sends st c ss dl (a :: repeat AIdle j) (repeat (ASend s) n) s lg) as E. cbn [length app] in E. rewrite repeat_length in E. cbn [repeat]. rewrite E.
  replace (repeat AIdle j ++ AIdle :: repeat (ASend s) n) with (repeat AIdle (S j) ++ repeat (ASend s) n).
  - specialize (IH (S j) (Sent c s :: lg)). unfold crew_run in IH. rewrite IH. replace (j + S n)%nat with (S j + n)%nat by lia. f_equal. clear. induction n as [|n IH]; [reflexivity|]. cbn [repeat app]. now rewrite IH.
  - change (AIdle :: repeat (ASend s) n) with ([AIdle] ++ repeat (ASend s) n). rewrite app_assoc. f_equal. apply repeat_cons.
Qed.
Lemma after_first n : crew_run (crew0 (S n)) (first ++ all_held n) = Crew connected (Some 1%nat) true 1 1 (ABuild :: repeat (ASend 1) n) [].
Proof.
  rewrite run_app. change (crew_run (crew0 (S n)) first) with (Crew connected (Some 1%nat) true 1 1 (ABuild :: repeat AIdle n) []).
  pose proof (many_held (Some 1%nat) true 1 1 ABuild n 0 0 []) as E. cbn [repeat app plus] in E. rewrite Nat.add_0_r, app_nil_r in E. exact E.
Qed.

(** One reconnection, and the requests of all other goroutines go out under the
    session that is gone: the bound is reached. *)
Theorem C131_all_foreign : forall n, exists ms, dials_work ms /\ let w := crew_run (crew0 (S n)) ms in foreign (c_log w) = n /\ c_dialled w = 2%nat.
Proof.
  intro n. exists ((first ++ all_held n) ++ fails_and_reconnects ++ sends_all n). split.
  - unfold dials_work. rewrite !Forall_app. assert (G : forall l, Forall (fun m => m_dial m = true) (map go l)) by (intro l; apply Forall_map, Forall_forall; reflexivity).
    split; [split; [repeat constructor|]|split; [repeat constructor|apply G]]. apply Forall_concat, Forall_map, Forall_forall. intros t _. repeat constructor.
  - cbv zeta. rewrite run_app, after_first, run_app.
    change (crew_run _ fails_and_reconnects) with (Crew connected (Some 2%nat) true 2 2 (ABuild :: repeat (ASend 1) n) [Ended 1 1; Sent 1 1]).
    unfold sends_all. pose proof (many_sends connected 2 2 2 ABuild 1 n 0 [Ended 1 1; Sent 1 1]) as E. cbn [repeat app] in E. rewrite E. cbn [c_log c_dialled]. split; [|reflexivity].
    clear. induction n as [|n IH]; [reflexivity|]. cbn [repeat app foreign]. change (Nat.eqb 2 1) with false. cbv iota. now rewrite IH.
Qed.
Print Assumptions C131_all_foreign.
Theorem C131_session_refuted : exists n ms, ~ own_session (c_log (crew_run (crew0 n) ms)).
Proof. exists 2%nat, ((first ++ all_held 1) ++ fails_and_reconnects ++ sends_all 1). intro H. specialize (H 2%nat 1%nat). assert (X : 2%nat = 1%nat) by (apply H; vm_compute; now left). discriminate X. Qed.
Print Assumptions C131_session_refuted.
(** Two requests fail on one connection; the second goroutine's Disconnect comes
    when the first has reconnected and ends the new connection. *)
Theorem C131_ended_refuted : exists n ms, dials_work ms /\ ~ own_errors (c_log (crew_run (crew0 n) ms)).
Proof.
  exists 2%nat, (first ++ [go 0; go 1; go 1; go 1; Move 0 true false false; Move 1 true false false] ++ [go 0; go 0; go 0; go 0; go 0; go 0; go 0; go 0] ++ [go 1; go 1]).
  split; [repeat constructor|]. intro H. specialize (H 2%nat 1%nat). assert (X : 2%nat = 1%nat) by (apply H; vm_compute; now left). discriminate X.
Qed.
Print Assumptions C131_ended_refuted.
(** Nothing fails, but one goroutine calls Disconnect and then reads again. *)
Theorem C131_quit_refuted : exists n ms, Forall (fun m => m_dial m = true /\ m_answer m = true) ms /\ ~ own_session (c_log (crew_run (crew0 n) ms)).
Proof.
  exists 2%nat, ((first ++ all_held 1) ++ [go 0; go 0; Move 0 true true true; go 0; go 0; go 0; go 0; go 0; go 0; go 0; go 0; go 1]). split; [repeat constructor|].
  intro H. specialize (H 2%nat 1%nat). assert (X : 2%nat = 1%nat) by (apply H; vm_compute; now left). discriminate X.
Qed.
Print Assumptions C131_quit_refuted.
(** With two goroutines or more, a failing reconnection crashes the other's call. *)
Theorem C132_crashes : forall n, exists ms, ~ no_crash (c_log (crew_run (crew0 (S (S n))) ms)).
Proof.
  intro n. exists ((first ++ all_held (S n)) ++ fails_and_cannot ++ [go 1]). intro H. apply H. rewrite run_app, after_first, run_app.
  change (crew_run _ fails_and_cannot) with (Crew disconnected None false 1 1 (AIdle :: repeat (ASend 1) (S n)) [Ended 1 1; Sent 1 1]). now left.
Qed.
Print Assumptions C132_crashes.
Theorem C132_refuted : exists n ms, ~ no_crash (c_log (crew_run (crew0 n) ms)).
Proof. destruct (C132_crashes 0) as [ms H]. now exists 2%nat, ms. Qed.
Print Assumptions C132_refuted.

(** Two goroutines: the second's request, built before, is sent on the second
    connection and names the first one's session. *)
Example ex_C131 : c_log (crew_run (crew0 2) ((first ++ all_held 1) ++ fails_and_reconnects ++ sends_all 1)) = [Sent 2 1; Ended 1 1; Sent 1 1].
Proof. reflexivity. Qed.
Example ex_C131_works : works (first ++ all_held 1 ++ [go 0; go 1; go 0]) /\ c_log (crew_run (crew0 2) (first ++ all_held 1 ++ [go 0; go 1; go 0])) = [Sent 1 1; Sent 1 1].
Proof. split; [repeat constructor|reflexivity]. Qed.
(** One goroutine reconnecting. *)
Example ex_C131_alone : c_log (crew_run (crew0 1) (first ++ fails_and_reconnects ++ [go 0; go 0])) = [Sent 2 2; Ended 1 1; Sent 1 1].
Proof. reflexivity. Qed.
Example ex_C132 : dials_work ((first ++ all_held 1) ++ fails_and_reconnects ++ sends_all 1).
Proof. repeat constructor. Qed.

(** ** C133: a connection that was ended stays ended *)
Definition ends_ok (w : crew) : Prop := ended_for_good (c_log w) /\
  (forall c e, In (Ended c e) (c_log w) -> (c <= c_dialled w)%nat /\ (c = c_dialled w -> c_open w = false)) /\
  (c_status w = connected \/ c_status w = disconnecting -> c_open w = true) /\
  (forall t a, nth_error (c_acts w) t = Some a -> match a with ARegister | AOpen => c_open w = true | _ => True end).
Lemma ends_step w m : base w -> ends_ok w -> ends_ok (crew_step w m).
Proof.
  intros B W. pose proof W as (Eg & En & Op & Fo). unfold crew_step. set (t := m_who m). destruct (nth_error (c_acts w) t) as [a|] eqn:Et; [|exact W].
  pose proof (Fo t a Et) as Fa. pose proof (b_fits w B t a Et) as F.
  assert (Go : forall b, match b with ARegister | AOpen => c_open w = true | _ => True end -> ends_ok (to t b w)).
  { intros b M. split; [exact Eg|]. split; [exact En|]. split; [exact Op|]. intros u x E. apply set_nth_at in E as [[-> ->]|[N E]]; [exact M|exact (Fo u x E)]. }
  assert (St : forall st b, match b with ARegister | AOpen => c_open w = true | _ => True end -> (st = connected \/ st = disconnecting -> c_open w = true) -> ends_ok (to t b (status_to st w))).
  { intros st b M O. split; [exact Eg|]. split; [exact En|]. split; [exact O|]. intros u x E. apply set_nth_at in E as [[-> ->]|[N E]]; [exact M|exact (Fo u x E)]. }
  assert (Down : disconnected = connected \/ disconnected = disconnecting -> c_open w = true) by (now intros [E|E]).
  destruct a; cbn [fits] in F.
  - apply Go. now destruct (m_quit m).
  - apply Go. now destruct (c_status w =? connected).
  - destruct (start_connect (c_status w)) as [st|] eqn:Sc; [|now apply Go]. apply start_connect_only in Sc as [_ ->]. apply St; [exact Logic.I|now intros [E|E]].
  - destruct (m_dial m).
    + split; [exact Eg|]. cbn [c_log c_dialled c_open c_status c_acts]. split; [intros c e I; destruct (En c e I); lia|]. split; [reflexivity|].
      intros u x _. now destruct x.
    + split; [exact Eg|]. cbn [c_log c_dialled c_open c_status c_acts]. split; [intros c e I; destruct (En c e I); split; [assumption|reflexivity]|]. split; [now intros [E|E]|].
      intros u x E. apply set_nth_at in E as [[-> ->]|[N E]]; [exact Logic.I|]. destruct x; try exact Logic.I;
        (exfalso; apply N; eapply (b_one w B u t); [exact E|exact Et|reflexivity|reflexivity]).
  - destruct (m_answer m); [|now apply St]. split; [exact Eg|]. split; [exact En|]. split; [exact Op|]. intros u x E. apply set_nth_at in E as [[-> ->]|[N E]]; [exact Fa|exact (Fo u x E)].
  - destruct (m_answer m); [|now apply St]. apply St; [exact Logic.I|]. intros _. exact Fa.
  - now apply Go.
  - destruct (c_conn w) as [c|] eqn:Cn; [destruct (c_open w) eqn:O|].
    + pose proof (b_conn w B c Cn) as Ec. assert (K : ends_ok (to t (if m_answer m then AIdle else ADrop c) w)) by (apply Go; now destruct (m_answer m)).
      destruct K as (K1 & K2 & K3 & K4). split; [|split; [|split; [exact K3|exact K4]]].
      * split; [|exact Eg]. intros e I. destruct (En c e I) as [_ X]. specialize (X Ec). congruence.
      * intros c0 e [X|I]; [discriminate|exact (K2 c0 e I)].
    + now apply Go.
    + destruct (Go AIdle Logic.I) as (K1 & K2 & K3 & K4). split; [split; [exact Logic.I|exact K1]|]. split; [|split; assumption]. intros c0 e [X|I]; [discriminate|exact (K2 c0 e I)].
  - destruct (start_disconnect (c_status w)) as [st|] eqn:Sd; [|now apply Go]. apply (start_disconnect_only w st B) in Sd as [S1 ->]. apply St; [exact Logic.I|]. intros _. apply Op. now left.
  - destruct (start_disconnect (c_status w)) as [st|] eqn:Sd; [|now apply Go]. apply (start_disconnect_only w st B) in Sd as [S1 ->]. apply St; [exact Logic.I|]. intros _. apply Op. now left.
  - pose proof (Op (or_intror F)) as O. destruct (b_up w B (or_intror F)) as (U1 & _ & _). rewrite U1. split; [|split; [|split]]; cbn [logged c_log c_dialled c_open c_status c_acts].
    + split; [|exact Eg]. intros e I. destruct (En _ e I) as [_ X]. specialize (X eq_refl). congruence.
    + intros c0 e [X|I]; [injection X as <- <-; split; [lia|reflexivity]|]. destruct (En c0 e I). split; [assumption|reflexivity].
    + now intros [E|E].
    + intros u x E. apply set_nth_at in E as [[-> ->]|[N E]]; [exact Logic.I|]. destruct x; try exact Logic.I;
        (exfalso; apply N; eapply (b_one w B u t); [exact E|exact Et|reflexivity|reflexivity]).
Qed.
(** Whatever goroutines do and whatever fails: on a connection that Disconnect has
    ended nothing is sent, and no Disconnect ends it again. *)
Theorem C133_ended : forall n ms, ended_for_good (c_log (crew_run (crew0 n) ms)).
Proof.
  intros n ms. assert (K : ends_ok (crew_run (crew0 n) ms)); [|apply K]. induction ms as [|m ms IH] using rev_ind.
  - split; [exact Logic.I|]. split; [intros c e []|]. split; [now intros [E|E]|]. intros t a E. apply nth_error_In, repeat_spec in E. now subst a.
  - rewrite crew_snoc. apply ends_step; [apply base_run|exact IH].
Qed.
Print Assumptions C133_ended.
(** A request waits while the program disconnects: it is not sent, and its own
    Disconnect does nothing. *)
Example ex_C133 : c_log (crew_run (crew0 2) (first ++ all_held 1 ++ [go 0; go 0; Move 0 true true true; go 0; go 0; go 1; go 1])) = [Ended 1 1; Sent 1 1].
Proof. reflexivity. Qed.
