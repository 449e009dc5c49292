(** * Lemmas about goroutines, sessions and connections *)
From Verif Require Import GoBase ConnModel CrewModel CrewSpec.

Lemma set_nth_at {A} (l : list A) t x u a : nth_error (ConnModel.set_nth t x l) u = Some a -> (u = t /\ a = x) \/ (u <> t /\ nth_error l u = Some a).
Proof.
  revert t u. induction l as [|y l IH]; intros [|t] [|u] E; cbn in *; try discriminate.
  - injection E as <-. now left.
  - right. split; [congruence|exact E].
  - right. split; [congruence|exact E].
  - destruct (IH _ _ E) as [[-> ->]|[N E']]; [now left|right; split; [congruence|exact E']].
Qed.
Lemma set_nth_len {A} (l : list A) t x : length (ConnModel.set_nth t x l) = length l.
Proof. revert t. induction l as [|y l IH]; intros [|t]; cbn; try reflexivity. now rewrite IH. Qed.
Lemma set_nth_same {A} (l : list A) t x y : nth_error l t = Some y -> nth_error (ConnModel.set_nth t x l) t = Some x.
Proof. revert t. induction l as [|a l IH]; intros [|t] E; try discriminate; cbn in *; [reflexivity|now apply IH]. Qed.
Lemma set_nth_other {A} (l : list A) t u x : u <> t -> nth_error (ConnModel.set_nth t x l) u = nth_error l u.
Proof. revert t u. induction l as [|a l IH]; intros [|t] [|u] N; cbn; try reflexivity; [congruence|]. apply IH. congruence. Qed.
Lemma crew_snoc w ms m : crew_run w (ms ++ [m]) = crew_step (crew_run w ms) m.
Proof. unfold crew_run. now rewrite fold_left_app. Qed.

(** What holds whatever happens. *)
Definition busy (a : act) : bool := match a with ADial | ARegister | AOpen | AClose _ => true | _ => false end.
Definition early (a : act) : bool := match a with AIdle | ALook | AEnter | ADial | AQuit => true | _ => false end.
Definition fits (w : crew) (a : act) : Prop :=
  match a with
  | ADial => c_status w = connecting
  | ARegister => c_status w = connecting /\ c_conn w = Some (c_dialled w)
  | AOpen => c_status w = connecting /\ c_conn w = Some (c_dialled w) /\ c_session w = c_dialled w
  | AClose _ => c_status w = disconnecting
  | _ => True
  end.
Record base (w : crew) : Prop := {
  b_conn : forall c, c_conn w = Some c -> c = c_dialled w;
  b_four : c_status w = disconnected \/ c_status w = connecting \/ c_status w = connected \/ c_status w = disconnecting;
  b_up : c_status w = connected \/ c_status w = disconnecting -> c_conn w = Some (c_dialled w) /\ c_session w = c_dialled w /\ c_dialled w <> 0%nat;
  b_fits : forall t a, nth_error (c_acts w) t = Some a -> fits w a;
  b_one : forall t u a b, nth_error (c_acts w) t = Some a -> nth_error (c_acts w) u = Some b -> busy a = true -> busy b = true -> t = u;
  b_zero : c_dialled w = 0%nat -> forall t a, nth_error (c_acts w) t = Some a -> early a = true }.

Lemma base0 n : base (crew0 n).
Proof.
  assert (Al : forall t a, nth_error (repeat AIdle n) t = Some a -> a = AIdle) by (intros t a E; apply nth_error_In in E; now apply repeat_spec in E).
  split; cbn.
  - discriminate.
  - now left.
  - now intros [E|E].
  - intros t a E. now rewrite (Al _ _ E).
  - intros t u a b E. now rewrite (Al _ _ E).
  - intros _ t a E. now rewrite (Al _ _ E).
Qed.

(** A busy goroutine goes with the status, so nobody is busy under another one. *)
Lemma not_busy w t a : base w -> nth_error (c_acts w) t = Some a -> c_status w = disconnected \/ c_status w = connected -> busy a = false.
Proof. intros B E St. pose proof (b_fits w B t a E) as F. unfold disconnected, connected in St.
  destruct a; cbn in *; try reflexivity; unfold connecting, disconnecting in F; exfalso; lia. Qed.

(** Going on without touching anything but oneself. *)
Lemma base_to w t a b : base w -> nth_error (c_acts w) t = Some a -> fits w b -> (busy b = true -> busy a = true) -> (c_dialled w = 0%nat -> early b = true) -> base (to t b w).
Proof.
  intros B Et F Bu Z. split; cbn [to c_conn c_dialled c_status c_session c_acts].
  - apply (b_conn w B).
  - apply (b_four w B).
  - apply (b_up w B).
  - intros u x E. apply set_nth_at in E as [[-> ->]|[N E]]; [|apply (b_fits w B u x E)]. exact F.
  - intros u v x y E1 E2 X Y. apply set_nth_at in E1 as [[-> ->]|[N1 E1]]; apply set_nth_at in E2 as [[-> ->]|[N2 E2]]; try reflexivity.
    + apply (b_one w B t v a y); auto.
    + apply (b_one w B u t x a); auto.
    + apply (b_one w B u v x y); auto.
  - intros D u x E. apply set_nth_at in E as [[-> ->]|[N E]]; [auto|apply (b_zero w B D u x E)].
Qed.
(** Going on and changing the status, as the only busy one before and behind. *)
Lemma base_change w w' t a b : base w -> nth_error (c_acts w) t = Some a -> c_acts w' = ConnModel.set_nth t b (c_acts w) ->
  (busy a = true \/ c_status w = disconnected \/ c_status w = connected) -> fits w' b ->
  (forall c, c_conn w' = Some c -> c = c_dialled w') -> (c_status w' = disconnected \/ c_status w' = connecting \/ c_status w' = connected \/ c_status w' = disconnecting) ->
  (c_status w' = connected \/ c_status w' = disconnecting -> c_conn w' = Some (c_dialled w') /\ c_session w' = c_dialled w' /\ c_dialled w' <> 0%nat) ->
  (c_dialled w' = 0%nat -> c_dialled w = 0%nat /\ early b = true) -> base w'.
Proof.
  intros B Et Ea Bu F Cn Fo Up Z.
  assert (Nb : forall u x, u <> t -> nth_error (c_acts w) u = Some x -> busy x = false).
  { intros u x N E. destruct Bu as [Bu|Bu]; [|exact (not_busy w u x B E Bu)]. destruct (busy x) eqn:X; [|reflexivity]. exfalso. apply N. apply (b_one w B u t x a); auto. }
  split; try assumption; rewrite Ea.
  - intros u x E. apply set_nth_at in E as [[-> ->]|[N E]]; [exact F|]. apply Nb in E; [|exact N]. destruct x; cbn in *; try exact Logic.I; discriminate.
  - intros u v x y E1 E2 X Y. apply set_nth_at in E1 as [[-> ->]|[N1 E1]]; apply set_nth_at in E2 as [[-> ->]|[N2 E2]]; try reflexivity.
    + apply Nb in E2; [|exact N2]. congruence.
    + apply Nb in E1; [|exact N1]. congruence.
    + apply Nb in E1; [|exact N1]. congruence.
  - intros D u x E. destruct (Z D) as [Z1 Z2]. apply set_nth_at in E as [[-> ->]|[N E]]; [exact Z2|apply (b_zero w B Z1 u x E)].
Qed.
Lemma base_logged e w : base w -> base (logged e w).
Proof. intro B. destruct B. split; assumption. Qed.

Lemma late w t a : base w -> nth_error (c_acts w) t = Some a -> early a = false -> c_dialled w <> 0%nat.
Proof. intros B E N D. rewrite (b_zero w B D t a E) in N. discriminate. Qed.

Lemma start_connect_only st st' : start_connect st = Some st' -> st = disconnected /\ st' = connecting.
Proof.
  unfold start_connect. destruct (st =? connected); [discriminate|]. destruct (st =? connecting); [discriminate|]. destruct (st =? disconnecting); [discriminate|].
  destruct (st =? disconnected) eqn:E; [|discriminate]. injection 1 as <-. split; [lia|reflexivity].
Qed.
Lemma start_disconnect_only w st' : base w -> start_disconnect (c_status w) = Some st' -> c_status w = connected /\ st' = disconnecting.
Proof.
  intro B. destruct (b_four w B) as [-> |[-> |[-> | ->]]]; try discriminate. intro E. injection E as <-. split; reflexivity.
Qed.

Lemma base_step w m : base w -> base (crew_step w m).
Proof.
  intro B. unfold crew_step. set (t := m_who m). destruct (nth_error (c_acts w) t) as [a|] eqn:Et; [|exact B].
  pose proof (b_fits w B t a Et) as F. destruct a; cbn [fits] in F.
  - destruct (m_quit m); (eapply base_to; [exact B|exact Et|exact Logic.I|discriminate|reflexivity]).
  - destruct (c_status w =? connected) eqn:St.
    + eapply base_to; [exact B|exact Et|exact Logic.I|discriminate|]. intro D. exfalso.
      assert (St' : c_status w = connected) by lia. now destruct (b_up w B (or_introl St')) as (_ & _ & D1).
    + eapply base_to; [exact B|exact Et|exact Logic.I|discriminate|reflexivity].
  - destruct (start_connect (c_status w)) as [st|] eqn:Sc; [|eapply base_to; [exact B|exact Et|exact Logic.I|discriminate|reflexivity]].
    apply start_connect_only in Sc as [St ->]. eapply (base_change w _ t AEnter ADial B Et); cbn [to status_to c_acts c_conn c_status c_dialled c_session].
    + reflexivity.
    + right. now left.
    + reflexivity.
    + apply (b_conn w B).
    + right. now left.
    + now intros [E|E].
    + now intro D.
  - destruct (m_dial m).
    + eapply (base_change w _ t ADial ARegister B Et); cbn [to status_to c_acts c_conn c_status c_dialled c_session].
      * reflexivity.
      * now left.
      * split; [exact F|reflexivity].
      * congruence.
      * right. now left.
      * rewrite F. now intros [E|E].
      * discriminate.
    + eapply (base_change w _ t ADial AIdle B Et); cbn [to status_to c_acts c_conn c_status c_dialled c_session].
      * reflexivity.
      * now left.
      * exact Logic.I.
      * discriminate.
      * now left.
      * now intros [E|E].
      * now intro D.
  - destruct F as [F1 F2]. pose proof (late w t _ B Et eq_refl) as D0. destruct (m_answer m).
    + eapply (base_change w _ t ARegister AOpen B Et); cbn [to status_to c_acts c_conn c_status c_dialled c_session]; try rewrite F2.
      * reflexivity.
      * now left.
      * split; [exact F1|]. cbn [c_conn c_session c_dialled]. split; reflexivity.
      * congruence.
      * right. now left.
      * rewrite F1. now intros [E|E].
      * intro D. contradiction.
    + eapply (base_change w _ t ARegister AIdle B Et); cbn [to status_to c_acts c_conn c_status c_dialled c_session]; try rewrite F2.
      * reflexivity.
      * now left.
      * exact Logic.I.
      * congruence.
      * now left.
      * now intros [E|E].
      * intro D. contradiction.
  - destruct F as (F1 & F2 & F3). pose proof (late w t _ B Et eq_refl) as D0. destruct (m_answer m).
    + eapply (base_change w _ t AOpen ABuild B Et); cbn [to status_to c_acts c_conn c_status c_dialled c_session].
      * reflexivity.
      * now left.
      * exact Logic.I.
      * rewrite F2. congruence.
      * right. right. now left.
      * now repeat split.
      * intro D. contradiction.
    + eapply (base_change w _ t AOpen AIdle B Et); cbn [to status_to c_acts c_conn c_status c_dialled c_session].
      * reflexivity.
      * now left.
      * exact Logic.I.
      * rewrite F2. congruence.
      * now left.
      * now intros [E|E].
      * intro D. contradiction.
  - pose proof (late w t _ B Et eq_refl) as D0. eapply base_to; [exact B|exact Et|exact Logic.I|discriminate|contradiction].
  - pose proof (late w t _ B Et eq_refl) as D0. destruct (c_conn w) as [c|]; [destruct (c_open w)|].
    + apply base_logged. eapply base_to; [exact B|exact Et|destruct (m_answer m); exact Logic.I|destruct (m_answer m); discriminate|contradiction].
    + eapply base_to; [exact B|exact Et|exact Logic.I|discriminate|contradiction].
    + apply base_logged. eapply base_to; [exact B|exact Et|exact Logic.I|discriminate|contradiction].
  - pose proof (late w t _ B Et eq_refl) as D0. destruct (start_disconnect (c_status w)) as [st|] eqn:Sd.
    + apply (start_disconnect_only w st B) in Sd as [St ->]. eapply (base_change w _ t _ _ B Et); cbn [to status_to c_acts c_conn c_status c_dialled c_session].
      * reflexivity.
      * right. now right.
      * reflexivity.
      * apply (b_conn w B).
      * now do 3 right.
      * intros _. apply (b_up w B). now left.
      * intro D. contradiction.
    + eapply base_to; [exact B|exact Et|exact Logic.I|discriminate|contradiction].
  - destruct (start_disconnect (c_status w)) as [st|] eqn:Sd.
    + apply (start_disconnect_only w st B) in Sd as [St ->]. destruct (b_up w B (or_introl St)) as (U1 & U2 & D0). eapply (base_change w _ t _ _ B Et); cbn [to status_to c_acts c_conn c_status c_dialled c_session].
      * reflexivity.
      * right. now right.
      * reflexivity.
      * apply (b_conn w B).
      * now do 3 right.
      * intros _. now repeat split.
      * intro D. contradiction.
    + eapply base_to; [exact B|exact Et|exact Logic.I|discriminate|reflexivity].
  - pose proof (late w t _ B Et eq_refl) as D0. destruct (c_conn w) as [c'|] eqn:Cn.
    + apply base_logged. eapply (base_change w _ t _ AIdle B Et); cbn [to status_to c_acts c_conn c_status c_dialled c_session].
      * reflexivity.
      * now left.
      * exact Logic.I.
      * rewrite <- Cn. apply (b_conn w B).
      * now left.
      * now intros [E|E].
      * intro D. contradiction.
    + apply base_logged. eapply (base_change w _ t _ AIdle B Et); cbn [to status_to c_acts c_conn c_status c_dialled c_session].
      * reflexivity.
      * now left.
      * exact Logic.I.
      * rewrite Cn. discriminate.
      * now left.
      * now intros [E|E].
      * intro D. contradiction.
Qed.
