(** * Lemmas about the keep-alive *)
From Verif Require Import GoBase ConnModel KeepModel KeepSpec.

Definition is_C (j : job) := match j with Connect2 | Connect3 => true | _ => false end.
Definition is_C2 (j : job) := match j with Connect2 => true | _ => false end.
Definition is_D (j : job) := match j with Disc2 | Disc3 | Disc4 => true | _ => false end.
Definition is_D3 (j : job) := match j with Disc3 => true | _ => false end.
Definition is_D23 (j : job) := match j with Disc2 | Disc3 => true | _ => false end.
Definition is_K (j : job) := match j with Keep1 | Keep2 | Keep3 | Keep4 | KeepSel | KeepWait _ | KeepTick | KeepAsk | KeepEnd => true | _ => false end.
Definition is_K3 (j : job) := match j with Keep3 | Keep4 | KeepSel | KeepWait _ | KeepTick | KeepAsk | KeepEnd => true | _ => false end.
Definition is_Kr (j : job) := match j with Keep4 | KeepSel | KeepWait _ | KeepTick | KeepAsk | KeepEnd => true | _ => false end.
Definition is_X (j : job) := match j with Cancel1 _ | Cancel2 => true | _ => false end.

Fixpoint one (p : job -> bool) (l : list job) : nat := match l with [] => 0 | j :: r => (if p j then 1 else 0) + one p r end.
Fixpoint all (p : job -> bool) (l : list (list job)) : nat := match l with [] => 0 | j :: r => one p j + all p r end.
Lemma all_set p : forall l t stk new, nth_error l t = Some stk -> (all p (set_nth t new l) + one p stk = all p l + one p new)%nat.
Proof.
  induction l as [|x l IH]; intros [|t] stk new E; try discriminate; cbn [nth_error set_nth all] in *.
  - injection E as ->. lia.
  - specialize (IH t stk new E). lia.
Qed.
Lemma one_le p : forall l t stk, nth_error l t = Some stk -> (one p stk <= all p l)%nat.
Proof. intros l t stk E. pose proof (all_set p l t stk [] E) as X. cbn [one] in X. lia. Qed.
Lemma all_app p a b : all p (a ++ b) = (all p a + all p b)%nat.
Proof. induction a as [|x a IH]; [reflexivity|]. cbn [app all]. lia. Qed.
Lemma all_repeat p n : all p (repeat [] n) = 0%nat.
Proof. induction n as [|n IH]; [reflexivity|]. cbn [repeat all one]. exact IH. Qed.

Definition closed_now (s : kstate) : Prop := exists c, k_chan s = Some c /\ In c (k_closed s).

Record inv (s : kstate) : Prop := {
  i_status : (k_status s = disconnected /\ all is_C (k_threads s) = 0 /\ all is_D (k_threads s) = 0 \/
              k_status s = connecting /\ all is_C (k_threads s) = 1 /\ all is_D (k_threads s) = 0 \/
              k_status s = connected /\ all is_C (k_threads s) = 0 /\ all is_D (k_threads s) = 0 \/
              k_status s = disconnecting /\ all is_C (k_threads s) = 0 /\ all is_D (k_threads s) = 1)%nat;
  i_one : (all is_K (k_threads s) <= 1)%nat;
  i_before : (1 <= all is_C2 (k_threads s) -> all is_K (k_threads s) = 0)%nat;
  i_running : (k_running s = true -> 1 <= all is_Kr (k_threads s))%nat;
  i_chan : (1 <= all is_K3 (k_threads s) \/ 1 <= all is_D3 (k_threads s))%nat -> k_chan s <> None;
  i_fresh : (forall c, In c (k_closed s) \/ k_chan s = Some c -> c < k_next s)%nat;
  i_open : closed_now s -> (k_status s = connected \/ k_status s = connecting \/ 1 <= all is_D23 (k_threads s))%nat ->
           k_running s = false /\ (all is_K3 (k_threads s) = 0 /\ all is_D3 (k_threads s) = 0)%nat;
  i_cancel : all is_X (k_threads s) = 0%nat;
  i_up : k_down s = false }.

(** Between the counts. *)
Lemma all_le p q l : (forall j, p j = true -> q j = true) -> (all p l <= all q l)%nat.
Proof.
  intro H. assert (O : forall x, (one p x <= one q x)%nat).
  { induction x as [|j x IH]; [reflexivity|]. cbn [one]. specialize (H j). destruct (p j); [rewrite H by reflexivity; lia|]. destruct (q j); lia. }
  induction l as [|x l IH]; [reflexivity|]. cbn [all]. specialize (O x). lia.
Qed.
Lemma counts l : (all is_C2 l <= all is_C l /\ all is_D3 l <= all is_D23 l /\ all is_D23 l <= all is_D l /\ all is_K3 l <= all is_K l /\ all is_Kr l <= all is_K3 l)%nat.
Proof. repeat split; apply all_le; intros []; cbn; congruence. Qed.

Lemma quiet_all s : quiet s -> all is_K (k_threads s) = 0%nat.
Proof.
  unfold quiet. intro Q. induction (k_threads s) as [|x l IH]; [reflexivity|]. cbn [all].
  rewrite IH by (intros y I; apply Q; now right).
  assert (K : ~ keeps x) by (apply Q; now left). clear - K.
  assert (H : one is_K x = 0%nat); [|lia]. induction x as [|j x IH]; [reflexivity|]. cbn [one].
  rewrite IH by (intros (k & I & M); apply K; exists k; split; [now right|exact M]).
  destruct (is_K j) eqn:E; [|reflexivity]. exfalso. apply K. exists j. split; [now left|]. destruct j; try discriminate; exact I.
Qed.

Ltac recount N new :=
  pose proof (all_set is_C _ _ _ new N) as RC; pose proof (all_set is_C2 _ _ _ new N) as RC2; pose proof (all_set is_D _ _ _ new N) as RD;
  pose proof (all_set is_D3 _ _ _ new N) as RD3; pose proof (all_set is_D23 _ _ _ new N) as RD23; pose proof (all_set is_K _ _ _ new N) as RK;
  pose proof (all_set is_K3 _ _ _ new N) as RK3; pose proof (all_set is_Kr _ _ _ new N) as RKr; pose proof (all_set is_X _ _ _ new N) as RX;
  match type of N with nth_error ?l ?t = _ => pose proof (counts (set_nth t new l)) as Cn' end;
  pose proof (one_le is_D23 _ _ _ N) as OD23; pose proof (one_le is_D3 _ _ _ N) as OD3; pose proof (one_le is_K _ _ _ N) as OK; pose proof (one_le is_K3 _ _ _ N) as OK3;
  pose proof (one_le is_Kr _ _ _ N) as OKr; pose proof (one_le is_D _ _ _ N) as OD; pose proof (one_le is_C _ _ _ N) as OC;
  cbn [one is_C is_C2 is_D is_D3 is_D23 is_K is_K3 is_Kr is_X] in RC, RC2, RD, RD3, RD23, RK, RK3, RKr, RX, OD23, OD3, OK, OK3, OKr, OD, OC.
Ltac fields := cbn [k_status k_auto k_running k_chan k_closed k_next k_threads k_down set_stack set_status set_running set_auto make_chan close_chan crash] in *.
Ltac statuses := unfold disconnected, connecting, connected, disconnecting in *.
(** Each condition from the counts before and after. *)
Ltac conditions :=
  constructor; fields;
  [statuses; lia|lia|lia|first [assumption|lia|(let X := fresh in intros X; match goal with H : k_running ?s = true -> _ |- _ => specialize (H X); lia end)|intros; discriminate|intros; congruence]|
   first [assumption|(let X := fresh in intros X; match goal with H : _ -> k_chan ?s <> None |- k_chan ?s <> None => apply H; lia end)|intros; discriminate]|
   first [assumption|idtac]|
   first [assumption|idtac]|lia|first [assumption|reflexivity]].

Lemma inv_step s t m s1 : inv s -> patient_move s t m -> keep_move s t m = Some s1 -> inv s1.
Proof.
  intros [I1 I2 I3 I4 I5 I6 I7 I8 I9] P E. unfold keep_move in E. rewrite I9 in E.
  destruct (nth_error (k_threads s) t) as [stack|] eqn:N; [|discriminate].
  pose proof (counts (k_threads s)) as Cn.
  assert (Same : forall new, (forall p, In p [is_C; is_C2; is_D; is_D3; is_D23; is_K; is_K3; is_Kr; is_X] -> one p new = one p stack) -> inv (set_stack s t new)).
  { intros new H.
    assert (A : forall p, In p [is_C; is_C2; is_D; is_D3; is_D23; is_K; is_K3; is_Kr; is_X] -> all p (set_nth t new (k_threads s)) = all p (k_threads s)).
    { intros p Ip. pose proof (all_set p _ _ _ new N) as X. rewrite (H p Ip) in X. lia. }
    constructor; fields; rewrite ?A by (cbn; tauto); assumption. }
  destruct m as [j| | | | | |]; (destruct stack as [|j0 r]; [|destruct j0]); try discriminate; try (cbn [patient_move] in P; rewrite N in P).
  - (* a call *) destruct (starts j) eqn:St; [|discriminate]. injection E as <-. apply Same. intros p Ip.
    destruct j; try discriminate; try contradiction; cbn [In] in Ip; decompose [or] Ip; subst; reflexivity || contradiction.
  - (* Connect1 *) apply quiet_all in P. destruct (start_connect (k_status s)) as [st|] eqn:Sc; injection E as <-.
    + recount N (Connect2 :: r).
      assert (k_status s = disconnected /\ st = connecting) as (Es & ->).
      { unfold start_connect in Sc. statuses. destruct (Z.eqb_spec (k_status s) 2); [discriminate|]. destruct (Z.eqb_spec (k_status s) 1); [discriminate|].
        destruct (Z.eqb_spec (k_status s) 3); [discriminate|]. destruct (Z.eqb_spec (k_status s) 0); [|discriminate]. injection Sc as <-. auto. }
      assert (Hr : k_running s = false) by (destruct (k_running s); [specialize (I4 eq_refl); lia|reflexivity]).
      conditions. intros _ _. split; [exact Hr|]. statuses; lia.
    + apply Same. intros p Ip. cbn [In] in Ip; decompose [or] Ip; subst; reflexivity || contradiction.
  - (* Connect3 *) injection E as <-. recount N r. conditions. intros Cl _. destruct (I7 Cl) as (A & B); [statuses; lia|]. split; [exact A|lia].
  - (* Disc1 *) destruct (start_disconnect (k_status s)) as [st|] eqn:Sc; injection E as <-.
    + recount N (Disc2 :: r).
      assert (k_status s = connected /\ st = disconnecting) as (Es & ->).
      { unfold start_disconnect in Sc. statuses. destruct (Z.eqb_spec (k_status s) 0); [discriminate|]. destruct (Z.eqb_spec (k_status s) 1); [discriminate|].
        destruct (Z.eqb_spec (k_status s) 2); [injection Sc as <-; auto|]. destruct (Z.eqb_spec (k_status s) 3); [discriminate|]. lia. }
      conditions. intros Cl _. destruct (I7 Cl) as (A & B); [now left|]. split; [exact A|lia].
    + apply Same. intros p Ip. cbn [In] in Ip; decompose [or] Ip; subst; reflexivity || contradiction.
  - (* Disc2 *) injection E as <-. destruct (k_running s) eqn:Er.
    + recount N (Disc3 :: r). pose proof (I4 eq_refl) as Ik. conditions.
      intros Cl _. destruct (I7 Cl) as (A & B); [right; right; lia|]. congruence.
    + recount N (Disc4 :: r). conditions. intros Cl _. split; [exact Er|]. destruct (I7 Cl) as (A & B); [right; right; lia|]. lia.
  - (* Disc3 *) injection E as <-.
    assert (Cc : can_close s = true).
    { unfold can_close. destruct (k_chan s) as [c|] eqn:Ec; [|exfalso; recount N r; apply I5; [right; lia|reflexivity]].
      destruct (existsb (Nat.eqb c) (k_closed s)) eqn:Ex; [|reflexivity]. exfalso. apply existsb_exists in Ex as (x & Ix & Ex). apply Nat.eqb_eq in Ex as <-.
      destruct (I7 (ex_intro _ c (conj Ec Ix))) as (_ & _ & X); [right; right; recount N r; lia|]. recount N r. lia. }
    rewrite Cc. unfold can_close in Cc. unfold close_chan. cbn [set_stack k_chan]. destruct (k_chan s) as [c|] eqn:Ec; [|discriminate].
    recount N (Disc4 :: r). conditions.
    + intros x [[<-|Hx]|Hx]; apply I6; [now right|now left|now right].
    + intros _ H. exfalso. assert (all is_D23 (set_nth t (Disc4 :: r) (k_threads s)) = 0)%nat by (statuses; lia). statuses; lia.
  - (* Disc4 *) injection E as <-. recount N r. conditions.
    intros _ H. exfalso. statuses; lia.
  - (* Cancel1 *) recount N r. lia.
  - (* Cancel2 *) recount N r. lia.
  - (* Request *) injection E as <-. apply Same. intros p Ip. cbn [In] in Ip; decompose [or] Ip; subst; reflexivity || contradiction.
  - (* Keep1 *) injection E as <-. destruct (k_auto s).
    + apply Same. intros p Ip. cbn [In] in Ip; decompose [or] Ip; subst; reflexivity || contradiction.
    + recount N r. conditions.
      intros Cl H. destruct (I7 Cl) as (A & B); [lia|]. split; [exact A|lia].
  - (* Keep2 *) injection E as <-. recount N (Keep3 :: r). conditions.
    + intros c [H|H]; [|injection H as <-; lia]. assert (c < k_next s)%nat by (apply I6; now left). lia.
    + intros (c & Ec & Hc) _. exfalso. fields. injection Ec as <-. assert (k_next s < k_next s)%nat by (apply I6; now left). lia.
  - (* Keep3 *) injection E as <-. recount N (Keep4 :: r). conditions.
    intros Cl H. exfalso. destruct (I7 Cl) as (A & B); [lia|]. lia.
  - (* KeepSel *) injection E as <-. apply Same. intros p Ip. cbn [In] in Ip; decompose [or] Ip; subst; reflexivity || contradiction.
  - (* KeepWait *) destruct c as [c|]; [|discriminate]. destruct (existsb _ _); [|discriminate]. injection E as <-.
    assert (X : inv (set_stack s t (KeepEnd :: r))) by (apply Same; intros p Ip; cbn [In] in Ip; decompose [or] Ip; subst; reflexivity || contradiction).
    destruct X as [X1 X2 X3 X4 X5 X6 X7 X8 X9]. constructor; fields; assumption.
  - (* KeepTick *) injection E as <-. destruct (k_status s =? connected); apply Same; intros p Ip; cbn [In] in Ip; decompose [or] Ip; subst; reflexivity || contradiction.
  - (* KeepEnd *) injection E as <-. recount N r. conditions.
    intros Cl H. destruct (I7 Cl) as (A & B); [lia|]. split; [reflexivity|lia].
  - (* opened *) injection E as <-. unfold spawn. cbn [set_stack k_auto]. recount N (Connect3 :: r). destruct (k_auto s).
    + constructor; fields; rewrite ?all_app; cbn [all one is_C is_C2 is_D is_D3 is_D23 is_K is_K3 is_Kr is_X]; try assumption; try lia.
      intros Cl H. destruct (I7 Cl) as (A & B); [lia|]. split; [exact A|lia].
    + conditions.
      intros Cl H. destruct (I7 Cl) as (A & B); [lia|]. split; [exact A|lia].
  - (* Keep4 *) injection E as <-. apply Same. intros p Ip. cbn [In] in Ip; decompose [or] Ip; subst; reflexivity || contradiction.
  - injection E as <-. apply Same. intros p Ip. cbn [In] in Ip; decompose [or] Ip; subst; reflexivity || contradiction.
  - (* failed *) injection E as <-. recount N r. conditions.
    intros Cl H. exfalso. statuses; lia.
  - injection E as <-. apply Same. intros p Ip. cbn [In] in Ip; decompose [or] Ip; subst; reflexivity || contradiction.
  - injection E as <-. apply Same. intros p Ip. cbn [In] in Ip; decompose [or] Ip; subst; reflexivity || contradiction.
  - injection E as <-. apply Same. intros p Ip. cbn [In] in Ip; decompose [or] Ip; subst; reflexivity || contradiction.
  - injection E as <-. apply Same. intros p Ip. cbn [In] in Ip; decompose [or] Ip; subst; reflexivity || contradiction.
  - injection E as <-. apply Same. intros p Ip. cbn [In] in Ip; decompose [or] Ip; subst; reflexivity || contradiction.
  - injection E as <-. apply Same. intros p Ip. cbn [In] in Ip; decompose [or] Ip; subst; reflexivity || contradiction.
  - injection E as <-. apply Same. intros p Ip. cbn [In] in Ip; decompose [or] Ip; subst; reflexivity || contradiction.
  - injection E as <-. apply Same. intros p Ip. cbn [In] in Ip; decompose [or] Ip; subst; reflexivity || contradiction.
  - injection E as <-. apply Same. intros p Ip. cbn [In] in Ip; decompose [or] Ip; subst; reflexivity || contradiction.
Qed.
