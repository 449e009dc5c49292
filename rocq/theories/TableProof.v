(* The slice of pointers against the history of connections. *)
From Coq Require Import List Bool ZArith Lia Permutation.
From Verif Require Import GoBase TableModel TableSpec.
Import ListNotations.
Local Open Scope Z_scope.

Lemma key_hit_spec : forall k c, key_hit k c = true <-> carries k c.
Proof. intros [v|v|v] c; cbn [key_hit carries]; apply Z.eqb_eq. Qed.

Lemma find_conn_some : forall h k t i j a,
  find_conn h k t i = Some (j, a) ->
  exists l1 l2, t = l1 ++ a :: l2 /\ j = (i + length l1)%nat /\
                key_hit k (conn_at h a) = true.
Proof.
  intros h k t; induction t as [|x t IH]; intros i j a H; cbn [find_conn] in H.
  - discriminate.
  - destruct (key_hit k (conn_at h x)) eqn:E.
    + assert (i = j /\ x = a) as [<- <-] by (split; congruence).
      exists [], t. split; [reflexivity|]. split; [cbn [length]; lia|exact E].
    + apply IH in H as (l1 & l2 & -> & -> & Hk).
      exists (x :: l1), l2. split; [reflexivity|].
      split; [cbn [length]; lia|exact Hk].
Qed.

Lemma find_conn_none : forall h k t i,
  find_conn h k t i = None -> forall a, In a t -> key_hit k (conn_at h a) = false.
Proof.
  intros h k t; induction t as [|x t IH]; intros i H a Ha; cbn [find_conn] in H.
  - destruct Ha.
  - destruct (key_hit k (conn_at h x)) eqn:E; [discriminate|].
    destruct Ha as [<-|Ha]; [exact E|exact (IH _ H a Ha)].
Qed.

Lemma put_app : forall l1 x l2 v,
  put (l1 ++ x :: l2) (length l1) v = l1 ++ v :: l2.
Proof.
  intros l1; induction l1 as [|y l1 IH]; intros x l2 v; [reflexivity|].
  cbn [app length put]. rewrite IH. reflexivity.
Qed.

Lemma firstn_drop_last : forall (A : Type) (l : list A) x,
  firstn (length (l ++ [x]) - 1) (l ++ [x]) = l.
Proof.
  intros A l x. rewrite app_length. cbn [length].
  replace (length l + 1 - 1)%nat with (length l) by lia.
  rewrite firstn_app, Nat.sub_diag, firstn_all. cbn [firstn].
  apply app_nil_r.
Qed.

(* Overwriting with the last entry and dropping the last entry removes
   exactly the entry overwritten. *)
Lemma swap_remove : forall l1 a l2,
  let t := put (l1 ++ a :: l2) (length l1) (last (l1 ++ a :: l2) O) in
  Permutation (firstn (length t - 1) t) (l1 ++ l2).
Proof.
  intros l1 a l2 t. unfold t. rewrite put_app.
  destruct l2 as [|b l2] using rev_ind.
  - rewrite last_last, firstn_drop_last, app_nil_r. apply Permutation_refl.
  - clear IHl2.
    replace (l1 ++ a :: l2 ++ [b]) with ((l1 ++ a :: l2) ++ [b])
      by (rewrite <- app_assoc; reflexivity).
    rewrite last_last.
    replace (l1 ++ b :: l2 ++ [b]) with ((l1 ++ b :: l2) ++ [b])
      by (rewrite <- app_assoc; reflexivity).
    rewrite firstn_drop_last. apply Permutation_app_head.
    apply Permutation_cons_append.
Qed.

(* The slice holds every open connection once and no closed one. *)
Definition good (m : cman) : Prop :=
  NoDup (cm_table m) /\
  forall a, In a (cm_table m) <->
    exists c, nth_error (cm_heap m) a = Some c /\ sc_open c = true.

Lemma good_init : good cman_init.
Proof.
  split; [constructor|]. intros a. cbn [cman_init cm_table cm_heap].
  split; [intros []|]. intros (c & H & _). destruct a; discriminate.
Qed.

Lemma conn_at_nth : forall h a c, nth_error h a = Some c -> conn_at h a = c.
Proof. intros h a c H. unfold conn_at. apply nth_error_nth. exact H. Qed.

Lemma shut_length : forall h a, length (shut h a) = length h.
Proof.
  intros h; induction h as [|c h IH]; intros [|a]; cbn [shut length]; try reflexivity.
  rewrite IH. reflexivity.
Qed.

Lemma shut_other : forall h a b, b <> a -> nth_error (shut h a) b = nth_error h b.
Proof.
  intros h; induction h as [|c h IH]; intros [|a] [|b] H; cbn [shut nth_error];
    try reflexivity; try congruence.
  apply IH. congruence.
Qed.

Lemma shut_same : forall h a c, nth_error h a = Some c ->
  nth_error (shut h a) a =
    Some (SConn (sc_id c) (sc_ot c) (sc_to c) (sc_rpi c) (sc_path c) false).
Proof.
  intros h; induction h as [|x h IH]; intros [|a] c H; cbn [shut nth_error] in *;
    try discriminate.
  - congruence.
  - apply IH. exact H.
Qed.

Lemma get_live : forall m k, good m ->
  match find_conn (cm_heap m) k (cm_table m) 0 with
  | Some (_, a) => live (cm_heap m) k a
  | None => forall a, ~ live (cm_heap m) k a
  end.
Proof.
  intros m k [Hnd Hin].
  destruct (find_conn (cm_heap m) k (cm_table m) 0) as [[j a]|] eqn:E.
  - apply find_conn_some in E as (l1 & l2 & Ht & _ & Hk).
    assert (In a (cm_table m)) as Ha.
    { rewrite Ht. apply in_or_app. right. left. reflexivity. }
    apply Hin in Ha as (c & Hc & Ho). exists c. split; [exact Hc|].
    split; [exact Ho|]. apply key_hit_spec.
    rewrite <- (conn_at_nth _ _ _ Hc). exact Hk.
  - intros a (c & Hc & Ho & Hk).
    assert (In a (cm_table m)) as Ha by (apply Hin; exists c; auto).
    apply (find_conn_none _ _ _ _ E) in Ha.
    rewrite (conn_at_nth _ _ _ Hc) in Ha.
    apply key_hit_spec in Hk. congruence.
Qed.

Lemma good_shut : forall m l1 a l2 t,
  good m -> cm_table m = l1 ++ a :: l2 -> Permutation t (l1 ++ l2) ->
  good (CMan (shut (cm_heap m) a) t).
Proof.
  intros m l1 a l2 t [Hnd Hin] Ht Hp.
  rewrite Ht in Hnd.
  assert (NoDup (l1 ++ l2)) as Hnd'.
  { exact (NoDup_remove_1 l1 l2 a Hnd). }
  assert (~ In a (l1 ++ l2)) as Hna by exact (NoDup_remove_2 l1 l2 a Hnd).
  split.
  - cbn [cm_table]. apply (Permutation_NoDup (Permutation_sym Hp)). exact Hnd'.
  - intros b. cbn [cm_table cm_heap].
    assert (In b t <-> In b (l1 ++ l2)) as Hb.
    { split; intros H; [exact (Permutation_in _ Hp H)|].
      exact (Permutation_in _ (Permutation_sym Hp) H). }
    rewrite Hb.
    destruct (Nat.eq_dec b a) as [->|Hne].
    + split; [intros H; destruct (Hna H)|]. intros (c & Hc & Ho).
      assert (exists c0, nth_error (cm_heap m) a = Some c0) as (c0 & H0).
      { assert (nth_error (shut (cm_heap m) a) a <> None) as Hx by congruence.
        apply nth_error_Some in Hx. rewrite shut_length in Hx.
        destruct (nth_error (cm_heap m) a) as [c0|] eqn:E; [exists c0; reflexivity|].
        apply nth_error_None in E. lia. }
      rewrite (shut_same _ _ _ H0) in Hc.
      assert (sc_open c = false) by (injection Hc as <-; reflexivity). congruence.
    + rewrite (shut_other _ _ _ Hne). rewrite <- Hin, Ht.
      rewrite !in_app_iff. cbn [In]. firstorder congruence.
Qed.

Lemma step_refines : forall m o, good m ->
  good (fst (cman_step m o)) /\
  tstep (cm_heap m) o (cm_heap (fst (cman_step m o))) (snd (cman_step m o)).
Proof.
  intros m o Hg. pose proof Hg as [Hnd Hin].
  destruct o as [id ot to rpi path|k|k]; cbn [cman_step].
  - cbn [fst snd]. split; [|apply t_add].
    unfold conn_add. split; cbn [cm_table cm_heap].
    + apply (Permutation_NoDup (Permutation_cons_append (cm_table m) (length (cm_heap m)))).
      constructor; [|exact Hnd]. intros Ha. apply Hin in Ha as (c & Hc & _).
      assert (nth_error (cm_heap m) (length (cm_heap m)) = None) as E
        by (apply nth_error_None; lia). congruence.
    + intros a. rewrite in_app_iff, Hin. cbn [In]. split.
      * intros [(c & Hc & Ho)|[<-|[]]].
        -- exists c. split; [|exact Ho]. rewrite nth_error_app1; [exact Hc|].
           apply nth_error_Some. congruence.
        -- exists (SConn id ot to rpi path true). split; [|reflexivity].
           rewrite nth_error_app2, Nat.sub_diag by lia. reflexivity.
      * intros (c & Hc & Ho).
        destruct (Nat.lt_ge_cases a (length (cm_heap m))) as [Hl|Hl].
        -- left. exists c. rewrite nth_error_app1 in Hc by exact Hl. auto.
        -- right. left. rewrite nth_error_app2 in Hc by exact Hl.
           destruct (a - length (cm_heap m))%nat as [|n] eqn:E; [lia|].
           destruct n; discriminate.
  - cbn [fst snd]. split; [exact Hg|]. unfold conn_get.
    pose proof (get_live m k Hg) as H.
    destruct (find_conn (cm_heap m) k (cm_table m) 0) as [[j a]|].
    + apply t_found. exact H.
    + apply t_lost. exact H.
  - unfold conn_close. pose proof (get_live m k Hg) as H.
    destruct (find_conn (cm_heap m) k (cm_table m) 0) as [[j a]|] eqn:E.
    + apply find_conn_some in E as (l1 & l2 & Ht & Hj & _).
      cbn [plus] in Hj. subst j.
      assert (closes (cm_heap m) a (shut (cm_heap m) a)) as Hc.
      { split; [apply shut_length|]. split; [intros b; apply shut_other|].
        destruct H as (c & Hc & Ho & _). exists c. split; [exact Hc|].
        split; [exact Ho|]. apply shut_same. exact Hc. }
      destruct (Nat.eqb_spec (length (cm_table m)) 1) as [El|El];
        cbn [fst snd cm_heap]; (split; [|exact (t_closed _ _ _ _ H Hc)]).
      * apply (good_shut m l1 a l2); [exact Hg|exact Ht|].
        rewrite Ht, app_length in El. cbn [length] in El.
        destruct l1 as [|x l1]; [|cbn [length] in El; lia].
        destruct l2 as [|x l2]; [|cbn [length] in El; lia].
        apply Permutation_refl.
      * apply (good_shut m l1 a l2); [exact Hg|exact Ht|].
        rewrite Ht. apply swap_remove.
    + cbn [fst snd]. split; [exact Hg|]. apply t_none. exact H.
Qed.

Lemma run_refines : forall os m, good m ->
  good (fst (cman_run m os)) /\
  trun (cm_heap m) os (cm_heap (fst (cman_run m os))) (snd (cman_run m os)).
Proof.
  intros os; induction os as [|o os IH]; intros m Hg; cbn [cman_run].
  - cbn [fst snd]. split; [exact Hg|constructor].
  - pose proof (step_refines m o Hg) as [Hg1 Hs].
    destruct (cman_step m o) as [m1 r]. cbn [fst snd] in *.
    specialize (IH m1 Hg1) as [Hg2 Hr].
    destruct (cman_run m1 os) as [m2 rs]. cbn [fst snd] in *.
    split; [exact Hg2|]. exact (tr_cons _ _ _ _ _ _ _ Hs Hr).
Qed.

(* Counting.  The open connections with serial number v in a history. *)
Fixpoint alive (v : Z) (h : history) : nat :=
  match h with
  | [] => 0
  | c :: t => if (sc_id c =? v) && sc_open c then S (alive v t) else alive v t
  end.

Lemma alive_app : forall v h1 h2, alive v (h1 ++ h2) = (alive v h1 + alive v h2)%nat.
Proof.
  intros v h1; induction h1 as [|c h1 IH]; intros h2; [reflexivity|].
  cbn [app alive]. rewrite IH. destruct ((sc_id c =? v) && sc_open c); lia.
Qed.

Lemma alive_live : forall v h, (0 < alive v h)%nat <-> exists a, live h (KeyID v) a.
Proof.
  intros v h; induction h as [|c h IH]; cbn [alive].
  - split; [lia|]. intros (a & c & H & _). destruct a; discriminate.
  - destruct ((sc_id c =? v) && sc_open c) eqn:E.
    + split; [|lia]. intros _. apply andb_true_iff in E as [Ei Eo].
      exists O, c. split; [reflexivity|]. split; [exact Eo|].
      apply Z.eqb_eq. exact Ei.
    + rewrite IH. split; intros (a & c' & H & Ho & Hk).
      * exists (S a), c'. auto.
      * destruct a as [|a]; [|exists a, c'; auto].
        cbn [nth_error] in H. assert (c = c') as -> by congruence.
        cbn [carries] in Hk. apply Z.eqb_eq in Hk.
        rewrite Hk, Ho in E. discriminate.
Qed.

Lemma closes_split : forall h a h', closes h a h' ->
  exists l1 c l2, h = l1 ++ c :: l2 /\ length l1 = a /\ sc_open c = true /\
    h' = l1 ++ SConn (sc_id c) (sc_ot c) (sc_to c) (sc_rpi c) (sc_path c) false :: l2.
Proof.
  intros h; induction h as [|x h IH]; intros a h' (Hl & Hb & c & Hc & Ho & Hc').
  - destruct a; discriminate.
  - destruct h' as [|x' h']; [cbn [length] in Hl; lia|].
    assert (length h' = length h) as Hl' by (cbn [length] in Hl; lia).
    destruct a as [|a]; cbn [nth_error] in Hc, Hc'.
    + assert (c = x) as -> by congruence.
      exists [], x, h. split; [reflexivity|]. split; [reflexivity|].
      split; [exact Ho|]. cbn [app]. f_equal; [congruence|].
      apply nth_ext with (d := x) (d' := x); [exact Hl'|].
      intros n Hn.
      pose proof (Hb (S n) ltac:(discriminate)) as H. cbn [nth_error] in H.
      destruct (nth_error h n) as [y|] eqn:E.
      * rewrite (nth_error_nth _ _ _ H), (nth_error_nth _ _ _ E). reflexivity.
      * apply nth_error_None in E. lia.
    + destruct (IH a h') as (l1 & c1 & l2 & -> & <- & H1 & ->).
      { split; [exact Hl'|]. split.
        - intros b Hne. pose proof (Hb (S b) ltac:(congruence)) as H. exact H.
        - exists c. auto. }
      exists (x :: l1), c1, l2. split; [reflexivity|]. split; [reflexivity|].
      split; [exact H1|].
      pose proof (Hb O ltac:(discriminate)) as H. cbn [nth_error] in H.
      cbn [app]. f_equal. congruence.
Qed.

Lemma trun_count : forall v os h h' rs, trun h os h' rs -> Forall by_id os ->
  (alive v h' + shut_count v os rs = alive v h + opened v os)%nat.
Proof.
  intros v os; induction os as [|o os IH]; intros h h' rs H Hid;
    inversion H as [|? ? h1 r ? ? rs' Hs Hr]; subst.
  - cbn [shut_count opened]. lia.
  - apply Forall_cons_iff in Hid as [Ho Hid]. specialize (IH _ _ _ Hr Hid).
    inversion Hs; subst; cbn [opened shut_count].
    + rewrite alive_app in IH. cbn [alive sc_id sc_open] in IH.
      rewrite andb_true_r in IH. destruct (id =? v); lia.
    + exact IH.
    + exact IH.
    + destruct k as [w|w|w]; [|destruct Ho|destruct Ho].
      match goal with Hc : closes _ _ _ |- _ =>
        apply closes_split in Hc as (l1 & c & l2 & -> & Ha & Hop & ->) end.
      match goal with Hl : live _ _ _ |- _ => destruct Hl as (c0 & H0 & _ & Hw) end.
      rewrite <- Ha, nth_error_app2, Nat.sub_diag in H0 by lia.
      cbn [nth_error] in H0. assert (c0 = c) as -> by congruence.
      cbn [carries] in Hw. rewrite alive_app in IH |- *.
      cbn [alive sc_id sc_open] in IH |- *. rewrite Hop, andb_true_r.
      rewrite andb_false_r in IH. rewrite Hw.
      destruct (w =? v); lia.
    + destruct k as [w|w|w]; exact IH.
Qed.
