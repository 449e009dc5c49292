(** * Sharing a client's tables: proofs *)
From Verif Require Import GoBase IoiModel ConnModel ConnProof ShareModel ShareSpec.

Lemma set_get : forall {A} (l : list A) t x u,
  nth_error (set_nth t x l) u = if (u =? t)%nat then match nth_error l t with Some _ => Some x | None => None end else nth_error l u.
Proof.
  induction l as [|y l IH]; intros [|t] x [|u]; cbn; auto. destruct (u =? t)%nat; reflexivity.
Qed.

(** The goroutine has ioi_cache_lock. *)
Definition inside (j : job) : bool :=
  match j with Firm _ _ | Known _ _ | Cached _ _ | Caching _ _ _ | Leave _ _ _ => true | _ => false end.
Definition sound_job (j : job) : Prop :=
  match j with Caching p _ i => build_ioi (lower p) = Ok i | _ => True end.
Record inv (s : tables) : Prop := {
  inv_cache : forall k i, lookup k (tb_cache s) = Some i -> build_ioi k = Ok i;
  inv_jobs : forall t j, nth_error (tb_jobs s) t = Some j -> sound_job j /\ (inside j = true <-> tb_lock s = Some t);
  inv_lock : forall t, tb_lock s = Some t -> exists j, nth_error (tb_jobs s) t = Some j }.

Lemma inv0 : forall n, inv (share0 n).
Proof.
  intro n. split; cbn; intros; try discriminate.
  assert (j = Idle).
  { revert t H. induction n as [|n IH]; intros [|t] H; cbn in H; try discriminate; [congruence|eauto]. }
  subst j. cbn. repeat split; intro; discriminate.
Qed.

Lemma build_split : forall p, (exists i, build_ioi p = Ok i) \/ (forall i, build_ioi p <> Ok i).
Proof. intro p. destruct (build_ioi p) eqn:E; eauto; right; congruence. Qed.

Lemma lock_after : forall s t j0 j1 h,
  inv s -> nth_error (tb_jobs s) t = Some j0 ->
  (inside j0 = inside j1 /\ h = tb_lock s \/
   inside j0 = true /\ inside j1 = false /\ h = None \/
   inside j0 = false /\ inside j1 = true /\ tb_lock s = None /\ h = Some t) ->
  sound_job j1 ->
  (forall u j, nth_error (set_nth t j1 (tb_jobs s)) u = Some j -> sound_job j /\ (inside j = true <-> h = Some u)) /\
  (forall u, h = Some u -> exists j, nth_error (set_nth t j1 (tb_jobs s)) u = Some j).
Proof.
  intros s t j0 j1 h [IC IJ IL] E C S.
  destruct (IJ t j0 E) as [_ L0].
  split.
  - intros u j G. rewrite set_get in G. destruct (u =? t)%nat eqn:U.
    + apply Nat.eqb_eq in U. subst u. rewrite E in G. injection G as <-. split; [exact S|].
      destruct C as [[C1 ->]|[(C1 & C2 & ->)|(C1 & C2 & C3 & ->)]].
      * rewrite <- C1. exact L0.
      * rewrite C2. split; discriminate.
      * rewrite C2. split; reflexivity.
    + apply Nat.eqb_neq in U. destruct (IJ u j G) as [S1 L1]. split; [exact S1|].
      destruct C as [[C1 ->]|[(C1 & C2 & ->)|(C1 & C2 & C3 & ->)]].
      * exact L1.
      * rewrite L1. rewrite (proj1 L0 C1). split; [|discriminate]. intro H. injection H as H. congruence.
      * rewrite L1, C3. split; [discriminate|]. intro H. injection H as H. congruence.
  - intros u H. rewrite set_get. destruct (u =? t)%nat eqn:U.
    + rewrite E. eauto.
    + apply Nat.eqb_neq in U.
      destruct C as [[C1 ->]|[(C1 & C2 & ->)|(C1 & C2 & C3 & ->)]]; [eauto|discriminate|].
      injection H as H. congruence.
Qed.

(** What a move does, case by case. *)
Inductive did (s : tables) (t : nat) : smove -> tables -> job -> job -> Prop :=
| DCall j : starts j = true -> did s t (SCall j) (with_job s t j) Idle j
| DLock p d : tb_lock s = None -> did s t SGo (with_lock (with_job s t (Firm p d)) (Some t)) (Want p d) (Firm p d)
| DFirm p d : tb_firm s <> 0 -> did s t SGo (with_job s t (after_firm (tb_firm s) p d)) (Firm p d) (after_firm (tb_firm s) p d)
| DAsk p d z : tb_firm s = 0 -> 0 <= z < 256 ->
    did s t (SFirm z) (with_firm (with_job s t (after_firm z p d)) z) (Firm p d) (after_firm z p d)
| DKnown p d : did s t SGo (with_job s t (after_known (lookup (lower p) (tb_known s)) p d)) (Known p d) (after_known (lookup (lower p) (tb_known s)) p d)
| DCached p d : did s t SGo (with_job s t (after_cached (lookup (lower p) (tb_cache s)) p d)) (Cached p d) (after_cached (lookup (lower p) (tb_cache s)) p d)
| DCaching p d i : did s t SGo (with_cached (with_job s t (Leave p d (Ok i))) (lower p) i) (Caching p d i) (Leave p d (Ok i))
| DLeave p d r : did s t SGo (with_back (with_lock (with_job s t Idle) None) (t, (p, d, r))) (Leave p d r) Idle
| DListed : did s t SGo (with_job s t Idle) (Listing []) Idle
| DListing k x todo : did s t SGo (with_job s t (Storing k x todo)) (Listing ((k, x) :: todo)) (Storing k x todo)
| DStoring k x todo : did s t SGo (with_known (with_job s t (Listing todo)) k x) (Storing k x todo) (Listing todo)
| DSize k : did s t SGo (with_job s t (Sizing k)) (Size k) (Sizing k)
| DSizing k : did s t SGo (with_job s t Idle) (Sizing k) Idle.

Lemma move_did : forall s t m s1, share_move s t m = Some s1 ->
  exists j0 j1, nth_error (tb_jobs s) t = Some j0 /\ did s t m s1 j0 j1 /\ tb_jobs s1 = set_nth t j1 (tb_jobs s).
Proof.
  intros s t m s1 H. unfold share_move in H. destruct (nth_error (tb_jobs s) t) as [j|] eqn:E; [|discriminate].
  destruct m as [j'| |z]; destruct j; try discriminate.
  - destruct (starts j') eqn:B; [|discriminate]. injection H as <-. eexists _, _. split; [reflexivity|split; [constructor; exact B|reflexivity]].
  - destruct (tb_lock s) eqn:B; [discriminate|]. injection H as <-. eexists _, _. split; [reflexivity|split; [constructor; exact B|reflexivity]].
  - destruct (tb_firm s =? 0) eqn:B; [discriminate|]. injection H as <-. eexists _, _. split; [reflexivity|split; [constructor; lia|reflexivity]].
  - injection H as <-. eexists _, _. split; [reflexivity|split; [constructor|reflexivity]].
  - injection H as <-. eexists _, _. split; [reflexivity|split; [constructor|reflexivity]].
  - injection H as <-. eexists _, _. split; [reflexivity|split; [constructor|reflexivity]].
  - injection H as <-. eexists _, _. split; [reflexivity|split; [constructor|reflexivity]].
  - destruct todo as [|[k x] todo]; injection H as <-; eexists _, _; (split; [reflexivity|split; [constructor|reflexivity]]).
  - injection H as <-. eexists _, _. split; [reflexivity|split; [constructor|reflexivity]].
  - injection H as <-. eexists _, _. split; [reflexivity|split; [constructor|reflexivity]].
  - injection H as <-. eexists _, _. split; [reflexivity|split; [constructor|reflexivity]].
  - destruct ((tb_firm s =? 0) && (0 <=? z) && (z <? 256)) eqn:B; [|discriminate]. injection H as <-.
    eexists _, _. split; [reflexivity|split; [constructor; lia|reflexivity]].
Qed.

Lemma after_firm_inside : forall z p d, inside (after_firm z p d) = true /\ sound_job (after_firm z p d).
Proof. intros. unfold after_firm. destruct (20 <? z); split; exact I || reflexivity. Qed.
Lemma after_known_inside : forall x p d, inside (after_known x p d) = true /\ sound_job (after_known x p d).
Proof. intros [x|] p d; cbn [after_known]; [destruct (_ && _)|]; split; exact I || reflexivity. Qed.
Lemma after_cached_inside : forall x p d, inside (after_cached x p d) = true /\ sound_job (after_cached x p d).
Proof.
  intros [x|] p d; cbn [after_cached]; [split; exact I || reflexivity|].
  destruct (build_ioi (lower p)) eqn:E; split; first [exact I | reflexivity | exact E].
Qed.

Lemma inv_move : forall s t m s1, inv s -> share_move s t m = Some s1 -> inv s1.
Proof.
  intros s t m s1 V H. destruct (move_did s t m s1 H) as (j0 & j1 & E & D & J).
  assert (K : forall h, 
    (inside j0 = inside j1 /\ h = tb_lock s \/
     inside j0 = true /\ inside j1 = false /\ h = None \/
     inside j0 = false /\ inside j1 = true /\ tb_lock s = None /\ h = Some t) -> sound_job j1 ->
    tb_lock s1 = h -> (forall k i, lookup k (tb_cache s1) = Some i -> build_ioi k = Ok i) -> inv s1).
  { intros h C S L Q. destruct (lock_after s t j0 j1 h V E C S) as [A B].
    split; [exact Q| |]; rewrite J, L; [exact A|exact B]. }
  pose proof (inv_cache s V) as Q.
  destruct D as [j B|p d B|p d B|p d z B Z|p d|p d|p d i|p d r| |k x todo|k x todo|k|k]; cbn in K.
  - assert (X : inside j = false /\ sound_job j) by (destruct j; try discriminate B; split; exact I || reflexivity).
    apply (K (tb_lock s)); try reflexivity; [left; split; [symmetry|]; tauto|tauto|exact Q].
  - apply (K (Some t)); auto. right; right; auto.
  - destruct (after_firm_inside (tb_firm s) p d) as [A1 A2]. apply (K (tb_lock s)); auto.
  - destruct (after_firm_inside z p d) as [A1 A2]. apply (K (tb_lock s)); auto.
  - destruct (after_known_inside (lookup (lower p) (tb_known s)) p d) as [A1 A2]. apply (K (tb_lock s)); auto.
  - destruct (after_cached_inside (lookup (lower p) (tb_cache s)) p d) as [A1 A2]. apply (K (tb_lock s)); auto.
  - apply (K (tb_lock s)); auto.
    intros k' i' L. destruct (bseq k' (lower p)) eqn:G.
    + apply bseq_spec in G. subst k'. destruct (inv_jobs s V t _ E) as [S _]. cbn in S. congruence.
    + auto.
  - apply (K None); auto.
  - apply (K (tb_lock s)); auto.
  - apply (K (tb_lock s)); auto.
  - apply (K (tb_lock s)); auto.
  - apply (K (tb_lock s)); auto.
  - apply (K (tb_lock s)); auto.
Qed.
Lemma inv_run : forall ms s s1, inv s -> share_run s ms = Some s1 -> inv s1.
Proof.
  induction ms as [|[t m] ms IH]; intros s s1 V H; cbn in H; [congruence|].
  destruct (share_move s t m) as [s'|] eqn:E; [|discriminate]. eauto using inv_move.
Qed.

(** ** Nobody meets anybody *)
Lemma two_inside : forall s t u j k, inv s -> nth_error (tb_jobs s) t = Some j -> nth_error (tb_jobs s) u = Some k ->
  inside j = true -> inside k = true -> t = u.
Proof.
  intros s t u j k V E F A B. apply (inv_jobs s V) in E. apply (inv_jobs s V) in F.
  destruct E as [_ E], F as [_ F]. apply E in A. apply F in B. congruence.
Qed.

Definition jobs_all (P : nat -> job -> Prop) (s : tables) : Prop := forall t j, nth_error (tb_jobs s) t = Some j -> P t j.
Lemma jobs_all_move : forall (P : nat -> job -> Prop) s t m s1, jobs_all P s -> share_move s t m = Some s1 ->
  (forall j0 j1, did s t m s1 j0 j1 -> P t j0 -> P t j1) -> jobs_all P s1.
Proof.
  intros P s t m s1 A H K u j G. destruct (move_did s t m s1 H) as (j0 & j1 & E & D & J).
  rewrite J, set_get in G. destruct (u =? t)%nat eqn:U; [|exact (A u j G)].
  apply Nat.eqb_eq in U. subst u. rewrite E in G. injection G as <-. eauto.
Qed.
Lemma jobs_all0 : forall (P : nat -> job -> Prop) n, (forall t, P t Idle) -> jobs_all P (share0 n).
Proof.
  intros P n H t j G. cbn in G. assert (j = Idle).
  { clear H. revert t G. induction n as [|n IH]; intros [|t] G; cbn in G; try discriminate; [congruence|eauto]. }
  subst j. apply H.
Qed.

Definition quiet (t : nat) (j : job) : Prop := match j with Listing _ | Storing _ _ _ => False | _ => True end.
Lemma quiet_run : forall ms s s1, jobs_all quiet s -> no_listing ms -> share_run s ms = Some s1 -> jobs_all quiet s1.
Proof.
  induction ms as [|[t m] ms IH]; intros s s1 A N H; cbn in H; [injection H as <-; exact A|].
  destruct (share_move s t m) as [s'|] eqn:E; [|discriminate].
  apply (IH s' s1); [|intros u x I1; apply (N u x); right; exact I1|exact H].
  eapply jobs_all_move; eauto. intros j0 j1 D Q.
  destruct D as [j B|p d B|p d B|p d z B Z|p d|p d|p d i|p d r| |k x todo|k x todo|k|k]; try exact I; try exact Q.
  - specialize (N t (SCall j) (or_introl eq_refl)). destruct j; try exact I; try discriminate B. exact N.
  - unfold after_firm. destruct (20 <? tb_firm s); exact I.
  - unfold after_firm. destruct (20 <? z); exact I.
  - unfold after_known. destruct (lookup (lower p) (tb_known s)); [destruct (_ && _)|]; exact I.
  - unfold after_cached. destruct (lookup (lower p) (tb_cache s)); [|destruct (build_ioi (lower p))]; exact I.
Qed.
Lemma no_clash : forall n ms s, no_listing ms -> share_run (share0 n) ms = Some s -> ~ clash s.
Proof.
  intros n ms s N H (t & u & j & k & m & w & w' & D & E & F & A & B & C).
  pose proof (inv_run ms _ _ (inv0 n) H) as V.
  pose proof (quiet_run ms _ _ (jobs_all0 quiet n (fun _ => I)) N H) as Q.
  pose proof (Q t j E) as Q1. pose proof (Q u k F) as Q2.
  apply D. destruct m.
  - exfalso. destruct j; cbn in A; try discriminate A; try contradiction Q1; injection A as <-;
    destruct k; cbn in B; try discriminate B; try contradiction Q2; injection B as <-; discriminate C.
  - apply (two_inside s t u j k V E F);
    [destruct j; cbn in A; try discriminate A; reflexivity | destruct k; cbn in B; try discriminate B; reflexivity].
Qed.

Definition lone (l t : nat) (j : job) : Prop :=
  match j with Listing _ | Storing _ _ _ => t = l | Size _ | Sizing _ | Known _ _ => False | _ => True end.
Lemma lone_run : forall l ms s s1, jobs_all (lone l) s -> tb_firm s <= 20 -> one_listing l ms -> share_run s ms = Some s1 -> jobs_all (lone l) s1.
Proof.
  intro l. induction ms as [|[t m] ms IH]; intros s s1 A Z N H; cbn in H; [injection H as <-; exact A|].
  destruct (share_move s t m) as [s'|] eqn:E; [|discriminate].
  pose proof (N t m (or_introl eq_refl)) as N1.
  apply (IH s' s1); [| |intros u x I1; apply (N u x); right; exact I1|exact H].
  - eapply jobs_all_move; eauto. intros j0 j1 D Q.
    destruct D as [j B|p d B|p d B|p d z B Y|p d|p d|p d i|p d r| |k x todo|k x todo|k|k]; try exact I; try exact Q.
    + destruct j; try exact I; try discriminate B; exact N1.
    + unfold after_firm. replace (20 <? tb_firm s) with false by lia. exact I.
    + cbn in N1. unfold after_firm. replace (20 <? z) with false by lia. exact I.
    + contradiction Q.
    + unfold after_cached. destruct (lookup (lower p) (tb_cache s)); [|destruct (build_ioi (lower p))]; exact I.
  - destruct (move_did s t m s' E) as (j0 & j1 & E1 & D & J). destruct D; cbn in *; lia.
Qed.
Lemma one_clash : forall n l ms s, one_listing l ms -> share_run (share0 n) ms = Some s -> ~ clash s.
Proof.
  intros n l ms s N H (t & u & j & k & m & w & w' & D & E & F & A & B & C).
  pose proof (inv_run ms _ _ (inv0 n) H) as V.
  assert (Q : jobs_all (lone l) s) by (refine (lone_run l ms _ _ (jobs_all0 (lone l) n (fun _ => I)) _ N H); cbn; lia).
  pose proof (Q t j E) as Q1. pose proof (Q u k F) as Q2.
  apply D. destruct m.
  - destruct j; cbn in A; try discriminate A; try contradiction Q1; destruct k; cbn in B; try discriminate B; try contradiction Q2; cbn in *; congruence.
  - apply (two_inside s t u j k V E F);
    [destruct j; cbn in A; try discriminate A; reflexivity | destruct k; cbn in B; try discriminate B; reflexivity].
Qed.

(** ** Somebody can always go on *)
Lemma goes : forall s t j, nth_error (tb_jobs s) t = Some j -> j <> Idle -> (forall p d, j <> Want p d) -> can_go s.
Proof.
  intros s t j E A B.
  assert (X : exists m s1, share_move s t m = Some s1 /\ match m with SCall _ => False | _ => True end);
    [|destruct X as (m & s1 & X1 & X2); exists t, m, s1; auto].
  unfold share_move. rewrite E. destruct j; try congruence; try (exists SGo; eexists; split; [reflexivity|exact I]).
  - destruct (tb_firm s =? 0) eqn:Z.
    + exists (SFirm 0). eexists. split; [reflexivity|exact I].
    + exists SGo. eexists. split; [reflexivity|exact I].
  - destruct todo as [|[k x] todo]; exists SGo; eexists; (split; [reflexivity|exact I]).
Qed.
Lemma progress : forall n ms s t, share_run (share0 n) ms = Some s -> busy s t -> can_go s.
Proof.
  intros n ms s t H (j & E & A). pose proof (inv_run ms _ _ (inv0 n) H) as V.
  destruct j; try (eapply goes; [exact E|exact A|discriminate]).
  destruct (tb_lock s) as [u|] eqn:L.
  - destruct (inv_lock s V u L) as [k F]. destruct (inv_jobs s V u k F) as [_ G]. apply G in L.
    eapply goes; [exact F| |]; intros; intro; subst k; discriminate L.
  - exists t, SGo. eexists. split; [|exact I]. unfold share_move. rewrite E, L. reflexivity.
Qed.

(** ** What newIOI returns *)
Definition fast (s : tables) (p : bytes) (d : Z) : bool :=
  match lookup (lower p) (tb_known s) with
  | Some t => negb (kt_type t =? 0) && negb (d =? t_struct) && negb (d =? t_unknown) && negb (d =? t_string)
  | None => false
  end.
Lemma fresh_slow : forall s p d, 20 < tb_firm s -> fast s p d = true \/ fresh s p d = build_ioi (lower p).
Proof.
  intros s p d F. unfold fresh, new_ioi, fast. cbn [cl_firmware cl_known cl_cache].
  replace (20 <? tb_firm s) with true by lia.
  destruct (lookup (lower p) (tb_known s)) as [x|]; [destruct (_ && _)|]; [left; reflexivity| |]; right; cbn [lookup];
    destruct (build_ioi (lower p)); reflexivity.
Qed.
Lemma fresh_old : forall s p d, tb_firm s <= 20 -> fresh s p d = build_ioi (lower p).
Proof.
  intros s p d F. unfold fresh, new_ioi. cbn [cl_firmware cl_known cl_cache].
  replace (20 <? tb_firm s) with false by lia. cbn [lookup]. destruct (build_ioi (lower p)); reflexivity.
Qed.
Lemma fresh_fast : forall s p d x, 20 < tb_firm s -> lookup (lower p) (tb_known s) = Some x -> 
  negb (kt_type x =? 0) && negb (d =? t_struct) && negb (d =? t_unknown) && negb (d =? t_string) = true ->
  fresh s p d = Ok {| ioi_buf := known_tag_bytes x; ioi_bit := false; ioi_bitpos := 0 |}.
Proof.
  intros s p d x F L N. unfold fresh, new_ioi. cbn [cl_firmware cl_known cl_cache].
  replace (20 <? tb_firm s) with true by lia. rewrite L, N. reflexivity.
Qed.

Lemma back_move : forall s t m s1 u, share_move s t m = Some s1 ->
  back_to u s1 = back_to u s \/
  u = t /\ exists p d r, nth_error (tb_jobs s) t = Some (Leave p d r) /\ back_to u s1 = back_to u s ++ [(p, d, r)].
Proof.
  intros s t m s1 u H. destruct (move_did s t m s1 H) as (j0 & j1 & E & D & J).
  destruct D; try (left; reflexivity).
  unfold back_to. cbn. rewrite map_app, concat_app. cbn. destruct (t =? u)%nat eqn:U.
  - apply Nat.eqb_eq in U. subst u. right. split; [reflexivity|]. exists p, d, r. split; [exact E|reflexivity].
  - left. rewrite app_nil_r. reflexivity.
Qed.
Lemma back_grows : forall ms s s1 u, share_run s ms = Some s1 -> exists l, back_to u s1 = back_to u s ++ l.
Proof.
  induction ms as [|[t m] ms IH]; intros s s1 u H; cbn in H.
  - injection H as <-. exists []. rewrite app_nil_r. reflexivity.
  - destruct (share_move s t m) as [s'|] eqn:E; [|discriminate].
    destruct (IH s' s1 u H) as [l L]. destruct (back_move s t m s' u E) as [B|(_ & p & d & r & _ & B)]; rewrite L, B; [eauto|].
    exists ([(p, d, r)] ++ l). rewrite app_assoc. reflexivity.
Qed.

(** The call goroutine [t] is in, and what is settled about its result. *)
Definition stage (s : tables) (j : job) (p : bytes) (d : Z) (r : res ioi) (moment : Prop) : Prop :=
  match j with
  | Want p' d' | Firm p' d' => p' = p /\ d' = d
  | Known p' d' => p' = p /\ d' = d /\ 20 < tb_firm s
  | Cached p' d' | Caching p' d' _ => p' = p /\ d' = d /\ (r = build_ioi (lower p) -> moment)
  | Leave p' d' r' => p' = p /\ d' = d /\ (r = r' -> moment)
  | _ => False
  end.
Definition moment (s0 : tables) (ms : list (nat * smove)) (p : bytes) (d : Z) (r : res ioi) : Prop :=
  exists a b s1, ms = a ++ b /\ share_run s0 a = Some s1 /\ r = fresh s1 p d.

Lemma moment_cons : forall s0 t m s1 ms p d r, share_move s0 t m = Some s1 -> moment s1 ms p d r -> moment s0 ((t, m) :: ms) p d r.
Proof.
  intros s0 t m s1 ms p d r E (a & b & s2 & -> & R & F). exists ((t, m) :: a), b, s2. cbn. rewrite E. auto.
Qed.

Lemma firm_kept : forall s t m s1 u, inv s -> share_move s t m = Some s1 -> t <> u -> 
  forall j, nth_error (tb_jobs s) u = Some j -> inside j = true -> tb_firm s1 = tb_firm s.
Proof.
  intros s t m s1 u V H D j F I1. destruct (move_did s t m s1 H) as (j0 & j1 & E & X & J).
  destruct X; try reflexivity. exfalso. apply D. apply (two_inside s t u (Firm p d) j V E F); [reflexivity|exact I1].
Qed.

Lemma answers : forall ms s t j p d p' d' r rest s', inv s -> nth_error (tb_jobs s) t = Some j -> 
  forall M : Prop, stage s j p d r (M : Prop) -> share_run s ms = Some s' ->
  back_to t s' = back_to t s ++ (p', d', r) :: rest -> p' = p /\ d' = d /\ (M \/ moment s ms p d r).
Proof.
  induction ms as [|[u m] ms IH]; intros s t j p d p' d' r rest s' V E M G H B; cbn in H.
  - injection H as <-. exfalso. assert (L : length (back_to t s) = length (back_to t s ++ (p', d', r) :: rest)) by (f_equal; exact B).
    rewrite app_length in L. cbn in L. lia.
  - destruct (share_move s u m) as [s1|] eqn:S; [|discriminate].
    pose proof (inv_move s u m s1 V S) as V1.
    destruct (move_did s u m s1 S) as (j0 & j1 & E0 & D & J).
    destruct (Nat.eq_dec u t) as [->|N].
    + rewrite E in E0. injection E0 as <-.
      assert (E1 : nth_error (tb_jobs s1) t = Some j1) by (rewrite J, set_get, Nat.eqb_refl, E; reflexivity).
      assert (K : forall M' : Prop, stage s1 j1 p d r M' -> back_to t s1 = back_to t s -> (M' -> M \/ moment s ((t, m) :: ms) p d r) ->
        p' = p /\ d' = d /\ (M \/ moment s ((t, m) :: ms) p d r)).
      { intros M' G' B' KM. rewrite <- B' in B.
        destruct (IH s1 t j1 p d p' d' r rest s' V1 E1 M' G' H B) as (A1 & A2 & A3). split; [exact A1|split; [exact A2|]].
        destruct A3 as [A3|A3]; [auto|right; eapply moment_cons; eauto]. }
      assert (NOW : forall x, x = r -> fresh s1 p d = x -> moment s ((t, m) :: ms) p d r).
      { intros x -> F. exists [(t, m)], ms, s1. cbn. rewrite S. auto. }
      destruct D as [j B0|p0 d0 B0|p0 d0 B0|p0 d0 z B0 Y|p0 d0|p0 d0|p0 d0 i|p0 d0 r0| |k x todo|k x todo|k|k]; cbn in G; try contradiction G.
      * apply (K M); [exact G|reflexivity|auto].
      * destruct G as [-> ->]. unfold after_firm in *. destruct (20 <? tb_firm s) eqn:Q.
        -- apply (K M); [cbn; repeat split; lia|reflexivity|auto].
        -- apply (K (moment s ((t, SGo) :: ms) p d r)); [cbn; repeat split; intro R; apply (NOW _ eq_refl); rewrite R; apply fresh_old; cbn; lia|reflexivity|auto].
      * destruct G as [-> ->]. unfold after_firm in *. destruct (20 <? z) eqn:Q.
        -- apply (K M); [cbn; repeat split; lia|reflexivity|auto].
        -- apply (K (moment s ((t, SFirm z) :: ms) p d r)); [cbn; repeat split; intro R; apply (NOW _ eq_refl); rewrite R; apply fresh_old; cbn; lia|reflexivity|auto].
      * destruct G as (-> & -> & F20).
        assert (BEFORE : fresh s p d = r -> moment s ((t, SGo) :: ms) p d r).
        { intros F. exists [], ((t, SGo) :: ms), s. cbn. auto. }
        destruct (fresh_slow s p d F20) as [FA|FA]; unfold fast in FA.
        -- destruct (lookup (lower p) (tb_known s)) as [x|] eqn:LK; [|discriminate FA].
           unfold after_known in *. rewrite FA in *.
           apply (K (moment s ((t, SGo) :: ms) p d r)); [cbn; repeat split; intro R; apply BEFORE; rewrite R; apply (fresh_fast s p d x F20 LK FA)|reflexivity|auto].
        -- unfold after_known in *. destruct (lookup (lower p) (tb_known s)) as [x|] eqn:LK.
           ++ destruct (negb (kt_type x =? 0) && negb (d =? t_struct) && negb (d =? t_unknown) && negb (d =? t_string)) eqn:FB.
              ** apply (K (moment s ((t, SGo) :: ms) p d r)); [cbn; repeat split; intro R; apply BEFORE; rewrite R; apply (fresh_fast s p d x F20 LK FB)|reflexivity|auto].
              ** apply (K (moment s ((t, SGo) :: ms) p d r)); [cbn; repeat split; intro R; apply BEFORE; congruence|reflexivity|auto].
           ++ apply (K (moment s ((t, SGo) :: ms) p d r)); [cbn; repeat split; intro R; apply BEFORE; congruence|reflexivity|auto].
      * destruct G as (-> & -> & GM). unfold after_cached in *. destruct (lookup (lower p) (tb_cache s)) as [i|] eqn:LK.
        -- apply (inv_cache s V) in LK. apply (K M); [cbn; repeat split; intro R; apply GM; congruence|reflexivity|auto].
        -- destruct (build_ioi (lower p)) as [i|e| |] eqn:BI; apply (K M); try reflexivity; auto; cbn; repeat split; rewrite ?BI; auto.
      * destruct G as (-> & -> & GM). destruct (inv_jobs s V t _ E) as [SJ _]. cbn in SJ.
        apply (K M); [cbn; repeat split; intro R; apply GM; congruence|reflexivity|auto].
      * destruct G as (-> & -> & GM).
        destruct (back_grows ms _ s' t H) as [l L]. rewrite L in B. unfold back_to in B. cbn in B.
        rewrite map_app, concat_app in B. cbn in B. rewrite Nat.eqb_refl, <- app_assoc in B. cbn in B.
        apply app_inv_head in B. injection B as -> -> -> _. repeat split; auto.
    + assert (E1 : nth_error (tb_jobs s1) t = Some j).
      { rewrite J, set_get. replace (t =? u)%nat with false by (symmetry; apply Nat.eqb_neq; congruence). exact E. }
      destruct (back_move s u m s1 t S) as [B1|(B1 & _)]; [|congruence].
      rewrite <- B1 in B.
      assert (G' : stage s1 j p d r M).
      { destruct j; try exact G. cbn in G |- *. rewrite (firm_kept s u m s1 t V S N _ E); auto. }
      destruct (IH s1 t j p d p' d' r rest s' V1 E1 M G' H B) as (A1 & A2 & A3). split; [exact A1|split; [exact A2|]].
      destruct A3 as [A3|A3]; [auto|right; eapply moment_cons; eauto].
Qed.
