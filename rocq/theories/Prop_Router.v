(** * C125: registering routes *)
From Verif Require Import GoBase IoiModel TypesModel ItemsModel EipModel OpenModel TableModel ProvModel ProvSpec ProvProof SrvModel SrvSpec ReqSpec LinkModel Prop_Srv Prop_Req Prop_Route RouterModel RouterSpec.

Section laws.
Context {A : Type}.
Implicit Types (m : list (bytes * A)) (r : router A).

Lemma bseq_false (a b : bytes) : a <> b -> bseq a b = false.
Proof. intro N. destruct (bseq a b) eqn:E; [|reflexivity]. now apply bseq_spec in E. Qed.
Lemma assign_same m k (v : A) : lookup k (assign m k v) = Some v.
Proof.
  induction m as [|[k' v'] t IH]; cbn [assign lookup]; [now rewrite bseq_refl|].
  destruct (bseq k k') eqn:E; cbn [lookup]; rewrite E; auto.
Qed.
Lemma assign_other m k (v : A) k' : k' <> k -> lookup k' (assign m k v) = lookup k' m.
Proof.
  intro N. induction m as [|[k1 v1] t IH]; cbn [assign lookup]; [now rewrite bseq_false|].
  destruct (bseq k k1) eqn:E; cbn [lookup].
  - apply bseq_spec in E as <-. now rewrite bseq_false.
  - now rewrite IH.
Qed.
Lemma handle_same r k (v : A) : find_route (handle r k v) k = Ok v.
Proof. unfold find_route, handle. now rewrite assign_same. Qed.
Lemma handle_other r k (v : A) k' : k' <> k -> find_route (handle r k v) k' = find_route r k'.
Proof. intro N. unfold find_route, handle. now rewrite assign_other. Qed.

Definition after_calls r (calls : list (bytes * A)) : router A := fold_left (fun r c => handle r (fst c) (snd c)) calls r.
Lemma after_calls_never r calls k : never_given calls k -> find_route (after_calls r calls) k = find_route r k.
Proof.
  revert r. induction calls as [|[k' v] t IH]; intros r N; [reflexivity|]. cbn [after_calls fold_left fst snd].
  change (find_route (after_calls (handle r k' v) t) k = find_route r k).
  rewrite IH by (intros q I; apply (N q); now right).
  apply handle_other. intros ->. apply (N v). now left.
Qed.
End laws.

(** Of routes registered in any order and any number of times, starting from
    NewRouter or from an empty PathRouter, a route leads to the endpoint last
    registered for it, byte for byte, and to an error when there is none. *)
Theorem C125_last : forall A (calls : list (bytes * A)) r path, r = new_router \/ r = None ->
  (forall p, last_given calls path p -> find_route (after_calls r calls) path = Ok p) /\
  (never_given calls path -> exists e, find_route (after_calls r calls) path = Err e).
Proof.
  intros A calls r path R. split.
  - intros p (b & a & -> & N). unfold after_calls. rewrite fold_left_app. cbn [fold_left fst snd].
    change (find_route (after_calls (handle (fold_left (fun r c => handle r (fst c) (snd c)) b r) path p) a) path = Ok p).
    rewrite after_calls_never by exact N. apply handle_same.
  - intro N. rewrite after_calls_never by exact N. exists EMsg. destruct R as [-> | ->]; reflexivity.
Qed.
Print Assumptions C125_last.

(** ** A server at work

    A route given to another provider while clients are connected: their next
    request is for the new provider's tags; clients of other routes notice
    nothing. *)
Definition reroute (path : bytes) (j : nat) (s : server) : server :=
  Server (sv_cm s) (assign (sv_router s) path j) (sv_provs s) (sv_attrs s) (sv_rand s) (sv_drawn s) (sv_io s) (sv_conv s) (sv_ip s) (sv_port s).
Lemma resolve_route s path : resolve s path = find_route (Some (sv_router s)) path.
Proof. reflexivity. Qed.
Lemma reroute_resolve s path j path' : resolve (reroute path j s) path' = find_route (handle (Some (sv_router s)) path j) path'.
Proof. reflexivity. Qed.

Theorem C125_switch : forall session context otid i j s h route, linked session context otid i (s, h) ->
  (j < length (sv_provs s))%nat -> separate (prov_at s j) ->
  (exists cn, conn_by_ot s otid = Ok cn /\ sc_path cn = route) ->
  linked session context otid j (reroute route j s, h) /\
  (forall route', route' <> route -> linked session context otid i (reroute route' j s, h)).
Proof.
  intros session context otid i j s h route (H1 & H2 & H3 & H4 & (to & Li & cn & C & T & R) & Sep) Lj Sj (cn' & C' & P').
  cbn [fst snd] in *. rewrite C in C'. injection C' as <-. split.
  - split; [exact H1|]. split; [exact H2|]. split; [exact H3|]. split; [exact H4|]. split; [|exact Sj]. exists to. split; [exact Lj|]. exists cn. split; [exact C|]. split; [exact T|].
    cbn [fst]. rewrite P', reroute_resolve. apply handle_same.
  - intros route' N. split; [exact H1|]. split; [exact H2|]. split; [exact H3|]. split; [exact H4|]. split; [|exact Sep]. exists to. split; [exact Li|]. exists cn. split; [exact C|]. split; [exact T|].
    cbn [fst]. rewrite P', reroute_resolve, handle_other by congruence. rewrite <- resolve_route. now rewrite <- P'.
Qed.
Print Assumptions C125_switch.

(** ** At the same time

    Routes registered before anybody uses them: no two goroutines meet in the
    map, whatever the others then do, and each gets what was last registered. *)
Section conc.
Context {A : Type}.
Implicit Types (d : desk A) (ms : list (move A)).
Lemma moves_app d ms ms' : moves d (ms ++ ms') = match moves d ms with Some d' => moves d' ms' | None => None end.
Proof.
  revert d. induction ms as [|m r IH]; intro d; [reflexivity|]. cbn [app moves]. destruct (move1 d m); [apply IH|reflexivity].
Qed.
Lemma in_use_In (l : list (nat * use A)) t u : in_use l t = Some u -> In (t, u) l.
Proof.
  induction l as [|[t' u'] r IH]; [discriminate|]. cbn [in_use]. destruct (Nat.eqb t t') eqn:E.
  - apply Nat.eqb_eq in E as <-. intro X. injection X as ->. now left.
  - intro X. right. auto.
Qed.
Definition reading d : Prop := forall t path p, ~ In (t, UHandle path p) (d_in d).
Definition told (r : router A) d : Prop := d_router d = r /\ forall t path x, In (t, path, x) (d_found d) -> x = find_route r path.
Lemma serving_step (r : router A) d m d' ms : serving (m :: ms) -> reading d -> told r d -> move1 d m = Some d' ->
  serving ms /\ reading d' /\ told r d'.
Proof.
  intros S R (T1 & T2) E. split; [intros t path p I; apply (S t path p); now right|].
  destruct m as [t u|t]; cbn [move1] in E; destruct (in_use (d_in d) t) as [u'|] eqn:U; try discriminate.
  - injection E as <-. split; [|split; [exact T1|exact T2]].
    intros t' path p [I|I]; [injection I as <- ->; apply (S t path p); now left|now apply (R t' path p)].
  - destruct u' as [path p|path]; injection E as <-.
    + elim (R t path p). now apply in_use_In.
    + split; [intros t' path' p I; apply filter_In in I as [I _]; now apply (R t' path' p)|].
      split; [exact T1|]. cbn [d_found]. intros t' path' x I. apply in_app_or in I as [I|[I|[]]]; [eauto|].
      injection I as <- <- <-. now rewrite T1.
Qed.
Lemma serving_run (r : router A) ms : forall d d', serving ms -> reading d -> told r d -> moves d ms = Some d' -> reading d' /\ told r d'.
Proof.
  induction ms as [|m ms IH]; intros d d' S R T E.
  - cbn in E. injection E as <-. auto.
  - cbn [moves] in E. destruct (move1 d m) as [d1|] eqn:M; [|discriminate].
    destruct (serving_step r d m d1 ms S R T M) as (S1 & R1 & T1). eauto.
Qed.
Lemma setup_run (t : nat) (calls : list (bytes * A)) : forall r fs, moves (Desk r [] fs) (setting_up t calls) = Some (Desk (after_calls r calls) [] fs).
Proof.
  induction calls as [|[k v] c IH]; intros r fs; [reflexivity|].
  cbn [setting_up moves move1 in_use d_in d_router d_found]. rewrite Nat.eqb_refl. cbn [out filter fst]. unfold out. cbn [filter fst]. rewrite Nat.eqb_refl. cbn [negb].
  rewrite IH. reflexivity.
Qed.
Lemma reading_meet d : reading d -> ~ meet d.
Proof. intros R (t & u & path & p & x & _ & I & _). exact (R t path p I). Qed.
Lemma prefix_of_setup (t : nat) (calls : list (bytes * A)) : forall r fs ms ms' d, setting_up t calls = ms ++ ms' -> moves (Desk r [] fs) ms = Some d -> ~ meet d.
Proof.
  induction calls as [|[k v] c IH]; intros r fs ms ms' d E M.
  - cbn in E. destruct ms; [|discriminate]. cbn in M. injection M as <-. apply reading_meet. intros ? ? ? [].
  - cbn [setting_up] in E. destruct ms as [|m1 ms]; [cbn in M; injection M as <-; apply reading_meet; intros ? ? ? []|].
    cbn in E. injection E as <- E. cbn [moves move1 in_use d_in] in M.
    destruct ms as [|m2 ms].
    + cbn in M. injection M as <-. intros (a & b & path & p & x & N & [I|[]] & [J|[]]). congruence.
    + cbn in E. injection E as <- E. cbn [moves move1 in_use d_in] in M. rewrite Nat.eqb_refl in M. unfold out in M; cbn [filter fst] in M.
      rewrite Nat.eqb_refl in M. cbn [negb] in M. eapply IH; eauto.
Qed.
End conc.

Theorem C125_before_serving_partial : forall A t (calls : list (bytes * A)) ms before after d,
  serving ms -> setting_up t calls ++ ms = before ++ after -> moves (Desk new_router [] []) before = Some d ->
  ~ meet d /\ forall u path x, In (u, path, x) (d_found d) -> x = find_route (after_calls new_router calls) path.
Proof.
  intros A t calls ms before after d S E M.
  assert (C : (exists l, setting_up t calls = before ++ l) \/ (exists l, before = setting_up t calls ++ l /\ ms = l ++ after)).
  { revert E. generalize (setting_up t calls). clear. intro l. revert l. induction before as [|b r IH]; intros l E.
    - left. exists l. reflexivity.
    - destruct l as [|a l]; [right; exists (b :: r); auto|]. cbn in E. injection E as -> E.
      destruct (IH l E) as [(l' & ->)|(l' & -> & ->)]; [left; exists l'; reflexivity|right; exists l'; auto]. }
  destruct C as [(l & C)|(l & -> & ->)].
  - split; [exact (prefix_of_setup t calls _ _ _ _ _ C M)|].
    assert (F : forall (c : list (bytes * A)) r fs ms' l' d', setting_up t c = ms' ++ l' -> moves (Desk r [] fs) ms' = Some d' -> d_found d' = fs).
    { clear. induction c as [|[k v] c IH]; intros r fs ms' l' d' E M.
      - destruct ms'; [|discriminate]. cbn in M. injection M as <-. reflexivity.
      - destruct ms' as [|m1 ms']; [cbn in M; injection M as <-; reflexivity|].
        cbn in E. injection E as <- E. cbn [moves move1 in_use d_in] in M.
        destruct ms' as [|m2 ms']; [cbn in M; injection M as <-; reflexivity|].
        cbn in E. injection E as <- E. cbn [moves move1 in_use d_in] in M. rewrite Nat.eqb_refl in M. unfold out in M; cbn [filter fst] in M.
        rewrite Nat.eqb_refl in M. cbn [negb] in M. eapply IH; eauto. }
    intros u path x I. rewrite (F _ _ _ _ _ _ C M) in I. destruct I.
  - rewrite moves_app, setup_run in M.
    assert (S' : serving l) by (intros a b c I; apply (S a b c), in_or_app; now left).
    destruct (serving_run (after_calls new_router calls) l (Desk (after_calls new_router calls) [] []) d S') as (R & _ & T).
    + intros ? ? ? [].
    + split; [reflexivity|]. intros ? ? ? [].
    + exact M.
    + split; [now apply reading_meet|exact T].
Qed.
Print Assumptions C125_before_serving_partial.
(** Full statement: routes can be registered at any time.  The router has no
    lock: one registered while a request is being served meets it. *)
Theorem C125_refuted : exists (ms : list (move nat)) d, moves (Desk new_router [] []) ms = Some d /\ meet d.
Proof.
  exists [Enter 0%nat (UHandle [1; 0] 0%nat); Leave 0%nat; Enter 1%nat (UResolve [1; 0]); Enter 0%nat (UHandle [1; 1] 1%nat)].
  eexists. split; [reflexivity|]. exists 0%nat, 1%nat, [1; 1], 1%nat, (UResolve [1; 0]). split; [discriminate|]. split; [now left|right; now left].
Qed.
Print Assumptions C125_refuted.
Example ex_C125_last : last_given [([1; 0], 1%nat); ([1; 1], 2%nat); ([1; 0], 3%nat); ([1; 2], 4%nat)] [1; 0] 3%nat /\
  find_route (after_calls None [([1; 0], 1%nat); ([1; 1], 2%nat); ([1; 0], 3%nat); ([1; 2], 4%nat)]) [1; 0] = Ok 3%nat /\
  find_route (after_calls None [([1; 0], 1%nat); ([1; 1], 2%nat); ([1; 0], 3%nat); ([1; 2], 4%nat)]) [1; 1] = Ok 2%nat.
Proof.
  split; [|split; reflexivity]. exists [([1; 0], 1%nat); ([1; 1], 2%nat)], [([1; 2], 4%nat)]. split; [reflexivity|].
  intros q [E|[]]. discriminate.
Qed.
Example ex_C125_serving : let ms := [Enter 1%nat (UResolve [1; 0]); Enter 2%nat (UResolve [1; 1]); Leave 2%nat; Leave 1%nat] in
  serving (A := nat) ms /\ option_map (fun d => d_found d) (moves (Desk new_router [] []) (setting_up 0 [([1; 0], 7%nat)] ++ ms)) =
    Some [(2%nat, [1; 1], Err EMsg); (1%nat, [1; 0], Ok 7%nat)].
Proof. cbv zeta. split; [|reflexivity]. intros t path p I. cbn in I. intuition discriminate. Qed.
Example ex_C125_switch : let s := two_server [([1; 0], 0%nat); ([1; 1], 1%nat)] 5 in let s' := reroute [1; 0] 1 s in
  linked 77 9 5 0 (s, demo_handler) /\ separate (prov_at s 1) /\ (exists cn, conn_by_ot s 5 = Ok cn /\ sc_path cn = [1; 0]) /\
  linked 77 9 5 1 (s', demo_handler) /\ sv_provs s' = sv_provs s.
Proof.
  cbv zeta.
  assert (L : linked 77 9 5 0 (two_server [([1; 0], 0%nat); ([1; 1], 1%nat)] 5, demo_handler)).
  { split; [lia|]. split; [lia|]. split; [lia|]. split; [split; cbn; lia|]. split; [|exact demo_separate]. exists 6. split; [cbn; lia|].
    exists (SConn 1 5 6 1000 [1; 0] true). split; [vm_compute; reflexivity|]. split; vm_compute; reflexivity. }
  assert (Se : separate (prov_at (two_server [([1; 0], 0%nat); ([1; 1], 1%nat)] 5) 1)).
  { assert (E : run_writes (sv_conv demo_server) (Prov [] []) [(str "speed", GiveOne (GInt true 4 5))] = (other_prov 5, [true])) by (vm_compute; reflexivity).
    exact (proj1 (run_history _ _ _ _ _ separate_empty E)). }
  assert (Cn : exists cn, conn_by_ot (two_server [([1; 0], 0%nat); ([1; 1], 1%nat)] 5) 5 = Ok cn /\ sc_path cn = [1; 0]).
  { eexists. split; vm_compute; reflexivity. }
  split; [exact L|]. split; [exact Se|]. split; [exact Cn|].
  split; [|reflexivity]. apply (C125_switch 77 9 5 0 1 _ _ [1; 0] L); [cbn; lia|exact Se|exact Cn].
Qed.
