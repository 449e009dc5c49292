(** C101: Serve. *)
From Verif Require ProvProof.
From Verif Require Import GoBase TypesModel TableModel ProvModel SrvModel ServeModel ServeSpec Prop_Srv.

Lemma upd_same {A} n (x : A) l : (n < length l)%nat -> nth_error (upd n x l) n = Some x.
Proof. revert n. induction l as [|y l IH]; intros [|n] H; cbn in *; try lia; [reflexivity|]. apply IH. lia. Qed.
Lemma upd_other {A} n m (x : A) l : n <> m -> nth_error (upd n x l) m = nth_error l m.
Proof. revert n m. induction l as [|y l IH]; intros [|n] [|m] H; cbn; try reflexivity; try lia. apply IH. lia. Qed.
Lemma upd_length {A} n (x : A) l : length (upd n x l) = length l.
Proof. revert n. induction l as [|y l IH]; intros [|n]; cbn; congruence. Qed.
Lemma nth_error_last {A} (l : list A) x : nth_error (l ++ [x]) (length l) = Some x.
Proof. rewrite nth_error_app2, Nat.sub_diag by lia. reflexivity. Qed.
Lemma running h : up h -> ho_down h || si_down (ho_site h) = false.
Proof. intros [-> ->]. reflexivity. Qed.
Lemma goes h c : up h -> host_step h (Goes c) = serve_step h c.
Proof. intro U. unfold host_step. now rewrite (running _ U). Qed.
Ltac goes_on U := match goal with |- context [host_step (Hosted ?a ?b ?c ?d ?e ?f ?g ?i ?j ?k ?l) (Goes ?m)] =>
  rewrite (goes (Hosted a b c d e f g i j k l) m) by (split; [reflexivity|exact U]) end.
Lemma run_app h a b : host_run h (a ++ b) = host_run (host_run h a) b.
Proof. apply fold_left_app. Qed.
Lemma reached_run s : forall ds2 ds h, reached s ds h -> reached s (ds ++ ds2) (host_run h ds2).
Proof.
  induction ds2 as [|d ds2 IH]; intros ds h R; [now rewrite app_nil_r|].
  change (d :: ds2) with ([d] ++ ds2). rewrite app_assoc, run_app. apply IH. now apply re_step.
Qed.

(** ** C101

    Full statement: Serve opens both ports, or returns an error and has neither;
    it can be called again then.  While it serves, every client that connects gets
    a handler of its own.  When a listener is closed it returns an error, with
    both ports given up.  False of the last, of the first if the UDP port is
    taken, and of a second call while serving (below). *)
Theorem C101_taken_partial : forall h, up h -> ~ free (ho_tcp h) ->
  let h' := host_run h [Calls; Goes (next_call h)] in
  returned h' (next_call h) /\ ho_tcp h' = ho_tcp h /\ ho_udp h' = ho_udp h /\ ho_accepts h' = ho_accepts h /\ ho_reads h' = ho_reads h /\ up h'.
Proof.
  intros h [U1 U2] N. unfold next_call, free in *. destruct h as [st t u tl ul n calls acc rds ch dn]. cbn [ho_down ho_site ho_tcp] in U1, U2, N. subst dn. cbn [ho_calls].
  assert (E : host_run (Hosted st t u tl ul n calls acc rds ch false) [Calls; Goes (length calls)] =
    Hosted (empty_table st) t u None ul n (upd (length calls) (Returned false false false) (calls ++ [ToTcp])) acc rds ch false).
  { cbn [host_run fold_left]. unfold host_step. cbn [ho_down ho_site orb]. rewrite U2. cbn [ho_down ho_site orb empty_table si_down]. rewrite U2.
    unfold serve_step. cbn [ho_calls]. rewrite nth_error_last. cbn [ho_tcp]. destruct t; [congruence|reflexivity|reflexivity]. }
  cbv zeta. rewrite E. split; [do 3 eexists; cbn [ho_calls]; apply upd_same; rewrite app_length; cbn; lia|]. repeat split. exact U2.
Qed.
Print Assumptions C101_taken_partial.
Theorem C101_opens_partial : forall h, up h -> free (ho_tcp h) -> free (ho_udp h) ->
  let c := next_call h in let h' := host_run h [Calls; Goes c; Goes c; Goes c] in
  serving h' c /\ ours (ho_tcp h') /\ ours (ho_udp h') /\ up h'.
Proof.
  intros h [U1 U2] F1 F2. unfold next_call, free in *. destruct h as [st t u tl ul n calls acc rds ch dn]. cbn [ho_down ho_site ho_tcp ho_udp] in U1, U2, F1, F2. subst t u dn. cbn [ho_calls].
  assert (E : host_run (Hosted st Nobody Nobody tl ul n calls acc rds ch false) [Calls; Goes (length calls); Goes (length calls); Goes (length calls)] =
    Hosted (empty_table st) (Ours n) (Ours (S n)) (Some n) (Some (S n)) (S (S n)) (upd (length calls) Waiting (upd (length calls) ToStart (upd (length calls) ToUdp (calls ++ [ToTcp]))))
      (acc ++ [(length calls, Top)]) (rds ++ [(length calls, Top)]) ch false).
  { cbn [host_run fold_left]. unfold host_step at 4. cbn [ho_down ho_site orb]. rewrite U2. cbn [ho_tcp ho_udp ho_tl ho_ul ho_made ho_calls ho_accepts ho_reads ho_chan].
    goes_on U2. unfold serve_step. cbn [ho_calls]. rewrite nth_error_last.
    cbn [is_free ho_tcp ho_udp ho_tl ho_ul ho_made ho_calls ho_accepts ho_reads ho_chan ho_site ho_down].
    goes_on U2. unfold serve_step. cbn [ho_calls]. rewrite upd_same by (rewrite app_length; cbn; lia).
    cbn [is_free ho_tcp ho_udp ho_tl ho_ul ho_made ho_calls ho_accepts ho_reads ho_chan ho_site ho_down].
    goes_on U2. unfold serve_step. cbn [ho_calls]. rewrite upd_same by (rewrite upd_length, app_length; cbn; lia). reflexivity. }
  cbv zeta. rewrite E. split; [|split; [|split]].
  - unfold serving. cbn [ho_calls]. apply upd_same. rewrite !upd_length, app_length. cbn. lia.
  - now exists n.
  - now exists (S n).
  - split; [reflexivity|exact U2].
Qed.
Print Assumptions C101_opens_partial.

(** Nobody ever sends on the error channel, and a call that waits goes on waiting. *)
Lemma silent s ds h : reached s ds h -> ho_chan h = [].
Proof.
  induction 1 as [t u|ds h d R IH]; [reflexivity|]. unfold host_step. destruct (ho_down h || si_down (ho_site h)); [exact IH|].
  destruct d as [|c|a|a st|a|a|a|[]|[]|[]|e]; cbn [ho_chan set_ports]; try exact IH.
  - unfold serve_step. destruct (nth_error (ho_calls h) c) as [[]|]; try exact IH.
    + destruct (is_free (ho_tcp h)); exact IH.
    + destruct (is_free (ho_udp h)); exact IH.
    + rewrite IH. cbn [existsb]. exact IH.
    + destruct (ho_tl h); exact IH.
    + destruct (ho_ul h); exact IH.
  - destruct (nth_error (ho_accepts h) a) as [[c []]|]; try exact IH. destruct (ho_tl h); exact IH.
  - destruct (nth_error (ho_accepts h) a) as [[c []]|]; try exact IH. destruct (has _ _); exact IH.
  - destruct (nth_error (ho_accepts h) a) as [[c []]|]; exact IH.
  - destruct (nth_error (ho_reads h) a) as [[c []]|]; try exact IH. destruct (ho_ul h); exact IH.
  - destruct (nth_error (ho_reads h) a) as [[c []]|]; exact IH.
Qed.
Lemma waits_step h d c : ho_chan h = [] -> serving h c -> serving (host_step h d) c.
Proof.
  intros Q S. unfold host_step. destruct (ho_down h || si_down (ho_site h)); [exact S|].
  destruct d as [|c'|a|a st|a|a|a|[]|[]|[]|e]; try exact S.
  - unfold serving in *. cbn [ho_calls]. rewrite nth_error_app1; [exact S|]. apply nth_error_Some. congruence.
  - unfold serve_step. destruct (Nat.eq_dec c' c) as [->|N].
    + unfold serving in S. rewrite S, Q. exact S.
    + destruct (nth_error (ho_calls h) c') as [[]|]; try exact S.
      * destruct (is_free (ho_tcp h)); unfold serving; cbn [ho_calls]; now rewrite upd_other.
      * destruct (is_free (ho_udp h)); unfold serving; cbn [ho_calls]; now rewrite upd_other.
      * unfold serving; cbn [ho_calls]; now rewrite upd_other.
      * rewrite Q. exact S.
      * destruct (ho_tl h); [|exact S]. unfold serving; cbn [ho_calls]; now rewrite upd_other.
      * destruct (ho_ul h); [|exact S]. unfold serving; cbn [ho_calls]; now rewrite upd_other.
  - destruct (nth_error (ho_accepts h) a) as [[c' []]|]; try exact S. destruct (ho_tl h); exact S.
  - destruct (nth_error (ho_accepts h) a) as [[c' []]|]; try exact S. destruct (has _ _); exact S.
  - destruct (nth_error (ho_accepts h) a) as [[c' []]|]; exact S.
  - destruct (nth_error (ho_reads h) a) as [[c' []]|]; try exact S. destruct (ho_ul h); exact S.
  - destruct (nth_error (ho_reads h) a) as [[c' []]|]; exact S.
Qed.
Theorem C101_never_returns : forall s ds h c, reached s ds h -> serving h c -> forall more, serving (host_run h more) c.
Proof.
  intros s ds h c R S more. revert ds h R S. induction more as [|d more IH]; intros ds h R S; [exact S|].
  cbn [host_run fold_left]. apply (IH (ds ++ [d])); [now apply re_step|]. apply waits_step; [now apply (silent s ds)|exact S].
Qed.
Print Assumptions C101_never_returns.
(** Both listeners closed, and Serve never returns. *)
Definition started : list deed := [Calls; Goes 0; Goes 0; Goes 0].
Theorem C101_returns_refuted : exists s ds h, reached s ds h /\ up h /\ calls_in ds = 1%nat /\ serving h 0 /\
  free (ho_tcp h) /\ free (ho_udp h) /\ forall more, ~ returned (host_run h more) 0.
Proof.
  exists demo_server, (started ++ [Closes true; Closes false]). eexists.
  split; [exact (reached_run demo_server _ _ _ (re_start demo_server Nobody Nobody))|].
  split; [split; reflexivity|]. split; [reflexivity|]. split; [reflexivity|]. split; [reflexivity|]. split; [reflexivity|].
  intros more (a & b & d & E). pose proof (C101_never_returns demo_server _ _ 0%nat (reached_run demo_server (started ++ [Closes true; Closes false]) _ _ (re_start demo_server Nobody Nobody)) eq_refl more) as S.
  assert (X : Some Waiting = Some (Returned a b d)) by (rewrite <- E; symmetry; exact S). discriminate.
Qed.
Print Assumptions C101_returns_refuted.

(** While the one call serves, every client is accepted, also after accepts that
    failed. *)
Definition before_serving (p : progress) : Prop := match p with ToTcp | ToUdp | ToStart | Returned _ _ _ => True | _ => False end.
Definition once (h : hosted) : Prop :=
  match ho_calls h with
  | [] => ho_accepts h = []
  | [Waiting] => exists k l, ho_tl h = Some k /\ ho_tcp h = Ours k /\ ho_accepts h = [(0%nat, l)] /\ (l = Top \/ l = Inside k)
  | [ToUdp] | [ToStart] => exists k, ho_tl h = Some k /\ ho_tcp h = Ours k /\ ho_accepts h = []
  | [p] => before_serving p /\ ho_accepts h = []
  | _ => False
  end.
Lemma give_up_other o k : ~ (exists j, o = Ours j /\ k = Some j) -> give_up o k = o.
Proof. destruct o as [| |j], k as [k|]; cbn; intro H; try reflexivity. destruct (j =? k)%nat eqn:E; [|reflexivity]. elim H. exists j. split; [reflexivity|]. f_equal. lia. Qed.
Lemma calls_in_app ds d : calls_in (ds ++ [d]) = (calls_in ds + match d with Calls => 1 | _ => 0 end)%nat.
Proof. unfold calls_in. rewrite filter_app, app_length. destruct d; reflexivity. Qed.
Lemma once_step h d : once h -> ho_chan h = [] -> d <> Closes true -> (d = Calls -> ho_calls h = []) -> once (host_step h d).
Proof.
  intros O Q N F. unfold host_step. destruct (ho_down h || si_down (ho_site h)); [exact O|].
  destruct h as [st t u tl ul n calls acc rds ch dn]. cbn [ho_chan] in Q. subst ch. cbn [ho_calls] in F.
  destruct d as [|c|a|a str|a|a|a|[]|[]|[]|e]; try congruence; try exact O.
  - specialize (F eq_refl). subst calls. unfold once in *. cbn in *. auto.
  - unfold serve_step. cbn [ho_calls].
    destruct calls as [|p [|p2 calls]]; [destruct c; exact O| |destruct p; elim O].
    destruct c as [|c]; [|cbn [nth_error]; destruct (@nth_error progress [] c) eqn:E; [destruct c; discriminate|exact O]].
    cbn [nth_error]. destruct p; unfold once in O; cbn [ho_calls ho_accepts ho_tl ho_tcp] in O.
    + destruct O as [_ O]. cbn [ho_tcp]. destruct (is_free t); unfold once; cbn; [exists n|]; auto.
    + cbn [ho_udp]. destruct O as (k & E1 & E2 & E3). destruct (is_free u); unfold once; cbn; [exists k|]; auto.
    + destruct O as (k & E1 & E2 & E3). unfold once. cbn. exists k, Top. rewrite E3. auto.
    + cbn [ho_chan existsb]. exact O.
    + destruct O as [[] _].
    + destruct O as [[] _].
    + exact O.
  - cbn [ho_accepts]. destruct (nth_error acc a) as [[c []]|] eqn:E; try exact O. cbn [ho_tl].
    destruct calls as [|p [|p2 calls]]; unfold once in O; cbn [ho_calls ho_accepts ho_tl ho_tcp] in O; [subst acc; destruct a; discriminate| |destruct p; elim O].
    destruct p; try (destruct O as [_ ->]; destruct a; discriminate); try (destruct O as (k & _ & _ & ->); destruct a; discriminate).
    destruct O as (k & l & -> & E2 & -> & El). destruct a as [|a]; [|destruct a; discriminate]. cbn in E. injection E as <- ->.
    unfold once. cbn. exists k, (Inside k). auto.
  - cbn [ho_accepts]. destruct (nth_error acc a) as [[c [|j]]|] eqn:E; try exact O. cbn [ho_tcp]. destruct (has t j); [|exact O].
    destruct calls as [|p [|p2 calls]]; unfold once in O; cbn [ho_calls ho_accepts ho_tl ho_tcp] in O; [subst acc; destruct a; discriminate| |destruct p; elim O].
    destruct p; try (destruct O as [_ ->]; destruct a; discriminate); try (destruct O as (k & _ & _ & ->); destruct a; discriminate).
    destruct O as (k & l & -> & E2 & -> & El). destruct a as [|a]; [|destruct a; discriminate]. cbn in E. injection E as <- ->.
    unfold once. cbn. exists k, Top. auto.
  - cbn [ho_accepts]. destruct (nth_error acc a) as [[c [|j]]|] eqn:E; try exact O.
    destruct calls as [|p [|p2 calls]]; unfold once in O; cbn [ho_calls ho_accepts ho_tl ho_tcp] in O; [subst acc; destruct a; discriminate| |destruct p; elim O].
    destruct p; try (destruct O as [_ ->]; destruct a; discriminate); try (destruct O as (k & _ & _ & ->); destruct a; discriminate).
    destruct O as (k & l & -> & E2 & -> & El). destruct a as [|a]; [|destruct a; discriminate]. cbn in E. injection E as <- ->.
    unfold once. cbn. exists k, Top. auto.
  - cbn [ho_reads]. destruct (nth_error rds a) as [[c []]|]; try exact O. cbn [ho_ul]. destruct ul; exact O.
  - cbn [ho_reads]. destruct (nth_error rds a) as [[c []]|]; exact O.
  - unfold once in *. cbn in *. destruct calls as [|p [|p2 calls]]; [exact O| |exact O]. destruct p; try exact O.
    + destruct O as (k & E1 & -> & E3). exists k. auto.
    + destruct O as (k & E1 & -> & E3). exists k. auto.
    + destruct O as (k & l & E1 & -> & E3). exists k, l. auto.
  - unfold once in *. cbn in *. destruct calls as [|p [|p2 calls]]; [exact O| |exact O]. destruct p; try exact O.
    + destruct O as (k & E1 & -> & E3). exists k. auto.
    + destruct O as (k & E1 & -> & E3). exists k. auto.
    + destruct O as (k & l & E1 & -> & E3). exists k, l. auto.
Qed.
Lemma calls_count s ds h : reached s ds h -> calls_in ds = 0%nat -> ho_calls h = [].
Proof.
  induction 1 as [t u|ds h d R IH]; [reflexivity|]. rewrite calls_in_app. intro Z.
  assert (E : ho_calls h = []) by (apply IH; lia). unfold host_step. destruct (ho_down h || si_down (ho_site h)); [exact E|].
  destruct d as [|c|a|a str|a|a|a|[]|[]|[]|e]; cbn [ho_calls set_ports]; try exact E; [lia| | | | | |].
  - unfold serve_step. rewrite E. destruct c; exact E.
  - destruct (nth_error (ho_accepts h) a) as [[c []]|]; try exact E. destruct (ho_tl h); exact E.
  - destruct (nth_error (ho_accepts h) a) as [[c []]|]; try exact E. destruct (has _ _); exact E.
  - destruct (nth_error (ho_accepts h) a) as [[c []]|]; exact E.
  - destruct (nth_error (ho_reads h) a) as [[c []]|]; try exact E. destruct (ho_ul h); exact E.
  - destruct (nth_error (ho_reads h) a) as [[c []]|]; exact E.
Qed.
Lemma once_reached s ds h : reached s ds h -> (calls_in ds <= 1)%nat -> ~ closes_tcp ds -> once h.
Proof.
  induction 1 as [t u|ds h d R IH]; [intros; reflexivity|]. rewrite calls_in_app. intros C N.
  apply once_step.
  - apply IH; [lia|]. intro X. apply N. apply in_or_app. now left.
  - now apply (silent s ds).
  - intros ->. apply N. apply in_or_app. right. now left.
  - intros ->. apply (calls_count s ds); [exact R|]. lia.
Qed.
Theorem C101_accepts_partial : forall s ds h stream, reached s ds h -> (calls_in ds <= 1)%nat -> ~ closes_tcp ds -> up h -> serving h 0 ->
  let h' := host_run h [Enters 0; Arrives 0 stream] in
  si_peers (ho_site h') = si_peers (ho_site h) ++ [fresh_peer stream] /\ si_srv (ho_site h') = si_srv (ho_site h) /\ up h' /\ serving h' 0.
Proof.
  intros s ds h stream R C N [U1 U2] S h'. pose proof (once_reached s ds h R C N) as O.
  destruct h as [st t u tl ul n calls acc rds ch dn]. unfold serving in S. cbn in U1, U2, S. subst dn.
  unfold once in O. cbn [ho_calls ho_accepts ho_tl ho_tcp] in O.
  destruct calls as [|p [|p2 calls]]; cbn in S; try discriminate; injection S as ->; [|elim O].
  destruct O as (k & l & -> & -> & -> & El). unfold h'. cbn [host_run fold_left]. unfold host_step. cbn [ho_down ho_site orb]. rewrite U2.
  destruct El as [-> | ->]; cbn [ho_accepts nth_error ho_tl set_accept upd ho_down ho_site orb ho_tcp]; rewrite ?U2; cbn [has ho_accepts nth_error]; rewrite Nat.eqb_refl;
    repeat split; cbn; assumption.
Qed.
Print Assumptions C101_accepts_partial.
(** Once the program has closed the listener, and until it calls Serve again, no
    client gets in. *)
Lemma happen_peers s e : length (si_peers (happen s e)) = length (si_peers s).
Proof.
  unfold happen. destruct (si_down s); [reflexivity|]. destruct e as [k|i tag v].
  - destruct (nth_error (si_peers s) k) as [p|]; [|reflexivity]. destruct (negb (pe_open p)); [reflexivity|].
    destruct (serve_one _) as [[u|er| |] w]; cbn [si_peers]; apply ProvProof.setn_length.
  - destruct (write_given _ _ _ _). reflexivity.
Qed.
Definition shut (n : nat) (h : hosted) : Prop :=
  ~ ours (ho_tcp h) /\ ho_chan h = [] /\ ho_calls h = [Waiting] /\ length (si_peers (ho_site h)) = n.
Lemma shut_step n h d : shut n h -> d <> Calls -> shut n (host_step h d).
Proof.
  intros (T & Q & C & P) Nc. unfold host_step. destruct (ho_down h || si_down (ho_site h)); [now repeat split|].
  assert (O : forall b, ~ ours (other (ho_tcp h) b)).
  { intros b (k & E). unfold ours in T. destruct (ho_tcp h) as [| |j]; [destruct b; discriminate..|]. apply T. now exists j. }
  destruct d as [|c|a|a str|a|a|a|[]|[]|[]|e]; try congruence; unfold shut, set_ports, crash; cbn [ho_tcp ho_chan ho_calls ho_site].
  - unfold serve_step. rewrite C. destruct c as [|c]; [|cbn [nth_error]; destruct (@nth_error progress [] c) eqn:E; [destruct c; discriminate|now repeat split]].
    cbn [nth_error]. rewrite Q. now repeat split.
  - destruct (nth_error (ho_accepts h) a) as [[c []]|]; [destruct (ho_tl h)| |]; now repeat split.
  - destruct (nth_error (ho_accepts h) a) as [[c [|j]]|]; try now repeat split.
    assert (has (ho_tcp h) j = false) as -> by (unfold ours in T; destruct (ho_tcp h) as [| |i]; try reflexivity; elim T; now exists i). now repeat split.
  - destruct (nth_error (ho_accepts h) a) as [[c []]|]; now repeat split.
  - destruct (nth_error (ho_reads h) a) as [[c []]|]; [destruct (ho_ul h)| |]; now repeat split.
  - destruct (nth_error (ho_reads h) a) as [[c []]|]; now repeat split.
  - split; [|now repeat split]. unfold ours in *. destruct (ho_tcp h) as [| |j]; cbn [give_up]; [exact T..|]. elim T. now exists j.
  - now repeat split.
  - split; [apply O|now repeat split].
  - now repeat split.
  - split; [apply O|now repeat split].
  - now repeat split.
  - rewrite happen_peers. now repeat split.
Qed.
Theorem C101_closed_partial : forall s ds h more, reached s ds h -> (calls_in ds <= 1)%nat -> ~ closes_tcp ds -> up h -> serving h 0 ->
  ~ In Calls more ->
  let h' := host_run h (Closes true :: more) in
  length (si_peers (ho_site h')) = length (si_peers (ho_site h)) /\ ~ ours (ho_tcp h').
Proof.
  intros s ds h more R C N [U1 U2] S Nc h'. pose proof (once_reached s ds h R C N) as O. pose proof (silent s ds h R) as Q.
  assert (S0 : shut (length (si_peers (ho_site h))) (host_step h (Closes true))).
  { unfold host_step. rewrite U1, U2. cbn [orb]. unfold shut, set_ports. cbn [ho_tcp ho_chan ho_calls ho_site].
    unfold once in O. unfold serving in S. destruct (ho_calls h) as [|p [|p2 l]]; cbn in S; try discriminate; injection S as ->; [|elim O].
    destruct O as (k & l & E1 & -> & _). rewrite E1. cbn [give_up]. rewrite Nat.eqb_refl. split; [intros (j & X); discriminate|]. now repeat split. }
  unfold h'. cbn [host_run fold_left]. clear h' S U1 U2 O Q R. revert S0. generalize (host_step h (Closes true)). generalize (length (si_peers (ho_site h))).
  induction more as [|d more IH]; intros n g S0.
  - destruct S0 as (T & _ & _ & P). split; assumption.
  - cbn [fold_left]. apply IH; [intro X; apply Nc; now right|]. apply shut_step; [exact S0|]. intros ->. apply Nc. now left.
Qed.
Print Assumptions C101_closed_partial.
Example ex_C101_closed : length (si_peers (ho_site (host_run (unserved demo_server Nobody Nobody)
  (started ++ [Enters 0; Arrives 0 []; Enters 0; Closes true; Arrives 0 []; Takes true; Arrives 0 []; Fails 0; Enters 0; Arrives 0 []])))) = 1%nat.
Proof. reflexivity. Qed.

(** If the UDP port is taken Serve returns an error, but keeps the TCP port, *)
Theorem C101_udp_fails : forall h, up h -> free (ho_tcp h) -> ~ free (ho_udp h) ->
  let c := next_call h in let h' := host_run h [Calls; Goes c; Goes c] in
  returned h' c /\ ours (ho_tcp h') /\ ho_udp h' = ho_udp h /\ ho_accepts h' = ho_accepts h /\ up h'.
Proof.
  intros h [U1 U2] F N. unfold next_call, free in *. destruct h as [st t u tl ul n calls acc rds ch dn]. cbn [ho_down ho_site ho_tcp ho_udp] in U1, U2, F, N. subst t dn. cbn [ho_calls].
  assert (E : host_run (Hosted st Nobody u tl ul n calls acc rds ch false) [Calls; Goes (length calls); Goes (length calls)] =
    Hosted (empty_table st) (Ours n) u (Some n) None (S n) (upd (length calls) (Returned true false false) (upd (length calls) ToUdp (calls ++ [ToTcp]))) acc rds ch false).
  { cbn [host_run fold_left]. unfold host_step at 3. cbn [ho_down ho_site orb]. rewrite U2. cbn [ho_tcp ho_udp ho_tl ho_ul ho_made ho_calls ho_accepts ho_reads ho_chan].
    goes_on U2. unfold serve_step. cbn [ho_calls]. rewrite nth_error_last.
    cbn [is_free ho_tcp ho_udp ho_tl ho_ul ho_made ho_calls ho_accepts ho_reads ho_chan ho_site ho_down].
    goes_on U2. unfold serve_step. cbn [ho_calls]. rewrite upd_same by (rewrite app_length; cbn; lia). cbn [ho_udp]. destruct u; [congruence|reflexivity|reflexivity]. }
  cbv zeta. rewrite E. split; [do 3 eexists; cbn [ho_calls]; apply upd_same; rewrite upd_length, app_length; cbn; lia|]. split; [now exists n|]. repeat split. exact U2.
Qed.
Print Assumptions C101_udp_fails.
(** so that no later call ever serves, unless the program closes the listener the
    failed call left behind. *)
Definition stuck (h : hosted) : Prop :=
  ho_chan h = [] /\ (exists k, ho_tcp h = Ours k) /\ Forall (fun p => p = ToTcp \/ exists a b d, p = Returned a b d) (ho_calls h).
Lemma Forall_upd {A} (P : A -> Prop) n x l : P x -> Forall P l -> Forall P (upd n x l).
Proof.
  intros Px. revert n. induction l as [|y l IH]; intros n F; destruct n; cbn; try constructor; inversion F; subst; auto.
Qed.
Lemma stuck_step h d : stuck h -> d <> Closes true -> stuck (host_step h d).
Proof.
  intros (Q & (k & T) & F) N. unfold host_step. destruct (ho_down h || si_down (ho_site h)); [split; [exact Q|split; [now exists k|exact F]]|].
  destruct d as [|c|a|a str|a|a|a|[]|[]|[]|e]; try congruence; unfold stuck; cbn [ho_chan ho_tcp ho_calls set_ports]; try (split; [exact Q|split; [now exists k|exact F]]).
  - split; [exact Q|]. split; [now exists k|]. apply Forall_app. split; [exact F|]. constructor; [now left|constructor].
  - unfold serve_step. destruct (nth_error (ho_calls h) c) as [p|] eqn:E; [|split; [exact Q|split; [now exists k|exact F]]].
    pose proof (proj1 (Forall_forall _ _) F p (nth_error_In _ _ E)) as [-> | (a & b & d & ->)]; [|split; [exact Q|split; [now exists k|exact F]]].
    rewrite T. cbn. split; [exact Q|]. split; [now exists k|]. apply Forall_upd; [right; eauto|exact F].
  - destruct (nth_error (ho_accepts h) a) as [[c []]|]; try (destruct (ho_tl h)); cbn [ho_chan ho_tcp ho_calls set_accept crash]; (split; [exact Q|split; [now exists k|exact F]]).
  - destruct (nth_error (ho_accepts h) a) as [[c []]|]; try (destruct (has _ _)); cbn [ho_chan ho_tcp ho_calls set_accept crash]; (split; [exact Q|split; [now exists k|exact F]]).
  - destruct (nth_error (ho_accepts h) a) as [[c []]|]; cbn [ho_chan ho_tcp ho_calls set_accept crash]; (split; [exact Q|split; [now exists k|exact F]]).
  - destruct (nth_error (ho_reads h) a) as [[c []]|]; try (destruct (ho_ul h)); cbn [ho_chan ho_tcp ho_calls set_read crash]; (split; [exact Q|split; [now exists k|exact F]]).
  - destruct (nth_error (ho_reads h) a) as [[c []]|]; cbn [ho_chan ho_tcp ho_calls set_read crash]; (split; [exact Q|split; [now exists k|exact F]]).
  - rewrite T. cbn. split; [exact Q|split; [now exists k|exact F]].
  - rewrite T. cbn. split; [exact Q|split; [now exists k|exact F]].
Qed.
Theorem C101_retry_fails : forall s udp ds, ~ free udp -> ~ closes_tcp ds ->
  forall c, ~ serving (host_run (unserved s Nobody udp) ([Calls; Goes 0; Goes 0] ++ ds)) c.
Proof.
  intros s udp ds N C c. rewrite run_app.
  assert (S0 : stuck (host_run (unserved s Nobody udp) [Calls; Goes 0; Goes 0])).
  { unfold free in N. destruct udp; [congruence| |]; (split; [reflexivity|split; [now exists 0%nat|]]); cbn; (constructor; [right; eauto|constructor]). }
  revert S0. generalize (host_run (unserved s Nobody udp) [Calls; Goes 0; Goes 0]). induction ds as [|d ds IH]; intros h S0 S.
  - unfold serving in S. cbn in S. apply nth_error_In in S. destruct S0 as (_ & _ & F). destruct (proj1 (Forall_forall _ _) F _ S) as [X|(a & b & e & X)]; discriminate.
  - revert S. cbn [host_run fold_left]. apply IH; [intro X; apply C; now right|]. apply stuck_step; [exact S0|]. intros ->. apply C. now left.
Qed.
Print Assumptions C101_retry_fails.
(** Both ports are free for the second call but for the listener of the first. *)
Theorem C101_retry_refuted : exists s ds h, reached s ds h /\ up h /\ free (ho_udp h) /\ returned h 0 /\ ~ serving h 0 /\ ours (ho_tcp h) /\
  returned (host_run h [Calls; Goes 1]) 1.
Proof.
  exists demo_server, [Calls; Goes 0; Goes 0; Leaves false]. eexists.
  split; [exact (reached_run demo_server _ _ _ (re_start demo_server Nobody Another))|].
  split; [split; reflexivity|]. split; [reflexivity|]. split; [do 3 eexists; reflexivity|]. split; [discriminate|]. split; [now exists 0%nat|].
  do 3 eexists. reflexivity.
Qed.
Print Assumptions C101_retry_refuted.
(** A second call while the first serves fails, and brings the program down once
    the next client has connected: the field is nil then. *)
Theorem C101_twice_crashes : forall s ds h stream, reached s ds h -> (calls_in ds <= 1)%nat -> ~ closes_tcp ds -> up h -> serving h 0 ->
  let h' := host_run h [Enters 0; Calls; Goes 1; Arrives 0 stream] in
  returned h' 1 /\ up h' /\ ho_down (host_run h' [Enters 0]) = true.
Proof.
  intros s ds h stream R C N [U1 U2] S. pose proof (once_reached s ds h R C N) as O.
  destruct h as [st t u tl ul n calls acc rds ch dn]. unfold serving in S. cbn in U1, U2, S. subst dn.
  unfold once in O. cbn [ho_calls ho_accepts ho_tl ho_tcp] in O.
  destruct calls as [|p [|p2 calls]]; cbn in S; try discriminate; injection S as ->; [|elim O].
  destruct O as (k & l & -> & -> & -> & El).
  assert (E : host_run (Hosted st (Ours k) u (Some k) ul n [Waiting] [(0%nat, l)] rds ch false) [Enters 0; Calls; Goes 1; Arrives 0 stream] =
    Hosted (add_peer (empty_table st) stream) (Ours k) u None ul n [Waiting; Returned false false false] [(0%nat, Top)] rds ch false).
  { destruct st as [sv ps dn]. cbn in U2. subst dn. destruct El as [-> | ->]; cbn; rewrite Nat.eqb_refl; reflexivity. }
  cbv zeta. rewrite E. split; [do 3 eexists; reflexivity|]. split; [split; [reflexivity|exact U2]|].
  destruct st as [sv ps dn]. cbn in U2. subst dn. reflexivity.
Qed.
Print Assumptions C101_twice_crashes.
Theorem C101_twice_refuted : exists s ds h c, reached s ds h /\ returned h c /\ ~ up h.
Proof.
  exists demo_server, (started ++ [Enters 0; Calls; Goes 1; Arrives 0 []; Enters 0]). eexists. exists 1%nat.
  split; [exact (reached_run demo_server _ _ _ (re_start demo_server Nobody Nobody))|].
  split; [do 3 eexists; reflexivity|]. intros [D _]. discriminate.
Qed.
Print Assumptions C101_twice_refuted.

(** A server of NewServer, a failed accept, then a client that registers. *)
Definition new_server : server := Server cman_init (sv_router demo_server) (sv_provs demo_server) (new_attrs 42) (fun n => Z.of_nat n + 5) 0 [] (sv_conv demo_server) [10; 0; 0; 1] 44818.
Example ex_C101 :
  let ds := started ++ [Enters 0; Fails 0; UdpEnters 0; UdpDone 0] in let h := host_run (unserved new_server Nobody Nobody) ds in
  reached new_server ds h /\ (calls_in ds <= 1)%nat /\ ~ closes_tcp ds /\ up h /\ serving h 0 /\
  let frame := EipModel.send_msg_build 0 9 0x65 [[1; 0; 0; 0]] in
  let h2 := host_run h [Enters 0; Arrives 0 frame; Serves (Turn 0)] in
  exists p, si_peers (ho_site h2) = [p] /\ length (pe_sent p) = 1%nat /\ pe_open p = true.
Proof.
  split; [exact (reached_run new_server _ _ _ (re_start new_server Nobody Nobody))|]. split; [cbn; lia|].
  split; [intros I; cbn in I; repeat (destruct I as [I|I]; [discriminate|]); exact I|]. split; [split; reflexivity|]. split; [reflexivity|].
  eexists. split; [vm_compute; reflexivity|]. split; reflexivity.
Qed.
