(** * C81 to C83: the keep-alive *)
From Verif Require Import GoBase ItemsModel ItemsSpec ConnModel KeepModel KeepSpec KeepProof ReadModel AttrModel.

(** ** C81

    Full statement: whatever a program does with Connect, Disconnect, KeepAlive,
    KeepAliveCancel and requests, from any number of goroutines, the keep-alive
    does not bring it down, and there is one keep-alive at most.  False (below).
    Proved for programs that are patient: they leave starting and stopping it to
    Connect and Disconnect, and do not connect again before the keep-alive of the
    last connection is gone. *)

Lemma inv_start auto n : inv (keep0 auto n).
Proof.
  constructor; unfold keep0; cbn [k_status k_auto k_running k_chan k_closed k_next k_threads k_down]; rewrite ?all_repeat; try lia; try discriminate.
  - intros c [[]|H]; discriminate.
Qed.
Lemma inv_run s ms s' : patient s ms s' -> inv s -> inv s'.
Proof. induction 1 as [|s t m s1 ms s2 P E _ IH]; intro I; [exact I|]. apply IH. exact (inv_step s t m s1 I P E). Qed.
Lemma keeps_one x : (keeps x -> (1 <= one is_K x)%nat) /\ (~ keeps x -> one is_K x = 0%nat).
Proof.
  split.
  - intros (j & I & M). induction x as [|y x IH]; [destruct I|]. cbn [one]. destruct I as [->|I]; [destruct j; contradiction || (cbn [is_K]; lia)|]. specialize (IH I). lia.
  - intro K. induction x as [|j x IH]; [reflexivity|]. cbn [one].
    rewrite IH by (intros (k & I & M); apply K; exists k; split; [now right|exact M]).
    destruct (is_K j) eqn:E; [|reflexivity]. exfalso. apply K. exists j. split; [now left|]. destruct j; try discriminate; exact I.
Qed.
Lemma running_count l n : running_keeps l n -> (n <= all is_K l)%nat.
Proof.
  induction 1 as [|x r n K _ IH|x r n K _ IH]; [reflexivity| |]; cbn [all]; [pose proof (proj1 (keeps_one x) K); lia|lia].
Qed.

Theorem C81_no_crash_partial : forall auto n ms s, patient (keep0 auto n) ms s ->
  k_down s = false /\ forall k, running_keeps (k_threads s) k -> (k <= 1)%nat.
Proof.
  intros auto n ms s P. pose proof (inv_run _ _ _ P (inv_start auto n)) as I. split; [apply I|].
  intros k R. apply running_count in R. pose proof (i_one s I). lia.
Qed.
Print Assumptions C81_no_crash_partial.

(** The moves of one goroutine, and those of the keep-alive Connect starts. *)
Definition on (t : nat) (ms : list kmove) : list (nat * kmove) := map (pair t) ms.
Definition connects : list kmove := [MCall Connect1; MGo; MOk; MGo].
Definition disconnects : list kmove := [MCall Disc1; MGo; MGo; MGo; MGo].
Definition begins : list kmove := [MGo; MGo; MGo; MOk; MGo].

(** Connect, Disconnect, Connect, Disconnect by one goroutine: if the keep-alive
    has not noticed the first Disconnect before the second, the channel is closed
    twice. *)
Theorem C81_reconnect_refuted : exists ms s, keep_run (keep0 true 1) ms = Some s /\ k_down s = true /\
  map snd (filter (fun m => match snd m with MCall _ => true | _ => false end) ms) = [MCall Connect1; MCall Disc1; MCall Connect1; MCall Disc1] /\
  Forall (fun m => match snd m with MErr | MFail | MQuit => False | _ => True end) ms.
Proof.
  exists (on 0 connects ++ on 1 begins ++ on 0 disconnects ++ on 0 connects ++ on 0 [MCall Disc1; MGo; MGo; MGo]). eexists.
  split; [vm_compute; reflexivity|]. split; [reflexivity|]. split; [vm_compute; reflexivity|].
  repeat (apply Forall_cons; [exact I|]). apply Forall_nil.
Qed.
Print Assumptions C81_reconnect_refuted.
(** KeepAliveCancel without a keep-alive closes a nil channel. *)
Theorem C81_cancel_idle_refuted : exists ms s, ms = on 0 (connects ++ [MCall (Cancel1 false); MGo; MGo]) /\
  keep_run (keep0 false 1) ms = Some s /\ k_down s = true.
Proof. do 2 eexists. split; [reflexivity|]. split; [vm_compute; reflexivity|reflexivity]. Qed.
(** Cancelling and then disconnecting, or cancelling twice, closes it twice. *)
Theorem C81_cancel_refuted : exists s1 s2,
  keep_run (keep0 true 1) (on 0 connects ++ on 1 begins ++ on 0 [MCall (Cancel1 true); MGo; MGo; MCall Disc1; MGo; MGo; MGo]) = Some s1 /\ k_down s1 = true /\
  keep_run (keep0 true 1) (on 0 connects ++ on 1 (begins ++ []) ++ on 0 [MCall (Cancel1 true); MGo; MGo] ++ on 1 [MGo; MGo] ++
    on 0 [MCall (Cancel1 true); MGo; MGo]) = Some s2 /\ k_down s2 = true.
Proof. do 2 eexists. split; [vm_compute; reflexivity|]. split; [reflexivity|]. split; [vm_compute; reflexivity|reflexivity]. Qed.
Print Assumptions C81_cancel_refuted.
(** Connecting again before the keep-alive has noticed: two of them. *)
Theorem C81_two_refuted : exists s, keep_run (keep0 true 1) (on 0 connects ++ on 1 begins ++ on 0 disconnects ++ on 0 connects ++ on 2 begins ++ on 1 [MTick; MGo; MOk; MGo]) = Some s /\
  k_down s = false /\ running_keeps (k_threads s) 2.
Proof.
  eexists. split; [vm_compute; reflexivity|]. split; [reflexivity|]. cbn [k_threads].
  apply rk_other; [intros (j & [] & _)|]. apply rk_one; [exists (KeepWait (Some 1%nat)); split; [now left|exact I]|].
  apply rk_one; [exists (KeepWait (Some 1%nat)); split; [now left|exact I]|]. apply rk_nil.
Qed.
Print Assumptions C81_two_refuted.

(** Two goroutines, two connections with a keep-alive each; in the first a request
    fails and takes the connection down, the second is closed by Disconnect. *)
Definition patient_moves : list (nat * kmove) :=
  on 0 connects ++ on 2 begins ++ on 1 [MCall Request] ++ on 2 [MTick; MGo] ++ on 1 [MFail; MGo; MGo] ++ on 2 [MOk] ++ on 1 [MGo; MGo; MGo] ++ on 2 [MGo; MTick; MGo; MGo] ++
  on 1 connects ++ on 3 begins ++ on 0 disconnects ++ on 3 [MGo; MGo].
Fixpoint patientb (s : kstate) (ms : list (nat * kmove)) : option kstate :=
  match ms with
  | [] => Some s
  | (t, m) :: r =>
      let ok := match m with
                | MCall (Cancel1 _) | MCall Keep1 => false
                | MGo => match nth_error (k_threads s) t with Some (Connect1 :: _) => Nat.eqb (all is_K (k_threads s)) 0 | _ => true end
                | _ => true
                end in
      if ok then match keep_move s t m with Some s1 => patientb s1 r | None => None end else None
  end.
Lemma all_quiet s : all is_K (k_threads s) = 0%nat -> quiet s.
Proof.
  unfold quiet. induction (k_threads s) as [|x l IH]; intros E y [].
  - subst y. intro K. pose proof (proj1 (keeps_one x) K). cbn [all] in E. lia.
  - apply IH; [cbn [all] in E; lia|assumption].
Qed.
Lemma patientb_ok : forall ms s s', patientb s ms = Some s' -> patient s ms s'.
Proof.
  induction ms as [|[t m] ms IH]; intros s s' E; cbn [patientb] in E; [injection E as <-; apply p_nil|].
  match type of E with (if ?b then _ else _) = _ => destruct b eqn:B; [|discriminate] end.
  destruct (keep_move s t m) as [s1|] eqn:M; [|discriminate]. apply (p_cons s t m s1); [|exact M|now apply IH].
  destruct m as [j| | | | | |]; cbn [patient_move]; try exact I.
  - destruct j; try exact I; discriminate.
  - destruct (nth_error (k_threads s) t) as [[|[] ?]|]; try exact I. apply all_quiet. now apply Nat.eqb_eq.
Qed.
Example ex_C81 : exists s, patient (keep0 true 2) patient_moves s /\ k_down s = false /\ k_status s = disconnected /\ k_closed s = [1%nat; 0%nat] /\
  k_threads s = [[]; []; []; []].
Proof.
  eexists. split; [apply patientb_ok; vm_compute; reflexivity|]. repeat split.
Qed.

(** ** C82

    While it runs, the keep-alive asks for the controller's properties at every
    tick.  With KeepAlivePollTags the tags are listed at the start and after
    every change of the properties, and at no other time; properties that cannot
    be read take the connection down. *)
Lemma loop_watches {S} (ask : S -> res item * S) relist poll : forall ticks orig s, watch_ends poll (rest_of orig) (fst (keep_loop ask relist poll ticks orig s)).
Proof.
  induction ticks as [|[] ticks IH]; intros orig s; cbn [keep_loop]; [apply we_ok, wa_end| |apply we_ok, wa_end].
  destruct (ask s) as [[new|e| |] s1]; cbn [fst].
  - destruct (bseq (rest_of new) (rest_of orig)) eqn:B.
    + apply bseq_spec in B. specialize (IH orig s1). destruct (keep_loop ask relist poll ticks orig s1) as [l s2]. cbn [fst] in *. rewrite B. now apply we_same.
    + assert (Nb : rest_of new <> rest_of orig) by (intro X; rewrite X, bseq_refl in B; discriminate).
      destruct poll.
      * destruct (relist s1) as [[[]|e| |] s2].
        -- specialize (IH new s2). destruct (keep_loop ask relist true ticks new s2) as [l s3]. cbn [fst] in *.
           exact (we_changed true (rest_of orig) (rest_of new) l Nb IH).
        -- cbn [fst]. apply we_tags; [exact Nb|reflexivity|discriminate].
        -- cbn [fst]. apply we_tags; [exact Nb|reflexivity|discriminate].
        -- cbn [fst]. apply we_tags; [exact Nb|reflexivity|discriminate].
      * specialize (IH new s1). destruct (keep_loop ask relist false ticks new s1) as [l s3]. cbn [fst] in *.
        exact (we_changed false (rest_of orig) (rest_of new) l Nb IH).
  - apply we_lost.
  - apply we_crash. now left.
  - apply we_crash. now right.
Qed.
Theorem C82_watches : forall (S : Type) (ask : S -> res item * S) (relist : S -> res unit * S) poll ticks s,
  let log := fst (keep_alive ask relist poll ticks s) in
  (exists r, log = [Asked r] /\ forall p, r <> Ok p) \/
  (exists p r, poll = true /\ r <> Ok tt /\ log = [Asked (Ok p); Relisted r]) \/
  (exists p l, log = Asked (Ok p) :: (if poll then [Relisted (Ok tt)] else []) ++ l /\ watch_ends poll p l).
Proof.
  intros S ask relist poll ticks s. unfold keep_alive. destruct (ask s) as [[orig|e| |] s1]; cbv zeta.
  - right. destruct poll.
    + destruct (relist s1) as [[[]|e| |] s2].
      * right. pose proof (loop_watches ask relist true ticks orig s2) as W. destruct (keep_loop ask relist true ticks orig s2) as [l s3]. cbn [fst] in *.
        exists (rest_of orig), l. split; [reflexivity|exact W].
      * left. do 2 eexists. split; [reflexivity|]. split; [|reflexivity]. discriminate.
      * left. do 2 eexists. split; [reflexivity|]. split; [|reflexivity]. discriminate.
      * left. do 2 eexists. split; [reflexivity|]. split; [|reflexivity]. discriminate.
    + right. pose proof (loop_watches ask relist false ticks orig s1) as W. destruct (keep_loop ask relist false ticks orig s1) as [l s3]. cbn [fst] in *.
      exists (rest_of orig), l. split; [reflexivity|exact W].
  - left. eexists. split; [reflexivity|discriminate].
  - left. eexists. split; [reflexivity|discriminate].
  - left. eexists. split; [reflexivity|discriminate].
Qed.
Print Assumptions C82_watches.

(** How many ticks that takes: it goes on for as long as the connection is there
    and both requests succeed. *)
Theorem C82_every_tick : forall (S : Type) (ask : S -> res item * S) (relist : S -> res unit * S) poll n s,
  (forall x, exists it y, ask x = (Ok it, y)) -> (forall x, exists y, relist x = (Ok tt, y)) ->
  length (filter (fun a => match a with Asked _ => true | _ => false end) (fst (keep_alive ask relist poll (repeat true n) s))) = Datatypes.S n.
Proof.
  intros S ask relist poll n s Ha Hr.
  assert (L : forall n orig s, length (filter (fun a => match a with Asked _ => true | _ => false end) (fst (keep_loop ask relist poll (repeat true n) orig s))) = n).
  { clear n s. induction n as [|n IH]; intros orig s; [reflexivity|]. cbn [repeat keep_loop]. destruct (Ha s) as (it & y & ->).
    destruct (bseq (rest_of it) (rest_of orig)).
    - specialize (IH orig y). destruct (keep_loop _ _ _ _ _ _). cbn [fst filter length] in *. now rewrite IH.
    - destruct poll.
      + destruct (Hr y) as (z & ->). specialize (IH it z). destruct (keep_loop _ _ _ _ _ _). cbn [fst filter length] in *. now rewrite IH.
      + specialize (IH it y). destruct (keep_loop _ _ _ _ _ _). cbn [fst filter length] in *. now rewrite IH. }
  unfold keep_alive. destruct (Ha s) as (it & y & ->). destruct poll.
  - destruct (Hr y) as (z & ->). specialize (L n it z). destruct (keep_loop _ _ _ _ _ _). cbn [fst filter length] in *. now rewrite L.
  - specialize (L n it y). destruct (keep_loop _ _ _ _ _ _). cbn [fst filter length] in *. now rewrite L.
Qed.
Print Assumptions C82_every_tick.

(** A controller whose program is changed between the second and the third tick,
    asked through GetAttrList. *)
Definition changing : controller (list Z) := fun s _ =>
  match s with
  | v :: r => (Ok (0, zeros 6 ++ wire_list [(0xA1, le 4 5); (0xB1, [1; 0; 0x83; 0; 0; 0; 1; 0; 1; 0; 0; 0; v])]), r)
  | [] => (Err EEof, [])
  end.
Definition ask_props (s : list Z) : res item * list Z := fst (get_attr_list changing s 5 1 0xAC 1 [1]).
Example ex_C82 : fst (keep_alive ask_props (fun s => (Ok tt, s)) true [true; true; true; true; true] [7; 7; 7; 8; 8]) =
  let p v := Asked (Ok [1; 0; 0; 0; v]) in
  [p 7; Relisted (Ok tt); p 7; p 7; p 8; Relisted (Ok tt); p 8; Asked (Err EEof); Disconnects].
Proof. vm_compute. reflexivity. Qed.

(** ** C83

    Full statement: with KeepAliveAutoStart set, every connection made is kept
    alive.  False: after a Disconnect that found it running, the keep-alive may
    switch KeepAliveAutoStart off, and the next connection has none.  Proved as
    long as no Disconnect has found it running (and it was not cancelled). *)
Lemma auto_step s t m s1 : keep_move s t m = Some s1 -> k_closed s1 = [] -> k_closed s = [] /\ k_auto s1 = k_auto s.
Proof.
  unfold keep_move. destruct (k_down s); [discriminate|]. destruct (nth_error (k_threads s) t) as [stack|]; [|discriminate]. intros E C.
  destruct m as [j| | | | | |]; (destruct stack as [|j0 r]; [|destruct j0]); try discriminate;
    repeat match type of E with context [match ?x with _ => _ end] => destruct x eqn:? end; try discriminate; injection E as <-;
    unfold close_chan, spawn in *; cbn [set_stack set_status set_running set_auto make_chan crash k_closed k_auto k_chan] in *;
    repeat match type of C with context [match ?x with _ => _ end] => destruct x eqn:? end;
    cbn [k_closed k_auto] in *; try discriminate; try (split; [exact C|reflexivity]).
  - split; assumption.
  - split; assumption.
  - exfalso. rewrite C in *. discriminate.
  - split; assumption.
Qed.
Lemma auto_run : forall ms s s1, keep_run s ms = Some s1 -> k_closed s1 = [] -> k_closed s = [] /\ k_auto s1 = k_auto s.
Proof.
  induction ms as [|[t m] ms IH]; intros s s1 E C; cbn [keep_run] in E; [injection E as <-; auto|].
  destruct (keep_move s t m) as [s0|] eqn:M; [|discriminate]. destruct (IH s0 s1 E C) as (C0 & A0). destruct (auto_step s t m s0 M C0) as (C1 & A1).
  split; [exact C1|congruence].
Qed.
Theorem C83_started_partial : forall n ms s t s1, keep_run (keep0 true n) ms = Some s -> k_closed s = [] ->
  (exists r, nth_error (k_threads s) t = Some (Connect2 :: r)) -> keep_move s t MOk = Some s1 ->
  k_threads s1 = set_nth t (Connect3 :: match nth_error (k_threads s) t with Some (_ :: r) => r | _ => [] end) (k_threads s) ++ [[Keep1]].
Proof.
  intros n ms s t s1 E C (r & N) M. destruct (auto_run ms _ _ E C) as (_ & A). cbn [keep0 k_auto] in A.
  unfold keep_move in M. destruct (k_down s); [discriminate|]. rewrite N in M |- *. unfold spawn in M. cbn [set_stack k_auto] in M. rewrite A in M.
  injection M as <-. reflexivity.
Qed.
Print Assumptions C83_started_partial.

(** One goroutine connects, disconnects and, after the keep-alive is gone,
    connects again.  There is a connection without a keep-alive. *)
Theorem C83_second_refuted : exists ms s, keep_run (keep0 true 1) ms = Some s /\ patient (keep0 true 1) ms s /\
  map snd (filter (fun m => match snd m with MCall _ => true | _ => false end) ms) = [MCall Connect1; MCall Disc1; MCall Connect1] /\
  k_status s = connected /\ quiet s.
Proof.
  exists (on 0 connects ++ on 1 begins ++ on 0 disconnects ++ on 1 [MGo; MGo] ++ on 0 connects). eexists.
  split; [vm_compute; reflexivity|]. split; [apply patientb_ok; vm_compute; reflexivity|]. split; [reflexivity|]. split; [reflexivity|].
  apply all_quiet. reflexivity.
Qed.
Print Assumptions C83_second_refuted.
(** And within one connection: when the tags cannot be listed after a change, the
    keep-alive ends and the connection stays. *)
Theorem C83_list_refuted : exists s, keep_run (keep0 true 1) (on 0 connects ++ on 1 (begins ++ [MTick; MGo; MQuit; MGo])) = Some s /\
  k_status s = connected /\ quiet s.
Proof. eexists. split; [vm_compute; reflexivity|]. split; [reflexivity|]. apply all_quiet. reflexivity. Qed.
Print Assumptions C83_list_refuted.
Example ex_C83 : exists s s1, keep_run (keep0 true 1) (on 0 [MCall Connect1; MGo; MErr; MCall Connect1; MGo]) = Some s /\ k_closed s = [] /\
  nth_error (k_threads s) 0 = Some [Connect2] /\ keep_move s 0 MOk = Some s1 /\ k_threads s1 = [[Connect3]; [Keep1]].
Proof. do 2 eexists. split; [vm_compute; reflexivity|]. repeat split. Qed.
