(** * C35, C36, C38: goroutines sharing a client *)
From Verif Require Import GoBase EipModel EipSpec EipProof ConnModel ConnSpec ConnProof.

(** ** C35 *)

(** Whatever any number of goroutines do, and however their calls interleave, fail
    or nest: at most one Connect or Disconnect is past its entry check; when none
    is, the client is connected or disconnected; and the calls that returned, read
    in order, switch the link on (successful Connect) only when it was off and off
    (accepted Disconnect) only when it was on, the status at rest being the one
    reached. *)
Theorem C35_one_at_a_time : forall n ms sh, run_moves (shared0 n) ms = Some sh ->
  len (in_progress sh) <= 1 /\
  exists on, link false (sh_returned sh) = Some on /\
    (in_progress sh = [] -> sh_status sh = if on then connected else disconnected).
Proof.
  intros n ms sh H. destruct (run_moves_inv ms _ _ (shared0_inv n) H) as (on & L & I).
  split.
  - destruct I as [(_ & P & _)|[(_ & P & _)|[(_ & P & _)|(_ & P & _)]]]; rewrite P; cbn; lia.
  - exists on. split; [exact L|]. intros E.
    destruct I as [(S & P & ->)|[(S & P & _)|[(S & P & ->)|(S & P & _)]]]; try exact S; congruence.
Qed.

(** Three goroutines: one connects while another tries to; a request fails inside
    the first; then two disconnect at once, one through a failing request. *)
Definition ex_moves : list (nat * move) :=
  [(0%nat, MCall (CConnect Enter)); (1%nat, MCall (CConnect Enter)); (0%nat, MEnter); (1%nat, MEnter);
   (0%nat, MFail); (0%nat, MEnter); (0%nat, MLeave true);
   (1%nat, MCall CRequest); (2%nat, MCall (CDisconnect Enter)); (1%nat, MFail); (1%nat, MEnter);
   (2%nat, MEnter); (1%nat, MFail); (1%nat, MEnter)].
Example ex_C35 : exists sh, run_moves (shared0 3) ex_moves = Some sh /\
  in_progress sh = [CDisconnect Inside] /\ link false (sh_returned sh) = Some true /\
  len (filter (fun '(c, ok) => negb ok) (sh_returned sh)) = 4.
Proof. eexists. split; [vm_compute; reflexivity|]. vm_compute. auto. Qed.

(** ** C36 *)

(** Any number of goroutines send requests through one client, each frame going
    out and each reply coming in over the socket in arbitrary pieces, and the
    controller answers the frames in the order it gets them.  Then, as long as no
    receive times out, the calls that have returned are exactly, in order, what the
    controller was asked and answered, except for at most one exchange under way;
    and each goroutine got the replies to its own requests in the order it made
    them. *)
Theorem C36_own_reply_partial : forall S (sv : service S) s l n,
  (forall s f, is_frame (fst (sv s f))) ->
  Forall no_timeout l -> Forall calls_frames l ->
  run_acts sv (net0 s) l = Some n ->
  (exists pending, n_served n = map (fun '(_, f, r) => (f, r)) (n_done n) ++ pending /\ len pending <= 1) /\
  (forall t, exists waiting, asked_by t l = returned_to t (n_done n) ++ waiting /\ len waiting <= 1).
Proof.
  intros S sv s l n Hsv Ht Hc H. split.
  - pose proof (run_acts_inv sv l Hsv Ht Hc _ _ (net0_inv s) H) as I. unfold net_inv in I.
    destruct (n_mutex n) as [h|].
    + destruct I as (I & _).
      assert (T : forall f rest got, exchange_inv n f rest got ->
        exists pending, n_served n = pairs (n_done n) ++ pending /\ len pending <= 1).
      { intros f rest got (_ & [(_ & _ & _ & _ & E)|(_ & _ & _ & r & _ & _ & E)]).
        - exists []. rewrite app_nil_r. split; [exact E|cbn; lia].
        - eexists. split; [exact E|]. cbn. lia. }
      destruct (n_pcs n h); try contradiction; eapply T; eauto.
    + destruct I as (_ & _ & _ & _ & E & _). exists []. rewrite app_nil_r. split; [exact E|cbn; lia].
  - intros t. pose proof (run_acts_asked sv t l Ht _ _ H) as A.
    change (returned_to t (n_done (net0 s)) ++ under_way (n_pcs (net0 s) t)) with (@nil bytes) in A.
    exists (under_way (n_pcs n t)). split; [symmetry; exact A|]. destruct (n_pcs n t); cbn; lia.
Qed.

(** The replies are themselves what recvData returns for those bytes. *)
Theorem C36_reply_parsed : forall f tail, frame_ok f ->
  exists ps', recv_data [frame_bytes f ++ tail] =
    (Ok ({| eh_command := f_command f; eh_length := len (f_payload f); eh_session := f_session f; eh_status := f_status f;
            eh_context := f_context f; eh_options := f_options f |}, f_payload f), ps') /\ concat ps' = tail.
Proof.
  intros f tail Hf. apply (recv_frame f tail [frame_bytes f ++ tail] Hf). cbn [concat]. apply app_nil_r.
Qed.

(** A controller that echoes one byte of each request. *)
Definition echo1 : service unit := fun s f => (frame_bytes (Frame 0x70 7 0 0 0 [nth 24 f 0; 200]), tt).
Lemma echo1_frames s f : is_frame (fst (echo1 s f)).
Proof. eexists. split; [|reflexivity]. repeat split; cbn; lia. Qed.
Definition req (x : Z) : bytes := frame_bytes (Frame 0x70 7 0 0 0 [x]).
Lemma req_frame x : is_frame (req x).
Proof. eexists. split; [|reflexivity]. repeat split; cbn; lia. Qed.

Definition ex_acts : list act :=
  [ACall 0 (req 1); ACall 1 (req 2); ALock 1; AWrite 1 20; CTake 20; AWrite 1 20; ASent 1; CTake 20; CServe; CGive 5;
   ARead 1 100; CGive 100; ARead 1 100; ARead 1 100; AReturn 1; ACall 1 (req 3); ALock 0; AWrite 0 100; CTake 100; CServe;
   ASent 0; CGive 100; ARead 0 100; ARead 0 100; AReturn 0; ALock 1; AWrite 1 100; CTake 100; CServe].
Example ex_C36 : (forall s f, is_frame (fst (echo1 s f))) /\ Forall no_timeout ex_acts /\ Forall calls_frames ex_acts /\
  exists n, run_acts echo1 (net0 tt) ex_acts = Some n /\
    n_done n = [(1%nat, req 2, frame_bytes (Frame 0x70 7 0 0 0 [2; 200])); (0%nat, req 1, frame_bytes (Frame 0x70 7 0 0 0 [1; 200]))].
Proof.
  split; [exact echo1_frames|].
  split; [unfold ex_acts; repeat (apply Forall_cons; [exact I|]); constructor|].
  split; [unfold ex_acts; repeat (apply Forall_cons; [first [exact I|apply req_frame]|]); constructor|].
  eexists. split; [vm_compute; reflexivity|]. vm_compute. reflexivity.
Qed.

(** When a receive times out the mutex is released before the connection is taken
    down.  A goroutine waiting for the mutex then sends its request and takes the
    late reply to the first one for its own. *)
Definition late_acts : list act :=
  [ACall 0 (req 1); ACall 1 (req 2); ALock 0; AWrite 0 100; ASent 0; CTake 100; CServe; ATimeout 0;
   ALock 1; CGive 100; AWrite 1 100; ASent 1; ARead 1 100; ARead 1 100; AReturn 1].
Theorem C36_late_reply_refuted : exists (sv : service unit) l n,
  (forall s f, is_frame (fst (sv s f))) /\ Forall calls_frames l /\ run_acts sv (net0 tt) l = Some n /\
  exists t f r g, In (t, f, r) (n_done n) /\ In (g, r) (n_served n) /\ f <> g /\ forall r', fst (sv tt f) = r' -> r <> r'.
Proof.
  exists echo1, late_acts. eexists. split; [exact echo1_frames|].
  split; [unfold late_acts; repeat (apply Forall_cons; [first [exact I|apply req_frame]|]); constructor|].
  split; [vm_compute; reflexivity|].
  exists 1%nat, (req 2), (frame_bytes (Frame 0x70 7 0 0 0 [1; 200])), (req 1).
  repeat split; try (vm_compute; now left); [vm_compute; discriminate|].
  intros r' <-. vm_compute. discriminate.
Qed.

(** ** C38 *)

(** Two of 65536 consecutive draws from the same counter give different sequence
    counts, whatever the counters start at, in whatever order goroutines draw and
    whatever is drawn from the other counter in between. *)
Theorem C38_counts_differ_partial : forall st ds i j d a b,
  (i < j)%nat -> Z.of_nat j - Z.of_nat i < 65536 ->
  nth_error ds i = Some d -> nth_error ds j = Some d ->
  nth_error (draw_counts st ds) i = Some a -> nth_error (draw_counts st ds) j = Some b -> a <> b.
Proof.
  intros st ds i j d a b Hij Hw Hi Hj Ha Hb.
  rewrite (draw_nth _ _ _ _ Hi) in Ha. rewrite (draw_nth _ _ _ _ Hj) in Hb.
  assert (Ea : a = (source d st + drawn d (firstn (S i) ds)) mod 65536) by congruence.
  assert (Eb : b = (source d st + drawn d (firstn (S j) ds)) mod 65536) by congruence.
  clear Ha Hb. subst a b.
  assert (Lj : (j < List.length ds)%nat) by (apply nth_error_Some; congruence).
  assert (E : firstn (S j) ds = firstn (S i) ds ++ firstn (j - i) (skipn (S i) ds)).
  { rewrite <- (firstn_skipn (S i) (firstn (S j) ds)). f_equal.
    - rewrite firstn_firstn. f_equal. lia.
    - rewrite skipn_firstn_comm. f_equal; lia. }
  rewrite E, drawn_app.
  pose proof (drawn_bound d (firstn (j - i) (skipn (S i) ds))) as B.
  assert (Lb : len (firstn (j - i) (skipn (S i) ds)) = Z.of_nat (j - i)).
  { unfold len. rewrite firstn_length, skipn_length. lia. }
  rewrite Lb in B.
  assert (Pos : 1 <= drawn d (firstn (j - i) (skipn (S i) ds))).
  { assert (In d (firstn (j - i) (skipn (S i) ds))) as X.
    { assert (N : nth_error (firstn (j - i) (skipn (S i) ds)) (j - i - 1) = Some d).
      { rewrite <- Hj. rewrite <- (firstn_skipn (S i) ds) at 2.
        rewrite nth_error_app2 by (rewrite firstn_length; lia).
        rewrite firstn_length, Nat.min_l by lia.
        rewrite <- (firstn_skipn (j - i) (skipn (S i) ds)) at 2.
        rewrite nth_error_app1 by (rewrite firstn_length, skipn_length; lia). f_equal. lia. }
      now apply nth_error_In in N. }
    unfold drawn. apply (in_split) in X as (x & y & ->). rewrite filter_app, len_app. cbn [filter].
    replace (same_source d d) with true by (destruct d; reflexivity). rewrite len_cons.
    pose proof (len_nonneg (filter (same_source d) x)). pose proof (len_nonneg (filter (same_source d) y)). lia. }
  lia.
Qed.

(** In particular requests other than GetAttrList: all from the process counter. *)
Theorem C38_plain_requests : forall start n i j a b,
  (i < j < n)%nat -> Z.of_nat j - Z.of_nat i < 65536 ->
  nth_error (draw_counts start (repeat FromProcess n)) i = Some a ->
  nth_error (draw_counts start (repeat FromProcess n)) j = Some b -> a <> b.
Proof.
  intros start n i j a b H Hw. apply (C38_counts_differ_partial _ _ _ _ FromProcess); try lia.
  - apply nth_error_repeat. lia.
  - apply nth_error_repeat. lia.
Qed.

Example ex_C38 : draw_counts (4294967294, 5) [FromProcess; FromClient; FromProcess; FromProcess] = [65535; 6; 0; 1].
Proof. reflexivity. Qed.

(** A GetAttrList can carry the sequence count of the request before it. *)
Theorem C38_attr_list_refuted : exists st a, draw_counts st [FromProcess; FromClient] = [a; a].
Proof. exists (65541, 5), 6. reflexivity. Qed.

Print Assumptions C35_one_at_a_time.
Print Assumptions C36_own_reply_partial.
Print Assumptions C36_reply_parsed.
Print Assumptions C36_late_reply_refuted.
Print Assumptions C38_counts_differ_partial.
Print Assumptions C38_plain_requests.
Print Assumptions C38_attr_list_refuted.
