(** * C75, C76, C77: class 1 I/O *)
From Verif Require Import GoBase IoiModel ItemsModel ItemsSpec ItemsProof TableModel TableSpec TableProof PackTypes PackModel PackSpec PackProof PackRead ProvModel ProvProof SrvModel IoModel IoSpec IoProof.

(** ** C75: output data *)

(** A message for the only open connection with its identifier puts the value it
    shows, six bytes into the data, in the provider that connection is routed to,
    and changes nothing else. *)
Theorem C75_delivers_partial : forall s0 evs s ot seq six b more a c i tin name fs vin old v,
  reached s0 evs s -> is_down s = false ->
  only s ot a -> nth_error (made s) a = Some c -> routed s (sc_path c) i -> nth_error (is_ends s) i = Some (EndIO tin (TStruct name fs) vin old) ->
  0 <= ot < 2 ^ 32 -> len six = 6 -> bytes_ok (six ++ b ++ more) -> len (io_message ot seq (six ++ b ++ more)) < 4096 ->
  simple_arrays (TStruct name fs) -> has_type (TStruct name fs) v -> shows (TStruct name fs) v b ->
  let s' := io_step s (EvDatagram (io_message ot seq (six ++ b ++ more))) in
  rest_same s s' /\ replaced i (EndIO tin (TStruct name fs) vin v) (is_ends s) (is_ends s').
Proof.
  intros s0 evs s ot seq six b more a c i tin name fs vin old v R Hd On Hc Hr He Ro L6 B L S T Sh. cbv zeta.
  pose proof (reached_inv _ _ _ R) as V. unfold io_step. rewrite Hd.
  destruct (deliver _ _ _ _ _ _ _ _ _ V Hd Ro B L On Hc Hr) as [-> Ld].
  split; [repeat split|]. assert (Ei : end_at s i = EndIO tin (TStruct name fs) vin old) by (unfold end_at; now apply nth_error_nth).
  pose proof (end_at_ok s i (iv_ok _ _ _ V)) as Ok0. rewrite Ei in *. cbn [endpoint_ok struct_type] in Ok0. destruct Ok0 as (_ & G & _ & Ho).
  unfold io_write. rewrite payload_six by assumption.
  pose proof (proj1 shows_read (TStruct name fs) v b more G S T I Sh) as E.
  rewrite !bytes_ok_app in B. assert (Bm : bytes_ok (b ++ more)) by (apply bytes_ok_app; tauto).
  pose proof (proj1 unpack_into_spec (TStruct name fs) old (b ++ more) I G Ho Bm) as X. rewrite E in X. rewrite X. cbn [fst].
  now apply (set_end_replaced s i _ _ He).
Qed.
Print Assumptions C75_delivers_partial.

(** Whatever a datagram holds, the server stays up, and at most what the provider
    of one open connection with the datagram's identifier received changes. *)
Theorem C75_confined : forall s0 evs s d,
  reached s0 evs s -> is_down s = false -> bytes_ok d ->
  let s' := io_step s (EvDatagram d) in
  rest_same s s' /\
  (is_ends s' = is_ends s \/
   exists a c i e e', live (made s) (KeyOT (addressed d)) a /\ nth_error (made s) a = Some c /\ routed s (sc_path c) i /\
     nth_error (is_ends s) i = Some e /\ same_in e e' /\ endpoint_ok e' /\ replaced i e' (is_ends s) (is_ends s')).
Proof.
  intros s0 evs s d R Hd B. cbv zeta. pose proof (reached_inv _ _ _ R) as V. unfold io_step. rewrite Hd.
  split; [exact (proj2 (datagram_inv _ _ _ _ V Hd B))|].
  destruct (datagram_cases _ _ _ _ V B) as [->|(a & c & i & e' & H1 & H2 & H3 & H4 & H5 & -> & _)]; [now left|].
  destruct (nth_error (is_ends s) i) as [e|] eqn:Ei.
  - right. exists a, c, i, e, e'. assert (X : end_at s i = e) by (unfold end_at; now apply nth_error_nth). rewrite X in H5.
    split; [exact H1|]. split; [exact H2|]. split; [exact H3|]. split; [exact Ei|]. split; [exact H5|]. split; [exact H4|]. now apply (set_end_replaced s i _ e).
  - left. cbn [set_end is_ends]. apply nth_error_None in Ei. clear - Ei. revert i Ei. induction (is_ends s) as [|x l IH]; intros [|i] Ei; cbn [setn length] in *; try reflexivity; [lia|]. now rewrite IH by lia.
Qed.
Print Assumptions C75_confined.
(** Only datagrams change what was received. *)
Theorem C75_only_datagrams : forall s0 evs s ev i,
  reached s0 evs s -> allowed (is_ends s0) ev -> (forall d, ev <> EvDatagram d) -> (forall j, ev <> EvChannel j) ->
  option_map output_of (nth_error (is_ends (io_step s ev)) i) = option_map output_of (nth_error (is_ends s) i).
Proof.
  intros s0 evs s ev i R A N1 N2. destruct (is_down s) eqn:Hd; [now rewrite io_step_down|]. unfold io_step. rewrite Hd.
  assert (St : forall j e, output_of e = output_of (end_at s j) -> option_map output_of (nth_error (is_ends (set_end j e s)) i) = option_map output_of (nth_error (is_ends s) i)).
  { intros j e He. cbn [set_end is_ends]. destruct (Nat.eq_dec i j) as [->|N]; [|now rewrite setn_other].
    destruct (nth_error (is_ends s) j) as [x|] eqn:Ex.
    - rewrite setn_same by (apply nth_error_Some; congruence). cbn [option_map]. rewrite He. unfold end_at. now rewrite (nth_error_nth _ _ _ Ex).
    - assert (nth_error (setn (is_ends s) j e) j = None) as -> by (apply nth_error_None; rewrite setn_length; now apply nth_error_None). reflexivity. }
  destruct ev; try reflexivity; unfold with_srv.
  - destruct (fwd_open large d _) as [r w]. destruct r; try reflexivity. destruct (skipn _ _); [reflexivity|]. destruct (resolve _ _); reflexivity.
  - destruct (fwd_close d _) as [r w]. destruct r; try reflexivity. destruct (skipn _ _); [reflexivity|]. destruct (resolve _ _); reflexivity.
  - now destruct (N1 d).
  - destruct (tick_at s a (is_loops s)) as [ls out]. reflexivity.
  - apply St. destruct (end_at s i0); reflexivity.
  - now destruct (N2 i0).
  - apply St. destruct (end_at s i0) as [| |tin tout vin chs]; try reflexivity. cbn [wait_at]. destruct (nth_error chs j) as [c|] eqn:E; [|reflexivity].
    cbn [output_of]. f_equal. f_equal. clear - E. revert j E. induction chs as [|x l IH]; intros [|j] E; cbn in *; try discriminate; [injection E as ->; reflexivity|]. f_equal. now apply IH.
Qed.
Print Assumptions C75_only_datagrams.

(** ** C76: input data *)

(** An I/O forward open for a routed path makes the connection and starts sending
    for it. *)
Theorem C76_opens : forall s0 evs s ot to serial vendor orig ot_rpi ot_par to_rpi to_par p more i,
  reached s0 evs s -> is_down s = false ->
  0 < ot < 2 ^ 32 -> 0 < to < 2 ^ 32 -> 0 <= serial < 2 ^ 16 -> 0 < to_rpi < 2 ^ 32 ->
  len p = 2 -> len more mod 2 = 0 -> len (p ++ more) < 256 -> routed s p i ->
  let s' := io_step s (EvOpen false (open_request ot to serial vendor orig ot_rpi ot_par to_rpi to_par 1 (p ++ more))) in
  made s' = made s ++ [SConn serial ot to to_rpi p true] /\ producing s' (length (made s)) /\
  (forall q j, routed s' q j <-> routed s q j) /\ is_ends s' = is_ends s /\ is_sent s' = is_sent s /\ is_down s' = false.
Proof.
  intros s0 evs s ot to serial vendor orig ot_rpi ot_par to_rpi to_par p more i R Hd Hot Hto Hse Hrpi Lp Lm Ll Hr. cbv zeta.
  unfold io_step. rewrite Hd. set (req := open_request _ _ _ _ _ _ _ _ _ _ _).
  set (f := [0x54; 2; 0x20; 6; 0x24; 1; 10; 14] ++ le 4 ot ++ le 4 to ++ le 2 serial ++ le 2 vendor ++ le 4 orig ++ [0; 0; 0; 0] ++
  le 4 ot_rpi ++ le 2 ot_par ++ le 4 to_rpi ++ le 2 to_par ++ [1; len (p ++ more) / 2]).
  assert (Er : req = f ++ p ++ more) by (unfold req, open_request, f; rewrite <- !app_assoc; reflexivity).
  assert (E1 : rd (38 + 2 * 2) req = Ok (f, p ++ more)) by (rewrite Er; apply rd_app; reflexivity).
  assert (E2 : unle (firstn 1 (skipn (37 + 2 * 2) f)) = len (p ++ more) / 2) by (cbn -[Z.div Z.mul Z.add len]; lia).
  assert (El : Z.to_nat ((len (p ++ more) / 2 * 2) mod 256) = length (p ++ more)).
  { assert (len (p ++ more) mod 2 = 0) by (rewrite len_app, Lp; rewrite <- Zplus_mod_idemp_r, Lm; reflexivity).
    pose proof (len_nonneg (p ++ more)). rewrite Z.mod_small by (Z.to_euclidean_division_equations; lia). unfold len in *. Z.to_euclidean_division_equations; lia. }
  assert (E3 : rd (length (p ++ more)) (p ++ more) = Ok (p ++ more, [])) by (rewrite <- (app_nil_r (p ++ more)) at 2; now apply rd_app).
  assert (F1 : unle (firstn 4 (skipn 8 f)) = ot) by (change (firstn 4 (skipn 8 f)) with (le 4 ot); apply unle_le_small; lia).
  assert (F2 : unle (firstn 4 (skipn 12 f)) = to) by (change (firstn 4 (skipn 12 f)) with (le 4 to); apply unle_le_small; lia).
  assert (F3 : unle (firstn 2 (skipn 16 f)) = serial) by (change (firstn 2 (skipn 16 f)) with (le 2 serial); apply unle_le_small; lia).
  assert (F4 : unle (firstn 4 (skipn (32 + 2) f)) = to_rpi) by (change (firstn 4 (skipn (32 + 2) f)) with (le 4 to_rpi); apply unle_le_small; lia).
  assert (F5 : unle (firstn 1 (skipn (36 + 2 * 2) f)) = 1) by reflexivity.
  assert (F6 : firstn 2 (p ++ more) = p) by (apply firstn_app_exact; unfold len in Lp; lia).
  pose proof (fwd_open_effect false req (World (is_srv s) handler_new [] [])) as Ef.
  assert (X : exists w, fwd_open false req (World (is_srv s) handler_new [] []) = (Ok tt, w) /\ sv_router (w_srv w) = sv_router (is_srv s) /\
     sv_cm (w_srv w) = conn_add (sv_cm (is_srv s)) (SConn serial ot to to_rpi p true) /\ sv_io (w_srv w) = sv_io (is_srv s) ++ [length (made s)]).
  { unfold fwd_open, bindM, lift. cbv zeta. rewrite E1, E2, El, E3. destruct (Z.ltb_spec (len (p ++ more)) 2); [rewrite len_app in *; pose proof (len_nonneg more); lia|].
    rewrite F1, F2, F3, F4, F5, F6. destruct (Z.eqb_spec to 0); [lia|]. destruct (Z.eqb_spec ot 0); [lia|]. cbn [ret put_h send ask put_srv w_srv negb andb].
    change (1 =? 1) with true. cbv beta iota. unfold resolve. cbn [w_srv w_h w_in w_sent set_cm sv_router]. unfold routed in Hr. rewrite Hr. destruct (Z.eqb_spec to_rpi 0); [lia|].
    eexists. split; [reflexivity|]. cbn [w_srv add_io set_cm sv_router sv_cm sv_io]. split; [reflexivity|]. split; reflexivity. }
  destruct X as (w & Ew & X1 & X2 & X3). rewrite Ew.
  assert (Hn : nth_error (cm_heap (sv_cm (w_srv w))) (length (made s)) = Some (SConn serial ot to to_rpi p true)) by (rewrite X2; cbn [conn_add cm_heap]; unfold made; rewrite nth_error_app2, Nat.sub_diag by lia; reflexivity).
  assert (Es : with_srv (Ok tt, w) s = IoSite (w_srv w) (is_ends s) (is_loops s ++ [IoLoop (length (made s)) to i 0 true]) (is_sent s) (is_down s)).
  { unfold with_srv. rewrite X3, skipn_app, skipn_all, Nat.sub_diag. cbn [skipn app].
    rewrite (conn_at_nth _ _ _ Hn). cbn [sc_path sc_to]. unfold resolve. unfold routed in Hr. rewrite X1, Hr. reflexivity. }
  rewrite Es. unfold made, producing, routed. cbn [is_srv is_ends is_sent is_down]. rewrite X1, X2, X3. cbn [conn_add cm_heap].
  split; [reflexivity|]. split; [apply in_or_app; right; now left|]. split; [intros; apply iff_refl|]. split; [reflexivity|]. split; [reflexivity|exact Hd].
Qed.
Print Assumptions C76_opens.

(** Each tick of a sending connection sends one message: its identifier, the next
    number and the input value set last. *)
Theorem C76_ticks_partial : forall s0 evs s a c i e0 tin v0,
  reached s0 evs s -> is_down s = false -> producing s a -> nth_error (made s) a = Some c -> sc_open c = true -> routed s (sc_path c) i ->
  nth_error (is_ends s0) i = Some e0 -> input_type e0 = Some tin -> input_value e0 = Some v0 -> simple_arrays tin ->
  let s' := io_step s (EvTick a) in let n := len (sent_for a s) + 1 in
  exists b, shows tin (last_set i evs v0) b /\
    sent_for a s' = sent_for a s ++ [io_message (sc_to c) n (le 2 n ++ b)] /\
    (forall o, o <> a -> sent_for o s' = sent_for o s) /\ is_srv s' = is_srv s /\ is_ends s' = is_ends s /\ is_down s' = false.
Proof.
  intros s0 evs s a c i e0 tin v0 R Hd P Hc Ho Hr He Et Ev Sa. cbv zeta. pose proof (reached_inv _ _ _ R) as V.
  assert (E0 : end_at s0 i = e0) by (unfold end_at; now apply nth_error_nth).
  pose proof (iv_ends _ _ _ V Hd i) as Si. unfold input_now in Si. rewrite E0, Ev in Si.
  assert (Ti : input_type (end_at s i) = Some tin /\ input_value (end_at s i) = Some (last_set i evs v0)).
  { destruct (same_in_type _ _ Si) as [-> ->]. destruct e0; cbn in *; try discriminate; auto. }
  destruct Ti as [T1 T2].
  destruct (tick_inv _ _ _ a V Hd) as (_ & A1 & A2 & A3 & [[_ A4]|(c' & i' & tin' & v' & _ & B2 & _ & B4 & B5 & B6 & B7)]).
  { rewrite (A4 c i P Hc Ho Hr) in T1. discriminate. }
  rewrite Hc in B2. injection B2 as <-. unfold routed in *. rewrite Hr in B4. injection B4 as <-. rewrite T1 in B5. injection B5 as <-. rewrite T2 in B6. injection B6 as <-.
  exists (fst (pack tin (last_set i evs v0))).
  pose proof (end_at_ok s i (iv_ok _ _ _ V)) as Ok0.
  assert (K : struct_type tin /\ has_type tin (last_set i evs v0)).
  { destruct (end_at s i); cbn in T1, T2; try discriminate; injection T1 as ->; injection T2 as ->; cbn [endpoint_ok] in Ok0; tauto. }
  destruct K as [K1 K2]. destruct tin; try contradiction.
  split; [apply (proj1 placed); auto|].
  assert (Sf : forall o, sent_for o (io_step s (EvTick a)) = sent_for o s ++ (if (a =? o)%nat then [io_message (sc_to c) (len (sent_for a s) + 1) (le 2 (len (sent_for a s) + 1) ++ fst (pack (TStruct name fs) (last_set i evs v0)))] else [])).
  { intros o. unfold sent_for at 1. rewrite B7, filter_app, map_app. cbn [filter fst]. destruct (a =? o)%nat; reflexivity. }
  split; [rewrite Sf, Nat.eqb_refl; reflexivity|]. split; [|auto]. intros o N. rewrite Sf. destruct (Nat.eqb_spec a o); [congruence|]. apply app_nil_r.
Qed.
Print Assumptions C76_ticks_partial.
(** Nothing else is sent: one event sends at most one message, and only for a
    sending, open connection whose ticker fired. *)
Theorem C76_nothing_else : forall s0 evs s ev a,
  reached s0 evs s -> allowed (is_ends s0) ev ->
  sent_for a (io_step s ev) = sent_for a s \/
  ev = EvTick a /\ producing s a /\ (exists c, nth_error (made s) a = Some c /\ sc_open c = true) /\ exists m, sent_for a (io_step s ev) = sent_for a s ++ [m].
Proof.
  intros s0 evs s ev a R A. pose proof (reached_inv _ _ _ R) as V.
  assert (Nt : (forall b, ev <> EvTick b) \/ exists b, ev = EvTick b) by (destruct ev; try (left; discriminate); right; now eexists).
  destruct Nt as [N|[b ->]].
  - left. unfold sent_for. rewrite (sent_step _ _ _ _ V); [reflexivity| |exact N]. destruct ev; try constructor. exact A.
  - destruct (is_down s) eqn:Hd; [left; now rewrite io_step_down|].
    destruct (tick_inv _ _ _ b V Hd) as (_ & _ & _ & _ & [[E _]|(c & i & tin & v & B1 & B2 & B3 & _ & _ & _ & B7)]); [left; unfold sent_for; now rewrite E|].
    unfold sent_for at 1 3. rewrite B7, filter_app, map_app. cbn [filter fst]. destruct (Nat.eqb_spec b a) as [->|].
    + right. split; [reflexivity|]. split; [exact B1|]. split; [eauto|]. eexists. reflexivity.
    + left. cbn [map]. apply app_nil_r.
Qed.
Print Assumptions C76_nothing_else.
(** The messages of a connection are numbered 1, 2, 3, ... and carry its identifier
    and a value of the input type. *)
Theorem C76_numbered_partial : forall s0 evs s a j m,
  reached s0 evs s -> nth_error (sent_for a s) j = Some m ->
  exists c i tin, nth_error (made s) a = Some c /\ routed s (sc_path c) i /\ input_type (nth i (is_ends s0) EndTags) = Some tin /\
    (simple_arrays tin -> exists v b, has_type tin v /\ shows tin v b /\ m = io_message (sc_to c) (Z.of_nat j + 1) (le 2 (Z.of_nat j + 1) ++ b)).
Proof.
  intros s0 evs s a j m R Hm. pose proof (reached_inv _ _ _ R) as V.
  assert (Pa : In a (sv_io (is_srv s))).
  { destruct (in_dec Nat.eq_dec a (sv_io (is_srv s))) as [H|H]; [exact H|]. rewrite (iv_sent _ _ _ V a H) in Hm. destruct j; discriminate. }
  rewrite <- (iv_io _ _ _ V) in Pa. apply in_map_iff in Pa as (l & <- & Hl). pose proof (iv_loops _ _ _ V) as F. rewrite Forall_forall in F.
  destruct (F l Hl) as (c & H1 & H2 & H3 & H4 & H5). pose proof (iv_types _ _ _ V (lp_end l)) as Ty.
  destruct (input_type (end_at s (lp_end l))) as [tin|] eqn:Et; [|rewrite H5 in Hm; destruct j; discriminate].
  exists c, (lp_end l), tin. split; [exact H1|]. split; [exact H3|]. split; [symmetry; exact Ty|]. intros Sa.
  destruct H5 as [_ Nm]. destruct (Nm _ _ Hm) as (v & Tv & ->). exists v, (fst (pack tin v)). split; [exact Tv|]. split; [|reflexivity].
  pose proof (end_at_ok s (lp_end l) (iv_ok _ _ _ V)) as Ok0.
  assert (K1 : struct_type tin) by (destruct (end_at s (lp_end l)); cbn in Et; try discriminate; injection Et as ->; cbn [endpoint_ok] in Ok0; tauto).
  destruct tin; try contradiction. apply (proj1 placed); auto.
Qed.
Print Assumptions C76_numbered_partial.
(** Once closed, a connection stays closed and nothing more is sent for it. *)
Theorem C76_closed : forall s0 evs s a c more,
  reached s0 evs s -> nth_error (made s) a = Some c -> sc_open c = false -> Forall (allowed (is_ends s0)) more ->
  sent_for a (io_run s more) = sent_for a s.
Proof.
  intros s0 evs s a c more. revert evs s c. induction more as [|ev more IH]; intros evs s c R Hc Ho A; [reflexivity|]. inversion A as [|? ? A1 A2]; subst.
  change (io_run s (ev :: more)) with (io_run (io_step s ev) more).
  pose proof (reached_inv _ _ _ R) as V. pose proof (step_grows _ _ s ev V ltac:(destruct ev; try constructor; exact A1) a c Hc) as (c' & Hc' & _ & _ & _ & Cl).
  rewrite (IH _ _ c' (reached_step _ _ _ _ R A1) Hc' (Cl Ho) A2).
  destruct (C76_nothing_else _ _ _ _ a R A1) as [E|(_ & _ & (c2 & H2 & O2) & _)]; [exact E|]. congruence.
Qed.
Print Assumptions C76_closed.

(** ** C77: channels *)

(** A message that shows [v] reaches every channel that has a receiver waiting, if
    all channels made before it have one too. *)
Theorem C77_delivers_partial : forall s0 evs s ot seq six b more a c i tin name fs vin chs v,
  reached s0 evs s -> is_down s = false ->
  only s ot a -> nth_error (made s) a = Some c -> routed s (sc_path c) i -> nth_error (is_ends s) i = Some (EndChan tin (TStruct name fs) vin chs) ->
  0 <= ot < 2 ^ 32 -> len six = 6 -> bytes_ok (six ++ b ++ more) -> len (io_message ot seq (six ++ b ++ more)) < 4096 ->
  simple_arrays (TStruct name fs) -> has_type (TStruct name fs) v -> shows (TStruct name fs) v b ->
  let s' := io_step s (EvDatagram (io_message ot seq (six ++ b ++ more))) in
  rest_same s s' /\
  exists chs', replaced i (EndChan tin (TStruct name fs) vin chs') (is_ends s) (is_ends s') /\
    forall k x, nth_error chs k = Some x -> (forall j y, (j <= k)%nat -> nth_error chs j = Some y -> ch_waiting y <> 0%nat) ->
      nth_error chs' k = Some (Channel (ch_waiting x - 1) (ch_got x ++ [v])).
Proof.
  intros s0 evs s ot seq six b more a c i tin name fs vin chs v R Hd On Hc Hr He Ro L6 B L S T Sh. cbv zeta.
  pose proof (reached_inv _ _ _ R) as V. unfold io_step. rewrite Hd.
  destruct (deliver _ _ _ _ _ _ _ _ _ V Hd Ro B L On Hc Hr) as [-> Ld].
  split; [repeat split|]. assert (Ei : end_at s i = EndChan tin (TStruct name fs) vin chs) by (unfold end_at; now apply nth_error_nth).
  pose proof (end_at_ok s i (iv_ok _ _ _ V)) as Ok0. rewrite Ei in *. cbn [endpoint_ok struct_type] in Ok0. destruct Ok0 as (_ & G & _ & Ho).
  unfold io_write. rewrite payload_six by assumption. cbn [bind].
  rewrite (proj1 shows_read (TStruct name fs) v b more G S T I Sh).
  pose proof (send_all_waiting v chs) as W. destruct (send_all v chs) as [chs' y]. cbn [fst] in *. exists chs'. split; [now apply (set_end_replaced s i _ _ He)|exact W].
Qed.
Print Assumptions C77_delivers_partial.

(** What the channels of a provider gave is taken from one list of values, in the
    same order, none twice; these are the values of some of the datagrams that
    arrived, in that order. *)
Definition value_in (t : gty) (d : bytes) (v : gv) : Prop :=
  exists x y id data rest n r, d ++ zeros (4096 - length d) = wire_list [(x, y); (id, data)] ++ rest /\ unpack t (skipn 6 data) = Ok (v, n, r).
Lemma datagrams_app l1 l2 : datagrams (l1 ++ l2) = datagrams l1 ++ datagrams l2.
Proof. induction l1 as [|ev l1 IH]; [reflexivity|]. destruct ev; cbn [app datagrams]; rewrite IH; reflexivity. Qed.
Theorem C77_in_order : forall s0 evs s i tin tout vin chs,
  reached s0 evs s -> (forall e, nth_error (is_ends s0) i = Some e -> match e with EndChan _ _ _ l => l = [] | _ => True end) ->
  nth_error (is_ends s) i = Some (EndChan tin tout vin chs) ->
  exists ds vs, sub ds (datagrams evs) /\ Forall2 (value_in tout) ds vs /\ Forall (fun ch => sub (ch_got ch) vs) chs.
Proof.
  intros s0 evs s i tin tout vin chs (Bg & Al & ->) H0. revert Al tin tout vin chs.
  induction evs as [|ev evs IH] using rev_ind; intros Al tin tout vin chs He.
  { exists [], []. cbn [io_run fold_left] in He. specialize (H0 _ He). cbn in H0. subst. split; [constructor|]. split; constructor. }
  apply Forall_app in Al as [A1 A2]. inversion A2 as [|? ? A _]; subst. rewrite io_run_app in He. cbn [io_run fold_left] in He. fold (io_run s0 evs) in He.
  assert (R : reached s0 evs (io_run s0 evs)) by (split; [exact Bg|]; split; [exact A1|reflexivity]). specialize (IH A1). set (s := io_run s0 evs) in *.
  rewrite datagrams_app. pose proof (reached_inv _ _ _ R) as V.
  assert (Old : forall chs0, nth_error (is_ends s) i = Some (EndChan tin tout vin chs0) -> Forall (fun ch => exists c0, (In c0 chs0 /\ ch_got ch = ch_got c0) \/ ch_got ch = []) chs ->
    exists ds vs, sub ds (datagrams evs ++ datagrams [ev]) /\ Forall2 (value_in tout) ds vs /\ Forall (fun ch => sub (ch_got ch) vs) chs).
  { intros chs0 E0 F. destruct (IH _ _ _ _ E0) as (ds & vs & S1 & S2 & S3). exists ds, vs. split; [|split; [exact S2|]].
    - clear - S1. generalize (datagrams [ev]). intros l. revert ds S1. induction l using rev_ind; intros ds S1; [now rewrite app_nil_r|]. rewrite app_assoc. apply sub_more. auto.
    - rewrite Forall_forall in F, S3 |- *. intros ch Hch. destruct (F ch Hch) as (c0 & [[H1 ->]| ->]); [auto|apply sub_empty]. }
  assert (Same : forall l, Forall (fun ch => exists c0, (In c0 l /\ ch_got ch = ch_got c0) \/ ch_got ch = []) l) by (intros l; apply Forall_forall; intros ch Hch; exists ch; left; auto).
  assert (Kept : is_ends (io_step s ev) = is_ends s -> exists ds vs, sub ds (datagrams evs ++ datagrams [ev]) /\ Forall2 (value_in tout) ds vs /\ Forall (fun ch => sub (ch_got ch) vs) chs).
  { intros E. rewrite E in He. apply (Old chs He). apply Same. }
  assert (Sets : forall j e, io_step s ev = set_end j e s -> (j <> i -> exists ds vs, sub ds (datagrams evs ++ datagrams [ev]) /\ Forall2 (value_in tout) ds vs /\ Forall (fun ch => sub (ch_got ch) vs) chs) /\
     (j = i -> exists e0, nth_error (is_ends s) i = Some e0 /\ e = EndChan tin tout vin chs /\ end_at s i = e0)).
  { intros j e E. rewrite E in He. cbn [set_end is_ends] in He. split.
    - intros N. rewrite setn_other in He by congruence. apply (Old chs He). apply Same.
    - intros ->. destruct (nth_error (is_ends s) i) as [e0|] eqn:E0.
      + rewrite setn_same in He by (apply nth_error_Some; congruence). injection He as ->. exists e0. split; [reflexivity|]. split; [reflexivity|]. unfold end_at. now apply nth_error_nth.
      + exfalso. assert (nth_error (setn (is_ends s) i e) i = None) by (apply nth_error_None; rewrite setn_length; now apply nth_error_None). congruence. }
  destruct (is_down s) eqn:Hd; [apply Kept; now rewrite io_step_down|].
  destruct ev.
  - apply Kept. unfold io_step. rewrite Hd. unfold with_srv. destruct (fwd_open large d _) as [r w]. destruct r; try reflexivity. destruct (skipn _ _); [reflexivity|]. destruct (resolve _ _); reflexivity.
  - apply Kept. unfold io_step. rewrite Hd. unfold with_srv. destruct (fwd_close d _) as [r w]. destruct r; try reflexivity. destruct (skipn _ _); [reflexivity|]. destruct (resolve _ _); reflexivity.
  - apply Kept. unfold io_step. rewrite Hd. reflexivity.
  - assert (Es : io_step s (EvDatagram d) = datagram s d) by (unfold io_step; now rewrite Hd).
    destruct (datagram_cases _ _ _ _ V A) as [E|(a & c & j & e' & _ & _ & _ & _ & Si & E & id0 & d0 & id1 & d1 & rest & W & B1 & L1 & Ee)]; [apply Kept; rewrite Es, E; reflexivity|].
    rewrite E in Es. destruct (Sets j e' Es) as [S1 S2]. destruct (Nat.eq_dec j i) as [->|N]; [|auto]. destruct (S2 eq_refl) as (e0 & F1 & F2 & F3).
    rewrite F3 in *. destruct e0 as [|? ? ? ?|tin0 tout0 vin0 chs0]; rewrite F2 in Si; cbn in Si; try contradiction. destruct Si as (-> & -> & ->).
    rewrite Ee in F2. unfold io_write in F2. pose proof (payload_cases (mk (id0, d0)) id1 d1 B1 L1) as P.
    destruct (io_payload _) as [p|er| |]; try contradiction; cbn [bind] in F2.
    2: { cbn [fst] in F2. injection F2 as ->. apply (Old chs F1). apply Same. }
    destruct P as (_ & _ & ->). destruct (unpack tout0 _) as [[[v n] r]|er| |] eqn:Eu; cbn [fst] in F2; try (injection F2 as ->; apply (Old chs F1); apply Same).
    pose proof (fun vs => send_all_sub v vs chs0) as X. destruct (send_all v chs0) as [chs1 y]. cbn [fst] in *. injection F2 as ->.
    destruct (IH _ _ _ _ F1) as (ds & vs & T1 & T2 & T3). exists (ds ++ [d]), (vs ++ [v]). split; [cbn [datagrams]; now apply sub_snoc|]. split; [|now apply X].
    apply Forall2_app; [exact T2|]. constructor; [|constructor]. now exists id0, d0, id1, d1, rest, n, r.
  - apply Kept. now apply tick_inv with (s0 := s0) (evs := evs).
  - assert (Es : io_step s (EvSet i0 v) = set_end i0 (set_in v (end_at s i0)) s) by (unfold io_step; now rewrite Hd).
    destruct (Sets _ _ Es) as [S1 S2]. destruct (Nat.eq_dec i0 i) as [->|N]; [|auto]. destruct (S2 eq_refl) as (e0 & F1 & F2 & F3). rewrite F3 in F2.
    destruct e0; cbn [set_in] in F2; try discriminate. injection F2 as -> -> -> ->. destruct (IH _ _ _ _ F1) as (ds & vs & T1 & T2 & T3). exists ds, vs. cbn [datagrams]. rewrite app_nil_r. auto.
  - assert (Es : io_step s (EvChannel i0) = set_end i0 (add_channel (end_at s i0)) s) by (unfold io_step; now rewrite Hd).
    destruct (Sets _ _ Es) as [S1 S2]. destruct (Nat.eq_dec i0 i) as [->|N]; [|auto]. destruct (S2 eq_refl) as (e0 & F1 & F2 & F3). rewrite F3 in F2.
    destruct e0; cbn [add_channel] in F2; try discriminate. injection F2 as -> -> -> <-. apply (Old chs0 F1). apply Forall_app. split; [apply Same|]. constructor; [|constructor]. exists (Channel 0 []). now right.
  - assert (Es : io_step s (EvWait i0 j) = set_end i0 (wait_at j (end_at s i0)) s) by (unfold io_step; now rewrite Hd).
    destruct (Sets _ _ Es) as [S1 S2]. destruct (Nat.eq_dec i0 i) as [->|N]; [|auto]. destruct (S2 eq_refl) as (e0 & F1 & F2 & F3). rewrite F3 in F2.
    destruct e0 as [| |tin0 tout0 vin0 chs0]; cbn [wait_at] in F2; try discriminate. destruct (nth_error chs0 j) as [c0|] eqn:E0.
    + injection F2 as -> -> -> <-. apply (Old chs0 F1). apply setn_Forall; [apply Same|]. exists c0. left. split; [now apply nth_error_In in E0|reflexivity].
    + injection F2 as -> -> -> <-. apply (Old chs0 F1). apply Same.
Qed.
Print Assumptions C77_in_order.

(** ** Cases *)
Definition out_t : gty := TStruct (str "Out") (FCons false (TInt true 2) (FCons false (TInt true 4) FNil)).
Definition in_t : gty := TStruct (str "In") (FCons false (TInt true 4) FNil).
Definition out_v (x y : Z) : gv := VStruct [VInt x; VInt y].
Definition in_v (x : Z) : gv := VStruct [VInt x].
Definition site (e : endpoint) : iosite :=
  IoSite (Server cman_init [([1; 0], 0%nat)] [] [] (fun _ => 7) 0 [] (Conv (fun _ _ => 0) (fun _ _ => 0) (fun _ => [])) [] 0) [e] [] [] false.
Definition io_open (ot to serial rpi : Z) : ioevent := EvOpen false (open_request ot to serial 1 2 rpi 0 rpi 0 1 [1; 0; 0x20; 4]).
Definition io_close (serial : Z) : ioevent := EvClose ([0x4E; 2; 0x20; 6; 0x24; 1; 10; 14] ++ le 2 serial ++ zeros 6 ++ [0] ++ zeros 20).
Definition out_bytes (x y : Z) : bytes := le 2 x ++ [9; 9] ++ le 4 y.
Definition io_data (ot seq x y : Z) : bytes := io_message ot seq (zeros 6 ++ out_bytes x y ++ []).
Lemma site_begins e : endpoint_ok e -> begins (site e).
Proof. intros H. repeat (split; [reflexivity|]). split; [repeat constructor; exact H|]. intros n. cbn. lia. Qed.
Lemma example_bytes (l : bytes) : forallb (fun x => (0 <=? x) && (x <? 256)) l = true -> bytes_ok l.
Proof. intros H. apply Forall_forall. intros x Hx. rewrite forallb_forall in H. specialize (H x Hx). unfold byte_ok. lia. Qed.
Lemma out_shows x y : shows out_t (out_v x y) (out_bytes x y).
Proof. split; [reflexivity|]. cbn [out_t out_v holds as_bits]. split; [reflexivity|]. split; [reflexivity|]. exact I. Qed.
Lemma out_typed x y : - 2 ^ 15 <= x < 2 ^ 15 -> - 2 ^ 31 <= y < 2 ^ 31 -> has_type out_t (out_v x y).
Proof. intros Hx Hy. cbn [out_t out_v has_type fields_have]. split; [split; [cbn; tauto|exact Hx]|]. split; [split; [cbn; tauto|exact Hy]|exact I]. Qed.
Lemma in_typed x : - 2 ^ 31 <= x < 2 ^ 31 -> has_type in_t (in_v x).
Proof. intros Hx. split; [split; [cbn; tauto|exact Hx]|exact I]. Qed.
Lemma types_ok : struct_type in_t /\ struct_type out_t.
Proof. cbn. tauto. Qed.
Definition io_end : endpoint := EndIO in_t out_t (in_v 0) (out_v 0 0).
Definition chan_end : endpoint := EndChan in_t out_t (in_v 0) [].
Lemma io_begins : begins (site io_end).
Proof. apply site_begins. split; [apply types_ok|]. split; [apply types_ok|]. split; [apply in_typed; lia|apply out_typed; lia]. Qed.
Lemma chan_begins : begins (site chan_end).
Proof. apply site_begins. split; [apply types_ok|]. split; [apply types_ok|]. split; [apply in_typed; lia|constructor]. Qed.
Ltac allow := repeat (constructor; [first [exact I | apply example_bytes; vm_compute; reflexivity
  | intros e t E T; cbn [nth_error site is_ends] in E; injection E as <-; injection T as <-; apply in_typed; lia]|]); constructor.
Ltac reach := split; [first [apply io_begins | apply chan_begins]|]; split; [allow|reflexivity].

(** The state after one connection was opened. *)
Definition one_open : list ioevent := [io_open 100 200 5 10000].
Lemma one_only s : made s = [SConn 5 100 200 10000 [1; 0] true] -> only s 100 0.
Proof.
  intros E. unfold only. rewrite E. split; [eexists; cbn; auto|]. intros [|b] (c & H & _); [reflexivity|]. destruct b; discriminate.
Qed.
Example ex_C75 : reached (site io_end) one_open (io_run (site io_end) one_open) /\
  is_ends (io_run (site io_end) (one_open ++ [EvDatagram (io_data 100 1 5 (-7))])) = [EndIO in_t out_t (in_v 0) (out_v 5 (-7))].
Proof.
  split; [reach|]. rewrite io_run_app. set (s := io_run (site io_end) one_open).
  assert (R : reached (site io_end) one_open s) by reach.
  assert (M : made s = [SConn 5 100 200 10000 [1; 0] true]) by (vm_compute; reflexivity).
  pose proof (C75_delivers_partial _ _ s 100 1 (zeros 6) (out_bytes 5 (-7)) [] 0 (SConn 5 100 200 10000 [1; 0] true) 0 in_t (str "Out") (FCons false (TInt true 2) (FCons false (TInt true 4) FNil)) (in_v 0) (out_v 0 0) (out_v 5 (-7)) R) as T.
  destruct T as [_ (L & T & _)]; try (vm_compute; reflexivity); try lia.
  - apply one_only, M.
  - apply example_bytes. vm_compute. reflexivity.
  - cbn. tauto.
  - apply out_typed; lia.
  - apply out_shows.
Qed.
Example ex_C75_confined : reached (site io_end) one_open (io_run (site io_end) one_open) /\
  io_run (site io_end) (one_open ++ [EvDatagram (io_data 101 1 5 (-7))]) = io_run (site io_end) one_open.
Proof. split; [reach|]. vm_compute. reflexivity. Qed.

(** An older message overwrites a newer one. *)
Theorem C75_stale_refuted : exists s0 evs ot n1 n2 x1 y1 x2 y2 tin vin,
  let s := io_run s0 (evs ++ [EvDatagram (io_data ot n2 x2 y2); EvDatagram (io_data ot n1 x1 y1)]) in
  reached s0 (evs ++ [EvDatagram (io_data ot n2 x2 y2); EvDatagram (io_data ot n1 x1 y1)]) s /\
  n1 < n2 /\ is_ends s = [EndIO tin out_t vin (out_v x1 y1)] /\ out_v x1 y1 <> out_v x2 y2.
Proof.
  exists (site io_end), one_open, 100, 1, 2, 3, 3, 4, 4, in_t, (in_v 0). cbv zeta. split; [reach|]. split; [lia|]. split; [vm_compute; reflexivity|discriminate].
Qed.
Print Assumptions C75_stale_refuted.
(** A datagram of which the end is missing is completed with zeros. *)
Theorem C75_cut_refuted : exists s0 evs d k e e', let s := io_run s0 evs in
  reached s0 evs s /\ d = io_data 100 1 5 7 /\ (k < length d)%nat /\ bytes_ok d /\ is_ends s = [e] /\ is_ends (io_step s (EvDatagram (firstn k d))) = [e'] /\
  output_of e = Some (inl (out_v 1 2)) /\ output_of e' = Some (inl (out_v 5 0)).
Proof.
  exists (site io_end), (one_open ++ [EvDatagram (io_data 100 1 1 2)]), (io_data 100 1 5 7), 28%nat, (EndIO in_t out_t (in_v 0) (out_v 1 2)), (EndIO in_t out_t (in_v 0) (out_v 5 0)). cbv zeta.
  split; [reach|]. split; [reflexivity|]. split; [vm_compute; lia|]. split; [apply example_bytes; vm_compute; reflexivity|].
  split; [vm_compute; reflexivity|]. split; [vm_compute; reflexivity|]. split; reflexivity.
Qed.
Print Assumptions C75_cut_refuted.
(** A message with too little data sets the fields it has and leaves the others. *)
Theorem C75_short_refuted : exists s0 evs data e e', let s := io_run s0 evs in let d := io_message 100 1 (zeros 6 ++ data) in
  reached s0 evs s /\ bytes_ok d /\ len data < size out_t /\ is_ends s = [e] /\ is_ends (io_step s (EvDatagram d)) = [e'] /\
  output_of e = Some (inl (out_v 1 2)) /\ output_of e' = Some (inl (out_v 5 2)).
Proof.
  exists (site io_end), (one_open ++ [EvDatagram (io_data 100 1 1 2)]), (le 2 5), (EndIO in_t out_t (in_v 0) (out_v 1 2)), (EndIO in_t out_t (in_v 0) (out_v 5 2)). cbv zeta.
  split; [reach|]. split; [apply example_bytes; vm_compute; reflexivity|]. split; [vm_compute; reflexivity|].
  split; [vm_compute; reflexivity|]. split; [vm_compute; reflexivity|]. split; reflexivity.
Qed.
Print Assumptions C75_short_refuted.

Definition io_story : list ioevent := [io_open 100 200 5 10000; EvSet 0 (in_v 8); EvTick 0; EvSet 0 (in_v 9); EvTick 0].
Example ex_C76 : reached (site io_end) io_story (io_run (site io_end) io_story) /\ producing (io_run (site io_end) io_story) 0 /\
  sent_for 0 (io_run (site io_end) io_story) = [io_message 200 1 (le 2 1 ++ le 4 8); io_message 200 2 (le 2 2 ++ le 4 9)].
Proof. split; [reach|]. split; [vm_compute; auto|]. vm_compute. reflexivity. Qed.
Example ex_C76_closed : exists c, reached (site io_end) (io_story ++ [io_close 5]) (io_run (site io_end) (io_story ++ [io_close 5])) /\
  nth_error (made (io_run (site io_end) (io_story ++ [io_close 5]))) 0 = Some c /\ sc_open c = false /\
  len (sent_for 0 (io_run (site io_end) (io_story ++ [io_close 5; EvTick 0; EvTick 0]))) = 2.
Proof. eexists. split; [reach|]. split; [vm_compute; reflexivity|]. split; vm_compute; reflexivity. Qed.
(** The TCP connection a connection was opened over may end: messages go on being
    sent for it. *)
Theorem C76_hangup_refuted : exists s0 evs a, let s := io_run s0 (evs ++ [EvHangup]) in
  reached s0 (evs ++ [EvHangup]) s /\ producing s a /\ sent_for a (io_step s (EvTick a)) <> sent_for a s.
Proof. exists (site io_end), one_open, 0%nat. cbv zeta. split; [reach|]. split; [vm_compute; auto|]. vm_compute. discriminate. Qed.
Print Assumptions C76_hangup_refuted.
(** A request for a packet interval of zero ends the program. *)
Theorem C76_interval_refuted : exists s0 d, begins s0 /\ bytes_ok d /\ d = open_request 100 200 5 1 2 0 0 0 0 1 [1; 0; 0x20; 4] /\
  is_down (io_step s0 (EvOpen false d)) = true.
Proof.
  exists (site io_end), (open_request 100 200 5 1 2 0 0 0 0 1 [1; 0; 0x20; 4]). split; [exact io_begins|]. split; [apply example_bytes; vm_compute; reflexivity|].
  split; [reflexivity|]. vm_compute. reflexivity.
Qed.
Print Assumptions C76_interval_refuted.

Definition chan_story : list ioevent :=
  one_open ++ [EvChannel 0; EvChannel 0; EvWait 0 0; EvWait 0 1; EvDatagram (io_data 100 1 1 1); EvWait 0 0; EvDatagram (io_data 100 2 2 2); EvWait 0 0; EvWait 0 1; EvDatagram (io_data 100 3 3 3)].
Example ex_C77 : reached (site chan_end) chan_story (io_run (site chan_end) chan_story) /\
  is_ends (io_run (site chan_end) chan_story) =
    [EndChan in_t out_t (in_v 0) [Channel 0 [out_v 1 1; out_v 2 2; out_v 3 3]; Channel 0 [out_v 1 1; out_v 3 3]]].
Proof. split; [reach|]. vm_compute. reflexivity. Qed.
(** One channel nobody reads keeps every later channel from its values. *)
Theorem C77_starved_refuted : exists s0 evs x y n, let s := io_run s0 evs in
  reached s0 evs s /\ is_ends s = [EndChan in_t out_t (in_v 0) [Channel 0 []; Channel (S n) []]] /\
  is_ends (io_step s (EvDatagram (io_data 100 1 x y))) = is_ends s.
Proof. exists (site chan_end), (one_open ++ [EvChannel 0; EvChannel 0; EvWait 0 1]), 1, 1, 0%nat. cbv zeta. split; [reach|]. split; vm_compute; reflexivity. Qed.
Print Assumptions C77_starved_refuted.
