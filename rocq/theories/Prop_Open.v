(** * C37, C63, C64: session open and close requests *)
From Verif Require Import GoBase SegModel ItemsModel PathModel EipModel OpenModel OpenSpec OpenProof.

(** The size a client asks for: the configured one, 4000 if none. *)
Definition wanted (c : session) : Z := if s_size c =? 0 then 4000 else s_size c.

(** An open request Connect may send: everything but the size and the form is
    fixed; the standard form asks for at most 511 bytes. *)
Definition proper_open (c : session) (o : open_req) : Prop :=
  word_ok o /\
  o_params o = plain_params (if o_large o then wanted c else Z.min (wanted c) 511) /\
  (o_large o = true -> 511 < wanted c) /\
  o_path o = session_path c /\ o_vendor o = s_vendor c /\ o_orig o = s_orig c /\ o_rpi o = s_rpi c /\
  o_words o = (len (session_path c) / 2) mod 256.

Definition proper_request (c : session) (m : Z * bytes) : Prop :=
  m = (cmd_register, le 2 1 ++ le 2 0) \/
  exists o, m = (cmd_rrdata, unconnected (open_message o)) /\ proper_open c o.

(** What Connect sends and what it leaves behind, whatever the controller does. *)
Lemma connect_requests : forall S (p : peer S) s now c r c' s' log,
  0 <= s_size c < 65536 ->
  connect (logging p) (s, []) now c = (r, c', (s', log)) ->
  Forall (proper_request c) log /\
  (r = Ok tt -> exists before o,
     log = before ++ [(cmd_rrdata, unconnected (open_message o))] /\ proper_open c o /\
     s_size c' = p_size (o_params o) /\ s_serial c' = o_serial o /\
     s_vendor c' = o_vendor o /\ s_orig c' = o_orig o /\ session_path c' = o_path o).
Proof.
  intros S p s now c r c' s' log Hs H. unfold connect in H. cbv zeta in H.
  set (c1 := add_counter (if s_size c =? 0 then with_size c 4000 else c) now) in H.
  assert (Hc1 : s_size c1 = wanted c /\ s_vendor c1 = s_vendor c /\ s_orig c1 = s_orig c /\ s_rpi c1 = s_rpi c /\ s_route c1 = s_route c).
  { unfold c1, wanted. destruct (s_size c =? 0); repeat split; reflexivity. }
  assert (Hw : 0 < wanted c < 65536). { unfold wanted. destruct (Z.eqb_spec (s_size c) 0); lia. }
  clearbody c1. destruct Hc1 as (Z1 & V1 & O1 & R1 & P1).
  destruct (register_session (logging p) (s, []) c1) as [r1 [s1 l1]] eqn:Ereg.
  destruct (register_log _ _ _ _ _ _ Ereg) as (L1 & K1). cbn [snd app] in L1. subst l1.
  assert (Preg : proper_request c (cmd_register, le 2 1 ++ le 2 0)) by now left.
  destruct r1 as [c2|e| |].
  2,3,4: apply pair_equal_spec in H as [H1 H2]; apply pair_equal_spec in H1 as [<- <-];
         apply pair_equal_spec in H2 as [<- <-]; (split; [constructor; [exact Preg|constructor]|intros; discriminate]).
  destruct (K1 c2 eq_refl) as (h & ->). clear K1.
  set (c2 := with_handle c1 h) in H.
  assert (Hc2 : s_size c2 = wanted c /\ s_vendor c2 = s_vendor c /\ s_orig c2 = s_orig c /\ s_rpi c2 = s_rpi c /\ s_route c2 = s_route c)
    by (repeat split; assumption).
  clearbody c2. clear Z1 V1 O1 R1 P1. destruct Hc2 as (Z2 & V2 & O2 & R2 & P2).
  destruct (Z.ltb_spec 511 (s_size c2)) as [Hbig|Hsmall].
  - destruct (new_open_large c2) as [it c3] eqn:Elg.
    destruct (open_large_spec c2 it c3 ltac:(lia) Elg) as (o & W & Lg & Wok & Pp & Com & Z3 & S3 & T3 & H3 & V3 & O3 & R3).
    destruct Com as (C1 & C2 & C3 & C4 & C5 & C6 & C7 & C8).
    assert (Po : proper_open c o).
    { refine (conj Wok (conj _ (conj _ (conj _ (conj _ (conj _ (conj _ _))))))); try congruence.
      - rewrite Lg, Pp. now rewrite Z2.
      - rewrite C7. unfold session_path. now rewrite P2.
      - rewrite C8. unfold session_path. now rewrite P2. }
    destruct (forward_open (logging p) (s1, [(cmd_register, le 2 1 ++ le 2 0)]) c3 it) as [r3 [s3 l3]] eqn:Ef.
    destruct (forward_open_log _ _ _ _ _ _ _ Ef) as (L3 & K3). cbn [snd] in L3. subst l3. rewrite W in H.
    assert (Pl : Forall (proper_request c) ([(cmd_register, le 2 1 ++ le 2 0)] ++ [(cmd_rrdata, unconnected (open_message o))])).
    { repeat apply Forall_cons; [exact Preg| |constructor]. right. exists o. now split. }
    destruct r3 as [c4|e| |].
    + destruct (K3 c4 eq_refl) as (id & ->).
      replace (s_size (with_otid c3 id) <=? 511) with false in H by (symmetry; cbn; lia).
      apply pair_equal_spec in H as [H1 H2]; apply pair_equal_spec in H1 as [<- <-]; apply pair_equal_spec in H2 as [<- <-].
      split; [exact Pl|]. intros _. eexists _, o. split; [reflexivity|]. split; [exact Po|].
      rewrite Pp. repeat split; cbn [s_size s_serial s_vendor s_orig with_otid]; try congruence.
      * cbn. lia.
      * rewrite C7. unfold session_path. cbn [s_route with_otid]. now rewrite T3.
    + cbn [s_size with_size] in H. change (511 <=? 511) with true in H. cbv iota in H.
      set (c5 := with_size c3 511) in H.
      destruct (new_open_standard c5) as [it' c6] eqn:Est.
      destruct (open_standard_spec c5 it' c6 ltac:(cbn; lia) Est) as (o' & W' & Lg' & Wok' & Pp' & Com' & Z6 & S6 & T6 & H6 & V6 & O6 & R6).
      destruct Com' as (D1 & D2 & D3 & D4 & D5 & D6 & D7 & D8).
      assert (Po' : proper_open c o').
      { refine (conj Wok' (conj _ (conj _ (conj _ (conj _ (conj _ (conj _ _))))))); try (unfold c5 in *; cbn [s_vendor s_orig s_rpi with_size] in *; congruence).
        - rewrite Lg', Pp'. unfold c5. cbn [s_size with_size]. f_equal. lia.
        - rewrite D7. unfold session_path, c5. cbn [s_route with_size]. now rewrite T3, P2.
        - rewrite D8. unfold session_path, c5. cbn [s_route with_size]. now rewrite T3, P2. }
      destruct (forward_open (logging p) (s3, _) c6 it') as [r7 [s7 l7]] eqn:Ef'.
      destruct (forward_open_log _ _ _ _ _ _ _ Ef') as (L7 & K7). cbn [snd] in L7. subst l7. rewrite W' in H.
      assert (Pl' : Forall (proper_request c) (([(cmd_register, le 2 1 ++ le 2 0)] ++ [(cmd_rrdata, unconnected (open_message o))]) ++ [(cmd_rrdata, unconnected (open_message o'))])).
      { apply Forall_app. split; [exact Pl|]. constructor; [|constructor]. right. exists o'. now split. }
      destruct r7 as [c8|e'| |].
      2,3,4: apply pair_equal_spec in H as [H1 H2]; apply pair_equal_spec in H1 as [<- <-];
             apply pair_equal_spec in H2 as [<- <-]; (split; [exact Pl'|intros; discriminate]).
      destruct (K7 c8 eq_refl) as (id & ->).
      apply pair_equal_spec in H as [H1 H2]; apply pair_equal_spec in H1 as [<- <-]; apply pair_equal_spec in H2 as [<- <-].
      split; [exact Pl'|]. intros _. eexists _, o'. split; [reflexivity|]. split; [exact Po'|].
      rewrite Pp'. unfold c5 in *. cbn [s_size s_vendor s_orig s_route with_size] in *.
      repeat split; cbn [s_size s_serial s_vendor s_orig with_otid p_size plain_params]; try congruence.
      rewrite D7. unfold session_path. cbn [s_route with_otid with_size]. now rewrite T6.
    + apply pair_equal_spec in H as [H1 H2]; apply pair_equal_spec in H1 as [<- <-]; apply pair_equal_spec in H2 as [<- <-].
      split; [exact Pl|intros; discriminate].
    + apply pair_equal_spec in H as [H1 H2]; apply pair_equal_spec in H1 as [<- <-]; apply pair_equal_spec in H2 as [<- <-].
      split; [exact Pl|intros; discriminate].
  - replace (s_size c2 <=? 511) with true in H by lia.
    destruct (new_open_standard c2) as [it' c6] eqn:Est.
    destruct (open_standard_spec c2 it' c6 ltac:(lia) Est) as (o' & W' & Lg' & Wok' & Pp' & Com' & Z6 & S6 & T6 & H6 & V6 & O6 & R6).
    destruct Com' as (D1 & D2 & D3 & D4 & D5 & D6 & D7 & D8).
    assert (Po' : proper_open c o').
    { refine (conj Wok' (conj _ (conj _ (conj _ (conj _ (conj _ (conj _ _))))))); try congruence.
      - rewrite Lg', Pp'. f_equal. lia.
      - rewrite D7. unfold session_path. now rewrite P2.
      - rewrite D8. unfold session_path. now rewrite P2. }
    destruct (forward_open (logging p) (s1, _) c6 it') as [r7 [s7 l7]] eqn:Ef'.
    destruct (forward_open_log _ _ _ _ _ _ _ Ef') as (L7 & K7). cbn [snd] in L7. subst l7. rewrite W' in H.
    assert (Pl' : Forall (proper_request c) ([(cmd_register, le 2 1 ++ le 2 0)] ++ [(cmd_rrdata, unconnected (open_message o'))])).
    { repeat apply Forall_cons; [exact Preg| |constructor]. right. exists o'. now split. }
    destruct r7 as [c8|e'| |].
    2,3,4: apply pair_equal_spec in H as [H1 H2]; apply pair_equal_spec in H1 as [<- <-];
           apply pair_equal_spec in H2 as [<- <-]; (split; [exact Pl'|intros; discriminate]).
    destruct (K7 c8 eq_refl) as (id & ->).
    apply pair_equal_spec in H as [H1 H2]; apply pair_equal_spec in H1 as [<- <-]; apply pair_equal_spec in H2 as [<- <-].
    split; [exact Pl'|]. intros _. eexists _, o'. split; [reflexivity|]. split; [exact Po'|].
    rewrite Pp'.
    repeat split; cbn [s_size s_serial s_vendor s_orig with_otid p_size plain_params]; try congruence.
    rewrite D7. unfold session_path. cbn [s_route with_otid]. now rewrite T6.
Qed.

(** C37: every open request carries the wanted size in its size field, a
    point-to-point variable-size low-priority connection in the other fields, and
    no standard request asks for more than 511 bytes.  After a successful Connect
    the client's size is the one in the request the controller accepted last. *)
Theorem C37_open_parameters : forall S (p : peer S) s now c r c' s' log,
  0 <= s_size c < 65536 ->
  connect (logging p) (s, []) now c = (r, c', (s', log)) ->
  Forall (fun m => m = (cmd_register, [1; 0; 0; 0]) \/
                   exists o, m = (cmd_rrdata, unconnected (open_message o)) /\ word_ok o /\
                     p_size (o_params o) = (if o_large o then wanted c else Z.min (wanted c) 511) /\
                     p_variable (o_params o) = 1 /\ p_priority (o_params o) = 0 /\
                     p_type (o_params o) = 2 /\ p_owner (o_params o) = 0) log /\
  (r = Ok tt -> exists before o,
     log = before ++ [(cmd_rrdata, unconnected (open_message o))] /\ s_size c' = p_size (o_params o)).
Proof.
  intros S p s now c r c' s' log Hs H.
  destruct (connect_requests _ _ _ _ _ _ _ _ _ Hs H) as (F & K). split.
  - eapply Forall_impl; [|exact F]. intros m [E|(o & E & (W & P & _))]; [now left|].
    right. exists o. rewrite P. repeat split; auto; cbn; try reflexivity; apply W.
  - intros E. destruct (K E) as (b & o & L & _ & Z & _). now exists b, o.
Qed.

(** A controller that refuses the large form and grants the standard one. *)
Definition reply_open (ot : Z) : bytes :=
  [0;0;0;0; 0;0; 2;0; 0;0; 0;0; 0xB2;0; 30;0; 0xD4;0;0;0] ++ le 4 ot ++ zeros 22.
Definition reply_refused : bytes := [0;0;0;0; 0;0; 2;0; 0;0; 0;0; 0xB2;0; 4;0; 0xDB;0;8;0].
Definition ok_header (cmd n : Z) : eip_header :=
  {| eh_command := cmd; eh_length := n; eh_session := 77; eh_status := 0; eh_context := 0; eh_options := 0 |}.
Definition only_standard : peer unit := fun _ cmd d =>
  if cmd =? cmd_register then (Ok (ok_header cmd 4, [1; 0; 0; 0]), tt)
  else if nth 16 d 0 =? svc_open then (Ok (ok_header cmd 46, reply_open 1234), tt)
  else (Ok (ok_header cmd 20, reply_refused), tt).
Definition ex_session : session :=
  {| s_size := 0; s_counter := 4294967294; s_handle := 0; s_context := 5; s_otid := 0; s_serial := 0;
     s_vendor := 0x9999; s_orig := 42; s_rpi := 2500000; s_route := [1; 0] |}.

Example ex_C37 : exists c' s' o1 o2,
  connect (logging only_standard) (tt, []) 3 ex_session =
    (Ok tt, c', (s', [(cmd_register, [1; 0; 0; 0]);
                      (cmd_rrdata, unconnected (open_message o1));
                      (cmd_rrdata, unconnected (open_message o2))])) /\
  o_large o1 = true /\ p_size (o_params o1) = 4000 /\
  o_large o2 = false /\ p_size (o_params o2) = 511 /\ s_size c' = 511 /\ s_otid c' = 1234.
Proof.
  eexists _, _,
    {| o_large := true; o_tick := 10; o_ticks := 14; o_ot := 3; o_to := 4; o_serial := 2; o_vendor := 0x9999; o_orig := 42;
       o_mult := 3; o_rpi := 2500000; o_word := 1107300256; o_words := 3; o_path := [1; 0; 0x20; 2; 0x24; 1] |},
    {| o_large := false; o_tick := 7; o_ticks := 233; o_ot := 6; o_to := 7; o_serial := 5; o_vendor := 0x9999; o_orig := 42;
       o_mult := 0; o_rpi := 2500000; o_word := 17407; o_words := 3; o_path := [1; 0; 0x20; 2; 0x24; 1] |}.
  split; [vm_compute; reflexivity|].
  split; [reflexivity|]. split; [vm_compute; reflexivity|]. split; [reflexivity|].
  split; [vm_compute; reflexivity|]. split; vm_compute; reflexivity.
Qed.

(** ** C63: the announced route length *)

(** Open and close requests announce how many 16-bit words of path follow.  For a
    route of whole words that is exactly the path. *)
Theorem C63_route_counted_partial : forall S (p : peer S) s now c r c' s' log m,
  0 <= s_size c < 65536 -> Z.even (len (s_route c)) = true -> len (s_route c) <= 506 ->
  connect (logging p) (s, []) now c = (r, c', (s', log)) -> In m log ->
  m = (cmd_register, [1; 0; 0; 0]) \/
  exists o, m = (cmd_rrdata, unconnected (open_message o)) /\
            o_path o = s_route c ++ [0x20; 2; 0x24; 1] /\
            2 * o_words o = len (o_path o).
Proof.
  intros S p s now c r c' s' log m Hs He Hl H Hin.
  destruct (connect_requests _ _ _ _ _ _ _ _ _ Hs H) as (F & _).
  rewrite Forall_forall in F. destruct (F m Hin) as [E|(o & E & (_ & _ & _ & P & _ & _ & _ & W))]; [now left|].
  right. exists o. split; [exact E|]. rewrite W, P. unfold session_path in *.
  change (class_bytes 2 ++ instance_bytes 1) with [0x20; 2; 0x24; 1] in *. split; [reflexivity|].
  rewrite len_app. change (len [0x20; 2; 0x24; 1]) with 4.
  apply Z.even_spec in He. destruct He as (k & He). pose proof (len_nonneg (s_route c)). lia.
Qed.

Example ex_C63 : 0 <= s_size ex_session < 65536 /\ Z.even (len (s_route ex_session)) = true /\
  len (s_route ex_session) <= 506 /\
  exists c' log, connect (logging only_standard) (tt, []) 3 ex_session = (Ok tt, c', (tt, log)) /\ len log = 3.
Proof.
  split; [cbn; lia|]. split; [reflexivity|]. split; [cbn; lia|].
  eexists _, _. split; [vm_compute; reflexivity|reflexivity].
Qed.

(** The same for the close request. *)
Theorem C63_close_route_counted_partial : forall c,
  Z.even (len (s_route c)) = true -> len (s_route c) <= 506 ->
  exists words, close_payload c =
    unconnected (close_message (s_serial c) (s_vendor c) (s_orig c) words (s_route c ++ [0x20; 2; 0x24; 1])) /\
    2 * words = len (s_route c ++ [0x20; 2; 0x24; 1]).
Proof.
  intros c He Hl. exists ((len (session_path c) / 2) mod 256). split.
  - unfold close_payload. rewrite payload_wire. unfold close_message. rewrite <- !app_assoc. reflexivity.
  - unfold session_path. change (class_bytes 2 ++ instance_bytes 1) with [0x20; 2; 0x24; 1].
    rewrite len_app. change (len [0x20; 2; 0x24; 1]) with 4.
    apply Z.even_spec in He. destruct He as (k & He). pose proof (len_nonneg (s_route c)). lia.
Qed.

(** The route ParsePath makes of a string with a dotted address of odd length has
    an odd number of bytes: the announced length leaves the last byte out. *)
Definition odd_session : session :=
  {| s_size := 504; s_counter := 0; s_handle := 0; s_context := 5; s_otid := 0; s_serial := 0;
     s_vendor := 0x9999; s_orig := 42; s_rpi := 2500000;
     s_route := match parse_path (str "1,10.1.1.24,1,0") with Ok r => r | _ => [] end |}.
Theorem C63_odd_address_refuted : exists s c c' log o before,
  parse_path s = Ok (s_route c) /\
  connect (logging only_standard) (tt, []) 3 c = (Ok tt, c', (tt, log)) /\
  log = before ++ [(cmd_rrdata, unconnected (open_message o))] /\
  o_path o = s_route c ++ [0x20; 2; 0x24; 1] /\ 2 * o_words o + 1 = len (o_path o).
Proof.
  exists (str "1,10.1.1.24,1,0"), odd_session.
  eexists _, _,
    {| o_large := false; o_tick := 7; o_ticks := 233; o_ot := 5; o_to := 6; o_serial := 4; o_vendor := 0x9999; o_orig := 42;
       o_mult := 0; o_rpi := 2500000; o_word := 17400; o_words := 8; o_path := s_route odd_session ++ [0x20; 2; 0x24; 1] |},
    [(cmd_register, [1; 0; 0; 0])].
  split; [vm_compute; reflexivity|]. split; [vm_compute; reflexivity|].
  split; [vm_compute; reflexivity|]. split; [reflexivity|vm_compute; reflexivity].
Qed.

(** A route of more than 506 bytes is counted modulo 256 words. *)
Theorem C63_long_route_refuted : exists c words, Z.even (len (s_route c)) = true /\
  close_payload c = unconnected (close_message (s_serial c) (s_vendor c) (s_orig c) words (s_route c ++ [0x20; 2; 0x24; 1])) /\
  2 * words <> len (s_route c ++ [0x20; 2; 0x24; 1]).
Proof.
  exists {| s_size := 504; s_counter := 0; s_handle := 0; s_context := 5; s_otid := 0; s_serial := 0;
            s_vendor := 0x9999; s_orig := 42; s_rpi := 2500000; s_route := concat (repeat [1; 0] 254) |}, 0.
  split; [reflexivity|]. split; [vm_compute; reflexivity|vm_compute; discriminate].
Qed.

(** ** C64: Disconnect closes the connection Connect opened *)

(** After a successful Connect the close request carries the connection serial
    number, vendor, originator and path of the open request accepted last. *)
Theorem C64_close_names_open : forall S (p : peer S) s now c c' s' log,
  0 <= s_size c < 65536 ->
  connect (logging p) (s, []) now c = (Ok tt, c', (s', log)) ->
  exists before o words, log = before ++ [(cmd_rrdata, unconnected (open_message o))] /\
    close_payload c' = unconnected (close_message (o_serial o) (o_vendor o) (o_orig o) words (o_path o)) /\
    words = o_words o.
Proof.
  intros S p s now c c' s' log Hs H.
  destruct (connect_requests _ _ _ _ _ _ _ _ _ Hs H) as (_ & K).
  destruct (K eq_refl) as (b & o & L & Po & _ & E1 & E2 & E3 & E4).
  exists b, o, (o_words o). split; [exact L|]. split; [|reflexivity].
  unfold close_payload. rewrite payload_wire. unfold close_message. rewrite E1, E2, E3, E4.
  destruct Po as (_ & _ & _ & P & _ & _ & _ & W). rewrite W, <- P. rewrite <- !app_assoc. reflexivity.
Qed.

Example ex_C64 : exists c' log, connect (logging only_standard) (tt, []) 3 ex_session = (Ok tt, c', (tt, log)) /\
  s_serial c' = 5 /\ len (close_payload c') = 16 + 24.
Proof. eexists _, _. split; [vm_compute; reflexivity|]. split; reflexivity. Qed.

(** ** C65: Connect succeeds exactly on a granted open request *)

(** When Connect succeeds the controller's last reply granted the open request, and
    the client from then on uses the connection id granted and the session handle
    of the reply to its registration. *)
Theorem C65_success_granted : forall S (p : peer S) s now c c' s',
  (forall s cmd q h d s', p s cmd q = (Ok (h, d), s') -> bytes_ok d) ->
  connect p s now c = (Ok tt, c', s') ->
  (exists s1 req h d, p s1 cmd_rrdata req = (Ok (h, d), s') /\ eh_status h = 0 /\ grants d (s_otid c')) /\
  (exists h d s1, p s cmd_register [1; 0; 0; 0] = (Ok (h, d), s1) /\ s_handle c' = eh_session h).
Proof.
  intros S p s now c c' s' Hp H. unfold connect in H. cbv zeta in H.
  set (c1 := add_counter _ now) in H. clearbody c1.
  unfold register_session in H. change (le 2 1 ++ le 2 0) with [1; 0; 0; 0] in H.
  destruct (p s cmd_register [1; 0; 0; 0]) as [r0 s1] eqn:Er. destruct r0 as [[h0 d0]|e| |]; try discriminate.
  set (c2 := with_handle c1 (eh_session h0)) in H.
  assert (H2 : s_handle c2 = eh_session h0) by reflexivity. clearbody c2.
  assert (Std : forall c s, s_handle c = eh_session h0 ->
    (let '(it, c) := new_open_standard c in
      match forward_open p s c it with (Ok c, s) => (Ok tt, c, s) | (Err e, s) => (Err e, c, s) | (Panic, s) => (Panic, c, s) | (OutOfFuel, s) => (OutOfFuel, c, s) end) = (Ok tt, c', s') ->
    (exists s1 req h d, p s1 cmd_rrdata req = (Ok (h, d), s') /\ eh_status h = 0 /\ grants d (s_otid c')) /\ s_handle c' = eh_session h0).
  { intros k sk Hk. destruct (new_open_standard k) as [it k'] eqn:Eo.
    assert (Hk' : s_handle k' = eh_session h0).
    { unfold new_open_standard in Eo. cbv zeta in Eo. apply pair_equal_spec in Eo as [_ <-].
      destruct (s_size k =? 0); [destruct (511 <? s_size (with_size k 511))|destruct (511 <? s_size k)]; exact Hk. }
    destruct (forward_open p sk k' it) as [[k2|e| |] s2] eqn:Ef; intros X; try discriminate.
    apply pair_equal_spec in X as [X <-]. apply pair_equal_spec in X as [_ <-].
    destruct (forward_open_granted _ _ _ _ _ _ Hp Ef) as (h & d & id & E1 & E2 & E3 & ->).
    split; [|exact Hk']. exists sk, (open_payload it), h, d. auto. }
  enough (X : (exists s1 req h d, p s1 cmd_rrdata req = (Ok (h, d), s') /\ eh_status h = 0 /\ grants d (s_otid c')) /\ s_handle c' = eh_session h0).
  { destruct X as (X1 & X2). split; [exact X1|]. exists h0, d0, s1. auto. }
  destruct (Z.ltb_spec 511 (s_size c2)).
  - destruct (new_open_large c2) as [it c3] eqn:Eo.
    assert (H3 : s_handle c3 = eh_session h0).
    { unfold new_open_large in Eo. cbv zeta in Eo. apply pair_equal_spec in Eo as [_ <-].
      destruct (s_size c2 =? 0); exact H2. }
    clear Eo. destruct (forward_open p s1 c3 it) as [[c4|e| |] s4] eqn:Ef; try discriminate.
    + destruct (forward_open_granted _ _ _ _ _ _ Hp Ef) as (h & d & id & E1 & E2 & E3 & E4).
      assert (H4 : s_handle c4 = eh_session h0) by (rewrite E4; exact H3).
      destruct (s_size c4 <=? 511).
      * now apply (Std c4 s4).
      * apply pair_equal_spec in H as [X <-]. apply pair_equal_spec in X as [_ <-].
        split; [|exact H4]. exists s1, (open_payload it), h, d. split; [exact E1|]. split; [exact E2|]. rewrite E4. exact E3.
    + cbn [s_size with_size Z.leb] in H. change (511 <=? 511) with true in H. cbv iota in H. now apply (Std (with_size c3 511) s4).
  - destruct (Z.leb_spec (s_size c2) 511); [now apply (Std c2 s1)|lia].
Qed.

(** And a controller that accepts the registration and grants the first open
    request is enough for Connect to succeed. *)
Theorem C65_granted_succeeds : forall S (p : peer S) s now c hr dr s1 h d s2 id,
  p s cmd_register [1; 0; 0; 0] = (Ok (hr, dr), s1) ->
  (forall req, p s1 cmd_rrdata req = (Ok (h, d), s2)) -> eh_status h = 0 -> grants d id ->
  0 <= s_size c < 65536 ->
  exists c', connect p s now c = (Ok tt, c', s2) /\ s_otid c' = id /\ s_handle c' = eh_session hr.
Proof.
  intros S p s now c hr dr s1 h d s2 id Hr Ho Hst Hg Hs. unfold connect. cbv zeta.
  set (c1 := add_counter _ now). clearbody c1.
  unfold register_session. change (le 2 1 ++ le 2 0) with [1; 0; 0; 0]. rewrite Hr.
  set (c2 := with_handle c1 (eh_session hr)).
  assert (H2 : s_handle c2 = eh_session hr) by reflexivity. clearbody c2.
  destruct (Z.ltb_spec 511 (s_size c2)) as [Hb|Hsm].
  - destruct (new_open_large c2) as [it c3] eqn:Eo.
    assert (H3 : s_handle c3 = eh_session hr /\ s_size c3 = s_size c2).
    { unfold new_open_large in Eo. cbv zeta in Eo. apply pair_equal_spec in Eo as [_ <-].
      destruct (Z.eqb_spec (s_size c2) 0); [lia|]. split; [exact H2|reflexivity]. }
    rewrite (forward_open_grants _ _ _ _ _ _ _ id (Ho _) Hst Hg).
    replace (s_size (with_otid c3 id) <=? 511) with false by (cbn [with_otid s_size]; lia).
    eexists. split; [reflexivity|]. split; [reflexivity|]. apply H3.
  - replace (s_size c2 <=? 511) with true by lia.
    destruct (new_open_standard c2) as [it c3] eqn:Eo.
    rewrite (forward_open_grants _ _ _ _ _ _ _ id (Ho _) Hst Hg).
    eexists. split; [reflexivity|]. split; [reflexivity|].
    unfold new_open_standard in Eo. cbv zeta in Eo. apply pair_equal_spec in Eo as [_ <-].
    destruct (s_size c2 =? 0); [destruct (511 <? s_size (with_size c2 511))|destruct (511 <? s_size c2)]; exact H2.
Qed.

Definition grants_all : peer unit := fun _ cmd d =>
  if cmd =? cmd_register then (Ok (ok_header cmd 4, [1; 0; 0; 0]), tt) else (Ok (ok_header cmd 46, reply_open 1234), tt).
Example ex_C65 : grants (reply_open 1234) 1234 /\ (forall req, grants_all tt cmd_rrdata req = (Ok (ok_header cmd_rrdata 46, reply_open 1234), tt)) /\
  (forall s cmd q h d s', grants_all s cmd q = (Ok (h, d), s') -> bytes_ok d).
Proof.
  split; [|split].
  - exists (zeros 6), (0, []), (0xB2, [0xD4; 0; 0; 0] ++ [] ++ le 4 1234 ++ zeros 22), [], [], 0xD4, 0, 0, [], (zeros 22).
    split; [vm_compute; reflexivity|]. split; [reflexivity|].
    split; [split; [reflexivity|]; apply Forall_cons; [split; cbn; lia|]; apply Forall_cons; [split; cbn; lia|constructor]|].
    split; [reflexivity|]. split; [reflexivity|]. split; [cbn; lia|lia].
  - reflexivity.
  - intros s cmd q h d s'. unfold grants_all. destruct (cmd =? cmd_register); intros H; apply pair_equal_spec in H as [H _]; injection H as _ <-.
    + unfold bytes_ok. repeat (apply Forall_cons; [red; lia|]). constructor.
    + unfold bytes_ok. vm_compute. repeat (apply Forall_cons; [split; [discriminate|reflexivity]|]). constructor.
Qed.

Print Assumptions C65_success_granted.
Print Assumptions C65_granted_succeeds.
Print Assumptions C37_open_parameters.
Print Assumptions C63_route_counted_partial.
Print Assumptions C63_close_route_counted_partial.
Print Assumptions C63_odd_address_refuted.
Print Assumptions C63_long_route_refuted.
Print Assumptions C64_close_names_open.

(** ** C55: replies to Connect *)

(** A reply whose item list has no second item crashes Connect. *)
Definition one_item : peer unit := fun _ cmd d =>
  if cmd =? cmd_register then (Ok (ok_header cmd 4, [1; 0; 0; 0]), tt)
  else (Ok (ok_header cmd 12, [0;0;0;0; 0;0; 1;0; 0;0; 0;0]), tt).
Theorem C55_connect_reply_refuted : exists c c', connect one_item tt 3 c = (Panic, c', tt).
Proof. exists ex_session. eexists. vm_compute. reflexivity. Qed.

(** Nothing else does: a crash needs such a reply to one of the open requests. *)
Definition short_items (d : bytes) : Prop :=
  exists pre rest its left, d = pre ++ rest /\ List.length pre = 6%nat /\ read_items rest = Ok (its, left) /\ len its < 2.

Lemma des_no_panic w it : 0 <= it_pos it -> fst (item_des w it) <> Panic.
Proof.
  intros Hp. unfold item_des. destruct w; [discriminate|].
  destruct (Z.leb_spec (len (it_data it)) (it_pos it)); [discriminate|].
  unfold slice_from. replace ((0 <=? it_pos it) && (it_pos it <=? len (it_data it))) with true by lia.
  destruct (S w <=? _)%nat; discriminate.
Qed.
Lemma des_pos w it : 0 <= it_pos it -> 0 <= it_pos (snd (item_des w it)).
Proof.
  intros Hp. unfold item_des. destruct w; [exact Hp|].
  destruct (Z.leb_spec (len (it_data it)) (it_pos it)); [exact Hp|].
  destruct (slice_from _ _); try exact Hp.
  destruct (S w <=? _)%nat; cbn [snd it_pos item_at]; [lia|apply len_nonneg].
Qed.

Lemma read_items_pos n : forall r its rest, read_items_n n r = Ok (its, rest) -> Forall (fun it => it_pos it = 0) its.
Proof.
  induction n as [|n IH]; intros r its rest; cbn [read_items_n].
  - intros [= <- <-]. constructor.
  - destruct (rd 4 r) as [[h r1]|e| |]; cbn [bind]; try discriminate. cbv zeta.
    destruct (rd _ r1) as [[d r2]|e| |]; cbn [bind]; try discriminate.
    destruct (read_items_n n r2) as [[its' r3]|e| |] eqn:E; cbn [bind]; try discriminate.
    intros [= <- <-]. constructor; [reflexivity|]. now apply (IH _ _ _ E).
Qed.
Lemma read_items_n_no_panic n : forall r, read_items_n n r <> Panic.
Proof.
  induction n as [|n IH]; intros r; cbn [read_items_n]; [discriminate|].
  pose proof (rd_no_panic 4 r). destruct (rd 4 r) as [[h r1]|e| |]; cbn [bind]; try congruence. cbv zeta.
  pose proof (rd_no_panic (Z.to_nat (unle (skipn 2 h))) r1).
  destruct (rd _ r1) as [[d r2]|e| |]; cbn [bind]; try congruence.
  specialize (IH r2). destruct (read_items_n n r2) as [[its' r3]|e| |] eqn:E; cbn [bind]; congruence.
Qed.

Lemma parse_response_panic h d : parse_response h d = Panic -> eh_status h = 0 /\ short_items d.
Proof.
  unfold parse_response. destruct (Z.eqb_spec (eh_status h) 0) as [Hz|]; cbn [negb]; [|discriminate].
  intros H. split; [exact Hz|]. revert H.
  pose proof (rd_no_panic 6 d). destruct (rd 6 d) as [[pre r]|e| |] eqn:E6; cbn [bind]; try congruence.
  apply rd_ok_inv in E6 as (-> & L6).
  unfold short_items. destruct (read_items r) as [[its left]|e| |] eqn:Er; cbn [bind]; try discriminate.
  - destruct its as [|i0 [|i1 its']].
    + intros _. now exists pre, r, [], left.
    + intros _. exists pre, r, [i0], left. repeat split; auto.
    + assert (P1 : it_pos i1 = 0).
      { unfold read_items in Er. destruct (rd 2 r) as [[c2 r2]|e| |]; cbn [bind] in Er; try discriminate.
        apply read_items_pos in Er. inversion Er as [|? ? ? F]. now inversion F. }
      pose proof (des_no_panic 4 i1 ltac:(lia)). pose proof (des_pos 4 i1 ltac:(lia)).
      destruct (item_des 4 i1) as [[hd|e| |] it1] eqn:E4; cbn [fst snd] in *; try congruence. cbv zeta.
      destruct (nth 3 hd 0 =? 0).
      * destruct (negb _); discriminate.
      * pose proof (des_no_panic (Z.to_nat ((nth 3 hd 0 * 2) mod 256)) it1 ltac:(lia)).
        destruct (item_des _ it1) as [[x|e| |] it2]; cbn [fst] in *; try congruence.
        destruct (negb _); discriminate.
  - unfold read_items in Er. pose proof (rd_no_panic 2 r).
    destruct (rd 2 r) as [[c2 r2]|e| |]; cbn [bind] in Er; try congruence.
    now apply read_items_n_no_panic in Er.
Qed.

Lemma parse_response_pos h d it : parse_response h d = Ok it -> 0 <= it_pos it.
Proof.
  unfold parse_response. destruct (negb _); [discriminate|].
  destruct (rd 6 d) as [[pre r]|e| |]; cbn [bind]; try discriminate.
  unfold read_items. destruct (rd 2 r) as [[c2 r2]|e| |]; cbn [bind]; try discriminate.
  destruct (read_items_n _ r2) as [[its left]|e| |] eqn:Er; cbn [bind]; try discriminate.
  apply read_items_pos in Er.
  destruct its as [|i0 [|i1 its']]; try discriminate.
  inversion Er as [|? ? _ F]. inversion F as [|? ? P1 _]. subst.
  pose proof (des_pos 4 i1 ltac:(lia)).
  destruct (item_des 4 i1) as [[hd|e| |] it1] eqn:E4; cbn [fst snd] in *; try discriminate. cbv zeta.
  destruct (nth 3 hd 0 =? 0).
  - destruct (negb _); [discriminate|]. intros [= <-]. lia.
  - pose proof (des_pos (Z.to_nat ((nth 3 hd 0 * 2) mod 256)) it1 ltac:(lia)).
    destruct (item_des _ it1) as [[x|e| |] it2]; cbn [snd] in *; try discriminate.
    destruct (negb _); [discriminate|]. intros [= <-]. lia.
Qed.

Lemma forward_open_panic {S} (p : peer S) s c it s' :
  (forall s cmd d, fst (p s cmd d) <> Panic) ->
  forward_open p s c it = (Panic, s') ->
  exists h d, p s cmd_rrdata (open_payload it) = (Ok (h, d), s') /\ eh_status h = 0 /\ short_items d.
Proof.
  intros Hp H. unfold forward_open in H. specialize (Hp s cmd_rrdata (open_payload it)).
  destruct (p s cmd_rrdata (open_payload it)) as [[[h d]|e| |] s1] eqn:E; cbn [fst] in Hp;
    apply pair_equal_spec in H as [H1 H2]; try congruence.
  subst s1. exists h, d. split; [reflexivity|].
  destruct (parse_response h d) as [it2|e| |] eqn:Ep; cbn [bind] in H1; try discriminate.
  - pose proof (des_no_panic 26 it2 (parse_response_pos _ _ _ Ep)).
    destruct (item_des 26 it2) as [[x|e| |] it3]; cbn [fst] in *; congruence.
  - now apply parse_response_panic in Ep.
Qed.

Theorem C55_connect_only_short_crashes : forall S (p : peer S) s now c c' s',
  (forall s cmd d, fst (p s cmd d) <> Panic) ->
  connect p s now c = (Panic, c', s') ->
  exists s1 req h d s2, p s1 cmd_rrdata req = (Ok (h, d), s2) /\ eh_status h = 0 /\ short_items d.
Proof.
  intros S p s now c c' s' Hp H. unfold connect in H. cbv zeta in H.
  set (c1 := add_counter _ now) in H. clearbody c1.
  destruct (register_session p s c1) as [[c2|e| |] s1] eqn:Er; try discriminate.
  2:{ unfold register_session in Er. specialize (Hp s cmd_register (le 2 1 ++ le 2 0)).
      destruct (p s cmd_register (le 2 1 ++ le 2 0)) as [[[h d]|e| |] s2]; cbn [fst] in Hp; congruence. }
  destruct (511 <? s_size c2).
  - destruct (new_open_large c2) as [it c3].
    destruct (forward_open p s1 c3 it) as [[c4|e| |] s4] eqn:Ef.
    + destruct (s_size c4 <=? 511); [|discriminate].
      destruct (new_open_standard c4) as [it5 c5].
      destruct (forward_open p s4 c5 it5) as [[c6|e| |] s6] eqn:Ef'; try discriminate.
      destruct (forward_open_panic _ _ _ _ _ Hp Ef') as (h & d & E & K). eauto 10.
    + destruct (s_size (with_size c3 511) <=? 511); [|discriminate].
      destruct (new_open_standard (with_size c3 511)) as [it5 c5].
      destruct (forward_open p s4 c5 it5) as [[c6|e'| |] s6] eqn:Ef'; try discriminate.
      destruct (forward_open_panic _ _ _ _ _ Hp Ef') as (h & d & E & K). eauto 10.
    + destruct (forward_open_panic _ _ _ _ _ Hp Ef) as (h & d & E & K). eauto 10.
    + discriminate.
  - destruct (s_size c2 <=? 511); [|discriminate].
    destruct (new_open_standard c2) as [it5 c5].
    destruct (forward_open p s1 c5 it5) as [[c6|e| |] s6] eqn:Ef'; try discriminate.
    destruct (forward_open_panic _ _ _ _ _ Hp Ef') as (h & d & E & K). eauto 10.
Qed.

Example ex_C55_connect : (forall s cmd d, fst (one_item s cmd d) <> Panic) /\
  short_items [0;0;0;0; 0;0; 1;0; 0;0; 0;0].
Proof.
  split.
  - intros s cmd d. unfold one_item. destruct (cmd =? cmd_register); discriminate.
  - exists [0;0;0;0;0;0], [1;0;0;0;0;0]. eexists _, _. repeat split; vm_compute; reflexivity.
Qed.
Print Assumptions C55_connect_reply_refuted.
Print Assumptions C55_connect_only_short_crashes.
