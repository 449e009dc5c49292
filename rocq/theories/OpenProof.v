(** * Lemmas about opening a session *)
From Verif Require Import GoBase SegModel ItemsModel ItemsSpec ItemsProof EipModel OpenModel OpenSpec.

Lemma land_low a s n : 0 <= n -> Z.land a (Z.ones n) = 0 -> 0 <= s < 2 ^ n -> Z.lor a s = a + s.
Proof.
  intros Hn Ha Hs.
  assert (Z.land a s = 0) as E.
  { rewrite <- (Z.mod_small s (2 ^ n)) by lia. rewrite <- Z.land_ones by lia.
    rewrite (Z.land_comm s), Z.land_assoc, Ha. reflexivity. }
  rewrite Z.add_nocarry_lxor by exact E. now rewrite Z.lxor_lor.
Qed.

Lemma large_word n : 0 <= n < 65536 ->
  let w := Z.lor (Z.lor (Z.lor (Z.lor (Z.shiftl 0 31) (Z.shiftl 2 29)) (Z.shiftl 0 26)) (Z.shiftl 1 25)) n in
  0 <= w < 2 ^ 32 /\ params_large w = {| p_size := n; p_variable := 1; p_priority := 0; p_type := 2; p_owner := 0 |}.
Proof.
  intros Hn w. assert (E : w = 1107296256 + n).
  { unfold w. rewrite (land_low _ n 16) by (reflexivity || lia). reflexivity. }
  clearbody w. subst w. split; [lia|].
  unfold params_large, field.
  change (2 ^ 0) with 1. change (2 ^ (15 - 0 + 1)) with 65536. change (2 ^ 25) with 33554432.
  change (2 ^ (25 - 25 + 1)) with 2. change (2 ^ 26) with 67108864. change (2 ^ (27 - 26 + 1)) with 4.
  change (2 ^ 29) with 536870912. change (2 ^ (30 - 29 + 1)) with 4. change (2 ^ 31) with 2147483648.
  change (2 ^ (31 - 31 + 1)) with 2.
  f_equal; lia.
Qed.

Lemma standard_word n : 0 <= n <= 511 ->
  let w := Z.lor (Z.lor (Z.lor (Z.lor (Z.shiftl 0 15) (Z.shiftl 2 13)) (Z.shiftl 0 10)) (Z.shiftl 1 9)) n in
  0 <= w < 2 ^ 16 /\ params_standard w = {| p_size := n; p_variable := 1; p_priority := 0; p_type := 2; p_owner := 0 |}.
Proof.
  intros Hn w. assert (E : w = 16896 + n).
  { unfold w. rewrite (land_low _ n 9) by (reflexivity || lia). reflexivity. }
  clearbody w. subst w. split; [lia|].
  unfold params_standard, field.
  change (2 ^ 0) with 1. change (2 ^ (8 - 0 + 1)) with 512. change (2 ^ 9) with 512.
  change (2 ^ (9 - 9 + 1)) with 2. change (2 ^ 10) with 1024. change (2 ^ (11 - 10 + 1)) with 4.
  change (2 ^ 13) with 8192. change (2 ^ (14 - 13 + 1)) with 4. change (2 ^ 15) with 32768.
  change (2 ^ (15 - 15 + 1)) with 2.
  f_equal; lia.
Qed.

Lemma payload_wire msg path :
  serialize_items [item_empty item_null; item_write (item_write (item_empty item_unconndata) msg) path] =
  unconnected (msg ++ path).
Proof.
  unfold serialize_items, unconnected. cbn [map concat]. unfold item_bytes, item_write, item_empty.
  cbn [it_id it_len it_data app].
  rewrite <- (le_mod 2 (len (msg ++ path))). change (256 ^ Z.of_nat 2) with 65536.
  set (body := le 2 (len (msg ++ path) mod 65536) ++ msg ++ path).
  rewrite (app_nil_r (le 2 item_unconndata ++ body)). reflexivity.
Qed.

(** What the two request builders make, as a request of the protocol. *)
Definition common (c : session) (o : open_req) : Prop :=
  o_serial o = (s_counter c + 1) mod 2 ^ 32 mod 65536 /\
  o_ot o = (s_counter c + 2) mod 2 ^ 32 /\ o_to o = (s_counter c + 3) mod 2 ^ 32 /\
  o_vendor o = s_vendor c /\ o_orig o = s_orig c /\ o_rpi o = s_rpi c /\
  o_path o = session_path c /\ o_words o = (len (session_path c) / 2) mod 256.

Lemma counter2 c : ((s_counter c + 1) mod 2 ^ 32 + 1) mod 2 ^ 32 = (s_counter c + 2) mod 2 ^ 32.
Proof. rewrite Zplus_mod_idemp_l. f_equal. lia. Qed.
Lemma counter3 c : ((s_counter c + 2) mod 2 ^ 32 + 1) mod 2 ^ 32 = (s_counter c + 3) mod 2 ^ 32.
Proof. rewrite Zplus_mod_idemp_l. f_equal. lia. Qed.

Definition plain_params (n : Z) : conn_params :=
  {| p_size := n; p_variable := 1; p_priority := 0; p_type := 2; p_owner := 0 |}.

Lemma open_large_spec c it c' : 0 < s_size c < 65536 -> new_open_large c = (it, c') ->
  exists o, open_payload it = unconnected (open_message o) /\ o_large o = true /\ word_ok o /\
            o_params o = plain_params (s_size c) /\ common c o /\
            s_size c' = s_size c /\ s_serial c' = o_serial o /\ s_route c' = s_route c /\
            s_handle c' = s_handle c /\ s_vendor c' = s_vendor c /\ s_orig c' = s_orig c /\ s_rpi c' = s_rpi c.
Proof.
  intros Hs E. unfold new_open_large in E. cbv zeta in E.
  destruct (Z.eqb_spec (s_size c) 0) as [|_]; [lia|].
  pose proof (large_word (s_size c) ltac:(lia)) as (Hw & Hp). cbv zeta in Hw, Hp.
  unfold new_serial in E. cbv zeta in E.
  unfold add_counter in E. cbn [s_size s_counter s_handle s_context s_otid s_serial s_vendor s_orig s_rpi s_route] in E.
  rewrite counter2, counter3 in E.
  remember (Z.lor (Z.lor (Z.lor (Z.lor (Z.shiftl 0 31) (Z.shiftl 2 29)) (Z.shiftl 0 26)) (Z.shiftl 1 25)) (s_size c)) as w eqn:Ew.
  clear Ew. injection E as E1 E2.
  exists {| o_large := true; o_tick := 0x0A; o_ticks := 0x0E; o_ot := (s_counter c + 2) mod 2 ^ 32;
            o_to := (s_counter c + 3) mod 2 ^ 32; o_serial := (s_counter c + 1) mod 2 ^ 32 mod 65536;
            o_vendor := s_vendor c; o_orig := s_orig c; o_mult := 3; o_rpi := s_rpi c; o_word := w;
            o_words := (len (session_path c) / 2) mod 256; o_path := session_path c |}.
  repeat split; try reflexivity; subst c' it; try reflexivity; try exact Hp; try (cbn; lia).
  unfold open_payload. now rewrite payload_wire.
Qed.

Lemma open_standard_spec c it c' : 0 < s_size c <= 511 -> new_open_standard c = (it, c') ->
  exists o, open_payload it = unconnected (open_message o) /\ o_large o = false /\ word_ok o /\
            o_params o = plain_params (s_size c) /\ common c o /\
            s_size c' = s_size c /\ s_serial c' = o_serial o /\ s_route c' = s_route c /\
            s_handle c' = s_handle c /\ s_vendor c' = s_vendor c /\ s_orig c' = s_orig c /\ s_rpi c' = s_rpi c.
Proof.
  intros Hs E. unfold new_open_standard in E. cbv zeta in E.
  destruct (Z.eqb_spec (s_size c) 0) as [|_]; [lia|].
  destruct (Z.ltb_spec 511 (s_size c)) as [|_]; [lia|].
  pose proof (standard_word (s_size c) ltac:(lia)) as (Hw & Hp). cbv zeta in Hw, Hp.
  unfold new_serial in E. cbv zeta in E.
  unfold add_counter in E. cbn [s_size s_counter s_handle s_context s_otid s_serial s_vendor s_orig s_rpi s_route] in E.
  rewrite counter2, counter3 in E.
  remember (Z.lor (Z.lor (Z.lor (Z.lor (Z.shiftl 0 15) (Z.shiftl 2 13)) (Z.shiftl 0 10)) (Z.shiftl 1 9)) (s_size c)) as w eqn:Ew.
  clear Ew. injection E as E1 E2.
  exists {| o_large := false; o_tick := 0x07; o_ticks := 0xE9; o_ot := (s_counter c + 2) mod 2 ^ 32;
            o_to := (s_counter c + 3) mod 2 ^ 32; o_serial := (s_counter c + 1) mod 2 ^ 32 mod 65536;
            o_vendor := s_vendor c; o_orig := s_orig c; o_mult := 0; o_rpi := s_rpi c; o_word := w;
            o_words := (len (session_path c) / 2) mod 256; o_path := session_path c |}.
  repeat split; try reflexivity; subst c' it; try reflexivity; try exact Hp; try (cbn; lia).
  unfold open_payload. now rewrite payload_wire.
Qed.

Lemma forward_open_log {S} (p : peer S) s log c it r s' :
  forward_open (logging p) (s, log) c it = (r, s') ->
  snd s' = log ++ [(cmd_rrdata, open_payload it)] /\
  (forall c', r = Ok c' -> exists id, c' = with_otid c id).
Proof.
  unfold forward_open, logging. cbn [fst snd].
  destruct (p s cmd_rrdata (open_payload it)) as [r0 s0] eqn:E.
  destruct r0 as [[h d]|e| |]; intros H; apply pair_equal_spec in H as [<- <-]; cbn [snd]; (split; [reflexivity|]); try (intros; discriminate).
  intros c'. destruct (parse_response h d) as [it2|e| |]; cbn [bind]; try discriminate.
  destruct (item_des 26 it2) as [[rb|e| |] it3]; try discriminate.
  intros [= <-]. eauto.
Qed.

Lemma register_log {S} (p : peer S) s log c r s' :
  register_session (logging p) (s, log) c = (r, s') ->
  snd s' = log ++ [(cmd_register, le 2 1 ++ le 2 0)] /\
  (forall c', r = Ok c' -> exists h, c' = with_handle c h).
Proof.
  unfold register_session, logging. cbn [fst snd].
  destruct (p s cmd_register (le 2 1 ++ le 2 0)) as [r0 s0] eqn:E.
  destruct r0 as [[h d]|e| |]; intros H; apply pair_equal_spec in H as [<- <-]; cbn [snd]; (split; [reflexivity|]); try (intros; discriminate).
  intros c' [= <-]. eauto.
Qed.

(** ** Reading a field off an item *)
Lemma des_ok_inv w it b it' : cursor_ok it -> item_des w it = (Ok b, it') ->
  cursor_ok it' /\ unread it = b ++ unread it' /\ List.length b = w.
Proof.
  intros Hc. unfold item_des. destruct w as [|w]; [intros H; apply pair_equal_spec in H as [H <-]; injection H as <-; auto|].
  destruct (Z.leb_spec (len (it_data it)) (it_pos it)); [discriminate|].
  rewrite slice_from_ok by exact Hc. remember (Datatypes.S w) as W.
  destruct (Nat.leb_spec W (List.length (unread it))) as [Hw|]; [|discriminate].
  intros H1. apply pair_equal_spec in H1 as [H1 <-]. injection H1 as <-.
  destruct (unread_advance it W Hc Hw) as (H1 & H2). split; [exact H1|]. rewrite H2.
  split; [symmetry; apply firstn_skipn|]. rewrite firstn_length. lia.
Qed.
Lemma des_ok w it b u : cursor_ok it -> unread it = b ++ u -> List.length b = w ->
  exists it', item_des w it = (Ok b, it') /\ cursor_ok it' /\ unread it' = u.
Proof.
  intros Hc Hu Hb. unfold item_des. destruct w as [|w].
  { destruct b; [|discriminate]. exists it. auto. }
  remember (Datatypes.S w) as W. assert (W0 : (0 < W)%nat) by lia.
  assert (L : len (unread it) = len b + len u) by (rewrite Hu; apply len_app).
  rewrite unread_length in L by exact Hc. pose proof (len_nonneg u).
  assert (Lb : len b = Z.of_nat W) by (unfold len; lia).
  destruct (Z.leb_spec (len (it_data it)) (it_pos it)); [lia|].
  rewrite slice_from_ok by exact Hc.
  assert (Hw : (W <= List.length (unread it))%nat) by (rewrite Hu, app_length; lia).
  replace (W <=? List.length (unread it))%nat with true by lia.
  destruct (unread_advance it W Hc Hw) as (H1 & H2).
  rewrite Hu, firstn_app_exact by exact Hb.
  eexists. split; [reflexivity|]. split; [exact H1|]. rewrite H2, Hu. now apply skipn_app_exact.
Qed.
Lemma four (b : bytes) : List.length b = 4%nat -> b = [nth 0 b 0; nth 1 b 0; nth 2 b 0; nth 3 b 0].
Proof. intros H. destruct b as [|a [|c [|d [|e [|]]]]]; try discriminate. reflexivity. Qed.

Lemma forward_open_granted {S} (p : peer S) s c it c' s' :
  (forall s cmd q h d s', p s cmd q = (Ok (h, d), s') -> bytes_ok d) ->
  forward_open p s c it = (Ok c', s') ->
  exists h d id, p s cmd_rrdata (open_payload it) = (Ok (h, d), s') /\ eh_status h = 0 /\ grants d id /\ c' = with_otid c id.
Proof.
  intros Hp. unfold forward_open.
  destruct (p s cmd_rrdata (open_payload it)) as [r0 s0] eqn:E.
  destruct r0 as [[h d]|e| |]; intros H; apply pair_equal_spec in H as [H <-]; try discriminate.
  pose proof (Hp _ _ _ _ _ _ E) as B.
  unfold parse_response in H. destruct (Z.eqb_spec (eh_status h) 0) as [Hst|]; [|discriminate]. cbn [negb] in H.
  destruct (rd 6 d) as [[pre r]|e| |] eqn:E6; try discriminate. cbn [bind] in H.
  apply rd_ok_inv in E6 as [-> L6]. apply bytes_ok_app in B as [_ B].
  destruct (read_items r) as [[its tail]|e| |] eqn:Er; try discriminate. cbn [bind] in H.
  destruct (read_items_sound _ _ _ B Er) as (-> & F).
  pose proof (C11_lemma _ B) as X. rewrite Er in X. destruct X as (_ & Z0).
  destruct its as [|i1 [|i2 its]]; try discriminate.
  assert (B2 : bytes_ok (it_data i2)).
  { apply bytes_ok_app in B as [B _]. unfold wire_list in B. apply bytes_ok_app in B as [_ B].
    cbn [contents map concat] in B. apply bytes_ok_app in B as [_ B]. apply bytes_ok_app in B as [B _].
    unfold wire_item in B. cbn [fst snd] in B. apply bytes_ok_app in B as [_ B]. now apply bytes_ok_app in B as [_ B]. }
  assert (C2 : cursor_ok i2 /\ unread i2 = it_data i2).
  { inversion Z0 as [|? ? _ Z1]; subst. inversion Z1 as [|? ? (_ & Z2) _]; subst.
    unfold cursor_ok, unread. rewrite Z2. pose proof (len_nonneg (it_data i2)). split; [lia|reflexivity]. }
  destruct C2 as (C2 & U2).
  destruct (item_des 4 i2) as [r4 i3] eqn:E4. destruct r4 as [hd|e| |]; try discriminate.
  destruct (des_ok_inv _ _ _ _ C2 E4) as (C3 & U3 & L3). rewrite U2 in U3.
  set (n := nth 3 hd 0) in *.
  assert (Hd : exists ext i4, (if n =? 0 then (Ok [], i3) else item_des (Z.to_nat (n * 2 mod 256)) i3) = (Ok ext, i4) /\
     (nth 2 hd 0 = 0) /\
     (match item_des 26 i4 with (Ok r, _) => Ok (with_otid c (unle (firstn 4 r))) | (Err e, _) => Err e | (Panic, _) => Panic | (OutOfFuel, _) => OutOfFuel end = Ok c')).
  { destruct (if n =? 0 then (Ok [], i3) else item_des (Z.to_nat (n * 2 mod 256)) i3) as [rx i4].
    destruct rx as [ext|e| |]; try discriminate. exists ext, i4. split; [reflexivity|].
    destruct (Z.eqb_spec (nth 2 hd 0) 0); [|discriminate]. split; [assumption|]. exact H. }
  clear H. destruct Hd as (ext & i4 & Ex & Hs0 & H).
  assert (X : cursor_ok i4 /\ unread i3 = ext ++ unread i4 /\ len ext = n * 2 mod 256).
  { destruct (Z.eqb_spec n 0) as [Hn|].
    - apply pair_equal_spec in Ex as [Ex <-]. injection Ex as <-. rewrite Hn. auto.
    - destruct (des_ok_inv _ _ _ _ C3 Ex) as (K1 & K2 & K3). split; [exact K1|]. split; [exact K2|].
      unfold len. rewrite K3. lia. }
  destruct X as (C4 & U4 & L4).
  destruct (item_des 26 i4) as [rb i5] eqn:E26. destruct rb as [rb|e| |]; try discriminate. injection H as <-.
  destruct (des_ok_inv _ _ _ _ C4 E26) as (C5 & U5 & L5).
  set (id := unle (firstn 4 rb)).
  assert (Brb : bytes_ok rb).
  { rewrite U3, U4, U5 in B2. apply bytes_ok_app in B2 as [_ B2]. apply bytes_ok_app in B2 as [_ B2]. now apply bytes_ok_app in B2 as [B2 _]. }
  assert (Bi : bytes_ok (firstn 4 rb)). { rewrite <- (firstn_skipn 4 rb) in Brb. now apply bytes_ok_app in Brb as [? _]. }
  assert (Li : List.length (firstn 4 rb) = 4%nat) by (rewrite firstn_length; lia).
  exists h, (pre ++ wire_list (contents (i1 :: i2 :: its)) ++ tail), id.
  split; [reflexivity|]. split; [exact Hst|]. split; [|reflexivity].
  exists pre, (it_id i1, it_data i1), (it_id i2, it_data i2), (contents its), tail,
    (nth 0 hd 0), (nth 1 hd 0), n, ext, (skipn 4 rb ++ unread i5).
  split; [reflexivity|]. split; [exact L6|]. split; [exact F|].
  split; [|split; [exact L4|split]].
  - cbn [snd]. rewrite U3. rewrite (four hd L3) at 1. rewrite Hs0. fold n. f_equal. rewrite U4, U5. f_equal.
    rewrite <- (firstn_skipn 4 rb) at 1. rewrite <- app_assoc. f_equal.
    unfold id. rewrite <- (le_unle (firstn 4 rb) Bi) at 1. now rewrite Li.
  - rewrite len_app. pose proof (len_nonneg (unread i5)). unfold len at 1. rewrite skipn_length. lia.
  - pose proof (unle_bound _ Bi) as X. unfold len in X. rewrite Li in X. exact X.
Qed.

Lemma forward_open_grants {S} (p : peer S) s c it h d s' id :
  p s cmd_rrdata (open_payload it) = (Ok (h, d), s') -> eh_status h = 0 -> grants d id ->
  forward_open p s c it = (Ok (with_otid c id), s').
Proof.
  intros E Hst (pre & a & x & more & tail & svc & z & n & ext & rest & -> & L6 & F & X & L4 & L22 & Hid).
  unfold forward_open. rewrite E. f_equal. unfold parse_response. rewrite Hst. cbn [negb Z.eqb].
  rewrite rd_app by exact L6. cbn [bind]. rewrite read_items_wire by exact F. cbn [bind map].
  assert (C2 : cursor_ok (mk x)) by (unfold cursor_ok; cbn; pose proof (len_nonneg (snd x)); lia).
  assert (U2 : unread (mk x) = [svc; z; 0; n] ++ ext ++ le 4 id ++ rest) by (rewrite <- X; reflexivity).
  destruct (des_ok 4 _ _ _ C2 U2 eq_refl) as (i3 & -> & C3 & U3). cbn [nth].
  assert (Hx : exists i4, (if n =? 0 then (Ok [], i3) else item_des (Z.to_nat (n * 2 mod 256)) i3) = (Ok ext, i4) /\ cursor_ok i4 /\ unread i4 = le 4 id ++ rest).
  { destruct (Z.eqb_spec n 0) as [->|].
    - change (0 * 2 mod 256) with 0 in L4. destruct ext; [|rewrite len_cons in L4; pose proof (len_nonneg ext); lia].
      exists i3. auto.
    - apply des_ok; [exact C3|exact U3|]. unfold len in L4. lia. }
  destruct Hx as (i4 & -> & C4 & U4). cbn [negb Z.eqb bind].
  assert (U5 : unread i4 = (le 4 id ++ firstn 22 rest) ++ skipn 22 rest).
  { rewrite U4, <- app_assoc. now rewrite firstn_skipn. }
  destruct (des_ok 26 _ _ _ C4 U5) as (i5 & -> & _ & _).
  { rewrite app_length, le_length, firstn_length. unfold len in L22. lia. }
  rewrite firstn_app_exact by apply le_length. rewrite unle_le_small by exact Hid. reflexivity.
Qed.
