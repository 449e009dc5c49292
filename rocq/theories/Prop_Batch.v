(** * Properties C21-C26: reading many tags at once *)
From Verif Require Import GoBase IoiModel IoiSpec IoiProof ItemsModel ItemsSpec TypesModel
  ReadModel ReadSpec ReadProof BatchModel BatchSpec BatchProof.

(** A controller laying its replies out one after the other, for examples. *)
Definition plain_sub (r : sub) : bytes := sub_reply 0xCC 0 0 r.
Definition plain_multi (subs : list sub) : bytes :=
  zeros 6 ++ wire_list [(0xA1, [1; 2; 3; 4]);
    (0xB1, le 2 1 ++ [0x8A; 0] ++ le 2 0 ++ le 2 (len subs) ++
           concat (map (le 2) (offsets (2 + 2 * len subs) (map plain_sub subs))) ++ concat (map plain_sub subs))].

Lemma offsets_len start l : len (offsets start l) = len l.
Proof. unfold len. now rewrite offsets_length. Qed.

(** What stands at each offset. *)
Lemma located l : forall pre rest, Forall2 (fun o b => 0 <= o /\ exists tail, skipn (Z.to_nat o) (pre ++ concat l ++ rest) = b ++ tail)
  (offsets (len pre) l) l.
Proof.
  induction l as [|b l IH]; intros pre rest; [constructor|]. cbn [offsets concat]. constructor.
  - pose proof (len_nonneg pre). split; [lia|]. exists (concat l ++ rest). unfold len. rewrite Nat2Z.id.
    rewrite skipn_app_exact by reflexivity. now rewrite app_assoc.
  - specialize (IH (pre ++ b) rest). rewrite len_app in IH. rewrite <- !app_assoc in *. exact IH.
Qed.

Lemma Forall2_map_r {A B C} (R : A -> C -> Prop) (f : B -> C) l : forall m,
  Forall2 R l (map f m) -> Forall2 (fun a b => R a (f b)) l m.
Proof. intros m H. remember (map f m) as x eqn:E. revert m E. induction H; intros [|? ?] E; try discriminate; [constructor|].
  injection E as -> ->. constructor; auto. Qed.

Lemma Forall2_nth_error {A B} (R : A -> B -> Prop) l m : Forall2 R l m ->
  forall k b, nth_error m k = Some b -> exists a, nth_error l k = Some a /\ R a b.
Proof.
  induction 1 as [|a b0 l m H _ IH]; intros k b E; [destruct k; discriminate|].
  destruct k as [|k]; [injection E as <-; now exists a|]. now apply IH.
Qed.

Lemma plain_multi_ok subs : Forall (fun r => 0 <= s_status r < 2 ^ 16) subs ->
  len (concat (map plain_sub subs)) + 2 * len subs < 65000 -> multi_answer (plain_multi subs) subs.
Proof.
  intros F L. exists (zeros 6), (0xA1, [1;2;3;4]), 0xB1, (le 2 1), 0x8A, 0,
    (offsets (2 + 2 * len subs) (map plain_sub subs)), (concat (map plain_sub subs)), [].
  cbv zeta. split; [reflexivity|]. split; [reflexivity|]. split; [|split].
  - split; [vm_compute; reflexivity|]. repeat constructor; cbn [fst snd]; try lia; try (vm_compute; reflexivity).
    rewrite !len_app, !le_len, concat_le_len, offsets_len, len_map.
    rewrite !len_cons, len_nil. lia.
  - pose proof (located (map plain_sub subs) (le 2 (len subs) ++ concat (map (le 2) (offsets (2 + 2 * len subs) (map plain_sub subs)))) []) as H.
    rewrite len_app, le_len, concat_le_len, offsets_len, len_map in H. change (Z.of_nat 2 + 2 * len subs) with (2 + 2 * len subs) in H.
    apply Forall2_map_r in H.
    assert (G : forall offs subs', Forall2 (fun o r => 0 <= o /\ exists tail,
        skipn (Z.to_nat o) ((le 2 (len subs) ++ concat (map (le 2) (offsets (2 + 2 * len subs) (map plain_sub subs)))) ++
                            concat (map plain_sub subs) ++ []) = plain_sub r ++ tail) offs subs' ->
      Forall (fun r => 0 <= s_status r < 2 ^ 16) subs' ->
      Forall2 (is_sub (le 2 1 ++ [0x8A; 0] ++ le 2 0 ++ le 2 (len subs) ++
        concat (map (le 2) (offsets (2 + 2 * len subs) (map plain_sub subs))) ++ concat (map plain_sub subs))) offs subs').
    { intros offs subs' X. induction X as [|o r offs subs' (O & tail & E) _ IH]; intro Fs; [constructor|].
      inversion Fs; subst. constructor; [|now apply IH].
      exists 0xCC, 0, 0. split; [lia|]. split; [assumption|]. split; [exact O|]. exists tail.
      replace (Z.to_nat (6 + o)) with (6 + Z.to_nat o)%nat by lia. rewrite <- skipn_skipn.
      rewrite app_nil_r, <- app_assoc in E. exact E. }
    apply G; assumption.
  - rewrite app_nil_r. reflexivity.
Qed.

Ltac each t := repeat first [apply Forall_nil | apply Forall_cons; [t|]].

(** The tags of the examples. *)
Definition tag1 (name : bytes) : tag := {| t_members := [{| m_name := name; m_subs := [] |}]; t_bit := None |}.
Definition w_speed : wish := Wish (tag1 (str "Speed")) 0xC4 1 None.
Definition w_label : wish := Wish (tag1 (str "Label")) 0xFF 1 None.
Definition r_speed : sub := Sub 0 0xC4 (le 4 77).
Definition r_label : sub := Sub 0 0xA0 ([0xCE; 0x0F] ++ le 4 2 ++ str "ok" ++ zeros 80 ++ zeros 2).
Definition ex_value (w : wish) : gval := if w_type w =? 0xC4 then GInt true 4 77 else GStr (str "ok").
Lemma tag1_named name : valid_tagb (tag1 name) = true -> (len (encode (tag1 name)) <? 512) = true -> named [] (tag1 name).
Proof. intros V L. split; [now apply valid_tagb_sound|]. split; [reflexivity|lia]. Qed.
Lemma w_speed_named : named [] (w_tag w_speed).
Proof. apply tag1_named; vm_compute; reflexivity. Qed.
Lemma w_label_named : named [] (w_tag w_label).
Proof. apply tag1_named; vm_compute; reflexivity. Qed.
Lemma speed_yields : s_status r_speed = 0 /\ yields w_speed (s_type r_speed) (s_data r_speed) (ex_value w_speed).
Proof.
  split; [reflexivity|]. unfold r_speed, s_data, s_type. rewrite <- (app_nil_r (le 4 77)).
  apply y_scalar; try reflexivity; try discriminate; [now left|]. apply enc_int with (signed := true) (w := 4%nat); [reflexivity|].
  unfold in_range. lia.
Qed.
Lemma label_yields : s_status r_label = 0 /\ yields w_label (s_type r_label) (s_data r_label) (ex_value w_label).
Proof.
  split; [reflexivity|].
  change (s_data r_label) with ([0xCE; 0x0F] ++ (le 4 2 ++ str "ok" ++ zeros 80 ++ zeros 2) ++ []).
  apply y_string; try reflexivity. exists (zeros 80), (zeros 2). repeat split; try reflexivity. vm_compute. discriminate.
Qed.
(** It looks only at what follows the sequence number. *)
Definition ex_plc (s : unit) (req : bytes) : res (Z * bytes) * unit :=
  let is l := bseq (skipn 22 req) (skipn 22 (multi_request 7 0 (map read_service l))) in
  (if is [w_speed] then Ok (0, plain_multi [r_speed])
   else if is [w_label] then Ok (0, plain_multi [r_label])
   else if is [w_speed; w_label] then Ok (0, plain_multi [r_speed; r_label])
   else if is [] then Ok (0, plain_multi [])
   else Err EEof, s).
Lemma ex_plc_gives bound : gives ex_plc 7 bound [w_speed; w_label] ex_value.
Proof.
  assert (T : forall q l, skipn 22 (multi_request 7 q (map read_service l)) = skipn 22 (multi_request 7 0 (map read_service l))) by reflexivity.
  intros s q a l b E Ne _. exists (snd (match fst (ex_plc s (multi_request 7 q (map read_service l))) with Ok p => p | _ => (0, []) end)), s.
  assert (C : l = [w_speed] \/ l = [w_label] \/ l = [w_speed; w_label]).
  { destruct a as [|a0 [|a1 [|a2 a]]]; cbn [app] in E.
    - destruct l as [|l0 [|l1 [|l2 l]]]; [congruence|..]; cbn [app] in E; try (injection E as -> E; discriminate).
      + injection E as -> _. now left.
      + injection E as -> -> _. right. now right.
    - destruct l as [|l0 [|l1 l]]; [congruence|..]; cbn [app] in E; try (injection E as _ E; discriminate).
      injection E as _ -> _. right. now left.
    - injection E as _ _ E. destruct l; [congruence|discriminate].
    - discriminate. }
  unfold ex_plc. rewrite T.
  destruct C as [-> | [-> | ->]]; [exists [r_speed]|exists [r_label]|exists [r_speed; r_label]];
    (split; [vm_compute; reflexivity|]; split;
     [match goal with |- multi_answer _ ?x => change (multi_answer (plain_multi x) x) end;
      apply plain_multi_ok; [repeat constructor; cbn; lia|vm_compute; reflexivity]|];
     repeat first [apply Forall2_nil | apply Forall2_cons; [first [exact speed_yields | exact label_yields]|]]).
Qed.

(** C21.  Every tag's own request must fit: 10 bytes more than its path. *)
Theorem C21_list_read_partial : forall S (ctl : controller S) ops ex otid cs ws value fuel s q,
  cs < 65535 -> Forall (fun w => named ops (w_tag w)) ws ->
  Forall (fun w => 10 + len (encode (w_tag w)) <= cs) ws ->
  gives ctl otid (cs + 1) ws value -> (length ws < fuel)%nat ->
  exists s' q', read_batches fuel ctl (cl_run ops) s otid q cs (map (desc ex) ws) = (Ok (map value ws), s', q').
Proof.
  intros S ctl ops ex otid cs ws value fuel s q H1 H2 H3 H4 H5.
  destruct (C21_lemma ops ex (fun _ => True) ctl otid cs value H1 ws ws H2 H3) with (fuel := fuel) (s := s) (q := q) as (s' & q' & E & _);
    [now exists []|now apply gives_any|exact I|exact H5|]. now exists s', q'.
Qed.
Print Assumptions C21_list_read_partial.
Example ex_C21 : Forall (fun w => named [] (w_tag w)) [w_speed; w_label] /\
  Forall (fun w => 10 + len (encode (w_tag w)) <= 25) [w_speed; w_label] /\
  gives ex_plc 7 26 [w_speed; w_label] ex_value /\
  fst (fst (read_batches 3 ex_plc (cl_run []) tt 7 1 25 (map (desc (fun _ => SNil)) [w_speed; w_label])))
    = Ok [GInt true 4 77; GStr (str "ok")] /\
  fst (fst (read_batches 3 ex_plc (cl_run []) tt 7 1 500 (map (desc (fun _ => SNil)) [w_speed; w_label])))
    = Ok [GInt true 4 77; GStr (str "ok")].
Proof.
  split; [each ltac:(first [exact w_speed_named|exact w_label_named])|].
  split; [each ltac:(vm_compute; discriminate)|]. split; [apply ex_plc_gives|]. split; vm_compute; reflexivity.
Qed.

(** The same loop serves ReadMap: every key ends up with its tag's value. *)
Theorem C21_map_read_partial : forall S (ctl : controller S) ops ex otid cs ws value fuel s q,
  cs < 65535 -> Forall (fun w => named ops (w_tag w)) ws ->
  Forall (fun w => 10 + len (encode (w_tag w)) <= cs) ws ->
  gives ctl otid (cs + 1) ws value -> (length ws < fuel)%nat ->
  exists s' q', read_map fuel ctl (cl_run ops) s otid q cs (map (desc ex) ws)
                = (Ok (map (fun w => (text (w_tag w), value w)) ws), s', q').
Proof.
  intros S ctl ops ex otid cs ws value fuel s q H1 H2 H3 H4 H5.
  destruct (C21_list_read_partial S ctl ops ex otid cs ws value fuel s q H1 H2 H3 H4 H5) as (s' & q' & E).
  exists s', q'. unfold read_map. rewrite E. rewrite !map_length, Nat.ltb_irrefl. rewrite map_map, combine_map. reflexivity.
Qed.
Print Assumptions C21_map_read_partial.
Example ex_C21_map : fst (fst (read_map 3 ex_plc (cl_run []) tt 7 1 25 (map (desc (fun _ => SNil)) [w_speed; w_label])))
  = Ok [(str "Speed", GInt true 4 77); (str "Label", GStr (str "ok"))].
Proof. vm_compute. reflexivity. Qed.

(** Without that condition ReadList need not end: see C25. *)

(** C22.  ReadList and ReadMap; [asked] records what is sent.  For an even
    connection size no request exceeds it; *)
Theorem C22_fits_even : forall S (ctl : controller S) ops ex otid cs ws fuel s q r s' log q',
  cs < 65535 -> Z.even cs = true -> Forall (fun w => named ops (w_tag w)) ws ->
  Forall (fun w => 16 + len (encode (w_tag w)) <= cs) ws ->
  read_batches fuel (asked ctl) (cl_run ops) (s, []) otid q cs (map (desc ex) ws) = (r, (s', log), q') ->
  Forall (fun req => exists q0 l, req = zeros 6 ++ wire_list [(0xA1, le 4 otid); (0xB1, multi_body q0 l)] /\
                                  len (multi_body q0 l) <= cs) log.
Proof.
  intros S ctl ops ex otid cs ws fuel s q r s' log q' Hcs Ev F Fit E.
  destruct (batches_log ops ex ctl otid cs Hcs fuel ws F Fit _ _ _ _ _ _ _ E) as (new & -> & Snt).
  eapply Forall_impl; [|exact Snt]. intros req (q0 & l & Fl & (_ & _ & Rq) & ->).
  exists q0, (map read_service l). split; [reflexivity|].
  rewrite multi_body_len, subs_size_concat, len_map. rewrite request_size_eq in Rq.
  assert (Es : Z.even (subs_size l) = true).
  { clear -Fl. induction Fl as [|w l (V & K & _) _ IH]; [reflexivity|]. cbn [subs_size].
    destruct (C05_lemma ops _ 0 _ (C01_lemma ops (w_tag w) 0 V K)) as [Ee _]. cbn [ioi_buf] in Ee.
    now rewrite !Z.even_add, Ee, IH. }
  destruct Rq as [Rq|Rq]; [lia|].
  apply Z.even_spec in Ev as [c ->]. apply Z.even_spec in Es as [k Hk]. lia.
Qed.
Print Assumptions C22_fits_even.
Example ex_C22 : Forall (fun w => 16 + len (encode (w_tag w)) <= 38) [w_speed; w_label] /\
  snd (snd (fst (read_batches 3 (asked ex_plc) (cl_run []) (tt, []) 7 1 38 (map (desc (fun _ => SNil)) [w_speed; w_label]))))
  = [multi_request 7 2 (map read_service [w_speed; w_label])] /\
  len (multi_body 2 (map read_service [w_speed; w_label])) = 38.
Proof.
  split; [each ltac:(vm_compute; discriminate)|]. split; vm_compute; reflexivity.
Qed.
(** for any connection size, at most one byte more. *)
Theorem C22_fits_within_one_partial : forall S (ctl : controller S) ops ex otid cs ws fuel s q r s' log q',
  cs < 65535 -> Forall (fun w => named ops (w_tag w)) ws ->
  Forall (fun w => 16 + len (encode (w_tag w)) <= cs) ws ->
  read_batches fuel (asked ctl) (cl_run ops) (s, []) otid q cs (map (desc ex) ws) = (r, (s', log), q') ->
  Forall (fun req => exists q0 l, req = zeros 6 ++ wire_list [(0xA1, le 4 otid); (0xB1, multi_body q0 l)] /\
                                  len (multi_body q0 l) <= cs + 1) log.
Proof.
  intros S ctl ops ex otid cs ws fuel s q r s' log q' Hcs F Fit E.
  destruct (batches_log ops ex ctl otid cs Hcs fuel ws F Fit _ _ _ _ _ _ _ E) as (new & -> & Snt).
  eapply Forall_impl; [|exact Snt]. intros req (q0 & l & Fl & (_ & _ & Rq) & ->).
  exists q0, (map read_service l). split; [reflexivity|].
  rewrite multi_body_len, subs_size_concat, len_map. rewrite request_size_eq in Rq. lia.
Qed.
Print Assumptions C22_fits_within_one_partial.

(** With the size of a standard forward open, 511, ReadList can send 512 bytes; *)
Definition long_wish (n : nat) (c : Z) : wish := Wish (tag1 (repeat c n)) 0xC4 1 None.
Theorem C22_odd_size_refuted : exists (ctl : controller unit) ws,
  Forall (fun w => named [] (w_tag w)) ws /\ Forall (fun w => 16 + len (encode (w_tag w)) <= 511) ws /\
  exists log req body, snd (snd (fst (read_batches 9 (asked ctl) (cl_run []) (tt, []) 7 1 511 (map (desc (fun _ => SNil)) ws)))) = log /\
    In req log /\ req = zeros 6 ++ wire_list [(0xA1, le 4 7); (0xB1, body)] /\ len body = 512.
Proof.
  exists (fun s _ => (Err EEof, s)), [long_wish 244 97; long_wish 242 98].
  split; [each ltac:(apply tag1_named; vm_compute; reflexivity)|].
  split; [each ltac:(vm_compute; discriminate)|].
  eexists _, _, (multi_body 2 (map read_service [long_wish 244 97; long_wish 242 98])).
  split; [reflexivity|]. split; [|split; [reflexivity|vm_compute; reflexivity]]. vm_compute. now left.
Qed.
Print Assumptions C22_odd_size_refuted.
(** and ReadMulti, which calls readList directly, does not count the header. *)
Theorem C22_read_multi_refuted : exists (ctl : controller unit) ws,
  Forall (fun w => named [] (w_tag w)) ws /\ Forall (fun w => 16 + len (encode (w_tag w)) <= 500) ws /\
  exists log req body, snd (snd (fst (read_list 9 (asked ctl) (cl_run []) (tt, []) 7 1 500 (map (desc (fun _ => SNil)) ws)))) = log /\
    In req log /\ req = zeros 6 ++ wire_list [(0xA1, le 4 7); (0xB1, body)] /\ len body = 508.
Proof.
  exists (fun s _ => (Err EEof, s)), [long_wish 242 97; long_wish 240 98].
  split; [each ltac:(apply tag1_named; vm_compute; reflexivity)|].
  split; [each ltac:(vm_compute; discriminate)|].
  eexists _, _, (multi_body 1 (map read_service [long_wish 242 97; long_wish 240 98])).
  split; [reflexivity|]. split; [|split; [reflexivity|vm_compute; reflexivity]]. vm_compute. now left.
Qed.
Print Assumptions C22_read_multi_refuted.

(** C23.  Reading off a Multiple Service Packet: number of services, k-th offset
    (from that number on), and what stands there. *)
Definition well_formed (body : bytes) (services : list bytes) : Prop :=
  firstn 8 (skipn 2 body) = [0x0A; 2; 0x20; 0x02; 0x24; 0x01] ++ le 2 (len services) /\
  forall k b, nth_error services k = Some b ->
    exists tail, skipn (8 + Z.to_nat (unle (firstn 2 (skipn (10 + 2 * k) body)))) body = b ++ tail.

Lemma multi_body_well_formed q l : len (multi_body q l) < 65536 -> well_formed (multi_body q l) l.
Proof.
  intro L. rewrite multi_body_len in L. split.
  - unfold multi_body. rewrite skipn_app_exact by apply le_length. rewrite app_assoc. apply firstn_app_exact.
    rewrite app_length, le_length. reflexivity.
  - intros k b Hk.
    set (offs := offsets (2 + 2 * len l) l).
    assert (Hl : length offs = length l) by apply offsets_length.
    assert (Hd : skipn 8 (multi_body q l) = le 2 (len l) ++ concat (map (le 2) offs) ++ concat l).
    { unfold multi_body. rewrite app_assoc. apply skipn_app_exact. rewrite app_length, le_length. reflexivity. }
    assert (Loc := located l (le 2 (len l) ++ concat (map (le 2) offs)) []).
    rewrite len_app, le_len, concat_le_len in Loc. replace (len offs) with (len l) in Loc by (unfold len; now rewrite Hl).
    change (offsets (Z.of_nat 2 + 2 * len l) l) with offs in Loc.
    rewrite app_nil_r, <- app_assoc, <- Hd in Loc.
    assert (Bo : exists o, nth_error offs k = Some o /\ (0 <= o < 65536) /\ exists tail, skipn (Z.to_nat o) (skipn 8 (multi_body q l)) = b ++ tail).
    { assert (R : Forall (fun o => 0 <= o < 65536) offs).
      { unfold offs. assert (0 <= 2 + 2 * len l) as P by (pose proof (len_nonneg l); lia).
        assert (2 + 2 * len l + len (concat l) < 65536) as Q by lia. revert P Q. generalize (2 + 2 * len l). clear.
        induction l as [|b l IH]; intros z P Q; cbn [offsets concat] in *; constructor;
          rewrite len_app in Q; pose proof (len_nonneg b); pose proof (len_nonneg (concat l)); [lia|apply IH; lia]. }
      destruct (Forall2_nth_error _ _ _ Loc k b Hk) as (o & No & _ & T). exists o. split; [exact No|]. split; [|exact T].
      apply nth_error_In in No. rewrite Forall_forall in R. now apply R. }
    destruct Bo as (o & No & Ro & tail & Es).
    assert (Ek : unle (firstn 2 (skipn (10 + 2 * k) (multi_body q l))) = o).
    { replace (10 + 2 * k)%nat with (8 + (2 + 2 * k))%nat by lia. rewrite <- skipn_skipn, Hd.
      rewrite <- skipn_skipn. rewrite skipn_app_exact by apply le_length.
      clear -No Ro. revert k No. induction offs as [|o0 offs IH]; intros k No; [destruct k; discriminate|].
      cbn [map concat]. rewrite <- app_assoc. destruct k as [|k].
      - injection No as ->. change (2 * 0)%nat with 0%nat. rewrite skipn_O. rewrite firstn_app_exact by apply le_length. apply unle_le_small. exact Ro.
      - replace (2 * S k)%nat with (2 + 2 * k)%nat by lia. rewrite <- skipn_skipn, skipn_app_exact by apply le_length.
        now apply IH. }
    rewrite Ek. exists tail. rewrite <- Es, skipn_skipn. reflexivity.
Qed.

(** Every request readList sends, whichever way it splits, is such a packet for
    the Read Tag services of a list of tags. *)
Theorem C23_requests_well_formed : forall S (ctl : controller S) ops ex otid cs ws fuel s q r s' log q',
  cs <= 40000 -> Forall (fun w => named ops (w_tag w)) ws ->
  read_list fuel (asked ctl) (cl_run ops) (s, []) otid q cs (map (desc ex) ws) = (r, (s', log), q') ->
  Forall (fun req => exists body l, req = zeros 6 ++ wire_list [(0xA1, le 4 otid); (0xB1, body)] /\
                                    well_formed body (map read_service l)) log.
Proof.
  intros S ctl ops ex otid cs ws fuel s q r s' log q' Hcs F E.
  assert (Bd : forall l, subs_size l + 6 <= cs -> request_size l < 65536).
  { intros l X. rewrite request_size_eq. assert (4 * len l <= subs_size l); [|lia].
    clear. induction l as [|w l IH]; [cbn; lia|]. cbn [subs_size]. rewrite len_cons.
    pose proof (len_nonneg (encode (w_tag w))). lia. }
  destruct (parse_list_log ops ex fuel ctl otid cs (fun l => request_size l < 65536) (fun _ H => H) eq_refl Bd
    ws _ _ _ _ _ _ _ F E) as (new & -> & Snt).
  eapply Forall_impl; [|exact Snt]. intros req (q0 & l & Fl & B & ->).
  exists (multi_body q0 (map read_service l)), l. split; [reflexivity|]. apply multi_body_well_formed.
  rewrite multi_body_len, subs_size_concat, len_map. rewrite request_size_eq in B. exact B.
Qed.
Print Assumptions C23_requests_well_formed.
(** ReadList: and the tags are a run of those asked for. *)
Theorem C23_batches_well_formed : forall S (ctl : controller S) ops ex otid cs ws fuel s q r s' log q',
  cs < 65535 -> Forall (fun w => named ops (w_tag w)) ws ->
  Forall (fun w => 16 + len (encode (w_tag w)) <= cs) ws ->
  read_batches fuel (asked ctl) (cl_run ops) (s, []) otid q cs (map (desc ex) ws) = (r, (s', log), q') ->
  Forall (fun req => exists body a l b, ws = a ++ l ++ b /\ l <> [] /\
            req = zeros 6 ++ wire_list [(0xA1, le 4 otid); (0xB1, body)] /\
            well_formed body (map read_service l)) log.
Proof.
  intros S ctl ops ex otid cs ws fuel s q r s' log q' Hcs F Fit E.
  destruct (batches_log ops ex ctl otid cs Hcs fuel ws F Fit _ _ _ _ _ _ _ E) as (new & -> & Snt).
  eapply Forall_impl; [|exact Snt]. intros req (q0 & l & Fl & (Ne & (a & b & Eab) & Rq) & ->).
  exists (multi_body q0 (map read_service l)), a, l, b. split; [exact Eab|]. split; [exact Ne|]. split; [reflexivity|].
  apply multi_body_well_formed. rewrite multi_body_len, subs_size_concat, len_map. rewrite request_size_eq in Rq. lia.
Qed.
Print Assumptions C23_batches_well_formed.
Example ex_C23 : well_formed (multi_body 2 (map read_service [w_speed; w_label])) (map read_service [w_speed; w_label]) /\
  map read_service [w_speed; w_label] =
    [[0x4C; 4; 0x91; 5] ++ str "speed" ++ [0; 1; 0]; [0x4C; 4; 0x91; 5] ++ str "label" ++ [0; 1; 0]].
Proof. split; [apply multi_body_well_formed; vm_compute|]; reflexivity. Qed.

(** C24.  One sub-reply per tag, anywhere in the reply. *)
Theorem C24_replies_matched : forall S (ctl : controller S) ops ex fuel otid q cs ws subs vs p s s1,
  Forall (fun w => named ops (w_tag w)) ws -> request_size ws <= cs < 65536 ->
  ctl s (multi_request otid q (map read_service ws)) = (Ok (0, p), s1) ->
  multi_answer p subs -> length vs = length subs ->
  Forall2 (fun w rv => s_status (fst rv) = 0 /\ yields w (s_type (fst rv)) (s_data (fst rv)) (snd rv)) ws (combine subs vs) ->
  read_list (Datatypes.S fuel) ctl (cl_run ops) s otid q cs (map (desc ex) ws) = (Ok vs, s1, q + 1).
Proof.
  intros S ctl ops ex fuel otid q cs ws subs vs p s s1 F Sz E A Lv Y.
  apply (read_list_one ops ex fuel ctl s s1 otid q cs ws subs vs p F); [right|lia|exact E|exact A|exact Lv|exact Y].
  rewrite request_size_eq in Sz. pose proof (len_nonneg ws). lia.
Qed.
Print Assumptions C24_replies_matched.
(** The second tag's reply stands before the first's. *)
Definition swapped : bytes :=
  zeros 6 ++ wire_list [(0xA1, [1; 2; 3; 4]);
    (0xB1, le 2 1 ++ [0x8A; 0] ++ le 2 0 ++ le 2 2 ++ concat (map (le 2) [6 + len (plain_sub r_label); 6]) ++
           plain_sub r_label ++ plain_sub r_speed)].
Example ex_C24 : multi_answer swapped [r_speed; r_label] /\
  fst (fst (read_list 1 (fun s _ => (Ok (0, swapped), s)) (cl_run []) tt 7 1 500 (map (desc (fun _ => SNil)) [w_speed; w_label])))
  = Ok [GInt true 4 77; GStr (str "ok")].
Proof.
  split; [|vm_compute; reflexivity].
  exists (zeros 6), (0xA1, [1;2;3;4]), 0xB1, (le 2 1), 0x8A, 0, [6 + len (plain_sub r_label); 6],
    (plain_sub r_label ++ plain_sub r_speed), [].
  cbv zeta. split; [reflexivity|]. split; [reflexivity|]. split; [|split].
  - split; [vm_compute; reflexivity|]. repeat constructor; vm_compute; try reflexivity; discriminate.
  - repeat constructor; exists 0xCC, 0, 0; (split; [lia|]; split; [cbn; lia|]; split; [vm_compute; discriminate|]).
    + exists []. vm_compute. reflexivity.
    + exists (plain_sub r_speed). vm_compute. reflexivity.
  - rewrite app_nil_r. reflexivity.
Qed.

(** An error status in any sub-reply fails the call, *)
Theorem C24_error_fails : forall S (ctl : controller S) ops ex fuel otid q cs ws subs p s s1 k w r vs,
  Forall (fun w => named ops (w_tag w)) ws -> request_size ws <= cs < 65536 ->
  ctl s (multi_request otid q (map read_service ws)) = (Ok (0, p), s1) ->
  multi_answer p subs ->
  nth_error ws k = Some w -> nth_error subs k = Some r -> s_status r <> 0 ->
  fst (fst (read_list (Datatypes.S fuel) ctl (cl_run ops) s otid q cs (map (desc ex) ws))) <> Ok vs.
Proof.
  intros S ctl ops ex fuel otid q cs ws subs p s s1 k w r vs F Sz E A Ew Er N.
  rewrite (read_list_sends ops ex fuel ctl s s1 otid q cs ws p F); [|right|lia|exact E].
  - destruct (parse_multi_answer p subs (map (fun w => (desc ex w, wioi w)) ws) A) as (bs & Ep & Fb).
    cbn [fst]. rewrite Ep. eapply decode_each_error; eauto.
  - rewrite request_size_eq in Sz. pose proof (len_nonneg ws). lia.
Qed.
Print Assumptions C24_error_fails.
(** with that status when the replies before it are good. *)
Theorem C24_error_reported : forall S (ctl : controller S) ops ex fuel otid q cs ws1 w ws2 subs1 r subs2 vs p s s1,
  Forall (fun w => named ops (w_tag w)) (ws1 ++ w :: ws2) -> request_size (ws1 ++ w :: ws2) <= cs < 65536 ->
  ctl s (multi_request otid q (map read_service (ws1 ++ w :: ws2))) = (Ok (0, p), s1) ->
  multi_answer p (subs1 ++ r :: subs2) -> length vs = length subs1 ->
  Forall2 (fun w rv => s_status (fst rv) = 0 /\ yields w (s_type (fst rv)) (s_data (fst rv)) (snd rv)) ws1 (combine subs1 vs) ->
  s_status r <> 0 ->
  read_list (Datatypes.S fuel) ctl (cl_run ops) s otid q cs (map (desc ex) (ws1 ++ w :: ws2))
  = (Err (EStatus (s_status r)), s1, q + 1).
Proof.
  intros S ctl ops ex fuel otid q cs ws1 w ws2 subs1 r subs2 vs p s s1 F Sz E A Lv Y N.
  rewrite (read_list_sends ops ex fuel ctl s s1 otid q cs _ p F); [|right|lia|exact E].
  - destruct (parse_multi_answer p _ (map (fun w => (desc ex w, wioi w)) (ws1 ++ w :: ws2)) A) as (bs & Ep & Fb).
    rewrite Ep. rewrite (decode_each_first_error ops ex ws1 w ws2 (proj1 (proj1 (Forall_app _ _ _) F)) subs1 r subs2 vs bs Fb Y Lv N).
    reflexivity.
  - rewrite request_size_eq in Sz. pose proof (len_nonneg (ws1 ++ w :: ws2)). lia.
Qed.
Print Assumptions C24_error_reported.
Example ex_C24_error : multi_answer (plain_multi [r_speed; Sub 5 0 []]) [r_speed; Sub 5 0 []] /\
  fst (fst (read_list 1 (fun s _ => (Ok (0, plain_multi [r_speed; Sub 5 0 []]), s)) (cl_run []) tt 7 1 500
    (map (desc (fun _ => SNil)) [w_speed; w_label]))) = Err (EStatus 5).
Proof. split; [apply plain_multi_ok; [repeat constructor; cbn; lia|]|]; vm_compute; reflexivity. Qed.

(** A structure asked for without an example value is not cut off where its reply
    ends: the result holds the next tag's reply as well. *)
Theorem C24_untyped_struct_refuted : exists ws subs p (ctl : controller unit),
  Forall (fun w => named [] (w_tag w)) ws /\ multi_answer p subs /\ length ws = length subs /\
  (forall s req, ctl s req = (Ok (0, p), s)) /\
  exists handle d, s_data (nth 0 subs (Sub 0 0 [])) = handle ++ d /\ length handle = 2%nat /\
  exists more v, more <> [] /\
    fst (fst (read_list 1 ctl (cl_run []) tt 7 1 500 (map (desc (fun _ => SNil)) ws))) = Ok [GBytes (d ++ more); v].
Proof.
  exists [Wish (tag1 (str "Recipe")) 0 1 None; w_speed], [Sub 0 0xA0 [1; 2; 3; 4]; r_speed],
    (plain_multi [Sub 0 0xA0 [1; 2; 3; 4]; r_speed]), (fun s _ => (Ok (0, plain_multi [Sub 0 0xA0 [1; 2; 3; 4]; r_speed]), s)).
  split; [each ltac:(first [exact w_speed_named|apply tag1_named; vm_compute; reflexivity])|].
  split; [apply plain_multi_ok; [repeat constructor; cbn; lia|vm_compute; reflexivity]|].
  split; [reflexivity|]. split; [reflexivity|]. exists [1; 2], [3; 4]. split; [reflexivity|]. split; [reflexivity|].
  exists (plain_sub r_speed), (GInt true 4 77). split; [discriminate|]. vm_compute. reflexivity.
Qed.
Print Assumptions C24_untyped_struct_refuted.

(** C25.  A multi-tag read ends, whatever the controller answers, when each tag's
    request fits; *)
Theorem C25_read_ends_partial : forall S (ctl : controller S) ops ex otid cs ws fuel s q,
  (forall s req, fst (ctl s req) <> OutOfFuel) ->
  Forall (fun w => named ops (w_tag w)) ws -> Forall (fun w => 10 + len (encode (w_tag w)) <= cs) ws ->
  (length ws + 1 < fuel)%nat ->
  fst (fst (read_list fuel ctl (cl_run ops) s otid q cs (map (desc ex) ws))) <> OutOfFuel /\
  fst (fst (read_batches fuel ctl (cl_run ops) s otid q cs (map (desc ex) ws))) <> OutOfFuel.
Proof.
  intros S ctl ops ex otid cs ws fuel s q A F Fit Hf. split.
  - apply read_list_ends; auto. lia.
  - now apply read_batches_ends.
Qed.
Print Assumptions C25_read_ends_partial.
Example ex_C25 : Forall (fun w => 10 + len (encode (w_tag w)) <= 18) [w_speed; w_label] /\
  fst (fst (read_list 4 (fun s _ => (Ok (0, []), s)) (cl_run []) tt 7 1 18 (map (desc (fun _ => SNil)) [w_speed; w_label]))) = Err EEof.
Proof. split; [each ltac:(vm_compute; discriminate)|vm_compute; reflexivity]. Qed.

(** when one does not, and the controller takes an empty request, it goes on for
    ever: no number of rounds is enough. *)
Theorem C25_oversized_tag_refuted : exists ws (ctl : controller unit),
  Forall (fun w => named [] (w_tag w)) ws /\ (forall s req, fst (ctl s req) <> OutOfFuel) /\
  forall fuel, fst (fst (read_list fuel ctl (cl_run []) tt 7 1 500 (map (desc (fun _ => SNil)) ws))) = OutOfFuel /\
               fst (fst (read_batches fuel ctl (cl_run []) tt 7 1 500 (map (desc (fun _ => SNil)) ws))) = OutOfFuel.
Proof.
  set (w := Wish {| t_members := [{| m_name := repeat 97 250; m_subs := [] |}; {| m_name := repeat 98 240; m_subs := [] |}]; t_bit := None |} 0xC4 1 None).
  exists [w], (fun s _ => (Ok (0, plain_multi []), s)).
  assert (F : Forall (fun w => named [] (w_tag w)) [w]).
  { constructor; [|constructor]. split; [apply valid_tagb_sound; vm_compute; reflexivity|]. split; [reflexivity|].
    vm_compute. reflexivity. }
  assert (A : multi_answer (plain_multi []) []) by (apply plain_multi_ok; [constructor|vm_compute; reflexivity]).
  assert (St : forall fuel q, fst (fst (read_list fuel (fun s _ => (Ok (0, plain_multi []), s)) (cl_run []) tt 7 q 500 (map (desc (fun _ => SNil)) [w]))) = OutOfFuel).
  { intros fuel q. apply (read_list_stuck [] (fun _ => SNil) (fun s _ => (Ok (0, plain_multi []), s)) 7 500 w [] (plain_multi [])); auto.
    - vm_compute. reflexivity.
    - intros s q0. now exists s. }
  split; [exact F|]. split; [discriminate|]. intro fuel. split; [apply St|].
  destruct fuel as [|fuel]; [reflexivity|]. cbn [map read_batches].
  assert (count_fit (cl_run []) 500 [desc (fun _ => SNil) w] = Ok 1%nat) as -> by (vm_compute; reflexivity).
  cbn [firstn skipn]. specialize (St fuel (1 + 1)). cbn [map] in St.
  destruct (read_list fuel _ (cl_run []) tt 7 (1 + 1) 500 [desc (fun _ => SNil) w]) as [[[?|?| |] ?] ?]; cbn [fst] in *; congruence.
Qed.
Print Assumptions C25_oversized_tag_refuted.

(** C26.  A struct is a list of fields, each with the tag it names, if any. *)
Definition field_wish (f : field) (tg : tag) : wish :=
  match f_type f, f_val f with
  | FScalar k, _ => Wish tg (kind_cip k) 1 None
  | FSlice KBool, _ => Wish tg 0xA0 1 (Some 0%nat)
  | FSlice k, GList l => Wish tg (kind_cip k) (len l) (Some 0%nat)
  | FSlice k, _ => Wish tg (kind_cip k) 0 (Some 0%nat)
  | FAny, _ => Wish tg 0 1 None
  | FStruct n, _ => Wish tg 0xA0 1 (Some n)
  end.
Definition go_kind (k : gokind) : Prop :=
  match k with KInt _ w => In w [1; 2; 4; 8]%nat | KFloat w => In w [4; 8]%nat | _ => True end.
Definition go_ftype (t : ftype) : Prop := match t with FScalar k | FSlice k => go_kind k | _ => True end.
(** The example readList is given for a scalar field. *)
Definition ex_of (w : wish) : example :=
  match w_type w with
  | 0xC1 => SScalar KBool | 0xD1 => SScalar (KInt false 1) | 0xC2 => SScalar (KInt true 1)
  | 0xC7 => SScalar (KInt false 2) | 0xC3 => SScalar (KInt true 2) | 0xC8 => SScalar (KInt false 4)
  | 0xC4 => SScalar (KInt true 4) | 0xD4 => SScalar (KInt false 8) | 0xC5 => SScalar (KInt true 8)
  | 0xCA => SScalar (KFloat 4) | 0xCB => SScalar (KFloat 8) | 0xFF => SScalar KString
  | _ => SNil
  end.
Lemma text_nonempty tg : valid_tag tg -> text tg <> [].
Proof.
  intros (N & V & _). unfold text. destruct (t_members tg) as [|m ms]; [congruence|].
  inversion V as [|? ? ((L & _) & _) _]; subst. cbn [map app].
  assert (M : member_text m <> []).
  { unfold member_text. destruct (m_name m); [cbn in L; lia|]. destruct (m_subs m); discriminate. }
  destruct (map member_text ms ++ _) as [|x r]; cbn [join]; [exact M|].
  intro X. apply app_eq_nil in X as [X _]. congruence.
Qed.
Lemma field_desc_wish f tg : go_ftype (f_type f) -> field_desc f (text tg) = desc ex_of (field_wish f tg).
Proof.
  intro G. unfold field_desc, field_wish, desc. destruct (f_type f) as [k|k| |n]; cbn [w_tag w_type w_elems w_struct] in *.
  - destruct k as [|sg w|w|]; try reflexivity.
    + cbn [go_ftype go_kind In] in G. destruct G as [<-|[<-|[<-|[<-|[]]]]]; destruct sg; reflexivity.
    + cbn [go_ftype go_kind In] in G. destruct G as [<-|[<-|[]]]; reflexivity.
  - destruct k, (f_val f); reflexivity.
  - reflexivity.
  - reflexivity.
Qed.

Lemma fields_filled : forall S (inv : S -> Prop) (ctl : controller S) ops otid cs bound (struct : list (field * option tag)) value fuel s q,
  let fs := map fst struct in
  let ws := flat_map (fun fo => match snd fo with Some tg => [field_wish (fst fo) tg] | None => [] end) struct in
  cs <= 40000 -> 10 + cs + cs / 2 <= bound ->
  Forall (fun fo => f_tag (fst fo) = option_map text (snd fo) /\ go_ftype (f_type (fst fo))) struct ->
  NoDup (map (fun w => text (w_tag w)) ws) -> ws <> [] ->
  Forall (fun w => named ops (w_tag w) /\ 10 + len (encode (w_tag w)) <= cs) ws ->
  gives_in inv ctl otid bound ws value ->
  Forall (fun fo => match snd fo with Some tg => accepts (fst fo) (value (field_wish (fst fo) tg)) | None => True end) struct ->
  inv s -> (length ws < fuel)%nat ->
  exists s' q', read_multi fuel ctl (cl_run ops) s otid q cs fs =
    (Ok (map (fun fo => match snd fo with
                        | Some tg => Field (f_tag (fst fo)) (f_type (fst fo)) (value (field_wish (fst fo) tg))
                        | None => fst fo
                        end) struct), s', q') /\ inv s'.
Proof.
  intros S inv ctl ops otid cs bound struct value fuel s q fs ws Hcs Hbd T ND Ne Fw G Ac Is Hf.
  assert (Wt : forall f tg, w_tag (field_wish f tg) = tg).
  { intros f tg. unfold field_wish. destruct (f_type f) as [k|k| |n]; try reflexivity. destruct k, (f_val f); reflexivity. }
  (* the tagged fields are those with a wish *)
  assert (Tg : forall i, map (fun x => field_desc (snd x) (fst (fst x))) (tagged fs i) = map (desc ex_of) ws /\
                         tags_of (tagged fs i) = map (fun w => text (w_tag w)) ws /\
                         Forall2 (fun x v => accepts (snd x) v) (tagged fs i) (map value ws) /\
                         filled fs (map value ws) = map (fun fo => match snd fo with
                        | Some tg => Field (f_tag (fst fo)) (f_type (fst fo)) (value (field_wish (fst fo) tg))
                        | None => fst fo end) struct).
  { unfold fs, ws. assert (Fw' : Forall (fun w => named ops (w_tag w)) ws) by (eapply Forall_impl; [|exact Fw]; intros ? []; auto).
    unfold ws in Fw'. clear -T Ac Wt Fw'.
    induction struct as [|[f o] struct IH]; intro i; [repeat split; constructor|].
    inversion T as [|? ? (Tf & Gf) T']; subst. inversion Ac as [|? ? Af Ac']; subst. cbn [fst snd] in *.
    cbn [map flat_map fst snd] in *. destruct o as [tg|]; cbn [option_map app] in *.
    - inversion Fw' as [|? ? (V & _) Fw'']; subst. rewrite Wt in V.
      cbn [tagged filled map]. rewrite Tf.
      assert (length (text tg) =? 0 = false)%nat as ->.
      { apply Nat.eqb_neq. intro X. apply length_zero_iff_nil in X. revert X. apply text_nonempty. exact V. }
      destruct (IH T' Ac' Fw'' (Datatypes.S i)) as (A & B & C & D).
      cbn [map fst snd tags_of]. split; [|split; [|split]].
      + rewrite A. f_equal. now apply field_desc_wish.
      + fold (tags_of (tagged (map fst struct) (Datatypes.S i))). rewrite B, Wt. reflexivity.
      + constructor; [exact Af|exact C].
      + rewrite D. reflexivity.
    - cbn [tagged filled]. rewrite Tf. destruct (IH T' Ac' Fw' (Datatypes.S i)) as (A & B & C & D).
      split; [exact A|]. split; [exact B|]. split; [exact C|]. rewrite <- D. reflexivity. }
  destruct (Tg 0%nat) as (A & B & C & D).
  destruct (read_list_all ops ex_of inv ctl otid cs bound value ws Hcs Hbd G fuel ws) with (s := s) (q := q) as (s' & q' & E & I').
  { eapply Forall_impl; [|exact Fw]. now intros ? []. }
  { eapply Forall_impl; [|exact Fw]. now intros ? []. }
  { exists [], []. now rewrite app_nil_r. }
  { exact Ne. }
  { exact Hf. }
  { exact Is. }
  exists s', q'. split; [|exact I']. unfold read_multi. rewrite A, E. cbn [bind].
  rewrite <- B in ND. pose proof (unpack_filled fs [] [] (map value ws) (tagged fs 0) eq_refl eq_refl ND C) as U.
  cbn [app length] in U. fold (tags_of (tagged fs 0)). rewrite U. now rewrite D.
Qed.

(** The full statement has no condition on the names: two fields may name the
    same tag.  Here all names differ; the values come in the fields' types. *)
Theorem C26_fields_filled_partial : forall S (ctl : controller S) ops otid cs (struct : list (field * option tag)) value fuel s q,
  let fs := map fst struct in
  let ws := flat_map (fun fo => match snd fo with Some tg => [field_wish (fst fo) tg] | None => [] end) struct in
  cs <= 40000 ->
  Forall (fun fo => f_tag (fst fo) = option_map text (snd fo) /\ go_ftype (f_type (fst fo))) struct ->
  NoDup (map (fun w => text (w_tag w)) ws) -> ws <> [] ->
  Forall (fun w => named ops (w_tag w) /\ 10 + len (encode (w_tag w)) <= cs) ws ->
  gives ctl otid 65535 ws value ->
  Forall (fun fo => match snd fo with Some tg => accepts (fst fo) (value (field_wish (fst fo) tg)) | None => True end) struct ->
  (length ws < fuel)%nat ->
  exists s' q', read_multi fuel ctl (cl_run ops) s otid q cs fs =
    (Ok (map (fun fo => match snd fo with
                        | Some tg => Field (f_tag (fst fo)) (f_type (fst fo)) (value (field_wish (fst fo) tg))
                        | None => fst fo
                        end) struct), s', q').
Proof.
  intros S ctl ops otid cs struct value fuel s q fs ws Hcs T ND Ne Fw G Ac Hf.
  destruct (fields_filled S (fun _ => True) ctl ops otid cs 65535 struct value fuel s q Hcs ltac:(lia) T ND Ne Fw (gives_any _ _ _ _ _ G) Ac I Hf)
    as (s' & q' & E & _). now exists s', q'.
Qed.
Print Assumptions C26_fields_filled_partial.
Definition f_speed : field := Field (Some (str "Speed")) (FScalar (KInt true 4)) (GInt true 4 0).
Definition f_label : field := Field (Some (str "Label")) (FScalar KString) (GStr []).
Definition f_note : field := Field None (FScalar (KInt true 4)) (GInt true 4 9).
Example ex_C26 :
  [field_wish f_speed (tag1 (str "Speed")); field_wish f_label (tag1 (str "Label"))] = [w_speed; w_label] /\
  gives ex_plc 7 65535 [w_speed; w_label] ex_value /\
  accepts f_speed (ex_value w_speed) /\ accepts f_label (ex_value w_label) /\
  fst (fst (read_multi 3 ex_plc (cl_run []) tt 7 1 500 [f_speed; f_note; f_label]))
  = Ok [Field (Some (str "Speed")) (FScalar (KInt true 4)) (GInt true 4 77); f_note;
        Field (Some (str "Label")) (FScalar KString) (GStr (str "ok"))].
Proof.
  split; [reflexivity|]. split; [apply ex_plc_gives|]. split; [split; [reflexivity|discriminate]|]. split; [exact I|].
  vm_compute. reflexivity.
Qed.

(** Two fields naming one tag: the first keeps its old contents. *)
Theorem C26_duplicate_refuted : exists (ctl : controller unit) fs f f',
  fs = [f; f] /\ f_tag f = Some (str "Speed") /\ f_val f <> GInt true 4 77 /\
  gives ctl 7 65535 [w_speed; w_speed] ex_value /\ ex_value w_speed = GInt true 4 77 /\
  fst (fst (read_multi 3 ctl (cl_run []) tt 7 1 500 fs)) = Ok [f; f'].
Proof.
  exists (fun s req => (Ok (0, plain_multi (if (len req <? 46) then [r_speed] else [r_speed; r_speed])), s)), [f_speed; f_speed], f_speed,
    (Field (Some (str "Speed")) (FScalar (KInt true 4)) (GInt true 4 77)).
  split; [reflexivity|]. split; [reflexivity|]. split; [discriminate|]. split; [|split; [reflexivity|vm_compute; reflexivity]].
  intros s q a l b E Ne _.
  assert (C : l = [w_speed] \/ l = [w_speed; w_speed]).
  { destruct a as [|a0 [|a1 [|a2 a]]]; cbn [app] in E.
    - destruct l as [|l0 [|l1 [|l2 l]]]; [congruence|..]; cbn [app] in E; try (injection E as -> E; discriminate).
      + injection E as -> _. now left.
      + injection E as -> -> _. now right.
    - destruct l as [|l0 [|l1 l]]; [congruence|..]; cbn [app] in E; try (injection E as _ E; discriminate).
      injection E as _ -> _. now left.
    - injection E as _ _ E. destruct l; [congruence|discriminate].
    - discriminate. }
  destruct C as [-> | ->]; [exists (plain_multi [r_speed]), s, [r_speed]|exists (plain_multi [r_speed; r_speed]), s, [r_speed; r_speed]];
    (split; [reflexivity|]; split; [apply plain_multi_ok; [repeat constructor; cbn; lia|vm_compute; reflexivity]|];
     repeat first [apply Forall2_nil | apply Forall2_cons; [exact speed_yields|]]).
Qed.
Print Assumptions C26_duplicate_refuted.

(** C21 says one result per tag; a controller that leaves replies out goes
    unnoticed. *)
Theorem C21_short_reply_refuted : exists (ctl : controller unit) ws v,
  Forall (fun w => named [] (w_tag w)) ws /\ length ws = 2%nat /\
  fst (fst (read_batches 3 ctl (cl_run []) tt 7 1 500 (map (desc (fun _ => SNil)) ws))) = Ok [v].
Proof.
  exists (fun s _ => (Ok (0, plain_multi [r_speed]), s)), [w_speed; w_label], (GInt true 4 77).
  split; [each ltac:(first [exact w_speed_named|exact w_label_named])|]. split; [reflexivity|]. vm_compute. reflexivity.
Qed.
Print Assumptions C21_short_reply_refuted.

(** C55.  Replies that make a batched read panic: one too many sub-replies, an
    offset past the end, an array of strings with a count over 82, and for
    ReadMulti one too few. *)
Theorem C55_extra_reply_refuted : exists (ctl : controller unit),
  fst (fst (read_batches 3 ctl (cl_run []) tt 7 1 500 (map (desc (fun _ => SNil)) [w_speed]))) = Panic.
Proof. exists (fun s _ => (Ok (0, plain_multi [r_speed; r_speed]), s)). vm_compute. reflexivity. Qed.
Print Assumptions C55_extra_reply_refuted.
Theorem C55_bad_offset_refuted : exists (ctl : controller unit),
  fst (fst (read_batches 3 ctl (cl_run []) tt 7 1 500 (map (desc (fun _ => SNil)) [w_speed]))) = Panic.
Proof.
  exists (fun s _ => (Ok (0, zeros 6 ++ wire_list [(0xA1, [1; 2; 3; 4]); (0xB1, [1; 0; 0x8A; 0; 0; 0; 1; 0; 255; 0])]), s)).
  vm_compute. reflexivity.
Qed.
Print Assumptions C55_bad_offset_refuted.
Theorem C55_long_string_refuted : exists (ctl : controller unit) w,
  named [] (w_tag w) /\ w_type w = 0xFF /\ w_elems w = 2 /\
  fst (fst (read_batches 3 ctl (cl_run []) tt 7 1 500 (map (desc (fun _ => SNil)) [w]))) = Panic.
Proof.
  exists (fun s _ => (Ok (0, plain_multi [Sub 0 0xA0 ([0xCE; 0x0F] ++ le 4 83 ++ zeros 200)]), s)), (Wish (tag1 (str "Label")) 0xFF 2 None).
  split; [exact w_label_named|]. split; [reflexivity|]. split; [reflexivity|]. vm_compute. reflexivity.
Qed.
Print Assumptions C55_long_string_refuted.
Theorem C55_read_multi_short_refuted : exists (ctl : controller unit),
  fst (fst (read_multi 3 ctl (cl_run []) tt 7 1 500 [f_speed; f_label])) = Panic.
Proof. exists (fun s _ => (Ok (0, plain_multi [r_speed]), s)). vm_compute. reflexivity. Qed.
Print Assumptions C55_read_multi_short_refuted.

(** C56.  ReadMulti into a field of another type than the tag's, or into a slice
    of one element, panics on a good reply. *)
Theorem C56_type_mismatch_refuted : exists (ctl : controller unit) f,
  f_type f = FScalar (KInt true 2) /\ f_tag f = Some (str "Speed") /\
  (forall s req, ctl s req = (Ok (0, plain_multi [r_speed]), s)) /\ multi_answer (plain_multi [r_speed]) [r_speed] /\
  fst (fst (read_multi 3 ctl (cl_run []) tt 7 1 500 [f])) = Panic.
Proof.
  exists (fun s _ => (Ok (0, plain_multi [r_speed]), s)), (Field (Some (str "Speed")) (FScalar (KInt true 2)) (GInt true 2 0)).
  split; [reflexivity|]. split; [reflexivity|]. split; [reflexivity|].
  split; [apply plain_multi_ok; [repeat constructor; cbn; lia|]|]; vm_compute; reflexivity.
Qed.
Print Assumptions C56_type_mismatch_refuted.
Theorem C56_one_element_slice_refuted : exists (ctl : controller unit) f,
  f_type f = FSlice (KInt true 4) /\ f_val f = GList [GInt true 4 0] /\ f_tag f = Some (str "Speed") /\
  (forall s req, ctl s req = (Ok (0, plain_multi [r_speed]), s)) /\ multi_answer (plain_multi [r_speed]) [r_speed] /\
  fst (fst (read_multi 3 ctl (cl_run []) tt 7 1 500 [f])) = Panic.
Proof.
  exists (fun s _ => (Ok (0, plain_multi [r_speed]), s)), (Field (Some (str "Speed")) (FSlice (KInt true 4)) (GList [GInt true 4 0])).
  split; [reflexivity|]. split; [reflexivity|]. split; [reflexivity|]. split; [reflexivity|].
  split; [apply plain_multi_ok; [repeat constructor; cbn; lia|]|]; vm_compute; reflexivity.
Qed.
Print Assumptions C56_one_element_slice_refuted.
(** Fields whose types agree never panic: C26. *)
