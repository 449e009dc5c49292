(** * C55, C56: which replies bring a client down *)
From Verif Require Import GoBase SegModel IoiModel IoiSpec IoiProof ItemsModel ItemsSpec ItemsProof TypesModel
  ReadModel ReadSpec ReadProof BatchModel BatchSpec BatchProof AttrModel AttrSpec CrashSpec.
From Verif Require Prop_Batch Prop_Attr.

(** ** Batched reads *)
Lemma string_elems_panic n : forall d, read_string_elems n d = Panic -> long_string n d.
Proof.
  induction n as [|n IH]; intros d E; [discriminate|]. cbn [read_string_elems] in E.
  unfold read_string_elem in E. destruct (rd 6 d) as [[h r1]| | |] eqn:E1; cbn [bind] in E; try discriminate; [|now apply rd_no_panic in E1].
  apply rd_ok_inv in E1 as [-> L1]. destruct (rd 82 r1) as [[c r2]| | |] eqn:E2; cbn [bind] in E; try discriminate; [|now apply rd_no_panic in E2].
  apply rd_ok_inv in E2 as [-> L2].
  destruct (82 <? unle (skipn 2 h)) eqn:B.
  - rewrite <- (firstn_skipn 2 h), <- app_assoc. apply long_here; [rewrite firstn_length; lia|rewrite skipn_length; lia|exact L2|lia].
  - cbn [bind] in E. destruct (read_string_elems n r2) as [[? ?]| | |] eqn:E3; cbn [bind] in E; try discriminate.
    rewrite app_assoc. apply long_later; [rewrite app_length; lia|]. now apply IH.
Qed.
Lemma bind_value_safe {A} t r (k : gval * bytes -> res A) : (forall x, k x <> Panic) -> bind (read_value t r) k <> Panic.
Proof. intros K. destruct (read_value_safe t r) as [P _]. destruct (read_value t r) as [x| | |]; cbn [bind]; [apply K|discriminate|congruence|discriminate]. Qed.
Lemma bind_rd_panic {A} n r (k : bytes * bytes -> res A) : (forall x, k x <> Panic) -> bind (rd n r) k <> Panic.
Proof. intros K. pose proof (rd_no_panic n r) as P. destruct (rd n r) as [x| | |]; cbn [bind]; [apply K|discriminate|congruence|discriminate]. Qed.

Lemma decode_sub_panic ti b : decode_sub ti b = Panic ->
  ti = None \/ exists t i, ti = Some (t, i) /\
    (td_elems t < 0 \/ td_elems t <> 1 /\ td_type t = T_string /\ long_string (Z.to_nat (td_elems t)) (skipn 6 b)).
Proof.
  unfold decode_sub. intro E. destruct ti as [[t i]|]; [|now left]. right. exists t, i. split; [reflexivity|].
  destruct (rd 6 b) as [[h d]| | |] eqn:E1; cbn [bind] in E; try discriminate; [|now apply rd_no_panic in E1].
  apply rd_ok_inv in E1 as [-> L]. cbv zeta in E. rewrite skipn_app_exact by exact L.
  destruct (negb (is_response (nth 0 h 0))); [discriminate|]. destruct (negb (_ =? 0)); [discriminate|].
  destruct (td_elems t =? 1) eqn:E1.
  - exfalso. revert E. destruct ((td_type t =? T_bool) && negb (nth 4 h 0 =? T_bool) && ioi_bit i).
    { apply bind_value_safe. intros [v r]. destruct (get_bit _ _ _); discriminate. }
    destruct (td_type t =? T_string). { apply bind_rd_panic. intros [h' r]. apply bind_rd_panic. intros [s ?]. discriminate. }
    destruct (nth 4 h 0 =? T_struct).
    { apply bind_rd_panic. intros [? r]. destruct (td_struct t); try discriminate.
      - apply bind_value_safe. intros []; discriminate.
      - apply bind_rd_panic. intros []; discriminate. }
    apply bind_value_safe. intros []; discriminate.
  - destruct (td_elems t <? 0) eqn:E2; [left; lia|]. right. split; [lia|].
    destruct (td_type t =? T_string) eqn:E3.
    + split; [lia|]. apply string_elems_panic. destruct (read_string_elems _ d) as [[? ?]| | |]; cbn [bind] in E; try discriminate. reflexivity.
    + exfalso. destruct (read_values_safe (Z.to_nat (td_elems t)) (nth 4 h 0) d) as [P _].
      destruct (read_values _ _ d) as [[? ?]| | |]; cbn [bind] in E; try discriminate. congruence.
Qed.
Lemma skipn_len_le n (l : bytes) : (n <= length l)%nat -> len (skipn n l) = len l - Z.of_nat n.
Proof. intro H. unfold len. rewrite skipn_length. lia. Qed.
Lemma decode_subs_panic rb offs : forall tis, decode_subs rb offs tis = Panic ->
  exists k o, nth_error offs k = Some o /\
    let at_ := (o + 10) mod 65536 in
    (len rb < at_ \/ nth_error tis k = None \/
     exists t i, nth_error tis k = Some (t, i) /\
       (td_elems t < 0 \/ td_elems t <> 1 /\ td_type t = T_string /\ long_string (Z.to_nat (td_elems t)) (skipn (Z.to_nat at_ + 6) rb))).
Proof.
  induction offs as [|o offs IH]; intros tis E; [discriminate|]. cbn [decode_subs] in E.
  destruct (slice_off rb ((o + 10) mod 65536)) as [b| | |] eqn:Sl; cbn [bind] in E; try discriminate.
  2: { exists 0%nat, o. split; [reflexivity|]. left. unfold slice_off, slice_from in Sl.
       destruct ((0 <=? (o + 10) mod 65536) && ((o + 10) mod 65536 <=? len rb)) eqn:C; [discriminate|].
       pose proof (Z.mod_pos_bound (o + 10) 65536 ltac:(lia)). lia. }
  unfold slice_off, slice_from in Sl. destruct ((0 <=? (o + 10) mod 65536) && ((o + 10) mod 65536 <=? len rb)) eqn:C; [|discriminate].
  assert (Eb : b = skipn (Z.to_nat ((o + 10) mod 65536)) rb) by congruence. clear Sl.
  destruct (decode_sub (hd_error tis) b) as [v| | |] eqn:D; cbn [bind] in E; try discriminate.
  - destruct (decode_subs rb offs (tl tis)) as [vs| | |] eqn:R; cbn [bind] in E; try discriminate.
    destruct (IH _ R) as (k & o' & N & X). exists (S k), o'. split; [exact N|].
    assert (nth_error tis (S k) = nth_error (tl tis) k) as -> by (destruct tis; [destruct k; reflexivity|reflexivity]). exact X.
  - exists 0%nat, o. split; [reflexivity|]. right.
    assert (Hn : nth_error tis 0 = hd_error tis) by (destruct tis; reflexivity). rewrite Hn.
    destruct (decode_sub_panic _ _ D) as [X|(t & i & X & Y)]; [now left|]. right. exists t, i. split; [exact X|].
    destruct Y as [Y|(Y1 & Y2 & Y3)]; [now left|]. right. split; [exact Y1|]. split; [exact Y2|].
    rewrite Eb, skipn_skipn in Y3. exact Y3.
Qed.
Lemma read_u16s_nth n : forall r k o, nth_error (read_u16s n r) k = Some o -> (k < n)%nat /\ o = unle (firstn 2 (skipn (2 * k) r)).
Proof.
  induction n as [|n IH]; intros r k o E; [destruct k; discriminate|]. cbn [read_u16s] in E. destruct k as [|k].
  - injection E as <-. split; [lia|]. now rewrite skipn_O.
  - cbn [nth_error] in E. destruct (IH _ _ _ E) as [L ->]. split; [lia|]. rewrite skipn_skipn.
    now replace (2 + 2 * k)%nat with (2 * S k)%nat by lia.
Qed.

Lemma reply_two payload its : bytes_ok payload -> reply_items payload = Ok its -> exists pre rest,
  length pre = 6%nat /\ payload = pre ++ wire_list (contents its) ++ rest /\ Forall (fun it => item_bytes it = wire_item (it_id it, it_data it)) its.
Proof.
  unfold reply_items. intros B E. destruct (rd 6 payload) as [[pre r]| | |] eqn:R.
  2-4: discriminate.
  apply rd_ok_inv in R as [-> L]. apply bytes_ok_app in B as [_ B].
  destruct (read_items r) as [[l rest]| | |] eqn:Er; cbn [bind] in E; try discriminate. injection E as ->.
  pose proof (C11_lemma r B) as C. rewrite Er in C. destruct C as [_ F].
  destruct (read_items_sound _ _ _ B Er) as [-> _]. exists pre, rest. split; [exact L|]. split; [reflexivity|].
  eapply Forall_impl; [|exact F]. intros it [X _]. unfold item_bytes, wire_item. cbn [fst snd]. now rewrite X.
Qed.
Lemma reply_items_safe payload : reply_items payload <> Panic.
Proof.
  unfold reply_items. cbv zeta. match goal with |- context [read_items ?r] => destruct (read_items_safe r) as [P _]; destruct (read_items r) as [[? ?]| | |] end;
    cbn [bind]; congruence || discriminate.
Qed.

Lemma multi_reply_panic ex l payload : bytes_ok payload -> Forall (fun w => 0 <= w_elems w) l ->
  parse_multi_reply payload (map (fun w => (desc ex w, wioi w)) l) = Panic -> bad_entry l payload.
Proof.
  intros B F E. unfold parse_multi_reply in E. pose proof (reply_items_safe payload).
  destruct (reply_items payload) as [its| | |] eqn:Ei; cbn [bind] in E; try discriminate; [|congruence].
  destruct (reply_two payload its B Ei) as (pre & rest & L & Ep & Fi).
  destruct its as [|a [|it [|? ?]]]; try discriminate. cbv zeta in E.
  destruct (len (it_data it) <? 6); [discriminate|]. destruct (unle (firstn 2 (skipn 4 (it_data it))) =? 0) eqn:St; cbn [negb] in E; [|discriminate].
  destruct (len (it_data it) <? 8); [discriminate|].
  destruct (rd _ (skipn 8 (it_data it))) as [[tbl tl]| | |] eqn:Rt; cbn [bind] in E; try discriminate; [|now apply rd_no_panic in Rt].
  apply rd_ok_inv in Rt as [Et Lt].
  destruct (decode_subs_panic _ _ _ E) as (k & o & N & X). apply read_u16s_nth in N as [Lk ->].
  inversion Fi as [|? ? _ Fi1]; subst. inversion Fi1 as [|? ? Hi _]; subst. rewrite Hi in X.
  assert (Eo : firstn 2 (skipn (8 + 2 * k) (it_data it)) = firstn 2 (skipn (2 * k) tbl)).
  { rewrite <- skipn_skipn, Et. rewrite skipn_app, firstn_app.
    replace (2 - length (skipn (2 * k) tbl))%nat with 0%nat by (rewrite skipn_length; lia). cbn [firstn]. now rewrite app_nil_r. }
  exists (it_id it), (it_data it), k. split.
  { exists pre, (it_id a, it_data a), rest. split; [exact L|reflexivity]. }
  split; [lia|]. split; [lia|]. cbv zeta. rewrite Eo. cbv zeta in X. destruct X as [X|[X|(t & i & X & Y)]]; [now left| |].
  - right. left. apply nth_error_None in X. now rewrite map_length in X.
  - right. right. rewrite nth_error_map in X. destruct (nth_error l k) as [w|] eqn:Nw; [|discriminate]. cbn [option_map] in X. injection X as <- <-.
    exists w. split; [reflexivity|]. destruct Y as [Y|(Y1 & Y2 & Y3)].
    + rewrite Forall_forall in F. specialize (F w (nth_error_In _ _ Nw)). cbn in Y. lia.
    + cbn [desc td_elems td_type] in *. split; [exact Y2|]. split; [exact Y1|exact Y3].
Qed.

Lemma decode_subs_length rb offs : forall tis vs, decode_subs rb offs tis = Ok vs -> (length vs <= length tis)%nat.
Proof.
  induction offs as [|o offs IH]; intros tis vs E; cbn [decode_subs] in E; [injection E as <-; cbn; lia|].
  destruct (slice_off rb _) as [b| | |]; cbn [bind] in E; try discriminate.
  destruct tis as [|ti tis]; [exfalso; unfold decode_sub in E; cbn [hd_error] in E; destruct (rd 6 b) as [[? ?]| | |]; cbn [bind] in E; try discriminate; cbv zeta in E; destruct (negb _); discriminate|]. cbn [hd_error tl] in E.
  destruct (decode_sub (Some ti) b) as [v| | |]; cbn [bind] in E; try discriminate.
  destruct (decode_subs rb offs tis) as [r| | |] eqn:R; cbn [bind] in E; try discriminate. injection E as <-.
  apply IH in R. cbn [length]. lia.
Qed.
Lemma multi_reply_length p tis vs : parse_multi_reply p tis = Ok vs -> (length vs <= length tis)%nat.
Proof.
  unfold parse_multi_reply. destruct (reply_items p) as [its| | |]; cbn [bind]; try discriminate.
  destruct its as [|a [|it [|? ?]]]; try discriminate. cbv zeta. destruct (len (it_data it) <? 6); [discriminate|].
  destruct (negb _); [discriminate|]. destruct (len (it_data it) <? 8); [discriminate|]. destruct (rd _ (skipn 8 (it_data it))) as [[tbl tl]| | |]; cbn [bind]; try discriminate.
  apply decode_subs_length.
Qed.

Section lists.
Context {St : Type} (ops : list cl_op) (ex : wish -> example) (ctl : controller St) (otid cs : Z).
Hypothesis H : honest ctl.
Hypothesis Hcs : cs <= 40000.
Lemma fatal_firstn i ws s' : fatal_reply ctl otid (firstn i ws) s' -> fatal_reply ctl otid ws s'.
Proof. intros (s & q & l & p & (a & b & E) & X). exists s, q, l, p. split; [|exact X]. exists a, (b ++ skipn i ws). rewrite <- (firstn_skipn i ws) at 1. rewrite E, <- !app_assoc. reflexivity. Qed.
Lemma fatal_skipn i ws s' : fatal_reply ctl otid (skipn i ws) s' -> fatal_reply ctl otid ws s'.
Proof. intros (s & q & l & p & (a & b & E) & X). exists s, q, l, p. split; [|exact X]. exists (firstn i ws ++ a), b. rewrite <- (firstn_skipn i ws) at 1. rewrite E, <- !app_assoc. reflexivity. Qed.

(** Both halves of what a list read can do. *)
Definition sound_end (ws : list wish) (out : res (list gval) * St * Z) : Prop :=
  match out with
  | (Panic, s', _) => fatal_reply ctl otid ws s'
  | (Ok vs, _, _) => (length vs <= length ws)%nat
  | _ => True
  end.
Lemma read_list_end fuel : forall ws s q, Forall (fun w => named ops (w_tag w)) ws -> Forall (fun w => 0 <= w_elems w) ws ->
  sound_end ws (read_list fuel ctl (cl_run ops) s otid q cs (map (desc ex) ws)).
Proof.
  induction fuel as [|fuel IH]; intros ws s q F Fe; [exact I|].
  cbn [read_list]. rewrite iois_of_wishes, (subs_wishes ops ex) by exact F.
  destruct (split_at cs 0 (map read_service ws) 0) as [i|] eqn:Sp.
  - rewrite firstn_map, skipn_map.
    pose proof (IH (firstn i ws) s (q + 1) (Forall_firstn' _ _ _ F) (Forall_firstn' _ _ _ Fe)) as I0.
    destruct (read_list fuel ctl (cl_run ops) s otid (q + 1) cs (map (desc ex) (firstn i ws))) as [[r0 s1] q1] eqn:E0.
    destruct r0 as [r0|e| |]; try exact I; [|now apply (fatal_firstn i)].
    pose proof (IH (skipn i ws) s1 q1 (Forall_skipn' _ _ _ F) (Forall_skipn' _ _ _ Fe)) as I1.
    destruct (read_list fuel ctl (cl_run ops) s1 otid q1 cs (map (desc ex) (skipn i ws))) as [[r1 s2] q2] eqn:E1.
    destruct r1 as [r1|e| |]; try exact I; [|now apply (fatal_skipn i)].
    cbn [sound_end] in *. rewrite app_length. rewrite <- (firstn_skipn i ws), app_length. lia.
  - assert (Rq : request_size ws < 65536).
    { rewrite request_size_eq. destruct (split_at_none_inv _ _ _ _ Sp) as [X|X].
      - destruct ws; [vm_compute; reflexivity|discriminate].
      - rewrite subs_size_concat in X. assert (4 * len ws <= subs_size ws); [|lia].
        clear. induction ws as [|w l IH]; [cbn; lia|]. cbn [subs_size]. rewrite len_cons. pose proof (len_nonneg (encode (w_tag w))). lia. }
    rewrite multi_request_wire by (rewrite multi_body_len, subs_size_concat, len_map; rewrite request_size_eq in Rq; lia).
    pose proof (H s (multi_request otid q (map read_service ws))) as Hs.
    destruct (ctl s (multi_request otid q (map read_service ws))) as [[[x p]|e| |] s1] eqn:Ec; cbn [fst] in *; try exact I; [|contradiction].
    destruct (x =? 0) eqn:Ex; cbn [negb fst]; [|exact I]. assert (x = 0) by lia. subst x.
    rewrite combine_map. destruct (parse_multi_reply p _) as [vs| | |] eqn:P; try exact I.
    + apply multi_reply_length in P. now rewrite map_length in P.
    + exists s, q, ws, p. split; [exists [], []; now rewrite app_nil_r|]. split; [exact Ec|].
      now apply (multi_reply_panic ex).
Qed.
Lemma count_fit_ok ws : Forall (fun w => named ops (w_tag w)) ws -> count_fit (cl_run ops) cs (map (desc ex) ws) <> Panic.
Proof.
  destruct ws as [|w ws]; intro F; [discriminate|].
  destruct (count_fit_spec ops ex cs (w :: ws) F) as (m & E & _); [discriminate|]. rewrite E. discriminate.
Qed.
Lemma read_batches_end fuel : forall ws s q, Forall (fun w => named ops (w_tag w)) ws -> Forall (fun w => 0 <= w_elems w) ws ->
  sound_end ws (read_batches fuel ctl (cl_run ops) s otid q cs (map (desc ex) ws)).
Proof.
  induction fuel as [|fuel IH]; intros ws s q F Fe; [destruct ws; [cbn; lia|exact I]|].
  destruct ws as [|w0 ws0]; [cbn; lia|]. set (ws := w0 :: ws0) in *.
  unfold ws. cbn [map read_batches]. change (desc ex w0 :: map (desc ex) ws0) with (map (desc ex) ws). fold ws.
  pose proof (count_fit_ok ws F) as Cp. destruct (count_fit (cl_run ops) cs (map (desc ex) ws)) as [m| | |]; try exact I; [|congruence].
  rewrite firstn_map, skipn_map.
  pose proof (read_list_end fuel (firstn m ws) s (q + 1) (Forall_firstn' _ _ _ F) (Forall_firstn' _ _ _ Fe)) as I0.
  destruct (read_list fuel ctl (cl_run ops) s otid (q + 1) cs (map (desc ex) (firstn m ws))) as [[r0 s1] q1] eqn:E0.
  destruct r0 as [r0|e| |]; try exact I; [|now apply (fatal_firstn m)].
  pose proof (IH (skipn m ws) s1 q1 (Forall_skipn' _ _ _ F) (Forall_skipn' _ _ _ Fe)) as I1.
  destruct (read_batches fuel ctl (cl_run ops) s1 otid q1 cs (map (desc ex) (skipn m ws))) as [[r1 s2] q2] eqn:E1.
  destruct r1 as [r1|e| |]; try exact I; [|now apply (fatal_skipn m)].
  cbn [sound_end] in *. rewrite app_length. rewrite <- (firstn_skipn m ws), app_length. lia.
Qed.
End lists.

(** C55, batched reads: nothing but such an entry brings the client down. *)
Theorem C55_list_only_bad_entry_crashes : forall S (ctl : controller S) ops ex otid cs ws fuel s q s' q',
  honest ctl -> cs <= 40000 -> Forall (fun w => named ops (w_tag w) /\ 0 <= w_elems w) ws ->
  read_batches fuel ctl (cl_run ops) s otid q cs (map (desc ex) ws) = (Panic, s', q') ->
  fatal_reply ctl otid ws s'.
Proof.
  intros S ctl ops ex otid cs ws fuel s q s' q' Hh Hc F E.
  assert (F1 : Forall (fun w => named ops (w_tag w)) ws) by (eapply Forall_impl; [|exact F]; now intros ? []).
  assert (F2 : Forall (fun w => 0 <= w_elems w) ws) by (eapply Forall_impl; [|exact F]; now intros ? []).
  pose proof (read_batches_end ops ex ctl otid cs Hh Hc fuel ws s q F1 F2) as X. now rewrite E in X.
Qed.
Print Assumptions C55_list_only_bad_entry_crashes.
Theorem C55_map_only_bad_entry_crashes : forall S (ctl : controller S) ops ex otid cs ws fuel s q s' q',
  honest ctl -> cs <= 40000 -> Forall (fun w => named ops (w_tag w) /\ 0 <= w_elems w) ws ->
  read_map fuel ctl (cl_run ops) s otid q cs (map (desc ex) ws) = (Panic, s', q') ->
  fatal_reply ctl otid ws s'.
Proof.
  intros S ctl ops ex otid cs ws fuel s q s' q' Hh Hc F E.
  assert (F1 : Forall (fun w => named ops (w_tag w)) ws) by (eapply Forall_impl; [|exact F]; now intros ? []).
  assert (F2 : Forall (fun w => 0 <= w_elems w) ws) by (eapply Forall_impl; [|exact F]; now intros ? []).
  pose proof (read_batches_end ops ex ctl otid cs Hh Hc fuel ws s q F1 F2) as X. unfold read_map in E.
  destruct (read_batches _ _ _ _ _ _ _ _) as [[r s1] q1]. destruct r as [vs| | |]; try (injection E as ? ? ?; discriminate).
  - cbn [sound_end] in X. rewrite map_length in E. destruct (Nat.ltb_spec (length ws) (length vs)); [lia|]. discriminate.
  - injection E as <- <-. exact X.
Qed.
Print Assumptions C55_map_only_bad_entry_crashes.
Lemma check_bytes p : forallb (fun x => (0 <=? x) && (x <? 256)) p = true -> bytes_ok p.
Proof. rewrite forallb_forall. intro H. apply Forall_forall. intros x I. specialize (H x I). unfold byte_ok. lia. Qed.
Lemma plain_honest p : bytes_ok p -> honest (fun (s : unit) _ => (Ok (0, p), s)).
Proof. intros B s req. exact B. Qed.
(** An offset past the end and a reply too many, both as specified. *)
Example ex_C55_list :
  let far := zeros 6 ++ wire_list [(0xA1, [1; 2; 3; 4]); (0xB1, [1; 0; 0x8A; 0; 0; 0; 1; 0; 255; 0])] in
  let two := Prop_Batch.plain_multi [Prop_Batch.r_speed; Prop_Batch.r_speed] in
  honest (fun (s : unit) _ => (Ok (0, far), s)) /\ bad_entry [Prop_Batch.w_speed] far /\
  honest (fun (s : unit) _ => (Ok (0, two), s)) /\ bad_entry [Prop_Batch.w_speed] two /\
  fst (fst (read_batches 3 (fun (s : unit) _ => (Ok (0, two), s)) (cl_run []) tt 7 1 500 (map (desc (fun _ => SNil)) [Prop_Batch.w_speed]))) = Panic.
Proof.
  cbv zeta. split; [apply plain_honest, check_bytes; vm_compute; reflexivity|]. split.
  { exists 0xB1, [1; 0; 0x8A; 0; 0; 0; 1; 0; 255; 0], 0%nat. split; [exists (zeros 6), (0xA1, [1; 2; 3; 4]), []; split; [reflexivity|now rewrite app_nil_r]|].
    split; [reflexivity|]. split; [reflexivity|]. left. vm_compute. reflexivity. }
  split; [apply plain_honest, check_bytes; vm_compute; reflexivity|]. split; [|vm_compute; reflexivity].
  eexists 0xB1, _, 1%nat. split; [exists (zeros 6); eexists _, []; split; [reflexivity|rewrite app_nil_r; reflexivity]|].
  split; [reflexivity|]. split; [reflexivity|]. right. left. apply le_n.
Qed.

(** ** Single reads *)
Lemma fragmented_no_panic {S} (ctl : controller S) : honest ctl -> forall fuel s otid q path e acc,
  fst (fst (read_fragmented fuel ctl s otid q path e acc)) <> Panic.
Proof.
  intro H. induction fuel as [|fuel IH]; intros s otid q path e acc; [discriminate|]. cbn [read_fragmented].
  specialize (H s (path_request otid q svc_fragread path (le 2 e ++ le 4 (len acc)))).
  destruct (ctl s _) as [[[x p]| | |] s1]; cbn [fst] in *; try discriminate; [|contradiction].
  destruct (parse_read_hdr_safe p) as [P _]. destruct (parse_read_hdr p) as [h| | |]; cbn [fst]; try discriminate; [|congruence].
  destruct (rh_status h =? 0); [discriminate|]. destruct (rh_status h =? st_partial); [apply IH|discriminate].
Qed.
Theorem C55_single_only_long_string_crashes : forall S (ctl : controller S) ops tg dtype e fuel s otid q,
  honest ctl -> named ops tg ->
  fst (fst (read_single fuel ctl (cl_run ops) s otid q (text tg) dtype e)) = Panic ->
  dtype = 0xFF /\ e <> 1 /\ exists x p s1 d, ctl s (read_request otid q (encode tg) e) = (Ok (x, p), s1) /\
    answer p 0 0xA0 d /\ long_string (Z.to_nat e) d.
Proof.
  intros S ctl ops tg dtype e fuel s otid q H (V & K & L) E. unfold read_single in E. rewrite (C01_lemma ops tg dtype V K) in E.
  unfold read_single_ioi in E. cbn [ioi_buf] in E. rewrite read_req_wire in E by exact L.
  pose proof (H s (read_request otid q (encode tg) e)) as Hs.
  destruct (ctl s (read_request otid q (encode tg) e)) as [[[x p]| | |] s1] eqn:Ec; cbn [fst] in *; try discriminate; [|contradiction].
  destruct (parse_read_hdr_safe p) as [P _]. destruct (parse_read_hdr p) as [h| | |] eqn:Ph; cbn [fst] in E; try discriminate; [|congruence].
  pose proof (parse_answer_inv p h Hs Ph) as A.
  destruct (rh_status h =? st_partial) eqn:Sp.
  - destruct (rh_type h =? T_struct) eqn:T; [discriminate|].
    pose proof (fragmented_no_panic ctl H fuel s1 otid (q + 1) (encode tg) e (rh_data h)) as Fp.
    destruct (read_fragmented _ _ _ _ _ _ _ _) as [[[m| | |] s2] q2]; cbn [fst] in *; try discriminate; [|congruence].
    exfalso. revert E. apply decode_read_safe. left. unfold T_struct in T. lia.
  - destruct (rh_status h =? 0) eqn:S0; cbn [negb fst] in E; [|discriminate].
    assert (rh_type h = 0xA0 /\ dtype = 0xFF /\ e <> 1) as (Ht & Hd & He).
    { destruct (Z.eq_dec (rh_type h) 0xA0); [|exfalso; revert E; apply decode_read_safe; tauto].
      destruct (Z.eq_dec dtype 0xFF); [|exfalso; revert E; apply decode_read_safe; tauto].
      destruct (Z.eq_dec e 1); [exfalso; revert E; apply decode_read_safe; tauto|]. auto. }
    split; [exact Hd|]. split; [exact He|]. exists x, p, s1, (rh_data h). split; [reflexivity|].
    assert (rh_status h = 0) as S0' by lia. rewrite S0', Ht in A. split; [exact A|].
    unfold decode_read in E. rewrite Ht, Hd in E. change (0xA0 =? T_struct) with true in E. change (0xFF =? T_string) with true in E.
    destruct (e =? 1) eqn:E1; [lia|]. apply string_elems_panic.
    destruct (read_string_elems _ _) as [[? ?]| | |]; cbn [bind] in E; try discriminate. reflexivity.
Qed.
Print Assumptions C55_single_only_long_string_crashes.
(** And such a reply does: two strings, the second announcing 83 characters. *)
Theorem C55_single_refuted : exists p, honest (fun (s : unit) _ => (Ok (0, p), s)) /\
  fst (fst (read_single 3 (fun (s : unit) _ => (Ok (0, p), s)) (cl_run []) tt 7 1 (str "Label") 0xFF 2)) = Panic.
Proof.
  exists (plain_answer 1 0 0xA0 ([0xCE; 0x0F] ++ le 4 2 ++ [104; 105] ++ zeros 80 ++ [0xCE; 0x0F] ++ le 4 83 ++ zeros 82)).
  split; [apply plain_honest, check_bytes|]; vm_compute; reflexivity.
Qed.
Print Assumptions C55_single_refuted.
Example ex_C55_single : named [] (Prop_Batch.tag1 (str "Label")) /\
  long_string 2 ([0xCE; 0x0F] ++ le 4 2 ++ [104; 105] ++ zeros 80 ++ [0xCE; 0x0F] ++ le 4 83 ++ zeros 82).
Proof.
  split; [exact Prop_Batch.w_label_named|].
  apply (long_later 1 ([0xCE; 0x0F] ++ le 4 2 ++ [104; 105] ++ zeros 80) ([0xCE; 0x0F] ++ le 4 83 ++ zeros 82)); [reflexivity|].
  apply (long_here 0 [0xCE; 0x0F] (le 4 83) (zeros 82) []); reflexivity.
Qed.

(** ** Attribute reads and generic messages *)
Lemma second_item_panic strict p : bytes_ok p -> second_item strict p = Panic -> few_items p.
Proof.
  unfold second_item. intros B E. destruct (rd 6 p) as [[pre r]| | |] eqn:R; cbn [bind] in E.
  - apply rd_ok_inv in R as [-> L]. apply bytes_ok_app in B as [_ B].
    destruct (read_items_safe r) as [P _]. destruct (read_items r) as [[its rest]| | |] eqn:I; cbn [bind] in E; try discriminate; [|congruence].
    apply read_items_sound in I; [|exact B]. destruct I as [-> F]. exists pre, (contents its), rest. split; [exact L|]. split; [|reflexivity].
    destruct its as [|i0 [|i1 its]]; [vm_compute; reflexivity|unfold contents, len; cbn; lia|discriminate].
  - destruct strict; discriminate.
  - now apply rd_no_panic in R.
  - discriminate.
Qed.

Lemma item_des_moves n it : 0 <= it_pos it -> fst (item_des n it) <> Panic /\ 0 <= it_pos (snd (item_des n it)).
Proof.
  intro P. unfold item_des. destruct n as [|n]; [split; [discriminate|exact P]|].
  destruct (len (it_data it) <=? it_pos it) eqn:E; [split; [discriminate|exact P]|]. unfold slice_from.
  destruct ((0 <=? it_pos it) && (it_pos it <=? len (it_data it))) eqn:C; [|lia].
  pose proof (len_nonneg (it_data it)).
  destruct (S n <=? _)%nat; cbn [fst snd item_at it_pos]; (split; [discriminate|lia]).
Qed.
Lemma item_int_moves n it : 0 <= it_pos it -> fst (item_int n it) <> Panic /\ 0 <= it_pos (snd (item_int n it)).
Proof.
  intro P. unfold item_int, item_uint.
  destruct (len (it_data it) <=? it_pos it + (Z.of_nat n - 1)) eqn:E; [split; [discriminate|exact P]|]. unfold slice_from.
  destruct ((0 <=? it_pos it) && (it_pos it <=? len (it_data it))) eqn:C.
  - cbn [fst snd item_at it_pos]. split; [discriminate|lia].
  - destruct n as [|n]; [|lia]. exfalso. pose proof (len_nonneg (it_data it)). lia.
Qed.
Lemma ask_panic {S} strict (ctl : controller S) s req k : honest ctl -> (forall it, 0 <= it_pos it -> k it <> Panic) ->
  forall s', ask strict ctl s req k = (Panic, s') -> exists st p, ctl s req = (Ok (st, p), s') /\ few_items p.
Proof.
  intros H K s'. unfold ask. specialize (H s req). destruct (ctl s req) as [[[x p]| | |] s1] eqn:E; cbn [fst] in *; try discriminate; [|contradiction].
  intro Y. assert (X : bind (second_item strict p) k = Panic) by congruence. assert (s1 = s') as <- by congruence. clear Y.
  exists x, p. split; [reflexivity|]. apply (second_item_panic strict); [exact H|].
  destruct (second_item strict p) as [it| | |] eqn:Si; cbn [bind] in X; try discriminate; [|reflexivity].
  exfalso. apply (K it); [|exact X]. unfold second_item in Si.
  assert (B : forall r its rest, bytes_ok r -> read_items r = Ok (its, rest) -> Forall (fun i => it_pos i = 0) its).
  { intros r its rest Br Er. pose proof (C11_lemma r Br) as C. rewrite Er in C. destruct C as [_ F]. eapply Forall_impl; [|exact F]. now intros ? []. }
  assert (Br : bytes_ok match rd 6 p with Ok (_, r) => r | _ => [] end).
  { destruct (rd 6 p) as [[? r]| | |] eqn:R; try constructor. apply rd_ok_inv in R as [-> _]. now apply bytes_ok_app in H as [_ H]. }
  destruct (rd 6 p) as [[? r]| | |]; cbn [bind] in Si; try discriminate.
  - destruct (read_items r) as [[its rest]| | |] eqn:Er; cbn [bind] in Si; try discriminate. specialize (B _ _ _ Br Er).
    destruct its as [|? [|i1 ?]]; try discriminate. injection Si as ->. inversion B as [|? ? _ B1]; subst. inversion B1; subst. lia.
  - destruct strict; cbn [bind] in Si; discriminate.
Qed.
(** C55, attribute requests: nothing but a reply of fewer than two items. *)
Theorem C55_attr_only_short_crashes : forall S (ctl : controller S) s otid q s1 q1,
  honest ctl ->
  (forall class inst attr, get_attr_single ctl s otid q class inst attr = (Panic, s1, q1) ->
     exists req st p, ctl s req = (Ok (st, p), s1) /\ few_items p) /\
  (forall class inst attrs, get_attr_list ctl s otid q class inst attrs = (Panic, s1, q1) ->
     exists req st p, ctl s req = (Ok (st, p), s1) /\ few_items p) /\
  (forall service path data, generic ctl s otid q service path data = (Panic, s1, q1) ->
     exists req st p, ctl s req = (Ok (st, p), s1) /\ few_items p).
Proof.
  intros S ctl s otid q s1 q1 H. split; [|split]; intros a b c E.
  - unfold get_attr_single in E. match type of E with (?X, _) = _ => assert (E' : X = (Panic, s1)) by congruence end. apply ask_panic in E'; [|exact H|].
    + destruct E' as (st & p & X). now exists (single_request otid q a b c), st, p.
    + intros it P. destruct (item_des_moves 6 it P) as [M _]. destruct (item_des 6 it) as [[? | | |] ?]; cbn [fst] in M; congruence.
  - unfold get_attr_list in E. match type of E with (?X, _) = _ => assert (E' : X = (Panic, s1)) by congruence end. apply ask_panic in E'; [|exact H|].
    + destruct E' as (st & p & X). eexists _, st, p. exact X.
    + intros it P. destruct (item_des_moves 6 it P) as [M N]. destruct (item_des 6 it) as [[h | | |] i1]; cbn [fst snd] in *; try congruence.
      destruct (negb _); [discriminate|]. destruct (item_int_moves 2 i1 N) as [M1 _]. destruct (item_int 2 i1) as [[? | | |] ?]; cbn [fst] in M1; congruence.
  - unfold generic in E. match type of E with (?X, _) = _ => assert (E' : X = (Panic, s1)) by congruence end. apply ask_panic in E'; [|exact H|].
    + destruct E' as (st & p & X). eexists _, st, p. exact X.
    + intros it P. destruct (item_int_moves 2 it P) as [M0 N0]. destruct (item_int 2 it) as [r0 i0]; cbn [fst snd] in *.
      destruct r0; cbn [bind]; try congruence. destruct (item_int_moves 2 i0 N0) as [M1 N1]. destruct (item_int 2 i0) as [r1 i1]; cbn [fst snd] in *.
      destruct r1; cbn [bind]; try congruence. destruct (negb _); [discriminate|].
      destruct (item_int_moves 2 i1 N1) as [M2 _]. destruct (item_int 2 i1) as [r2 i2]; cbn [fst snd] in *.
      destruct r2; cbn [bind]; try congruence. destruct (negb _); discriminate.
Qed.
Print Assumptions C55_attr_only_short_crashes.
Example ex_C55_attr : honest (Prop_Attr.answers (zeros 8)) /\ few_items (zeros 8) /\
  fst (fst (get_attr_single (Prop_Attr.answers (zeros 8)) tt 7 1 1 1 4)) = Panic.
Proof.
  split; [intros s req; apply check_bytes; reflexivity|]. split; [|vm_compute; reflexivity].
  exists (zeros 6), [], []. split; [reflexivity|]. split; reflexivity.
Qed.

(** ** Reading into a struct *)

(** C56.  ReadMulti into a struct with distinct tags comes down only with such a
    reply, or when what was read for the fields is not a value for each that the
    field accepts: fewer values than fields, or one of another type. *)
Theorem C56_only_mismatch_crashes_partial : forall S (ctl : controller S) ops otid cs (struct : list (field * option tag)) fuel s q s' q',
  let fs := map fst struct in
  let ws := flat_map (fun fo => match snd fo with Some tg => [Prop_Batch.field_wish (fst fo) tg] | None => [] end) struct in
  let fields := flat_map (fun fo => match snd fo with Some tg => [fst fo] | None => [] end) struct in
  honest ctl -> cs <= 40000 ->
  Forall (fun fo => f_tag (fst fo) = option_map text (snd fo) /\ Prop_Batch.go_ftype (f_type (fst fo))) struct ->
  NoDup (map (fun w => text (w_tag w)) ws) -> Forall (fun w => named ops (w_tag w)) ws ->
  read_multi fuel ctl (cl_run ops) s otid q cs fs = (Panic, s', q') ->
  fatal_reply ctl otid ws s' \/
  exists vs, read_list fuel ctl (cl_run ops) s otid q cs (map (desc Prop_Batch.ex_of) ws) = (Ok vs, s', q') /\
    (length vs <= length fields)%nat /\ ~ Forall2 accepts fields vs.
Proof.
  intros S ctl ops otid cs struct fuel s q s' q' fs ws fields Hh Hc T ND Fw E.
  assert (Wt : forall f tg, w_tag (Prop_Batch.field_wish f tg) = tg /\ 0 <= w_elems (Prop_Batch.field_wish f tg)).
  { intros f tg. unfold Prop_Batch.field_wish. destruct (f_type f) as [k|k| |n]; try (split; cbn; reflexivity || lia).
    destruct k, (f_val f); (split; [reflexivity|]); cbn [w_elems]; try lia; apply len_nonneg. }
  assert (Tg : forall i, map (fun x => field_desc (snd x) (fst (fst x))) (tagged fs i) = map (desc Prop_Batch.ex_of) ws /\
                         tags_of (tagged fs i) = map (fun w => text (w_tag w)) ws /\ map snd (tagged fs i) = fields /\ length fields = length ws).
  { subst fs ws fields. clear E ND. induction struct as [|[f [tg|]] struct IH]; intro i; [now repeat split| |]; inversion T as [|? ? [Tf Gf] T']; subst; cbn [map flat_map fst snd option_map] in *.
    - apply Forall_app in Fw as [Fw1 Fw2]. inversion Fw1 as [|? ? Nm _]; subst. rewrite (proj1 (Wt f tg)) in Nm.
      cbn [tagged]. rewrite Tf. assert (length (text tg) =? 0 = false)%nat as ->.
      { apply Nat.eqb_neq. intro X. apply length_zero_iff_nil in X. revert X. apply Prop_Batch.text_nonempty. apply Nm. }
      destruct (IH T' Fw2 (Datatypes.S i)) as (A & B & C & D). cbn [map fst snd tags_of app]. split; [|split; [|split]].
      + rewrite A. f_equal. now apply Prop_Batch.field_desc_wish.
      + fold (tags_of (tagged (map fst struct) (Datatypes.S i))). rewrite B, (proj1 (Wt f tg)). reflexivity.
      + now rewrite C.
      + cbn [length]. now rewrite D.
    - cbn [tagged]. rewrite Tf. exact (IH T' Fw (Datatypes.S i)). }
  destruct (Tg 0%nat) as (A & B & C & D). unfold read_multi in E. rewrite A in E.
  assert (Fe : Forall (fun w => 0 <= w_elems w) ws).
  { subst ws. apply Forall_forall. intros w I. apply in_flat_map in I as ([f [tg|]] & _ & I); [|destruct I]. destruct I as [<-|[]]. apply Wt. }
  pose proof (read_list_end ops Prop_Batch.ex_of ctl otid cs Hh Hc fuel ws s q Fw Fe) as X.
  destruct (read_list _ _ _ _ _ _ _ _) as [[r s1] q1]. destruct r as [vs| | |]; cbn [bind] in E; try (injection E as ? ? ?; discriminate).
  - right. exists vs. assert (U : unpack_results (tagged fs 0) (map (fun x => fst (fst x)) (tagged fs 0)) vs fs = Panic) by congruence.
    assert (s1 = s' /\ q1 = q') as [-> ->] by (split; congruence). split; [reflexivity|]. cbn [sound_end] in X. split; [lia|]. intro F2.
    rewrite <- B in ND. rewrite <- C in F2.
    assert (F2' : Forall2 (fun x v => accepts (snd x) v) (tagged fs 0) vs).
    { clear - F2. revert vs F2. induction (tagged fs 0) as [|x l IH]; intros vs F2; inversion F2; subst; constructor; auto. }
    pose proof (unpack_filled fs [] [] vs (tagged fs 0) eq_refl eq_refl ND F2') as Y. cbn [app length] in Y.
    unfold tags_of in Y. rewrite Y in U. discriminate.
  - left. assert (s1 = s') as <- by congruence. exact X.
Qed.
Print Assumptions C56_only_mismatch_crashes_partial.
Example ex_C56 : 
  let struct := [(Prop_Batch.f_speed, Some (Prop_Batch.tag1 (str "Speed"))); (Prop_Batch.f_note, None); (Prop_Batch.f_label, Some (Prop_Batch.tag1 (str "Label")))] in
  Forall (fun fo => f_tag (fst fo) = option_map text (snd fo) /\ Prop_Batch.go_ftype (f_type (fst fo))) struct /\
  fst (fst (read_multi 3 (fun s _ => (Ok (0, Prop_Batch.plain_multi [Prop_Batch.r_speed]), s)) (cl_run []) tt 7 1 500 (map fst struct))) = Panic /\
  ~ Forall2 accepts [Prop_Batch.f_speed; Prop_Batch.f_label] [GInt true 4 77].
Proof.
  cbv zeta. split; [constructor; [split; [reflexivity|cbn; tauto]|constructor; [split; [reflexivity|cbn; tauto]|constructor; [split; [reflexivity|exact I]|constructor]]]|].
  split; [vm_compute; reflexivity|]. intro F. inversion F as [|? ? ? ? _ F1]; subst. inversion F1.
Qed.
