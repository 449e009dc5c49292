(** * Batched reads of the built-in server's tags: lemmas *)
From Verif Require Import GoBase IoiModel IoiSpec IoiProof ItemsModel TypesModel ItemsSpec ItemsProof ReadModel ReadSpec ReadProof Prop_Read WriteModel WriteSpec
  WriteProof BatchModel BatchSpec BatchProof EipModel EipSpec OpenModel TableModel SrvValModel SrvValSpec SrvValProof ProvModel ProvSpec ProvProof Prop_SrvVal SrvModel SrvSpec
  SrvProof Prop_Srv ReqSpec LinkModel ReqProof Prop_Req ManySpec.

Definition part_of (w : wish) : part := PRead 0x4C (w_tag w) (w_elems w) [].
Lemma part_of_bytes w : part_bytes (part_of w) = read_service w.
Proof. unfold part_of, part_bytes, read_service. now rewrite app_nil_r. Qed.
Lemma parts_of_bytes l : map part_bytes (map part_of l) = map read_service l.
Proof. rewrite map_map. apply map_ext. exact part_of_bytes. Qed.

(** What a served wish's sub-reply is. *)
Lemma served_wire m w g : t_bit (w_tag w) = None -> served m w g -> exists v d r x,
  ProvSpec.reads m (text (w_tag w)) (w_elems w) v /\ wire_view v d /\
  [0xCC; 0; 0; 0] ++ d = sub_reply 0xCC 0 x r /\ s_status r = 0 /\ yields w (s_type r) (s_data r) g /\
  len ([0xCC; 0; 0; 0] ++ d) <= reply_room w /\ clear_count (w_elems w).
Proof.
  assert (Cc : clear_count 1) by (unfold clear_count; rewrite Z.mod_small by lia; lia).
  intros B [k g0 E1 Sc Ts R | k code l E1 L2 Cl Nc Nb Fn Fr Ts R].
  - destruct Sc as [(code & Nc & Nm & Rp)|(s & -> & Ls & ->)].
    + destruct (number_encodes k g0 code Nc Nm Rp) as (En & C9 & _).
      assert (Nk : w_type w <> 0xFF).
      { intro T. apply Ts in T. subst k. discriminate. }
      exists (VOne g0), ([code; 0] ++ number_data g0), (Sub 0 code (number_data g0)), 0.
      split; [now rewrite E1|]. split; [now apply (wv_number k)|]. split; [reflexivity|]. split; [reflexivity|].
      split; [|split; [|now rewrite E1]].
      * cbn [s_type s_data]. rewrite <- (app_nil_r (number_data g0)). apply y_scalar; auto.
      * unfold reply_room. destruct (Z.eqb_spec (w_type w) 0xFF); [contradiction|]. apply encodes_length in En.
        rewrite !len_app, !len_cons. change (len (@nil Z)) with 0. unfold len. lia.
    + assert (Es : firstn 82 s = s) by (apply firstn_all2; unfold len in Ls; lia).
      assert (Ty : w_type w = 0xFF) by now apply Ts.
      exists (VOne (GStr s)), ([0xA0; 0x02; 0xCE; 0x0F] ++ le 4 (Z.min (len s) 82) ++ firstn 82 s ++ zeros (84 - length (firstn 82 s))),
        (Sub 0 0xA0 ([0xCE; 0x0F] ++ le 4 (len s) ++ s ++ zeros (84 - length s))), 0x02.
      split; [now rewrite E1|]. split; [apply wv_string|]. split; [|split; [reflexivity|split; [|split; [|now rewrite E1]]]].
      * unfold sub_reply. cbn [s_status s_type s_data]. rewrite Es. rewrite Z.min_l by lia. reflexivity.
      * cbn [s_type s_data]. rewrite <- (app_nil_r (le 4 (len s) ++ s ++ zeros (84 - length s))).
        apply y_string; [exact E1|exact Ty| |reflexivity].
        exists (zeros (82 - length s)), [0; 0]. split; [exact Ls|]. unfold len in Ls. split; [rewrite app_length; unfold zeros; rewrite repeat_length; lia|].
        split; [reflexivity|]. do 2 f_equal. change [0; 0] with (zeros 2). unfold zeros. rewrite <- repeat_app. f_equal. lia.
      * unfold reply_room. rewrite Ty. cbn [Z.eqb Pos.eqb]. rewrite !len_app, !len_cons, le_len, Es. unfold zeros, len in *.
        rewrite repeat_length. cbn [length]. lia.
  - assert (En : encodes_all code l (concat (map number_data l)) /\ code <> 0xC9 /\ len (concat (map number_data l)) <= 8 * len l).
    { assert (C9 : code <> 0xC9).
      { destruct l as [|x l]; [cbn in L2; lia|]. inversion Fn; inversion Fr; subst. now destruct (number_encodes k x code Nc) as (_ & C & _). }
      split; [|split; [exact C9|]].
      - clear -Nc Fn Fr. induction l as [|x l IH]; [constructor|]. inversion Fn; inversion Fr; subst. cbn [map concat].
        constructor; [now apply (number_encodes k)|auto].
      - clear -Nc Fn Fr. induction l as [|x l IH]; [cbn; lia|]. inversion Fn; inversion Fr; subst. cbn [map concat].
        rewrite len_app, len_cons. destruct (number_encodes k x code Nc) as (E & _); try assumption. apply encodes_length in E.
        specialize (IH ltac:(assumption) ltac:(assumption)). unfold len in *. lia. }
    destruct En as (En & C9 & Ln).
    exists (VMany (EK k) (map VOne l)), ([code; 0] ++ concat (map number_data l)), (Sub 0 code (concat (map number_data l))), 0.
    split; [now rewrite E1|]. split; [now apply wv_numbers|]. split; [reflexivity|]. split; [reflexivity|].
    split; [|split; [|now rewrite E1]].
    + cbn [s_type s_data]. rewrite <- (app_nil_r (concat (map number_data l))). now apply y_array.
    + unfold reply_room. destruct (Z.eqb_spec (w_type w) 0xFF); [contradiction|]. rewrite !len_app, !len_cons, E1.
      change (len (@nil Z)) with 0. lia.
Qed.

Lemma served_all m0 : forall l m rs m', Forall (fun w => t_bit (w_tag w) = None) l ->
  forall value, Forall (fun w => served m0 w (value w)) l ->
  (forall k, m k = m0 k) -> performs_all m (map part_of l) rs m' ->
  (forall k, m' k = m0 k) /\ 2 * len rs + len (concat rs) <= replies_room l /\
  exists subs, Forall2 (fun w r => s_status r = 0 /\ yields w (s_type r) (s_data r) (value w)) l subs /\
    Forall2 (fun b r => s_status r = 0 /\ exists x, b = sub_reply 0xCC 0 x r) rs subs.
Proof.
  induction l as [|w l IH]; intros m rs m' Fb value Fs Em P.
  - inversion P; subst. split; [exact Em|]. split; [cbn; lia|]. exists []. split; constructor.
  - cbn [map] in P. inversion P as [|? ? r m1 ? rs1 ? P1 P2]; subst. inversion Fb; subst. inversion Fs; subst.
    inversion P1 as [? ? ? ? v body ? R Hw Hm|]; subst.
    destruct (served_wire m0 w (value w)) as (v' & d & r & x & Rv & Wv & Er & Sr & Yr & Lr & _); try assumption.
    assert (v' = v) as -> by (apply (reads_fun m (text (w_tag w)) (w_elems w)); [|exact R]; eapply reads_ext; [|exact Rv]; exact Em).
    specialize (Hw d Wv). subst body.
    destruct (IH m1 rs1 m') with (value := value) as (Em' & Lrs & subs & F1 & F2); try assumption.
    { intro k. now rewrite Hm. }
    split; [exact Em'|]. split.
    { cbn [concat replies_room]. rewrite len_cons, len_app. change (0x4C + 0x80) with 0xCC. lia. }
    exists (r :: subs). split; constructor; auto. split; [exact Sr|]. exists x. exact Er.
Qed.

Lemma request_body q l : len (multi_body q (map read_service l)) = request_size l.
Proof.
  rewrite multi_body_len. unfold request_size. unfold len at 1. rewrite map_length. fold (len l).
  induction l as [|w l IH]; [reflexivity|]. cbn [map concat fold_right]. rewrite len_cons, len_app.
  unfold read_service at 1. rewrite !len_app, le_len, !len_cons. change (len (@nil Z)) with 0. lia.
Qed.

(** The built-in server answers such requests. *)
Lemma link_gives session context otid i srv bound ws value :
  Forall (fun w => addressed (w_tag w) /\ len (encode (w_tag w)) < 512 /\ served (shows (prov_at srv i)) w (value w)) ws ->
  bound < 2 ^ 15 ->
  (forall a l b, ws = a ++ l ++ b -> request_size l <= bound \/ length l = 1%nat -> replies_room l < 64000) ->
  gives_in (fun sh => linked session context otid i sh /\ others_same i srv (fst sh) /\ forall k, behind i sh k = shows (prov_at srv i) k)
    (link session context) otid bound ws value.
Proof.
  intros F Hb Rm sh q a l b (L & Os & Bh) Ea Ne Sz.
  pose proof L as (Hs & Hc & Ho & Hh & (to & Ld) & S).
  assert (Fl : Forall (fun w => addressed (w_tag w) /\ len (encode (w_tag w)) < 512 /\ served (shows (prov_at srv i)) w (value w)) l).
  { rewrite Ea in F. apply Forall_app in F as [_ F]. now apply Forall_app in F as [F _]. }
  assert (Fb : Forall (fun w => t_bit (w_tag w) = None) l) by (eapply Forall_impl; [|exact Fl]; intros w ((_ & B & _) & _); exact B).
  assert (Fv : Forall (fun w => served (shows (prov_at srv i)) w (value w)) l) by (eapply Forall_impl; [|exact Fl]; intros w H; apply H).
  assert (Fp : Forall part_ok (map part_of l)).
  { apply Forall_forall. intros x I. apply in_map_iff in I as (w & <- & I). rewrite Forall_forall in Fl. destruct (Fl w I) as (Ad & _ & Sv).
    split; [now left|]. split; [exact Ad|].
    destruct (served_wire _ w (value w) (proj1 (proj2 Ad)) Sv) as (? & ? & ? & ? & _ & _ & _ & _ & _ & _ & C). exact C. }
  assert (Lb : request_size l < 2 ^ 15).
  { destruct Sz as [Sz|Sz]; [lia|]. destruct l as [|w [|]]; try discriminate. inversion Fl as [|? ? (_ & H & _) _]; subst.
    unfold request_size. cbn [fold_right]. lia. }
  specialize (Rm a l b Ea Sz).
  unfold multi_request. rewrite link_run; [|exact Hs|exact Hc| |].
  - change (multi_body q (map read_service l)) with (le 2 q ++ [0x0A; 2] ++ (skipn 4 (multi_body q (map read_service l)))) at 1.
    rewrite unit_pair by lia. cbv zeta.
    change (0x0A =? svc_write) with false. change ((0x0A =? svc_fragread) || (0x0A =? svc_read)) with false.
    change (0x0A =? svc_multi) with true. cbv iota.
    change (le 2 q ++ [0x0A; 2] ++ (skipn 4 (multi_body q (map read_service l)))) with (multi_body q (map read_service l)).
    set (w0 := World _ _ _ _).
    assert (Eq : multi_body q (map read_service l) = multi_body (q mod 65536) (map read_service l)).
    { unfold multi_body. now rewrite <- le2_wrap. }
    rewrite Eq. rewrite <- parts_of_bytes.
    assert (Hq : 0 <= q mod 65536 < 2 ^ 16) by (change (2 ^ 16) with 65536; apply Z.mod_pos_bound; lia).
    pose proof (connected_multi_spec otid (q mod 65536) (map part_of l) to i w0 Ho Hq Ld S Fp) as K.
    rewrite parts_of_bytes, request_body in K. specialize (K Lb). rewrite parts_of_bytes.
    destruct (connected_multi _ _ w0) as [r w']. destruct r as [u|er| |]; try contradiction.
    + destruct K as (rs & w1 & P & S1 & O & E). pose proof O as (E1 & E2 & E3 & E4 & E5 & E6 & E7). destruct u. rewrite E. clear E.
      destruct (served_all (shows (prov_at srv i)) l _ rs _ Fb value Fv Bh P) as (Em & Lrs & subs & Y & Fr).
      destruct w1 as [s1 h1 i1 o1]. cbn [w_srv w_h w_in w_sent w0 receiving] in *. subst h1 i1 o1.
      assert (Lsz : 2 + 2 * len rs + len (concat rs) < 65000) by lia.
      rewrite recv_one; [|exact Hh|exact Hc|lia| |].
      * eexists _, _, subs. split; [reflexivity|]. split; [|split; [|exact Y]].
        { split; [|split; [|exact Em]].
          - split; [exact Hs|]. split; [exact Hc|]. split; [exact Ho|]. split; [exact Hh|]. split; [|exact S1].
            exists to. now apply (leads_same _ _ _ _ _ Ld).
          - destruct Os as (O1 & O2 & O3 & O4). cbn [fst]. split; [now rewrite E4|]. split; [now rewrite E5|]. split; [now rewrite E6|].
            intros j N. rewrite E7 by exact N. now apply O4. }
        destruct (reply_lists (q mod 65536) rs ltac:(lia)) as (offs & blob & Eb & _ & Lc).
        exists (zeros 6), (0xA1, le 4 to), 0xB1, (le 2 (q mod 65536)), 0x8A, 0, offs, blob, [].
        assert (Ln : len subs = len rs) by (apply Forall2_len in Fr; unfold len; lia).
        assert (Eb' : multi_reply_body (q mod 65536) rs =
          le 2 (q mod 65536) ++ [0x8A; 0] ++ le 2 0 ++ le 2 (len subs) ++ concat (map (le 2) offs) ++ blob) by (rewrite Eb, Ln; reflexivity).
        cbv zeta. rewrite <- Eb'. split; [reflexivity|]. split; [apply le_length|]. split; [|split].
        { apply fits_pair; [rewrite le_len; lia|]. rewrite multi_reply_len. lia. }
        { clear -Lc Fr. revert Lc. generalize (multi_reply_body (q mod 65536) rs). intros body Lc. revert subs Fr. induction Lc as [|o r offs rs Ho Lc IH]; intros subs Fr; inversion Fr as [|? ? ? ? (St & x & Ex)]; subst; constructor; auto.
          exists 0xCC, 0, x. split; [lia|]. split; [lia|exact Ho]. }
        { now rewrite app_nil_r. }
      * apply fits_pair; [rewrite le_len; lia|]. rewrite multi_reply_len. lia.
      * rewrite len_app, wire_pair_len, le_len, multi_reply_len. change (len (zeros 6)) with 6. lia.
    + exfalso. destruct K as (_ & done & x & left & rs & m & Ep & P & Im & _).
      apply map_eq_app in Ep as (l1 & l2 & -> & E1 & E2). destruct l2 as [|w l2]; [discriminate|]. cbn [map] in E2. injection E2 as <- E2.
      apply Forall_app in Fb as [Fb1 Fb2]. apply Forall_app in Fv as [Fv1 Fv2]. inversion Fb2; subst. inversion Fv2; subst.
      destruct (served_all _ l1 _ rs m Fb1 value Fv1 Bh P) as (Em & _).
      destruct (served_wire (shows (prov_at srv i)) w (value w)) as (v & d & ? & ? & R & Wv & _); try assumption.
      apply (Im v d). split; [|exact Wv]. eapply reads_ext; [|exact R]. exact Em.
  - apply fits_pair; [rewrite le_len; lia|]. rewrite request_body. lia.
  - rewrite len_app, wire_pair_len, le_len, request_body. change (len (zeros 6)) with 6. lia.
Qed.

(** ** WriteMap *)
Definition number_entry (e : entry) : Prop :=
  exists code, number_code (e_kind e) = Some code /\ is_number (e_kind e) (e_val e) /\ representable (e_val e).
Definition code_of (e : entry) : Z := match number_code (e_kind e) with Some c => c | None => 0 end.
Definition leaf_of (e : entry) : leaf_write := LeafWrite (e_tag e) [code_of e; 0] (number_data (e_val e)).
Definition part_of_entry (e : entry) : part := PWrite 0x4D (e_tag e) (e_kind e) (code_of e) [e_val e].
Lemma entry_bytes e : part_bytes (part_of_entry e) = leaf_service (leaf_of e).
Proof. unfold part_bytes, part_of_entry, leaf_service, write_service, leaf_of. cbn [lw_tag lw_type lw_data map concat]. now rewrite app_nil_r. Qed.
Lemma entries_bytes l : map part_bytes (map part_of_entry l) = map leaf_service (map leaf_of l).
Proof. rewrite !map_map. apply map_ext. exact entry_bytes. Qed.
Lemma leaf_len e : len (leaf_service (leaf_of e)) = 6 + len (encode (e_tag e)) + len (number_data (e_val e)).
Proof.
  unfold leaf_service, write_service, leaf_of. cbn [lw_tag lw_type lw_data]. rewrite !len_app, !len_cons, le_len. change (len (@nil Z)) with 0. lia.
Qed.
Lemma entries_body q l : len (multi_body q (map leaf_service (map leaf_of l))) = entries_size l.
Proof.
  rewrite multi_body_len. induction l as [|e l IH]; [reflexivity|]. cbn [map concat entries_size]. rewrite <- IH, len_cons, len_app, leaf_len. lia.
Qed.

Lemma stored_ext m0 m l m' : (forall k, m0 k = m k) -> stored_all m l m' -> stored_all m0 l m'.
Proof.
  intros E H. destruct H as [m m' H|m e m1 l m2 W H].
  - apply sa_nil. intro k. now rewrite H, E.
  - apply (sa_cons _ _ m1); [|exact H]. destruct W as [b i x l0 y l' m' H1 H2 H3 H4 H5 H6|x l0 l1 l' m' H1 H2 H3 H4 H5|m' H1 H2 H3].
    + apply (w_elem _ _ _ b i x l0 y l'); try assumption; [now rewrite E|]. destruct H6 as [A B]. split; [exact A|]. intros k N. now rewrite E, B.
    + apply (w_keep _ _ _ x l0 l1 l'); try assumption; [now rewrite E|]. destruct H5 as [A B]. split; [exact A|]. intros k N. now rewrite E, B.
    + apply w_plain; [exact H1| |].
      * rewrite E. exact H2.
      * destruct H3 as [A B]. split; [exact A|]. intros k N. now rewrite E, B.
Qed.
Lemma performs_stored : forall l m rs m', performs_all m (map part_of_entry l) rs m' ->
  stored_all m l m' /\ len rs = len l /\ len (concat rs) = 4 * len l.
Proof.
  induction l as [|e l IH]; intros m rs m' P; cbn [map] in P.
  - inversion P; subst. split; [now apply sa_nil|]. split; reflexivity.
  - inversion P as [|? ? r m1 ? rs1 ? P1 P2]; subst. inversion P1 as [|? ? ? ? ? ? W]; subst. cbn [as_given] in W.
    destruct (IH _ _ _ P2) as (S & L1 & L2). split; [now apply (sa_cons _ _ m1)|].
    cbn [concat]. rewrite len_app, !len_cons, L1, L2. change (len (@nil Z)) with 0. lia.
Qed.

Lemma link_write_map session context otid i sh ops l q :
  linked session context otid i sh ->
  Forall (fun e => named ops (e_tag e) /\ addressed (e_tag e) /\ number_entry e) l -> entries_size l < 2 ^ 15 ->
  exists r sh1, write_map (link session context) (cl_run ops) sh otid q (map (fun e => (text (e_tag e), MVal (WOne (e_val e)))) l) = (r, sh1, q + 1) /\
    others_same i (fst sh) (fst sh1) /\
    ((r = Ok tt /\ linked session context otid i sh1 /\ stored_all (behind i sh) l (behind i sh1)) \/
     (exists er done e left, r = Err er /\ l = done ++ e :: left /\ stored_all (behind i sh) done (behind i sh1) /\
        forall m, ~ writes (behind i sh1) (text (e_tag e)) (GiveOne (e_val e)) m)).
Proof.
  intros L F Sz. pose proof L as (Hs & Hc & Ho & Hh & (to & Ld) & S).
  assert (F2 : Forall2 (leaf_ok ops) (map (fun e => (text (e_tag e), MVal (WOne (e_val e)))) l) (map leaf_of l)).
  { clear -F. induction F as [|e l (N & _ & code & Nc & Nm & _) F IH]; [constructor|]. cbn [map]. constructor; [|exact IH].
    split; [reflexivity|]. split; [exact N|]. exists (WOne (e_val e)). split; [reflexivity|]. split; [discriminate|].
    unfold leaf_of. cbn [lw_type lw_data]. unfold code_of. rewrite Nc. now apply (c_one (e_kind e)). }
  assert (Fp : Forall part_ok (map part_of_entry l)).
  { apply Forall_forall. intros x I. apply in_map_iff in I as (e & <- & I). rewrite Forall_forall in F. destruct (F e I) as (_ & Ad & code & Nc & Nm & Rp).
    split; [reflexivity|]. split; [exact Ad|]. split; [unfold code_of; now rewrite Nc|].
    split; [constructor; [exact Nm|constructor]|]. split; [constructor; [exact Rp|constructor]|]. cbn. lia. }
  pose proof (entries_body q l) as Eb.
  rewrite (write_map_sends _ ops _ (map leaf_of l) _ otid q F2) by lia.
  unfold exchange, multi_request. rewrite link_run; [|exact Hs|exact Hc| |].
  - set (services := map leaf_service (map leaf_of l)) in *.
    change (multi_body q services) with (le 2 q ++ [0x0A; 2] ++ (skipn 4 (multi_body q services))) at 1.
    rewrite unit_pair by lia. cbv zeta.
    change (0x0A =? svc_write) with false. change ((0x0A =? svc_fragread) || (0x0A =? svc_read)) with false.
    change (0x0A =? svc_multi) with true. cbv iota.
    change (le 2 q ++ [0x0A; 2] ++ (skipn 4 (multi_body q services))) with (multi_body q services).
    set (w0 := World _ _ _ _).
    assert (Eq : multi_body q services = multi_body (q mod 65536) services).
    { unfold multi_body. now rewrite <- le2_wrap. }
    rewrite Eq.
    assert (Hq : 0 <= q mod 65536 < 2 ^ 16) by (change (2 ^ 16) with 65536; apply Z.mod_pos_bound; lia).
    pose proof (connected_multi_spec otid (q mod 65536) (map part_of_entry l) to i w0 Ho Hq Ld S Fp) as K.
    rewrite entries_bytes in K. fold services in K. rewrite <- Eq, Eb in K. specialize (K Sz). rewrite Eq in K.
    destruct (connected_multi _ _ w0) as [r w']. destruct r as [u|er| |]; try contradiction.
    + destruct K as (rs & w1 & P & S1 & O & E). pose proof O as (E1 & E2 & E3 & E4 & E5 & E6 & E7). destruct u. rewrite E. clear E.
      destruct (performs_stored _ _ _ _ P) as (St & L1 & L2).
      destruct w1 as [s1 h1 i1 o1]. cbn [w_srv w_h w_in w_sent w0 receiving] in *. subst h1 i1 o1.
      assert (Ll : 6 * len l <= entries_size l).
      { clear. induction l as [|e l IH]; [cbn; lia|]. cbn [entries_size]. rewrite len_cons.
        pose proof (len_nonneg (encode (e_tag e))). pose proof (len_nonneg (number_data (e_val e))). lia. }
      rewrite recv_one; [|exact Hh|exact Hc|lia| |].
      * eexists _, _. split; [reflexivity|]. split; [split; [exact E4|]; split; [exact E5|]; split; [exact E6|exact E7]|].
        left. split; [reflexivity|]. split; [|exact St].
        split; [exact Hs|]. split; [exact Hc|]. split; [exact Ho|]. split; [exact Hh|]. split; [|exact S1].
        exists to. now apply (leads_same _ _ _ _ _ Ld).
      * apply fits_pair; [rewrite le_len; lia|]. rewrite multi_reply_len. lia.
      * rewrite len_app, wire_pair_len, le_len, multi_reply_len. change (len (zeros 6)) with 6. lia.
    + destruct K as (O & done & x & left & rs & m & Ep & P & Im & Sh). pose proof O as (E1 & E2 & E3 & E4 & E5 & E6 & E7).
      apply map_eq_app in Ep as (l1 & l2 & -> & X1 & X2). destruct l2 as [|e l2]; [discriminate|]. cbn [map] in X2. injection X2 as <- X2.
      subst done. destruct (performs_stored _ _ _ _ P) as (St & _).
      unfold link_result. cbn [fst snd]. rewrite E3. cbn [w0 receiving w_sent].
      change (fst (recv_data [])) with (@Err (eip_header * bytes) EEof). cbn [bind].
      eexists _, _. split; [reflexivity|]. split; [split; [exact E4|]; split; [exact E5|]; split; [exact E6|exact E7]|].
      right. eexists _, l1, e, l2. split; [reflexivity|]. split; [reflexivity|]. split.
      * clear -St Sh. unfold behind. cbn [fst]. revert St. cbn [w0 w_srv receiving]. generalize (shows (prov_at (fst sh) i)). intros m0 St.
        induction St as [m m' H|m e m1 l m2 W H IH]; [apply sa_nil; intro k; now rewrite Sh, H|]. apply (sa_cons _ _ m1 _ _ W). now apply IH.
      * intros m1 W. unfold impossible, part_of_entry in Im. cbn [as_given] in Im. unfold behind in W. cbn [fst] in W.
        assert (St1 : stored_all m [e] m1).
        { apply (stored_ext m (shows (prov_at (w_srv w') i)) [e] m1); [intro k; symmetry; apply Sh|]. apply (sa_cons _ _ m1); [exact W|now apply sa_nil]. }
        inversion St1; subst. now apply (Im m2).
  - apply fits_pair; [rewrite le_len; lia|]. lia.
  - rewrite len_app, wire_pair_len, le_len. change (len (zeros 6)) with 6. lia.
Qed.
