From Verif Require Import GoBase ItemsModel ItemsSpec IoiProof.

(** ** Round trip *)

Definition mk (x : Z * bytes) : item := new_item (fst x) (snd x).

Lemma item_bytes_mk x : len (snd x) < 2 ^ 16 -> item_bytes (mk x) = wire_item x.
Proof.
  intro H. unfold mk, new_item, item_write, item_empty, item_bytes, wire_item. cbn [it_id it_len it_data app].
  rewrite Z.mod_small; [reflexivity|]. pose proof (len_nonneg (snd x)). lia.
Qed.

Lemma serialize_mk l : fits l -> serialize_items (map mk l) = zeros 6 ++ wire_list l.
Proof.
  intros [_ H]. unfold serialize_items, wire_list. rewrite len_map.
  change (le 4 0 ++ le 2 0 ++ ?x) with (zeros 6 ++ x).
  replace (map item_bytes (map mk l)) with (map wire_item l); [reflexivity|].
  rewrite map_map. apply map_ext_in. intros x I. rewrite Forall_forall in H.
  symmetry. now apply item_bytes_mk, H.
Qed.

Lemma read_items_n_wire l rest : Forall (fun x => 0 <= fst x < 2 ^ 16 /\ len (snd x) < 2 ^ 16) l ->
  read_items_n (length l) (concat (map wire_item l) ++ rest) = Ok (map mk l, rest).
Proof.
  induction 1 as [|[id d] l [Hid Hd] H IH]; [reflexivity|].
  cbn [length map concat read_items_n fst snd] in *. unfold wire_item at 1. cbn [fst snd].
  replace ((((le 2 id ++ le 2 (len d) ++ d) ++ concat (map wire_item l)) ++ rest))
    with ((le 2 id ++ le 2 (len d)) ++ d ++ concat (map wire_item l) ++ rest)
    by (now rewrite <- !app_assoc).
  rewrite rd_app by (rewrite app_length, !le_length; reflexivity). cbn [bind].
  rewrite (firstn_app_exact (le 2 id)) by apply le_length.
  rewrite (skipn_app_exact (le 2 id)) by apply le_length.
  pose proof (len_nonneg d).
  rewrite !unle_le_small by (change (256 ^ Z.of_nat 2) with (2 ^ 16); lia).
  rewrite rd_app by (unfold len; lia). cbn [bind]. rewrite IH. cbn [bind].
  unfold mk, new_item, item_write, item_empty. cbn [fst snd it_id it_pos it_data app].
  rewrite (Z.mod_small (len d)) by lia. reflexivity.
Qed.

Lemma read_items_wire l rest : fits l -> read_items (wire_list l ++ rest) = Ok (map mk l, rest).
Proof.
  intros [Hc H]. unfold read_items, wire_list. rewrite <- app_assoc.
  rewrite rd_app by apply le_length. cbn [bind].
  pose proof (len_nonneg l).
  rewrite unle_le_small by (change (256 ^ Z.of_nat 2) with (2 ^ 16); lia).
  unfold len. rewrite Nat2Z.id. now apply read_items_n_wire.
Qed.

Lemma C10_lemma l rest : fits l ->
  exists body, serialize_items (map mk l) = zeros 6 ++ body /\ body = wire_list l /\
  exists its, read_items (body ++ rest) = Ok (its, rest) /\
    map (fun it => (it_id it, it_data it)) its = l /\
    Forall (fun it => it_len it = len (it_data it) /\ it_pos it = 0) its.
Proof.
  intro H. exists (wire_list l). split; [now apply serialize_mk|]. split; [reflexivity|].
  exists (map mk l). split; [now apply read_items_wire|]. split.
  - rewrite map_map. rewrite <- (map_id l) at 2. apply map_ext. intros [id d]. reflexivity.
  - destruct H as [_ H]. apply Forall_map. eapply Forall_impl; [|exact H]. intros [id d] [_ Hd].
    cbn in *. split; [|reflexivity]. apply Z.mod_small. pose proof (len_nonneg d). lia.
Qed.

(** ** Safety *)

Lemma read_items_n_sound n : forall r its rest, bytes_ok r -> read_items_n n r = Ok (its, rest) ->
  length its = n /\ r = concat (map item_bytes its) ++ rest /\
  Forall (fun it => it_len it = len (it_data it) /\ it_pos it = 0 /\ 0 <= it_id it < 2 ^ 16 /\ it_len it < 2 ^ 16) its.
Proof.
  induction n as [|n IH]; intros r its rest B H; cbn [read_items_n] in H.
  - injection H as <- <-. split; [reflexivity|]. split; [reflexivity|constructor].
  - destruct (rd 4 r) as [[h r1]| | |] eqn:E1; try discriminate. cbn [bind] in H.
    apply rd_ok_inv in E1 as [-> L1]. apply bytes_ok_app in B as [Bh Br1].
    destruct (rd (Z.to_nat (unle (skipn 2 h))) r1) as [[d r2]| | |] eqn:E2; try discriminate. cbn [bind] in H.
    apply rd_ok_inv in E2 as [-> L2]. apply bytes_ok_app in Br1 as [Bd Br2].
    destruct (read_items_n n r2) as [[its' r3]| | |] eqn:E3; try discriminate. cbn [bind] in H.
    injection H as <- <-. destruct (IH _ _ _ Br2 E3) as (Ln & -> & F).
    assert (Hh : h = le 2 (unle (firstn 2 h)) ++ le 2 (unle (skipn 2 h))).
    { rewrite <- (firstn_skipn 2 h) at 1. f_equal.
      - rewrite <- (le_unle (firstn 2 h)) at 1 by (now apply Forall_firstn). f_equal. rewrite firstn_length. lia.
      - rewrite <- (le_unle (skipn 2 h)) at 1 by (now apply Forall_skipn). f_equal. rewrite skipn_length. lia. }
    assert (R1 : 0 <= unle (firstn 2 h) < 2 ^ 16).
    { pose proof (unle_bound (firstn 2 h) ltac:(now apply Forall_firstn)) as X.
      replace (len (firstn 2 h)) with 2 in X by (unfold len; rewrite firstn_length; lia). exact X. }
    assert (R2 : 0 <= unle (skipn 2 h) < 2 ^ 16).
    { pose proof (unle_bound (skipn 2 h) ltac:(now apply Forall_skipn)) as X.
      replace (len (skipn 2 h)) with 2 in X by (unfold len; rewrite skipn_length; lia). exact X. }
    split; [cbn; congruence|]. split.
    + cbn [map concat]. unfold item_bytes at 1. cbn [it_id it_len it_data].
      rewrite Hh at 1. rewrite <- !app_assoc. reflexivity.
    + constructor; [|exact F].
      assert (Hl : unle (skipn 2 h) = len d) by (unfold len; lia).
      split; [exact Hl|]. split; [reflexivity|]. split; [exact R1|exact (proj2 R2)].
Qed.

Lemma C11_lemma r : bytes_ok r ->
  match read_items r with
  | Ok (its, rest) =>
      r = le 2 (len its) ++ concat (map item_bytes its) ++ rest /\
      Forall (fun it => it_len it = len (it_data it) /\ it_pos it = 0) its
  | Err _ => True
  | _ => False
  end.
Proof.
  intro B. unfold read_items. destruct (rd 2 r) as [[c r1]|e| |] eqn:E; cbn [bind]; auto.
  - apply rd_ok_inv in E as [-> L]. apply bytes_ok_app in B as [Bc Br].
    destruct (read_items_n (Z.to_nat (unle c)) r1) as [[its rest]|e| |] eqn:E2; auto.
    + destruct (read_items_n_sound _ _ _ _ Br E2) as (Ln & -> & F).
      assert (R : 0 <= unle c < 2 ^ 16).
      { pose proof (unle_bound c Bc) as X. replace (len c) with 2 in X by (unfold len; lia). exact X. }
      split.
      * f_equal. unfold len. rewrite Ln, Z2Nat.id by lia. rewrite <- (le_unle c Bc) at 1. now rewrite L.
      * eapply Forall_impl; [|exact F]. intros it (A1 & A2 & _); now split.
    + revert E2. generalize (Z.to_nat (unle c)). clear. intro n. revert r1.
      induction n as [|n IH]; intros r H; cbn [read_items_n] in H; [discriminate|].
      destruct (rd 4 r) as [[h r1]| | |] eqn:E1; cbn [bind] in H; try discriminate; [|now apply rd_no_panic in E1].
      destruct (rd _ r1) as [[d r2]| | |] eqn:E2; cbn [bind] in H; try discriminate; [|now apply rd_no_panic in E2].
      destruct (read_items_n n r2) as [[? ?]| | |] eqn:E3; cbn [bind] in H; try discriminate. eauto.
    + revert E2. generalize (Z.to_nat (unle c)). clear. intro n. revert r1.
      induction n as [|n IH]; intros r H; cbn [read_items_n] in H; [discriminate|].
      destruct (rd 4 r) as [[h r1]| | |] eqn:E1; cbn [bind] in H; try discriminate; [|now apply rd_no_fuel in E1].
      destruct (rd _ r1) as [[d r2]| | |] eqn:E2; cbn [bind] in H; try discriminate; [|now apply rd_no_fuel in E2].
      destruct (read_items_n n r2) as [[? ?]| | |] eqn:E3; cbn [bind] in H; try discriminate. eauto.
  - now apply rd_no_panic in E.
  - now apply rd_no_fuel in E.
Qed.

(** The same, as a wire list of (id, data) pairs. *)
Definition contents (its : list item) : list (Z * bytes) := map (fun it => (it_id it, it_data it)) its.
Lemma read_items_sound r its rest : bytes_ok r -> read_items r = Ok (its, rest) ->
  r = wire_list (contents its) ++ rest /\ fits (contents its).
Proof.
  intros B. unfold read_items. destruct (rd 2 r) as [[c r1]|e| |] eqn:E; cbn [bind]; try discriminate.
  apply rd_ok_inv in E as [-> L]. apply bytes_ok_app in B as [Bc Br]. intro E2.
  destruct (read_items_n_sound _ _ _ _ Br E2) as (Ln & -> & F).
  assert (R : 0 <= unle c < 2 ^ 16).
  { pose proof (unle_bound c Bc) as X. replace (len c) with 2 in X by (unfold len; lia). exact X. }
  assert (Lc : len (contents its) = unle c).
  { unfold contents. rewrite len_map. unfold len. rewrite Ln, Z2Nat.id by lia. reflexivity. }
  split.
  - unfold wire_list. rewrite Lc. rewrite <- app_assoc. f_equal.
    + rewrite <- (le_unle c Bc) at 1. now rewrite L.
    + f_equal. unfold contents. rewrite map_map. f_equal. apply map_ext_in. intros it I.
      rewrite Forall_forall in F. destruct (F it I) as (A1 & _). unfold item_bytes, wire_item.
      cbn [fst snd]. now rewrite A1.
  - split; [rewrite Lc; apply R|]. unfold contents. apply Forall_map. eapply Forall_impl; [|exact F].
    cbn [fst snd]. intros it (A1 & _ & A3 & A4). rewrite <- A1. now split.
Qed.

(** ** Cursor *)

Definition cursor_ok (it : item) : Prop := 0 <= it_pos it <= len (it_data it).
Definition unread (it : item) : bytes := skipn (Z.to_nat (it_pos it)) (it_data it).

Lemma unread_length it : cursor_ok it -> len (unread it) = len (it_data it) - it_pos it.
Proof. intros H. unfold unread, len in *. unfold cursor_ok, len in H. rewrite skipn_length. lia. Qed.

Lemma slice_from_ok it : cursor_ok it -> slice_from (it_data it) (it_pos it) = Ok (unread it).
Proof.
  intro H. unfold slice_from. unfold cursor_ok in H.
  replace ((0 <=? it_pos it) && (it_pos it <=? len (it_data it))) with true by lia. reflexivity.
Qed.

Lemma unread_advance it w : cursor_ok it -> (w <= length (unread it))%nat ->
  cursor_ok (item_at it (it_pos it + Z.of_nat w)) /\
  unread (item_at it (it_pos it + Z.of_nat w)) = skipn w (unread it).
Proof.
  intros H Hw. pose proof (unread_length it H) as L. unfold len in L. unfold cursor_ok in *.
  cbn [it_pos it_data item_at]. split; [unfold len in *; lia|].
  unfold unread. cbn [it_pos it_data item_at]. rewrite skipn_skipn. f_equal. lia.
Qed.

Lemma item_uint_fits it w : cursor_ok it -> (0 < w)%nat -> (w <= length (unread it))%nat ->
  item_uint w it = (Ok (unle (firstn w (unread it))), item_at it (it_pos it + Z.of_nat w)).
Proof.
  intros H H0 Hw. unfold item_uint. pose proof (unread_length it H) as L. unfold len in L at 1.
  destruct (Z.leb_spec (len (it_data it)) (it_pos it + (Z.of_nat w - 1))); [lia|].
  now rewrite slice_from_ok.
Qed.
Lemma item_uint_short it w : cursor_ok it -> (length (unread it) < w)%nat ->
  item_uint w it = (Err EShort, it).
Proof.
  intros H Hw. unfold item_uint. pose proof (unread_length it H) as L. unfold len in L at 1.
  destruct (Z.leb_spec (len (it_data it)) (it_pos it + (Z.of_nat w - 1))); [reflexivity|lia].
Qed.
Lemma item_float_fits it w : cursor_ok it -> (0 < w)%nat -> (w <= length (unread it))%nat ->
  item_float w it = (Ok (unle (firstn w (unread it))), item_at it (it_pos it + Z.of_nat w)).
Proof.
  intros H H0 Hw. unfold item_float. pose proof (unread_length it H) as L. unfold len in L at 1.
  destruct (Z.leb_spec (len (it_data it)) (it_pos it + (Z.of_nat w - 1))); [lia|].
  unfold item_des. destruct w as [|w]; [lia|].
  destruct (Z.leb_spec (len (it_data it)) (it_pos it)); [lia|].
  rewrite slice_from_ok by exact H. destruct (Nat.leb_spec (S w) (length (unread it))); [|lia].
  reflexivity.
Qed.
Lemma item_float_short it w : cursor_ok it -> (length (unread it) < w)%nat ->
  item_float w it = (Err EShort, it).
Proof.
  intros H Hw. unfold item_float. pose proof (unread_length it H) as L. unfold len in L at 1.
  destruct (Z.leb_spec (len (it_data it)) (it_pos it + (Z.of_nat w - 1))); [reflexivity|lia].
Qed.

Lemma sgn_signed_value b : bytes_ok b -> sgn (8 * len b) (unle b) = signed_value b.
Proof.
  intro B. unfold sgn, signed_value. pose proof (unle_bound b B) as R.
  assert (E : 256 ^ len b = 2 ^ (8 * len b)) by (unfold len; now rewrite pow256).
  rewrite E in R. rewrite Z.mod_small by exact R. reflexivity.
Qed.

Lemma firstn_length_w {A} w (l : list A) : (w <= length l)%nat -> length (firstn w l) = w.
Proof. intro. rewrite firstn_length. lia. Qed.

Lemma cur_step_field it o w : cursor_ok it -> bytes_ok (it_data it) -> width o = Some w ->
  (w <= length (unread it))%nat ->
  cur_step it o = (RNum (meaning o (firstn w (unread it))), item_at it (it_pos it + Z.of_nat w)).
Proof.
  intros H B W L.
  assert (Bu : bytes_ok (firstn w (unread it))) by (apply Forall_firstn, Forall_skipn, B).
  assert (Hw : (0 < w)%nat) by (destruct o; cbn in W; try discriminate; injection W as <-; lia).
  assert (Ln : len (firstn w (unread it)) = Z.of_nat w) by (unfold len; now rewrite firstn_length_w).
  pose proof (sgn_signed_value _ Bu) as S. rewrite Ln in S.
  destruct o; cbn in W; try discriminate; injection W as <-; cbn [cur_step meaning]; unfold item_int;
    first [rewrite item_uint_fits by assumption | rewrite item_float_fits by assumption];
    cbn [num_res]; rewrite ?S; reflexivity.
Qed.

Lemma cur_step_short it o w : cursor_ok it -> width o = Some w -> (length (unread it) < w)%nat ->
  cur_step it o = (RFail, it).
Proof.
  intros H W L.
  destruct o; cbn in W; try discriminate; injection W as <-; cbn [cur_step]; unfold item_int;
    first [rewrite item_uint_short by assumption | rewrite item_float_short by assumption]; reflexivity.
Qed.

Lemma item_at_data it p : it_data (item_at it p) = it_data it. Proof. reflexivity. Qed.

Lemma cur_run_reads os : forall it, cursor_ok it -> bytes_ok (it_data it) ->
  let '(rs, it') := cur_run it os in
  reads (it_data it) (unread it) os rs (unread it') /\ cursor_ok it' /\ it_data it' = it_data it.
Proof.
  induction os as [|o os IH]; intros it H B.
  - cbn. split; [constructor|]. now split.
  - cbn [cur_run]. destruct (width o) as [w|] eqn:W.
    + destruct (le_lt_dec w (length (unread it))) as [L|L].
      * rewrite (cur_step_field it o w) by assumption.
        destruct (unread_advance it w H L) as [H1 U1].
        specialize (IH (item_at it (it_pos it + Z.of_nat w)) H1 B). rewrite U1, item_at_data in IH.
        destruct (cur_run _ os) as [rs it']. destruct IH as (R & H' & D).
        split; [|now split]. rewrite <- (firstn_skipn w (unread it)) at 1.
        eapply reads_field; [exact W|now apply firstn_length_w|exact R].
      * rewrite (cur_step_short it o w) by assumption. specialize (IH it H B).
        destruct (cur_run it os) as [rs it']. destruct IH as (R & H' & D).
        split; [|now split]. eapply reads_short; eauto.
    + destruct o; cbn in W; try discriminate; cbn [cur_step].
      * unfold item_rest. rewrite slice_from_ok by exact H. specialize (IH it H B).
        destruct (cur_run it os) as [rs it']. destruct IH as (R & H' & D).
        split; [|now split]. now constructor.
      * assert (H0 : cursor_ok (item_reset it))
          by (unfold cursor_ok, item_reset; cbn; pose proof (len_nonneg (it_data it)); lia).
        specialize (IH (item_reset it) H0 B). destruct (cur_run (item_reset it) os) as [rs it'].
        destruct IH as (R & H' & D). split; [|now split].
        apply reads_reset. unfold unread in R at 1. cbn in R. exact R.
Qed.

(** The specification determines the results. *)
Lemma reads_field_inv data o w b u os rs v : width o = Some w -> length b = w ->
  reads data (b ++ u) (o :: os) rs v ->
  exists rs', rs = RNum (meaning o b) :: rs' /\ reads data u os rs' v.
Proof.
  intros W L H. remember (b ++ u) as x eqn:E. remember (o :: os) as l eqn:El.
  destruct H as [?|o2 w2 b2 u2 os2 rs2 v2 W2 L2 R2|o2 w2 u2 os2 rs2 v2 W2 L2 R2|? ? ? ? R|? ? ? ? R];
    try discriminate; injection El as E1 E2; try (rewrite <- E1 in W; cbn in W; discriminate);
    subst o2 os2.
  - assert (w2 = w) by congruence. destruct (app_inj_len b2 b u2 u) as [-> ->]; [congruence|exact E|]. eauto.
  - exfalso. assert (w2 = w) by congruence. subst. rewrite app_length in L2. lia.
Qed.
Lemma reads_short_inv data o w u os rs v : width o = Some w -> (length u < w)%nat ->
  reads data u (o :: os) rs v -> exists rs', rs = RFail :: rs' /\ reads data u os rs' v.
Proof.
  intros W L H. remember (o :: os) as l eqn:El.
  destruct H as [?|o2 w2 b2 u2 os2 rs2 v2 W2 L2 R2|o2 w2 u2 os2 rs2 v2 W2 L2 R2|? ? ? ? R|? ? ? ? R];
    try discriminate; injection El as E1 E2; try (rewrite <- E1 in W; cbn in W; discriminate);
    subst o2 os2.
  - exfalso. assert (w2 = w) by congruence. subst. rewrite app_length in L. lia.
  - eauto.
Qed.
Lemma reads_det data u os rs1 v1 : reads data u os rs1 v1 ->
  forall rs2 v2, reads data u os rs2 v2 -> rs1 = rs2 /\ v1 = v2.
Proof.
  induction 1 as [u|o w b u os rs u' W L R IH|o w u os rs u' W L R IH|u os rs u' R IH|u os rs u' R IH];
    intros rs2 v2 H2.
  - inversion H2; subst. now split.
  - destruct (reads_field_inv _ _ _ _ _ _ _ _ W L H2) as (rs' & -> & R2).
    destruct (IH _ _ R2) as [-> ->]. now split.
  - destruct (reads_short_inv _ _ _ _ _ _ _ W L H2) as (rs' & -> & R2).
    destruct (IH _ _ R2) as [-> ->]. now split.
  - inversion H2 as [|? ? ? ? ? ? ? W2|? ? ? ? ? ? W2|? ? ? ? R2|]; subst; try (cbn in W2; discriminate).
    destruct (IH _ _ R2) as [-> ->]. now split.
  - inversion H2 as [|? ? ? ? ? ? ? W2|? ? ? ? ? ? W2| |? ? ? ? R2]; subst; try (cbn in W2; discriminate).
    destruct (IH _ _ R2) as [-> ->]. now split.
Qed.

Lemma C12_lemma id l data os : bytes_ok data ->
  exists rs u, fst (cur_run {| it_id := id; it_len := l; it_data := data; it_pos := 0 |} os) = rs /\
    reads data data os rs u /\ ~ In RPanic rs.
Proof.
  intro B. pose proof (len_nonneg data) as Hn.
  assert (H : cursor_ok {| it_id := id; it_len := l; it_data := data; it_pos := 0 |})
    by (unfold cursor_ok; cbn; lia).
  pose proof (cur_run_reads os _ H B) as R.
  destruct (cur_run _ os) as [rs it'] eqn:E. cbn [it_data unread it_pos] in R. destruct R as (R & _ & _).
  exists rs, (unread it'). split; [reflexivity|]. split; [exact R|].
  clear -R. remember (unread it') as u'. clear Hequ'.
  remember (skipn (Z.to_nat 0) data) as u. clear Hequ. induction R; cbn; intuition discriminate.
Qed.

(** ** Strings *)

Lemma ser_string_truthful s : len s <= 84 ->
  exists x, ser_string s = slot_wire x /\ truthful x s.
Proof.
  intro H. exists {| slot_len := len s; slot_data := fit 84 s |}. split; [reflexivity|].
  unfold truthful. cbn [slot_len slot_data]. pose proof (len_nonneg s).
  split; [apply fit_length|]. split; [lia|]. split; [|lia].
  unfold len at 1 2. rewrite Nat2Z.id, firstn_all, fit_prefix; [reflexivity|]. unfold len in H. lia.
Qed.

Lemma fit_long n l : (n <= length l)%nat -> fit n l = firstn n l.
Proof. intro. unfold fit. replace (n - length l)%nat with 0%nat by lia. apply app_nil_r. Qed.

Lemma ser_string_elem_truthful s : len s < 2 ^ 32 ->
  exists x, ser_string_elem s = slot_wire x /\ truthful x s.
Proof.
  intro H. pose proof (len_nonneg s).
  exists {| slot_len := Z.min (len s) 84; slot_data := fit 84 s |}. split.
  - unfold ser_string_elem, slot_wire. cbn [slot_len slot_data]. rewrite Z.mod_small by lia.
    f_equal. f_equal. destruct (Z.ltb_spec 84 (len s)); lia.
  - unfold truthful. cbn [slot_len slot_data]. split; [apply fit_length|]. split; [lia|]. split; [|reflexivity].
    destruct (Z.le_gt_cases (len s) 84).
    + rewrite Z.min_l by lia. unfold len at 1 2. rewrite Nat2Z.id, firstn_all, fit_prefix; [reflexivity|].
      unfold len in *. lia.
    + rewrite Z.min_r by lia. rewrite fit_long by (unfold len in *; lia). rewrite firstn_firstn.
      f_equal.
Qed.

Lemma ser_strings_truthful l : Forall (fun s => len s < 2 ^ 32) l ->
  exists xs, ser_strings l = concat (map slot_wire xs) /\ Forall2 truthful xs l.
Proof.
  induction 1 as [|s l H F (xs & E & T)].
  - exists []. split; [reflexivity|constructor].
  - destruct (ser_string_elem_truthful s H) as (x & Ex & Tx). exists (x :: xs). split; [|now constructor].
    unfold ser_strings in *. cbn [map concat]. now rewrite Ex, E.
Qed.

(** One item of 65536 bytes: the length field wraps to 0. *)
Lemma oversize_item d : len d = 2 ^ 16 ->
  read_items (skipn 6 (serialize_items [mk (0xB1, d)])) =
  Ok ([{| it_id := 0xB1; it_len := 0; it_data := []; it_pos := 0 |}], d).
Proof.
  intro H. unfold serialize_items, mk, new_item, item_write, item_empty. cbn [fst snd it_data it_id it_pos app map concat].
  rewrite H. change ((2 ^ 16) mod 65536) with 0. unfold item_bytes. cbn [it_id it_len it_data].
  change (skipn 6 (le 4 0 ++ le 2 0 ++ ?x)) with x.
  rewrite app_nil_r. unfold read_items. rewrite rd_app by apply le_length. cbn [bind].
  change (Z.to_nat (unle (le 2 (len [_])))) with 1%nat. cbn [read_items_n].
  rewrite app_assoc. rewrite rd_app by (rewrite app_length, !le_length; reflexivity). cbn [bind].
  change (Z.to_nat (unle (skipn 2 (le 2 177 ++ le 2 0)))) with 0%nat.
  change (rd 0 d) with (Ok (@nil Z, d)). cbn [bind]. reflexivity.
Qed.
Lemma oversize_refuted : exists d, len d = 2 ^ 16 /\
  forall its rest, read_items (skipn 6 (serialize_items [mk (0xB1, d)])) = Ok (its, rest) ->
  map it_data its <> [d].
Proof.
  assert (P : forall d, len d = 2 ^ 16 -> forall its rest,
    read_items (skipn 6 (serialize_items [mk (0xB1, d)])) = Ok (its, rest) -> map it_data its <> [d]).
  { intros d L its rest H. rewrite oversize_item in H by exact L. injection H as <- _.
    cbn [map it_data]. intro E. injection E as E. rewrite <- E in L. rewrite len_nil in L. lia. }
  assert (L : exists d : bytes, len d = 2 ^ 16).
  { exists (repeat 5 (Z.to_nat (2 ^ 16))). rewrite len_repeat. apply Z2Nat.id; lia. }
  destruct L as [d L]. exists d. split; [exact L|exact (P d L)].
Qed.
