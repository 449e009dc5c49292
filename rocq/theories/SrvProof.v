(** * Lemmas about the server's handlers *)
From Verif Require Import GoBase SegModel IoiModel IoiProof ItemsModel ItemsSpec ItemsProof TypesModel WriteModel ReadModel ReadProof EipModel EipSpec EipProof
  OpenModel TableModel ProvModel ProvProof SrvValModel SrvModel SrvSpec.

(** ** Paths *)

Lemma unle1 x : unle [x] = x.
Proof. cbn [unle]. lia. Qed.

Lemma get_ascii_inv r b r' : bytes_ok r -> get_ascii_part r = Ok (b, r') ->
  exists pad, r = len b :: b ++ pad ++ r' /\ len b < 256 /\ len pad = len b mod 2.
Proof.
  intros B. unfold get_ascii_part.
  destruct (rd 1 r) as [[n r1]| | |] eqn:E1; cbn [bind]; try discriminate.
  apply rd_ok_inv in E1 as [-> L1]. destruct n as [|n [|]]; try discriminate. rewrite unle1.
  apply bytes_ok_app in B as [Bn B1]. assert (Bn0 : byte_ok n) by (now inversion Bn). unfold byte_ok in Bn0.
  destruct (rd (Z.to_nat n) r1) as [[b0 r2]| | |] eqn:E2; cbn [bind]; try discriminate.
  apply rd_ok_inv in E2 as [-> L2].
  assert (Ln : len b0 = n) by (unfold len; lia).
  destruct (Z.eqb_spec (n mod 2) 1) as [O|O].
  - destruct (rd 1 r2) as [[p r3]| | |] eqn:E3; cbn [bind]; try discriminate.
    apply rd_ok_inv in E3 as [-> L3]. intro H.
    assert (b0 = b) as -> by congruence. assert (r3 = r') as -> by congruence.
    exists p. rewrite Ln. cbn [app]. split; [reflexivity|]. split; [lia|]. unfold len. lia.
  - intro H. assert (b0 = b) as -> by congruence. assert (r2 = r') as -> by congruence.
    exists []. rewrite Ln. cbn [app]. split; [reflexivity|]. split; [lia|].
    change (len (@nil Z)) with 0. pose proof (Z.mod_pos_bound n 2). lia.
Qed.
Lemma get_ascii_no_panic r : get_ascii_part r <> Panic.
Proof.
  unfold get_ascii_part. pose proof (rd_no_panic 1 r).
  destruct (rd 1 r) as [[n r1]| | |]; cbn [bind]; try congruence.
  pose proof (rd_no_panic (Z.to_nat (unle n)) r1).
  destruct (rd _ r1) as [[b r2]| | |]; cbn [bind]; try congruence.
  destruct (_ =? 1); [|discriminate]. pose proof (rd_no_panic 1 r2).
  destruct (rd 1 r2) as [[p r3]| | |]; cbn [bind]; congruence.
Qed.

Lemma get_tag_path k : forall s r t r', bytes_ok r -> get_tag_fuel k s r = Ok (t, r') ->
  exists p, r = p ++ r' /\ tag_path p.
Proof.
  induction k as [|k IH]; intros s r t r' B; cbn [get_tag_fuel]; [discriminate|].
  destruct r as [|x r]; [intro H; assert (r' = []) as -> by congruence; exists []; split; [reflexivity|constructor]|].
  assert (B1 : bytes_ok r) by (now inversion B).
  destruct (Z.eqb_spec x 0x28) as [->|N1].
  { destruct (rd 1 r) as [[v r2]| | |] eqn:E; cbn [bind]; try discriminate.
    apply rd_ok_inv in E as [-> L]. destruct v as [|v [|]]; try discriminate. apply bytes_ok_app in B1 as [_ B2].
    destruct (add_index s _); cbn [bind]; try discriminate. intro H.
    destruct (IH _ _ _ _ B2 H) as (p & -> & P). exists (0x28 :: v :: p). split; [reflexivity|now constructor]. }
  destruct (Z.eqb_spec x 0x29) as [->|N2].
  { destruct (rd 1 r) as [[v r2]| | |] eqn:E; cbn [bind]; try discriminate.
    apply rd_ok_inv in E as [-> L]. destruct v as [|v [|]]; try discriminate. apply bytes_ok_app in B1 as [_ B2].
    destruct (rd 2 r2) as [[w r3]| | |] eqn:E2; cbn [bind]; try discriminate.
    apply rd_ok_inv in E2 as [-> L2]. destruct w as [|lo [|hi [|]]]; try discriminate. apply bytes_ok_app in B2 as [_ B3].
    destruct (add_index s _); cbn [bind]; try discriminate. intro H.
    destruct (IH _ _ _ _ B3 H) as (p & -> & P). exists (0x29 :: v :: lo :: hi :: p). split; [reflexivity|now constructor]. }
  destruct (Z.eqb_spec x 0x91) as [->|N3].
  { destruct (get_ascii_part r) as [[b r2]| | |] eqn:E; cbn [bind]; try discriminate.
    destruct (get_ascii_inv _ _ _ B1 E) as (pad & -> & L1 & L2). intro H.
    assert (B2 : bytes_ok r2).
    { inversion B1 as [|? ? _ B1']; subst. apply bytes_ok_app in B1' as [_ B1']. now apply bytes_ok_app in B1'. }
    destruct (IH _ _ _ _ B2 H) as (p & -> & P). exists (0x91 :: len b :: b ++ pad ++ p).
    split; [cbn [app]; now rewrite <- !app_assoc|now constructor]. }
  intro H. assert (r' = x :: r) as -> by congruence. exists []. split; [reflexivity|constructor].
Qed.

Lemma add_index_named s i : s <> [] -> exists x, add_index s i = Ok x /\ x <> [].
Proof.
  intro N. unfold add_index. destruct s as [|a s]; [easy|].
  destruct (ends_with _ _); eexists; (split; [reflexivity|]); intro E.
  - apply app_eq_nil in E as [_ E]. discriminate.
  - discriminate.
Qed.
Lemma get_tag_named k : forall s r, s <> [] -> get_tag_fuel k s r <> Panic.
Proof.
  induction k as [|k IH]; intros s r N; cbn [get_tag_fuel]; [discriminate|].
  destruct r as [|x r]; [discriminate|].
  destruct (x =? 0x28).
  { pose proof (rd_no_panic 1 r). destruct (rd 1 r) as [[v r2]| | |]; cbn [bind]; try congruence.
    destruct (add_index_named s (unle v) N) as (y & -> & Ny). cbn [bind]. now apply IH. }
  destruct (x =? 0x29).
  { pose proof (rd_no_panic 1 r). destruct (rd 1 r) as [[v r2]| | |]; cbn [bind]; try congruence.
    pose proof (rd_no_panic 2 r2). destruct (rd 2 r2) as [[w r3]| | |]; cbn [bind]; try congruence.
    destruct (add_index_named s (unle w) N) as (y & -> & Ny). cbn [bind]. now apply IH. }
  destruct (x =? 0x91).
  { pose proof (get_ascii_no_panic r). destruct (get_ascii_part r) as [[b r2]| | |]; cbn [bind]; try congruence.
    apply IH. destruct s; [easy|]. discriminate. }
  discriminate.
Qed.
Lemma get_tag_nameless k : forall r, bytes_ok r -> get_tag_fuel k [] r = Panic -> nameless r.
Proof.
  induction k as [|k IH]; intros r B; cbn [get_tag_fuel]; [discriminate|].
  destruct r as [|x r]; [discriminate|]. assert (B1 : bytes_ok r) by (now inversion B).
  destruct (Z.eqb_spec x 0x28) as [->|N1]; [intros _; constructor|].
  destruct (Z.eqb_spec x 0x29) as [->|N2]; [intros _; constructor|].
  destruct (Z.eqb_spec x 0x91) as [->|N3]; [|discriminate].
  pose proof (get_ascii_no_panic r) as NP. destruct (get_ascii_part r) as [[b r2]| | |] eqn:E; cbn [bind]; try congruence.
  destruct (get_ascii_inv _ _ _ B1 E) as (pad & -> & L1 & L2). destruct b as [|a b].
  - cbn [app] in *. change (len (@nil Z)) with 0 in *. change (0 mod 2) with 0 in L2.
    destruct pad; [|unfold len in L2; cbn [length] in L2; lia]. cbn [app]. intro H. constructor.
    apply IH; [|exact H]. now inversion B1.
  - intro H. exfalso. revert H. apply get_tag_named. discriminate.
Qed.

Lemma tag_from_path_ok r t r' : bytes_ok r -> get_tag_from_path r = Ok (t, r') ->
  exists p, r = p ++ r' /\ tag_path p /\ bytes_ok r'.
Proof.
  intros B H. destruct (get_tag_path _ _ _ _ _ B H) as (p & -> & P). exists p.
  split; [reflexivity|]. split; [exact P|]. now apply bytes_ok_app in B.
Qed.
Lemma tag_from_path_panic r : bytes_ok r -> get_tag_from_path r = Panic -> nameless r.
Proof. intros B. apply get_tag_nameless; exact B. Qed.
Lemma tag_from_path_fuel r : get_tag_from_path r <> OutOfFuel.
Proof. apply get_tag_terminates. lia. Qed.

(** ** Values *)

Definition not_nil (g : gval) : Prop := g <> GNil.
Lemma read_value_not_nil t r v r' : read_value t r = Ok (v, r') -> not_nil v.
Proof.
  assert (I : forall s w, read_int s w r = Ok (v, r') -> not_nil v).
  { intros s w. unfold read_int. destruct (rd w r) as [[? ?]| | |]; cbn [bind]; try discriminate.
    intro H. unfold not_nil. intros ->. discriminate. }
  assert (R : forall n (f : bytes -> gval), (forall d, f d <> GNil) -> (let* (d, r'') := rd n r in Ok (f d, r'')) = Ok (v, r') -> not_nil v).
  { intros n f F. destruct (rd n r) as [[b0 r0]| | |]; cbn [bind]; try discriminate.
    intro H. assert (v = f b0) as -> by congruence. apply F. }
  unfold read_value.
  repeat (destruct (_ =? _); [first [discriminate | apply I | apply R; discriminate]|]). discriminate.
Qed.
Lemma read_values_not_nil n t : forall r vs r', read_values n t r = Ok (vs, r') -> Forall not_nil vs /\ length vs = n.
Proof.
  induction n as [|n IH]; intros r vs r'; cbn [read_values].
  - intro H. assert (vs = []) as -> by congruence. split; [constructor|reflexivity].
  - destruct (read_value t r) as [[v r1]| | |] eqn:E; cbn [bind]; try discriminate.
    destruct (read_values n t r1) as [[ws r2]| | |] eqn:E2; cbn [bind]; try discriminate.
    intro H. assert (vs = v :: ws) as -> by congruence. destruct (IH _ _ _ E2) as [F L].
    split; [constructor; [eapply read_value_not_nil; exact E|exact F]|cbn [length]; congruence].
Qed.
Lemma parse_strings_not_nil n : forall r vs r', parse_strings n r = Ok (vs, r') -> Forall not_nil vs /\ length vs = n.
Proof.
  induction n as [|n IH]; intros r vs r'; cbn [parse_strings].
  - intro H. assert (vs = []) as -> by congruence. split; [constructor|reflexivity].
  - destruct (parse_string r) as [[v r1]| | |] eqn:E; cbn [bind]; try discriminate.
    destruct (parse_strings n r1) as [[ws r2]| | |] eqn:E2; cbn [bind]; try discriminate.
    intro H. assert (vs = v :: ws) as -> by congruence. destruct (IH _ _ _ E2) as [F L].
    split; [constructor; [|exact F]|cbn [length]; congruence].
    unfold parse_string in E. destruct (rd 4 r) as [[? ?]| | |]; cbn [bind] in E; try discriminate.
    destruct (rd 82 _) as [[? ?]| | |]; cbn [bind] in E; try discriminate.
    unfold not_nil. intros ->. discriminate.
Qed.
Lemma parse_strings_safe n : forall r, parse_strings n r <> Panic /\ parse_strings n r <> OutOfFuel.
Proof.
  assert (P : forall r, parse_string r <> Panic /\ parse_string r <> OutOfFuel).
  { intro r. unfold parse_string. pose proof (rd_no_panic 4 r). pose proof (rd_no_fuel 4 r).
    destruct (rd 4 r) as [[l r1]| | |]; cbn [bind]; try (split; congruence).
    pose proof (rd_no_panic 82 r1). pose proof (rd_no_fuel 82 r1).
    destruct (rd 82 r1) as [[d r2]| | |]; cbn [bind]; split; congruence. }
  induction n as [|n IH]; intro r; cbn [parse_strings]; [split; discriminate|].
  destruct (P r). destruct (parse_string r) as [[v r1]| | |]; cbn [bind]; try (split; congruence).
  destruct (IH r1). destruct (parse_strings n r1) as [[vs r2]| | |]; cbn [bind]; split; congruence.
Qed.
Lemma parse_write_safe r : parse_write_values r <> Panic /\ parse_write_values r <> OutOfFuel.
Proof.
  unfold parse_write_values. pose proof (rd_no_panic 1 r). pose proof (rd_no_fuel 1 r).
  destruct (rd 1 r) as [[t r1]| | |]; cbn [bind]; try (split; congruence).
  pose proof (rd_no_panic 1 r1). pose proof (rd_no_fuel 1 r1).
  destruct (rd 1 r1) as [[il r2]| | |]; cbn [bind]; try (split; congruence).
  pose proof (rd_no_panic (Z.to_nat (unle il)) r2). pose proof (rd_no_fuel (Z.to_nat (unle il)) r2).
  destruct (rd _ r2) as [[info r3]| | |]; cbn [bind]; try (split; congruence).
  pose proof (rd_no_panic 2 r3). pose proof (rd_no_fuel 2 r3).
  destruct (rd 2 r3) as [[q r4]| | |]; cbn [bind]; try (split; congruence).
  destruct (_ =? T_struct); [|apply read_values_safe].
  destruct (_ =? 0x0FCE); [apply parse_strings_safe|split; discriminate].
Qed.
Lemma unle2_zero a b : bytes_ok [a; b] -> unle [a; b] = 0 -> a = 0 /\ b = 0.
Proof.
  intros B H. assert (byte_ok a) by (now inversion B).
  assert (byte_ok b) by (inversion B as [|? ? _ B']; now inversion B').
  unfold byte_ok in *. cbn [unle] in H. lia.
Qed.
Lemma parse_write_ok r vs r' : bytes_ok r -> parse_write_values r = Ok (vs, r') ->
  Forall not_nil vs /\ bytes_ok r' /\ (vs = [] -> exists t info, r = t :: len info :: info ++ 0 :: 0 :: r').
Proof.
  intro B. unfold parse_write_values.
  destruct (rd 1 r) as [[t r1]| | |] eqn:E1; cbn [bind]; try discriminate.
  apply rd_ok_inv in E1 as [-> L1]. destruct t as [|t [|]]; try discriminate. apply bytes_ok_app in B as [_ B].
  destruct (rd 1 r1) as [[il r2]| | |] eqn:E2; cbn [bind]; try discriminate.
  apply rd_ok_inv in E2 as [-> L2]. destruct il as [|il [|]]; try discriminate. apply bytes_ok_app in B as [Bl B].
  assert (Bil : byte_ok il) by (now inversion Bl). unfold byte_ok in Bil.
  rewrite !unle1.
  destruct (rd (Z.to_nat il) r2) as [[info r3]| | |] eqn:E3; cbn [bind]; try discriminate.
  apply rd_ok_inv in E3 as [-> L3]. apply bytes_ok_app in B as [_ B].
  destruct (rd 2 r3) as [[q r4]| | |] eqn:E4; cbn [bind]; try discriminate.
  apply rd_ok_inv in E4 as [-> L4]. apply bytes_ok_app in B as [Bq B].
  assert (X : forall r5 n, (exists m, read_values n t r5 = Ok (vs, m) /\ m = r') \/ (exists m, parse_strings n r5 = Ok (vs, m) /\ m = r') ->
     Forall not_nil vs /\ length vs = n).
  { intros r5 n [(m & H & _)|(m & H & _)]; [eapply read_values_not_nil|eapply parse_strings_not_nil]; exact H. }
  assert (Y : forall n r5, bytes_ok r5 -> read_values n t r5 = Ok (vs, r') \/ parse_strings n r5 = Ok (vs, r') ->
     bytes_ok r' /\ (n = O -> r5 = r')).
  { clear. intros n r5 B H. split; [|intros ->; cbn in H; destruct H; congruence].
    revert vs r5 B H. induction n as [|n IH]; intros vs r5 B [H|H]; cbn [read_values parse_strings] in H; try congruence.
    - destruct (read_value t r5) as [[v r1]| | |] eqn:E; cbn [bind] in H; try discriminate.
      destruct (read_values n t r1) as [[ws r2]| | |] eqn:E2; cbn [bind] in H; try discriminate.
      assert (r2 = r') as -> by congruence. apply (IH ws r1); [|now left].
      assert (I : forall s w, read_int s w r5 = Ok (v, r1) -> bytes_ok r1).
      { intros s w. unfold read_int. destruct (rd w r5) as [[b1 b0]| | |] eqn:F; cbn [bind]; try discriminate.
        apply rd_ok_inv in F as [-> _]. apply bytes_ok_app in B as [_ B]. intro G. assert (b0 = r1) as <- by congruence. exact B. }
      assert (R : forall m (f : bytes -> gval), (let* (d, r'') := rd m r5 in Ok (f d, r'')) = Ok (v, r1) -> bytes_ok r1).
      { intros m f. destruct (rd m r5) as [[b1 b0]| | |] eqn:F; cbn [bind]; try discriminate.
        apply rd_ok_inv in F as [-> _]. apply bytes_ok_app in B as [_ B]. intro G. assert (b0 = r1) as <- by congruence. exact B. }
      revert E. unfold read_value.
      repeat (destruct (_ =? _); [first [discriminate | apply I | apply R]|]). discriminate.
    - destruct (parse_string r5) as [[v r1]| | |] eqn:E; cbn [bind] in H; try discriminate.
      destruct (parse_strings n r1) as [[ws r2]| | |] eqn:E2; cbn [bind] in H; try discriminate.
      assert (r2 = r') as -> by congruence. apply (IH ws r1); [|now right].
      unfold parse_string in E. destruct (rd 4 r5) as [[? r6]| | |] eqn:F; cbn [bind] in E; try discriminate.
      apply rd_ok_inv in F as [-> _]. apply bytes_ok_app in B as [_ B].
      destruct (rd 82 r6) as [[? r7]| | |] eqn:F; cbn [bind] in E; try discriminate.
      apply rd_ok_inv in F as [-> _]. apply bytes_ok_app in B as [_ B].
      assert (r7 = r1) as <- by congruence. exact B. }
  intro H.
  assert (H' : read_values (Z.to_nat (unle q)) t r4 = Ok (vs, r') \/ parse_strings (Z.to_nat (unle q)) r4 = Ok (vs, r')).
  { destruct (t =? T_struct); [|now left]. destruct (_ =? 0x0FCE); [now right|discriminate]. }
  clear H. destruct (Y _ _ B H') as [B' Y0].
  destruct (X r4 (Z.to_nat (unle q))) as [F L]; [destruct H'; [left|right]; exists r'; now split|].
  split; [exact F|]. split; [exact B'|]. intros ->. cbn [length] in L.
  destruct q as [|a [|b [|]]]; try discriminate.
  pose proof (unle_bound [a; b] Bq) as Ub. destruct (unle2_zero a b Bq) as [-> ->]; [lia|].
  exists t, info. rewrite <- (Y0 (eq_sym L)). cbn [app].
  assert (len info = il) as -> by (unfold len; lia). reflexivity.
Qed.

(** ** Providers *)

Lemma tame_prov_empty : tame_prov prov_empty.
Proof.
  split; [|split].
  - intros k v H. discriminate.
  - intros l [].
  - intros k e a o n H. discriminate.
Qed.

Lemma convert_not_nil c v e x : convert_elem c v e = Ok x -> x <> PV GNil.
Proof.
  unfold convert_elem. intros H ->. destruct v as [g|? ? ? ?].
  - destruct g; try discriminate; destruct e as [k|]; try discriminate; cbn [kind_of] in H; try discriminate;
      destruct (kind_eqb _ _); try discriminate; destruct k; discriminate.
  - destruct e; discriminate.
Qed.
Lemma convert_safe c v e : v <> PV GNil -> convert_elem c v e <> Panic /\ convert_elem c v e <> OutOfFuel.
Proof.
  intro N. unfold convert_elem. destruct v as [g|? ? ? ?].
  - destruct g; try (now elim N); destruct e as [k|]; try (split; discriminate); cbn [kind_of]; try (split; discriminate);
      destruct (kind_eqb _ _); try (split; discriminate); destruct k; split; discriminate.
  - destruct e; split; discriminate.
Qed.
Lemma convert_all_safe c e l : ~ In (PV GNil) l -> convert_all c l e <> Panic /\ convert_all c l e <> OutOfFuel.
Proof.
  induction l as [|v l IH]; intro N; cbn [convert_all]; [split; discriminate|].
  destruct (convert_safe c v e); [intros ->; apply N; now left|].
  destruct (convert_elem c v e) as [x| | |]; cbn [bind]; try (split; congruence).
  destruct IH; [intro; apply N; now right|].
  destruct (convert_all c l e); cbn [bind]; split; congruence.
Qed.
Lemma convert_all_not_nil c e : forall l l', convert_all c l e = Ok l' -> ~ In (PV GNil) l'.
Proof.
  induction l as [|v l IH]; intros l'; cbn [convert_all].
  - intro H. assert (l' = []) as -> by congruence. intros [].
  - destruct (convert_elem c v e) as [x| | |] eqn:E; cbn [bind]; try discriminate.
    destruct (convert_all c l e) as [y| | |] eqn:E2; cbn [bind]; try discriminate.
    intro H. assert (l' = x :: y) as -> by congruence. intros [I|I].
    + now apply convert_not_nil in E.
    + now apply (IH y).
Qed.

Lemma elems_in h a o n x : In x (elems h a o n) -> exists l, (In l h) /\ In x l.
Proof.
  unfold elems. intro I. assert (I' : In x (nth a h [])).
  { rewrite <- (firstn_skipn o (nth a h [])). apply in_or_app. right.
    rewrite <- (firstn_skipn n (skipn o (nth a h []))). apply in_or_app. now left. }
  exists (nth a h []). split; [|exact I']. destruct (Nat.lt_ge_cases a (length h)) as [L|L].
  - now apply nth_In.
  - rewrite nth_overflow in I' by exact L. destruct I'.
Qed.
Lemma elems_not_nil p a o n : tame_prov p -> ~ In (PV GNil) (elems (pv_heap p) a o n).
Proof. intros (_ & H & _) I. destruct (elems_in _ _ _ _ _ I) as (l & I1 & I2). now apply (H l). Qed.

Lemma tag_write_tame c p t v p' r : tame_prov p -> v <> PV GNil ->
  (forall e a o n, v = PS e a o n -> (o + n <= length (nth a (pv_heap p) []))%nat) ->
  tag_write c p t v = (p', r) -> tame_prov p' /\ r <> Panic /\ r <> OutOfFuel.
Proof.
  intros T N V. pose proof T as (T1 & T2 & T3). unfold tag_write.
  destruct (parse_element_tag (lower t)) as [[b i] has]. destruct has.
  - destruct (mget (pv_data p) b) as [[g|e a o n]|] eqn:E; try (intro H; injection H as <- <-; split; [exact T|split; discriminate]).
    destruct (_ || _); try (intro H; injection H as <- <-; split; [exact T|split; discriminate]).
    destruct (convert_safe c v e N) as [S1 S2].
    destruct (convert_elem c v e) as [x| | |] eqn:C; try congruence; intro H; injection H as <- <-; (split; [|split; discriminate]);
      [|exact T].
    split; [exact T1|]. split.
    + cbn [pv_heap]. intros l I J. unfold harr_set in I. apply in_setn in I as [->|I]; [|now apply (T2 l)].
      apply in_setn in J as [J|J].
      * symmetry in J. now apply convert_not_nil in C.
      * destruct (Nat.lt_ge_cases a (length (pv_heap p))) as [L|L].
        -- apply (T2 (nth a (pv_heap p) [])); [now apply nth_In|exact J].
        -- rewrite nth_overflow in J by exact L. destruct J.
    + cbn [pv_data pv_heap]. intros k e2 a2 o2 n2 G. rewrite harr_set_nth_length. now apply (T3 k e2).
  - assert (Plain : tame_prov (Prov (mset (pv_data p) b v) (pv_heap p))).
    { split; [|split].
      - cbn [pv_data]. intros k x G. rewrite mget_mset in G. destruct (bseq b k).
        + assert (x = v) as -> by congruence. exact N.
        + now apply (T1 k).
      - exact T2.
      - cbn [pv_data pv_heap]. intros k e2 a2 o2 n2 G. rewrite mget_mset in G. destruct (bseq b k).
        + apply (V e2). congruence.
        + now apply (T3 k e2). }
    destruct (mget (pv_data p) b) as [[g|e a o n]|] eqn:E;
      try (intro H; injection H as <- <-; split; [exact Plain|split; discriminate]).
    destruct v as [g|[k|] a' o' n']; try (intro H; injection H as <- <-; split; [exact Plain|split; discriminate]).
    destruct (convert_all_safe c e (elems (pv_heap p) a' o' n')) as [S1 S2]; [now apply elems_not_nil|].
    destruct (convert_all c (elems (pv_heap p) a' o' n') e) as [l| | |] eqn:C; try congruence;
      intro H; injection H as <- <-; (split; [|split; discriminate]); [|exact T].
    split; [|split].
    + cbn [pv_data]. intros k x G. rewrite mget_mset in G. destruct (bseq b k).
      * intros ->. discriminate.
      * now apply (T1 k).
    + cbn [pv_heap]. intros l0 I. apply in_app_or in I as [I|[<-|[]]]; [now apply T2|].
      now apply convert_all_not_nil in C.
    + cbn [pv_data pv_heap]. intros k e2 a2 o2 n2 G. rewrite mget_mset in G. destruct (bseq b k).
      * injection G as <- <- <- <-. rewrite app_nth2, Nat.sub_diag by lia. cbn [nth]. lia.
      * specialize (T3 k e2 a2 o2 n2 G). destruct (Nat.lt_ge_cases a2 (length (pv_heap p))) as [L|L].
        -- now rewrite app_nth1.
        -- rewrite (nth_overflow (pv_heap p)) in T3 by exact L. cbn [length] in T3. lia.
Qed.
Lemma write_given_tame c p t v p' r : tame_prov p ->
  match v with GiveOne g => not_nil g | GiveMany _ l => Forall not_nil l end ->
  write_given c p t v = (p', r) -> tame_prov p' /\ r <> Panic /\ r <> OutOfFuel.
Proof.
  intros T N. destruct v as [g|e l]; cbn [write_given].
  - apply tag_write_tame; [exact T| |].
    + intro H. apply N. congruence.
    + intros; discriminate.
  - apply tag_write_tame.
    + pose proof T as (T1 & T2 & T3). split; [exact T1|]. split.
      * cbn [pv_heap]. intros l0 I. apply in_app_or in I as [I|[<-|[]]]; [now apply T2|].
        intro I. apply in_map_iff in I as (g & G & I). rewrite Forall_forall in N. apply (N g I). congruence.
      * cbn [pv_data pv_heap]. intros k e2 a2 o2 n2 G. specialize (T3 k e2 a2 o2 n2 G).
        destruct (Nat.lt_ge_cases a2 (length (pv_heap p))) as [L|L].
        -- now rewrite app_nth1.
        -- rewrite (nth_overflow (pv_heap p)) in T3 by exact L. cbn [length] in T3. lia.
    + discriminate.
    + intros e2 a o n H. injection H as <- <- <- <-. cbn [pv_heap].
      rewrite app_nth2, Nat.sub_diag by lia. cbn [nth]. rewrite map_length. lia.
Qed.
Lemma tag_read_tame p t q : tame_prov p ->
  tag_read p t q <> OutOfFuel /\ (tag_read p t q = Panic -> q < 0) /\
  (forall v, tag_read p t q = Ok v -> v <> PV GNil).
Proof.
  intros (T1 & T2 & T3). unfold tag_read. destruct (parse_element_tag (lower t)) as [[b i] has].
  destruct (mget (pv_data p) b) as [v|] eqn:E; [|split; [|split]; discriminate].
  destruct has.
  - destruct v as [g|e a o n]; [split; [|split]; discriminate|].
    destruct (Z.ltb_spec i 0) as [H1|H1]; [split; [|split]; discriminate|].
    destruct (Z.leb_spec (Z.of_nat n) i) as [H2|H2]; cbn [orb]; [split; [|split]; discriminate|].
    destruct (_ <? i + q); [split; [|split]; discriminate|].
    destruct (q =? 1).
    + destruct (nth_error _ _) as [x|] eqn:X.
      * split; [discriminate|]. split; [discriminate|]. intros v H. assert (v = x) as -> by congruence.
        intros ->. apply nth_error_In in X. destruct (elems_in _ _ _ _ _ X) as (l & I1 & I2). now apply (T2 l).
      * exfalso. apply nth_error_None in X. rewrite elems_length in X by (now apply (T3 b e)). lia.
    + destruct (Z.ltb_spec q 0); (split; [discriminate|]);
        (split; [intro Hp; first [lia | discriminate Hp]|intros v Hv ->; discriminate Hv]).
  - destruct v as [g|e a o n].
    + split; [discriminate|]. split; [discriminate|]. intros v H. apply (T1 b). congruence.
    + destruct (q <=? _); [|split; [|split]; discriminate].
      destruct (Z.ltb_spec q 0); (split; [discriminate|]);
        (split; [intro Hp; first [lia | discriminate Hp]|intros v Hv ->; discriminate Hv]).
Qed.
Lemma item_ser_safe h v : v <> PV GNil -> item_ser h v <> Panic /\ item_ser h v <> OutOfFuel.
Proof.
  intro N. destruct v as [[]|[[]|] ? ? ?]; cbn [item_ser]; try (split; discriminate). now elim N.
Qed.
Lemma buffer_ser_safe h v : buffer_ser h v <> Panic /\ buffer_ser h v <> OutOfFuel.
Proof. destruct v as [[]|[[]|] ? ? ?]; cbn [buffer_ser item_ser]; split; discriminate. Qed.
Lemma read_payload_safe h v : v <> PV GNil -> read_payload h v <> Panic /\ read_payload h v <> OutOfFuel.
Proof.
  intro N. unfold read_payload. destruct (_ =? T_string).
  - destruct v as [[]|[[]|] ? ? ?]; split; discriminate.
  - destruct (item_ser_safe h v N). destruct (item_ser h v); cbn [bind]; split; congruence.
Qed.

(** ** Handlers: no panic unless [bad], tame afterwards, input untouched *)

Definition safe {A} (bad : Prop) (m : M A) (w : world) : Prop :=
  match m w with
  | (Ok _, w') | (Err _, w') => tame (w_srv w') /\ w_in w' = w_in w
  | (Panic, _) => bad
  | (OutOfFuel, _) => False
  end.

Lemma safe_bind {A B} (bad : Prop) (m : M A) (k : A -> M B) w : safe bad m w ->
  (forall a w', m w = (Ok a, w') -> tame (w_srv w') -> w_in w' = w_in w -> safe bad (k a) w') ->
  safe bad (bindM m k) w.
Proof.
  unfold safe, bindM. destruct (m w) as [[a|e| |] w1] eqn:E; auto. intros [T I] K.
  specialize (K a w1 eq_refl T I). destruct (k a w1) as [[b|e| |] w2]; auto; destruct K as [T2 I2]; (split; [exact T2|congruence]).
Qed.
Lemma safe_lift {A B} (bad : Prop) (r : res A) (k : A -> M B) w : tame (w_srv w) -> r <> OutOfFuel -> (r = Panic -> bad) ->
  (forall a, r = Ok a -> safe bad (k a) w) -> safe bad (bindM (lift r) k) w.
Proof.
  intros T F P K. apply safe_bind.
  - unfold safe, lift. destruct r; auto.
  - intros a w' E _ _. unfold lift in E. injection E as -> <-. now apply K.
Qed.
Lemma safe_rd {B} (bad : Prop) n r (k : bytes * bytes -> M B) w : tame (w_srv w) ->
  (forall a r', r = a ++ r' -> length a = n -> safe bad (k (a, r')) w) -> safe bad (bindM (lift (rd n r)) k) w.
Proof.
  intros T K. apply safe_lift; [exact T|apply rd_no_fuel|intro H; now apply rd_no_panic in H|].
  intros [a r'] E. apply rd_ok_inv in E as [E L]. now apply K.
Qed.
Lemma safe_ask {A B} (bad : Prop) (f : world -> A) (k : A -> M B) w : safe bad (k (f w)) w -> safe bad (bindM (ask f) k) w.
Proof. unfold safe, bindM, ask. auto. Qed.
Lemma safe_ret {A} (bad : Prop) (a : A) w : tame (w_srv w) -> safe bad (ret a) w.
Proof. unfold safe, ret. auto. Qed.
Lemma safe_fail {A} (bad : Prop) w : tame (w_srv w) -> safe bad (@fail A) w.
Proof. unfold safe, fail, lift. auto. Qed.
Lemma safe_send (bad : Prop) c p w : tame (w_srv w) -> safe bad (send c p) w.
Proof. unfold safe, send. auto. Qed.
Lemma safe_panic {A} (bad : Prop) w : bad -> safe bad (@lift A Panic) w.
Proof. unfold safe, lift. auto. Qed.
Lemma safe_put_h {B} (bad : Prop) f (k : unit -> M B) w : tame (w_srv w) ->
  (forall w', w_srv w' = w_srv w -> w_in w' = w_in w -> safe bad (k tt) w') -> safe bad (bindM (put_h f) k) w.
Proof.
  intros T K. apply safe_bind; [unfold safe, put_h; cbn; auto|].
  intros a w' E _ _. unfold put_h in E. injection E as <- <-. now apply K.
Qed.
Lemma safe_send_then {B} (bad : Prop) c p (k : unit -> M B) w : tame (w_srv w) ->
  (forall w', w_srv w' = w_srv w -> w_in w' = w_in w -> safe bad (k tt) w') -> safe bad (bindM (send c p) k) w.
Proof.
  intros T K. apply safe_bind; [now apply safe_send|].
  intros a w' E _ _. unfold send in E. injection E as <- <-. now apply K.
Qed.
Lemma safe_or_send {A B} (bad : Prop) (r : res A) c p (k : A -> M B) w : tame (w_srv w) -> r <> OutOfFuel -> (r = Panic -> bad) ->
  (forall a, r = Ok a -> safe bad (k a) w) -> safe bad (bindM (or_send r (send c p)) k) w.
Proof.
  intros T F P K. destruct r as [a|e| |]; cbn [or_send].
  - apply safe_lift; auto.
  - apply safe_bind.
    + apply safe_send_then; [exact T|]. intros w' E I. unfold safe, lift. now rewrite E.
    + intros a w' E. unfold bindM, send, lift in E. discriminate.
  - apply safe_lift; auto.
  - now elim F.
Qed.
Lemma safe_or_send_rd {B} (bad : Prop) n r c p (k : bytes * bytes -> M B) w : tame (w_srv w) ->
  (forall a r', r = a ++ r' -> length a = n -> safe bad (k (a, r')) w) -> safe bad (bindM (or_send (rd n r) (send c p)) k) w.
Proof.
  intros T K. apply safe_or_send; [exact T|apply rd_no_fuel|intro H; now apply rd_no_panic in H|].
  intros [a r'] E. apply rd_ok_inv in E as [E L]. now apply K.
Qed.
Lemma safe_weaken {A} (bad bad' : Prop) (m : M A) w : (bad -> bad') -> safe bad m w -> safe bad' m w.
Proof. unfold safe. destruct (m w) as [[| | |] ?]; auto. Qed.

(** *** Pieces *)

Lemma tame_set_cm m s : tame s -> tame (set_cm m s).
Proof. auto. Qed.
Lemma tame_prov_at s i : tame s -> tame_prov (prov_at s i).
Proof.
  intros [T _]. unfold prov_at. destruct (Nat.lt_ge_cases i (length (sv_provs s))) as [L|L].
  - now apply T, nth_In.
  - rewrite nth_overflow by exact L. apply tame_prov_empty.
Qed.
Lemma tame_set_prov i p s : tame s -> tame_prov p -> tame (set_prov i p s).
Proof.
  intros [T A] P. split; [|exact A]. cbn [set_prov sv_provs]. intros q I. apply in_setn in I as [->|I]; auto.
Qed.
Lemma conn_by_ot_safe s x : conn_by_ot s x <> Panic /\ conn_by_ot s x <> OutOfFuel.
Proof. unfold conn_by_ot. destruct (conn_get _ _); split; discriminate. Qed.
Lemma resolve_safe s x : resolve s x <> Panic /\ resolve s x <> OutOfFuel.
Proof. unfold resolve. destruct (lookup _ _); split; discriminate. Qed.
Lemma zlookup_in {A} k (m : list (Z * A)) v : zlookup k m = Some v -> In (k, v) m.
Proof.
  induction m as [|[x y] m IH]; cbn [zlookup]; [discriminate|].
  destruct (Z.eqb_spec x k) as [->|N]; intro H; [left; congruence|right; auto].
Qed.

Lemma safe_write_values (bad : Prop) i t vs w : tame (w_srv w) -> Forall not_nil vs -> (vs = [] -> bad) ->
  safe bad (write_values i t vs) w.
Proof.
  intros T F E. unfold write_values. apply safe_ask.
  assert (K : forall v p r, write_given (sv_conv (w_srv w)) (prov_at (w_srv w) i) t v = (p, r) ->
     match v with GiveOne g => not_nil g | GiveMany _ l => Forall not_nil l end ->
     safe bad (put_srv (set_prov i p) ;; lift r) w).
  { intros v p r H N. destruct (write_given_tame _ _ _ _ _ _ (tame_prov_at _ i T) N H) as (Tp & P1 & P2).
    unfold safe, bindM, put_srv, lift.
    destruct r; try congruence; (split; [now apply tame_set_prov|reflexivity]). }
  destruct vs as [|v [|v2 vs]].
  - apply safe_panic. auto.
  - destruct (write_given _ _ _ _) as [p r] eqn:W. apply (K _ _ _ W). now inversion F.
  - destruct (write_given _ _ _ _) as [p r] eqn:W. now apply (K _ _ _ W).
Qed.
Lemma safe_then_unit {B} (bad : Prop) (m : M unit) (k : M B) w : safe bad m w ->
  (forall w', tame (w_srv w') -> safe bad k w') -> safe bad (m ;; k) w.
Proof. intros S K. apply safe_bind; [exact S|]. intros _ w' _ T _. now apply K. Qed.
Lemma safe_unit_reply (bad : Prop) svc st pl w : tame (w_srv w) -> safe bad (unit_reply svc st pl) w.
Proof. intro T. unfold unit_reply. apply safe_ask. now apply safe_send. Qed.
Lemma safe_conn_reply (bad : Prop) svc q to pl w : tame (w_srv w) -> safe bad (conn_reply svc q to pl) w.
Proof. intro T. now apply safe_send. Qed.
Lemma safe_unconn_reply (bad : Prop) svc st pl w : tame (w_srv w) -> safe bad (unconn_reply svc st pl) w.
Proof. intro T. now apply safe_send. Qed.

Lemma bytes_ok_cons x l : bytes_ok (x :: l) -> byte_ok x /\ bytes_ok l.
Proof. intro H. now inversion H. Qed.
Ltac ok_app := repeat match goal with
  | H : bytes_ok (_ ++ _) |- _ => apply bytes_ok_app in H as [? ?]
  | H : bytes_ok (_ :: _) |- _ => apply bytes_ok_cons in H as [? ?]
  end.
Ltac one_byte a := destruct a as [|? [|]]; try discriminate.

Lemma safe_connected_write d0 r w : bytes_ok r -> tame (w_srv w) ->
  safe (exists l r', r = l :: r' /\ crash_write r') (connected_write d0 r) w.
Proof.
  intros B T. unfold connected_write.
  apply safe_rd; [exact T|]. intros l r1 -> L. one_byte l. ok_app. cbn [app].
  apply safe_lift; [exact T|apply tag_from_path_fuel| |].
  { intro P. exists z, r1. split; [reflexivity|]. apply cw_path. now apply tag_from_path_panic. }
  intros [tag r2] E. apply tag_from_path_ok in E as (p & -> & TP & B2); [|assumption].
  destruct (parse_write_safe r2) as [S1 S2].
  apply safe_lift; [exact T|exact S2|congruence|]. intros [vs r3] E2.
  destruct (parse_write_ok _ _ _ B2 E2) as (NN & B3 & Z0).
  apply safe_rd; [exact T|]. intros c r4 _ _. apply safe_ask.
  destruct (conn_by_ot_safe (w_srv w) (unle c)). apply safe_lift; [exact T|auto|congruence|]. intros cn _.
  destruct (resolve_safe (w_srv w) (sc_path cn)). apply safe_lift; [exact T|auto|congruence|]. intros i _.
  apply safe_then_unit; [|intros; now apply safe_unit_reply].
  apply safe_write_values; [exact T|exact NN|]. intro V. destruct (Z0 V) as (t & info & ->).
  eexists _, _. split; [reflexivity|]. now apply cw_none.
Qed.

Lemma sgn16_neg n : bytes_ok n -> length n = 2%nat -> sgn 16 (unle n) < 0 ->
  exists lo hi, n = [lo; hi] /\ 128 <= hi < 256.
Proof.
  intros B L H. destruct n as [|lo [|hi [|]]]; try discriminate. exists lo, hi. split; [reflexivity|].
  ok_app. unfold byte_ok in *. unfold sgn in H. cbn [unle] in H.
  destruct (Z.lt_ge_cases hi 128) as [C|C]; [exfalso|lia].
  change (2 ^ 16) with 65536 in H. change (2 ^ (16 - 1)) with 32768 in H.
  rewrite Z.mod_small in H by lia. destruct (Z.ltb_spec (lo + 256 * (hi + 256 * 0)) 32768); lia.
Qed.

Lemma safe_connected_read svc d0 d1 w : bytes_ok d1 -> tame (w_srv w) ->
  safe (exists h r, d1 = h ++ r /\ length h = 4%nat /\ crash_read r) (connected_read svc d0 d1) w.
Proof.
  intros B T. unfold connected_read, conn_error. apply safe_ask.
  apply safe_or_send_rd; [exact T|]. intros c c' _ _.
  destruct (conn_by_ot_safe (w_srv w) (unle c)). apply safe_or_send; [exact T|auto|congruence|]. intros cn _.
  apply safe_or_send_rd; [exact T|]. intros q r1 -> L1.
  apply safe_or_send_rd; [exact T|]. intros q2 r2 -> L2. ok_app.
  apply safe_or_send; [exact T|apply tag_from_path_fuel| |].
  { intro P. exists (q ++ q2), r2. rewrite <- app_assoc. split; [reflexivity|]. split; [rewrite app_length; lia|].
    apply cr_path. now apply tag_from_path_panic. }
  intros [tag r3] E. apply tag_from_path_ok in E as (p & -> & TP & B2); [|assumption].
  apply safe_or_send_rd; [exact T|]. intros n r4 -> L4. ok_app.
  destruct (resolve_safe (w_srv w) (sc_path cn)). apply safe_or_send; [exact T|auto|congruence|]. intros i _.
  destruct (tag_read_tame (prov_at (w_srv w) i) tag (sgn 16 (unle n)) (tame_prov_at _ i T)) as (R1 & R2 & R3).
  apply safe_or_send; [exact T|exact R1| |].
  { intro P. apply R2 in P. apply sgn16_neg in P as (lo & hi & -> & HI); [|assumption|exact L4].
    exists (q ++ q2), (p ++ lo :: hi :: r4). rewrite <- app_assoc. split; [reflexivity|].
    split; [rewrite app_length; lia|]. now constructor. }
  intros v V. destruct (read_payload_safe (pv_heap (prov_at (w_srv w) i)) v (R3 v V)).
  apply safe_lift; [exact T|assumption|congruence|]. intros pl _. now apply safe_conn_reply.
Qed.

Lemma safe_multi_sub i d1 off w : bytes_ok d1 -> tame (w_srv w) ->
  safe (off < -8 \/ -8 <= off /\ crash_sub (skipn (Z.to_nat (off + 8)) d1)) (multi_sub i d1 off) w.
Proof.
  intros B T. unfold multi_sub. set (bad := _ \/ _).
  apply safe_bind.
  { destruct (Z.leb_spec (len d1) (off + 8)); [now unfold safe, lift|]. unfold safe, lift, slice_from.
    destruct (Z.leb_spec 0 (off + 8)); destruct (Z.leb_spec (off + 8) (len d1)); cbn [andb]; auto; left; lia. }
  intros r w' E T' _. assert (w' = w /\ -8 <= off /\ r = skipn (Z.to_nat (off + 8)) d1) as (-> & O & ->).
  { destruct (Z.leb_spec (len d1) (off + 8)); unfold lift in E; [discriminate|]. unfold slice_from in E.
    destruct (Z.leb_spec 0 (off + 8)); destruct (Z.leb_spec (off + 8) (len d1)); cbn [andb] in E; try discriminate; try lia.
    injection E as <- <-. split; [reflexivity|]. split; [lia|reflexivity]. }
  clear E T'.
  assert (K : crash_sub (skipn (Z.to_nat (off + 8)) d1) -> bad) by (intro C; right; now split). clearbody bad.
  revert K. assert (B' : bytes_ok (skipn (Z.to_nat (off + 8)) d1)) by (now apply Forall_skipn). revert B'.
  generalize (skipn (Z.to_nat (off + 8)) d1). clear B d1 O off. intros r B K.
  apply safe_rd; [exact T|]. intros s r1 -> L1. one_byte s. apply safe_rd; [exact T|]. intros l r2 -> L2. one_byte l.
  cbn [app] in *. ok_app. rewrite unle1.
  destruct (Z.eqb_spec z svc_fragread) as [S1|S1]; [|destruct (Z.eqb_spec z svc_read) as [S2|S2]]; cbn [orb].
  1,2: assert (SV : z = 0x4C \/ z = 0x52) by (unfold svc_fragread, svc_read in *; auto);
    (apply safe_lift; [exact T|apply tag_from_path_fuel| |]);
    [intro P; apply K; apply cs_read; [exact SV|]; apply cr_path; now apply tag_from_path_panic|];
    intros [tag r3] E; apply tag_from_path_ok in E as (p & -> & TP & B2); [|assumption];
    (apply safe_rd; [exact T|]); intros n r4 -> L4; ok_app; apply safe_ask;
    destruct (tag_read_tame (prov_at (w_srv w) i) tag (sgn 16 (unle n)) (tame_prov_at _ i T)) as (R1 & R2 & R3);
    (apply safe_lift; [exact T|exact R1| |]);
    [intro P; apply R2 in P; apply sgn16_neg in P as (lo & hi & -> & HI); [|assumption|exact L4]; apply K; apply cs_read; [exact SV|];
     now constructor|];
    intros v V; destruct (pval_cip v =? T_string);
    [destruct v as [[]|]; first [now apply safe_fail | now apply safe_ret]|];
    destruct (buffer_ser_safe (pv_heap (prov_at (w_srv w) i)) v);
    (apply safe_lift; [exact T|assumption|congruence|]); intros b _; now apply safe_ret.
  destruct (Z.eqb_spec z svc_write) as [S3|S3]; [|destruct (Z.eqb_spec z svc_fragwrite) as [S4|S4]]; cbn [orb]; [| |now apply safe_ret].
  all: assert (SV : z = 0x4D \/ z = 0x53) by (unfold svc_write, svc_fragwrite in *; auto);
    (apply safe_lift; [exact T|apply tag_from_path_fuel| |]);
    [intro P; apply K; apply cs_path; [exact SV|]; now apply tag_from_path_panic|];
    intros [tag r3] E; apply tag_from_path_ok in E as (p & -> & TP & B2); [|assumption];
    (apply safe_rd; [exact T|]); intros t r4 -> L4; one_byte t;
    (apply safe_rd; [exact T|]); intros x r5 -> L5; one_byte x;
    (apply safe_rd; [exact T|]); intros n r6 -> L6; cbn [app] in *; ok_app;
    destruct (read_values_safe (Z.to_nat (unle n)) (unle [z1]) r6);
    (apply safe_lift; [exact T|assumption|congruence|]); intros [vs r7] E2;
    destruct (read_values_not_nil _ _ _ _ _ E2) as [NN LN];
    (apply safe_then_unit; [|intros; now apply safe_ret]);
    (apply safe_write_values; [exact T|exact NN|]); intros ->; cbn [length] in LN;
    destruct n as [|a [|b [|]]]; try discriminate;
    pose proof (unle_bound [a; b] ltac:(assumption)) as Ub;
    (destruct (unle2_zero a b) as [-> ->]; [assumption|lia|]);
    apply K; apply cs_none; [exact SV|exact TP].
Qed.

Lemma safe_multi_subs i d1 : bytes_ok d1 -> forall offs w, tame (w_srv w) ->
  safe (exists off, In off offs /\ (off < -8 \/ -8 <= off /\ crash_sub (skipn (Z.to_nat (off + 8)) d1)))
    (multi_subs i d1 offs) w.
Proof.
  intro B. induction offs as [|o os IH]; intros w T; cbn [multi_subs]; [now apply safe_ret|].
  apply safe_bind.
  - eapply safe_weaken; [|now apply safe_multi_sub]. intro C. exists o. split; [now left|exact C].
  - intros x w1 _ T1 _. apply safe_bind.
    + eapply safe_weaken; [|now apply IH]. intros (off & I & C). exists off. split; [now right|exact C].
    + intros xs w2 _ T2 _. now apply safe_ret.
Qed.
Lemma read_offsets_safe n : forall r, read_offsets n r <> Panic /\ read_offsets n r <> OutOfFuel.
Proof.
  induction n as [|n IH]; intro r; cbn [read_offsets]; [split; discriminate|].
  pose proof (rd_no_panic 2 r). pose proof (rd_no_fuel 2 r).
  destruct (rd 2 r) as [[o r1]| | |]; cbn [bind]; try (split; congruence).
  destruct (IH r1). destruct (read_offsets n r1) as [[os r2]| | |]; cbn [bind]; split; congruence.
Qed.
Lemma read_offsets_ok n : forall r offs r', bytes_ok r -> read_offsets n r = Ok (offs, r') ->
  exists table, r = table ++ r' /\ length table = (2 * n)%nat /\
    forall off, In off offs -> exists t1 o t2, table = t1 ++ o ++ t2 /\ Z.even (len t1) = true /\ length o = 2%nat /\
      off = signed_value o.
Proof.
  induction n as [|n IH]; intros r offs r' B; cbn [read_offsets].
  - intro H. assert (offs = []) as -> by congruence. assert (r = r') as <- by congruence.
    exists []. split; [reflexivity|]. split; [reflexivity|]. intros off [].
  - destruct (rd 2 r) as [[o r1]| | |] eqn:E1; cbn [bind]; try discriminate.
    apply rd_ok_inv in E1 as [-> L1]. apply bytes_ok_app in B as [Bo B1].
    destruct (read_offsets n r1) as [[os r2]| | |] eqn:E2; cbn [bind]; try discriminate.
    intro H. assert (offs = sgn 16 (unle o) :: os) as -> by congruence. assert (r2 = r') as -> by congruence.
    destruct (IH _ _ _ B1 E2) as (table & -> & LT & X).
    exists (o ++ table). rewrite <- app_assoc. split; [reflexivity|]. split; [rewrite app_length; lia|].
    intros off [<-|I].
    + exists [], o, table. split; [reflexivity|]. split; [reflexivity|]. split; [exact L1|].
      rewrite <- sgn_signed_value by exact Bo. unfold len. now rewrite L1.
    + destruct (X off I) as (t1 & o' & t2 & -> & E & L & ->). exists (o ++ t1), o', t2.
      split; [now rewrite <- !app_assoc|]. split; [|now split].
      unfold len in *. rewrite app_length, L1, Nat2Z.inj_add, Z.even_add, E. reflexivity.
Qed.

Lemma safe_connected_multi d0 d1 w : bytes_ok d1 -> nth 2 d1 0 = svc_multi -> tame (w_srv w) ->
  safe (crash_connected d1) (connected_multi d0 d1) w.
Proof.
  intros B SV T. unfold connected_multi.
  apply safe_rd; [exact T|]. intros c c' _ _. apply safe_ask.
  destruct (conn_by_ot_safe (w_srv w) (unle c)). apply safe_lift; [exact T|auto|congruence|]. intros cn _.
  destruct (resolve_safe (w_srv w) (sc_path cn)). apply safe_lift; [exact T|auto|congruence|]. intros i _.
  apply safe_rd; [exact T|]. intros q r1 E1 L1. apply safe_rd; [exact T|]. intros sv r2 -> L2.
  apply safe_rd; [exact T|]. intros pl r3 -> L3. one_byte pl. one_byte sv. destruct q as [|q0 [|q1 [|]]]; try discriminate.
  rewrite unle1. apply safe_rd; [exact T|]. intros path r4 -> L4. apply safe_rd; [exact T|]. intros n r5 -> L5.
  destruct (read_offsets_safe (Z.to_nat (unle n)) r5).
  cbn [app] in E1. rewrite E1 in SV. cbn [nth] in SV. subst z0.
  assert (B1 := B). rewrite E1 in B1. ok_app.
  apply safe_lift; [exact T|assumption|congruence|]. intros [offs r6] E.
  apply read_offsets_ok in E as (table & -> & LT & X); [|assumption].
  apply safe_bind; [|intros rs w' _ T' _; now apply safe_conn_reply].
  eapply safe_weaken; [|now apply safe_multi_subs].
  intros (off & I & C). destruct (X off I) as (t1 & o & t2 & -> & Ev & Lo & ->).
  destruct n as [|lo [|hi [|]]]; try discriminate.
  assert (U : 0 <= unle [lo; hi]) by (apply unle_bound; assumption).
  eapply cc_multi with (path := path) (lo := lo) (hi := hi) (table1 := t1) (o := o) (table2 := t2) (r := r6).
  - rewrite E1. cbn [app]. rewrite <- !app_assoc. reflexivity.
  - unfold len. rewrite L4. rewrite Z2Nat.id by (apply Z.mod_pos_bound; lia). f_equal. lia.
  - unfold len. rewrite LT. lia.
  - exact Ev.
  - exact Lo.
  - exact C.
Qed.

Lemma class_read_safe r : class_read r <> Panic /\ class_read r <> OutOfFuel.
Proof.
  unfold class_read. pose proof (rd_no_panic 1 r). pose proof (rd_no_fuel 1 r).
  destruct (rd 1 r) as [[t r1]| | |]; cbn [bind]; try (split; congruence).
  pose proof (rd_no_panic 1 r1). pose proof (rd_no_fuel 1 r1).
  destruct (_ =? 0x20); [destruct (rd 1 r1) as [[? ?]| | |]; cbn [bind]; split; congruence|].
  destruct (_ =? 0x21); [|split; discriminate].
  destruct (rd 1 r1) as [[? r2]| | |]; cbn [bind]; try (split; congruence).
  pose proof (rd_no_panic 2 r2). pose proof (rd_no_fuel 2 r2).
  destruct (rd 2 r2) as [[? ?]| | |]; cbn [bind]; split; congruence.
Qed.
Lemma attribute_read_safe r : attribute_read r <> Panic /\ attribute_read r <> OutOfFuel.
Proof.
  unfold attribute_read. pose proof (rd_no_panic 1 r). pose proof (rd_no_fuel 1 r).
  destruct (rd 1 r) as [[t r1]| | |]; cbn [bind]; try (split; congruence).
  pose proof (rd_no_panic 1 r1). pose proof (rd_no_fuel 1 r1).
  destruct (_ =? 0x30); [destruct (rd 1 r1) as [[? ?]| | |]; cbn [bind]; split; congruence|].
  destruct (_ =? 0x31); [|split; discriminate].
  destruct (rd 1 r1) as [[? r2]| | |]; cbn [bind]; try (split; congruence).
  pose proof (rd_no_panic 2 r2). pose proof (rd_no_fuel 2 r2).
  destruct (rd 2 r2) as [[? ?]| | |]; cbn [bind]; split; congruence.
Qed.
Lemma instance_read_safe r : instance_read r <> Panic /\ instance_read r <> OutOfFuel.
Proof.
  unfold instance_read. pose proof (rd_no_panic 1 r). pose proof (rd_no_fuel 1 r).
  destruct (rd 1 r) as [[t r1]| | |]; cbn [bind]; try (split; congruence).
  pose proof (rd_no_panic 1 r1). pose proof (rd_no_fuel 1 r1).
  destruct (_ =? 0x24); [destruct (rd 1 r1) as [[? ?]| | |]; cbn [bind]; split; congruence|].
  destruct (_ =? 0x25); [|destruct (_ =? 0x26); [|split; discriminate]].
  - destruct (rd 1 r1) as [[? r2]| | |]; cbn [bind]; try (split; congruence).
    pose proof (rd_no_panic 2 r2). pose proof (rd_no_fuel 2 r2).
    destruct (rd 2 r2) as [[? ?]| | |]; cbn [bind]; split; congruence.
  - destruct (rd 1 r1) as [[? r2]| | |]; cbn [bind]; try (split; congruence).
    pose proof (rd_no_panic 4 r2). pose proof (rd_no_fuel 4 r2).
    destruct (rd 4 r2) as [[? ?]| | |]; cbn [bind]; split; congruence.
Qed.

Lemma attr_tame s k v : tame s -> zlookup k (sv_attrs s) = Some v -> PV v <> PV GNil.
Proof. intros [_ A] H E. apply zlookup_in in H. apply (A k). congruence. Qed.

Lemma safe_lift_ok {A B} (bad : Prop) (r : res A) (k : A -> M B) w : tame (w_srv w) -> r <> Panic /\ r <> OutOfFuel ->
  (forall a, r = Ok a -> safe bad (k a) w) -> safe bad (bindM (lift r) k) w.
Proof. intros T [P F] K. apply safe_lift; auto. congruence. Qed.
Ltac safe_steps T :=
  repeat first
    [ match goal with
      | |- safe _ (bindM (lift (rd _ _)) _) _ =>
          apply safe_rd; [exact T|]; let a := fresh "b" in let r := fresh "r" in intros a r ? ?
      | |- safe _ (bindM (ask _) _) _ => apply safe_ask
      | |- safe _ (bindM (lift (conn_by_ot ?s ?x)) _) _ =>
          apply safe_lift_ok; [exact T|apply conn_by_ot_safe|intros ? _]
      | |- safe _ (bindM (lift (resolve ?s ?x)) _) _ =>
          apply safe_lift_ok; [exact T|apply resolve_safe|intros ? _]
      | |- safe _ (bindM (lift (class_read ?r)) _) _ =>
          apply safe_lift_ok; [exact T|apply class_read_safe|intros [? ?] ?]
      | |- safe _ (bindM (lift (instance_read ?r)) _) _ =>
          apply safe_lift_ok; [exact T|apply instance_read_safe|intros [? ?] ?]
      | |- safe _ (bindM (lift (attribute_read ?r)) _) _ =>
          apply safe_lift_ok; [exact T|apply attribute_read_safe|intros [? ?] ?]
      | |- safe _ (unit_reply _ _ _) _ => apply safe_unit_reply; exact T
      | |- safe _ (conn_reply _ _ _ _) _ => apply safe_conn_reply; exact T
      | |- safe _ (unconn_reply _ _ _) _ => apply safe_unconn_reply; exact T
      | |- safe _ fail _ => apply safe_fail; exact T
      | |- safe _ (if ?b then _ else _) _ => destruct b
      end ].

Lemma safe_connected_get_attr d0 d1 w : tame (w_srv w) -> safe False (connected_get_attr d0 d1) w.
Proof.
  intro T. unfold connected_get_attr. safe_steps T.
  destruct (zlookup _ (sv_attrs _)) as [v|] eqn:E; [|now apply safe_fail].
  destruct (item_ser_safe [] (PV v)); [eapply attr_tame; [exact T|exact E]|].
  apply safe_lift; [exact T|assumption|congruence|]. intros b4 _. safe_steps T.
Qed.

Lemma attr_int16_safe s k : attr_int16 s k <> Panic /\ attr_int16 s k <> OutOfFuel.
Proof.
  unfold attr_int16. destruct (zlookup k s) as [[]|]; try (split; discriminate).
  destruct signed; [destruct w as [|[|[|w]]]|]; split; discriminate.
Qed.
Lemma attr_uint32_safe s k : attr_uint32 s k <> Panic /\ attr_uint32 s k <> OutOfFuel.
Proof.
  unfold attr_uint32. destruct (zlookup k s) as [[]|]; try (split; discriminate).
  destruct signed; [|destruct w as [|[|[|[|[|w]]]]]]; split; discriminate.
Qed.
Lemma attr_string_safe s k : attr_string s k <> Panic /\ attr_string s k <> OutOfFuel.
Proof. unfold attr_string. destruct (zlookup k s) as [[]|]; split; discriminate. Qed.
Lemma identity_attrs_safe s : identity_attrs s <> Panic /\ identity_attrs s <> OutOfFuel.
Proof.
  unfold identity_attrs.
  destruct (attr_int16_safe s 1). destruct (attr_int16 s 1); cbn [bind]; try (split; congruence).
  destruct (attr_int16_safe s 2). destruct (attr_int16 s 2); cbn [bind]; try (split; congruence).
  destruct (attr_int16_safe s 3). destruct (attr_int16 s 3); cbn [bind]; try (split; congruence).
  destruct (attr_int16_safe s 4). destruct (attr_int16 s 4); cbn [bind]; try (split; congruence).
  destruct (attr_int16_safe s 5). destruct (attr_int16 s 5); cbn [bind]; try (split; congruence).
  destruct (attr_uint32_safe s 6). destruct (attr_uint32 s 6); cbn [bind]; try (split; congruence).
  destruct (attr_string_safe s 7). destruct (attr_string s 7); cbn [bind]; split; congruence.
Qed.
Lemma program_attrs_safe s : program_attrs s <> Panic /\ program_attrs s <> OutOfFuel.
Proof.
  unfold program_attrs. destruct (attr_string_safe s 7). destruct (attr_string s 7); cbn [bind]; split; congruence.
Qed.
Lemma class_instance_safe r : class_instance r <> Panic /\ class_instance r <> OutOfFuel.
Proof.
  unfold class_instance. destruct (class_read_safe r). destruct (class_read r) as [[? r1]| | |]; cbn [bind]; try (split; congruence).
  destruct (instance_read_safe r1). destruct (instance_read r1) as [[? ?]| | |]; cbn [bind]; split; congruence.
Qed.
Lemma safe_get_attribute_all (bad : Prop) reply r w : tame (w_srv w) ->
  (forall st pl w', tame (w_srv w') -> safe bad (reply st pl) w') -> safe bad (get_attribute_all reply r) w.
Proof.
  intros T R. unfold get_attribute_all. safe_steps T.
  destruct (class_instance_safe b0). unfold or_reply. destruct (class_instance b0) as [[c i]| | |]; try congruence; [|now apply R].
  destruct (c =? obj_identity); [|destruct (c =? 0x64); [|now apply R]]; (destruct (negb (i =? 1)); [now apply R|]).
  - destruct (identity_attrs_safe (sv_attrs (w_srv w))). apply safe_lift; [exact T|assumption|congruence|]. intros; now apply R.
  - destruct (program_attrs_safe (sv_attrs (w_srv w))). apply safe_lift; [exact T|assumption|congruence|]. intros; now apply R.
Qed.
Lemma safe_connected_symbols d0 w : tame (w_srv w) -> safe False (connected_symbols d0) w.
Proof. intro T. unfold connected_symbols. safe_steps T. Qed.

(** *** Unconnected *)

Lemma safe_unconnected_write r w : bytes_ok r -> tame (w_srv w) ->
  safe (exists l r', r = l :: r' /\ crash_write r') (unconnected_write r) w.
Proof.
  intros B T. unfold unconnected_write.
  apply safe_rd; [exact T|]. intros l r1 -> L. one_byte l. ok_app. cbn [app].
  apply safe_lift; [exact T|apply tag_from_path_fuel| |].
  { intro P. exists z, r1. split; [reflexivity|]. apply cw_path. now apply tag_from_path_panic. }
  intros [tag r2] E. apply tag_from_path_ok in E as (p & -> & TP & B2); [|assumption].
  destruct (parse_write_safe r2) as [S1 S2].
  apply safe_lift; [exact T|exact S2|congruence|]. intros [vs r3] E2.
  destruct (parse_write_ok _ _ _ B2 E2) as (NN & B3 & Z0). safe_steps T.
  apply safe_then_unit; [|intros; now apply safe_unconn_reply].
  apply safe_write_values; [exact T|exact NN|]. intro V. destruct (Z0 V) as (t & info & ->).
  eexists _, _. split; [reflexivity|]. now apply cw_none.
Qed.
Lemma safe_unconnected_read r w : bytes_ok r -> tame (w_srv w) ->
  safe (exists l r', r = l :: r' /\ crash_read r') (unconnected_read r) w.
Proof.
  intros B T. unfold unconnected_read.
  apply safe_rd; [exact T|]. intros l r1 -> L. one_byte l. ok_app. cbn [app].
  apply safe_lift; [exact T|apply tag_from_path_fuel| |].
  { intro P. exists z, r1. split; [reflexivity|]. apply cr_path. now apply tag_from_path_panic. }
  intros [tag r2] E. apply tag_from_path_ok in E as (p & -> & TP & B2); [|assumption].
  apply safe_rd; [exact T|]. intros n r4 -> L4. ok_app.
  apply safe_rd; [exact T|]. intros ps r5 -> L5. apply safe_rd; [exact T|]. intros path r6 -> L6. apply safe_ask.
  apply safe_lift; [exact T|apply resolve_safe|intro P; exfalso; revert P; apply resolve_safe|intros i _].
  destruct (tag_read_tame (prov_at (w_srv w) i) tag (sgn 16 (unle n)) (tame_prov_at _ i T)) as (R1 & R2 & R3).
  apply safe_lift; [exact T|exact R1| |].
  { intro P. apply R2 in P. apply sgn16_neg in P as (lo & hi & -> & HI); [|assumption|exact L4].
    eexists _, _. split; [reflexivity|]. now constructor. }
  intros v V. destruct (read_payload_safe (pv_heap (prov_at (w_srv w) i)) v (R3 v V)).
  apply safe_lift; [exact T|assumption|congruence|]. intros pl _. safe_steps T.
Qed.
Lemma safe_unconnected_get_attr r w : tame (w_srv w) -> safe False (unconnected_get_attr r) w.
Proof.
  intro T. unfold unconnected_get_attr. cbv zeta. safe_steps T.
  - destruct (symbolic_tag _ _) as [tag|]; safe_steps T.
    unfold or_reply. destruct (resolve_safe (w_srv w) [1; 0]).
    destruct (resolve (w_srv w) [1; 0]) as [i| | |]; try congruence; [|now apply safe_unconn_reply].
    destruct (tag_read_tame (prov_at (w_srv w) i) tag 1 (tame_prov_at _ i T)) as (R1 & R2 & R3).
    destruct (tag_read _ _ _) as [v| | |]; try congruence; [|now apply safe_unconn_reply|lia].
    destruct (item_ser_safe (pv_heap (prov_at (w_srv w) i)) v (R3 v eq_refl)).
    destruct v as [[]|]; try now apply safe_unconn_reply.
    all: apply safe_lift; [exact T|assumption|congruence|]; intros; now apply safe_unconn_reply.
  - destruct (zlookup _ (sv_attrs _)) as [v|] eqn:E; safe_steps T.
    destruct (item_ser_safe [] (PV v)); [eapply attr_tame; [exact T|exact E]|].
    apply safe_lift; [exact T|assumption|congruence|]. intros. safe_steps T.
Qed.
Lemma safe_unconnected_set_attr r w : bytes_ok r -> tame (w_srv w) -> safe False (unconnected_set_attr r) w.
Proof.
  intros B T. unfold unconnected_set_attr. cbv zeta. safe_steps T.
  destruct (symbolic_tag _ _) as [tag|]; safe_steps T.
  match goal with |- safe _ (bindM (lift (parse_write_values ?x)) _) _ => destruct (parse_write_safe x) as [S1 S2]; set (y := x) in * end.
  apply safe_lift; [exact T|exact S2|congruence|]. intros [vs r3] E2.
  assert (NN : Forall not_nil vs).
  { clear -E2. unfold parse_write_values in E2.
    destruct (rd 1 y) as [[t r1]| | |]; cbn [bind] in E2; try discriminate.
    destruct (rd 1 r1) as [[il r2]| | |]; cbn [bind] in E2; try discriminate.
    destruct (rd _ r2) as [[info r4]| | |]; cbn [bind] in E2; try discriminate.
    destruct (rd 2 r4) as [[q r5]| | |]; cbn [bind] in E2; try discriminate.
    destruct (_ =? T_struct); [destruct (_ =? 0x0FCE); [|discriminate]|].
    - now apply parse_strings_not_nil in E2.
    - now apply read_values_not_nil in E2. }
  destruct vs as [|v vs]; safe_steps T.
  unfold or_reply. destruct (resolve_safe (w_srv w) [1; 0]).
  destruct (resolve (w_srv w) [1; 0]) as [i| | |]; try congruence; [|now apply safe_unconn_reply].
  destruct (write_given _ _ _ _) as [p x] eqn:W.
  assert (Nv : not_nil v) by (now inversion NN).
  destruct (write_given_tame _ _ _ (GiveOne v) _ _ (tame_prov_at _ i T) Nv W) as (Tp & P1 & P2).
  apply safe_bind; [unfold safe, put_srv; cbn; split; [now apply tame_set_prov|reflexivity]|].
  intros [] w' _ T' _. destruct x; try congruence; now apply safe_unconn_reply.
Qed.

Lemma unle4_zero l : bytes_ok l -> length l = 4%nat -> unle l = 0 -> l = [0; 0; 0; 0].
Proof.
  intros B L H. destruct l as [|a [|b [|c [|d [|]]]]]; try discriminate.
  ok_app. unfold byte_ok in *. cbn [unle] in H. repeat f_equal; lia.
Qed.
Lemma nth_app1 (f r : bytes) k : (k < length f)%nat -> nth k (f ++ r) 0 = nth k f 0.
Proof. apply app_nth1. Qed.
Lemma firstn_skipn_app (f r : bytes) o n : (o + n <= length f)%nat ->
  firstn n (skipn o (f ++ r)) = firstn n (skipn o f).
Proof.
  intro L. rewrite skipn_app, firstn_app. replace (n - length (skipn o f))%nat with O by (rewrite skipn_length; lia).
  cbn [firstn]. apply app_nil_r.
Qed.
Lemma field1 (f : bytes) o : (o < length f)%nat -> unle (firstn 1 (skipn o f)) = nth o f 0.
Proof.
  revert o. induction f as [|a f IH]; intros [|o] L; cbn [length] in L; try lia.
  - cbn [skipn firstn nth]. apply unle1.
  - cbn [skipn nth]. apply IH. lia.
Qed.
Lemma safe_fwd_open (large : bool) d w : bytes_ok d -> nth 0 d 0 = (if large then svc_large_open else svc_open) ->
  tame (w_srv w) -> safe (crash_unconnected d) (fwd_open large d) w.
Proof.
  intros B SV T. unfold fwd_open. cbv zeta.
  apply safe_rd; [exact T|]. intros f r -> L.
  assert (Bf : bytes_ok f) by (now apply bytes_ok_app in B).
  apply safe_rd; [exact T|]. intros path r2 -> Lp.
  set (cps := unle (firstn 1 (skipn (37 + 2 * (if large then 4 else 2)) f))) in *.
  assert (Hc : cps = nth (37 + 2 * (if large then 4 else 2)) f 0) by (apply field1; lia).
  destruct (Z.ltb_spec (len path) 2) as [P|P].
  { apply safe_panic. assert (C : cps mod 128 = 0).
    { unfold len in P. rewrite Lp in P. pose proof (Z.mod_pos_bound (cps * 2) 256).
      assert (R : (cps * 2) mod 256 = 2 * (cps mod 128)).
      { rewrite (Z.mul_comm cps 2). change 256 with (2 * 128). apply Z.mul_mod_distr_l; lia. }
      rewrite R in *. pose proof (Z.mod_pos_bound cps 128). lia. }
    rewrite Hc in C. destruct large.
    - apply cu_large; [rewrite app_length; lia|exact SV|]. rewrite nth_app1 by lia. exact C.
    - apply cu_open; [rewrite app_length; lia|exact SV|]. rewrite nth_app1 by lia. exact C. }
  assert (D : forall x : Z, safe (crash_unconnected (f ++ path ++ r2)) (if x =? 0 then draw else ret x) w).
  { intro x. destruct (x =? 0); unfold safe, draw, ret; cbn; auto. }
  apply safe_bind; [apply D|]. intros to w1 E1 T1 _.
  assert (D1 : forall x : Z, safe (crash_unconnected (f ++ path ++ r2)) (if x =? 0 then draw else ret x) w1).
  { intro x. destruct (x =? 0); unfold safe, draw, ret; cbn; auto. }
  apply safe_bind; [apply D1|]. intros ot w2 E2 T2 _.
  apply safe_put_h; [exact T2|]. intros w3 E3 _. apply safe_send_then; [now rewrite E3|]. intros w4 E4 _.
  rewrite E3 in E4.
  apply safe_ask. apply safe_bind; [unfold safe, put_srv; cbn; rewrite E4; split; [exact T2|reflexivity]|].
  intros [] w5 E5 T5 _. destruct (negb large && _) eqn:IO; [|now apply safe_ret].
  apply safe_ask. apply safe_lift; [exact T5|apply resolve_safe|intro X; exfalso; revert X; apply resolve_safe|intros i _].
  destruct (Z.eqb_spec (unle (firstn 4 (skipn (32 + (if large then 4 else 2)) f))) 0) as [Z0|Z0].
  - apply safe_panic. apply andb_prop in IO as [NL IO]. destruct large; [discriminate|]. apply Z.eqb_eq in IO.
    apply cu_io; [exact SV| |].
    + rewrite nth_app1 by lia. rewrite <- IO. symmetry. apply field1. lia.
    + rewrite firstn_skipn_app by lia. apply unle4_zero; [now apply Forall_firstn, Forall_skipn| |exact Z0].
      rewrite firstn_length, skipn_length. lia.
  - unfold safe, put_srv. cbn. split; [exact T5|reflexivity].
Qed.
Lemma safe_fwd_close d w : tame (w_srv w) -> safe False (fwd_close d) w.
Proof.
  intro T. unfold fwd_close. safe_steps T. destruct (conn_close _ _) as [m ok].
  destruct (negb ok); [now apply safe_fail|].
  apply safe_bind; [unfold safe, put_srv; cbn; split; [exact T|reflexivity]|].
  intros [] w' _ T' _. apply safe_rd; [exact T'|]. intros. now apply safe_ret.
Qed.
Lemma safe_unconnected_data d w : bytes_ok d -> tame (w_srv w) -> safe (crash_unconnected d) (unconnected_data d) w.
Proof.
  intros B T. unfold unconnected_data. apply safe_rd; [exact T|]. intros sv r E L. one_byte sv. rewrite unle1.
  cbn [app] in E. assert (Br : bytes_ok r) by (rewrite E in B; now ok_app).
  destruct (Z.eqb_spec z svc_open) as [S|_]; [apply safe_fwd_open; [exact B|now rewrite E|exact T]|].
  destruct (Z.eqb_spec z svc_large_open) as [S|_]; [apply safe_fwd_open; [exact B|now rewrite E|exact T]|].
  destruct (z =? svc_forward_close); [eapply safe_weaken; [|now apply safe_fwd_close]; easy|].
  destruct (z =? svc_get_all); [apply safe_get_attribute_all; [exact T|intros; now apply safe_unconn_reply]|].
  destruct (z =? svc_get_single); [eapply safe_weaken; [|now apply safe_unconnected_get_attr]; easy|].
  destruct (z =? svc_set_single); [eapply safe_weaken; [|now apply safe_unconnected_set_attr]; easy|].
  destruct (Z.eqb_spec z svc_unconn) as [->|_]; [|now apply safe_unconn_reply].
  apply safe_rd; [exact T|]. intros ps r1 -> L1. one_byte ps. rewrite unle1.
  apply safe_rd; [exact T|]. intros path r2 -> L2.
  apply safe_rd; [exact T|]. intros t1 r3 -> L3. apply safe_rd; [exact T|]. intros t2 r4 -> L4.
  apply safe_rd; [exact T|]. intros em r5 -> L5. one_byte em. rewrite unle1. cbn [app] in *.
  assert (Lp : len path = (2 * z) mod 256).
  { unfold len. rewrite L2, Z2Nat.id by (apply Z.mod_pos_bound; lia). f_equal. lia. }
  assert (D : d = 0x52 :: z :: path ++ (t1 ++ t2) ++ z0 :: r5) by (rewrite E; now rewrite <- app_assoc).
  assert (Lt : length (t1 ++ t2) = 4%nat) by (rewrite app_length; lia).
  ok_app. unfold embedded.
  destruct (Z.eqb_spec z0 svc_write) as [->|_].
  { eapply safe_weaken; [|now apply safe_unconnected_write]. intros (l & r' & -> & C). rewrite D. now apply cu_write. }
  destruct (Z.eqb_spec z0 svc_read) as [->|_].
  { eapply safe_weaken; [|now apply safe_unconnected_read]. intros (l & r' & -> & C). rewrite D. now apply cu_read. }
  destruct (z0 =? svc_get_single); [eapply safe_weaken; [|now apply safe_unconnected_get_attr]; easy|].
  destruct (z0 =? svc_set_single); [eapply safe_weaken; [|now apply safe_unconnected_set_attr]; easy|].
  destruct (z0 =? svc_get_all); [apply safe_get_attribute_all; [exact T|intros; now apply safe_unconn_reply]|].
  now apply safe_unconn_reply.
Qed.

(** *** Frames *)

Definition fed (w : world) (r : bytes) : world := World (w_srv w) (w_h w) r (w_sent w).
Lemma fed_srv w r : w_srv (fed w r) = w_srv w. Proof. reflexivity. Qed.
Lemma take_cases n w :
  (exists b r, w_in w = b ++ r /\ length b = n /\ take n w = (Ok b, fed w r)) \/
  (exists e, take n w = (Err e, fed w [])).
Proof.
  unfold take. destruct (rd n (w_in w)) as [[b r]|e| |] eqn:E.
  - left. exists b, r. apply rd_ok_inv in E as [-> L]. auto.
  - right. now exists e.
  - now apply rd_no_panic in E.
  - now apply rd_no_fuel in E.
Qed.

(** After a handler: tame; some of the input is gone. *)
Definition safe_in {A} (bad : Prop) (m : M A) (w : world) : Prop :=
  match m w with
  | (Ok _, w') => tame (w_srv w') /\ exists f, w_in w = f ++ w_in w'
  | (Err _, w') => tame (w_srv w')
  | (Panic, _) => bad
  | (OutOfFuel, _) => False
  end.
Lemma safe_in_safe {A} (bad : Prop) (m : M A) w : safe bad m w -> safe_in bad m w.
Proof.
  unfold safe, safe_in. destruct (m w) as [[| | |] w']; try tauto. intros [T I]. split; [exact T|]. exists []. now rewrite I.
Qed.
Lemma safe_in_take {B} (bad : Prop) n (k : bytes -> M B) w : tame (w_srv w) ->
  (forall b r, w_in w = b ++ r -> length b = n -> safe_in bad (k b) (fed w r)) -> safe_in bad (bindM (take n) k) w.
Proof.
  intros T K. unfold safe_in, bindM. destruct (take_cases n w) as [(b & r & I & L & ->)|(e & ->)]; [|exact T].
  specialize (K b r I L). unfold safe_in in K. destruct (k b (fed w r)) as [[| | |] w']; auto.
  destruct K as [T' [f F]]. split; [exact T'|]. exists (b ++ f). rewrite I. cbn [fed w_in] in F. rewrite F. apply app_assoc.
Qed.
Lemma safe_in_items (bad : Prop) (k : list item -> M unit) w : tame (w_srv w) -> bytes_ok (w_in w) ->
  (forall its r, w_in w = wire_list (contents its) ++ r -> safe bad (k its) (fed w r)) ->
  safe_in bad (with_items k) w.
Proof.
  intros T B K. unfold with_items, safe_in, bindM, ask. destruct (read_items_safe (w_in w)) as [P F].
  destruct (read_items (w_in w)) as [[its r]|e| |] eqn:E; try congruence; [|exact T].
  apply read_items_sound in E as [I _]; [|exact B]. specialize (K its r I).
  unfold safe in K. fold (fed w r). destruct (k its (fed w r)) as [[| | |] w']; auto.
  - destruct K as [T' I']. split; [exact T'|]. exists (wire_list (contents its)). rewrite I'. exact I.
  - now destruct K.
Qed.

Lemma bytes_ok_sub (a b : bytes) : bytes_ok (a ++ b) -> bytes_ok b.
Proof. intro H. now apply bytes_ok_app in H. Qed.
Lemma wire_two_ok (x y : item) r : bytes_ok (wire_list (contents [x; y]) ++ r) -> bytes_ok (it_data y).
Proof.
  intro H. apply bytes_ok_app in H as [H _]. unfold wire_list in H. cbn [contents map concat fst snd wire_item] in H.
  unfold wire_item in H. cbn [fst snd] in H. ok_app. assumption.
Qed.
Lemma unle_le2_inv l c : bytes_ok l -> length l = 2%nat -> unle l = c -> l = le 2 c.
Proof. intros B L <-. pose proof (le_unle l B) as E. rewrite L in E. now symmetry. Qed.

Lemma safe_unit_items its w : Forall (fun i => bytes_ok (it_data i)) its -> tame (w_srv w) ->
  safe (exists i0 i1, its = [i0; i1] /\ it_id i0 = item_connaddr /\ crash_connected (it_data i1)) (unit_items its) w.
Proof.
  intros B T. unfold unit_items. destruct its as [|i0 [|i1 [|]]]; try now apply safe_fail.
  inversion B as [|? ? _ B']; subst. inversion B' as [|? ? Bd _]; subst. clear B B'.
  destruct (Z.eqb_spec (it_id i0) item_connaddr) as [A1|]; cbn [negb]; [|now apply safe_fail].
  eapply safe_weaken with (bad := crash_connected (it_data i1)); [intro C; exists i0, i1; auto|].
  apply safe_rd; [exact T|]. intros ot x _ _. apply safe_rd; [exact T|]. intros q r3 Eq Lq.
  apply safe_put_h; [exact T|]. intros w2 E2 _. assert (T2 : tame (w_srv w2)) by (now rewrite E2). clear E2.
  apply safe_rd; [exact T2|]. intros sv r4 -> Ls. one_byte sv. rewrite unle1.
  destruct q as [|q0 [|q1 [|]]]; try discriminate. cbn [app] in Eq. set (d1 := it_data i1) in *.
  assert (B4 : bytes_ok r4) by (rewrite Eq in Bd; now ok_app). cbv zeta.
  destruct (Z.eqb_spec z svc_write) as [->|_].
  { eapply safe_weaken; [|now apply safe_connected_write]. intros (l & r' & -> & C). rewrite Eq. now apply cc_write. }
  destruct (Z.eqb_spec z svc_fragread) as [->|_]; cbn [orb].
  { eapply safe_weaken; [|now apply safe_connected_read]. intros (h & r' & E & L & C). rewrite E in *.
    destruct h as [|h0 [|h1 [|h2 [|h3 [|]]]]]; try discriminate. cbn [app] in *. injection Eq as -> -> -> Eq.
    apply cc_read; [now right|exact C]. }
  destruct (Z.eqb_spec z svc_read) as [->|_].
  { eapply safe_weaken; [|now apply safe_connected_read]. intros (h & r' & E & L & C). rewrite E in *.
    destruct h as [|h0 [|h1 [|h2 [|h3 [|]]]]]; try discriminate. cbn [app] in *. injection Eq as -> -> -> Eq.
    apply cc_read; [now left|exact C]. }
  destruct (Z.eqb_spec z svc_multi) as [->|_]; [apply safe_connected_multi; [exact Bd|now rewrite Eq|exact T2]|].
  destruct (z =? svc_get_single); [eapply safe_weaken; [|now apply safe_connected_get_attr]; easy|].
  destruct (z =? svc_get_all); [apply safe_get_attribute_all; [exact T2|intros; now apply safe_unit_reply]|].
  destruct (z =? svc_list); [eapply safe_weaken; [|now apply safe_connected_symbols]; easy|].
  now apply safe_unit_reply.
Qed.
Lemma safe_rr_items its w : Forall (fun i => bytes_ok (it_data i)) its -> tame (w_srv w) ->
  safe (exists i0 i1, its = [i0; i1] /\
          ((it_id i1 = 0xB1 /\ exists h r, it_data i1 = h ++ r /\ length h = 4%nat /\ crash_read r) \/
           (it_id i1 = 0xB2 /\ crash_unconnected (it_data i1))))
    (rr_items its) w.
Proof.
  intros B T. unfold rr_items. destruct its as [|i0 [|i1 [|]]]; try now apply safe_fail.
  inversion B as [|? ? _ B']; subst. inversion B' as [|? ? Bd _]; subst. clear B B'.
  destruct (Z.eqb_spec (it_id i1) item_conndata) as [D|_].
  { apply safe_rd; [exact T|]. intros sv x _ _. eapply safe_weaken; [|now apply safe_connected_read].
    intro C. exists i0, i1. split; [reflexivity|]. left. split; [exact D|exact C]. }
  destruct (Z.eqb_spec (it_id i1) item_unconndata) as [D|_]; [|now apply safe_ret].
  eapply safe_weaken; [|now apply safe_unconnected_data]. intro C. exists i0, i1. split; [reflexivity|]. right. split; [exact D|exact C].
Qed.
Lemma contents_ok (its : list item) r : bytes_ok (wire_list (contents its) ++ r) -> Forall (fun i => bytes_ok (it_data i)) its.
Proof.
  intro H. apply bytes_ok_app in H as [H _]. unfold wire_list in H. apply bytes_ok_app in H as [_ H].
  induction its as [|i its IH]; [constructor|]. cbn [contents map concat] in H. apply bytes_ok_app in H as [H1 H2].
  unfold wire_item in H1. cbn [fst snd] in H1. ok_app. apply Forall_cons; [assumption|]. now apply IH.
Qed.

Lemma safe_unit_data w : bytes_ok (w_in w) -> tame (w_srv w) ->
  safe_in (exists six a id d rest, w_in w = six ++ wire_list [(0xA1, a); (id, d)] ++ rest /\ length six = 6%nat /\ crash_connected d)
    unit_data w.
Proof.
  intros B T. unfold unit_data.
  apply safe_in_take; [exact T|]. intros b1 r1 I1 L1. apply safe_in_take; [exact T|]. intros b2 r2 I2 L2.
  cbn [fed w_in] in I2. rewrite I2 in I1. assert (B2 : bytes_ok r2) by (rewrite I1 in B; now apply bytes_ok_sub, bytes_ok_sub in B).
  apply safe_in_items; [exact T|exact B2|]. intros its r I. cbn [fed w_in w_srv w_h w_sent] in *. rewrite I in I1, B2.
  eapply safe_weaken; [|apply safe_unit_items; [now apply contents_ok in B2|exact T]].
  intros (i0 & i1 & -> & A1 & C).
  exists (b1 ++ b2), (it_data i0), (it_id i1), (it_data i1), r. split; [|split; [rewrite app_length; lia|exact C]].
  rewrite I1. rewrite <- app_assoc. unfold contents. cbn [map]. now rewrite A1.
Qed.
Lemma safe_rr_data w : bytes_ok (w_in w) -> tame (w_srv w) ->
  safe_in (exists six a id i d rest, w_in w = six ++ wire_list [(id, a); (i, d)] ++ rest /\ length six = 6%nat /\
             ((i = 0xB1 /\ exists h r, d = h ++ r /\ length h = 4%nat /\ crash_read r) \/ (i = 0xB2 /\ crash_unconnected d)))
    rr_data w.
Proof.
  intros B T. unfold rr_data.
  apply safe_in_take; [exact T|]. intros b1 r1 I1 L1. apply safe_in_take; [exact T|]. intros b2 r2 I2 L2.
  cbn [fed w_in] in I2. rewrite I2 in I1. assert (B2 : bytes_ok r2) by (rewrite I1 in B; now apply bytes_ok_sub, bytes_ok_sub in B).
  apply safe_in_items; [exact T|exact B2|]. intros its r I. cbn [fed w_in w_srv w_h w_sent] in *. rewrite I in I1, B2.
  eapply safe_weaken; [|apply safe_rr_items; [now apply contents_ok in B2|exact T]].
  intros (i0 & i1 & -> & C).
  exists (b1 ++ b2), (it_data i0), (it_id i0), (it_id i1), (it_data i1), r. split; [|split; [rewrite app_length; lia|exact C]].
  rewrite I1. now rewrite <- app_assoc.
Qed.

Lemma safe_in_serve_one w : bytes_ok (w_in w) -> tame (w_srv w) ->
  match serve_one w with
  | (Ok _, w') => tame (w_srv w') /\ exists f, w_in w = f ++ w_in w' /\ (24 <= length f)%nat
  | (Err _, w') => tame (w_srv w')
  | (Panic, _) => exists f rest, w_in w = f ++ rest /\ crash_frame f
  | (OutOfFuel, _) => False
  end.
Proof.
  intros B T. unfold serve_one, bindM at 1.
  destruct (take_cases 24 w) as [(hb & r & I & L & ->)|(e & ->)]; [|exact T].
  rewrite I in B. pose proof (bytes_ok_sub _ _ B) as Br. apply bytes_ok_app in B as [Bh _].
  cbv zeta. unfold bindM at 1, put_h at 1. cbn [fed w_srv w_h w_in w_sent].
  match goal with |- context [World ?a ?b ?c ?d] => set (w1 := World a b c d) end.
  assert (T1 : tame (w_srv w1)) by exact T. assert (I1 : w_in w1 = r) by reflexivity. clearbody w1.
  assert (K : forall (m : M unit) (P : Prop), (P -> exists f rest, w_in w = f ++ rest /\ crash_frame f) -> safe_in P m w1 ->
    match m w1 with
    | (Ok _, w') => tame (w_srv w') /\ exists f, w_in w = f ++ w_in w' /\ (24 <= length f)%nat
    | (Err _, w') => tame (w_srv w')
    | (Panic, _) => exists f rest, w_in w = f ++ rest /\ crash_frame f
    | (OutOfFuel, _) => False
    end).
  { intros m P C S. unfold safe_in in S. destruct (m w1) as [[[]|e| |] w']; auto.
    destruct S as [T' [f F]]. split; [exact T'|]. exists (hb ++ f). rewrite I, <- I1, F, <- app_assoc.
    split; [reflexivity|rewrite app_length; lia]. }
  assert (Hc : forall c, eh_command (header_of hb) = c -> firstn 2 hb = le 2 c).
  { intros c E. apply unle_le2_inv; [now apply Forall_firstn|rewrite firstn_length; lia|exact E]. }
  destruct (Z.eqb_spec (eh_command (header_of hb)) cmd_register) as [_|_].
  { apply (K _ False); [easy|]. unfold register_session. apply safe_in_take; [exact T1|]. intros reg r2 _ _.
    apply safe_in_safe. apply safe_bind.
    - destruct (_ =? 0); unfold safe, draw, ret; cbn; auto.
    - intros hd w2 _ T2 _. apply safe_put_h; [exact T2|]. intros w3 E3 _. apply safe_send. now rewrite E3. }
  destruct (Z.eqb_spec (eh_command (header_of hb)) cmd_rrdata) as [E|_].
  { eapply K; [|apply safe_rr_data; [now rewrite I1|exact T1]].
    intros (six & a & id & i & d & rest & E1 & L1 & C). rewrite I1 in E1.
    exists (hb ++ six ++ wire_list [(id, a); (i, d)]), rest. split; [rewrite I, E1, <- !app_assoc; reflexivity|].
    destruct C as [(-> & h & x & -> & Lh & C)|(-> & C)].
    - apply cf_connected; [exact L|now apply Hc in E|exact L1|exact Lh|exact C].
    - apply cf_unconnected; [exact L|now apply Hc in E|exact L1|exact C]. }
  destruct (Z.eqb_spec (eh_command (header_of hb)) cmd_unitdata) as [E|_].
  { eapply K; [|apply safe_unit_data; [now rewrite I1|exact T1]].
    intros (six & a & id & d & rest & E1 & L1 & C). rewrite I1 in E1.
    exists (hb ++ six ++ wire_list [(0xA1, a); (id, d)]), rest. split; [rewrite I, E1, <- !app_assoc; reflexivity|].
    apply cf_unit; [exact L|now apply Hc in E|exact L1|exact C]. }
  destruct (_ =? cmd_listservices); [apply (K _ False); [easy|]; apply safe_in_safe; now apply safe_send|].
  destruct (_ =? cmd_listidentity); [|apply (K _ False); [easy|]; apply safe_in_safe; now apply safe_ret].
  apply (K _ False); [easy|]. apply safe_in_safe. unfold list_identity. apply safe_ask.
  apply safe_lift_ok; [exact T1| |intros; now apply safe_send].
  unfold identity_body. destruct (identity_attrs_safe (sv_attrs (w_srv w1))).
  destruct (identity_attrs _); cbn [bind]; split; congruence.
Qed.

(** ** The site *)

Definition tame_site (s : site) : Prop :=
  tame (si_srv s) /\ forall k p, nth_error (si_peers s) k = Some p -> pe_open p = true -> bytes_ok (pe_in p).

Lemma setn_nth_error {A} (l : list A) k x p : nth_error (setn l k x) p =
  if Nat.eqb p k then match nth_error l k with Some _ => Some x | None => None end else nth_error l p.
Proof.
  revert k p. induction l as [|a l IH]; intros k p; cbn [setn].
  - destruct p, k; cbn; try reflexivity. destruct (Nat.eqb p k); reflexivity.
  - destruct k, p; cbn [nth_error Nat.eqb setn]; auto.
Qed.
(** The open connections of the second were open in the first, with more to come. *)
Definition later (a b : site) : Prop :=
  forall k q, nth_error (si_peers b) k = Some q -> pe_open q = true ->
  exists p x, nth_error (si_peers a) k = Some p /\ pe_open p = true /\ pe_in p = x ++ pe_in q.
Definition doomed (s : site) : Prop :=
  exists k p, nth_error (si_peers s) k = Some p /\ pe_open p = true /\ contains (pe_in p) crash_frame.
Lemma later_refl s : later s s.
Proof. intros k q E O. exists q, []. auto. Qed.
Lemma later_doomed a b : later a b -> doomed b -> doomed a.
Proof.
  intros L (k & q & E & O & u & f & v & I & C). destruct (L k q E O) as (p & x & E1 & O1 & I1).
  exists k, p. split; [exact E1|]. split; [exact O1|]. exists (x ++ u), f, v. split; [|exact C]. rewrite I1, I. apply app_assoc.
Qed.
Lemma later_tame a b : tame_site a -> later a b -> tame (si_srv b) -> tame_site b.
Proof.
  intros [_ A] L T. split; [exact T|]. intros k q E O. destruct (L k q E O) as (p & x & E1 & O1 & I1).
  specialize (A k p E1 O1). rewrite I1 in A. now apply bytes_ok_sub in A.
Qed.
Lemma happen_safe s e : tame_site s -> si_down s = false -> tame_happening e ->
  (tame_site (happen s e) /\ si_down (happen s e) = false /\ later s (happen s e)) \/ doomed s.
Proof.
  intros TS D TE. assert (Stay : tame_site s /\ si_down s = false /\ later s s) by auto using later_refl.
  unfold happen. rewrite D. destruct e as [k|i tag v].
  - destruct (nth_error (si_peers s) k) as [p|] eqn:E; [|now left].
    destruct (pe_open p) eqn:O; cbn [negb]; [|now left].
    pose proof TS as [T B]. pose proof (safe_in_serve_one (World (si_srv s) (pe_h p) (pe_in p) (pe_sent p)) (B k p E O) T) as H.
    cbn [w_in] in H. destruct (serve_one _) as [[[]|x| |] w].
    + left. destruct H as [T' (f & F & _)].
      assert (L : later s (Site (w_srv w) (setn (si_peers s) k (Peer (w_h w) (w_in w) (w_sent w) true)) false)).
      { intros j q. cbn [si_peers]. rewrite setn_nth_error. destruct (Nat.eqb_spec j k) as [->|N].
        - rewrite E. intro Q. assert (q = Peer (w_h w) (w_in w) (w_sent w) true) as -> by congruence.
          intros _. exists p, f. auto.
        - intros Q Oq. exists q, []. auto. }
      split; [|split; [reflexivity|exact L]]. now apply (later_tame s).
    + left.
      assert (L : later s (Site (w_srv w) (setn (si_peers s) k (Peer (w_h w) (w_in w) (w_sent w) false)) false)).
      { intros j q. cbn [si_peers]. rewrite setn_nth_error. destruct (Nat.eqb_spec j k) as [->|N].
        - rewrite E. intro Q. assert (q = Peer (w_h w) (w_in w) (w_sent w) false) as -> by congruence. discriminate.
        - intros Q Oq. exists q, []. auto. }
      split; [|split; [reflexivity|exact L]]. now apply (later_tame s).
    + right. destruct H as (f & rest & F & C). exists k, p. split; [exact E|]. split; [exact O|].
      exists [], f, rest. auto.
    + destruct H.
  - left. destruct (write_given _ _ _ _) as [p r] eqn:W. pose proof TS as [T B].
    assert (NV : match v with GiveOne g => not_nil g | GiveMany _ l => Forall not_nil l end).
    { destruct v as [g|el l]; cbn in TE; [exact TE|]. rewrite Forall_forall. intros g I ->. now apply TE. }
    destruct (write_given_tame _ _ _ v _ _ (tame_prov_at _ i T) NV W) as (Tp & _ & _).
    assert (L : later s (Site (set_prov i p (si_srv s)) (si_peers s) false)) by (intros j q Q O; exists q, []; auto).
    split; [|split; [reflexivity|exact L]]. apply (later_tame s); [exact TS|exact L|]. now apply tame_set_prov.
Qed.
Lemma happens_safe es : forall s, tame_site s -> si_down s = false -> Forall tame_happening es ->
  si_down (happens s es) = true -> doomed s.
Proof.
  induction es as [|e es IH]; intros s TS D F; cbn [happens fold_left]; [congruence|].
  inversion F as [|? ? F1 F2]; subst. intro H. fold (happens (happen s e) es) in H.
  destruct (happen_safe s e TS D F1) as [(T1 & D1 & L)|X]; [|exact X].
  apply (later_doomed _ _ L). now apply IH.
Qed.

(** The loop of one connection ends: every turn takes 24 bytes. *)
Lemma serve_ends n : forall w, (length (w_in w) < n)%nat -> bytes_ok (w_in w) -> tame (w_srv w) ->
  match serve n w with
  | (Ok _, _) | (OutOfFuel, _) => False
  | (Err _, w') => tame (w_srv w')
  | (Panic, _) => contains (w_in w) crash_frame
  end.
Proof.
  induction n as [|n IH]; intros w L B T; [lia|]. cbn [serve]. unfold bindM.
  pose proof (safe_in_serve_one w B T) as H. destruct (serve_one w) as [[[]|x| |] w1]; auto.
  - destruct H as [T1 (f & I & Lf)].
    assert (B1 : bytes_ok (w_in w1)) by (rewrite I in B; now apply bytes_ok_sub in B).
    assert (L1 : (length (w_in w1) < n)%nat) by (rewrite I, app_length in L; lia).
    specialize (IH w1 L1 B1 T1). destruct (serve n w1) as [[[]|y| |] w2]; auto.
    destruct IH as (u & g & v & E1 & C). exists (f ++ u), g, v. split; [|exact C]. rewrite I, E1. apply app_assoc.
  - destruct H as (f & rest & I & C). exists [], f, rest. auto.
Qed.

(** ** Replies *)

Definition keeps (w w' : world) : Prop :=
  h_handle (w_h w') = h_handle (w_h w) /\ h_context (w_h w') = h_context (w_h w) /\ h_options (w_h w') = h_options (w_h w).
Definition quiet {A} (m : M A) (w : world) : Prop := keeps w (snd (m w)) /\ w_sent (snd (m w)) = w_sent w.
Definition reply_of (w : world) (f : bytes) : Prop :=
  exists cmd part, f = server_msg_build (h_handle (w_h w)) (h_context (w_h w)) (h_options (w_h w)) cmd [part].
(** At most one reply; when [must], one reply unless the handler failed. *)
Definition answers {A} (must : bool) (m : M A) (w : world) : Prop :=
  keeps w (snd (m w)) /\
  ((w_sent (snd (m w)) = w_sent w /\ (must = true -> forall a, fst (m w) <> Ok a)) \/
   exists f, w_sent (snd (m w)) = w_sent w ++ [f] /\ reply_of w f).

Lemma keeps_refl w : keeps w w. Proof. unfold keeps. auto. Qed.
Lemma keeps_trans a b c : keeps a b -> keeps b c -> keeps a c.
Proof. unfold keeps. intuition congruence. Qed.
Lemma reply_of_keeps w w' f : keeps w w' -> reply_of w' f -> reply_of w f.
Proof. intros (H1 & H2 & H3) (c & p & ->). exists c, p. now rewrite H1, H2, H3. Qed.

Lemma quiet_lift {A} (r : res A) w : quiet (lift r) w.
Proof. split; [apply keeps_refl|reflexivity]. Qed.
Lemma quiet_ask {A} (f : world -> A) w : quiet (ask f) w.
Proof. split; [apply keeps_refl|reflexivity]. Qed.
Lemma quiet_ret {A} (a : A) w : quiet (ret a) w.
Proof. split; [apply keeps_refl|reflexivity]. Qed.
Lemma quiet_put_srv f w : quiet (put_srv f) w.
Proof. split; [split; [reflexivity|split; reflexivity]|reflexivity]. Qed.
Lemma quiet_draw w : quiet draw w.
Proof. split; [split; [reflexivity|split; reflexivity]|reflexivity]. Qed.
Lemma quiet_take n w : quiet (take n) w.
Proof.
  unfold quiet. destruct (take_cases n w) as [(b & r & I & L & ->)|(e & ->)];
    (split; [split; [reflexivity|split; reflexivity]|reflexivity]).
Qed.
Lemma quiet_bind {A B} (m : M A) (k : A -> M B) w : quiet m w -> (forall a w', quiet (k a) w') -> quiet (bindM m k) w.
Proof.
  unfold quiet, bindM. intros [K1 S1] H. destruct (m w) as [[a|e| |] w1]; cbn [fst snd] in *; auto.
  destruct (H a w1) as [K2 S2]. split; [now apply (keeps_trans _ w1)|congruence].
Qed.
Lemma ans_quiet {A B} (must : bool) (m : M A) (k : A -> M B) w : quiet m w ->
  (forall a w', m w = (Ok a, w') -> keeps w w' -> answers must (k a) w') -> answers must (bindM m k) w.
Proof.
  unfold quiet, answers, bindM. intros [K1 S1] H. destruct (m w) as [[a|e| |] w1] eqn:E; cbn [fst snd] in *.
  - destruct (H a w1 eq_refl K1) as [K2 C]. split; [now apply (keeps_trans _ w1)|].
    destruct C as [[S2 N]|(f & S2 & R)]; [left; split; [congruence|exact N]|].
    right. exists f. split; [congruence|now apply (reply_of_keeps _ w1)].
  - split; [exact K1|]. left. split; [exact S1|discriminate].
  - split; [exact K1|]. left. split; [exact S1|discriminate].
  - split; [exact K1|]. left. split; [exact S1|discriminate].
Qed.
Lemma ans_then {A B} (must : bool) (m : M A) (k : A -> M B) w : answers must m w ->
  (forall a w', quiet (k a) w') -> answers must (bindM m k) w.
Proof.
  unfold quiet, answers, bindM. intros [K1 C] H. destruct (m w) as [[a|e| |] w1] eqn:E; cbn [fst snd] in *; auto.
  - destruct (H a w1) as [K2 S2]. split; [now apply (keeps_trans _ w1)|].
    destruct C as [[S1 N]|(f & S1 & R)].
    + left. split; [congruence|]. intros M. exfalso. now apply (N M a).
    + right. exists f. split; [congruence|exact R].
  - split; [exact K1|]. destruct C as [[S1 N]|X]; [left; split; [exact S1|discriminate]|now right].
  - split; [exact K1|]. destruct C as [[S1 N]|X]; [left; split; [exact S1|discriminate]|now right].
  - split; [exact K1|]. destruct C as [[S1 N]|X]; [left; split; [exact S1|discriminate]|now right].
Qed.
Lemma ans_lift {A B} (must : bool) (r : res A) (k : A -> M B) w : (forall a, r = Ok a -> answers must (k a) w) ->
  answers must (bindM (lift r) k) w.
Proof.
  intro H. apply ans_quiet; [apply quiet_lift|]. intros a w' E _. injection E as -> <-. now apply H.
Qed.
Lemma ans_ask {A B} (must : bool) (f : world -> A) (k : A -> M B) w : answers must (k (f w)) w -> answers must (bindM (ask f) k) w.
Proof. unfold answers, bindM, ask. auto. Qed.
Lemma ans_send must c p w : answers must (send c p) w.
Proof. split; [split; [reflexivity|split; reflexivity]|]. right. eexists. split; [reflexivity|]. now exists c, p. Qed.
Lemma ans_lifted {A} must (r : res A) w : (forall a, r <> Ok a) -> answers must (lift r) w.
Proof. intro H. split; [apply keeps_refl|]. left. split; [reflexivity|auto]. Qed.
Lemma ans_fail {A} must w : answers must (@fail A) w.
Proof. apply ans_lifted. discriminate. Qed.
Lemma ans_ret {A} (a : A) w : answers false (ret a) w.
Proof. split; [apply keeps_refl|]. left. split; [reflexivity|discriminate]. Qed.
Lemma ans_or_send {A B} (must : bool) (r : res A) c p (k : A -> M B) w :
  (forall a, r = Ok a -> answers must (k a) w) -> answers must (bindM (or_send r (send c p)) k) w.
Proof.
  intro H. destruct r as [a|e| |]; cbn [or_send]; try (apply ans_lift; exact H).
  split; [split; [reflexivity|split; reflexivity]|]. right. eexists. split; [reflexivity|]. now exists c, p.
Qed.
Lemma ans_or_reply {A} must (r : res A) m k w : answers must m w -> (forall a, answers must (k a) w) ->
  answers must (or_reply r m k) w.
Proof. intros H1 H2. destruct r; cbn [or_reply]; auto; apply ans_lifted; discriminate. Qed.
Lemma ans_unit_reply must svc st pl w : answers must (unit_reply svc st pl) w.
Proof. apply ans_ask. apply ans_send. Qed.
Lemma ans_weaken {A} must (m : M A) w : answers true m w -> answers must m w.
Proof. unfold answers. intuition. Qed.

Lemma quiet_write_values i t vs w : quiet (write_values i t vs) w.
Proof.
  unfold write_values. apply quiet_bind; [apply quiet_ask|]. intros s w1. destruct vs as [|v [|v2 vs]].
  - apply quiet_lift.
  - destruct (write_given _ _ _ _). apply quiet_bind; [apply quiet_put_srv|intros; apply quiet_lift].
  - destruct (write_given _ _ _ _). apply quiet_bind; [apply quiet_put_srv|intros; apply quiet_lift].
Qed.
Lemma quiet_multi_sub i d off w : quiet (multi_sub i d off) w.
Proof.
  unfold multi_sub. apply quiet_bind; [destruct (_ <=? _); apply quiet_lift|]. intros r w1.
  apply quiet_bind; [apply quiet_lift|]. intros [sv r1] w2. apply quiet_bind; [apply quiet_lift|]. intros [x r2] w3.
  cbv zeta. destruct (_ || _).
  - apply quiet_bind; [apply quiet_lift|]. intros [tag r3] w4. apply quiet_bind; [apply quiet_lift|]. intros [n r4] w5.
    apply quiet_bind; [apply quiet_ask|]. intros s w6. apply quiet_bind; [apply quiet_lift|]. intros v w7.
    destruct (_ =? T_string).
    + destruct v as [[]|]; try apply quiet_lift.
    + apply quiet_bind; [apply quiet_lift|]. intros. apply quiet_ret.
  - destruct (_ || _); [|apply quiet_ret].
    apply quiet_bind; [apply quiet_lift|]. intros [tag r3] w4. apply quiet_bind; [apply quiet_lift|]. intros [t r4] w5.
    apply quiet_bind; [apply quiet_lift|]. intros [y r5] w6. apply quiet_bind; [apply quiet_lift|]. intros [n r6] w7.
    apply quiet_bind; [apply quiet_lift|]. intros [vs r7] w8. apply quiet_bind; [apply quiet_write_values|]. intros. apply quiet_ret.
Qed.
Lemma quiet_multi_subs i d offs : forall w, quiet (multi_subs i d offs) w.
Proof.
  induction offs as [|o os IH]; intro w; cbn [multi_subs]; [apply quiet_ret|].
  apply quiet_bind; [apply quiet_multi_sub|]. intros x w1. apply quiet_bind; [apply IH|]. intros. apply quiet_ret.
Qed.

Ltac ans := repeat first
  [ match goal with
    | |- answers _ (bindM (lift _) _) _ => apply ans_lift
    | |- answers _ (bindM (ask _) _) _ => apply ans_ask
    | |- answers _ (bindM (or_send _ (conn_error _ _ _ _)) _) _ => apply ans_or_send
    | |- answers _ (bindM (write_values _ _ _) _) _ => apply ans_quiet; [apply quiet_write_values|]
    | |- answers _ (bindM (multi_subs _ _ _) _) _ => apply ans_quiet; [apply quiet_multi_subs|]
    | |- answers _ (bindM (put_srv _) _) _ => apply ans_quiet; [apply quiet_put_srv|]
    | |- answers _ (or_reply _ _ _) _ => apply ans_or_reply
    | |- answers _ (conn_reply _ _ _ _) _ => apply ans_send
    | |- answers _ (unconn_reply _ _ _) _ => apply ans_send
    | |- answers _ (unit_reply _ _ _) _ => apply ans_unit_reply
    | |- answers _ fail _ => apply ans_fail
    | |- answers _ (if ?b then _ else _) _ => destruct b
    | |- answers _ (match ?x with _ => _ end) _ => destruct x
    | |- answers _ (let '(_, _) := ?x in _) _ => destruct x
    end | progress intros ].
Lemma ans_connected_write d0 r w : answers true (connected_write d0 r) w.
Proof. unfold connected_write. ans. Qed.
Lemma ans_connected_read svc d0 d1 w : answers true (connected_read svc d0 d1) w.
Proof. unfold connected_read. ans. Qed.
Lemma ans_connected_multi d0 d1 w : answers true (connected_multi d0 d1) w.
Proof. unfold connected_multi. ans. Qed.
Lemma ans_connected_get_attr d0 d1 w : answers true (connected_get_attr d0 d1) w.
Proof. unfold connected_get_attr. ans. Qed.
Lemma ans_get_attribute_all reply r w : (forall st pl w', answers true (reply st pl) w') ->
  answers true (get_attribute_all reply r) w.
Proof. intro H. unfold get_attribute_all. ans; apply H. Qed.
Lemma ans_connected_symbols d0 w : answers true (connected_symbols d0) w.
Proof. unfold connected_symbols. ans. Qed.
Lemma ans_unconnected_write r w : answers true (unconnected_write r) w.
Proof. unfold unconnected_write. ans. Qed.
Lemma ans_unconnected_read r w : answers true (unconnected_read r) w.
Proof. unfold unconnected_read. ans. Qed.
Lemma ans_unconnected_get_attr r w : answers true (unconnected_get_attr r) w.
Proof. unfold unconnected_get_attr. cbv zeta. ans. Qed.
Lemma ans_unconnected_set_attr r w : answers true (unconnected_set_attr r) w.
Proof. unfold unconnected_set_attr. cbv zeta. ans. Qed.
Lemma ans_fwd_open large d w : answers true (fwd_open large d) w.
Proof.
  unfold fwd_open. cbv zeta. ans; [apply ans_lifted; discriminate|].
  apply ans_quiet; [destruct (_ =? 0); [apply quiet_draw|apply quiet_ret]|]. intros to w1 _ _.
  apply ans_quiet; [destruct (_ =? 0); [apply quiet_draw|apply quiet_ret]|]. intros ot w2 _ _.
  apply ans_quiet; [split; [split; [reflexivity|split; reflexivity]|reflexivity]|]. intros x w3 _ _.
  apply ans_then; [apply ans_send|]. intros y w4.
  apply quiet_bind; [apply quiet_ask|]. intros n w5. apply quiet_bind; [apply quiet_put_srv|]. intros z w6.
  destruct (_ && _); [|apply quiet_ret]. apply quiet_bind; [apply quiet_ask|]. intros s w7.
  apply quiet_bind; [apply quiet_lift|]. intros v w8. destruct (_ =? 0); [apply quiet_lift|apply quiet_put_srv].
Qed.
Lemma ans_fwd_close d w : answers false (fwd_close d) w.
Proof. unfold fwd_close. ans. apply ans_ret. Qed.
Lemma ans_embedded svc r w : answers true (embedded svc r) w.
Proof.
  unfold embedded. ans; auto using ans_unconnected_write, ans_unconnected_read, ans_unconnected_get_attr, ans_unconnected_set_attr.
  apply ans_get_attribute_all. intros. apply ans_send.
Qed.
Lemma ans_unconnected_data d w : answers (negb (nth 0 d 0 =? svc_forward_close)) (unconnected_data d) w.
Proof.
  unfold unconnected_data. apply ans_lift. intros [sv r] E. apply rd_ok_inv in E as [-> L]. one_byte sv.
  cbn [app nth]. rewrite unle1.
  destruct (z =? svc_open); [apply ans_weaken, ans_fwd_open|]. destruct (z =? svc_large_open); [apply ans_weaken, ans_fwd_open|].
  destruct (z =? svc_forward_close); cbn [negb]; [apply ans_fwd_close|].
  destruct (z =? svc_get_all); [apply ans_get_attribute_all; intros; apply ans_send|].
  destruct (z =? svc_get_single); [apply ans_unconnected_get_attr|].
  destruct (z =? svc_set_single); [apply ans_unconnected_set_attr|].
  destruct (z =? svc_unconn); [|apply ans_send].
  ans. apply ans_embedded.
Qed.
Lemma ans_take {B} must n (k : bytes -> M B) w :
  (forall b r, w_in w = b ++ r -> length b = n -> answers must (k b) (fed w r)) -> answers must (bindM (take n) k) w.
Proof.
  intro H. apply ans_quiet; [apply quiet_take|]. intros b w' E _.
  destruct (take_cases n w) as [(b' & r & I & L & E')|(e & E')]; rewrite E' in E; [|discriminate].
  injection E as <- <-. now apply H.
Qed.
Lemma ans_items must (k : list item -> M unit) w : bytes_ok (w_in w) ->
  (forall its r, w_in w = wire_list (contents its) ++ r -> fits (contents its) -> answers must (k its) (fed w r)) ->
  answers must (with_items k) w.
Proof.
  intros B H. unfold with_items. apply ans_ask. destruct (read_items (w_in w)) as [[its r]|e| |] eqn:E; try (apply ans_lifted; discriminate).
  apply read_items_sound in E as [I F]; [|exact B]. specialize (H its r I F).
  apply ans_quiet; [split; [split; [reflexivity|split; reflexivity]|reflexivity]|]. intros x w' E _. injection E as <- <-. exact H.
Qed.
Lemma ans_unit_data w : bytes_ok (w_in w) -> answers true unit_data w.
Proof.
  intro B. unfold unit_data. apply ans_take. intros b1 r1 I1 _. apply ans_take. intros b2 r2 I2 _.
  apply ans_items.
  { cbn [fed w_in] in *. rewrite I1, I2 in B. now apply bytes_ok_sub, bytes_ok_sub in B. }
  intros its r _ _. unfold unit_items. destruct its as [|i0 [|i1 [|]]]; try apply ans_fail.
  destruct (negb _); [apply ans_fail|]. ans.
  apply ans_quiet; [split; [split; [reflexivity|split; reflexivity]|reflexivity]|]. intros x w1 _ _.
  ans; auto using ans_connected_write, ans_connected_read, ans_connected_multi, ans_connected_get_attr, ans_connected_symbols.
  apply ans_get_attribute_all. intros. apply ans_unit_reply.
Qed.
Lemma ans_rr_data must w : bytes_ok (w_in w) ->
  (must = true -> forall six x y i d r, w_in w = six ++ wire_list [(x, y); (i, d)] ++ r -> length six = 6%nat -> 0 <= i < 65536 ->
     i = 0xB1 \/ (i = 0xB2 /\ nth 0 d 0 <> 0x4E)) ->
  answers must rr_data w.
Proof.
  intros B H. unfold rr_data. apply ans_take. intros b1 r1 I1 L1. apply ans_take. intros b2 r2 I2 L2.
  cbn [fed w_in] in I2. rewrite I2 in I1.
  apply ans_items.
  { cbn [fed w_in] in *. rewrite I1 in B. now apply bytes_ok_sub, bytes_ok_sub in B. }
  intros its r I F. cbn [fed w_in] in I. rewrite I in I1. unfold rr_items.
  destruct its as [|i0 [|i1 [|]]]; try apply ans_fail.
  assert (H' : must = true -> it_id i1 = 0xB1 \/ (it_id i1 = 0xB2 /\ nth 0 (it_data i1) 0 <> 0x4E)).
  { intro M. apply (H M (b1 ++ b2) (it_id i0) (it_data i0) (it_id i1) (it_data i1) r).
    - rewrite I1, <- app_assoc. reflexivity.
    - rewrite app_length. lia.
    - destruct F as [_ F]. inversion F as [|? ? _ F1]; subst. inversion F1 as [|? ? F2 _]; subst. exact (proj1 F2). }
  destruct (Z.eqb_spec (it_id i1) item_conndata) as [E|N].
  { ans. apply ans_weaken, ans_connected_read. }
  destruct (Z.eqb_spec (it_id i1) item_unconndata) as [E|N2].
  - destruct must.
    + assert (D : negb (nth 0 (it_data i1) 0 =? svc_forward_close) = true).
      { destruct (H' eq_refl) as [E1|[_ E1]]; [now elim N|]. apply negb_true_iff. now apply Z.eqb_neq. }
      rewrite <- D. apply ans_unconnected_data.
    + pose proof (ans_unconnected_data (it_data i1) (fed (fed (fed w r1) r2) r)) as [K [[S _]|X]]; (split; [exact K|]).
      * left. split; [exact S|discriminate].
      * now right.
  - destruct must; [|apply ans_ret]. exfalso. destruct (H' eq_refl) as [E1|[E1 _]]; [now elim N|now elim N2].
Qed.

Lemma reply_fields hd c o cmd part :
  session_of (server_msg_build hd c o cmd [part]) = le 4 hd /\ context_of (server_msg_build hd c o cmd [part]) = le 8 c.
Proof.
  unfold server_msg_build, header_bytes, server_header, session_of, context_of. cbn [fold_left eh_command eh_length eh_session eh_status eh_context eh_options].
  set (n := (0 + len part)).
  split; rewrite <- !app_assoc.
  - rewrite (app_assoc (le 2 cmd) (le 2 _)). rewrite skipn_app_exact by (rewrite app_length, !le_length; reflexivity).
    apply firstn_app_exact. now rewrite le_length.
  - rewrite (app_assoc (le 2 cmd) (le 2 _)), (app_assoc (_ ++ _) (le 4 hd)), (app_assoc (_ ++ _) (le 4 0)).
    rewrite skipn_app_exact by (rewrite !app_length, !le_length; reflexivity).
    apply firstn_app_exact. now rewrite le_length.
Qed.

Definition dispatch (hb : bytes) : M unit :=
  let hdr := header_of hb in let cmd := eh_command hdr in
  if cmd =? cmd_register then register_session hdr
  else if cmd =? cmd_rrdata then rr_data
  else if cmd =? cmd_unitdata then unit_data
  else if cmd =? cmd_listservices then list_services
  else if cmd =? cmd_listidentity then list_identity
  else ret tt.
Definition with_context (w : world) (c : Z) (r : bytes) : world :=
  World (w_srv w) (Handler (h_handle (w_h w)) (h_options (w_h w)) c (h_ot (w_h w)) (h_to (w_h w)) (h_seq (w_h w))) r (w_sent w).
Lemma serve_one_ok w hb r : take 24 w = (Ok hb, fed w r) ->
  serve_one w = dispatch hb (with_context w (eh_context (header_of hb)) r).
Proof. intro E. unfold serve_one, bindM at 1. now rewrite E. Qed.
Lemma serve_one_err w e : take 24 w = (Err e, fed w []) -> serve_one w = (Err e, fed w []).
Proof. intro E. unfold serve_one, bindM at 1. now rewrite E. Qed.
(** One turn: the replies, and the fields they carry. *)
Lemma serve_one_replies w : bytes_ok (w_in w) ->
  let r := fst (serve_one w) in let w' := snd (serve_one w) in
  exists fs, w_sent w' = w_sent w ++ fs /\ (length fs <= 1)%nat /\
    (forall f, In f fs -> context_of f = context_of (w_in w) /\ session_of f = le 4 (h_handle (w_h w'))) /\
    (r = Ok tt -> ~ unanswered (w_in w) -> length fs = 1%nat) /\
    (firstn 2 (w_in w) <> [0x65; 0] -> h_handle (w_h w') = h_handle (w_h w)).
Proof.
  intro B. cbv zeta. destruct (take_cases 24 w) as [(hb & r & I & L & E)|(e & E)].
  2:{ rewrite (serve_one_err _ _ E). exists []. cbn [fed fst snd w_sent w_h]. split; [symmetry; apply app_nil_r|]. split; [cbn; lia|].
      split; [intros f []|]. split; [discriminate|reflexivity]. }
  rewrite (serve_one_ok _ _ _ E). clear E.
  assert (Ctx : context_of (w_in w) = firstn 8 (skipn 12 hb)).
  { unfold context_of. rewrite I, skipn_app, firstn_app, skipn_length, L.
    replace (8 - (24 - 12))%nat with O by lia. cbn [firstn]. apply app_nil_r. }
  assert (Cmd : firstn 2 (w_in w) = firstn 2 hb).
  { rewrite I, firstn_app, L. replace (2 - 24)%nat with O by lia. cbn [firstn]. apply app_nil_r. }
  pose proof B as B0. rewrite I in B. pose proof (bytes_ok_sub _ _ B) as Br. apply bytes_ok_app in B as [Bh _].
  assert (Le : le 8 (eh_context (header_of hb)) = context_of (w_in w)).
  { rewrite Ctx. cbn [header_of eh_context]. pose proof (le_unle (firstn 8 (skipn 12 hb))) as E.
    rewrite firstn_length, skipn_length, L in E. change (Nat.min 8 (24 - 12)) with 8%nat in E.
    apply E. now apply Forall_firstn, Forall_skipn. }
  set (w1 := with_context w (eh_context (header_of hb)) r).
  assert (I1 : w_in w1 = r) by reflexivity. assert (S1 : w_sent w1 = w_sent w) by reflexivity.
  assert (H1 : h_handle (w_h w1) = h_handle (w_h w)) by reflexivity.
  assert (C1 : h_context (w_h w1) = eh_context (header_of hb)) by reflexivity. clearbody w1.
  assert (K : forall (m : M unit), answers false m w1 -> (~ unanswered (w_in w) -> answers true m w1) ->
    exists fs, w_sent (snd (m w1)) = w_sent w ++ fs /\ (length fs <= 1)%nat /\
      (forall f, In f fs -> context_of f = context_of (w_in w) /\ session_of f = le 4 (h_handle (w_h (snd (m w1))))) /\
      (fst (m w1) = Ok tt -> ~ unanswered (w_in w) -> length fs = 1%nat) /\
      (firstn 2 (w_in w) <> [0x65; 0] -> h_handle (w_h (snd (m w1))) = h_handle (w_h w))).
  { intros m [(Hh & Hc & Ho) A] Mu. destruct A as [[S N]|(f & S & (c & p & F))].
    - exists []. rewrite app_nil_r. split; [congruence|]. split; [cbn; lia|]. split; [intros f []|].
      split; [|congruence]. intros R U. exfalso. destruct (Mu U) as [_ [[_ N']|(f & S' & _)]].
      + now apply (N' eq_refl tt).
      + rewrite S in S'. apply (f_equal (@length bytes)) in S'. rewrite app_length in S'. cbn [length] in S'. lia.
    - exists [f]. split; [congruence|]. split; [cbn; lia|]. split; [|split; [reflexivity|congruence]].
      intros g [<-|[]]. destruct (reply_fields (h_handle (w_h w1)) (h_context (w_h w1)) (h_options (w_h w1)) c p) as [F1 F2].
      rewrite F. split; [rewrite F2, C1; exact Le|rewrite F1; f_equal; congruence]. }
  assert (K1 : forall m : M unit, answers true m w1 ->
    exists fs, w_sent (snd (m w1)) = w_sent w ++ fs /\ (length fs <= 1)%nat /\
      (forall f, In f fs -> context_of f = context_of (w_in w) /\ session_of f = le 4 (h_handle (w_h (snd (m w1))))) /\
      (fst (m w1) = Ok tt -> ~ unanswered (w_in w) -> length fs = 1%nat) /\
      (firstn 2 (w_in w) <> [0x65; 0] -> h_handle (w_h (snd (m w1))) = h_handle (w_h w))).
  { intros m A. apply K; [now apply ans_weaken|auto]. }
  assert (Hc : forall c, firstn 2 hb = le 2 c -> 0 <= c < 65536 -> eh_command (header_of hb) = c).
  { intros c E R. unfold header_of. cbn [eh_command]. rewrite E. apply unle_le_small. exact R. }
  assert (Hc2 : forall c, eh_command (header_of hb) = c -> firstn 2 hb = le 2 c).
  { intros c E. apply unle_le2_inv; [now apply Forall_firstn|rewrite firstn_length; lia|exact E]. }
  unfold dispatch. cbv zeta.
  destruct (Z.eqb_spec (eh_command (header_of hb)) cmd_register) as [R|NR].
  { unfold register_session, bindM. destruct (take_cases 4 w1) as [(reg & r2 & I2 & L2 & ->)|(e & ->)].
    2:{ exists []. cbv beta iota. cbn [fed fst snd w_sent w_h]. split; [now rewrite app_nil_r|]. split; [cbn; lia|]. split; [intros f []|]. split; [discriminate|].
        intros _. exact H1. }
    assert (X : forall hd w2, (if eh_session (header_of hb) =? 0 then draw else ret (eh_session (header_of hb))) (fed w1 r2) = (Ok hd, w2) ->
      w_sent w2 = w_sent w1 /\ h_context (w_h w2) = h_context (w_h w1)).
    { intros hd w2. destruct (_ =? 0); unfold draw, ret; intro E; injection E as <- <-; auto. }
    destruct ((if eh_session (header_of hb) =? 0 then draw else ret (eh_session (header_of hb))) (fed w1 r2)) as [[hd|e| |] w2] eqn:E2.
    - destruct (X hd w2 eq_refl) as [X1 X2]. unfold put_h, send. cbn [fst snd w_sent w_h h_handle h_context h_options].
      eexists. split; [rewrite X1, S1; reflexivity|]. split; [cbn; lia|]. split; [|split; [reflexivity|]].
      + intros f [<-|[]].
        match goal with |- context [server_msg_build ?a ?b ?c ?d [?e]] => destruct (reply_fields a b c d e) as [F1 F2] end.
        split; [rewrite F2, X2, C1; exact Le|exact F1].
      + intro N. elim N. rewrite Cmd. now rewrite (Hc2 _ R).
    - destruct (_ =? 0); discriminate.
    - destruct (_ =? 0); discriminate.
    - destruct (_ =? 0); discriminate. }
  destruct (Z.eqb_spec (eh_command (header_of hb)) cmd_rrdata) as [R|NR2].
  { assert (Fr : firstn 2 hb = [0x6F; 0]) by (now rewrite (Hc2 _ R)).
    apply K; [apply ans_rr_data; [now rewrite I1|discriminate]|].
    intro U. apply ans_rr_data; [now rewrite I1|]. intros _ six x y i d rest E6 L6 Ri. rewrite I1 in E6.
    destruct (Z.eq_dec i 0xB1) as [->|N1]; [now left|]. right. destruct (Z.eq_dec i 0xB2) as [->|N2].
    - split; [reflexivity|]. intro S. apply U. rewrite I, E6.
      destruct d as [|d0 d]; [discriminate S|]. cbn [nth] in S. subst d0. now apply un_close.
    - exfalso. apply U. rewrite I, E6. now apply un_item. }
  destruct (Z.eqb_spec (eh_command (header_of hb)) cmd_unitdata) as [R|NR3].
  { apply K1. apply ans_unit_data. now rewrite I1. }
  destruct (Z.eqb_spec (eh_command (header_of hb)) cmd_listservices) as [R|NR4]; [apply K1; apply ans_send|].
  destruct (Z.eqb_spec (eh_command (header_of hb)) cmd_listidentity) as [R|NR5].
  { apply K1. unfold list_identity. ans. apply ans_send. }
  apply K; [apply ans_ret|]. intro U. exfalso. apply U. apply un_command. rewrite Cmd.
  intros [E|[E|[E|[E|[E|[]]]]]]; symmetry in E.
  - apply NR. now apply (Hc 0x65).
  - apply NR2. now apply (Hc 0x6F).
  - apply NR3. now apply (Hc 0x70).
  - apply NR4. now apply (Hc 0x04).
  - apply NR5. now apply (Hc 0x63).
Qed.

(** ** Whole frames *)

Lemma take_app n b r w : w_in w = b ++ r -> length b = n -> take n w = (Ok b, fed w r).
Proof.
  intros I L. unfold take. rewrite I, rd_app by exact L. reflexivity.
Qed.
Lemma frame_split f : frame_ok f -> exists hb, frame_bytes f = hb ++ f_payload f /\ length hb = 24%nat /\
  eh_command (header_of hb) = f_command f /\ eh_context (header_of hb) = f_context f /\
  eh_session (header_of hb) = f_session f /\ eh_options (header_of hb) = f_options f.
Proof.
  intros (R1 & R2 & R3 & R4 & R5 & R6).
  set (h := {| eh_command := f_command f; eh_length := len (f_payload f); eh_session := f_session f; eh_status := f_status f;
               eh_context := f_context f; eh_options := f_options f |}).
  exists (header_bytes h). split.
  { unfold header_bytes, frame_bytes, h. cbn [eh_command eh_length eh_session eh_status eh_context eh_options]. now rewrite <- !app_assoc. }
  split; [apply header_bytes_length|]. pose proof (len_nonneg (f_payload f)).
  rewrite header_of_bytes by (cbn; lia). cbn. auto.
Qed.
Lemma with_items_wire k l rest w : fits l -> w_in w = wire_list l ++ rest -> with_items k w = k (map mk l) (fed w rest).
Proof.
  intros F I. unfold with_items, bindM, ask. rewrite I, read_items_wire by exact F. reflexivity.
Qed.
Lemma take_six k six r w : w_in w = six ++ r -> length six = 6%nat ->
  (take 4 ;; take 2 ;; k) w = (k : M unit) (fed w r).
Proof.
  intros I L. rewrite <- (firstn_skipn 4 six) in I. rewrite <- app_assoc in I.
  assert (L1 : length (firstn 4 six) = 4%nat) by (rewrite firstn_length; lia).
  assert (L2 : length (skipn 4 six) = 2%nat) by (rewrite skipn_length; lia).
  unfold bindM at 1. rewrite (take_app 4 _ _ _ I L1).
  unfold bindM. rewrite (take_app 2 (skipn 4 six) r) by (exact L2 || reflexivity). reflexivity.
Qed.
Definition item_frame (cmd session status context options : Z) (six : bytes) (l : list (Z * bytes)) : frame :=
  Frame cmd session status context options (six ++ wire_list l).
Lemma serve_unit w session status context options six l rest :
  let f := item_frame 0x70 session status context options six l in
  frame_ok f -> fits l -> length six = 6%nat -> w_in w = frame_bytes f ++ rest ->
  serve_one w = unit_items (map mk l) (with_context w context rest).
Proof.
  intros f FO F L I. destruct (frame_split f FO) as (hb & Ef & Lh & Hc & Hx & _ & _).
  rewrite Ef, <- app_assoc in I. cbn [f item_frame f_payload] in I.
  rewrite (serve_one_ok w hb ((six ++ wire_list l) ++ rest)) by (now apply take_app).
  unfold dispatch. rewrite Hc, Hx. cbn [f item_frame f_command f_context].
  change (0x70 =? cmd_register) with false. change (0x70 =? cmd_rrdata) with false. change (0x70 =? cmd_unitdata) with true. cbn iota.
  unfold unit_data. rewrite (take_six _ six (wire_list l ++ rest)) by (exact L || (cbn [with_context w_in]; now rewrite <- app_assoc)).
  now rewrite (with_items_wire _ l rest).
Qed.
Lemma serve_rr w session status context options six l rest :
  let f := item_frame 0x6F session status context options six l in
  frame_ok f -> fits l -> length six = 6%nat -> w_in w = frame_bytes f ++ rest ->
  serve_one w = rr_items (map mk l) (with_context w context rest).
Proof.
  intros f FO F L I. destruct (frame_split f FO) as (hb & Ef & Lh & Hc & Hx & _ & _).
  rewrite Ef, <- app_assoc in I. cbn [f item_frame f_payload] in I.
  rewrite (serve_one_ok w hb ((six ++ wire_list l) ++ rest)) by (now apply take_app).
  unfold dispatch. rewrite Hc, Hx. cbn [f item_frame f_command f_context].
  change (0x6F =? cmd_register) with false. change (0x6F =? cmd_rrdata) with true. cbn iota.
  unfold rr_data. rewrite (take_six _ six (wire_list l ++ rest)) by (exact L || (cbn [with_context w_in]; now rewrite <- app_assoc)).
  now rewrite (with_items_wire _ l rest).
Qed.

(** A frame the server takes whole. *)
Lemma serve_takes_frame w f rest : tame (w_srv w) -> frame_ok f -> bytes_ok (frame_bytes f) -> w_in w = frame_bytes f ++ rest ->
  whole_request f -> forall w', serve_one w = (Ok tt, w') -> w_in w' = rest.
Proof.
  intros T FO B I W w'. destruct W as [cmd s st c o six l Hc L6 F|s st c o p Lp|cmd s st c o Hc].
  - assert (Bl : Forall (fun i => bytes_ok (it_data i)) (map mk l)).
    { unfold frame_bytes in B. cbn [f_payload] in B. do 6 apply bytes_ok_sub in B. apply bytes_ok_sub in B.
      apply (contents_ok _ []). rewrite app_nil_r. 
      assert (E : contents (map mk l) = l) by (unfold contents; rewrite map_map; rewrite <- (map_id l) at 2; apply map_ext; now intros []).
      now rewrite E. }
    assert (K : forall m (bad : Prop) w1, safe bad (m : M unit) w1 -> m w1 = (Ok tt, w') -> w_in w' = w_in w1).
    { intros m bad w1 S E. unfold safe in S. rewrite E in S. tauto. }
    destruct Hc as [->| ->]; intro E.
    + rewrite (serve_unit w s st c o six l rest) in E by assumption.
      apply (K _ _ _ (safe_unit_items (map mk l) (with_context w c rest) Bl T) E).
    + rewrite (serve_rr w s st c o six l rest) in E by assumption.
      apply (K _ _ _ (safe_rr_items (map mk l) (with_context w c rest) Bl T) E).
  - destruct (frame_split _ FO) as (hb & Ef & Lh & Hc & Hx & Hs & Ho). cbn [f_payload f_command] in *.
    rewrite Ef, <- app_assoc in I. rewrite (serve_one_ok w hb (p ++ rest)) by (now apply take_app).
    unfold dispatch. rewrite Hc. change (0x65 =? cmd_register) with true. cbv zeta. cbn iota.
    unfold register_session, bindM at 1. rewrite (take_app 4 p rest) by (reflexivity || exact Lp).
    destruct (_ =? 0); unfold bindM, draw, ret, put_h, send; intro E; injection E as <-; reflexivity.
  - destruct (frame_split _ FO) as (hb & Ef & Lh & Hcm & Hx & Hs & Ho). cbn [f_payload f_command] in *.
    rewrite Ef, <- app_assoc in I. rewrite (serve_one_ok w hb ([] ++ rest)) by (now apply take_app).
    unfold dispatch. rewrite Hcm. cbv zeta. destruct Hc as [-> | ->].
    + change (0x04 =? cmd_register) with false. change (0x04 =? cmd_rrdata) with false. change (0x04 =? cmd_unitdata) with false.
      change (0x04 =? cmd_listservices) with true. cbn iota. unfold list_services, send. intro E. injection E as <-. reflexivity.
    + change (0x63 =? cmd_register) with false. change (0x63 =? cmd_rrdata) with false. change (0x63 =? cmd_unitdata) with false.
      change (0x63 =? cmd_listservices) with false. change (0x63 =? cmd_listidentity) with true. cbn iota.
      unfold list_identity, bindM, ask, lift, send. destruct (identity_body _ _ _); intro E; try discriminate. injection E as <-. reflexivity.
Qed.
