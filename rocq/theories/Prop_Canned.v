(** * C89 to C92: faults, forces and properties of a controller *)
From Verif Require Import GoBase SegModel SegSpec SegProof IoiModel ItemsModel ItemsSpec ItemsProof ReadModel ReadProof BatchSpec AttrModel AttrSpec AttrProof.
From Verif Require Import Prop_Attr CannedModel CannedSpec.

(** ** Taking bytes apart *)
Lemma skipn_app_exact {A} (a b : list A) n : length a = n -> skipn n (a ++ b) = b.
Proof. intros <-. rewrite skipn_app, skipn_all, Nat.sub_diag. reflexivity. Qed.
Lemma firstn_app_exact {A} (a b : list A) n : length a = n -> firstn n (a ++ b) = a.
Proof. intros <-. rewrite firstn_app, firstn_all, Nat.sub_diag, firstn_O, app_nil_r. reflexivity. Qed.
Lemma num_at_app a b o w z : length a = o -> 0 <= z < 2 ^ (8 * Z.of_nat w) -> num_at o w (a ++ le w z ++ b) = z.
Proof.
  intros La Hz. unfold num_at. rewrite (skipn_app_exact a _ o La), firstn_app_exact by apply le_length. rewrite unle_le. now apply Z.mod_small.
Qed.
Lemma item_des_rest w it d : (0 < w)%nat -> item_rest it = Ok d ->
  if (w <=? length d)%nat then fst (item_des w it) = Ok (firstn w d) else exists e, fst (item_des w it) = Err e.
Proof.
  intros W R. unfold item_rest in R. unfold item_des. destruct w as [|w]; [lia|].
  pose proof R as R0. unfold slice_from in R0. destruct (Z.leb_spec (len (it_data it)) (it_pos it)) as [Hl|Hl].
  - assert (d = []) as ->.
    { destruct ((0 <=? it_pos it) && (it_pos it <=? len (it_data it))) eqn:B; [|discriminate]. apply andb_true_iff in B. destruct B as [B1 B2]. apply Z.leb_le in B1, B2.
      injection R0 as <-. apply skipn_all2. unfold len in *. lia. }
    cbn [length Nat.leb]. eexists. reflexivity.
  - rewrite R. destruct (S w <=? length d)%nat; [reflexivity|]. eexists. reflexivity.
Qed.
Lemma deserialize_rest {A} w (k : bytes -> A) it d : (0 < w)%nat -> item_rest it = Ok d ->
  (forall a b, d = a ++ b -> length a = w -> deserialize w k (Ok it) = Ok (k a)) /\
  ((length d < w)%nat -> is_ok (deserialize w k (Ok it)) = false) /\
  (forall x, deserialize w k (Ok it) = Ok x -> exists a b, d = a ++ b /\ length a = w /\ x = k a).
Proof.
  intros W R. pose proof (item_des_rest w it d W R) as H. unfold deserialize. cbn [bind]. destruct (Nat.leb_spec w (length d)) as [L|L].
  - rewrite H. split; [|split].
    + intros a b -> La. now rewrite (firstn_app_exact a b w La).
    + lia.
    + intros x E. injection E as <-. exists (firstn w d), (skipn w d). rewrite firstn_skipn, firstn_length. split; [reflexivity|]. split; [lia|reflexivity].
  - destruct H as (e & ->). split; [|split].
    + intros a b -> La. rewrite app_length in L. lia.
    + reflexivity.
    + discriminate.
Qed.

(** ** Faults *)
Lemma event_of_wire e r : event_ok e -> event_of (event_wire e ++ r) = e.
Proof.
  intros (A & B & C & D & _). unfold event_of, event_wire. destruct e as [t c k d]. cbn [fe_time fe_class fe_code fe_detail] in *. f_equal.
  - rewrite <- !app_assoc. exact (num_at_app [] _ 0 8 t eq_refl A).
  - rewrite <- !app_assoc. apply (num_at_app (le 8 t) _ 8 2 c); [apply le_length|exact B].
  - rewrite <- !app_assoc. rewrite (app_assoc (le 8 t)). apply (num_at_app (le 8 t ++ le 2 c) _ 10 2 k); [now rewrite app_length, !le_length|exact C].
  - rewrite <- !app_assoc. rewrite (app_assoc (le 8 t)), (app_assoc (le 8 t ++ le 2 c)). rewrite skipn_app_exact by (rewrite !app_length, !le_length; reflexivity).
    now apply firstn_app_exact.
Qed.
Lemma event_length e : event_ok e -> length (event_wire e) = 42%nat.
Proof. intros (_ & _ & _ & D & _). unfold event_wire. rewrite !app_length, !le_length, D. reflexivity. Qed.
Lemma summary_of_wire f : summary_ok f -> summary_of (summary_wire f) = f /\ length (summary_wire f) = 138%nat.
Proof.
  intros (A & B & C & D & L & F). destruct f as [mj mn cj cn es]. cbn [fs_major fs_minor fs_majors fs_minors fs_events] in *.
  destruct es as [|e0 [|e1 [|e2 [|? ?]]]]; try discriminate. inversion F as [|? ? F0 F']; subst. inversion F' as [|? ? F1 F'']; subst. inversion F'' as [|? ? F2 _]; subst.
  pose proof (event_length e0 F0) as L0. pose proof (event_length e1 F1) as L1. pose proof (event_length e2 F2) as L2.
  unfold summary_wire, summary_of. cbn [fs_major fs_minor fs_majors fs_minors fs_events map concat]. split; [|rewrite !app_length, !le_length, L0, L1, L2; reflexivity].
  f_equal.
  - exact (num_at_app [] _ 0 4 mj eq_refl A).
  - apply (num_at_app (le 4 mj) _ 4 4 mn); [apply le_length|exact B].
  - rewrite (app_assoc (le 4 mj)). apply (num_at_app (le 4 mj ++ le 4 mn) _ 8 2 cj); [now rewrite app_length, !le_length|exact C].
  - rewrite (app_assoc (le 4 mj)), (app_assoc (le 4 mj ++ le 4 mn)). apply (num_at_app ((le 4 mj ++ le 4 mn) ++ le 2 cj) _ 10 2 cn); [now rewrite !app_length, !le_length|exact D].
  - rewrite (app_assoc (le 4 mj)), (app_assoc (le 4 mj ++ le 4 mn)), (app_assoc ((le 4 mj ++ le 4 mn) ++ le 2 cj)).
    assert (Lh : length (((le 4 mj ++ le 4 mn) ++ le 2 cj) ++ le 2 cn) = 12%nat) by (rewrite !app_length, !le_length; reflexivity).
    set (h := ((le 4 mj ++ le 4 mn) ++ le 2 cj) ++ le 2 cn) in *. rewrite (skipn_app_exact h) by exact Lh. rewrite event_of_wire by exact F0. f_equal.
    rewrite (app_assoc h), (skipn_app_exact (h ++ event_wire e0)) by (rewrite app_length, Lh, L0; reflexivity). rewrite event_of_wire by exact F1. f_equal.
    rewrite (app_assoc (h ++ event_wire e0)), (skipn_app_exact ((h ++ event_wire e0) ++ event_wire e1)) by (rewrite !app_length, Lh, L0, L1; reflexivity).
    rewrite event_of_wire by exact F2. reflexivity.
Qed.
Lemma ok_skipn n b : bytes_ok b -> bytes_ok (skipn n b).
Proof. intro B. rewrite <- (firstn_skipn n b) in B. now apply bytes_ok_app in B. Qed.
Lemma slices {A} (b : list A) o w v o' n : (o' = o + w)%nat -> (n = w + v)%nat -> firstn w (skipn o b) ++ firstn v (skipn o' b) = firstn n (skipn o b).
Proof.
  intros -> ->.
  assert (E : skipn (o + w) b = skipn w (skipn o b)) by (revert b; induction o as [|o IH]; intros [|x b]; cbn [skipn Nat.add]; rewrite ?skipn_nil; auto).
  rewrite E. generalize (skipn o b). clear E b.
  induction w as [|w IH]; intro b; [reflexivity|]. destruct b as [|x b]; [cbn; now rewrite firstn_nil|]. cbn [firstn skipn app Nat.add]. now rewrite IH.
Qed.
Lemma num_at_le b o w : bytes_ok b -> (o + w <= length b)%nat -> le w (num_at o w b) = firstn w (skipn o b) /\ 0 <= num_at o w b < 2 ^ (8 * Z.of_nat w).
Proof.
  intros B L. unfold num_at. assert (Lw : length (firstn w (skipn o b)) = w) by (rewrite firstn_length, skipn_length; lia).
  assert (Bw : bytes_ok (firstn w (skipn o b))) by (apply Forall_firstn; now apply ok_skipn).
  split.
  - rewrite <- Lw at 1. now apply le_unle.
  - pose proof (unle_bound _ Bw) as H. unfold len in H. rewrite Lw in H. replace (2 ^ (8 * Z.of_nat w)) with (256 ^ Z.of_nat w); [exact H|]. change 256 with (2 ^ 8). rewrite <- Z.pow_mul_r by lia. reflexivity.
Qed.
Lemma wire_of_event b : bytes_ok b -> (42 <= length b)%nat -> event_wire (event_of b) = firstn 42 b /\ event_ok (event_of b).
Proof.
  intros B L. unfold event_wire, event_of, event_ok. cbn [fe_time fe_class fe_code fe_detail].
  destruct (num_at_le b 0 8 B ltac:(lia)) as [E0 R0]. destruct (num_at_le b 8 2 B ltac:(lia)) as [E1 R1]. destruct (num_at_le b 10 2 B ltac:(lia)) as [E2 R2]. split.
  - rewrite E0, E1, E2. rewrite (slices b 10 2 30 12 32 eq_refl eq_refl), (slices b 8 2 32 10 34 eq_refl eq_refl), (slices b 0 8 34 8 42 eq_refl eq_refl). reflexivity.
  - split; [exact R0|]. split; [exact R1|]. split; [exact R2|]. split; [rewrite firstn_length, skipn_length; lia|]. apply Forall_firstn. now apply ok_skipn.
Qed.
Lemma wire_of_summary b : bytes_ok b -> length b = 138%nat -> summary_wire (summary_of b) = b /\ summary_ok (summary_of b).
Proof.
  intros B L. unfold summary_wire, summary_of, summary_ok. cbn [fs_major fs_minor fs_majors fs_minors fs_events map concat].
  destruct (num_at_le b 0 4 B ltac:(lia)) as [E0 R0]. destruct (num_at_le b 4 4 B ltac:(lia)) as [E1 R1].
  destruct (num_at_le b 8 2 B ltac:(lia)) as [E2 R2]. destruct (num_at_le b 10 2 B ltac:(lia)) as [E3 R3].
  destruct (wire_of_event (skipn 12 b) (ok_skipn _ _ B) ltac:(rewrite skipn_length; lia)) as [E4 R4].
  destruct (wire_of_event (skipn 54 b) (ok_skipn _ _ B) ltac:(rewrite skipn_length; lia)) as [E5 R5].
  destruct (wire_of_event (skipn 96 b) (ok_skipn _ _ B) ltac:(rewrite skipn_length; lia)) as [E6 R6]. split.
  - rewrite E0, E1, E2, E3, E4, E5, E6, app_nil_r.
    rewrite (slices b 54 42 42 96 84 eq_refl eq_refl), (slices b 12 42 84 54 126 eq_refl eq_refl), (slices b 10 2 126 12 128 eq_refl eq_refl), (slices b 8 2 128 10 130 eq_refl eq_refl), (slices b 4 4 130 8 134 eq_refl eq_refl), (slices b 0 4 134 4 138 eq_refl eq_refl). rewrite skipn_O.
    rewrite <- L. apply firstn_all.
  - repeat (split; [eassumption || reflexivity|]). constructor; [exact R4|]. constructor; [exact R5|]. constructor; [exact R6|constructor].
Qed.
Definition fault_request (otid q : Z) : bytes := object_request otid q 0x01 [0x20; 0x73; 0x24; 1] [].
Lemma fault_path otid q : path_request otid q 1 (class_bytes 0x73 ++ instance_bytes 1) [] = fault_request otid q.
Proof. apply object_request_wire; vm_compute; reflexivity. Qed.
(** C89: what GetFaults returns is what the controller has answered, whatever it
    has answered; *)
Theorem C89_reports : forall S (ctl : controller S) s s1 otid q p eip svc st ext d,
  ctl s (fault_request otid q) = (Ok (eip, p), s1) -> reply p svc st ext d -> 0 <= svc < 256 -> 0 <= st < 256 -> 0 <= ext < 256 ->
  (st = 0 -> ext = 0 -> svc mod 128 = 1 -> forall f rest, summary_ok f -> d = summary_wire f ++ rest -> get_faults ctl s otid q = (Ok f, s1, q + 1)) /\
  (st <> 0 \/ ext <> 0 \/ svc mod 128 <> 1 \/ len d < 138 -> is_ok (fst (fst (get_faults ctl s otid q))) = false).
Proof.
  intros S ctl s s1 otid q p eip svc st ext d E R Hs Ht He. unfold get_faults. rewrite <- fault_path in E.
  pose proof (C53_generic_reports S ctl s s1 otid q 1 _ [] p eip svc st ext d E R Hs Ht He) as [A B].
  assert (St : snd (fst (generic ctl s otid q 1 (class_bytes 0x73 ++ instance_bytes 1) [])) = s1 /\ snd (generic ctl s otid q 1 (class_bytes 0x73 ++ instance_bytes 1) []) = q + 1)
    by (unfold generic, ask; rewrite E; split; reflexivity).
  destruct (generic ctl s otid q 1 (class_bytes 0x73 ++ instance_bytes 1) []) as [[r s2] q2]. cbn [fst snd] in *. destruct St as [-> ->]. split.
  - intros Z0 Z1 Z2 f rest Ok1 Ed. destruct (B Z0 Z1 Z2) as (it & -> & Rt). destruct (summary_of_wire f Ok1) as [Ef Lf].
    destruct (deserialize_rest 138 summary_of it d ltac:(lia) Rt) as (D & _). rewrite (D _ _ Ed Lf), Ef. reflexivity.
  - intro H. destruct (Z.eq_dec st 0) as [Z0|Z0]; [|specialize (A (or_introl Z0)); destruct r; [discriminate|reflexivity..]].
    destruct (Z.eq_dec ext 0) as [Z1|Z1]; [|specialize (A (or_intror (or_introl Z1))); destruct r; [discriminate|reflexivity..]].
    destruct (Z.eq_dec (svc mod 128) 1) as [Z2|Z2]; [|specialize (A (or_intror (or_intror Z2))); destruct r; [discriminate|reflexivity..]].
    destruct (B Z0 Z1 Z2) as (it & -> & Rt). destruct (deserialize_rest 138 summary_of it d ltac:(lia) Rt) as (_ & D & _). apply D. unfold len in H. lia.
Qed.
Print Assumptions C89_reports.
(** and a summary is only returned if the controller has sent it. *)
Theorem C89_confirmed : forall S (ctl : controller S) s s' otid q q' f, sends_bytes ctl -> get_faults ctl s otid q = (Ok f, s', q') ->
  summary_ok f /\ exists p eip svc rest, ctl s (fault_request otid q) = (Ok (eip, p), s') /\ reply p svc 0 0 (summary_wire f ++ rest) /\ svc mod 128 = 1.
Proof.
  intros S ctl s s' otid q q' f B. unfold get_faults. destruct (generic ctl s otid q 1 (class_bytes 0x73 ++ instance_bytes 1) []) as [[r s2] q2] eqn:E.
  intro X. injection X as X <- <-. destruct r as [it| | |]; try discriminate.
  destruct (C53_generic_confirmed S ctl s s2 otid q q2 1 _ [] it B E) as (p & eip & svc & d & Ec & R & Sv & Rt). rewrite fault_path in Ec.
  destruct (deserialize_rest 138 summary_of it d ltac:(lia) Rt) as (_ & _ & D). destruct (D f X) as (a & b & -> & La & ->).
  assert (Ba : bytes_ok a).
  { pose proof (B _ _ _ _ _ Ec) as Bp. destruct R as (pre & addr & id & seq & resv & others & rest & _ & _ & _ & ->).
    apply bytes_ok_app in Bp. destruct Bp as [_ Bp]. apply bytes_ok_app in Bp. destruct Bp as [Bp _]. unfold wire_list in Bp. cbn [map concat] in Bp.
    apply bytes_ok_app in Bp. destruct Bp as [_ Bp]. apply bytes_ok_app in Bp. destruct Bp as [_ Bp]. apply bytes_ok_app in Bp. destruct Bp as [Bp _].
    unfold wire_item in Bp. cbn [fst snd] in Bp. apply bytes_ok_app in Bp. destruct Bp as [_ Bp]. apply bytes_ok_app in Bp. destruct Bp as [_ Bp].
    apply bytes_ok_app in Bp. destruct Bp as [_ Bp]. apply bytes_ok_app in Bp. destruct Bp as [_ Bp]. apply bytes_ok_app in Bp. now destruct Bp. }
  destruct (wire_of_summary a Ba La) as [Ew Ok1]. split; [exact Ok1|]. exists p, eip, svc, b. rewrite Ew. now split; [|split].
Qed.
Print Assumptions C89_confirmed.
Definition ex_event : fault_event := FaultEvent 0x0123456789ABCDEF 4 20 (zeros 29 ++ [7]).
Definition ex_summary : fault_summary := FaultSummary 0x10 0x400 2 1 [ex_event; FaultEvent 5 3 16 (zeros 30); FaultEvent 0 0 0 (zeros 30)].
Example ex_C89 : summary_ok ex_summary /\ get_faults (answers (plain_reply 0x81 0 0 (summary_wire ex_summary ++ [9]))) tt 7 1 = (Ok ex_summary, tt, 2) /\
  is_ok (fst (fst (get_faults (answers (plain_reply 0x81 8 0 [])) tt 7 1))) = false.
Proof.
  split; [|split; vm_compute; reflexivity]. repeat (split; [vm_compute; (reflexivity || (split; [discriminate|reflexivity]))|]).
  repeat (constructor; [repeat (split; [vm_compute; (reflexivity || (split; [discriminate|reflexivity]))|]); repeat constructor; lia|]). constructor.
Qed.

(** ** Kinds of faults *)
Lemma is_fault_bit n f : 0 <= n -> is_fault (flag n) f = Z.testbit f n.
Proof.
  intro H. unfold is_fault, flag. rewrite Z.shiftl_1_l. destruct (Z.testbit f n) eqn:E.
  - destruct (Z.eqb_spec (Z.land f (2 ^ n)) 0) as [X|X]; [|reflexivity]. exfalso.
    assert (Y : Z.testbit (Z.land f (2 ^ n)) n = false) by (rewrite X; apply Z.bits_0). rewrite Z.land_spec, E, Z.pow2_bits_true in Y by exact H. discriminate.
  - destruct (Z.eqb_spec (Z.land f (2 ^ n)) 0) as [X|X]; [reflexivity|]. exfalso. apply X. apply Z.bits_inj'. intros m Hm. rewrite Z.land_spec, Z.bits_0.
    destruct (Z.eq_dec m n) as [->|N]; [now rewrite E|]. rewrite Z.pow2_bits_false by lia. apply andb_false_r.
Qed.
(** C90: a power-up fault is reported if there is one; *)
Theorem C90_powerup_partial : forall f, fault_method Powerup f = reports Powerup f.
Proof. intro f. apply (is_fault_bit 1). lia. Qed.
Print Assumptions C90_powerup_partial.
(** every other method looks at the bit below that of its fault type, *)
Theorem C90_bit_below : forall k f, k <> Powerup -> fault_method k f = Z.testbit f (type_number k - 1).
Proof. intros k f N. destruct k; [congruence|..]; apply is_fault_bit; cbn; lia. Qed.
Print Assumptions C90_bit_below.
Example ex_C90 : fault_method Powerup 0xA = true /\ fault_method Powerup 0xC = false /\ fault_method IO 0x4 = true /\ fault_method IO 0x8 = false.
Proof. repeat split. Qed.
(** so all of them are wrong about a fault of their own type and of the one below. *)
Theorem C90_other_refuted : forall k, k <> Powerup ->
  (exists f, 0 <= f < 2 ^ 32 /\ reports k f = true /\ fault_method k f = false) /\ exists f, 0 <= f < 2 ^ 32 /\ reports k f = false /\ fault_method k f = true.
Proof.
  intros k N. split.
  - exists (2 ^ type_number k). destruct k; try congruence; (split; [split; [discriminate|reflexivity]|split; reflexivity]).
  - exists (2 ^ (type_number k - 1)). destruct k; try congruence; (split; [split; [discriminate|reflexivity]|split; reflexivity]).
Qed.
Print Assumptions C90_other_refuted.
(** An I/O fault is reported as a program fault. *)
Theorem C90_io_refuted : exists f, reports IO f = true /\ reports Program f = false /\ fault_method IO f = false /\ fault_method Program f = true.
Proof. exists 8. repeat split. Qed.
Print Assumptions C90_io_refuted.

(** ** Descriptions *)
Lemma lookup_in {A} k (l : list (Z * A)) x : lookup k l = Some x -> In (k, x) l.
Proof. unfold lookup. destruct (find _ l) as [[k' y]|] eqn:E; [|discriminate]. intro X. injection X as <-. apply find_some in E. destruct E as [I B]. apply Z.eqb_eq in B. cbn [fst] in B. now subst k'. Qed.
(** C91: type and code of a description are those of the event, with one exception; *)
Theorem C91_description_partial : forall f, (fe_class f, fe_code f) <> (17, 32) ->
  fd_type (describe f) = fe_class f /\ fd_code (describe f) = fe_code f /\ (fd_detail (describe f) = None \/ fd_detail (describe f) = Some (fe_detail f)).
Proof.
  intros f N. unfold describe. destruct (lookup (fe_class f) fault_table) as [t|] eqn:E; [|cbn; auto]. destruct (lookup (fe_code f) t) as [c|] eqn:E2; [|cbn; auto].
  cbn [fd_type fd_code fd_detail]. split; [reflexivity|]. split; [|now left]. apply lookup_in in E, E2.
  assert (X : forallb (fun ct => forallb (fun kc => (snd kc =? fst kc) || ((fst ct =? 17) && (fst kc =? 32))) (snd ct)) fault_table = true) by (vm_compute; reflexivity).
  rewrite forallb_forall in X. specialize (X _ E). cbn [fst snd] in X. rewrite forallb_forall in X. specialize (X _ E2). cbn [fst snd] in X.
  apply orb_true_iff in X. destruct X as [X|X]; [now apply Z.eqb_eq in X|]. exfalso. apply N. apply andb_true_iff in X. destruct X as [A B]. apply Z.eqb_eq in A, B. congruence.
Qed.
Print Assumptions C91_description_partial.
Example ex_C91 : describe ex_event = Description 4 20 None /\ describe (FaultEvent 0 4 2000 [1]) = Description 4 2000 (Some [1]).
Proof. split; reflexivity. Qed.
(** the code of 17:32 is given as 31. *)
Theorem C91_diagnostic_refuted : exists f, fe_class f = 17 /\ fe_code f = 32 /\ fd_code (describe f) = 31.
Proof. exists (FaultEvent 0 17 32 (zeros 30)). repeat split. Qed.
Print Assumptions C91_diagnostic_refuted.

(** ** Forces *)
Lemma list_reply S (ctl : controller S) s s1 otid q class inst attrs p eip svc st ext d :
  ctl s (path_request otid q 0x03 (class_bytes class ++ instance_bytes inst) (le 2 (len attrs) ++ concat (map (le 2) attrs))) = (Ok (eip, p), s1) -> reply p svc st ext d ->
  0 <= st < 256 -> 0 <= ext < 256 ->
  exists r, get_attr_list ctl s otid q class inst attrs = (r, s1, q + 1) /\
    (st <> 0 \/ ext <> 0 -> r = Err (EStatus (st + 256 * ext))) /\
    (st = 0 -> ext = 0 -> forall c0 c1 values, d = c0 :: c1 :: values -> exists it, r = Ok it /\ item_rest it = Ok values).
Proof.
  intros E R Ht He. pose proof (C53_list_reports S ctl s s1 otid q class inst attrs p eip svc st ext d E R Ht He) as [A B].
  assert (St : snd (fst (get_attr_list ctl s otid q class inst attrs)) = s1 /\ snd (get_attr_list ctl s otid q class inst attrs) = q + 1)
    by (unfold get_attr_list, ask, svc_getattrlist; rewrite E; split; reflexivity).
  destruct (get_attr_list ctl s otid q class inst attrs) as [[r s2] q2]. cbn [fst snd] in *. destruct St as [-> ->]. exists r. split; [reflexivity|]. now split.
Qed.
Definition force_request (otid q : Z) : bytes := object_request otid q 0x03 [0x20; 0x69; 0x24; 0] [1; 0; 9; 0].
(** C92: GetForces gives the word the controller reports, *)
Theorem C92_word_partial : forall S (ctl : controller S) s s1 otid q p eip svc st ext d,
  ctl s (force_request otid q) = (Ok (eip, p), s1) -> reply p svc st ext d -> 0 <= st < 256 -> 0 <= ext < 256 ->
  (st = 0 -> ext = 0 -> forall w rest, 0 <= w < 2 ^ 16 -> d = [1; 0; 9; 0; 0; 0] ++ le 2 w ++ rest ->
     get_forces ctl s otid q = (Ok w, s1, q + 1) /\ force_enabled w = Z.testbit w 0) /\
  (st <> 0 \/ ext <> 0 -> get_forces ctl s otid q = (Err (EStatus (st + 256 * ext)), s1, q + 1)).
Proof.
  intros S ctl s s1 otid q p eip svc st ext d E R Ht He. unfold get_forces.
  assert (Ep : path_request otid q 0x03 (class_bytes 0x69 ++ instance_bytes 0) (le 2 (len [9]) ++ concat (map (le 2) [9])) = force_request otid q)
    by (apply object_request_wire; vm_compute; reflexivity).
  rewrite <- Ep in E. destruct (list_reply S ctl s s1 otid q 0x69 0 [9] p eip svc st ext d E R Ht He) as (r & -> & A & B). split.
  - intros Z0 Z1 w rest Hw Ed. destruct (B Z0 Z1 1 0 ([9; 0; 0; 0] ++ le 2 w ++ rest) Ed) as (it & -> & Rt). split; [|exact (is_fault_bit 0 w (Z.le_refl 0))].
    destruct (deserialize_rest 6 (num_at 4 2) it _ ltac:(lia) Rt) as (D & _). rewrite (D ([9; 0; 0; 0] ++ le 2 w) rest); [|now rewrite app_assoc|now rewrite app_length, le_length].
    f_equal. f_equal. f_equal. rewrite <- (app_nil_r (le 2 w)). now apply (num_at_app [9; 0; 0; 0] [] 4 2 w).
  - intro H. rewrite (A H). reflexivity.
Qed.
Print Assumptions C92_word_partial.
Example ex_C92 : get_forces (answers (plain_reply 0x83 0 0 [1; 0; 9; 0; 0; 0; 3; 0])) tt 7 1 = (Ok 3, tt, 2) /\ force_enabled 3 = true /\ force_enabled 2 = false.
Proof. split; [vm_compute; reflexivity|]. split; reflexivity. Qed.
(** but Enabled and Exist are one answer, whatever bits the two are on. *)
Theorem C92_exist_refuted : forall enabled exist, 0 <= enabled < 16 -> 0 <= exist < 16 -> enabled <> exist ->
  exists w, 0 <= w < 2 ^ 16 /\ ~ (force_enabled w = Z.testbit w enabled /\ force_exist w = Z.testbit w exist).
Proof.
  intros e x He Hx N. exists (2 ^ x). split; [split; [apply Z.pow_nonneg; lia|apply Z.pow_lt_mono_r; lia]|].
  intros [A B]. change (force_exist (2 ^ x)) with (force_enabled (2 ^ x)) in B. rewrite A, Z.pow2_bits_true, Z.pow2_bits_false in B by lia. discriminate.
Qed.
Print Assumptions C92_exist_refuted.
(** A controller that has no such attribute is taken to have no forces. *)
Theorem C92_status_refuted : exists p, reply p 0x83 0 0 ([1; 0] ++ [9; 0] ++ [0x14; 0] ++ [0; 0]) /\ get_forces (answers p) tt 7 1 = (Ok 0, tt, 2).
Proof. exists (plain_reply 0x83 0 0 [1; 0; 9; 0; 0x14; 0; 0; 0]). split; [now apply plain_reply_ok|vm_compute; reflexivity]. Qed.
Print Assumptions C92_status_refuted.

(** ** Properties *)
Lemma prop_of_wire a w p r o : length a = o -> prop_ok (w, p) -> prop_of o w (a ++ prop_wire (w, p) ++ r) = p.
Proof.
  intros La (A & B & C). destruct p as [i st v]. unfold prop_of, prop_wire. cbn [fst snd pr_id pr_status pr_value] in *. rewrite <- !app_assoc. f_equal.
  - now apply num_at_app.
  - rewrite (app_assoc a). apply num_at_app; [rewrite app_length, le_length; lia|exact B].
  - rewrite (app_assoc a), (app_assoc (a ++ le 2 i)). apply num_at_app; [rewrite !app_length, !le_length; lia|exact C].
Qed.
Lemma prop_length w p : length (prop_wire (w, p)) = (4 + w)%nat.
Proof. unfold prop_wire. cbn [fst snd]. rewrite !app_length, !le_length. lia. Qed.
Lemma props_of_wire ps : props_ok ps -> props_of (props_wire ps) = ps /\ length (props_wire ps) = 36%nat.
Proof.
  intros (L & F & _). destruct ps as [|p0 [|p1 [|p2 [|p3 [|p4 [|? ?]]]]]]; try discriminate.
  unfold widths in F. cbn [combine] in F. apply Forall_cons_iff in F. destruct F as [F0 F]. apply Forall_cons_iff in F. destruct F as [F1 F].
  apply Forall_cons_iff in F. destruct F as [F2 F]. apply Forall_cons_iff in F. destruct F as [F3 F]. apply Forall_cons_iff in F. destruct F as [F4 _].
  unfold props_wire, widths. cbn [combine map concat]. split; [|rewrite !app_length, !prop_length; reflexivity]. unfold props_of.
  f_equal; [exact (prop_of_wire [] 2 p0 _ 0 eq_refl F0)|].
  rewrite (prop_of_wire (prop_wire (2%nat, p0)) 2 p1 _ 6 (prop_length _ _) F1). f_equal.
  rewrite (app_assoc (prop_wire (2%nat, p0))). set (h2 := prop_wire (2%nat, p0) ++ prop_wire (2%nat, p1)).
  assert (L2 : length h2 = 12%nat) by (subst h2; rewrite app_length, !prop_length; reflexivity). rewrite (prop_of_wire h2 4 p2 _ 12 L2 F2). f_equal.
  rewrite (app_assoc h2). set (h3 := h2 ++ prop_wire (4%nat, p2)). assert (L3 : length h3 = 20%nat) by (subst h3; rewrite app_length, L2, prop_length; reflexivity).
  rewrite (prop_of_wire h3 4 p3 _ 20 L3 F3). f_equal.
  rewrite (app_assoc h3). set (h4 := h3 ++ prop_wire (4%nat, p3)). assert (L4 : length h4 = 28%nat) by (subst h4; rewrite app_length, L3, prop_length; reflexivity).
  rewrite (prop_of_wire h4 4 p4 _ 28 L4 F4). reflexivity.
Qed.
Lemma match_same a : forall b, props_match a b = true <-> map pr_value a = map pr_value b /\ map pr_status a = map pr_status b.
Proof.
  induction a as [|x a IH]; intros [|y b]; cbn [props_match map]; try (split; [discriminate|intros [H _]; discriminate]); [split; auto|].
  rewrite !andb_true_iff, IH. unfold same_prop. rewrite andb_true_iff, !Z.eqb_eq. split; [intros ((E1 & E2) & E3 & E4); split; congruence|].
  intros [E1 E2]. injection E1 as E1 E3. injection E2 as E2 E4. repeat split; congruence.
Qed.
Definition prop_request (otid q : Z) : bytes := object_request otid q 0x03 [0x20; 0xAC; 0x24; 1] [5; 0; 1; 0; 2; 0; 3; 0; 4; 0; 10; 0].
(** C93: GetControllerPropList gives the properties the controller reports, or its
    error; *)
Theorem C93_properties : forall S (ctl : controller S) s s1 otid q p eip svc st ext d,
  ctl s (prop_request otid q) = (Ok (eip, p), s1) -> reply p svc st ext d -> 0 <= st < 256 -> 0 <= ext < 256 ->
  (st = 0 -> ext = 0 -> forall ps rest, props_ok ps -> d = [5; 0] ++ props_wire ps ++ rest -> get_props ctl s otid q = (Ok ps, s1, q + 1)) /\
  (st <> 0 \/ ext <> 0 -> get_props ctl s otid q = (Err (EStatus (st + 256 * ext)), s1, q + 1)).
Proof.
  intros S ctl s s1 otid q p eip svc st ext d E R Ht He. unfold get_props.
  assert (Ep : path_request otid q 0x03 (class_bytes 0xAC ++ instance_bytes 1) (le 2 (len [1; 2; 3; 4; 10]) ++ concat (map (le 2) [1; 2; 3; 4; 10])) = prop_request otid q)
    by (apply object_request_wire; vm_compute; reflexivity).
  rewrite <- Ep in E. destruct (list_reply S ctl s s1 otid q 0xAC 1 [1; 2; 3; 4; 10] p eip svc st ext d E R Ht He) as (r & -> & A & B). split.
  - intros Z0 Z1 ps rest Op Ed. destruct (B Z0 Z1 5 0 (props_wire ps ++ rest) Ed) as (it & -> & Rt). destruct (props_of_wire ps Op) as [Eps Lp].
    destruct (deserialize_rest 36 props_of it _ ltac:(lia) Rt) as (D & _). rewrite (D (props_wire ps) rest eq_refl Lp), Eps. reflexivity.
  - intro H. rewrite (A H). reflexivity.
Qed.
Print Assumptions C93_properties.
(** and two such lists match exactly if nothing has changed. *)
Theorem C93_match : forall old new, props_ok old -> props_ok new -> (props_match old new = true <-> props_wire old = props_wire new).
Proof.
  intros old new Ho Hn. rewrite match_same. split.
  - intros [Ev Es]. assert (old = new) as ->; [|reflexivity]. destruct Ho as (_ & _ & Io), Hn as (_ & _ & In). assert (Ei : map pr_id old = map pr_id new) by congruence.
    clear Io In. revert new Ev Es Ei. induction old as [|[i st v] old IH]; intros [|[i' st' v'] new] Ev Es Ei; try discriminate; [reflexivity|].
    cbn [map pr_id pr_status pr_value] in *. injection Ev as -> Ev. injection Es as -> Es. injection Ei as -> Ei. f_equal. now apply IH.
  - intro E. assert (old = new) as -> by (rewrite <- (proj1 (props_of_wire old Ho)), E; apply (props_of_wire new Hn)). now split.
Qed.
Print Assumptions C93_match.
Definition ex_props (v : Z) : list prop := [Prop1 1 0 5; Prop1 2 0 1; Prop1 3 0 0x01020304; Prop1 4 0 0xFFFFFFFF; Prop1 10 0 v].
Example ex_C93 : props_ok (ex_props 7) /\ props_ok (ex_props 8) /\ props_match (ex_props 7) (ex_props 7) = true /\ props_match (ex_props 7) (ex_props 8) = false /\
  get_props (answers (plain_reply 0x83 0 0 ([5; 0] ++ props_wire (ex_props 7)))) tt 7 1 = (Ok (ex_props 7), tt, 2).
Proof.
  assert (X : forall v, 0 <= v < 2 ^ 32 -> props_ok (ex_props v)).
  { intros v Hv. split; [reflexivity|]. split; [|reflexivity]. repeat (constructor; [repeat split; cbn [fst snd pr_id pr_status pr_value]; lia|]). constructor. }
  split; [apply X; lia|]. split; [apply X; lia|]. split; [reflexivity|]. split; [reflexivity|]. vm_compute. reflexivity.
Qed.
