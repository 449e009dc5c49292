(** * C117: structures and the built-in server *)
From Verif Require Import GoBase SegModel IoiModel IoiSpec IoiProof ItemsModel TypesModel ItemsSpec ItemsProof ReadModel ReadSpec ReadProof Prop_Read
  PackTypes PackModel PackSpec PackProof PackRead Prop_Pack StructModel LgxModel KnownModel KnownSpec KnownProof WriteModel WriteSpec
  WriteProof BatchSpec EipModel EipSpec OpenModel TableModel SrvValModel SrvValSpec SrvValProof ProvModel ProvSpec ProvProof Prop_SrvVal SrvModel SrvSpec
  SrvProof Prop_Srv ReqSpec LinkModel ReqProof Prop_Req Prop_Known.

(** ** lgxtypes.STRING and text *)

(** The characters of a STRING: as many as LEN says, all 82 if it says more or is
    negative. *)
Definition byte_of (v : gv) : Z := match v with VInt z => z mod 256 | _ => 0 end.
Definition characters (v : gv) : bytes :=
  match v with
  | VStruct [VInt n; VArr cs] => firstn (Z.to_nat (if (0 <=? n) && (n <=? 82) then n else 82)) (map byte_of cs)
  | _ => []
  end.
(** The STRING of a text: zeros after it. *)
Definition sint_of (c : Z) : gv := VInt (if c <? 128 then c else c - 256).
Definition string_struct (s : bytes) : gv := VStruct [VInt (len s); VArr (map sint_of (s ++ zeros (82 - length s)))].

Lemma kwrite_sends {S} (ctl : controller S) ops tg k v s otid q :
  named ops tg -> structure k -> fit k -> regular (logix k) -> has_type (under k) v -> len (fst (kpack k v)) < 64000 ->
  kwrite crc16 ctl (cl_run ops) s otid q (text tg) k v =
  (let '(r, s1) := exchange ctl s (write_request otid q
     (write_service (encode tg) ([0xA0; 0x02] ++ le 2 (logix_handle k (logix_text k))) 1 (fst (kpack k v)))) write_reply in (r, s1, q + 1)).
Proof.
  intros N St F R H L. unfold kwrite. destruct (named_ioi ops tg T_struct N) as (i & En & Eb). rewrite En, Eb.
  rewrite (C114_description_partial k St R). set (h := logix_handle k (logix_text k)).
  replace ([T_struct; 2] ++ le 2 h ++ le 2 1 ++ fst (kpack k v))
    with ((([0xA0; 0x02] ++ le 2 h) ++ le 2 1) ++ fst (kpack k v)) by (rewrite <- !app_assoc; reflexivity).
  rewrite write_request_wire; [reflexivity|apply N|]. rewrite !len_app, !le_len. change (len [160; 2]) with 2. lia.
Qed.

Lemma string_typed_inv v : has_type (under KString) v -> exists n cs, v = VStruct [VInt n; VArr cs] /\ - 2 ^ 31 <= n < 2 ^ 31 /\ length cs = 82%nat /\
  Forall (has_type (TInt true 1)) cs.
Proof.
  destruct v as [| | | |[|a [|b [|]]]]; cbn [has_type under fields_have]; try tauto. destruct a; cbn [has_type dint]; try tauto. destruct b; cbn [has_type]; try tauto.
  intros ((_ & N) & (L & F) & _). eexists _, _. split; [reflexivity|]. split; [exact N|]. now split.
Qed.
Lemma raw_chars cs : Forall (has_type (TInt true 1)) cs -> concat (map (raw_write (TInt true 1)) cs) = map byte_of cs.
Proof.
  induction 1 as [|c cs H F IH]; [reflexivity|]. cbn [map concat]. rewrite IH. destruct c; cbn [has_type] in H; try contradiction. reflexivity.
Qed.
Lemma pack_string n cs : length cs = 82%nat -> Forall (has_type (TInt true 1)) cs ->
  fst (kpack KString (VStruct [VInt n; VArr cs])) = le 4 n ++ map byte_of cs.
Proof.
  intros L F. rewrite <- (raw_chars cs F). change (fst (kpack KString (VStruct [VInt n; VArr cs]))) with
    (le 4 n ++ concat (map (raw_write (TInt true 1)) cs) ++ []). now rewrite app_nil_r.
Qed.
Lemma string_regular : regular (logix KString).
Proof. cbn. repeat split. Qed.
Lemma byte_of_sint c : 0 <= c < 256 -> byte_of (sint_of c) = c.
Proof. intros H. unfold sint_of, byte_of. destruct (Z.ltb_spec c 128); Z.to_euclidean_division_equations; lia. Qed.
Lemma bytes_sints s : bytes_ok s -> map byte_of (map sint_of s) = s.
Proof. induction 1 as [|c s H F IH]; [reflexivity|]. cbn [map]. now rewrite IH, byte_of_sint. Qed.
Lemma string_struct_typed s : bytes_ok s -> len s <= 82 -> has_type (under KString) (string_struct s).
Proof.
  intros B L. unfold string_struct. unfold len in *.
  assert (T : Forall (has_type (TInt true 1)) (map sint_of (s ++ zeros (82 - length s)))).
  { apply Forall_map. apply Forall_app. split.
    - eapply Forall_impl; [|exact B]. intros c H. unfold byte_ok in H. unfold sint_of. cbn [has_type]. split; [cbn; tauto|]. change (2 ^ (8 * 1 - 1)) with 128. destruct (Z.ltb_spec c 128); lia.
    - apply Forall_forall. intros c I. apply repeat_spec in I. subst. cbn [has_type sint_of]. split; [cbn; tauto|]. cbn. lia. }
  cbn [under has_type fields_have dint]. split; [split; [cbn; tauto|lia]|]. split; [|exact Logic.I]. split; [|exact T].
  rewrite map_length, app_length. unfold zeros. rewrite repeat_length. lia.
Qed.
Lemma string_struct_chars s : bytes_ok s -> len s <= 82 -> characters (string_struct s) = s.
Proof.
  intros B L. unfold characters, string_struct. pose proof (len_nonneg s).
  replace ((0 <=? len s) && (len s <=? 82)) with true by (symmetry; apply andb_true_intro; split; apply Z.leb_le; lia).
  rewrite bytes_sints by (apply bytes_ok_app; split; [exact B|apply bytes_ok_zeros]).
  unfold len. rewrite Nat2Z.id, firstn_app, Nat.sub_diag, firstn_all. cbn [firstn]. apply app_nil_r.
Qed.
Lemma string_struct_bytes s : bytes_ok s -> len s <= 82 -> fst (kpack KString (string_struct s)) = le 4 (len s) ++ s ++ zeros (82 - length s).
Proof.
  intros B L. pose proof (string_struct_typed s B L) as T. destruct (string_typed_inv _ T) as (n & cs & E & _ & Lc & F).
  unfold string_struct in E. injection E as <- <-. unfold string_struct. rewrite pack_string by assumption.
  now rewrite bytes_sints by (apply bytes_ok_app; split; [exact B|apply bytes_ok_zeros]).
Qed.

(** The server parses a structure as texts if its handle is that of STRING, and not
    at all otherwise. *)
Lemma struct_parsed h d : parse_write_values (([0xA0; 0x02] ++ le 2 h) ++ le 2 1 ++ d) = if h mod 65536 =? 0x0FCE then parse_strings 1 d else Err EMsg.
Proof.
  rewrite <- app_assoc. change ([160; 2] ++ ?x) with (160 :: 2 :: x). unfold parse_write_values.
  rewrite rd_cons1. cbn [bind]. rewrite rd_cons1. cbn [bind]. change (Z.to_nat (unle [2])) with 2%nat. rewrite rd_app by apply le_length. cbn [bind].
  rewrite rd_app by apply le_length. cbn [bind]. change (unle [160] =? T_struct) with true. cbv iota. rewrite le_len. change (2 <=? Z.of_nat 2) with true. cbn [andb].
  rewrite firstn_all2 by (rewrite le_length; lia). rewrite !unle_le. change (2 ^ (8 * Z.of_nat 2)) with 65536. now rewrite (Z.mod_small 1) by lia.
Qed.
(** The server takes the structure for its characters. *)
Lemma string_parsed v : has_type (under KString) v ->
  parse_write_values (([0xA0; 0x02] ++ le 2 0x0FCE) ++ le 2 1 ++ fst (kpack KString v)) = Ok ([GStr (characters v)], []).
Proof.
  intros H. rewrite struct_parsed. change (0x0FCE mod 65536 =? 0x0FCE) with true. cbv iota.
  destruct (string_typed_inv v H) as (n & cs & -> & N & L & F). rewrite pack_string by assumption.
  cbn [parse_strings]. unfold parse_string.
  rewrite rd_app by apply le_length. cbn [bind]. rewrite <- (app_nil_r (map byte_of cs)) at 1. rewrite rd_app by (now rewrite map_length). cbn [bind].
  rewrite unle_le. change (2 ^ (8 * Z.of_nat 4)) with (2 ^ 32). do 3 f_equal. unfold characters.
  destruct ((0 <=? n) && (n <=? 82)) eqn:E.
  - apply andb_true_iff in E as [E1 E2]. rewrite Z.mod_small by lia. destruct (Z.ltb_spec 82 n); [lia|reflexivity].
  - assert (82 < n mod 2 ^ 32) as H1.
    { apply andb_false_iff in E as [E|E]; apply Z.leb_gt in E; [|rewrite Z.mod_small; lia].
      replace (n mod 2 ^ 32) with (n + 2 ^ 32) by (symmetry; rewrite <- (Z.mod_add n 1) by lia; rewrite Z.mul_1_l; apply Z.mod_small; lia). lia. }
    destruct (Z.ltb_spec 82 (n mod 2 ^ 32)); [reflexivity|lia].
Qed.

(** ** C117

    Full statement: a struct written to a tag of the built-in server is read back as
    it was, or the write returns an error and changes nothing.  It is false (the
    [_refuted] theorems).  Elements of arrays of
    texts: Prop_StructsE.  Several STRINGs at once: C134.

    Write of a lgxtypes.STRING succeeds; the tag then is its text. *)
Theorem C117_string_stored : forall session context otid i sh ops tg v q,
  linked session context otid i sh -> named ops tg -> addressed tg -> length (last_subs tg) <> 1%nat -> has_type (under KString) v ->
  exists sh1, kwrite crc16 (link session context) (cl_run ops) sh otid q (text tg) KString v = (Ok tt, sh1, q + 1) /\
    linked session context otid i sh1 /\ others_same i (fst sh) (fst sh1) /\
    updated (behind i sh) (lower (text tg)) (VOne (GStr (characters v))) (behind i sh1).
Proof.
  intros session context otid i sh ops tg v q L N Ad Ls H. pose proof Ad as (V & B & _). pose proof (plain_lower tg V B Ls) as Pl.
  assert (Lp : len (fst (kpack KString v)) = 86).
  { destruct (string_typed_inv v H) as (n & cs & -> & _ & Lc & F). rewrite pack_string by assumption. rewrite len_app, le_len. unfold len. rewrite map_length, Lc. reflexivity. }
  rewrite (kwrite_sends _ ops tg KString v sh otid q N Logic.I Logic.I string_regular H ltac:(lia)).
  change (logix_handle KString (logix_text KString)) with 0x0FCE.
  destruct (link_write_parsed session context otid i sh q tg ([0xA0; 0x02] ++ le 2 0x0FCE) 1 (fst (kpack KString v)) 0xA0
    (([0x02] ++ le 2 0x0FCE) ++ le 2 1 ++ fst (kpack KString v)) [GStr (characters v)] []) as (r & sh1 & E & L1 & Os & K); try assumption.
  - apply N.
  - reflexivity.
  - lia.
  - exact (string_parsed v H).
  - constructor; [discriminate|constructor].
  - discriminate.
  - rewrite !len_app, Lp, !le_len. reflexivity.
  - exists sh1. unfold exchange. rewrite E.
    assert (W : exists m, writes (behind i sh) (text tg) (GiveOne (GStr (characters v))) m).
    { exists (fun x => if bseq x (lower (text tg)) then Some (VOne (GStr (characters v))) else behind i sh x). apply w_plain; [exact Pl| |].
      - intros (e0 & l & l0 & _ & X). discriminate.
      - split; [now rewrite bseq_refl|]. intros k' X. destruct (bseq k' (lower (text tg))) eqn:Eb; [|reflexivity]. apply bseq_spec in Eb. congruence. }
    destruct K as [(p & -> & A & K)|(er & _ & K & _)]; [|destruct W as (m & W); now elim (K m)].
    rewrite (write_answer_parsed _ _ A). split; [reflexivity|]. split; [exact L1|]. split; [exact Os|].
    apply writes_plain_inv in K as [(e1 & l1 & l2 & l' & _ & X & _)|[_ U]]; [discriminate|exact U|exact Pl].
Qed.
Print Assumptions C117_string_stored.

(** A tag that holds a text is read into a STRING, with zeros after it. *)
Theorem C117_string_read : forall session context otid i sh ops tg s old fuel q,
  linked session context otid i sh -> named ops tg -> addressed tg -> length (last_subs tg) <> 1%nat -> bytes_ok s -> len s <= 82 ->
  behind i sh (lower (text tg)) = Some (VOne (GStr s)) ->
  exists sh1, kread fuel (link session context) (cl_run ops) sh otid q (text tg) KString old = (Ok (string_struct s), sh1, q + 1) /\
    linked session context otid i sh1 /\ fst sh1 = fst sh.
Proof.
  intros session context otid i sh ops tg s old fuel q L N Ad Ls B Len E. pose proof Ad as (V & Bt & _). pose proof (plain_lower tg V Bt Ls) as Pl.
  assert (Cc : clear_count 1) by (unfold clear_count; rewrite Z.mod_small by lia; lia).
  assert (Es : firstn 82 s = s) by (apply firstn_all2; unfold len in Len; lia).
  pose proof (wv_string s) as W. rewrite Es in W. rewrite Z.min_l in W by lia.
  change ([160; 2; 206; 15] ++ ?x) with ([160; 2] ++ ([206; 15] ++ x)) in W.
  assert (Lv : len ([206; 15] ++ le 4 (len s) ++ s ++ zeros (84 - length s)) < 65000).
  { rewrite !len_app, le_len. unfold zeros. unfold len in *. rewrite repeat_length. cbn [length]. lia. }
  assert (R : ProvSpec.reads (behind i sh) (text tg) 1 (VOne (GStr s))) by (apply r_one; [exact Pl|exact E]).
  destruct (link_read session context otid i sh q tg 1 _ _ _ _ L Ad (proj2 (proj2 N)) Cc R W Lv) as (p & sh1 & El & A & L1 & F1).
  exists sh1. split; [|split; assumption]. unfold kread. change T_struct with 0xA0.
  rewrite (C17_structure_bytes _ _ fuel ops sh sh1 otid q tg (le 4 (len s) ++ s ++ zeros (84 - length s)) [206; 15] 1 N eq_refl).
  2:{ exists 0, p. split; [exact El|exact A]. }
  cbn [as_bytes bind]. replace (le 4 (len s) ++ s ++ zeros (84 - length s)) with (fst (kpack KString (string_struct s)) ++ [0; 0]).
  2:{ rewrite string_struct_bytes by assumption. rewrite <- !app_assoc. do 2 f_equal. change [0; 0] with (zeros 2). unfold zeros. rewrite <- repeat_app. f_equal. unfold len in Len. lia. }
  assert (U : kunpack KString old (fst (kpack KString (string_struct s)) ++ [0; 0]) = Ok (string_struct s, snd (kpack KString (string_struct s)), [0; 0]))
    by exact (C14_round_trip _ _ (string_struct s) [0; 0] (string_struct_typed s B Len)).
  rewrite U. reflexivity.
Qed.
Print Assumptions C117_string_read.

(** Write of a STRING with zeros after its text; whatever the others do; Read of
    the tag, in any letter case, into a STRING or a Go string. *)
Theorem C117_string_partial : forall session context otid i sh ops ops' tg tg' s old fuel q q',
  linked session context otid i sh -> named ops tg -> addressed tg -> named ops' tg' -> addressed tg' ->
  lower (text tg') = lower (text tg) -> length (last_subs tg) <> 1%nat -> length (last_subs tg') <> 1%nat -> bytes_ok s -> len s <= 82 ->
  exists sh1, kwrite crc16 (link session context) (cl_run ops) sh otid q (text tg) KString (string_struct s) = (Ok tt, sh1, q + 1) /\
    linked session context otid i sh1 /\
    forall sh2, meanwhile i (lower (text tg)) sh1 sh2 ->
      (exists sh3, kread fuel (link session context) (cl_run ops') sh2 otid q' (text tg') KString old = (Ok (string_struct s), sh3, q' + 1) /\ fst sh3 = fst sh2) /\
      (exists sh3, client_read fuel (link session context) (cl_run ops') sh2 otid q' (text tg') TypesModel.KString = (Ok (GStr s), sh3, q' + 1) /\ fst sh3 = fst sh2).
Proof.
  intros session context otid i sh ops ops' tg tg' s old fuel q q' L N Ad N' Ad' El Ls Ls' B Len.
  destruct (C117_string_stored session context otid i sh ops tg _ q L N Ad Ls (string_struct_typed s B Len)) as (sh1 & E & L1 & _ & U).
  rewrite string_struct_chars in U by assumption. exists sh1. split; [exact E|]. split; [exact L1|]. intros sh2 Mw.
  destruct (meanwhile_keeps session context otid i _ _ _ Mw L1) as (L2 & E2). rewrite (proj1 U) in E2. rewrite <- El in E2. split.
  - destruct (C117_string_read session context otid i sh2 ops' tg' s old fuel q' L2 N' Ad' Ls' B Len E2) as (sh3 & E3 & _ & F3). now exists sh3.
  - pose proof Ad' as (V & Bt & _). pose proof (plain_lower tg' V Bt Ls') as Pl.
    destruct (C44_read session context otid i sh2 ops' tg' TypesModel.KString (GStr s) fuel q' L2 N' Ad') as (sh3 & E3 & _ & F3).
    + right. exists s. now repeat split.
    + now apply r_one.
    + now exists sh3.
Qed.
Print Assumptions C117_string_partial.

(** Any other structure is refused: Write returns an error and nothing changes. *)
Theorem C117_other_fails : forall session context otid i sh ops tg k v q,
  linked session context otid i sh -> named ops tg -> addressed tg ->
  structure k -> fit k -> regular (logix k) -> has_type (under k) v -> len (fst (kpack k v)) < 63990 ->
  logix_handle k (logix_text k) mod 65536 <> 0x0FCE ->
  exists e sh1, kwrite crc16 (link session context) (cl_run ops) sh otid q (text tg) k v = (Err e, sh1, q + 1) /\
    linked session context otid i sh1 /\ fst sh1 = fst sh.
Proof.
  intros session context otid i sh ops tg k v q L N Ad St F R H Lp Nh.
  rewrite (kwrite_sends _ ops tg k v sh otid q N St F R H ltac:(lia)). set (h := logix_handle k (logix_text k)) in *.
  destruct (link_write_refused session context otid i sh q tg ([0xA0; 0x02] ++ le 2 h) 1 (fst (kpack k v)) 0xA0
    (([0x02] ++ le 2 h) ++ le 2 1 ++ fst (kpack k v)) EMsg) as (e1 & sh1 & E & L1 & F1); try assumption.
  - apply N.
  - reflexivity.
  - lia.
  - change (160 :: ([2] ++ le 2 h) ++ le 2 1 ++ fst (kpack k v)) with (([0xA0; 0x02] ++ le 2 h) ++ le 2 1 ++ fst (kpack k v)).
    rewrite struct_parsed. now destruct (Z.eqb_spec (h mod 65536) 0x0FCE).
  - rewrite !len_app, !le_len. change (len [160; 2]) with 2. lia.
  - exists e1, sh1. unfold exchange. rewrite E. now split.
Qed.
Print Assumptions C117_other_fails.

(** ** Refutations *)

(** Write succeeds and Read into the same type gives something else. *)
Definition altered (sh : server * handler) (t : tag) (k : kty) (v : gv) : Prop :=
  let '(r, sh1, q) := kwrite crc16 (link 77 9) (cl_run []) sh 5 1 (text t) k v in
  r = Ok tt /\ exists v', fst (fst (kread 0 (link 77 9) (cl_run []) sh1 5 q (text t) k v)) = Ok v' /\ v' <> v.

(** Characters after LEN are lost. *)
Theorem C117_rest_refuted : exists t v, linked 77 9 5 0 demo /\ named [] t /\ addressed t /\ has_type (under KString) v /\
  altered demo t KString v.
Proof.
  exists (nm (str "Text") []), (VStruct [VInt 2; VArr (map sint_of (str "abc" ++ zeros 79))]).
  split; [exact demo_linked|]. split; [demo_tag|]. split; [demo_tag|]. split; [cbn; typed|].
  vm_compute. split; [reflexivity|]. eexists. split; [reflexivity|discriminate].
Qed.
Print Assumptions C117_rest_refuted.
(** A negative LEN comes back as 82. *)
Theorem C117_length_refuted : exists t n cs, n < 0 /\ linked 77 9 5 0 demo /\ named [] t /\ addressed t /\ has_type (under KString) (VStruct [VInt n; VArr cs]) /\
  altered demo t KString (VStruct [VInt n; VArr cs]).
Proof.
  exists (nm (str "Text") []), (-1), (map sint_of (zeros 82)).
  split; [lia|]. split; [exact demo_linked|]. split; [demo_tag|]. split; [demo_tag|]. split; [cbn; typed|].
  vm_compute. split; [reflexivity|]. eexists. split; [reflexivity|discriminate].
Qed.
Print Assumptions C117_length_refuted.
(** A struct whose description happens to have the checksum 0x0FCE is taken for a
    text: { int32; [82]int8 } by the name om5. *)
Definition om5 : kty := KStruct (str "om5") (KCons false (KPlain dint) (KCons false (KPlain (TArr 82 (TInt true 1))) KNil)).
Theorem C117_collision_refuted : exists t v, linked 77 9 5 0 demo /\ named [] t /\ addressed t /\ structure om5 /\ fit om5 /\ regular (logix om5) /\
  has_type (under om5) v /\ altered demo t om5 v.
Proof.
  exists (nm (str "Totals") []), (VStruct [VInt 100000; VArr (map sint_of (zeros 82))]).
  split; [exact demo_linked|]. split; [demo_tag|]. split; [demo_tag|]. split; [exact Logic.I|]. split; [cbn; tauto|]. split; [cbn; repeat split; discriminate|].
  split; [cbn; typed|]. vm_compute. split; [reflexivity|]. eexists. split; [reflexivity|discriminate].
Qed.
Print Assumptions C117_collision_refuted.

Example ex_C117_string : exists sh1 sh3, kwrite crc16 (link 77 9) (cl_run []) demo 5 1 (str "Text") KString (string_struct (str "hello")) = (Ok tt, sh1, 2) /\
  kread 0 (link 77 9) (cl_run []) sh1 5 2 (str "TEXT") KString (VBool false) = (Ok (string_struct (str "hello")), sh3, 3).
Proof.
  destruct (C117_string_partial 77 9 5 0 demo [] [] (nm (str "Text") []) (nm (str "TEXT") []) (str "hello") (VBool false) 0 1 2 demo_linked
    ltac:(demo_tag) ltac:(demo_tag) ltac:(demo_tag) ltac:(demo_tag) eq_refl ltac:(discriminate) ltac:(discriminate)) as (sh1 & E & _ & R).
  - unfold bytes_ok; cbn; repeat (constructor; [unfold byte_ok; lia|]); constructor.
  - vm_compute. discriminate.
  - destruct (R sh1 (mw_none _ _ _)) as ((sh3 & E3 & _) & _). exists sh1, sh3. now split.
Qed.
Example ex_C117_stored : has_type (under KString) (VStruct [VInt 200; VArr (map sint_of (str "abc" ++ zeros 79))]) /\
  characters (VStruct [VInt 200; VArr (map sint_of (str "abc" ++ zeros 79))]) = str "abc" ++ zeros 79.
Proof. split; [cbn; typed|reflexivity]. Qed.
Example ex_C117_read : exists sh1 sh3, linked 77 9 5 0 sh1 /\ behind 0 sh1 (str "text") = Some (VOne (GStr (str "hi"))) /\
  kread 0 (link 77 9) (cl_run []) sh1 5 2 (str "TEXT") KString (VBool false) = (Ok (string_struct (str "hi")), sh3, 3).
Proof.
  destruct (C117_string_stored 77 9 5 0 demo [] (nm (str "Text") []) (string_struct (str "hi")) 1 demo_linked
    ltac:(demo_tag) ltac:(demo_tag) ltac:(discriminate)) as (sh1 & _ & L1 & _ & U); [cbn; typed|].
  assert (E : behind 0 sh1 (str "text") = Some (VOne (GStr (str "hi")))) by exact (proj1 U).
  destruct (C117_string_read 77 9 5 0 sh1 [] (nm (str "TEXT") []) (str "hi") (VBool false) 0 2 L1 ltac:(demo_tag) ltac:(demo_tag) ltac:(discriminate)) as (sh3 & E3 & _).
  - unfold bytes_ok; cbn; repeat (constructor; [unfold byte_ok; lia|]); constructor.
  - vm_compute. discriminate.
  - exact E.
  - exists sh1, sh3. split; [exact L1|]. split; [exact E|exact E3].
Qed.
Example ex_C117_other : exists e sh1, kwrite crc16 (link 77 9) (cl_run []) demo 5 1 (str "speed") KTimer ex_timer = (Err e, sh1, 2) /\ fst sh1 = demo_server.
Proof.
  destruct (C117_other_fails 77 9 5 0 demo [] (nm (str "speed") []) KTimer ex_timer 1 demo_linked ltac:(demo_tag) ltac:(demo_tag) Logic.I Logic.I)
    as (e & sh1 & E & _ & F).
  - cbn. tauto.
  - cbn. typed.
  - reflexivity.
  - discriminate.
  - exists e, sh1. now split.
Qed.
