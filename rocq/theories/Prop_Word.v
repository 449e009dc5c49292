(** * C118, C119: what browsing says of types *)
From Coq Require Import Permutation.
From Verif Require Import GoBase SegModel IoiModel ReadModel TypesModel ListModel ListSpec ListProof Prop_List WordSpec.

(** The TagInfo of a symbol with this type word. *)
Definition info_of (w d1 d2 d3 : Z) : tag_info := TagInfo (w mod 256) (w / 256) d1 d2 d3.
Lemma info_of_word w d1 d2 d3 : 0 <= w -> info_word (info_of w d1 d2 d3) = w.
Proof. intros H. unfold info_word, info_of. cbn [ti_type ti_info unle]. pose proof (Z.div_mod w 256). lia. Qed.
Lemma word_range sy st dims ty : word_parts dims ty -> 0 <= word sy st dims ty < 65536.
Proof. intros [H1 H2]. unfold word. destruct sy, st; lia. Qed.
Lemma land_pow2 w n : 0 <= n -> Z.land w (2 ^ n) = if Z.testbit w n then 2 ^ n else 0.
Proof.
  intros Hn. apply Z.bits_inj'. intros m Hm. rewrite Z.land_spec. rewrite Z.pow2_bits_eqb by exact Hn.
  destruct (Z.eqb_spec n m) as [->|N].
  - rewrite andb_true_r. destruct (Z.testbit w m) eqn:E; [now rewrite Z.pow2_bits_true|now rewrite Z.bits_0].
  - rewrite andb_false_r. destruct (Z.testbit w n); [now rewrite Z.pow2_bits_false by congruence|now rewrite Z.bits_0].
Qed.
Lemma testbit_div w n : 0 <= n -> Z.testbit w n = negb ((w / 2 ^ n) mod 2 =? 0).
Proof. intros H. rewrite Z.testbit_eqb by exact H. pose proof (Z.mod_pos_bound (w / 2 ^ n) 2). destruct (Z.eqb_spec ((w / 2 ^ n) mod 2) 0); destruct (Z.eqb_spec ((w / 2 ^ n) mod 2) 1); lia || reflexivity. Qed.
Lemma word_bit12 sy st dims ty : word_parts dims ty -> Z.testbit (word sy st dims ty) 12 = sy.
Proof.
  intros [H1 H2]. rewrite testbit_div by lia. change (2 ^ 12) with 4096. unfold word.
  destruct sy, st; Z.to_euclidean_division_equations; destruct (Z.eqb_spec r 0); cbn [negb]; lia || reflexivity.
Qed.
Lemma word_bit15 sy st dims ty : word_parts dims ty -> Z.testbit (word sy st dims ty) 15 = st.
Proof.
  intros [H1 H2]. rewrite testbit_div by lia. change (2 ^ 15) with 32768. unfold word.
  destruct sy, st; Z.to_euclidean_division_equations; destruct (Z.eqb_spec r 0); cbn [negb]; lia || reflexivity.
Qed.
Lemma land_ones w : Z.land w 0x0FFF = w mod 4096.
Proof. change 0x0FFF with (Z.ones 12). now rewrite Z.land_ones by lia. Qed.
Lemma word_type sy st dims ty : word_parts dims ty -> Z.land (word sy st dims ty) 0x0FFF = ty.
Proof. intros [H1 H2]. rewrite land_ones. unfold word. destruct sy, st; Z.to_euclidean_division_equations; lia. Qed.

(** ** C118

    Full statement: of the tags found by browsing, Atomic() holds exactly for
    those of elementary types; PreDefined() for those and for no user-defined
    structure; Template_ID() is the number of the structure; and IsAtomic() of a
    type code holds exactly for the codes of elementary types.

    Atomic and Template_ID, for every type word. *)
Theorem C118_atomic : forall system structured dims type d1 d2 d3, word_parts dims type ->
  let i := info_of (word system structured dims type) d1 d2 d3 in
  (atomic i = true <-> system = false /\ structured = false) /\
  template_id (info_word i) = (if structured && negb system then type else 0).
Proof.
  intros sy st dims ty d1 d2 d3 P i. pose proof (word_range sy st dims ty P) as R. unfold i. clear i. split.
  - unfold atomic. rewrite info_of_word by lia. change 0x9000 with (Z.lor (2 ^ 15) (2 ^ 12)). rewrite Z.land_lor_distr_r, !land_pow2 by lia.
    rewrite word_bit12, word_bit15 by exact P. destruct sy, st; cbn; intuition discriminate.
  - unfold template_id. rewrite info_of_word by lia. rewrite word_bit12, word_bit15, word_type by exact P. now destruct sy, st.
Qed.
Print Assumptions C118_atomic.
(** PreDefined: for elementary types with nothing in the bits above the code, and
    for structures by their number. *)
Theorem C118_predefined_partial : forall system structured dims type d1 d2 d3, word_parts dims type ->
  let i := info_of (word system structured dims type) d1 d2 d3 in
  (type < 256 -> predefined i = true) /\ (0x100 < type -> predefined i = false).
Proof.
  intros sy st dims ty d1 d2 d3 P i. pose proof (word_range sy st dims ty P) as R. unfold i, predefined. rewrite info_of_word by lia. rewrite word_type by exact P.
  split; intros H; destruct (Z.leb_spec ty 0x0100); lia || reflexivity.
Qed.
Print Assumptions C118_predefined_partial.
(** In the list of tags. *)
Theorem C118_browsed_partial : forall S (ctl : controller S) otid T table progs tables order start w,
  start = 0 \/ start = 1 -> Forall entry_ok table -> increasing table -> Forall program_ok progs -> NoDup (map kp_name progs) ->
  (forall p, In p progs -> Forall entry_ok (tables p) /\ increasing (tables p)) ->
  serves_symbols ctl otid [] table two -> serves_programs ctl otid progs ->
  (forall p, In p progs -> serves_symbols ctl otid (program_path p) (tables p) moves) ->
  serves_templates ctl otid T -> client_templates T (l_lists w) ->
  (forall l, Permutation (order l) l) -> distinct (wanted T table progs tables) ->
  exists n, forall fuel, (n <= fuel)%nat -> exists w1, list_all_tags fuel order ctl otid start w = (Ok tt, w1) /\
    forall e system structured dims type, In e table -> user_tag (e_name e) -> ~ program_entry (e_name e) ->
      word_parts dims type -> e_type e = word system structured dims type ->
      exists t, lookup (lower (e_name e)) (l_tags (l_lists w1)) = Some t /\
        (atomic (ls_info t) = true <-> system = false /\ structured = false) /\
        (ls_udt t <> None -> structured = true /\ system = false /\ type <> 0).
Proof.
  intros S ctl otid T table progs tables order start w Hst O Inc Op Np Ht Sv Sp Ss HT Ci Or D.
  destruct (C50_tags_partial S ctl otid T table progs tables order start w Hst O Inc Op Np Ht Sv Sp Ss HT Ci Or D) as (n & K).
  exists n. intros fuel F. destruct (K fuel F) as (w1 & E & (R & _) & _). exists w1. split; [exact E|].
  intros e sy st dims ty I U N P Et. exists (snd (global_tag T e)). split; [|split].
  - apply R. left. exists e. split; [exact I|]. split; [exact U|]. split; [exact N|]. unfold global_tag. reflexivity.
  - cbn [global_tag snd ls_info]. unfold type_of. rewrite Et. exact (proj1 (C118_atomic sy st dims ty (e_d1 e) (e_d2 e) (e_d3 e) P)).
  - cbn [global_tag snd ls_udt]. intros H. pose proof (proj2 (C118_atomic sy st dims ty 0 0 0 P)) as X. pose proof (word_range sy st dims ty P) as Rw.
    rewrite info_of_word in X by lia. rewrite template_id_no in X by (unfold u; rewrite <- Et in Rw |- *; change (2 ^ 16) with 65536; exact Rw).
    rewrite Et, X in H. destruct st, sy; cbn [andb negb] in H; try (now elim H). split; [reflexivity|]. split; [reflexivity|].
    destruct (Z.eqb_spec ty 0); [now elim H|assumption].
Qed.
Print Assumptions C118_browsed_partial.
(** A BOOL tag kept at bit 1 of its byte: its type word is 0x01C1. *)
Theorem C118_bool_refuted : exists i, i = info_of (word false false 0 (0xC1 + 256 * 1)) 0 0 0 /\ atomic i = true /\ predefined i = false.
Proof. eexists. split; [reflexivity|]. split; reflexivity. Qed.
Print Assumptions C118_bool_refuted.
(** The first number of a user-defined structure, 0x100, counts as pre-defined. *)
Theorem C118_structure_refuted : exists i, i = info_of (word false true 0 0x100) 0 0 0 /\ template_id (info_word i) = 0x100 /\ predefined i = true.
Proof. eexists. split; [reflexivity|]. split; reflexivity. Qed.
Print Assumptions C118_structure_refuted.
(** IsAtomic: true of every code but 0xFF. *)
Theorem C118_code_partial : forall code size, In (code, size) elementary -> is_atomic code = true.
Proof. intros code size I. repeat (destruct I as [[= <- <-]|I]; [reflexivity|]). destruct I. Qed.
Print Assumptions C118_code_partial.
Theorem C118_code_refuted : exists code, code = 0xA0 /\ ~ In code (map fst elementary) /\ is_atomic code = true.
Proof. exists 0xA0. split; [reflexivity|]. split; [|reflexivity]. cbn. intros H. repeat (destruct H as [H|H]; [discriminate H|]). destruct H. Qed.
Print Assumptions C118_code_refuted.

Example ex_C118_words : word false false 1 0xC4 = 0x20C4 /\ word false true 0 0xF83 = 0x8F83 /\ word true false 0 0x68 = 0x1068 /\
  atomic (info_of 0x20C4 10 0 0) = true /\ atomic (info_of 0x8F83 0 0 0) = false /\ atomic (info_of 0x1068 0 0 0) = false /\
  predefined (info_of 0x20C4 10 0 0) = true /\ predefined (info_of 0x8F83 0 0 0) = false /\ template_id (info_word (info_of 0x8F83 0 0 0)) = 0xF83.
Proof. repeat split. Qed.
(** The controller of [ex_C50]: Count is a DINT, Motors a structure. *)
Example ex_C118_browsed : In (Entry 3 (str "Count") 0xC4 0 0 0) two_tags /\ user_tag (str "Count") /\ ~ program_entry (str "Count") /\
  word_parts 0 0xC4 /\ 0xC4 = word false false 0 0xC4 /\
  exists w1 t, list_all_tags 20 (fun l => l) (demo_device 2) 7 0 fresh_client = (Ok tt, w1) /\ lookup (str "count") (l_tags (l_lists w1)) = Some t /\ atomic (ls_info t) = true /\
  exists m, lookup (str "motors") (l_tags (l_lists w1)) = Some m /\ atomic (ls_info m) = false /\ ls_udt m <> None.
Proof.
  split; [now left|]. split; [apply is_valid_spec; reflexivity|]. split; [intros (r & _ & E); discriminate E|]. split; [unfold word_parts; lia|]. split; [reflexivity|].
  eexists _, _. split; [vm_compute; reflexivity|]. split; [vm_compute; reflexivity|]. split; [vm_compute; reflexivity|].
  eexists. split; [vm_compute; reflexivity|]. split; [vm_compute; reflexivity|]. vm_compute. discriminate.
Qed.

(** ** C119

    Full statement: Size() of a structure's description is the number of bytes
    up to the end of its last member.

    The descriptions that say this. *)
Definition describes (t : template) (fs : list field) : Prop :=
  Forall2 (fun m f => let '(_, (_, type, at_), _) := m in says_of f type at_) (members_of t) fs.
(** What Size takes a member's type for, by the low byte of its word, is not larger
    than the member. *)
Definition not_more (f : field) : Prop :=
  match f with Nested id size _ => type_size (id mod 256) <= size | _ => True end.
Definition is_alone (f : field) : bool := match f with Alone _ _ => true | _ => false end.

Definition claimed (m : bytes * (Z * Z * Z) * option template) : Z := let '(_, (_, ty, off), _) := m in (off + type_size (ty mod 256)) mod 2 ^ 32.
Definition widen (acc : Z) (m : bytes * (Z * Z * Z) * option template) : Z := if acc <? claimed m then claimed m else acc.
Lemma size_fold ms : forall acc, acc <= fold_left widen ms acc /\ (forall m, In m ms -> claimed m <= fold_left widen ms acc) /\
  (fold_left widen ms acc = acc \/ exists m, In m ms /\ fold_left widen ms acc = claimed m).
Proof.
  induction ms as [|m ms IH]; intros acc; cbn [fold_left].
  - split; [lia|]. split; [intros m []|now left].
  - assert (A : widen acc m = Z.max acc (claimed m)) by (unfold widen; destruct (Z.ltb_spec acc (claimed m)); lia).
    destruct (IH (widen acc m)) as (H1 & H2 & H3). split; [lia|]. split.
    + intros x [<-|I]; [lia|now apply H2].
    + destruct H3 as [H3|(x & I & H3)]; rewrite H3; [|right; exists x; split; [now right|reflexivity]].
      rewrite A. destruct (Z.max_spec acc (claimed m)) as [[_ ->]|[_ ->]]; [right; exists m; split; [now left|reflexivity]|now left].
Qed.
Lemma size_widen t : template_size type_size t = fold_left widen (members_of t) 0.
Proof.
  destruct t as [i nm w s c h ms]. unfold template_size. cbn [members_of]. generalize 0. induction ms as [|[[n [[x ty] off]] d] ms IH]; intros acc; [reflexivity|].
  cbn [fold_left]. rewrite IH. reflexivity.
Qed.
Lemma type_sizes code size : In (code, size) elementary -> type_size code = size /\ 0 < size /\ 0 <= code < 256.
Proof. intros I. repeat (destruct I as [[= <- <-]|I]; [split; [reflexivity|lia]|]). destruct I. Qed.
Lemma elementary_word code size dims : 0 <= dims < 4 -> In (code, size) elementary -> type_size (word false false dims code mod 256) = size.
Proof.
  intros D I. destruct (type_sizes _ _ I) as (<- & _ & R). f_equal. unfold word. Z.to_euclidean_division_equations; lia.
Qed.
Lemma Forall2_left {A B} (R : A -> B -> Prop) l1 l2 x : Forall2 R l1 l2 -> In x l1 -> exists y, In y l2 /\ R x y.
Proof. induction 1 as [|a b l1 l2 H F IH]; [intros []|]. intros [<-|I]; [exists b; split; [now left|exact H]|]. destruct (IH I) as (y & J & Hy). exists y. split; [now right|exact Hy]. Qed.
Lemma Forall2_right {A B} (R : A -> B -> Prop) l1 l2 y : Forall2 R l1 l2 -> In y l2 -> exists x, In x l1 /\ R x y.
Proof. induction 1 as [|a b l1 l2 H F IH]; [intros []|]. intros [<-|I]; [exists a; split; [now left|exact H]|]. destruct (IH I) as (x & J & Hx). exists x. split; [now right|exact Hx]. Qed.
Theorem C119_last_partial : forall t fs z, describes t fs -> Forall field_ok fs -> Forall not_more fs -> z < 2 ^ 32 ->
  extent fs z -> (exists f, In f fs /\ is_alone f = true /\ ends f z) -> template_size type_size t = z.
Proof.
  intros t fs z D Ok Nm Lz (_ & Ext) (f & If & Al & Ef). rewrite size_widen. unfold describes in D. set (ms := members_of t) in *.
  destruct (size_fold ms 0) as (H1 & H2 & H3). set (r := fold_left widen ms 0) in *.
  assert (C : forall m g, In g fs -> (let '(_, (_, type, at_), _) := m in says_of g type at_) -> forall y, ends g y -> 0 <= y < 2 ^ 32 -> claimed m <= y /\ (is_alone g = true -> claimed m = y)).
  { intros [[n [[x ty] off]] d] g I Sy y E Ry. rewrite Forall_forall in Ok, Nm. specialize (Ok g I). specialize (Nm g I). unfold claimed.
    destruct g as [cd a|cd k a|id sz a]; cbn [says_of ends field_ok not_more is_alone] in *; destruct Sy as [-> ->].
    - destruct E as (sz & Ie & ->). rewrite (elementary_word cd sz 0) by (lia || assumption). rewrite Z.mod_small by lia. split; [lia|reflexivity].
    - destruct E as (sz & Ie & ->). rewrite (elementary_word cd sz 1) by (lia || assumption). destruct (type_sizes _ _ Ie) as (_ & Ps & _).
      assert (sz <= k * sz) by nia. rewrite Z.mod_small by lia. split; [lia|discriminate].
    - subst y. replace (word false true 0 id mod 256) with (id mod 256) by (unfold word; Z.to_euclidean_division_equations; lia).
      assert (0 <= type_size (id mod 256)) by (unfold type_size; repeat match goal with |- context [if ?b then _ else _] => destruct b end; lia).
      rewrite Z.mod_small by lia. split; [lia|discriminate]. }
  assert (Pos : forall g, In g fs -> exists y, ends g y /\ 0 <= y).
  { intros g I. rewrite Forall_forall in Ok. specialize (Ok g I). destruct g as [cd a|cd k a|id sz a]; cbn [ends field_ok] in *.
    - destruct Ok as ((sz & Ie) & Ha). exists (a + sz). destruct (type_sizes _ _ Ie). split; [now exists sz|lia].
    - destruct Ok as ((sz & Ie) & Ha & Hk). exists (a + k * sz). destruct (type_sizes _ _ Ie). split; [now exists sz|nia].
    - exists (a + sz). split; [reflexivity|lia]. }
  apply Z.le_antisymm.
  - destruct H3 as [->|(m & Im & ->)].
    + destruct (Pos f If) as (y & Ey & Py). pose proof (Ext f y If Ey). lia.
    + destruct (Forall2_left _ _ _ _ D Im) as (g & Ig & Sy). destruct (Pos g Ig) as (y & Ey & Py). pose proof (Ext g y Ig Ey).
      pose proof (proj1 (C m g Ig Sy y Ey ltac:(lia))). lia.
  - destruct (Forall2_right _ _ _ _ D If) as (m & Im & Sy). destruct (Pos f If) as (y & Ey & Py). pose proof (Ext f y If Ey).
    assert (0 <= z) by lia. rewrite <- (proj2 (C m f If Sy z Ef ltac:(lia)) Al). now apply H2.
Qed.
Print Assumptions C119_last_partial.

(** An array at the end counts as one element. *)
Theorem C119_array_refuted : exists t fs z, describes t fs /\ Forall field_ok fs /\ Forall not_more fs /\ extent fs z /\ template_size type_size t <> z.
Proof.
  exists (Template 0x200 (str "Log") 20 44 2 7 [(str "Count", (0, 0xC4, 0), None); (str "Values", (10, 0x20C4, 4), None)]), [Alone 0xC4 0; Row 0xC4 10 4], 44.
  split; [repeat constructor|]. split; [repeat constructor; try lia; exists 4; cbn; tauto|]. split; [repeat constructor|]. split; [|vm_compute; discriminate].
  split; [exists (Row 0xC4 10 4); split; [right; now left|exists 4; split; [cbn; tauto|reflexivity]]|].
  intros f y [<-|[<-|[]]] (s & I & ->); apply type_sizes in I as (<- & _); vm_compute; discriminate.
Qed.
Print Assumptions C119_array_refuted.
(** The comment in the code expects it to be right if the last member is of a
    simple type.  It is not: structure 0x1A0 of four bytes, then a DINT, is 88 bytes
    to Size, because the low byte of the number is that of the type STRUCT. *)
Theorem C119_nested_refuted : exists t fs z, describes t fs /\ Forall field_ok fs /\ extent fs z /\
  (exists f, In f fs /\ is_alone f = true /\ ends f z) /\ template_size type_size t <> z.
Proof.
  exists (Template 0x200 (str "Pair") 20 8 2 7 [(str "First", (0, 0x81A0, 0), None); (str "Second", (0, 0xC4, 4), None)]), [Nested 0x1A0 4 0; Alone 0xC4 4], 8.
  split; [repeat constructor|]. split; [repeat constructor; try lia; exists 4; cbn; tauto|].
  assert (E : ends (Alone 0xC4 4) 8) by (exists 4; split; [cbn; tauto|reflexivity]).
  split; [|split; [exists (Alone 0xC4 4); split; [right; now left|]; now split|vm_compute; discriminate]].
  split; [exists (Alone 0xC4 4); split; [right; now left|exact E]|].
  intros f y [<-|[<-|[]]]; [cbn [ends]; lia|]. intros (s & I & ->). apply type_sizes in I as (<- & _). vm_compute. discriminate.
Qed.
Print Assumptions C119_nested_refuted.
Example ex_C119 : template_size type_size (Template 0x200 (str "T") 20 12 3 7
  [(str "A", (0, 0xC4, 0), None); (str "B", (3, 0x20C2, 4), None); (str "C", (0, 0xC3, 8), None)]) = 10 /\
  describes (Template 0x200 (str "T") 20 12 3 7 [(str "A", (0, 0xC4, 0), None); (str "B", (3, 0x20C2, 4), None); (str "C", (0, 0xC3, 8), None)])
    [Alone 0xC4 0; Row 0xC2 3 4; Alone 0xC3 8] /\
  Forall field_ok [Alone 0xC4 0; Row 0xC2 3 4; Alone 0xC3 8] /\ extent [Alone 0xC4 0; Row 0xC2 3 4; Alone 0xC3 8] 10.
Proof.
  split; [reflexivity|]. split; [repeat constructor|]. split.
  - constructor; [|constructor; [|constructor; [|constructor]]]; cbn [field_ok]; repeat split; try lia; [exists 4|exists 1|exists 2]; cbn; tauto.
  - split; [exists (Alone 0xC3 8); split; [right; right; now left|exists 2; split; [cbn; tauto|reflexivity]]|].
    intros f y [<-|[<-|[<-|[]]]] (s & I & ->); apply type_sizes in I as (<- & _); vm_compute; discriminate.
Qed.
