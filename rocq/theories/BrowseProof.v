(** * The numbering: lemmas *)
From Verif Require Import GoBase SegModel IoiModel IoiProof ItemsModel TypesModel ItemsSpec ItemsProof ReadModel ReadSpec WriteModel WriteSpec EipModel EipSpec EipProof
  OpenModel TableModel ProvModel ProvSpec ProvProof SrvValModel SrvValSpec SrvValProof SrvModel SrvSpec SrvProof Prop_SrvVal ReqSpec LinkModel ReqProof BrowseSpec.
From Coq Require Import Permutation Sorted.

Lemma before_spec a : forall b, bytes_ltb a b = true <-> before a b.
Proof.
  induction a as [|x a IH]; intros [|y b]; cbn [bytes_ltb].
  - split; [discriminate|intro H; inversion H].
  - split; [constructor|reflexivity].
  - split; [discriminate|intro H; inversion H].
  - destruct (Z.ltb_spec x y) as [L|L]; [split; [now constructor|reflexivity]|].
    destruct (Z.ltb_spec y x) as [G|G].
    + split; [discriminate|]. intro H. inversion H; subst; lia.
    + assert (x = y) by lia. subst y. rewrite IH. split; [now constructor|]. intro H. inversion H; subst; [lia|assumption].
Qed.
Lemma before_irrefl a : ~ before a a.
Proof. induction a as [|x a IH]; intro H; inversion H; subst; [lia|now apply IH]. Qed.
Lemma before_trans a b : before a b -> forall c, before b c -> before a c.
Proof.
  induction 1 as [z r|x y a b L|x a b H IH]; intros c H'; inversion H'; subst; solve [constructor; lia|constructor; auto].
Qed.
Lemma before_total a : forall b, before a b \/ a = b \/ before b a.
Proof.
  induction a as [|x a IH]; intros [|y b].
  - auto.
  - left. constructor.
  - right. right. constructor.
  - destruct (Z.lt_trichotomy x y) as [L|[->|L]].
    + left. now constructor.
    + destruct (IH b) as [H|[->|H]]; [left; now constructor|auto|right; right; now constructor].
    + right. right. now constructor.
Qed.
Lemma before_asym a b : before a b -> ~ before b a.
Proof. intros H1 H2. exact (before_irrefl a (before_trans _ _ H1 _ H2)). Qed.

(** ** Sorting *)
Lemma insert_tag_perm x l : Permutation (insert_tag x l) (x :: l).
Proof.
  induction l as [|y r IH]; cbn [insert_tag]; [reflexivity|]. destruct (bytes_ltb _ _); [|reflexivity].
  rewrite IH. apply perm_swap.
Qed.
Lemma sort_tags_perm l : Permutation (sort_tags l) l.
Proof. induction l as [|x l IH]; [reflexivity|]. change (sort_tags (x :: l)) with (insert_tag x (sort_tags l)). rewrite insert_tag_perm. now constructor. Qed.
Definition ascending (l : list bytes) : Prop := StronglySorted before l.
Lemma insert_tag_in x l z : In z (map fst (insert_tag x l)) <-> z = fst x \/ In z (map fst l).
Proof.
  split; intro H.
  - assert (P : Permutation (map fst (insert_tag x l)) (map fst (x :: l))) by (apply Permutation_map, insert_tag_perm).
    apply (Permutation_in _ P) in H. cbn [map In] in H. destruct H as [<-|H]; auto.
  - assert (P : Permutation (map fst (x :: l)) (map fst (insert_tag x l))) by (apply Permutation_map; symmetry; apply insert_tag_perm).
    apply (Permutation_in _ P). cbn [map In]. destruct H as [->|H]; auto.
Qed.
Lemma insert_tag_sorted x l : ascending (map fst l) -> ~ In (fst x) (map fst l) -> ascending (map fst (insert_tag x l)).
Proof.
  unfold ascending. induction l as [|y r IH]; intros S N; cbn [insert_tag map].
  - constructor; constructor.
  - cbn [map] in S, N. apply StronglySorted_inv in S as [S F]. destruct (bytes_ltb (fst y) (fst x)) eqn:E; cbn [map].
    + apply before_spec in E. constructor; [apply IH; [exact S|intro H; apply N; now right]|].
      apply Forall_forall. intros z Hz. apply insert_tag_in in Hz as [->|Hz]; [exact E|]. rewrite Forall_forall in F. now apply F.
    + assert (B : before (fst x) (fst y)).
      { destruct (before_total (fst x) (fst y)) as [H|[H|H]]; [exact H|elim N; left; now symmetry|].
        apply before_spec in H. congruence. }
      constructor; [constructor; assumption|]. constructor; [exact B|].
      eapply Forall_impl; [|exact F]. intros z Hz. now apply (before_trans _ _ B).
Qed.
Lemma sort_tags_sorted l : NoDup (map fst l) -> ascending (map fst (sort_tags l)).
Proof.
  induction l as [|x l IH]; intro N; [constructor|]. change (sort_tags (x :: l)) with (insert_tag x (sort_tags l)). cbn [map] in N.
  inversion N; subst. apply insert_tag_sorted; [now apply IH|].
  intro H. apply (Permutation_in _ (Permutation_map fst (sort_tags_perm l))) in H. contradiction.
Qed.

Lemma sorted_split l : ascending l -> forall a n b, l = a ++ n :: b -> NoDup a /\ Forall (fun m => before m n) a /\ Forall (fun m => before n m) b.
Proof.
  unfold ascending. intros S a n b ->. induction a as [|x a IH]; cbn [app] in S.
  - apply StronglySorted_inv in S as [_ F]. split; [constructor|]. split; [constructor|exact F].
  - apply StronglySorted_inv in S as [S F]. destruct (IH S) as (N & B1 & B2).
    split; [|split; [|exact B2]].
    + constructor; [|exact N]. intro H. rewrite Forall_forall in F. apply (before_irrefl x). apply F. apply in_or_app. now left.
    + constructor; [|exact B1]. rewrite Forall_forall in F. apply F. apply in_or_app. right. now left.
Qed.
(** The position in a sorted list is the number. *)
Lemma sorted_position l (names : bytes -> Prop) : ascending l -> (forall m, In m l <-> names m) ->
  forall n i, nth_error l i = Some n <-> numbered names n (1 + Z.of_nat i).
Proof.
  intros S I n i. split.
  - intro E. apply nth_error_split in E as (a & b & -> & <-). destruct (sorted_split _ S a n b eq_refl) as (N & B1 & B2).
    split; [apply I; apply in_or_app; right; now left|]. exists a. split; [exact N|]. split; [|unfold len; lia].
    intro m. split.
    + intro H. split; [apply I; apply in_or_app; now left|]. rewrite Forall_forall in B1. now apply B1.
    + intros [H B]. apply I in H. apply in_app_or in H as [H|[<-|H]]; [exact H|now elim (before_irrefl n)|].
      rewrite Forall_forall in B2. elim (before_asym _ _ B). now apply B2.
  - intros (Hn & p & N & P & E). apply I in Hn. apply in_split in Hn as (a & b & ->).
    destruct (sorted_split _ S a n b eq_refl) as (Na & B1 & B2).
    assert (L : length p = length a).
    { apply Nat.le_antisymm; apply NoDup_incl_length; try assumption; intros m Hm.
      - apply P in Hm as [Hm Bm]. apply I in Hm. apply in_app_or in Hm as [H|[<-|H]]; [exact H|now elim (before_irrefl n)|].
        rewrite Forall_forall in B2. elim (before_asym _ _ Bm). now apply B2.
      - apply P. split; [apply I; apply in_or_app; now left|]. rewrite Forall_forall in B1. now apply B1. }
    assert (i = length a) by (unfold len in E; lia). subst i.
    rewrite nth_error_app2 by lia. now rewrite Nat.sub_diag.
Qed.

(** ** The provider's tags *)
Lemma mget_in d k : mget d k <> None <-> In k (map fst d).
Proof.
  induction d as [|[k' v] d IH]; cbn [mget map fst In]; [split; [congruence|contradiction]|].
  destruct (bseq k' k) eqn:E.
  - apply bseq_spec in E. subst. split; [auto|congruence].
  - rewrite IH. split; [auto|]. intros [->|H]; [|exact H]. now rewrite bseq_refl in E.
Qed.
Lemma tag_list_names p : map fst (tag_list p) = map fst (pv_data p).
Proof. unfold tag_list. rewrite map_map. reflexivity. Qed.
Lemma sorted_names p : keys_once p ->
  ascending (map fst (sort_tags (tag_list p))) /\ forall m, In m (map fst (sort_tags (tag_list p))) <-> tags_of p m.
Proof.
  intro N. split; [apply sort_tags_sorted; now rewrite tag_list_names|]. intro m. unfold tags_of. rewrite mget_in, <- tag_list_names.
  split; apply Permutation_in, Permutation_map; [|symmetry]; apply sort_tags_perm.
Qed.
Lemma nth_names {A B} (l : list (A * B)) i n : nth_error (map fst l) i = Some n <-> exists t, nth_error l i = Some (n, t).
Proof.
  rewrite nth_error_map. destruct (nth_error l i) as [[a b]|]; cbn [option_map fst]; split; try discriminate.
  - intro E. injection E as ->. now exists b.
  - intros (t & E). injection E as -> ->. reflexivity.
  - intros (t & E). discriminate.
Qed.
Lemma symbolic_tag_spec s i inst n : 0 <= inst -> resolve s [1; 0] = Ok i -> keys_once (prov_at s i) ->
  symbolic_tag s inst = Some n <-> numbered (tags_of (prov_at s i)) n inst.
Proof.
  intros P R N. unfold symbolic_tag. rewrite R. destruct (sorted_names _ N) as (S & I).
  set (l := sort_tags (tag_list (prov_at s i))) in *.
  assert (K := sorted_position _ _ S I n).
  destruct (Z.eqb_spec inst 0) as [->|E0]; cbn [orb].
  { split; [discriminate|]. intros (_ & p & _ & _ & E). unfold len in E. lia. }
  destruct (Z.ltb_spec (len l) inst) as [L|L].
  - split; [discriminate|]. intro H. assert (P' : 0 < inst) by (destruct H as (_ & p & _ & _ & ->); unfold len; lia).
    replace inst with (1 + Z.of_nat (Z.to_nat (inst - 1))) in H by lia. apply K in H.
    assert (B : (Z.to_nat (inst - 1) < length (map fst l))%nat) by (apply nth_error_Some; congruence).
    rewrite map_length in B. unfold len in L. lia.
  - replace inst with (1 + Z.of_nat (Z.to_nat (inst - 1))) at 2 by lia. rewrite <- K, nth_names.
      destruct (nth_error l _) as [[m t]|]; split; try discriminate.
    + intro E. injection E as ->. now exists t.
    + intros (t' & E). injection E as -> ->. reflexivity.
    + intros (t' & E). discriminate.
Qed.

(** ** The listing *)
Lemma symbol_list_spec p : keys_once p -> forall l i,
  Forall (fun x => len (fst x) <= 255 /\ mget (pv_data p) (fst x) <> None /\ snd x = match mget (pv_data p) (fst x) with Some v => pval_cip v | None => 0 end) l ->
  symbols (fun n => match mget (pv_data p) n with Some v => pval_cip v | None => 0 end)
    (combine (map (fun k => i + 1 + Z.of_nat k) (seq 0 (length l))) (map fst l)) (symbol_list i l).
Proof.
  intros _ l. induction l as [|[n t] l IH]; intros i F; [constructor|]. inversion F as [|x y (L & _ & E) F']; subst; cbn [fst snd] in *.
  cbn [length seq map combine symbol_list fst]. rewrite firstn_all2 by (unfold len in L; lia). rewrite E.
  replace (i + 1 + Z.of_nat 0) with (i + 1) by lia. constructor.
  rewrite <- seq_shift, map_map. erewrite map_ext; [now apply IH|]. intro k. cbn beta. lia.
Qed.

(** ** Reading and writing by number *)
Lemma get_attr_by_number inst more s i n v d w : 0 <= inst < 256 -> w_srv w = s -> resolve s [1; 0] = Ok i -> keys_once (prov_at s i) ->
  separate (prov_at s i) -> numbered (tags_of (prov_at s i)) n inst ->
  ProvSpec.reads (shows (prov_at s i)) n 1 v -> wire_view v d ->
  unconnected_get_attr ([3; 0x20; 0xC8; 0x24; inst; 0x30; 1] ++ more) w =
  send 0x6F (serialize_items (map mk [(0, []); (0xB2, [0x8E; 0; 0; 0] ++ d)])) w.
Proof.
  intros Hi Ew R K Sp N Rd Wv. unfold unconnected_get_attr. cbv zeta. cbn [app].
  erewrite lift_ok by apply rd_cons1. cbv beta iota. change (negb (unle [3] =? 3)) with false. cbn iota.
  assert (C : class_read (0x20 :: 0xC8 :: 0x24 :: inst :: 0x30 :: 1 :: more) = Ok (0xC8, 0x24 :: inst :: 0x30 :: 1 :: more)) by reflexivity.
  erewrite lift_ok by exact C. cbv beta iota.
  assert (I : instance_read (0x24 :: inst :: 0x30 :: 1 :: more) = Ok (inst, 0x30 :: 1 :: more)).
  { unfold instance_read. rewrite rd_cons1. cbn [bind]. change (unle [0x24] =? 0x24) with true. cbn iota. rewrite rd_cons1. cbn [bind].
    do 2 f_equal. cbn [unle]. lia. }
  erewrite lift_ok by exact I. cbv beta iota.
  assert (A : attribute_read (0x30 :: 1 :: more) = Ok (1, more)) by reflexivity.
  erewrite lift_ok by exact A. cbv beta iota. unfold bindM at 1, ask. rewrite Ew.
  change (0xC8 =? 0xC8) with true. cbn iota. rewrite Z.mod_small by lia.
  assert (St : symbolic_tag s inst = Some n) by (apply (symbolic_tag_spec s i); [lia|exact R|exact K|exact N]). rewrite St.
  change (negb (1 =? 1)) with false. cbn iota. rewrite R. cbn [or_reply].
  pose proof (tag_read_spec (prov_at s i) n 1 Sp ltac:(lia)) as Q.
  destruct (tag_read (prov_at s i) n 1) as [x|e| |]; try contradiction; [|now elim (Q v)]. cbn [or_reply].
  rewrite (reads_fun _ _ _ _ _ Rd Q) in Wv.
  assert (G : (match x with PV (GStr y) => unconn_reply svc_get_single 0 [string_packer y]
     | _ => bindM (lift (item_ser (pv_heap (prov_at s i)) x)) (fun b => unconn_reply svc_get_single 0 [[pval_cip x]; [0]; b]) end) w =
     unconn_reply svc_get_single 0 [d] w).
  { destruct x as [g|e arr off m].
    - cbn [see] in Wv. inversion Wv as [k code g' Nc Is E1 E2| |y E1 E2]; subst; clear Wv.
      + destruct (item_ser_number k g (pv_heap (prov_at (w_srv w) i)) Is) as [E _].
        assert (P : pval_cip (PV g) = code). { rewrite (number_cip k) by exact Is. now destruct (number_kind _ _ Nc). }
        destruct g; try (erewrite lift_ok by exact E; rewrite P; reflexivity).
        destruct k as [|? ?|?|]; discriminate.
      + now rewrite packer_wire.
    - cbn [see] in Wv. apply wire_many in Wv as (k & code & l & -> & E2 & Nc & NB & F & ->).
      apply see_ones in E2. destruct (number_kind _ _ Nc) as (Kk & NSt & NS & _).
      assert (EC : pval_cip (PS (EK k) arr off m) = code).
      { cbn [pval_cip]. destruct k as [|s' w'|w'|]; try congruence; cbn [go_to_cip fst]; exact Kk. }
      assert (ES : item_ser (pv_heap (prov_at s i)) (PS (EK k) arr off m) = Ok (concat (map praw (elems (pv_heap (prov_at s i)) arr off m)))).
      { cbn [item_ser]. destruct k; try congruence; reflexivity. }
      erewrite lift_ok by exact ES. rewrite EC, E2, (praws_number k) by exact F.
      unfold unconn_reply. cbn [fold_left item_write]. unfold item_write. cbn [it_data it_id it_pos]. now rewrite <- !app_assoc. }
  rewrite G. reflexivity.
Qed.

(** ** A map has each key once *)
Lemma mset_keys d k v : NoDup (map fst d) -> NoDup (map fst (mset d k v)) /\ forall m, In m (map fst (mset d k v)) -> m = k \/ In m (map fst d).
Proof.
  induction d as [|[k' v'] d IH]; intro N; cbn [mset map fst].
  - split; [constructor; [easy|constructor]|]. intros m [<-|[]]. now left.
  - cbn [map fst] in N. inversion N; subst. destruct (bseq k' k) eqn:E; cbn [map fst].
    + split; [exact N|]. intros m [<-|H]; right; [now left|now right].
    + destruct (IH H2) as [I1 I2]. split.
      * constructor; [|exact I1]. intro H. apply I2 in H as [->|H]; [now rewrite bseq_refl in E|contradiction].
      * intros m [<-|H]; [right; now left|]. destruct (I2 m H); [now left|right; now right].
Qed.
Lemma tag_write_keys c p t v : keys_once p -> keys_once (fst (tag_write c p t v)).
Proof.
  unfold keys_once, tag_write. intro N. destruct (parse_element_tag (lower t)) as [[base i] has]. destruct has.
  - destruct (mget _ _) as [[g|e a o n]|]; try exact N. destruct (_ || _); [exact N|]. destruct (convert_elem c v e); exact N.
  - destruct (mget (pv_data p) base) as [[g|e a o n]|]; [now apply mset_keys|destruct v as [g|[k|] a' o' n']; [now apply mset_keys..|]|now apply mset_keys].
    destruct (convert_all _ _ _); try exact N. now apply mset_keys.
Qed.
Lemma write_given_keys c p t v : keys_once p -> keys_once (fst (write_given c p t v)).
Proof. intro N. destruct v; cbn [write_given]; now apply tag_write_keys. Qed.
Lemma run_writes_keys c ws : forall p, keys_once p -> keys_once (fst (run_writes c p ws)).
Proof.
  induction ws as [|[t v] ws IH]; intros p N; cbn [run_writes]; [exact N|].
  pose proof (write_given_keys c p t v N) as N1. destruct (write_given c p t v) as [p1 r]. cbn [fst] in N1.
  specialize (IH p1 N1). destruct (run_writes c p1 ws) as [p2 os]. exact IH.
Qed.

Lemma set_attr_by_number inst more s i n x ty e d w : 0 <= inst < 256 -> w_srv w = s -> resolve s [1; 0] = Ok i -> keys_once (prov_at s i) ->
  (i < length (sv_provs s))%nat -> separate (prov_at s i) -> numbered (tags_of (prov_at s i)) n inst ->
  carries (WOne x) ty e d -> representable x ->
  exists w1 status, only_prov i w w1 /\ separate (prov_at (w_srv w1) i) /\ keys_once (prov_at (w_srv w1) i) /\
  unconnected_set_attr ([3; 0x20; 0xC8; 0x24; inst; 0x30; 1] ++ ty ++ le 2 e ++ d ++ more) w =
  send 0x6F (serialize_items (map mk [(0, []); (0xB2, [0x90; 0; status; 0])])) w1 /\
  (status = 0 /\ writes (shows (prov_at s i)) n (GiveOne x) (shows (prov_at (w_srv w1) i)) \/
   status = 0x09 /\ (forall m, ~ writes (shows (prov_at s i)) n (GiveOne x) m) /\ forall k, shows (prov_at (w_srv w1) i) k = shows (prov_at s i) k).
Proof.
  intros Hi Ew R K Li Sp N C Rp. unfold unconnected_set_attr. cbv zeta. cbn [app].
  set (body := ty ++ le 2 e ++ d ++ more).
  erewrite lift_ok by apply rd_cons1. cbv beta iota. change (negb (unle [3] =? 3)) with false. cbn iota.
  assert (Cr : class_read (0x20 :: 0xC8 :: 0x24 :: inst :: 0x30 :: 1 :: body) = Ok (0xC8, 0x24 :: inst :: 0x30 :: 1 :: body)) by reflexivity.
  erewrite lift_ok by exact Cr. cbv beta iota.
  assert (I : instance_read (0x24 :: inst :: 0x30 :: 1 :: body) = Ok (inst, 0x30 :: 1 :: body)).
  { unfold instance_read. rewrite rd_cons1. cbn [bind]. change (unle [0x24] =? 0x24) with true. cbn iota. rewrite rd_cons1. cbn [bind].
    do 2 f_equal. cbn [unle]. lia. }
  erewrite lift_ok by exact I. cbv beta iota.
  assert (A : attribute_read (0x30 :: 1 :: body) = Ok (1, body)) by reflexivity.
  erewrite lift_ok by exact A. cbv beta iota.
  change (negb (0xC8 =? 0xC8)) with false. change (negb (1 =? 1)) with false. cbn iota.
  unfold bindM at 1, ask. rewrite Ew. rewrite Z.mod_small by lia.
  assert (St : symbolic_tag s inst = Some n) by (apply (symbolic_tag_spec s i); [lia|exact R|exact K|exact N]). rewrite St.
  destruct (C43_values_partial (WOne x) ty e d more C) as (left & Ep & _); [constructor; [exact Rp|constructor]|discriminate|].
  unfold body. erewrite lift_ok by exact Ep. cbv beta iota. cbn [given_values]. rewrite R. cbn [or_reply].
  destruct (write_given (sv_conv s) (prov_at s i) n (GiveOne x)) as [p r] eqn:E.
  assert (G : not_nil x) by (assert (H := carries_not_nil _ _ _ _ C); cbn [given_values] in H; now inversion H).
  destruct (write_given_calm _ _ _ (GiveOne x) _ _ G E). destruct (write_given_spec _ _ _ _ _ _ Sp E) as [S' W].
  set (w1 := World (set_prov i p (w_srv w)) (w_h w) (w_in w) (w_sent w)).
  exists w1, (match r with Ok _ => 0 | _ => 0x09 end).
  split; [apply only_prov_set|]. cbn [w1 w_srv]. rewrite Ew, prov_at_set by exact Li. split; [exact S'|].
  split; [assert (Kw := write_given_keys (sv_conv s) (prov_at s i) n (GiveOne x) K); now rewrite E in Kw|].
  split.
  - unfold bindM at 1, put_srv. rewrite Ew. fold w1. destruct r as [u|er| |]; try congruence; cbn [or_reply]; unfold w1; rewrite Ew; reflexivity.
  - destruct r as [u|er| |]; try congruence; [left; split; [reflexivity|exact W]|]. right. destruct W as [W1 W2]. auto.
Qed.

(** ** Over the wire *)
Lemma sent_as_run m d : sent_as m d -> forall svc r k, m = svc :: r ->
  (svc = 0x0E /\ k = unconnected_get_attr \/ svc = 0x10 /\ k = unconnected_set_attr) ->
  exists more, forall w, unconnected_data d w = k (r ++ more) w.
Proof.
  intros H svc r k -> S. destruct H as [|path t rest Lp L2 Lt].
  - exists []. intro w. unfold unconnected_data. erewrite lift_ok by apply rd_cons1. cbv beta iota zeta. rewrite app_nil_r.
    destruct S as [[-> ->]|[-> ->]]; reflexivity.
  - exists rest. intro w. unfold unconnected_data. cbn [app]. erewrite lift_ok by apply rd_cons1. cbv beta iota zeta.
    change (unle [0x52] =? svc_open) with false. change (unle [0x52] =? svc_large_open) with false. change (unle [0x52] =? svc_forward_close) with false.
    change (unle [0x52] =? svc_get_all) with false. change (unle [0x52] =? svc_get_single) with false. change (unle [0x52] =? svc_set_single) with false.
    change (unle [0x52] =? svc_unconn) with true. cbn iota.
    erewrite lift_ok by apply rd_cons1. cbv beta iota.
    replace (Z.to_nat ((unle [len path / 2] * 2) mod 256)) with (length path).
    2:{ cbn [unle]. rewrite Z.add_0_r || replace (len path / 2 + 256 * 0) with (len path / 2) by lia. rewrite Z.mod_small by (unfold len in *; lia). unfold len in *. lia. }
    erewrite lift_ok by (now apply rd_app). cbv beta iota. erewrite lift_ok by (now apply rd_app). cbv beta iota.
    erewrite lift_ok by (apply rd_app, le_length). cbv beta iota. cbn [app]. erewrite lift_ok by apply rd_cons1. cbv beta iota.
    unfold embedded. destruct S as [[-> ->]|[-> ->]]; reflexivity.
Qed.
Lemma rr_run session context sh l : 0 <= session < 2 ^ 32 -> 0 <= context < 2 ^ 64 -> fits l ->
  len (zeros 6 ++ wire_list l) < 2 ^ 16 ->
  call session context 0x6F [zeros 6 ++ wire_list l] sh = link_result (rr_items (map mk l) (receiving (fst sh) (snd sh) context)).
Proof.
  intros Hs Hc F L. unfold call.
  assert (FO : frame_ok (item_frame 0x6F session 0 context 0 (zeros 6) l)).
  { unfold item_frame. unfold frame_ok. cbn [f_command f_session f_status f_context f_options f_payload]. lia. }
  rewrite (serve_rr _ session 0 context 0 (zeros 6) l []); [|exact FO|exact F|reflexivity|].
  - unfold with_context, receiving. cbn [w_srv w_h w_sent]. destruct (rr_items _ _) as [r w]. reflexivity.
  - cbn [w_in]. rewrite app_nil_r. rewrite client_build by (cbn [concat]; rewrite app_nil_r; exact L).
    unfold frame_of, item_frame. cbn [concat]. now rewrite app_nil_r.
Qed.
Lemma rr_unconnected d w : rr_items (map mk [(0, []); (0xB2, d)]) w = unconnected_data d w.
Proof. reflexivity. Qed.

Lemma fits_rr d : len d < 2 ^ 16 -> fits [(0, []); (0xB2, d)].
Proof.
  intro L. split; [cbn; lia|]. apply Forall_cons; [cbn; lia|]. apply Forall_cons; [|apply Forall_nil]. cbn [fst snd]. split; [cbn; lia|exact L].
Qed.
Lemma wire_rr_len d : len (zeros 6 ++ wire_list [(0, []); (0xB2, d)]) = 16 + len d.
Proof.
  unfold wire_list. cbn [map concat wire_item]. rewrite !len_app. unfold wire_item. cbn [fst snd]. rewrite !len_app, !le_len. change (len (zeros 6)) with 6.
  change (len (@nil Z)) with 0. lia.
Qed.
