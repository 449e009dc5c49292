(** * Proofs about tag groups *)
From Coq Require Import Permutation.
From Verif Require Import GoBase SegModel IoiModel IoiSpec IoiProof TypesModel ReadModel ReadSpec ReadProof
  BatchModel BatchSpec BatchProof GroupModel GroupSpec.

(** ** Templates *)
Lemma replace_no_brace old new s rest : no_brace s -> replace_go (123 :: old) new 0 (s ++ rest) = s ++ replace_go (123 :: old) new 0 rest.
Proof.
  intros H. induction s as [|c s IH]; [reflexivity|]. cbn [app replace_go has_prefix].
  destruct (123 =? c) eqn:E; [exfalso; apply H; left; lia|]. cbn [andb]. rewrite IH; [reflexivity|].
  intros I. apply H. now right.
Qed.
Lemma has_prefix_app p s : has_prefix p (p ++ s) = true.
Proof. induction p as [|x p IH]; [reflexivity|]. cbn. now rewrite Z.eqb_refl. Qed.
Lemma prefix_digits a b rest : Forall (fun c => 48 <= c <= 57) a -> Forall (fun c => 48 <= c <= 57) b ->
  has_prefix (a ++ [125]) (b ++ [125] ++ rest) = true -> a = b.
Proof.
  intros Ha. revert b. induction Ha as [|x a Hx Ha IH]; intros b Hb.
  - destruct Hb as [|y b Hy Hb]; [reflexivity|]. cbn [app has_prefix]. intros E. apply andb_true_iff in E as [E1 E2]. lia.
  - destruct Hb as [|y b Hy Hb]; cbn [app has_prefix]; intros E; apply andb_true_iff in E as [E1 E2].
    + lia.
    + f_equal; [lia|now apply IH].
Qed.
Lemma replace_skip old new k : forall s rest, length s = k -> replace_go old new k (s ++ rest) = replace_go old new 0 rest.
Proof. induction k as [|k IH]; intros [|c s] rest L; try discriminate; [reflexivity|]. cbn [app replace_go]. apply IH. now injection L. Qed.

Definition fill1 (i : nat) (a : bytes) (p : piece) : piece := match p with Hole n => if (n =? i)%nat then Lit a else Hole n | p => p end.

Lemma replace_piece i a p rest : piece_ok p ->
  replace_go (placeholder (Z.of_nat i)) a 0 (written p ++ rest) =
  written (fill1 i a p) ++ replace_go (placeholder (Z.of_nat i)) a 0 rest.
Proof.
  intros H. destruct p as [s|n]; cbn [fill1 written].
  - unfold placeholder. cbn [app]. now apply replace_no_brace.
  - destruct (Nat.eqb_spec n i) as [->|N]; cbn [written].
    + unfold placeholder. cbn [app]. rewrite <- app_assoc. cbn [replace_go].
      assert (P : has_prefix (123 :: dec (Z.of_nat i) ++ [125]) (123 :: dec (Z.of_nat i) ++ [125] ++ rest) = true).
      { replace (123 :: dec (Z.of_nat i) ++ [125] ++ rest) with ((123 :: dec (Z.of_nat i) ++ [125]) ++ rest) by (cbn; now rewrite <- app_assoc).
        apply has_prefix_app. }
      rewrite P. f_equal. rewrite app_assoc. apply replace_skip. cbn [length]. lia.
    + unfold placeholder. cbn [app]. rewrite <- app_assoc. cbn [replace_go].
      assert (P : has_prefix (123 :: dec (Z.of_nat i) ++ [125]) (123 :: dec (Z.of_nat n) ++ [125] ++ rest) = false).
      { destruct (has_prefix _ _) eqn:E; [|reflexivity]. exfalso. cbn [has_prefix] in E. rewrite Z.eqb_refl in E. cbn [andb] in E.
        apply prefix_digits in E; try (apply dec_digits; lia). apply dec_inj in E; lia. }
      rewrite P. f_equal. rewrite app_assoc. rewrite replace_no_brace.
      * now rewrite <- app_assoc.
      * unfold no_brace. rewrite in_app_iff. intros [I|[I|[]]]; [|lia].
        assert (F := dec_digits (Z.of_nat n) ltac:(lia)). rewrite Forall_forall in F. apply F in I. lia.
Qed.
Lemma replace_template i a ps : Forall piece_ok ps ->
  replace_all (placeholder (Z.of_nat i)) a (template ps) = template (map (fill1 i a) ps).
Proof.
  unfold replace_all, template. induction 1 as [|p ps Hp H IH]; [reflexivity|]. cbn [map concat].
  rewrite replace_piece by exact Hp. now rewrite IH.
Qed.

Definition filled_from (i : nat) (args : list bytes) (p : piece) : bytes :=
  match p with Lit s => s | Hole n => if (n <? i)%nat then written (Hole n) else nth (n - i) args (written (Hole n)) end.
Lemma format_from_filled args : Forall no_brace args -> forall i ps, Forall piece_ok ps ->
  format_from (Z.of_nat i) (template ps) args = concat (map (filled_from i args) ps).
Proof.
  induction 1 as [|a args Ha H IH]; intros i ps Hp; cbn [format_from].
  - unfold template. f_equal. apply map_ext. intros [s|n]; [reflexivity|]. cbn [filled_from]. destruct (n <? i)%nat; [reflexivity|]. destruct (n - i)%nat; reflexivity.
  - rewrite replace_template by exact Hp. replace (Z.of_nat i + 1) with (Z.of_nat (S i)) by lia. rewrite IH.
    + rewrite map_map. f_equal. apply map_ext. intros [s|n]; [reflexivity|]. cbn [fill1].
      destruct (Nat.eqb_spec n i) as [->|N].
      * cbn [filled_from]. rewrite Nat.ltb_irrefl, Nat.sub_diag. reflexivity.
      * cbn [filled_from]. destruct (Nat.ltb_spec n (S i)), (Nat.ltb_spec n i); try lia; [reflexivity|].
        replace (n - i)%nat with (S (n - S i)) by lia. reflexivity.
    + apply Forall_map. eapply Forall_impl; [|exact Hp]. intros [s|n] P; [exact P|]. cbn [fill1]. destruct (n =? i)%nat; [exact Ha|exact I].
Qed.
Lemma format_name_filled ps args : Forall piece_ok ps -> Forall no_brace args ->
  format_name (template ps) args = concat (map (filled args) ps).
Proof.
  intros Hp Ha. unfold format_name. change 0 with (Z.of_nat 0). rewrite format_from_filled by assumption.
  f_equal. apply map_ext. intros [s|n]; [reflexivity|]. cbn [filled_from filled]. rewrite Nat.sub_0_r. reflexivity.
Qed.

(** ** Elements *)
Lemma join_snoc c l x : l <> [] -> join c (l ++ [x]) = join c l ++ c :: x.
Proof.
  induction l as [|a l IH]; [congruence|]. intros _. destruct l as [|b l]; [reflexivity|].
  change (join c ((a :: b :: l) ++ [x])) with (a ++ c :: join c ((b :: l) ++ [x])). rewrite IH by discriminate.
  change (join c (a :: b :: l)) with (a ++ c :: join c (b :: l)). now rewrite <- app_assoc.
Qed.
(** The text of a tag up to its last bracket. *)
Definition stem (t : tag) : bytes :=
  let ms := t_members t in
  match removelast ms with
  | [] => m_name (last ms {| m_name := []; m_subs := [] |})
  | l => join 46 (map member_text l) ++ 46 :: m_name (last ms {| m_name := []; m_subs := [] |})
  end.
Lemma text_stem t : t_members t <> [] -> element t ->
  text t = stem t ++ [91] ++ idx_text (m_subs (last (t_members t) {| m_name := []; m_subs := [] |})) ++ [93].
Proof.
  intros Ne (B & S). unfold text, stem. rewrite B, app_nil_r.
  rewrite (app_removelast_last {| m_name := []; m_subs := [] |} Ne) at 1.
  rewrite map_app. cbn [map]. set (m := last _ _) in *.
  assert (M : member_text m = m_name m ++ [91] ++ idx_text (m_subs m) ++ [93]) by (unfold member_text, idx_text; destruct (m_subs m); [congruence|reflexivity]).
  destruct (removelast (t_members t)) as [|a l] eqn:E.
  - cbn [map app join]. exact M.
  - rewrite join_snoc by (cbn; discriminate). rewrite M. now rewrite <- app_assoc.
Qed.
Lemma stem_bump t k : stem (bump t k) = stem t.
Proof.
  unfold stem, bump. cbn [t_members]. rewrite removelast_last, last_last. reflexivity.
Qed.

Lemma upto_from_eq a n : upto_from a n = from a n.
Proof. revert a; induction n as [|n IH]; intros a; cbn; [reflexivity|]. now rewrite IH. Qed.

Lemma expand_elements t n : valid_tag t -> element t -> 1 <= n ->
  expand_array (text t) n = map (fun k => text (bump t k)) (from 0 (Z.to_nat n)).
Proof.
  intros (Ne & V & _) El Hn. unfold expand_array.
  assert (Bump : forall k, text (bump t k) = stem t ++ [91] ++ join 44 (map dec (removelast (m_subs (last (t_members t) {| m_name := []; m_subs := [] |})) ++ [last (m_subs (last (t_members t) {| m_name := []; m_subs := [] |})) 0 + k])) ++ [93]).
  { intros k. rewrite text_stem.
    - rewrite stem_bump. unfold bump. cbn [t_members]. rewrite last_last. reflexivity.
    - unfold bump. cbn [t_members]. intros X. apply app_eq_nil in X as [_ X]. discriminate.
    - destruct El as [B S]. split; [exact B|]. unfold bump. cbn [t_members]. rewrite last_last. cbn [m_subs bump_member].
      intros X. apply app_eq_nil in X as [_ X]. discriminate. }
  set (m := last (t_members t) {| m_name := []; m_subs := [] |}) in *.
  assert (Hm : valid_member m).
  { rewrite Forall_forall in V. apply V. unfold m. destruct (exists_last Ne) as (l & x & E). rewrite E, last_last. apply in_or_app. right. now left. }
  assert (Ns : m_subs m <> []) by apply El.
  assert (Tx : text t = stem t ++ [91] ++ idx_text (m_subs m) ++ [93]) by now apply text_stem.
  destruct (Z.leb_spec n 1).
  - assert (n = 1) by lia. subst n. change (Z.to_nat 1) with 1%nat. cbn [from map]. f_equal.
    rewrite Bump, Tx. unfold idx_text. do 3 f_equal. rewrite Z.add_0_r.
    now rewrite <- (app_removelast_last 0 Ns).
  - destruct (parse_part_array_full (stem t) (m_subs m) Ns (proj2 Hm)) as [P1 P2]. rewrite <- Tx in P1, P2.
    destruct (parse_part (text t)) as [d ok]. cbn [fst snd] in P1, P2. subst ok. rewrite P1.
    destruct (m_subs m) as [|i0 subs] eqn:Em; [congruence|]. rewrite <- Em in *.
    assert (L : last_index_of c_lb (text t) = Some (length (stem t))).
    { rewrite Tx. unfold c_lb. change ([91] ++ ?x) with (91 :: x). apply last_index_of_app.
      rewrite in_app_iff. intros [I|[I|[]]]; [|lia].
      assert (F := idx_text_chars (m_subs m) (Forall_nonneg _ (proj2 Hm))). rewrite Forall_forall in F. apply F in I. lia. }
    rewrite L. unfold upto. rewrite upto_from_eq.
    apply map_ext. intros k. rewrite Bump, Tx, firstn_length_app. reflexivity.
Qed.

(** Two different places give two different names. *)
Lemma bump_inj t a b : valid_tag t -> element t -> 0 <= a -> 0 <= b -> text (bump t a) = text (bump t b) -> a = b.
Proof.
  intros V El Ha Hb E. assert (Hn : 1 <= Z.max a b + 1) by lia.
  destruct V as (Ne & V & _).
  assert (B : forall k, text (bump t k) = stem t ++ [91] ++ idx_text (m_subs (bump_member (last (t_members t) {| m_name := []; m_subs := [] |}) k)) ++ [93]).
  { intros k. rewrite text_stem.
    - rewrite stem_bump. unfold bump. cbn [t_members]. now rewrite last_last.
    - unfold bump. cbn [t_members]. intros X. apply app_eq_nil in X as [_ X]. discriminate.
    - destruct El as [B S]. split; [exact B|]. unfold bump. cbn [t_members]. rewrite last_last. cbn [m_subs bump_member].
      intros X. apply app_eq_nil in X as [_ X]. discriminate. }
  rewrite !B in E. apply app_inv_head in E. apply app_inv_head in E. apply app_inj_tail in E as [E _].
  cbn [m_subs bump_member] in E. unfold idx_text in E. rewrite !map_app in E. cbn [map] in E.
  set (pre := map dec (removelast _)) in E. set (z := last _ 0) in E.
  assert (Hz : 0 <= z).
  { unfold z. assert (Hm : valid_member (last (t_members t) {| m_name := []; m_subs := [] |})).
    { rewrite Forall_forall in V. apply V. destruct (exists_last Ne) as (l & x & El'). rewrite El', last_last. apply in_or_app. right. now left. }
    destruct Hm as [_ F]. destruct (exists_last (proj2 El)) as (l & x & Ex). rewrite Ex in *. rewrite last_last.
    apply Forall_app in F as [_ F]. inversion F; subst. lia. }
  destruct pre as [|p pre].
  - cbn [app join] in E. apply dec_inj in E; lia.
  - rewrite !join_snoc in E by discriminate. apply app_inv_head in E. injection E as E. apply dec_inj in E; lia.
Qed.

(** ** What a group reads *)
Definition zero_example (w : wish) : example :=
  if 1 <? w_elems w then SFixed 0 else SScalar (zero_kind false (w_type w)).
Lemma zero_desc_wish d tg t' : go_type_of (df_type d) = Some t' -> 1 <= df_elems d ->
  (1 < df_elems d -> df_type d <> 0xC1 /\ df_type d <> 0xD2) ->
  zero_desc (text tg) d = desc zero_example (Wish tg t' (df_elems d) None).
Proof.
  intros G N A. unfold zero_desc, desc, zero_example, zero_type. cbn [w_tag w_type w_elems w_struct].
  destruct (Z.ltb_spec 1 (df_elems d)) as [L|L].
  - specialize (A L) as [A1 A2]. clear N L. revert G A1 A2. generalize (df_elems d). generalize (df_type d).
    intros t n G A1 A2. unfold go_type_of in G.
    repeat match type of G with context [match ?x with _ => _ end] => destruct x; try discriminate G; try congruence end;
      injection G as <-; reflexivity.
  - assert (df_elems d = 1) as -> by lia. clear N A L. revert G. generalize (df_type d). intros t G. unfold go_type_of in G.
    repeat match type of G with context [match ?x with _ => _ end] => destruct x; try discriminate G; try congruence end;
      injection G as <-; reflexivity.
Qed.
Lemma put_desc_new k v d : ~ In k (map fst d) -> put_desc k v d = d ++ [(k, v)].
Proof.
  induction d as [|[k' v'] d IH]; cbn; intros H; [reflexivity|]. destruct (bseq k' k) eqn:E.
  - apply bseq_spec in E. tauto.
  - rewrite IH by tauto. reflexivity.
Qed.
Lemma group_keys_distinct args group : NoDup (map (fun d => format_name (df_name d) args) group) ->
  map snd (group_keys group args) = map (fun d => zero_desc (format_name (df_name d) args) d) group.
Proof.
  intros N. unfold group_keys.
  enough (G : forall m, NoDup (map fst m ++ map (fun d => format_name (df_name d) args) group) ->
    map snd (fold_left (fun m d => let n := format_name (df_name d) args in put_desc n (zero_desc n d) m) group m)
    = map snd m ++ map (fun d => zero_desc (format_name (df_name d) args) d) group) by (apply (G []); exact N).
  clear N. induction group as [|d group IH]; intros m N; cbn [fold_left map] in *; [now rewrite app_nil_r|].
  rewrite put_desc_new.
  - rewrite IH.
    + rewrite map_app. cbn [map snd]. now rewrite <- app_assoc.
    + rewrite map_app, <- app_assoc. exact N.
  - apply NoDup_remove_2 in N. intros I. apply N. apply in_or_app. now left.
Qed.

(** ** Results *)
Lemma lookup_in {A} (r : list (bytes * A)) n v : NoDup (map fst r) -> (lookup n r = Some v <-> In (n, v) r).
Proof.
  induction r as [|[k x] r IH]; cbn [map fst]; intros N; [split; [discriminate|intros []]|].
  inversion N as [|? ? N1 N2]; subst. cbn [lookup]. destruct (bseq n k) eqn:E.
  - apply bseq_spec in E. subst k. split.
    + intros [= ->]. now left.
    + intros [[= ->]|I]; [reflexivity|]. exfalso. apply N1. apply in_map_iff. now exists (n, v).
  - rewrite IH by exact N2. split; [now right|]. intros [[= -> ->]|I]; [|exact I]. now rewrite bseq_refl in E.
Qed.
Lemma all_of_ok f l zs : all_of f l = Ok zs <-> map f l = map Some zs.
Proof.
  revert zs; induction l as [|v l IH]; intros zs; cbn [all_of map].
  - destruct zs; cbn; split; congruence.
  - destruct (f v) as [z|].
    + destruct (all_of f l) as [zs'| | |] eqn:E; cbn [bind].
      * split; [intros [= <-]; cbn [map]; f_equal; now apply IH|]. destruct zs as [|z' zs]; [discriminate|]. cbn [map]. intros [= -> M].
        apply IH in M. congruence.
      * split; [discriminate|]. destruct zs as [|z' zs]; [discriminate|]. cbn [map]. intros [= -> M]. apply IH in M. discriminate.
      * split; [discriminate|]. destruct zs as [|z' zs]; [discriminate|]. cbn [map]. intros [= -> M]. apply IH in M. discriminate.
      * split; [discriminate|]. destruct zs as [|z' zs]; [discriminate|]. cbn [map]. intros [= -> M]. apply IH in M. discriminate.
    + split; [discriminate|]. destruct zs; discriminate.
Qed.
