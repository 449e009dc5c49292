(** * Proofs about tag name encoding *)
From Verif Require Import GoBase SegModel IoiModel IoiSpec.

(** ** Small facts about the characters of valid names *)

Lemma name_char_range c : name_char c -> 48 <= c <= 122 /\ c <> 91 /\ c <> 93 /\ c <> 46 /\ c <> 44.
Proof. unfold name_char. lia. Qed.

Lemma name_char_lower c : name_char c -> name_char (lower_c c).
Proof. unfold name_char, lower_c. destruct ((65 <=? c) && (c <=? 90)) eqn:E; lia. Qed.

Lemma valid_name_lower n : valid_name n -> valid_name (lower n).
Proof.
  intros (H1 & H2 & H3). split; [now rewrite lower_len|]. split.
  - unfold lower. apply Forall_map. eapply Forall_impl; [|exact H2].
    intros; now apply name_char_lower.
  - intros (c & r & E & Hc). destruct n as [|x n]; [discriminate|].
    cbn in E. injection E as E1 E2. apply H3. exists x, n. split; [reflexivity|].
    unfold lower_c in E1. destruct ((65 <=? x) && (x <=? 90)) eqn:E; lia.
Qed.

Lemma valid_name_not_in n c : valid_name n -> ~ name_char c -> ~ In c n.
Proof. intros (_ & H & _) Hc I. rewrite Forall_forall in H. auto. Qed.

Ltac ncx := unfold name_char, c_lb, c_rb, c_dot, c_comma; lia.

Lemma valid_name_nonempty n : valid_name n -> n <> [].
Proof. intros (H & _) ->. rewrite len_nil in H. lia. Qed.

Lemma valid_name_not_number n : valid_name n -> snd (atoi n) = false.
Proof.
  intro V. pose proof (valid_name_nonempty _ V). destruct n as [|c n]; [congruence|].
  destruct V as (_ & F & N). inversion F as [|? ? Hc Hn]; subst.
  apply atoi_not_number.
  - unfold is_digit. destruct ((48 <=? c) && (c <=? 57)) eqn:E; [|reflexivity].
    exfalso. apply N. exists c, n. split; [reflexivity|lia].
  - intro; subst; unfold name_char in Hc; lia.
  - intro; subst; unfold name_char in Hc; lia.
Qed.

(** ** Parsing of parts *)

Lemma bit_match_nodot s : ~ In c_dot s -> bit_match s = None.
Proof. intro H. unfold bit_match. now rewrite last_index_of_none. Qed.

Lemma arr_match_norb s : ends_with c_rb s = false -> arr_match s = None.
Proof. intro H. unfold arr_match. now rewrite H. Qed.

Lemma parse_part_plain s : ~ In c_dot s -> ends_with c_rb s = false ->
  parse_part s = ({| pd_base := s; pd_order := []; pd_bitno := 0; pd_bit := false |}, true).
Proof. intros H1 H2. unfold parse_part. now rewrite bit_match_nodot, arr_match_norb. Qed.

Lemma marshal_plain s : ~ In c_dot s -> ends_with c_rb s = false ->
  marshal_part s = Ok ([0x91; len s mod 256] ++ s ++ (if len s mod 2 =? 1 then [0] else [])).
Proof. intros H1 H2. unfold marshal_part. now rewrite parse_part_plain. Qed.

Lemma odd_mod2 z : Z.odd z = (z mod 2 =? 1).
Proof. rewrite Zmod_odd. destruct (Z.odd z); reflexivity. Qed.

Lemma marshal_valid n : valid_name n -> marshal_part n = Ok (symbol_segment n).
Proof.
  intro V. rewrite marshal_plain.
  - unfold symbol_segment. rewrite odd_mod2. destruct V as (L & _).
    rewrite Z.mod_small by lia. reflexivity.
  - apply (valid_name_not_in _ _ V). ncx.
  - apply ends_with_false, (valid_name_not_in _ _ V). ncx.
Qed.

Definition idx_text (subs : list Z) : bytes := join 44 (map dec subs).

Lemma dec_not_in z c : 0 <= z -> ~ (48 <= c <= 57) -> ~ In c (dec z).
Proof. intros Hz Hc I. pose proof (dec_digits z Hz) as F. rewrite Forall_forall in F. auto. Qed.

Lemma join_chars (P : Z -> Prop) c parts :
  P c -> Forall (Forall P) parts -> Forall P (join c parts).
Proof.
  intros Hc H. induction H as [|p parts Hp H IH]; [constructor|].
  destruct parts as [|q parts]; [exact Hp|].
  change (join c (p :: q :: parts)) with (p ++ c :: join c (q :: parts)).
  apply Forall_app. split; [exact Hp|]. constructor; assumption.
Qed.

Lemma idx_text_chars subs : Forall (fun i => 0 <= i) subs ->
  Forall (fun c => 48 <= c <= 57 \/ c = 44) (idx_text subs).
Proof.
  intro H. apply join_chars; [now right|]. apply Forall_map.
  eapply Forall_impl; [|exact H]. cbv beta. intros i Hi.
  eapply Forall_impl; [|apply dec_digits; exact Hi]. cbv beta; intros; lia.
Qed.

Lemma atoi_list_dec subs : Forall (fun i => 0 <= i < 2 ^ 32) subs ->
  atoi_list (map dec subs) = (subs, true).
Proof.
  induction 1 as [|i subs Hi H IH]; [reflexivity|].
  cbn [map atoi_list]. rewrite atoi_dec by (unfold int_max; lia). now rewrite IH.
Qed.

Lemma removelast_snoc {A} (l : list A) x : removelast (l ++ [x]) = l.
Proof. apply removelast_last. Qed.

Lemma skipn_length_app {A} (a b : list A) : skipn (length a) (a ++ b) = b.
Proof. rewrite skipn_app, skipn_all, Nat.sub_diag. reflexivity. Qed.
Lemma firstn_length_app {A} (a b : list A) : firstn (length a) (a ++ b) = a.
Proof. rewrite firstn_app, firstn_all, Nat.sub_diag, firstn_O. apply app_nil_r. Qed.

Lemma Forall_nonneg subs : Forall (fun i => 0 <= i < 2 ^ 32) subs -> Forall (fun i => 0 <= i) subs.
Proof. intro H; eapply Forall_impl; [|exact H]; cbv beta; intros; lia. Qed.

Lemma bit_match_not_digit s c : ~ (48 <= c <= 57) -> c <> c_dot -> bit_match (s ++ [c]) = None.
Proof.
  intros H Hd. unfold bit_match. destruct (last_index_of c_dot (s ++ [c])) as [n|] eqn:E; [|reflexivity].
  destruct (last_index_of_some _ _ _ E) as (Es & _ & _).
  destruct (skipn (S n) (s ++ [c])) as [|x b] eqn:T; [reflexivity|].
  replace (forallb is_digit (x :: b)) with false; [reflexivity|]. symmetry.
  destruct (exists_last (l := x :: b) ltac:(discriminate)) as (b' & y & Eb). rewrite Eb in *.
  change (c_dot :: b' ++ [y]) with ((c_dot :: b') ++ [y]) in Es. rewrite app_assoc in Es.
  apply app_inj_tail in Es as [_ <-]. rewrite forallb_app. cbn [forallb]. unfold is_digit.
  replace ((48 <=? c) && (c <=? 57)) with false by lia. now rewrite andb_false_r.
Qed.

Lemma parse_part_array_full n subs :
  subs <> [] -> Forall (fun i => 0 <= i < 2 ^ 32) subs ->
  pd_order (fst (parse_part (n ++ [91] ++ idx_text subs ++ [93]))) = subs /\
  snd (parse_part (n ++ [91] ++ idx_text subs ++ [93])) = true.
Proof.
  intros Hne Hs.
  pose proof (idx_text_chars subs (Forall_nonneg _ Hs)) as Hc.
  set (it := idx_text subs) in *.
  unfold parse_part.
  replace (bit_match (n ++ [91] ++ it ++ [93])) with (@None bytes).
  2:{ symmetry. replace (n ++ [91] ++ it ++ [93]) with ((n ++ [91] ++ it) ++ [93]) by (now rewrite <- !app_assoc).
      apply bit_match_not_digit; unfold c_dot; lia. }
  assert (A : arr_match (n ++ [91] ++ it ++ [93]) = Some it).
  { unfold arr_match.
    replace (n ++ [91] ++ it ++ [93]) with ((n ++ [91] ++ it) ++ [93]) by (now rewrite <- !app_assoc).
    unfold c_rb. rewrite ends_with_app. rewrite <- !app_assoc. unfold c_lb.
    change ([91] ++ it ++ [93]) with (91 :: it ++ [93]).
    rewrite last_index_of_app.
    2:{ rewrite in_app_iff. intros [I|I].
        - rewrite Forall_forall in Hc. apply Hc in I. lia.
        - cbn in I. lia. }
    change (skipn (S (length n))) with (skipn (length n + 1)) || idtac.
    replace (S (length n)) with (length (n ++ [91])) by (rewrite app_length; cbn; lia).
    replace (n ++ 91 :: it ++ [93]) with ((n ++ [91]) ++ it ++ [93]) by (now rewrite <- app_assoc).
    rewrite skipn_length_app, removelast_snoc.
    replace (forallb idx_char it) with true; [reflexivity|].
    symmetry. apply forallb_forall. intros c I. rewrite Forall_forall in Hc. apply Hc in I.
    unfold idx_char, is_digit, c_comma. lia. }
  rewrite A.
  destruct subs as [|i [|j subs]]; [congruence| |].
  - (* one subscript *)
    assert (E : it = dec i) by reflexivity.
    replace (contains c_comma it) with false.
    2:{ symmetry. apply contains_not_In. rewrite E. inversion Hs; subst.
        apply dec_not_in; [lia|unfold c_comma; lia]. }
    rewrite E. inversion Hs; subst. rewrite atoi_dec by (unfold int_max; lia). split; reflexivity.
  - assert (Hin : contains c_comma it = true).
    { apply contains_In. unfold it, idx_text. cbn [map].
      change (join 44 (dec i :: dec j :: map dec subs)) with
        (dec i ++ 44 :: join 44 (dec j :: map dec subs)).
      apply in_or_app. right. now left. }
    rewrite Hin. unfold it, idx_text. unfold c_comma. rewrite split_join.
    + rewrite atoi_list_dec by exact Hs. split; reflexivity.
    + discriminate.
    + apply Forall_map. eapply Forall_impl; [|exact (Forall_nonneg _ Hs)].
      cbv beta. intros k Hk. apply dec_not_in; [exact Hk|lia].
Qed.
Lemma parse_part_array n subs :
  ~ In c_dot n -> subs <> [] -> Forall (fun i => 0 <= i < 2 ^ 32) subs ->
  pd_order (fst (parse_part (n ++ [91] ++ idx_text subs ++ [93]))) = subs.
Proof. intros _ H1 H2. now apply parse_part_array_full. Qed.

Lemma index_bytes_spec i : 0 <= i < 2 ^ 32 -> index_bytes i = element_segment i.
Proof.
  intro H. unfold index_bytes, element_segment.
  change (2 ^ 8) with 256. change (2 ^ 16) with 65536. change (2 ^ 24) with 16777216.
  destruct (Z.ltb_spec i 256).
  - rewrite Z.mod_small by lia. reflexivity.
  - destruct (Z.ltb_spec i 65536).
    + cbn [le app]. change (41 mod 256) with 41. change (41 / 256 mod 256) with 0.
      replace ((i / 256) mod 256) with (i / 256) by lia. reflexivity.
    + cbn [le app]. change (42 mod 256) with 42. change (42 / 256 mod 256) with 0.
      rewrite !Z.div_div by lia. change (256 * 256) with 65536. change (65536 * 256) with 16777216.
      replace ((i / 16777216) mod 256) with (i / 16777216) by lia. reflexivity.
Qed.

(** One member with the loop body of newIOI. *)
Lemma ioi_part_member st m : valid_member m ->
  ioi_part st (member_text m) =
  Ok {| ioi_buf := ioi_buf st ++ symbol_segment (m_name m) ++ concat (map element_segment (m_subs m));
        ioi_bit := ioi_bit st; ioi_bitpos := ioi_bitpos st |}.
Proof.
  intros (V & Hs). unfold ioi_part, member_text.
  destruct (m_subs m) as [|i subs] eqn:E.
  - rewrite ends_with_false by (apply (valid_name_not_in _ _ V); ncx).
    pose proof (valid_name_not_number _ V) as NN.
    destruct (atoi (m_name m)) as [v ok]. cbn in NN. subst ok. cbn [andb].
    rewrite marshal_valid by exact V. cbn [bind map concat]. now rewrite app_nil_r.
  - replace (m_name m ++ [91] ++ join 44 (map dec (i :: subs)) ++ [93])
      with ((m_name m ++ [91] ++ idx_text (i :: subs)) ++ [93])
      by (unfold idx_text; now rewrite <- !app_assoc).
    unfold c_rb. rewrite ends_with_app.
    rewrite <- !app_assoc.
    change ([91] ++ idx_text (i :: subs) ++ [93]) with (91 :: idx_text (i :: subs) ++ [93]).
    unfold c_lb. rewrite index_of_app by (apply (valid_name_not_in _ _ V); ncx).
    rewrite firstn_length_app. rewrite marshal_valid by exact V. cbn [bind].
    change (91 :: idx_text (i :: subs) ++ [93]) with ([91] ++ idx_text (i :: subs) ++ [93]).
    rewrite parse_part_array;
      [| apply (valid_name_not_in _ _ V); ncx | discriminate | exact Hs].
    do 3 f_equal. f_equal. f_equal. apply map_ext_in. intros j Hj.
    apply index_bytes_spec. rewrite Forall_forall in Hs. auto.
Qed.

Definition raw_member (m : member) : bytes :=
  symbol_segment (m_name m) ++ concat (map element_segment (m_subs m)).

Lemma ioi_parts_app st a b :
  ioi_parts st (a ++ b) = let* st' := ioi_parts st a in ioi_parts st' b.
Proof.
  revert st; induction a as [|p a IH]; intro st; [reflexivity|].
  cbn [app ioi_parts]. destruct (ioi_part st p); cbn [bind]; auto.
Qed.

Lemma ioi_parts_members st ms : Forall valid_member ms ->
  ioi_parts st (map member_text ms) =
  Ok {| ioi_buf := ioi_buf st ++ concat (map raw_member ms);
        ioi_bit := ioi_bit st; ioi_bitpos := ioi_bitpos st |}.
Proof.
  intro H. revert st. induction H as [|m ms Hm H IH]; intro st.
  - cbn. rewrite app_nil_r. now destruct st.
  - cbn [map ioi_parts]. rewrite ioi_part_member by exact Hm. cbn [bind]. rewrite IH.
    cbn [ioi_buf ioi_bit ioi_bitpos map concat].
    unfold raw_member at 2. now rewrite <- !app_assoc.
Qed.

Lemma member_text_nodot m : valid_member m -> ~ In c_dot (member_text m).
Proof.
  intros (V & Hs). unfold member_text.
  assert (N : ~ In c_dot (m_name m)) by (apply (valid_name_not_in _ _ V); ncx).
  destruct (m_subs m) as [|i subs]; [exact N|].
  pose proof (idx_text_chars (i :: subs) (Forall_nonneg _ Hs)) as Hc. fold (idx_text (i :: subs)).
  rewrite !in_app_iff. intros [I|[I|[I|I]]]; [auto| | |].
  - cbn in I. unfold c_dot in I. lia.
  - rewrite Forall_forall in Hc. apply Hc in I. unfold c_dot in I. lia.
  - cbn in I. unfold c_dot in I. lia.
Qed.

Lemma lower_dec z : 0 <= z -> lower (dec z) = dec z.
Proof.
  intro H. pose proof (dec_digits z H) as F. unfold lower.
  induction F as [|c l Hc F IH]; [reflexivity|]. cbn [map]. rewrite IH.
  unfold lower_c. destruct ((65 <=? c) && (c <=? 90)) eqn:E; [lia|reflexivity].
Qed.

Lemma lower_join c parts : lower_c c = c -> lower (join c parts) = join c (map lower parts).
Proof.
  intro Hc. induction parts as [|p parts IH]; [reflexivity|].
  destruct parts as [|q parts]; [reflexivity|].
  change (join c (p :: q :: parts)) with (p ++ c :: join c (q :: parts)).
  rewrite lower_app. cbn [lower map]. fold lower. unfold lower in *. cbn [map] in *.
  rewrite Hc, IH. reflexivity.
Qed.

Lemma lower_member_text m : Forall (fun i => 0 <= i < 2 ^ 32) (m_subs m) ->
  lower (member_text m) = member_text (lower_member m).
Proof.
  intro H. unfold member_text, lower_member. cbn [m_subs m_name].
  destruct (m_subs m) as [|i subs] eqn:E; [reflexivity|].
  rewrite !lower_app. f_equal. f_equal. f_equal.
  rewrite lower_join by reflexivity. f_equal. rewrite map_map.
  apply map_ext_in. intros j Hj. apply lower_dec. rewrite Forall_forall in H. apply H in Hj. lia.
Qed.

Lemma lower_text t : valid_tag t -> lower (text t) = text (lower_tag t).
Proof.
  intros (_ & Hm & Hb). unfold text. rewrite lower_join by reflexivity. f_equal.
  rewrite map_app. cbn [lower_tag t_members t_bit]. rewrite !map_map. f_equal.
  - apply map_ext_in. intros m Hin. rewrite Forall_forall in Hm. apply Hm in Hin.
    apply lower_member_text, Hin.
  - destruct (t_bit t); [|reflexivity]. cbn [map]. now rewrite lower_dec by lia.
Qed.

Lemma valid_lower_member m : valid_member m -> valid_member (lower_member m).
Proof. intros (V & H). split; [now apply valid_name_lower|exact H]. Qed.

Lemma valid_lower_tag t : valid_tag t -> valid_tag (lower_tag t).
Proof.
  intros (H1 & H2 & H3). split; [|split].
  - cbn. destruct (t_members t); [congruence|discriminate].
  - cbn. apply Forall_map. eapply Forall_impl; [|exact H2]. apply valid_lower_member.
  - exact H3.
Qed.

Definition bit_sel (t : tag) : bool * Z :=
  match t_bit t with None => (false, 0) | Some b => (true, b) end.

Lemma build_ioi_text t : valid_tag t ->
  build_ioi (text t) =
  Ok {| ioi_buf := concat (map raw_member (t_members t));
        ioi_bit := fst (bit_sel t); ioi_bitpos := snd (bit_sel t) |}.
Proof.
  intros (Hne & Hm & Hb). unfold build_ioi, text.
  unfold c_dot. rewrite split_join.
  - rewrite ioi_parts_app, ioi_parts_members by exact Hm. cbn [bind ioi_buf ioi_bit ioi_bitpos ioi0 app].
    unfold bit_sel. destruct (t_bit t) as [b|]; [|reflexivity].
    cbn [ioi_parts]. unfold ioi_part.
    rewrite ends_with_false by (apply dec_not_in; unfold c_rb; lia).
    rewrite atoi_dec by (unfold int_max; lia).
    destruct (Z.leb_spec b 31); [|lia]. reflexivity.
  - destruct (t_members t); [congruence|discriminate].
  - apply Forall_app. split.
    + apply Forall_map. eapply Forall_impl; [|exact Hm]. apply member_text_nodot.
    + destruct (t_bit t); constructor; [|constructor]. apply dec_not_in; lia.
Qed.

Lemma raw_lower t : concat (map raw_member (t_members (lower_tag t))) = encode t.
Proof. unfold encode, lower_tag. cbn [t_members]. now rewrite map_map. Qed.

(** C01 *)
Definition fast_path (c : client) (p : bytes) (dtype : Z) : option ioi :=
    if 20 <? cl_firmware c then
      match lookup p (cl_known c) with
      | Some t =>
          if negb (kt_type t =? 0) && negb (dtype =? t_struct)
             && negb (dtype =? t_unknown) && negb (dtype =? t_string)
          then Some {| ioi_buf := known_tag_bytes t; ioi_bit := false; ioi_bitpos := 0 |}
          else None
      | None => None
      end
    else None.

Lemma new_ioi_eq c path dtype :
  new_ioi c path dtype =
  match fast_path c (lower path) dtype with
  | Some i => (Ok i, c)
  | None =>
      match lookup (lower path) (cl_cache c) with
      | Some i => (Ok i, c)
      | None =>
          match build_ioi (lower path) with
          | Ok i => (Ok i, {| cl_firmware := cl_firmware c; cl_known := cl_known c;
                              cl_cache := (lower path, i) :: cl_cache c |})
          | r => (r, c)
          end
      end
  end.
Proof. reflexivity. Qed.

Lemma encode_tag t : valid_tag t ->
  build_ioi (lower (text t)) =
  Ok {| ioi_buf := encode t; ioi_bit := fst (bit_sel t); ioi_bitpos := snd (bit_sel t) |}.
Proof.
  intro V. rewrite lower_text by exact V. rewrite build_ioi_text by now apply valid_lower_tag.
  now rewrite raw_lower.
Qed.

(** ** Histories (C04) *)

(** What a cached entry may be. *)
Definition cache_ok (c : client) : Prop :=
  forall p i, lookup p (cl_cache c) = Some i -> build_ioi p = Ok i.

Lemma new_ioi_cache_ok c path dtype : cache_ok c -> cache_ok (snd (new_ioi c path dtype)).
Proof.
  intros H. rewrite new_ioi_eq.
  destruct (fast_path c (lower path) dtype); [exact H|].
  destruct (lookup (lower path) (cl_cache c)); [exact H|].
  destruct (build_ioi (lower path)) eqn:B; try exact H.
  intros p i. cbn [snd cl_cache lookup]. destruct (bseq p (lower path)) eqn:E.
  - apply bseq_spec in E. subst. congruence.
  - apply H.
Qed.

Lemma new_ioi_result c path dtype : cache_ok c ->
  fst (new_ioi c path dtype) =
  match fast_path c (lower path) dtype with
  | Some i => Ok i
  | None => build_ioi (lower path)
  end.
Proof.
  intro H. rewrite new_ioi_eq.
  destruct (fast_path c (lower path) dtype); [reflexivity|].
  destruct (lookup (lower path) (cl_cache c)) eqn:L.
  - cbn. symmetry. now apply H.
  - destruct (build_ioi (lower path)); reflexivity.
Qed.

Lemma new_ioi_known c path dtype :
  cl_known (snd (new_ioi c path dtype)) = cl_known c /\
  cl_firmware (snd (new_ioi c path dtype)) = cl_firmware c.
Proof.
  rewrite new_ioi_eq.
  destruct (fast_path c (lower path) dtype); [split; reflexivity|].
  destruct (lookup (lower path) (cl_cache c)); [split; reflexivity|].
  destruct (build_ioi (lower path)); split; reflexivity.
Qed.

(** ** Any string at all (C03, C05) *)

Lemma marshal_ok_even s b : marshal_part s = Ok b -> len b mod 2 = 0.
Proof.
  unfold marshal_part. destruct (parse_part s) as [d ok]. destruct ok; [|discriminate].
  intro E; injection E as <-. rewrite !len_cons, !len_app.
  destruct (len (pd_base d) mod 2 =? 1) eqn:O; rewrite ?len_cons, ?len_nil; lia.
Qed.

Lemma index_bytes_even i : len (index_bytes i) mod 2 = 0.
Proof.
  unfold index_bytes. destruct (i <? 256); [reflexivity|].
  destruct (i <? 65536); rewrite len_app, !le_len; reflexivity.
Qed.

Lemma concat_even {A} (f : A -> bytes) l : (forall x, len (f x) mod 2 = 0) ->
  len (concat (map f l)) mod 2 = 0.
Proof.
  intro H. induction l as [|x l IH]; [reflexivity|]. cbn [map concat]. rewrite len_app.
  specialize (H x). lia.
Qed.

Lemma ioi_part_even st p st' : len (ioi_buf st) mod 2 = 0 -> ioi_part st p = Ok st' ->
  len (ioi_buf st') mod 2 = 0.
Proof.
  intros H. unfold ioi_part. destruct (ends_with c_rb p).
  - destruct (index_of c_lb p); [|discriminate].
    destruct (marshal_part (firstn n p)) as [m| | |] eqn:M; try discriminate. cbn [bind].
    intro E; injection E as <-. cbn [ioi_buf]. rewrite !len_app.
    apply marshal_ok_even in M. pose proof (concat_even index_bytes (pd_order (fst (parse_part p))) index_bytes_even).
    lia.
  - destruct (atoi p) as [v ok]. destruct (ok && (v <=? 31)).
    + intro E; injection E as <-. exact H.
    + destruct (marshal_part p) as [m| | |] eqn:M; try discriminate. cbn [bind].
      intro E; injection E as <-. cbn [ioi_buf]. rewrite len_app.
      apply marshal_ok_even in M. lia.
Qed.

Lemma ioi_parts_even ps : forall st st', len (ioi_buf st) mod 2 = 0 -> ioi_parts st ps = Ok st' ->
  len (ioi_buf st') mod 2 = 0.
Proof.
  induction ps as [|p ps IH]; intros st st' H E.
  - injection E as <-. exact H.
  - cbn [ioi_parts] in E. destruct (ioi_part st p) as [s| | |] eqn:P; try discriminate.
    cbn [bind] in E. eapply IH; [|exact E]. eapply ioi_part_even; eauto.
Qed.

Lemma build_ioi_even p i : build_ioi p = Ok i -> len (ioi_buf i) mod 2 = 0.
Proof. intro E. eapply ioi_parts_even; [|exact E]. reflexivity. Qed.

(** The loop never returns an error: every part is encoded or panics. *)
Lemma firstn_In {A} (x : A) n l : In x (firstn n l) -> In x l.
Proof. intro H. rewrite <- (firstn_skipn n l). apply in_or_app. now left. Qed.

Lemma ioi_part_total st p : ~ In c_dot p ->
  (ends_with c_rb p = true /\ ~ In c_lb p /\ ioi_part st p = Panic) \/
  ((ends_with c_rb p = false \/ In c_lb p) /\ exists st', ioi_part st p = Ok st').
Proof.
  intro ND. unfold ioi_part. destruct (ends_with c_rb p) eqn:E.
  - destruct (index_of c_lb p) as [n|] eqn:I.
    + right. pose proof (index_of_some _ _ _ I) as (Hs & Hn & _).
      split. { right. rewrite Hs. apply in_or_app. right. now left. }
      unfold marshal_part.
      assert (Hp : snd (parse_part (firstn n p)) = true).
      { unfold parse_part. rewrite bit_match_nodot.
        2:{ intro X; apply ND; eapply firstn_In; eauto. }
        unfold arr_match. destruct (ends_with c_rb (firstn n p)); [|reflexivity].
        rewrite last_index_of_none by exact Hn. reflexivity. }
      destruct (parse_part (firstn n p)) as [d ok]. cbn in Hp. subst ok. cbn [bind]. eauto.
    + left. split; [reflexivity|]. split; [now apply index_of_none_inv|reflexivity].
  - right. split; [now left|]. destruct (atoi p) as [v ok]. destruct (ok && (v <=? 31)); [eauto|].
    rewrite marshal_plain by assumption. cbn [bind]. eauto.
Qed.

Definition panicking_part (p : bytes) : Prop := ends_with c_rb p = true /\ ~ In c_lb p.

Lemma ioi_parts_total ps : Forall (fun p => ~ In c_dot p) ps -> forall st,
  (exists p, In p ps /\ panicking_part p) /\ ioi_parts st ps = Panic \/
  (~ (exists p, In p ps /\ panicking_part p)) /\ exists st', ioi_parts st ps = Ok st'.
Proof.
  induction 1 as [|p ps Hp H IH]; intro st.
  - right. split; [intros (p & [] & _)|]. eexists; reflexivity.
  - cbn [ioi_parts].
    destruct (ioi_part_total st p Hp) as [(H1 & H2 & E)|(H1 & st' & E)]; rewrite E; cbn [bind].
    + left. split; [|reflexivity]. exists p. split; [now left|split; assumption].
    + destruct (IH st') as [((q & Hq & Pq) & E')|(N & st'' & E')]; rewrite E'.
      * left. split; [|reflexivity]. exists q. split; [now right|exact Pq].
      * right. split; [|eauto]. intros (q & [<-|Hq] & Pq); [|apply N; eauto].
        destruct Pq as [P1 P2]. destruct H1 as [H1|H1]; [congruence|tauto].
Qed.

Lemma build_ioi_total path :
  (exists p, In p (split c_dot path) /\ panicking_part p) /\ build_ioi path = Panic \/
  (~ exists p, In p (split c_dot path) /\ panicking_part p) /\ exists i, build_ioi path = Ok i.
Proof. apply ioi_parts_total, split_no_sep. Qed.

(** ** Decoding (C02) *)

Lemma ends_with_dec z : 0 <= z -> forall s, ends_with c_rb (s ++ dec z) = false.
Proof.
  intros Hz s. unfold ends_with. rewrite rev_app_distr.
  destruct (rev (dec z)) as [|x r] eqn:E.
  - apply (f_equal (@rev Z)) in E. rewrite rev_involutive in E. now destruct (dec_nonempty z).
  - cbn. assert (I : In x (dec z)) by (apply in_rev; rewrite E; now left).
    pose proof (dec_digits z Hz) as F. rewrite Forall_forall in F. apply F in I.
    unfold c_rb. lia.
Qed.

(** Text of subscripts added to a name. *)
Lemma get_tag_subs1 subs : Forall (fun i => 0 <= i < 65536) subs -> forall k s0 r,
  get_tag_fuel (length subs + k) (s0 ++ [c_rb]) (concat (map element_segment subs) ++ r) =
  get_tag_fuel k (s0 ++ concat (map (fun i => c_comma :: dec i) subs) ++ [c_rb]) r.
Proof.
  induction 1 as [|i subs Hi H IH]; intros k s0 r; [reflexivity|].
  cbn [length map concat Nat.add].
  assert (A : add_index (s0 ++ [c_rb]) i = Ok ((s0 ++ c_comma :: dec i) ++ [c_rb])).
  { unfold add_index. rewrite ends_with_app, removelast_snoc.
    destruct (s0 ++ [c_rb]) eqn:E; [now destruct s0|]. f_equal. rewrite <- !app_assoc. reflexivity. }
  assert (R : get_tag_fuel (length subs + k) ((s0 ++ c_comma :: dec i) ++ [c_rb])
                (concat (map element_segment subs) ++ r)
              = get_tag_fuel k (s0 ++ ((c_comma :: dec i) ++ concat (map (fun i => c_comma :: dec i) subs)) ++ [c_rb]) r).
  { rewrite IH. f_equal. rewrite <- !app_assoc. reflexivity. }
  unfold element_segment at 1. change (2 ^ 8) with 256. change (2 ^ 16) with 65536.
  destruct (Z.ltb_spec i 256).
  - cbn [app get_tag_fuel]. rewrite rd_cons1. cbn [bind unle]. change (0x28 =? 0x28) with true.
    cbn iota. replace (i + 256 * 0) with i by lia. rewrite A. cbn [bind]. exact R.
  - destruct (Z.ltb_spec i 65536); [|lia].
    cbn [app get_tag_fuel]. change (0x29 =? 0x28) with false. change (0x29 =? 0x29) with true.
    cbn iota. rewrite rd_cons1. cbn [bind].
    change (i mod 256 :: i / 256 :: concat (map element_segment subs) ++ r)
      with ([i mod 256; i / 256] ++ (concat (map element_segment subs) ++ r)).
    rewrite rd_app by reflexivity. cbn [bind unle].
    replace (i mod 256 + 256 * (i / 256 + 256 * 0)) with i by lia.
    rewrite A. cbn [bind]. exact R.
Qed.

Lemma join_dec_cons i subs :
  join 44 (map dec (i :: subs)) = dec i ++ concat (map (fun i => c_comma :: dec i) subs).
Proof.
  revert i; induction subs as [|j subs IH]; intro i.
  - cbn. now rewrite app_nil_r.
  - cbn [map]. change (join 44 (dec i :: dec j :: map dec subs))
      with (dec i ++ 44 :: join 44 (dec j :: map dec subs)).
    change (dec j :: map dec subs) with (map dec (j :: subs)). rewrite IH. reflexivity.
Qed.

Lemma get_tag_subs subs : Forall (fun i => 0 <= i < 65536) subs -> forall k s r,
  s <> [] -> ends_with c_rb s = false ->
  get_tag_fuel (length subs + k) s (concat (map element_segment subs) ++ r) =
  get_tag_fuel k (match subs with [] => s | _ => s ++ [91] ++ join 44 (map dec subs) ++ [93] end) r.
Proof.
  intros H k s r Hne He. destruct H as [|i subs Hi H]; [reflexivity|].
  cbn [length map concat Nat.add].
  assert (A : add_index s i = Ok ((s ++ c_lb :: dec i) ++ [c_rb])).
  { unfold add_index. rewrite He. destruct s; [congruence|]. f_equal. rewrite <- !app_assoc. reflexivity. }
  assert (R : get_tag_fuel (length subs + k) ((s ++ c_lb :: dec i) ++ [c_rb])
                (concat (map element_segment subs) ++ r)
              = get_tag_fuel k (s ++ [91] ++ join 44 (map dec (i :: subs)) ++ [93]) r).
  { rewrite get_tag_subs1 by exact H. f_equal. rewrite join_dec_cons.
    rewrite <- !app_assoc. reflexivity. }
  change (dec i :: map dec subs) with (map dec (i :: subs)).
  unfold element_segment at 1. change (2 ^ 8) with 256. change (2 ^ 16) with 65536.
  destruct (Z.ltb_spec i 256).
  - cbn [app get_tag_fuel]. rewrite rd_cons1. cbn [bind unle]. change (0x28 =? 0x28) with true.
    cbn iota. replace (i + 256 * 0) with i by lia. rewrite A. cbn [bind]. exact R.
  - destruct (Z.ltb_spec i 65536); [|lia].
    cbn [app get_tag_fuel]. change (0x29 =? 0x28) with false. change (0x29 =? 0x29) with true.
    cbn iota. rewrite rd_cons1. cbn [bind].
    change (i mod 256 :: i / 256 :: concat (map element_segment subs) ++ r)
      with ([i mod 256; i / 256] ++ (concat (map element_segment subs) ++ r)).
    rewrite rd_app by reflexivity. cbn [bind unle].
    replace (i mod 256 + 256 * (i / 256 + 256 * 0)) with i by lia.
    rewrite A. cbn [bind]. exact R.
Qed.

Lemma get_ascii_symbol n r : 0 <= len n <= 255 ->
  get_ascii_part (tl (symbol_segment n) ++ r) = Ok (n, r).
Proof.
  intro H. unfold get_ascii_part, symbol_segment. cbn [tl app].
  rewrite rd_cons1. cbn [bind unle].
  replace (len n + 256 * 0) with (len n) by lia.
  rewrite <- !app_assoc. rewrite rd_app by (unfold len; lia). cbn [bind].
  rewrite odd_mod2. destruct (len n mod 2 =? 1); [|reflexivity].
  cbn [app]. rewrite rd_cons1. reflexivity.
Qed.

Lemma ends_with_app_name s n : valid_name n -> ends_with c_rb (s ++ n) = false.
Proof.
  intro V. unfold ends_with. rewrite rev_app_distr.
  destruct (rev n) as [|x r] eqn:E.
  - apply (f_equal (@rev Z)) in E. rewrite rev_involutive in E. now apply valid_name_nonempty in V.
  - cbn. assert (I : In x n) by (apply in_rev; rewrite E; now left).
    destruct V as (_ & F & _). rewrite Forall_forall in F. apply F in I.
    unfold name_char in I. unfold c_rb. lia.
Qed.

Definition small_subs (m : member) : Prop := Forall (fun i => i < 65536) (m_subs m).

Lemma get_tag_member m : valid_member m -> small_subs m -> forall k s r,
  get_tag_fuel (S (length (m_subs m)) + k) s (raw_member m ++ r) =
  get_tag_fuel k (match s with [] => member_text m | _ => s ++ [c_dot] ++ member_text m end) r.
Proof.
  intros (V & Hs) Hsm k s r. unfold raw_member.
  cbn [Nat.add get_tag_fuel]. unfold symbol_segment at 1. cbn [app].
  change (0x91 =? 0x28) with false. change (0x91 =? 0x29) with false. change (0x91 =? 0x91) with true.
  cbn iota. rewrite <- !app_assoc.
  assert (G := get_ascii_symbol (m_name m) (concat (map element_segment (m_subs m)) ++ r)).
  unfold symbol_segment in G. cbn [tl app] in G. rewrite <- !app_assoc in G.
  rewrite G by (destruct V as (? & _); lia). cbn [bind]. clear G.
  assert (F : Forall (fun i => 0 <= i < 65536) (m_subs m)).
  { apply Forall_forall. intros i Hi. unfold small_subs in Hsm.
    rewrite Forall_forall in Hs, Hsm. specialize (Hs i Hi). specialize (Hsm i Hi). lia. }
  rewrite get_tag_subs; [| exact F | |].
  - f_equal. unfold member_text. destruct (m_subs m); destruct s; try reflexivity.
    rewrite <- !app_assoc. reflexivity.
  - destruct s; [now apply valid_name_nonempty|discriminate].
  - destruct s; [apply (ends_with_app_name [] _ V)|].
    replace ((z :: s) ++ c_dot :: m_name m) with ((z :: s ++ [c_dot]) ++ m_name m)
      by (cbn [app]; now rewrite <- app_assoc).
    now apply ends_with_app_name.
Qed.

Fixpoint join_onto (s : bytes) (parts : list bytes) : bytes :=
  match parts with
  | [] => s
  | p :: r => join_onto (match s with [] => p | _ => s ++ [c_dot] ++ p end) r
  end.

Lemma get_tag_members ms : Forall valid_member ms -> Forall small_subs ms -> forall k s r,
  get_tag_fuel (fold_right (fun m n => S (length (m_subs m)) + n) k ms)%nat s
    (concat (map raw_member ms) ++ r) =
  get_tag_fuel k (join_onto s (map member_text ms)) r.
Proof.
  intro H. induction H as [|m ms Hm H IH]; intros Hs k s r; [reflexivity|].
  inversion Hs; subst. cbn [fold_right map concat]. rewrite <- app_assoc.
  rewrite get_tag_member by assumption. rewrite IH by assumption. reflexivity.
Qed.

Lemma join_onto_spec parts : Forall (fun p => p <> []) parts -> forall s, s <> [] ->
  join_onto s parts = join 46 (s :: parts).
Proof.
  induction 1 as [|p parts Hp H IH]; intros s Hs; [reflexivity|].
  cbn [join_onto]. rewrite IH by (destruct s; [congruence|discriminate]).
  destruct s as [|c s]; [congruence|].
  destruct parts as [|q parts].
  - reflexivity.
  - change (join 46 (((c :: s) ++ [c_dot] ++ p) :: q :: parts))
      with (((c :: s) ++ [c_dot] ++ p) ++ 46 :: join 46 (q :: parts)).
    change (join 46 ((c :: s) :: p :: q :: parts)) with ((c :: s) ++ 46 :: p ++ 46 :: join 46 (q :: parts)).
    rewrite <- !app_assoc. reflexivity.
Qed.

Lemma member_text_nonempty m : valid_member m -> member_text m <> [].
Proof.
  intros (V & _). unfold member_text. pose proof (valid_name_nonempty _ V).
  destruct (m_subs m); [assumption|]. destruct (m_name m); [congruence|discriminate].
Qed.

(** A byte that cannot continue a path. *)
Definition stops (r : bytes) : Prop :=
  match r with [] => True | b :: _ => b <> 0x28 /\ b <> 0x29 /\ b <> 0x91 end.

Lemma get_tag_stop k s r : stops r -> get_tag_fuel (S k) s r = Ok (s, r).
Proof.
  intro H. destruct r as [|b r]; [reflexivity|]. cbn [get_tag_fuel]. destruct H as (H1 & H2 & H3).
  destruct (Z.eqb_spec b 40); [congruence|]. destruct (Z.eqb_spec b 41); [congruence|].
  destruct (Z.eqb_spec b 145); [congruence|]. reflexivity.
Qed.

(** More fuel never changes a finished result. *)
Lemma get_tag_fuel_mono k : forall k' s r x, (k <= k')%nat ->
  get_tag_fuel k s r = x -> x <> OutOfFuel -> get_tag_fuel k' s r = x.
Proof.
  induction k as [|k IH]; intros k' s r x Hk E Hx; [cbn in E; congruence|].
  destruct k' as [|k']; [lia|]. cbn [get_tag_fuel] in *.
  destruct r as [|t r]; [exact E|].
  destruct (t =? 0x28).
  { destruct (rd 1 r) as [[v r2]| | |]; cbn [bind] in *; try exact E.
    destruct (add_index s (unle v)); cbn [bind] in *; try exact E. eapply IH; eauto; lia. }
  destruct (t =? 0x29).
  { destruct (rd 1 r) as [[v r2]| | |]; cbn [bind] in *; try exact E.
    destruct (rd 2 r2) as [[v2 r3]| | |]; cbn [bind] in *; try exact E.
    destruct (add_index s (unle v2)); cbn [bind] in *; try exact E. eapply IH; eauto; lia. }
  destruct (t =? 0x91).
  { destruct (get_ascii_part r) as [[v r2]| | |]; cbn [bind] in *; try exact E. eapply IH; eauto; lia. }
  exact E.
Qed.

Lemma elements_length subs : (length subs <= length (concat (map element_segment subs)))%nat.
Proof.
  induction subs as [|i subs IH]; [cbn; lia|]. cbn [map concat length]. rewrite app_length.
  unfold element_segment at 1. destruct (i <? 2 ^ 8); [cbn [length]; lia|].
  destruct (i <? 2 ^ 16); cbn [length]; lia.
Qed.

Lemma members_fuel ms k : (fold_right (fun m n => S (length (m_subs m)) + n) k ms
  <= length (concat (map raw_member ms)) + k)%nat.
Proof.
  induction ms as [|m ms IH]; cbn [fold_right map concat length]; [lia|].
  rewrite app_length. unfold raw_member at 1. rewrite app_length.
  pose proof (elements_length (m_subs m)). unfold symbol_segment. cbn [length]. lia.
Qed.

Lemma get_tag_decode ms r : ms <> [] -> Forall valid_member ms -> Forall small_subs ms -> stops r ->
  get_tag_from_path (concat (map raw_member ms) ++ r) =
  Ok (join 46 (map member_text ms), r).
Proof.
  intros Hne Hv Hs Hr. unfold get_tag_from_path.
  apply get_tag_fuel_mono with (k := (fold_right (fun m n => S (length (m_subs m)) + n) 1 ms)%nat).
  - rewrite app_length. pose proof (members_fuel ms 1). lia.
  - rewrite get_tag_members by assumption. rewrite get_tag_stop by exact Hr. f_equal. f_equal.
    destruct ms as [|m ms]; [congruence|]. cbn [map join_onto]. inversion Hv; subst.
    rewrite join_onto_spec; [reflexivity| |now apply member_text_nonempty].
    apply Forall_map. eapply Forall_impl; [|eassumption]. apply member_text_nonempty.
  - discriminate.
Qed.

(** Decoding arbitrary bytes terminates: the fuel given is always enough. *)
Lemma get_ascii_length r b r' : get_ascii_part r = Ok (b, r') -> (length r' < length r)%nat.
Proof.
  unfold get_ascii_part. destruct (rd 1 r) as [[n r1]| | |] eqn:E1; try discriminate. cbn [bind].
  apply rd_ok_inv in E1 as [-> L1].
  destruct (rd (Z.to_nat (unle n)) r1) as [[x r2]| | |] eqn:E2; try discriminate. cbn [bind].
  apply rd_ok_inv in E2 as [-> L2]. rewrite !app_length.
  destruct (unle n mod 2 =? 1).
  - destruct (rd 1 r2) as [[y r3]| | |] eqn:E3; try discriminate. cbn [bind].
    apply rd_ok_inv in E3 as [-> L3]. intro E; injection E as <- <-. rewrite app_length. lia.
  - intro E; injection E as <- <-. lia.
Qed.

Lemma get_ascii_nofuel r : get_ascii_part r <> OutOfFuel.
Proof.
  unfold get_ascii_part. destruct (rd 1 r) as [[n r1]| | |] eqn:E1; try discriminate; cbn [bind].
  - destruct (rd (Z.to_nat (unle n)) r1) as [[x r2]| | |] eqn:E2; try discriminate; cbn [bind].
    + destruct (unle n mod 2 =? 1); [|discriminate].
      destruct (rd 1 r2) as [[y r3]| | |] eqn:E3; try discriminate. now apply rd_no_fuel in E3.
    + now apply rd_no_fuel in E2.
  - now apply rd_no_fuel in E1.
Qed.

Lemma add_index_nofuel s i : add_index s i <> OutOfFuel.
Proof. unfold add_index. destruct s; [discriminate|]. destruct (ends_with _ _); discriminate. Qed.

Lemma get_tag_terminates k : forall s r, (length r < k)%nat -> get_tag_fuel k s r <> OutOfFuel.
Proof.
  induction k as [|k IH]; intros s r H; [lia|]. cbn [get_tag_fuel].
  destruct r as [|t r]; [discriminate|]. cbn [length] in H.
  destruct (t =? 0x28).
  { destruct (rd 1 r) as [[v r2]| | |] eqn:E; cbn [bind]; try discriminate; [|now apply rd_no_fuel in E].
    apply rd_ok_inv in E as [-> L]. rewrite app_length in H.
    destruct (add_index s (unle v)) eqn:A; cbn [bind]; try discriminate; [|now apply add_index_nofuel in A].
    apply IH. lia. }
  destruct (t =? 0x29).
  { destruct (rd 1 r) as [[v r2]| | |] eqn:E; cbn [bind]; try discriminate; [|now apply rd_no_fuel in E].
    apply rd_ok_inv in E as [-> L]. rewrite app_length in H.
    destruct (rd 2 r2) as [[v2 r3]| | |] eqn:E2; cbn [bind]; try discriminate; [|now apply rd_no_fuel in E2].
    apply rd_ok_inv in E2 as [-> L2]. rewrite app_length in H.
    destruct (add_index s (unle v2)) eqn:A; cbn [bind]; try discriminate; [|now apply add_index_nofuel in A].
    apply IH. lia. }
  destruct (t =? 0x91).
  { destruct (get_ascii_part r) as [[v r2]| | |] eqn:E; cbn [bind]; try discriminate; [|now apply get_ascii_nofuel in E].
    apply get_ascii_length in E. apply IH. lia. }
  discriminate.
Qed.

(** ** Different names have different paths *)

Definition starts_sym (r : bytes) : Prop := r = [] \/ exists r', r = 0x91 :: r'.

Lemma app_inj_len {A} (a a' b b' : list A) : length a = length a' -> a ++ b = a' ++ b' ->
  a = a' /\ b = b'.
Proof.
  revert a'; induction a as [|x a IH]; intros [|y a'] L E; try discriminate; [now split|].
  cbn in *. injection E as -> E. destruct (IH a' ltac:(lia) E) as [-> ->]. now split.
Qed.

Lemma symbol_segment_inj n n' r r' : symbol_segment n ++ r = symbol_segment n' ++ r' ->
  n = n' /\ r = r'.
Proof.
  unfold symbol_segment. cbn [app]. intro E. injection E as L E.
  rewrite L, <- !app_assoc in E. apply app_inj_len in E as [-> E]; [|unfold len in L; lia].
  apply app_inj_len in E as [_ ->]; [|destruct (Z.odd _); reflexivity]. now split.
Qed.

Lemma element_segment_inj i j r r' : 0 <= i < 2 ^ 32 -> 0 <= j < 2 ^ 32 ->
  element_segment i ++ r = element_segment j ++ r' -> i = j /\ r = r'.
Proof.
  unfold element_segment. change (2 ^ 8) with 256. change (2 ^ 16) with 65536. change (2 ^ 24) with 16777216.
  intros Hi Hj.
  destruct (Z.ltb_spec i 256), (Z.ltb_spec j 256);
    [| destruct (Z.ltb_spec j 65536) | destruct (Z.ltb_spec i 65536)
     | destruct (Z.ltb_spec i 65536), (Z.ltb_spec j 65536)];
    cbn [app]; intro E; try discriminate.
  - injection E as -> ->. now split.
  - injection E as E1 E2 ->. split; [lia|reflexivity].
  - injection E as E1 E2 E3 E4 ->. split; [lia|reflexivity].
Qed.

Lemma element_segment_head i : exists b r, element_segment i = b :: r /\ b <> 0x91.
Proof.
  unfold element_segment. destruct (i <? 2 ^ 8); [|destruct (i <? 2 ^ 16)];
    (eexists; eexists; split; [reflexivity|discriminate]).
Qed.

Lemma elements_inj subs : forall subs' r r',
  Forall (fun i => 0 <= i < 2 ^ 32) subs -> Forall (fun i => 0 <= i < 2 ^ 32) subs' ->
  starts_sym r -> starts_sym r' ->
  concat (map element_segment subs) ++ r = concat (map element_segment subs') ++ r' ->
  subs = subs' /\ r = r'.
Proof.
  induction subs as [|i subs IH]; intros [|j subs'] r r' H H' S S' E; cbn [map concat] in E.
  - now split.
  - cbn [app] in E. exfalso. destruct (element_segment_head j) as (b & x & Ej & Hb).
    rewrite Ej in E. cbn [app] in E. destruct S as [->|(y & ->)]; [discriminate|]. congruence.
  - exfalso. destruct (element_segment_head i) as (b & x & Ej & Hb).
    rewrite Ej in E. cbn [app] in E. destruct S' as [->|(y & ->)]; [discriminate|]. congruence.
  - rewrite <- !app_assoc in E. inversion H; inversion H'; subst.
    apply element_segment_inj in E as [-> E]; try assumption.
    apply IH in E as [-> ->]; auto.
Qed.

Lemma raw_members_starts ms : starts_sym (concat (map raw_member ms)).
Proof. destruct ms; [now left|]. right. cbn. eexists; reflexivity. Qed.

Lemma raw_members_inj ms : forall ms', Forall valid_member ms -> Forall valid_member ms' ->
  concat (map raw_member ms) = concat (map raw_member ms') -> ms = ms'.
Proof.
  induction ms as [|m ms IH]; intros [|m' ms'] H H' E; cbn [map concat] in E.
  - reflexivity.
  - unfold raw_member at 1, symbol_segment in E. discriminate.
  - unfold raw_member at 1, symbol_segment in E. discriminate.
  - inversion H as [|? ? [_ Hm] Hms]; inversion H' as [|? ? [_ Hm'] Hms']; subst.
    unfold raw_member at 1 3 in E. rewrite <- !app_assoc in E.
    apply symbol_segment_inj in E as [En E].
    apply elements_inj in E as [Es E]; auto using raw_members_starts.
    destruct m, m'; cbn in *. subst. f_equal. auto.
Qed.

Lemma encode_inj t t' : valid_tag t -> valid_tag t' -> encode t = encode t' ->
  t_members (lower_tag t) = t_members (lower_tag t').
Proof.
  intros V V' E. rewrite <- !raw_lower in E.
  apply raw_members_inj in E; [exact E| |]; now apply valid_lower_tag.
Qed.

(** ** Reachable clients *)

Lemma cl_run_snoc ops o : cl_run (ops ++ [o]) = cl_step (cl_run ops) o.
Proof. unfold cl_run. now rewrite fold_left_app. Qed.

Lemma cl_run_cache_ok ops : cache_ok (cl_run ops).
Proof.
  induction ops as [|o ops IH] using rev_ind.
  - intros p i H. discriminate.
  - rewrite cl_run_snoc. destruct o; cbn [cl_step].
    + now apply new_ioi_cache_ok.
    + exact IH.
    + exact IH.
Qed.

(** What a client that has never looked anything up would answer. *)
Definition forget (c : client) : client :=
  {| cl_firmware := cl_firmware c; cl_known := cl_known c; cl_cache := [] |}.

Lemma C04_lemma ops p p' d : lower p = lower p' ->
  fst (new_ioi (cl_run ops) p d) = fst (new_ioi (forget (cl_run ops)) p' d).
Proof.
  intro E. rewrite !new_ioi_result; [now rewrite E| |apply cl_run_cache_ok].
  intros q i H. discriminate.
Qed.

Lemma C01_lemma ops t d : valid_tag t -> lookup (lower (text t)) (cl_known (cl_run ops)) = None ->
  fst (new_ioi (cl_run ops) (text t) d) =
  Ok {| ioi_buf := encode t;
        ioi_bit := match t_bit t with Some _ => true | None => false end;
        ioi_bitpos := match t_bit t with Some b => b | None => 0 end |}.
Proof.
  intros V K. rewrite new_ioi_result by apply cl_run_cache_ok.
  unfold fast_path. rewrite K. rewrite encode_tag by exact V. unfold bit_sel.
  destruct (20 <? _); destruct (t_bit t); reflexivity.
Qed.

Lemma C01_known_lemma ops p d t : 20 < cl_firmware (cl_run ops) ->
  lookup (lower p) (cl_known (cl_run ops)) = Some t -> kt_type t <> 0 ->
  d <> 0xA0 -> d <> 0x00 -> d <> 0xFF -> kt_parent t = None -> 0 <= kt_instance t < 2 ^ 32 ->
  fst (new_ioi (cl_run ops) p d) =
  Ok {| ioi_buf := [0x20; 0x6B] ++
          (if kt_instance t <? 2 ^ 8 then [0x24; kt_instance t]
           else if kt_instance t <? 2 ^ 16 then [0x25; 0; kt_instance t mod 256; kt_instance t / 256]
           else [0x26; 0] ++ le 4 (kt_instance t));
        ioi_bit := false; ioi_bitpos := 0 |}.
Proof.
  intros F L T D1 D2 D3 P I. rewrite new_ioi_result by apply cl_run_cache_ok.
  unfold fast_path. rewrite L. unfold t_struct, t_unknown, t_string.
  destruct (Z.ltb_spec 20 (cl_firmware (cl_run ops))); [|lia].
  destruct (Z.eqb_spec (kt_type t) 0); [congruence|].
  destruct (Z.eqb_spec d 160); [congruence|]. destruct (Z.eqb_spec d 0); [congruence|].
  destruct (Z.eqb_spec d 255); [congruence|]. cbn [negb andb].
  unfold known_tag_bytes. rewrite P. do 2 f_equal. unfold class_bytes, obj_symbol, instance_bytes.
  change (107 <? 256) with true. cbn iota. f_equal.
  change (2 ^ 8) with 256. change (2 ^ 16) with 65536.
  destruct (Z.ltb_spec (kt_instance t) 256); [reflexivity|].
  destruct (Z.leb_spec (kt_instance t) 65535), (Z.ltb_spec (kt_instance t) 65536); try lia; [|reflexivity].
  cbn [le app]. replace ((kt_instance t / 256) mod 256) with (kt_instance t / 256) by lia. reflexivity.
Qed.

Lemma instance_bytes_even p : len (instance_bytes p) mod 2 = 0.
Proof.
  unfold instance_bytes. destruct (p <? 256); [reflexivity|].
  destruct (p <=? 65535); rewrite len_app, le_len; reflexivity.
Qed.
Lemma class_bytes_even p : len (class_bytes p) mod 2 = 0.
Proof.
  unfold class_bytes. destruct (p <? 256); [reflexivity|].
  rewrite len_app, le_len; reflexivity.
Qed.
Lemma known_tag_bytes_even t : len (known_tag_bytes t) mod 2 = 0.
Proof.
  unfold known_tag_bytes, program_bytes.
  pose proof (instance_bytes_even (kt_instance t)). pose proof (class_bytes_even obj_symbol).
  destruct (kt_parent t) as [p|]; rewrite !len_app.
  - pose proof (class_bytes_even 104). pose proof (instance_bytes_even (kp_id p)).
    destruct (kp_id p =? 0); rewrite ?len_app; [|lia].
    destruct (marshal_part _) eqn:M; [apply marshal_ok_even in M|..]; rewrite ?len_nil; lia.
  - lia.
Qed.

Lemma C05_lemma ops p d i : fst (new_ioi (cl_run ops) p d) = Ok i ->
  Z.even (len (ioi_buf i)) = true /\
  (len (ioi_buf i) <= 510 -> 2 * path_size_byte (ioi_buf i) = len (ioi_buf i)).
Proof.
  rewrite new_ioi_result by apply cl_run_cache_ok. intro E.
  assert (M : len (ioi_buf i) mod 2 = 0).
  { unfold fast_path in E. destruct (20 <? _); [destruct (lookup _ _); [destruct (_ && _ && _ && _)|]|].
    - injection E as <-. apply known_tag_bytes_even.
    - now apply build_ioi_even in E.
    - now apply build_ioi_even in E.
    - now apply build_ioi_even in E. }
  split.
  - rewrite Zeven_mod, M. reflexivity.
  - intro L. unfold path_size_byte. pose proof (len_nonneg (ioi_buf i)).
    rewrite (Z.mod_small (len (ioi_buf i) / 2)) by lia. lia.
Qed.

Lemma text_members t : t_bit t = None -> text t = join 46 (map member_text (t_members t)).
Proof. intro H. unfold text. rewrite H. now rewrite app_nil_r. Qed.

Lemma C02_lemma t rest : valid_tag t ->
  Forall (fun m => Forall (fun i => i < 65536) (m_subs m)) (t_members t) ->
  (match rest with [] => True | b :: _ => b <> 0x28 /\ b <> 0x29 /\ b <> 0x91 end) ->
  get_tag_from_path (encode t ++ rest) =
  Ok (lower (text {| t_members := t_members t; t_bit := None |}), rest).
Proof.
  intros V S R. rewrite <- raw_lower. rewrite get_tag_decode.
  - rewrite lower_text. { rewrite text_members by reflexivity. reflexivity. }
    destruct V as (V1 & V2 & _). now split.
  - destruct (valid_lower_tag _ V) as (H & _). exact H.
  - apply valid_lower_tag, V.
  - cbn. apply Forall_map. exact S.
  - exact R.
Qed.

(** Decision procedure for the grammar, for examples. *)
Definition name_charb (c : Z) : bool :=
  (65 <=? c) && (c <=? 90) || (97 <=? c) && (c <=? 122) || (48 <=? c) && (c <=? 57)
  || (c =? 95) || (c =? 58).
Definition valid_nameb (n : bytes) : bool :=
  (1 <=? len n) && (len n <=? 255) && forallb name_charb n &&
  match n with c :: _ => negb (is_digit c) | [] => true end.
Definition valid_tagb (t : tag) : bool :=
  negb (match t_members t with [] => true | _ => false end) &&
  forallb (fun m => valid_nameb (m_name m) && forallb (fun i => (0 <=? i) && (i <? 2 ^ 32)) (m_subs m))
          (t_members t) &&
  match t_bit t with None => true | Some b => (0 <=? b) && (b <=? 31) end.

Lemma valid_nameb_sound n : valid_nameb n = true -> valid_name n.
Proof.
  unfold valid_nameb. rewrite !andb_true_iff. intros (((H1 & H2) & H3) & H4).
  split; [lia|]. split.
  - apply Forall_forall. intros c Hc. rewrite forallb_forall in H3. apply H3 in Hc.
    unfold name_charb in Hc. unfold name_char. lia.
  - intros (c & r & -> & Hc). unfold is_digit in H4. lia.
Qed.

Lemma valid_tagb_sound t : valid_tagb t = true -> valid_tag t.
Proof.
  unfold valid_tagb. rewrite !andb_true_iff. intros ((H1 & H2) & H3). split; [|split].
  - destruct (t_members t); [discriminate|discriminate].
  - apply Forall_forall. intros m Hm. rewrite forallb_forall in H2. apply H2 in Hm.
    apply andb_true_iff in Hm as (Hn & Hs). split; [now apply valid_nameb_sound|].
    apply Forall_forall. intros i Hi. rewrite forallb_forall in Hs. apply Hs in Hi. lia.
  - destruct (t_bit t); [lia|exact I].
Qed.
