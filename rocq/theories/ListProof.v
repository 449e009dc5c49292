(** * Proofs about listing *)
From Coq Require Import Permutation.
From Verif Require Import GoBase SegModel SegSpec SegProof IoiModel ItemsModel ItemsSpec ItemsProof ReadModel ReadProof AttrModel AttrSpec AttrProof ListModel ListSpec.

Lemma has_prefix_starts p s : has_prefix p s = true <-> starts p s.
Proof.
  revert s. induction p as [|x p IH]; intro s; [split; [intro; now exists s|reflexivity]|].
  destruct s as [|y s]; cbn [has_prefix]; [split; [discriminate|intros (r & E); discriminate]|].
  rewrite andb_true_iff, Z.eqb_eq, IH. split.
  - intros (-> & r & ->). now exists r.
  - intros (r & E). cbn [app] in E. injection E as -> ->. split; [reflexivity|now exists r].
Qed.
Lemma is_valid_spec n : is_valid n = true <-> user_tag n.
Proof.
  unfold is_valid, user_tag. destruct n as [|c n]; [split; [discriminate|intros (H & _); congruence]|].
  rewrite andb_true_iff, orb_true_iff, !negb_true_iff, <- has_prefix_starts, <- has_prefix_starts, <- contains_In.
  destruct (has_prefix (str "__") (c :: n)), (contains 58 (c :: n)), (has_prefix (str "Program") (c :: n)); intuition congruence.
Qed.
Lemma program_test n : (8 <? len n) && has_prefix (str "Program:") n = true <-> program_entry n.
Proof.
  rewrite andb_true_iff, Z.ltb_lt, has_prefix_starts. split.
  - intros (L & r & ->). exists r. split; [|reflexivity]. intros ->. revert L. vm_compute. discriminate.
  - intros (r & N & ->). split; [|now exists r]. rewrite len_app. change (len (str "Program:")) with 8. destruct r; [congruence|]. rewrite len_cons. pose proof (len_nonneg r). lia.
Qed.
Lemma template_id_no w : u 16 w -> template_id w = template_no w.
Proof.
  intros [H0 H1]. unfold template_id, template_no, is_struct.
  assert (E15 : Z.testbit w 15 = (8 <=? w / 2 ^ 12)).
  { rewrite Z.testbit_eqb by lia. assert (E : w / 2 ^ 15 = 0 \/ w / 2 ^ 15 = 1) by (assert (w / 2 ^ 15 < 2) by (apply Z.div_lt_upper_bound; lia); pose proof (Z.div_pos w (2 ^ 15)); lia).
    pose proof (Z.div_mod w (2 ^ 15)). pose proof (Z.mod_pos_bound w (2 ^ 15)). pose proof (Z.div_mod w (2 ^ 12)). pose proof (Z.mod_pos_bound w (2 ^ 12)).
    destruct E as [E|E]; rewrite E; symmetry; [apply Z.leb_gt|apply Z.leb_le]; lia. }
  assert (E12 : Z.testbit w 12 = negb ((w / 2 ^ 12) mod 2 =? 0)).
  { rewrite Z.testbit_eqb by lia. pose proof (Z.mod_pos_bound (w / 2 ^ 12) 2). destruct ((w / 2 ^ 12) mod 2 =? 0) eqn:E; [apply Z.eqb_eq in E; rewrite E; reflexivity|].
    apply Z.eqb_neq in E. apply Z.eqb_eq. lia. }
  rewrite E15, E12. destruct (8 <=? w / 2 ^ 12), ((w / 2 ^ 12) mod 2 =? 0); cbn [negb orb andb]; try reflexivity.
  change 0x0FFF with (Z.ones 12). now rewrite Z.land_ones by lia.
Qed.

Lemma rd_app' n (l rest : bytes) : length l = n -> rd n (l ++ rest) = Ok (l, rest).
Proof. apply rd_app. Qed.
Lemma next_tag_wire e rest : entry_ok e -> next_tag (wire_entry e ++ rest) = Ok (e_inst e, e_name e, type_of e, rest).
Proof.
  intros (_ & I & N & T & D1 & D2 & D3). unfold next_tag, wire_entry.
  replace ((le 4 (e_inst e) ++ le 2 (len (e_name e)) ++ e_name e ++ le 2 (e_type e) ++ le 4 (e_d1 e) ++ le 4 (e_d2 e) ++ le 4 (e_d3 e)) ++ rest)
    with ((le 4 (e_inst e) ++ le 2 (len (e_name e))) ++ e_name e ++ (le 2 (e_type e) ++ le 4 (e_d1 e) ++ le 4 (e_d2 e) ++ le 4 (e_d3 e)) ++ rest)
    by now rewrite <- !app_assoc.
  rewrite rd_app' by now rewrite app_length, !le_length. cbn [bind].
  rewrite skipn_app_exact by apply le_length. rewrite unle_le_small by (split; [apply len_nonneg|exact N]).
  rewrite rd_app' by (unfold len; lia). cbn [bind].
  rewrite rd_app' by now rewrite !app_length, !le_length. cbn [bind].
  rewrite firstn_app_exact by apply le_length. rewrite (unle_le_small 4 (e_inst e)) by exact I.
  change (skipn 2 (le 2 (e_type e) ++ le 4 (e_d1 e) ++ le 4 (e_d2 e) ++ le 4 (e_d3 e))) with (le 4 (e_d1 e) ++ le 4 (e_d2 e) ++ le 4 (e_d3 e)).
  change (skipn 6 (le 2 (e_type e) ++ le 4 (e_d1 e) ++ le 4 (e_d2 e) ++ le 4 (e_d3 e))) with (le 4 (e_d2 e) ++ le 4 (e_d3 e)).
  change (skipn 10 (le 2 (e_type e) ++ le 4 (e_d1 e) ++ le 4 (e_d2 e) ++ le 4 (e_d3 e))) with (le 4 (e_d3 e)).
  rewrite !firstn_app_exact by apply le_length. rewrite firstn_all2 by (rewrite le_length; lia).
  rewrite (unle_le_small 4 (e_d1 e)), (unle_le_small 4 (e_d2 e)), (unle_le_small 4 (e_d3 e)) by assumption.
  unfold type_of. assert (E : e_type e / 256 mod 256 = e_type e / 256).
  { apply Z.mod_small. destruct T as [T0 T1]. split; [apply Z.div_pos; lia|apply Z.div_lt_upper_bound; lia]. }
  cbn [le app nth]. rewrite E. reflexivity.
Qed.
Lemma info_word_type e : u 16 (e_type e) -> info_word (type_of e) = e_type e.
Proof.
  intros [T0 T1]. unfold info_word, type_of. cbn [ti_type ti_info unle]. pose proof (Z.div_mod (e_type e) 256). lia.
Qed.
Lemma array_order_dims e : array_order (type_of e) = dims e.
Proof.
  unfold array_order, type_of, dims. cbn [ti_d1 ti_d2 ti_d3]. destruct (e_d1 e), (e_d2 e), (e_d3 e); reflexivity.
Qed.

(** ** Requests *)
Lemma send_ok S (ctl : controller S) otid svc path tail w eip payload s1 svc' st ext d : len path < 512 -> len tail < 65000 ->
  ctl (l_ctl w) (object_request otid (l_seq w) svc path tail) = (Ok (eip, payload), s1) -> reply payload svc' st ext d ->
  exists a b resv, send ctl otid svc path tail w = (Ok (a :: b :: svc' :: resv :: st :: ext :: d), LState s1 (l_seq w + 1) (l_lists w)).
Proof.
  intros L1 L2 E R. unfold send. rewrite object_request_wire by assumption. rewrite E. cbn [bind].
  destruct R as (pre & addr & id & q & resv & others & rest & L & Q & F & ->). destruct (length2 q Q) as (a & b & ->).
  exists a, b, resv. unfold second_item. rewrite rd_app by exact L. cbn [bind]. rewrite read_items_wire by exact F. reflexivity.
Qed.
Lemma page_header_ok a b c r st ext d : 0 <= st < 256 -> ext = 0 -> page_header (a :: b :: c :: r :: st :: ext :: d) = Ok (st, d).
Proof.
  intros H ->. unfold page_header. change (a :: b :: c :: r :: st :: 0 :: d) with ([a; b; c; r; st; 0] ++ d). rewrite rd_app by reflexivity.
  cbn [bind skipn unle]. replace (st + 256 * (0 + 256 * 0)) with st by lia. reflexivity.
Qed.

(** ** Maps *)
Definition puts (ts : list (bytes * listed)) (m : list (bytes * listed)) : list (bytes * listed) :=
  fold_left (fun m kt => put (fst kt) (snd kt) m) ts m.
Lemma puts_app a b m : puts (a ++ b) m = puts b (puts a m).
Proof. apply fold_left_app. Qed.
Lemma lookup_filter {A} k k' (m : list (bytes * A)) : k <> k' -> lookup k' (filter (fun x => negb (bseq k (fst x))) m) = lookup k' m.
Proof.
  intro N. induction m as [|[k1 v] m IH]; [reflexivity|]. cbn [filter fst lookup]. destruct (bseq k k1) eqn:E; cbn [negb].
  - apply bseq_spec in E. subst k1. destruct (bseq k' k) eqn:E; [apply bseq_spec in E; congruence|exact IH].
  - cbn [lookup]. destruct (bseq k' k1); [reflexivity|exact IH].
Qed.
Lemma lookup_put {A} k k' (v : A) m : lookup k' (put k v m) = if bseq k' k then Some v else lookup k' m.
Proof.
  unfold put. cbn [lookup]. destruct (bseq k' k) eqn:E; [reflexivity|]. apply lookup_filter. intros ->. now rewrite bseq_refl in E.
Qed.
Lemma put_nodup {A} k (v : A) m : NoDup (map fst m) -> NoDup (map fst (put k v m)).
Proof.
  intro H. unfold put. cbn [map fst]. constructor.
  - rewrite in_map_iff. intros ([k1 v1] & E & I). apply filter_In in I as [_ I]. cbn [fst] in *. subst k1. now rewrite bseq_refl in I.
  - induction m as [|[k1 v1] m IH]; [constructor|]. cbn [map fst] in H. inversion_clear H. cbn [filter fst]. destruct (negb (bseq k k1)); [|auto].
    cbn [map fst]. constructor; [|auto]. rewrite in_map_iff. intros ([k2 v2] & E & I). apply filter_In in I as [I _]. cbn [fst] in E. subst k2. apply H0. now apply (in_map fst) in I.
Qed.
Lemma puts_nodup ts m : NoDup (map fst m) -> NoDup (map fst (puts ts m)).
Proof. revert m. induction ts as [|[k t] ts IH]; intros m H; [exact H|]. apply IH. now apply put_nodup. Qed.
Lemma puts_other ts m k : ~ In k (map fst ts) -> lookup k (puts ts m) = lookup k m.
Proof.
  revert m. induction ts as [|[k1 t] ts IH]; intros m H; [reflexivity|]. change (puts ((k1, t) :: ts) m) with (puts ts (put k1 t m)). cbn [map fst In] in H.
  rewrite IH by tauto. rewrite lookup_put. destruct (bseq k k1) eqn:E; [apply bseq_spec in E; subst; tauto|reflexivity].
Qed.
Lemma puts_in ts m k t : In (k, t) ts -> (forall t', In (k, t') ts -> t' = t) -> lookup k (puts ts m) = Some t.
Proof.
  revert m. induction ts as [|[k1 t1] ts IH]; intros m I U; [destruct I|]. change (puts ((k1, t1) :: ts) m) with (puts ts (put k1 t1 m)).
  destruct (existsb (fun x => bseq k (fst x)) ts) eqn:E.
  - apply existsb_exists in E as ([k2 t2] & I2 & E2). apply bseq_spec in E2. cbn [fst] in E2. subst k2.
    assert (t2 = t) by (apply U; now right). subst t2. apply IH; [exact I2|]. intros t' I'. apply U. now right.
  - assert (N : ~ In k (map fst ts)).
    { intro N. apply in_map_iff in N as ([k2 t2] & E2 & I2). cbn [fst] in E2. subst k2. assert (existsb (fun x => bseq k (fst x)) ts = true); [|congruence].
      apply existsb_exists. exists (k, t2). split; [exact I2|]. cbn [fst]. apply bseq_refl. }
    destruct I as [I|I]; [|exfalso; apply N; now apply (in_map fst) in I]. injection I as -> ->. rewrite puts_other by exact N. rewrite lookup_put, bseq_refl. reflexivity.
Qed.
Lemma puts_records P ts m : distinct P -> (forall k t, In (k, t) ts -> P k t) -> (forall k t, P k t -> In (k, t) ts) -> records P m (puts ts m).
Proof.
  intros D I1 I2. split; [|split].
  - intros k t H. apply puts_in; [auto|]. intros t' H'. eapply D; eauto.
  - intros k H. apply puts_other. intro N. apply in_map_iff in N as ([k2 t2] & E2 & N). cbn [fst] in E2. subst k2. apply (H t2). auto.
  - apply puts_nodup.
Qed.

Definition ids_ok (T : Z -> option template) (l : list (Z * template)) : Prop := forall id t, find_id id l = Some t -> T id = Some t.
Definition stepped {S} (T : Z -> option template) (ts : list (bytes * listed)) (w w1 : lstate S) : Prop :=
  l_tags (l_lists w1) = puts ts (l_tags (l_lists w)) /\ l_progs (l_lists w1) = l_progs (l_lists w) /\
  (ids_ok T (l_ids (l_lists w)) -> ids_ok T (l_ids (l_lists w1))).
Lemma stepped_refl S T (w : lstate S) : stepped T [] w w.
Proof. split; [reflexivity|]. split; [reflexivity|auto]. Qed.
Lemma stepped_trans S T a b (w w1 w2 : lstate S) : stepped T a w w1 -> stepped T b w1 w2 -> stepped T (a ++ b) w w2.
Proof. intros (A & B & C) (A' & B' & C'). split; [rewrite puts_app; congruence|]. split; [congruence|auto]. Qed.
Lemma stepped_ctl S T ts (w w1 : lstate S) s q : stepped T ts w w1 -> stepped T ts w (LState s q (l_lists w1)).
Proof. intro H. exact H. Qed.

(** ** Templates *)
Fixpoint template_ind' (P : template -> Prop)
  (H : forall i n w s c h ms, (forall m t, In m ms -> member_udt m = Some t -> P t) -> P (Template i n w s c h ms)) (t : template) : P t :=
  let '(Template i n w s c h ms) := t in
  H i n w s c h ms
    ((fix go (ms : list (bytes * (Z * Z * Z) * option template)) : forall m t, In m ms -> member_udt m = Some t -> P t :=
       match ms with
       | [] => fun m t I => match I with end
       | m0 :: r => fun m t I E =>
           match I with
           | or_introl E0 =>
               match m0 as m1 return m1 = m -> P t with
               | (nm, inf, o) => fun E1 =>
                   match o as o1 return (nm, inf, o1) = m -> P t with
                   | Some t0 => fun E1 => eq_ind t0 P (template_ind' P H t0) t
                       (f_equal (fun o => match o with Some x => x | None => t0 end) (eq_trans (f_equal member_udt E1) E))
                   | None => fun E1 => match (eq_trans (f_equal member_udt E1) E) in _ = o1 return match o1 with Some _ => P t | None => True end with eq_refl => Logic.I end
                   end E1
               end E0
           | or_intror I1 => go r m t I1 E
           end
       end) ms).
Lemma read_string_app n r : ~ In 0 n -> read_string (n ++ 0 :: r) = (n ++ [0], Some r).
Proof.
  induction n as [|c n IH]; intro H; [reflexivity|]. cbn [app read_string]. rewrite IH by (intro; apply H; now right).
  destruct c; [exfalso; apply H; now left|reflexivity|reflexivity].
Qed.
Lemma before_semicolon_app a b : ~ In 59 a -> before_semicolon (a ++ 59 :: b) = a.
Proof.
  induction a as [|c a IH]; intro H; [reflexivity|]. cbn [app before_semicolon]. destruct (c =? 59) eqn:E; [apply Z.eqb_eq in E; subst; exfalso; apply H; now left|].
  rewrite IH by (intro; apply H; now right). reflexivity.
Qed.
Lemma drop_last_snoc s c : drop_last (s ++ [c]) = Ok s.
Proof. unfold drop_last. destruct (s ++ [c]) eqn:E; [now destruct s|]. rewrite <- E, removelast_last. reflexivity. Qed.
Lemma struct_name_seen name suffix : ~ In 59 name -> suffix_ok suffix -> (suffix <> [] -> name <> []) ->
  struct_name (name ++ suffix ++ [0]) = Ok (seen_name name suffix).
Proof.
  intros N S E. unfold struct_name. destruct S as [->|(r & -> & Z0)].
  - cbn [app]. assert (C : contains 59 (name ++ [0]) = false) by (apply contains_not_In; rewrite in_app_iff; cbn; intros [?|[?|[]]]; [tauto|discriminate]).
    rewrite C. apply drop_last_snoc.
  - assert (C : contains 59 (name ++ (59 :: r) ++ [0]) = true) by (apply contains_In; rewrite in_app_iff; right; now left). rewrite C.
    change ((59 :: r) ++ [0]) with (59 :: (r ++ [0])). rewrite before_semicolon_app by exact N. unfold drop_last, seen_name.
    destruct name; [exfalso; apply E; congruence|reflexivity].
Qed.
Lemma template_no_range w : u 16 w -> template_no w <> 0 -> 1 <= template_no w < 2 ^ 12.
Proof. unfold template_no, u. intros H. destruct (is_struct w); [|congruence]. pose proof (Z.mod_pos_bound w (2 ^ 12)). lia. Qed.

Definition member_call {S} (T : Z -> option template) (again : Z -> LM S template) (id : Z) : Prop :=
  forall w, ids_ok T (l_ids (l_lists w)) -> exists r w1, again id w = (r, w1) /\
    match T id with Some t => r = Ok t | None => exists e, r = Err e end /\ stepped T [] w w1.

Lemma read_members_ok S T (again : Z -> LM S template) ms rest : Forall member_ok ms ->
  (forall m, In m ms -> member_udt m = (if template_no (member_type m) =? 0 then None else T (template_no (member_type m)))) ->
  (forall m, In m ms -> template_no (member_type m) <> 0 -> member_call T again (template_no (member_type m))) ->
  forall w, ids_ok T (l_ids (l_lists w)) ->
  exists w1, read_members again (length ms) (concat (map member_info ms)) (concat (map (fun m => member_name m ++ [0]) ms) ++ rest) w = (Ok ms, w1) /\ stepped T [] w w1.
Proof.
  induction ms as [|[[n [[i t] o]] d] ms IH]; intros O U C w W.
  - exists w. split; [reflexivity|apply stepped_refl].
  - inversion_clear O as [|? ? O1 O2]. destruct O1 as (Z0 & Hi & Ht & Ho).
    cbn [length read_members map concat member_name member_info]. rewrite <- !app_assoc. cbn [app]. rewrite read_string_app by exact Z0.
    assert (Ety : unle (firstn 2 (skipn 2 (le 2 i ++ le 2 t ++ le 4 o ++ concat (map member_info ms)))) = t).
    { rewrite skipn_app_exact by apply le_length. rewrite firstn_app_exact by apply le_length. now apply unle_le_small. }
    assert (Ei : unle (firstn 2 (le 2 i ++ le 2 t ++ le 4 o ++ concat (map member_info ms))) = i).
    { rewrite firstn_app_exact by apply le_length. now apply unle_le_small. }
    assert (Eo : unle (firstn 4 (skipn 4 (le 2 i ++ le 2 t ++ le 4 o ++ concat (map member_info ms)))) = o).
    { rewrite app_assoc. rewrite skipn_app_exact by (now rewrite app_length, !le_length). rewrite firstn_app_exact by apply le_length. now apply unle_le_small. }
    assert (Er : skipn 8 (le 2 i ++ le 2 t ++ le 4 o ++ concat (map member_info ms)) = concat (map member_info ms)).
    { rewrite !app_assoc. rewrite skipn_app_exact by (now rewrite !app_length, !le_length). reflexivity. }
    assert (Ed : exists w1, (if template_id t =? 0 then lret None
         else lbind (attempt (again (template_id t))) (fun d => lret (match d with Ok t => Some t | _ => None end))) w = (Ok d, w1) /\ stepped T [] w w1).
    { specialize (U _ (or_introl eq_refl)). specialize (C _ (or_introl eq_refl)). cbn [member_udt member_type] in U, C.
      rewrite template_id_no by exact Ht. destruct (template_no t =? 0) eqn:E.
      - exists w. subst d. split; [reflexivity|apply stepped_refl].
      - apply Z.eqb_neq in E. destruct (C E w W) as (r & w1 & Ea & Hr & St). exists w1. split; [|exact St].
        unfold lbind, attempt. rewrite Ea. subst d. destruct (T (template_no t)) as [t1|]; [subst r; reflexivity|]. destruct Hr as (e & ->). reflexivity. }
    destruct Ed as (w1 & Ed & St1).
    destruct (IH O2 (fun m I => U m (or_intror I)) (fun m I => C m (or_intror I)) w1) as (w2 & E2 & St2); [apply St1; exact W|].
    assert (Nn : exists c l, n ++ [0] = c :: l) by (destruct n as [|c n]; [now exists 0, []|now exists c, (n ++ [0])]).
    destruct Nn as (c & l & En). assert (Dl : drop_last (c :: l) = Ok n) by (rewrite <- En; apply drop_last_snoc).
    rewrite En. cbv zeta iota. rewrite Ety, Ei, Eo, Er.
    exists w2. split; [|apply (stepped_trans _ _ [] [] _ w1); assumption].
    unfold lbind at 1. unfold llift at 1. rewrite Dl. unfold lbind at 1. rewrite Ed. unfold lbind at 1. rewrite E2. reflexivity.
Qed.

Lemma template_path_len id : 0 <= id -> len (template_path id) < 512.
Proof. intro H. unfold template_path. pose proof (attr_path_len 0x6C id). lia. Qed.
Lemma template_path_spec id : 0 <= id < 2 ^ 32 -> template_path id = class_segment 0x6C ++ instance_segment id.
Proof. intro H. unfold template_path. rewrite class_bytes_spec by lia. now rewrite instance_bytes_spec by exact H. Qed.

Lemma attrs_wire a b c r w s k h rest : u 32 w -> u 32 s -> u 16 k -> u 16 h ->
  (let* (x, _) := rd 36 (a :: b :: c :: r :: 0 :: 0 :: wire_attrs w s k h ++ rest) in
   Ok (unle (firstn 4 (skipn 12 x)), unle (firstn 4 (skipn 20 x)), unle (firstn 2 (skipn 28 x)), unle (firstn 2 (skipn 34 x)))) = Ok (w, s, k, h).
Proof.
  intros Hw Hs Hk Hh. change (a :: b :: c :: r :: 0 :: 0 :: wire_attrs w s k h ++ rest) with (([a; b; c; r; 0; 0] ++ wire_attrs w s k h) ++ rest).
  rewrite rd_app by reflexivity. cbn [bind].
  change (unle (firstn 4 (skipn 12 ([a; b; c; r; 0; 0] ++ wire_attrs w s k h)))) with (unle (le 4 w)).
  change (unle (firstn 4 (skipn 20 ([a; b; c; r; 0; 0] ++ wire_attrs w s k h)))) with (unle (le 4 s)).
  change (unle (firstn 2 (skipn 28 ([a; b; c; r; 0; 0] ++ wire_attrs w s k h)))) with (unle (le 2 k)).
  change (unle (firstn 2 (skipn 34 ([a; b; c; r; 0; 0] ++ wire_attrs w s k h)))) with (unle (le 2 h)).
  rewrite (unle_le_small 4 w), (unle_le_small 4 s), (unle_le_small 2 k), (unle_le_small 2 h) by assumption. reflexivity.
Qed.
Lemma uniform {A} (Q : nat -> A -> Prop) (l : list A) : (forall x, In x l -> exists n, forall k, (n <= k)%nat -> Q k x) ->
  exists n, forall k, (n <= k)%nat -> forall x, In x l -> Q k x.
Proof.
  induction l as [|a l IH]; intro H; [exists 0%nat; intros k _ x []|].
  destruct (H a (or_introl eq_refl)) as (n1 & H1). destruct IH as (n2 & H2); [intros x I; apply H; now right|].
  exists (Nat.max n1 n2). intros k K x [<-|I]; [apply H1; lia|apply H2; [lia|exact I]].
Qed.
Lemma len_member_infos ms : length (concat (map member_info ms)) = (8 * length ms)%nat.
Proof.
  induction ms as [|[[n [[i t] o]] d] ms IH]; [reflexivity|]. cbn [map concat member_info length]. rewrite !app_length, !le_length, IH. lia.
Qed.
Lemma find_id_cons id t l k : find_id k ((id, t) :: l) = if k =? id then Some t else find_id k l.
Proof. reflexivity. Qed.

Section Templates.
Context {S : Type} (ctl : controller S) (otid : Z) (T : Z -> option template) (HT : serves_templates ctl otid T).

Lemma list_members_none id fuel : 1 <= id < 2 ^ 12 -> T id = None -> (1 <= fuel)%nat -> member_call T (list_members fuel ctl otid) id.
Proof.
  intros R E F w W. specialize (HT id R). rewrite E in *. destruct fuel as [|k]; [lia|]. cbn [list_members].
  unfold lbind at 1, look. destruct (find_id id (l_ids (l_lists w))) as [t|] eqn:Ef; [apply W in Ef; congruence|].
  destruct (HT (l_ctl w) (l_seq w)) as (eip & payload & s1 & st & ext & d & Ec & Rp & L).
  unfold template_request in Ec. rewrite <- template_path_spec in Ec by lia.
  destruct (send_ok S ctl otid svc_attrlist (template_path id) [4; 0; 4; 0; 5; 0; 2; 0; 1; 0] w eip payload s1 _ _ _ _ (template_path_len id ltac:(lia)) ltac:(vm_compute; reflexivity) Ec Rp)
    as (a & b & resv & Es).
  unfold template_attrs. assert (Ez : id =? 0 = false) by (apply Z.eqb_neq; lia). rewrite Ez. change (le 2 4 ++ le 2 4 ++ le 2 5 ++ le 2 2 ++ le 2 1) with [4; 0; 4; 0; 5; 0; 2; 0; 1; 0].
  unfold lbind at 1 2. rewrite Es. unfold llift at 1.
  assert (Er : exists e, rd 36 (a :: b :: 131 :: resv :: st :: ext :: d) = Err e).
  { unfold rd. assert (Lt : (36 <=? length (a :: b :: 131%Z :: resv :: st :: ext :: d))%nat = false) by (apply Nat.leb_gt; unfold len in L; cbn [length]; lia).
    rewrite Lt. destruct (a :: b :: 131 :: resv :: st :: ext :: d); eexists; reflexivity. }
  destruct Er as (e & Er). rewrite Er. cbn [bind]. eexists. eexists. split; [reflexivity|]. split; [now exists e|]. apply (stepped_ctl _ _ _ w w). apply stepped_refl.
Qed.

Lemma list_members_some t : forall id, 1 <= id < 2 ^ 12 -> T id = Some t -> exists n, forall fuel, (n <= fuel)%nat -> member_call T (list_members fuel ctl otid) id.
Proof.
  induction t as [i nm words size count handle ms IH] using template_ind'. intros id R E.
  pose proof (HT id R) as H. rewrite E in H. destruct H as ((name & suffix & Sv & Nm & Ne) & U). cbn [name_of members_of] in Nm, U.
  destruct Sv as (-> & Ec & Uc & Uh & Uw & Us & Om & Z0 & Z59 & Su & Sa & Sd).
  assert (Tr : forall m, In m ms -> u 16 (member_type m)).
  { intros [[n [[i0 t0] o]] d] I. rewrite Forall_forall in Om. apply Om in I. now destruct I as (_ & _ & ? & _). }
  assert (Hn : exists n, forall fuel, (n <= fuel)%nat -> forall m, In m ms -> template_no (member_type m) <> 0 -> member_call T (list_members fuel ctl otid) (template_no (member_type m))).
  { apply (uniform (fun fuel m => template_no (member_type m) <> 0 -> member_call T (list_members fuel ctl otid) (template_no (member_type m)))). intros m I.
    destruct (Z.eq_dec (template_no (member_type m)) 0) as [N|N]; [exists 0%nat; intros; congruence|].
    pose proof (template_no_range _ (Tr m I) N) as Rg. destruct (T (template_no (member_type m))) as [t1|] eqn:E1.
    - assert (Eu : member_udt m = Some t1) by (rewrite (U m I); apply Z.eqb_neq in N; now rewrite N).
      destruct (IH m t1 I Eu _ Rg E1) as (n & Hn). exists n. intros k K _. now apply Hn.
    - exists 1%nat. intros k K _. now apply list_members_none. }
  destruct Hn as (n & Hn). exists (Datatypes.S n). intros fuel F w W. destruct fuel as [|k]; [lia|]. cbn [list_members].
  unfold lbind at 1, look. rewrite E. destruct (find_id id (l_ids (l_lists w))) as [t|] eqn:Ef.
  { apply W in Ef. rewrite E in Ef. injection Ef as <-. eexists. exists w. split; [reflexivity|]. split; [reflexivity|apply stepped_refl]. }
  destruct (Sa (l_ctl w) (l_seq w)) as (eip & payload & s1 & Ea & Rp). unfold template_request in Ea. rewrite <- template_path_spec in Ea by lia.
  destruct (send_ok S ctl otid svc_attrlist (template_path id) [4; 0; 4; 0; 5; 0; 2; 0; 1; 0] w eip payload s1 _ _ _ _ (template_path_len id ltac:(lia)) ltac:(vm_compute; reflexivity) Ea Rp)
    as (a & b & resv & Es).
  unfold template_attrs. assert (Ez : id =? 0 = false) by (apply Z.eqb_neq; lia). rewrite Ez. change (le 2 4 ++ le 2 4 ++ le 2 5 ++ le 2 2 ++ le 2 1) with [4; 0; 4; 0; 5; 0; 2; 0; 1; 0].
  unfold lbind at 1 2. rewrite Es. unfold llift at 1. rewrite <- (app_nil_r (wire_attrs _ _ _ _)). rewrite attrs_wire by assumption.
  set (w1 := LState s1 (l_seq w + 1) (l_lists w)).
  destruct (Sd s1 (l_seq w + 1)) as (eip2 & payload2 & s2 & rest & Ed & Rp2). unfold definition_request in Ed. rewrite <- template_path_spec in Ed by lia.
  destruct (send_ok S ctl otid svc_read (template_path id) (le 4 0 ++ le 2 (4 * words - 23)) w1 eip2 payload2 s2 _ _ _ _ (template_path_len id ltac:(lia)) ltac:(rewrite len_app, !le_len; lia) Ed Rp2)
    as (a2 & b2 & resv2 & Es2).
  unfold lbind at 1. rewrite (Z.mul_comm words 4), Es2. set (w2 := LState s2 (l_seq w1 + 1) (l_lists w1)).
  unfold lbind at 1. unfold llift at 1.
  change (a2 :: b2 :: 204 :: resv2 :: 0 :: 0 :: wire_definition name suffix ms ++ rest) with ([a2; b2; 204; resv2; 0; 0] ++ wire_definition name suffix ms ++ rest).
  rewrite rd_app by reflexivity. cbn [bind]. unfold wire_definition. rewrite <- !app_assoc.
  assert (Lc : Z.to_nat count = length ms) by (rewrite Ec; unfold len; lia). rewrite Lc.
  rewrite rd_app by apply len_member_infos. unfold lbind at 1. unfold llift at 1.
  replace (name ++ suffix ++ [0] ++ concat (map (fun m => member_name m ++ [0]) ms) ++ rest)
    with ((name ++ suffix) ++ 0 :: (concat (map (fun m => member_name m ++ [0]) ms) ++ rest)) by now rewrite <- !app_assoc.
  rewrite read_string_app.
  2: { rewrite in_app_iff. intros [?|I]; [tauto|]. destruct Su as [->|(r & -> & Zr)]; [destruct I|]. destruct I as [?|?]; [discriminate|tauto]. }
  unfold lbind at 1. unfold llift at 1. rewrite <- app_assoc. rewrite struct_name_seen by assumption.
  destruct (read_members_ok S T (list_members k ctl otid) ms rest Om U (Hn k ltac:(lia)) w2 W) as (w3 & E3 & St3).
  unfold lbind at 1. rewrite E3. unfold lbind at 1, change. rewrite <- Nm. eexists. eexists. split; [reflexivity|]. split; [reflexivity|].
  destruct St3 as (S1 & S2 & S3). split; [exact S1|]. split; [exact S2|]. intro W'. cbn [l_lists l_ids set_id]. intros id' t'. rewrite find_id_cons.
  destruct (id' =? id) eqn:Ei; [|now apply S3]. apply Z.eqb_eq in Ei. intro Q. injection Q as <-. congruence.
Qed.
Lemma list_members_ok id : 1 <= id < 2 ^ 12 -> exists n, forall fuel, (n <= fuel)%nat -> member_call T (list_members fuel ctl otid) id.
Proof.
  intro R. destruct (T id) as [t|] eqn:E; [now apply (list_members_some t)|]. exists 1%nat. intros. now apply list_members_none.
Qed.
End Templates.

(** ** Pages *)
Lemma wire_cons e page : concat (map wire_entry (e :: page)) <> [].
Proof. cbn [map concat wire_entry le app]. discriminate. Qed.
Lemma page_length page : (length page <= length (concat (map wire_entry page)))%nat.
Proof.
  induction page as [|e page IH]; [apply Nat.le_0_l|]. cbn [map concat length]. rewrite app_length. unfold wire_entry at 1. rewrite app_length, le_length. lia.
Qed.
Lemma all_page_step S sub (members : Z -> LM S template) fb k d start w : d <> [] ->
  all_page sub members fb (Datatypes.S k) d start w =
  lbind (llift (next_tag d)) (fun '(inst, name, info, r) =>
      if negb (is_valid name) then all_page sub members fb k r inst
      else if (8 <? len name) && has_prefix (str "Program:") name && negb fb then all_page sub members fb k r inst
      else
        lbind (if (8 <? len name) && has_prefix (str "Program:") name then
                   let p := {| kp_name := skipn 8 name; kp_id := 0 |} in
                   lbind look (fun l => lbind (change (set_progs (put (lower (kp_name p)) p (l_progs l)))) (fun _ => lbind (sub p) (fun _ => lret tt)))
                 else lret tt) (fun _ =>
        let id := template_id (info_word info) in
        lbind (if id =? 0 then lret None
                   else lbind (attempt (members id)) (fun u =>
                        match u with
                        | Ok t => lbind (change (set_type (let '(Template _ nm _ _ _ _ _) := t in nm) t)) (fun _ => lret (Some t))
                        | _ => lret None
                        end)) (fun udt =>
        lbind (change (set_tag (lower name) (Listed name info inst (array_order info) None udt))) (fun _ =>
        all_page sub members fb k r inst)))) w.
Proof. intro N. destruct d; [congruence|reflexivity]. Qed.
Definition keep (e : entry) : bool := is_valid (e_name e) && negb ((8 <? len (e_name e)) && has_prefix (str "Program:") (e_name e)).
Definition global_puts (T : Z -> option template) (page : list entry) : list (bytes * listed) := map (global_tag T) (filter keep page).
Lemma global_puts_app T a b : global_puts T (a ++ b) = global_puts T a ++ global_puts T b.
Proof. unfold global_puts. now rewrite filter_app, map_app. Qed.
Definition last_inst (page : list entry) (start : Z) : Z := last (map e_inst page) start.
Lemma last_inst_cons e page start : last_inst (e :: page) start = last_inst page (e_inst e).
Proof.
  unfold last_inst. cbn [map]. revert e. induction page as [|e1 page IH]; intro e; [reflexivity|]. cbn [map]. specialize (IH e1).
  change (last (e_inst e :: e_inst e1 :: map e_inst page) start) with (last (e_inst e1 :: map e_inst page) start).
  change (last (e_inst e1 :: map e_inst page) (e_inst e)) with (last (e_inst e1 :: map e_inst page) (e_inst e)).
  destruct page; [reflexivity|]. cbn [map] in *. change (last (e_inst e1 :: e_inst e0 :: map e_inst page) (e_inst e)) with (last (e_inst e0 :: map e_inst page) (e_inst e)).
  rewrite IH. clear. generalize (e_inst e0). induction page as [|a page IH]; intro z; [reflexivity|]. cbn [map]. apply IH.
Qed.
(** Recording one tag: the template, then the map. *)
Lemma record_ok S T (members : Z -> LM S template) e w : entry_ok e -> ids_ok T (l_ids (l_lists w)) ->
  (template_no (e_type e) <> 0 -> member_call T members (template_no (e_type e))) ->
  exists w1 w2, (let id := template_id (info_word (type_of e)) in
     if id =? 0 then lret None
     else lbind (attempt (members id)) (fun u => match u with
                        | Ok t => lbind (change (set_type (let '(Template _ nm _ _ _ _ _) := t in nm) t)) (fun _ => lret (Some t))
                        | _ => lret None end)) w = (Ok (if template_no (e_type e) =? 0 then None else T (template_no (e_type e))), w1) /\
    change (set_tag (lower (e_name e)) (snd (global_tag T e))) w1 = (Ok tt, w2) /\ stepped T [global_tag T e] w w2.
Proof.
  intros O W C. destruct O as (_ & _ & _ & Ut & _). rewrite info_word_type by exact Ut. cbv zeta. rewrite template_id_no by exact Ut.
  destruct (template_no (e_type e) =? 0) eqn:E.
  - exists w. eexists. split; [reflexivity|]. split; [reflexivity|]. split; [reflexivity|]. split; [reflexivity|]. intro; assumption.
  - apply Z.eqb_neq in E. destruct (C E w W) as (r & w1 & Ea & Hr & St). unfold lbind, attempt. rewrite Ea. destruct (T (template_no (e_type e))) as [t|] eqn:Et.
    + subst r. eexists. eexists. split; [reflexivity|]. split; [reflexivity|]. destruct St as (A & B & D). split; [|split; [exact B|exact D]].
      cbn [change fst snd l_lists l_tags set_tag set_type puts fold_left global_tag] in *. rewrite A. reflexivity.
    + destruct Hr as (e1 & ->). eexists. eexists. split; [reflexivity|]. split; [reflexivity|]. destruct St as (A & B & D). split; [|split; [exact B|exact D]].
      cbn [change fst snd l_lists l_tags set_tag set_type puts fold_left global_tag] in *. rewrite A. reflexivity.
Qed.
Lemma all_page_ok S T sub (members : Z -> LM S template) page : Forall entry_ok page ->
  (forall e, In e page -> template_no (e_type e) <> 0 -> member_call T members (template_no (e_type e))) ->
  forall n start w, (length page <= n)%nat -> ids_ok T (l_ids (l_lists w)) ->
  exists w1, all_page sub members false n (concat (map wire_entry page)) start w = (Ok (last_inst page start), w1) /\ stepped T (global_puts T page) w w1.
Proof.
  induction page as [|e page IH]; intros O C n start w L W.
  - exists w. split; [destruct n; reflexivity|apply stepped_refl].
  - inversion_clear O as [|? ? O1 O2]. destruct n as [|n]; [cbn [length] in L; lia|]. cbn [length] in L. rewrite all_page_step by apply wire_cons.
    cbn [map concat]. unfold lbind at 1, llift. rewrite next_tag_wire by exact O1. rewrite last_inst_cons.
    specialize (IH O2 (fun e I => C e (or_intror I)) n (e_inst e)). unfold global_puts. cbn [filter]. unfold keep at 1.
    destruct (is_valid (e_name e)) eqn:V; cbn [negb andb]; [|apply IH; [lia|exact W]].
    destruct ((8 <? len (e_name e)) && has_prefix (str "Program:") (e_name e)) eqn:P; cbn [negb andb]; [apply IH; [lia|exact W]|].
    unfold lbind at 1, lret at 1. destruct (record_ok S T members e w O1 W (C e (or_introl eq_refl))) as (w1 & w2 & E1 & E2 & St).
    cbv zeta in E1 |- *. unfold lbind at 1. rewrite E1. unfold lbind at 1. rewrite array_order_dims. unfold global_tag in E2. cbn [snd] in E2. rewrite E2.
    destruct (IH w2) as (w3 & E3 & St3); [lia|apply St; exact W|]. exists w3. split; [exact E3|].
    apply (stepped_trans _ _ [global_tag T e] (global_puts T page) _ w2); assumption.
Qed.

(** ** Tables *)
Lemma increasing_app a b : increasing (a ++ b) -> increasing a /\ increasing b /\ forall x y, In x a -> In y b -> e_inst x < e_inst y.
Proof.
  induction a as [|e a IH]; intro H; [split; [exact Logic.I|split; [exact H|intros x y []]]|]. destruct H as [H1 H2]. destruct (IH H2) as (A & B & C).
  split; [split; [|exact A]|split; [exact B|]].
  - intros z I. apply H1. apply in_or_app. now left.
  - intros x y [<-|I] J; [|now apply C]. apply H1. apply in_or_app. now right.
Qed.
Lemma increasing_filter f l : increasing l -> increasing (filter f l).
Proof.
  induction l as [|e l IH]; intro H; [exact Logic.I|]. destruct H as [H1 H2]. cbn [filter]. destruct (f e); [|auto]. split; [|auto].
  intros b I. apply filter_In in I as [I _]. auto.
Qed.
Definition after (start : Z) (table : list entry) : nat := length (filter (fun e => start <? e_inst e) table).
Lemma after_less table start x : In x table -> start < e_inst x -> (after (e_inst x) table < after start table)%nat.
Proof.
  unfold after. intros I L.
  assert (M : forall l, (length (filter (fun e => e_inst x <? e_inst e)%Z l) <= length (filter (fun e => start <? e_inst e)%Z l))%nat).
  { induction l as [|e l IH]; [apply Nat.le_refl|]. cbn [filter]. destruct (e_inst x <? e_inst e) eqn:E1, (start <? e_inst e) eqn:E2; cbn [length]; lia. }
  induction table as [|e l IH]; [destruct I|]. cbn [filter]. destruct I as [->|I].
  - assert (E1 : e_inst x <? e_inst x = false) by (apply Z.ltb_irrefl). assert (E2 : start <? e_inst x = true) by now apply Z.ltb_lt. rewrite E1, E2. cbn [length]. specialize (M l). lia.
  - specialize (IH I). destruct (e_inst x <? e_inst e) eqn:E1, (start <? e_inst e) eqn:E2; cbn [length]; lia.
Qed.
Lemma page_facts table start page more : increasing table -> page_of table start page more ->
  (forall e, In e page -> In e table /\ start <= e_inst e) /\ increasing page /\
  (forall e, In e table -> start <= e_inst e -> In e page \/ In e more) /\ (forall x y, In x page -> In y more -> e_inst x < e_inst y).
Proof.
  intros H P. unfold page_of in P. pose proof (increasing_filter (fun e => start <=? e_inst e) _ H) as Hf. rewrite P in Hf. destruct (increasing_app _ _ Hf) as (A & B & C).
  split; [|split; [exact A|split; [|exact C]]].
  - intros e I. assert (J : In e (page ++ more)) by (apply in_or_app; now left). rewrite <- P in J. apply filter_In in J as [J K]. apply Z.leb_le in K. now split.
  - intros e I L. apply in_app_or. rewrite <- P. apply filter_In. split; [exact I|now apply Z.leb_le].
Qed.
Lemma page_reply_ok (table : list entry) start page more : Forall entry_ok table -> increasing table -> page_of table start page more -> Forall entry_ok page.
Proof. intros O I P. destruct (page_facts _ _ _ _ I P) as (A & _). rewrite Forall_forall in *. intros e J. apply O, A, J. Qed.

(** ** Programs' tags *)
Definition sub_puts (p : known_program) (page : list entry) : list (bytes * listed) := map (program_tag p) (filter (fun e => is_valid (e_name e)) page).
Definition last_valid (page : list entry) (start : Z) : Z := last_inst (filter (fun e => is_valid (e_name e)) page) start.
Lemma sub_page_step S p k d acc start (w : lstate S) : d <> [] -> sub_page (Datatypes.S k) p d acc start w =
  lbind (llift (next_tag d)) (fun '(inst, name, info, r) =>
      let full := str "program:" ++ kp_name p ++ [c_dot] ++ name in
      let t := Listed full info inst (array_order info) (Some p) None in
      if negb (is_valid name) then sub_page k p r acc start
      else lbind (change (set_tag (lower full) t)) (fun _ => sub_page k p r (acc ++ [t]) inst)) w.
Proof. intro N. destruct d; [congruence|reflexivity]. Qed.
Lemma sub_page_ok S T p page : Forall entry_ok page -> forall n acc start (w : lstate S), (length page <= n)%nat ->
  exists w1, sub_page n p (concat (map wire_entry page)) acc start w = (Ok (acc ++ map snd (sub_puts p page), last_valid page start), w1) /\ stepped T (sub_puts p page) w w1.
Proof.
  induction page as [|e page IH]; intros O n acc start w L.
  - exists w. split; [destruct n; cbn; now rewrite app_nil_r|apply stepped_refl].
  - inversion_clear O as [|? ? O1 O2]. destruct n as [|n]; [cbn [length] in L; lia|]. cbn [length] in L. rewrite sub_page_step by apply wire_cons.
    cbn [map concat]. unfold lbind at 1, llift. rewrite next_tag_wire by exact O1. cbv zeta. unfold sub_puts, last_valid. cbn [filter].
    destruct (is_valid (e_name e)) eqn:V; cbn [negb].
    + unfold lbind, change. rewrite array_order_dims. change c_dot with 46.
      destruct (IH O2 n (acc ++ [snd (program_tag p e)]) (e_inst e) (LState (l_ctl w) (l_seq w) (set_tag (fst (program_tag p e)) (snd (program_tag p e)) (l_lists w)))) as (w1 & E1 & St); [lia|].
      exists w1. split.
      * rewrite last_inst_cons. cbn [map snd]. rewrite <- app_assoc in E1. exact E1.
      * cbn [map]. change (program_tag p e :: map (program_tag p) (filter (fun e0 => is_valid (e_name e0)) page)) with ([program_tag p e] ++ sub_puts p page).
        eapply stepped_trans; [|exact St]. split; [reflexivity|]. split; [reflexivity|]. intro; assumption.
    + apply IH; [exact O2|lia].
Qed.
Lemma last_in page start : page <> [] -> exists e, In e page /\ last_inst page start = e_inst e /\ (increasing page -> forall x, In x page -> e_inst x <= e_inst e).
Proof.
  revert start. induction page as [|e page IH]; intros start N; [congruence|]. rewrite last_inst_cons. destruct page as [|e1 page].
  - exists e. split; [now left|]. split; [reflexivity|]. intros _ x [<-|[]]. lia.
  - destruct (IH (e_inst e)) as (z & I & E & M); [congruence|]. exists z. split; [now right|]. split; [exact E|]. intros [H1 H2] x [<-|J]; [|now apply M].
    specialize (H1 z I). lia.
Qed.
Lemma symbols_path_len prefix start : 0 <= start -> len prefix < 480 -> len (prefix ++ class_bytes obj_symbol ++ instance_bytes start) < 512.
Proof. intros H L. rewrite len_app. pose proof (attr_path_len obj_symbol start ltac:(vm_compute; discriminate) H). lia. Qed.
Lemma symbols_path_spec prefix start : 0 <= start < 2 ^ 32 -> prefix ++ class_bytes obj_symbol ++ instance_bytes start = prefix ++ class_segment 0x6B ++ instance_segment start.
Proof. intro H. rewrite class_bytes_spec by (unfold obj_symbol; lia). now rewrite instance_bytes_spec by exact H. Qed.
Lemma in_sub_puts p page e : In e page -> user_tag (e_name e) -> In (program_tag p e) (sub_puts p page).
Proof. intros I U. unfold sub_puts. apply in_map. apply filter_In. split; [exact I|now apply is_valid_spec]. Qed.

Lemma list_sub_tags_ok S T (ctl : controller S) otid p table : len (program_bytes p) < 480 -> Forall entry_ok table -> increasing table ->
  forall good : Z -> list entry -> Prop, (forall start page, good start page -> moves start page) -> serves_symbols ctl otid (program_bytes p) table good ->
  forall m fuel start w, (after start table <= m)%nat -> (Datatypes.S m <= fuel)%nat -> 1 <= start < 2 ^ 32 ->
  exists res w1 ts, list_sub_tags fuel ctl otid p start w = (Ok res, w1) /\ stepped T ts w w1 /\
    (forall x, In x ts -> In x (sub_puts p table)) /\
    (forall e, In e table -> start <= e_inst e -> user_tag (e_name e) -> In (program_tag p e) ts) /\
    exists page more, page_of table start page more /\ res = map snd (sub_puts p page) /\ (more = [] \/ good start page).
Proof.
  intros Lp O Inc good Gm Sv. induction m as [m IHm] using lt_wf_ind. intros fuel start w Af Fu R. destruct fuel as [|k]; [lia|]. cbn [list_sub_tags].
  assert (Ez : start =? 0 = false) by (apply Z.eqb_neq; lia). rewrite Ez.
  destruct (Sv (l_ctl w) (l_seq w) start R) as (eip & payload & s1 & page & more & st & Ec & Pg & Rp & Hst).
  unfold symbols_request in Ec. rewrite <- symbols_path_spec in Ec by lia.
  destruct (send_ok S ctl otid svc_instances (program_bytes p ++ class_bytes obj_symbol ++ instance_bytes start) [3; 0; 1; 0; 2; 0; 8; 0] w eip payload s1 _ _ _ _
    (symbols_path_len _ start ltac:(lia) Lp) ltac:(vm_compute; reflexivity) Ec Rp) as (a & b & resv & Es).
  unfold lbind at 1. change tag_attrs with [3; 0; 1; 0; 2; 0; 8; 0]. rewrite Es. unfold lbind at 1, llift.
  rewrite page_header_ok by (reflexivity || destruct Hst as [(-> & _)|(-> & _)]; lia).
  set (w1 := LState s1 (l_seq w + 1) (l_lists w)). destruct (page_facts _ _ _ _ Inc Pg) as (P1 & P2 & P3 & P4).
  assert (Op : Forall entry_ok page) by (eapply page_reply_ok; eassumption).
  destruct (sub_page_ok S T p page Op (length (concat (map wire_entry page))) [] start w1 (page_length page)) as (w2 & E2 & St2).
  unfold lbind at 1. rewrite E2. cbn [app].
  assert (Sub1 : forall x, In x (sub_puts p page) -> In x (sub_puts p table)).
  { intros x I. unfold sub_puts in *. apply in_map_iff in I as (e & <- & I). apply in_map. apply filter_In in I as [I V]. apply filter_In. split; [apply P1, I|exact V]. }
  destruct Hst as [(-> & ->)|(-> & Nm & Mv)].
  - change (0 =? st_partial) with false. cbv iota. exists (map snd (sub_puts p page)), w2, (sub_puts p page). split; [reflexivity|]. split; [exact St2|]. split; [exact Sub1|]. split.
    + intros e I L U. destruct (P3 e I L) as [J|[]]. now apply in_sub_puts.
    + exists page, []. split; [exact Pg|]. split; [reflexivity|now left].
  - change (6 =? st_partial) with true. cbv iota.
    destruct (Gm _ _ Mv) as (e0 & I0 & U0 & G0). set (vp := filter (fun e => is_valid (e_name e)) page).
    assert (I0v : In e0 vp) by (apply filter_In; split; [exact I0|now apply is_valid_spec]).
    destruct (last_in vp start) as (z & Iz & Ez' & Mz); [intros E; rewrite E in I0v; destruct I0v|].
    specialize (Mz (increasing_filter _ _ P2)). assert (Gz : start < e_inst z) by (specialize (Mz e0 I0v); lia).
    apply filter_In in Iz as [Iz _]. destruct (P1 z Iz) as [Izt _].
    assert (Ev : last_valid page start = e_inst z) by exact Ez'. rewrite Ev.
    pose proof (after_less table start z Izt Gz) as Less. assert (Rz : 1 <= e_inst z < 2 ^ 32) by (rewrite Forall_forall in O; destruct (O z Izt) as (? & [? ?] & _); lia).
    destruct (IHm (after (e_inst z) table) ltac:(lia) k (e_inst z) w2 ltac:(lia) ltac:(lia) Rz) as (res & w3 & ts & E3 & St3 & S3 & C3 & _).
    unfold lbind at 1. rewrite E3. exists (map snd (sub_puts p page)), w3, (sub_puts p page ++ ts). split; [reflexivity|]. split; [apply (stepped_trans _ _ _ _ _ w2); assumption|]. split; [|split].
    + intros x I. apply in_app_or in I as [I|I]; auto.
    + intros e I L U. apply in_or_app. destruct (P3 e I L) as [J|J]; [left; now apply in_sub_puts|right]. apply C3; [exact I| |exact U]. specialize (P4 z e Iz J). lia.
    + exists page, more. split; [exact Pg|]. split; [reflexivity|]. now right.
Qed.

(** ** Programs *)
Lemma trim_left_id s : Forall (fun c => 32 < c) s -> trim_left s = s.
Proof. intro H. destruct H as [|c s H _]; [reflexivity|]. cbn [trim_left]. unfold is_space. destruct (c =? 32) eqn:E1; [lia|]. destruct (c <=? 13) eqn:E2; [lia|]. now rewrite andb_false_r. Qed.
Lemma trim_space_id s : Forall (fun c => 32 < c) s -> trim_space s = s.
Proof. intro H. unfold trim_space. rewrite (trim_left_id s H), trim_left_id by now apply Forall_rev. apply rev_involutive. Qed.
Lemma put_new {A} k (v : A) m : ~ In k (map fst m) -> put k v m = (k, v) :: m.
Proof.
  intro H. unfold put. f_equal. induction m as [|[k1 v1] m IH]; [reflexivity|]. cbn [filter fst]. cbn [map fst In] in H.
  destruct (bseq k k1) eqn:E; [apply bseq_spec in E; subst; tauto|]. cbn [negb]. now rewrite IH by tauto.
Qed.
Lemma programs_ok progs : Forall program_ok progs -> forall n acc, (length progs < n)%nat -> NoDup (map kp_name progs) ->
  (forall p, In p progs -> ~ In (kp_name p) (map fst acc)) ->
  programs n (concat (map wire_program progs)) acc = Ok (rev (map (fun p => (kp_name p, p)) progs) ++ acc).
Proof.
  induction progs as [|p progs IH]; intros O n acc L N D; (destruct n as [|n]; [lia|]).
  - reflexivity.
  - inversion_clear O as [|? ? O1 O2]. cbn [map] in N. inversion_clear N as [|? ? N1 N2]. cbn [length] in L. destruct O1 as (Hi & Hl & Hc).
    cbn [programs map concat]. unfold wire_program at 1.
    replace ((le 2 (kp_id p) ++ [0; 0] ++ le 4 (len (kp_name p)) ++ kp_name p) ++ concat (map wire_program progs))
      with ((le 2 (kp_id p) ++ [0; 0] ++ le 4 (len (kp_name p))) ++ kp_name p ++ concat (map wire_program progs)) by now rewrite <- !app_assoc.
    rewrite rd_app by (rewrite !app_length, !le_length; reflexivity).
    change (skipn 4 (le 2 (kp_id p) ++ [0; 0] ++ le 4 (len (kp_name p)))) with (le 4 (len (kp_name p))).
    rewrite (unle_le_small 4) by (change (2 ^ (8 * Z.of_nat 4)) with (2 ^ 32); pose proof (len_nonneg (kp_name p)); lia).
    rewrite rd_app by (unfold len; lia). cbn [bind]. rewrite firstn_app_exact by apply le_length. rewrite (unle_le_small 2) by (change (2 ^ (8 * Z.of_nat 2)) with (2 ^ 16); lia).
    rewrite trim_space_id by exact Hc. rewrite put_new by (apply D; now left).
    assert (Ep : {| kp_name := kp_name p; kp_id := kp_id p |} = p) by now destruct p. rewrite Ep.
    rewrite IH; [|exact O2|lia|exact N2|].
    + cbn [rev]. rewrite <- app_assoc. reflexivity.
    + intros p' I [E|J]; [|exact (D p' (or_intror I) J)]. cbn [fst] in E. apply N1. rewrite E. now apply in_map.
Qed.
Lemma blank_space c : blank c -> is_space c = true.
Proof. unfold blank, is_space. cbn [In]. intro H. repeat (destruct H as [<-|H]; [reflexivity|]). destruct H. Qed.
Lemma trim_left_blank l s : Forall blank l -> trim_left (l ++ s) = trim_left s.
Proof. induction 1 as [|c l H _ IH]; [reflexivity|]. cbn [app trim_left]. now rewrite (blank_space _ H). Qed.
Lemma trim_left_stop s r : Forall (fun c => 32 < c) s -> s <> [] -> trim_left (s ++ r) = s ++ r.
Proof. intros H N. destruct H as [|c s H _]; [now destruct N|]. cbn [app trim_left]. unfold is_space. destruct (c =? 32) eqn:E1; [lia|]. destruct (c <=? 13) eqn:E2; [lia|]. now rewrite andb_false_r. Qed.
Lemma trim_padded raw name : padded raw name -> Forall (fun c => 32 < c) name -> trim_space raw = name.
Proof.
  intros (l & r & -> & Hl & Hr) H. unfold trim_space. rewrite trim_left_blank by exact Hl.
  destruct (list_eq_dec Z.eq_dec name []) as [->|N].
  - cbn [app]. rewrite <- (app_nil_r r), trim_left_blank by exact Hr. reflexivity.
  - rewrite trim_left_stop by assumption. rewrite rev_app_distr, trim_left_blank by now apply Forall_rev. rewrite trim_left_id by now apply Forall_rev. apply rev_involutive.
Qed.
Definition wire_row (x : bytes * known_program) : bytes := let '(raw, p) := x in wire_program {| kp_name := raw; kp_id := kp_id p |}.
Lemma programs_padded rows : Forall (fun '(raw, p) => program_ok p /\ padded raw (kp_name p) /\ len raw < 2 ^ 16) rows ->
  forall n acc, (length rows < n)%nat -> NoDup (map (fun x => kp_name (snd x)) rows) ->
  (forall x, In x rows -> ~ In (kp_name (snd x)) (map fst acc)) ->
  programs n (concat (map wire_row rows)) acc = Ok (rev (map (fun x => (kp_name (snd x), snd x)) rows) ++ acc).
Proof.
  induction rows as [|[raw p] progs IH]; intros O n acc L N D; (destruct n as [|n]; [lia|]).
  - reflexivity.
  - inversion_clear O as [|? ? O1 O2]. cbn [map] in N. inversion_clear N as [|? ? N1 N2]. cbn [length] in L. destruct O1 as ((Hi & Hl & Hc) & Hp & Hr). cbn [snd] in N1.
    cbn [programs map concat]. unfold wire_row at 1. unfold wire_program at 1. cbn [kp_name kp_id].
    replace ((le 2 (kp_id p) ++ [0; 0] ++ le 4 (len raw) ++ raw) ++ concat (map wire_row progs))
      with ((le 2 (kp_id p) ++ [0; 0] ++ le 4 (len raw)) ++ raw ++ concat (map wire_row progs)) by now rewrite <- !app_assoc.
    rewrite rd_app by (rewrite !app_length, !le_length; reflexivity).
    change (skipn 4 (le 2 (kp_id p) ++ [0; 0] ++ le 4 (len raw))) with (le 4 (len raw)).
    rewrite (unle_le_small 4) by (change (2 ^ (8 * Z.of_nat 4)) with (2 ^ 32); pose proof (len_nonneg raw); lia).
    rewrite rd_app by (unfold len; lia). cbn [bind]. rewrite firstn_app_exact by apply le_length. rewrite (unle_le_small 2) by (change (2 ^ (8 * Z.of_nat 2)) with (2 ^ 16); lia).
    rewrite (trim_padded raw (kp_name p)) by assumption. rewrite put_new by (apply (D (raw, p)); now left).
    assert (Ep : {| kp_name := kp_name p; kp_id := kp_id p |} = p) by now destruct p. rewrite Ep.
    rewrite IH; [|exact O2|lia|exact N2|].
    + cbn [rev snd]. rewrite <- app_assoc. reflexivity.
    + intros x I [E|J]; [|exact (D x (or_intror I) J)]. cbn [fst] in E. apply N1. rewrite E. now apply (in_map (fun x => kp_name (snd x))).
Qed.
Lemma generic_ok S (ctl : controller S) s s1 otid q service path data p eip svc d :
  ctl s (path_request otid q service path data) = (Ok (eip, p), s1) -> reply p svc 0 0 d -> 0 <= svc < 256 -> svc mod 128 = service ->
  exists it, generic ctl s otid q service path data = (Ok it, s1, q + 1) /\ unread it = d.
Proof.
  intros E R Hs Es. unfold generic, ask. rewrite E.
  destruct (second_item_reply true p svc 0 0 d R) as (it & a & b & resv & -> & C0 & U0). cbn [bind].
  destruct (item_int2 _ _ _ _ C0 U0) as (i1 & -> & C1 & U1). cbn [bind].
  destruct (item_int2 _ _ _ _ C1 U1) as (i2 & -> & C2 & U2). cbn [bind].
  destruct (item_int2 _ _ _ _ C2 U2) as (i3 & E3 & C3 & U3). rewrite E3.
  assert (M' : sgn 16 (unle [svc; resv]) mod 256 = svc).
  { cbn [unle]. unfold sgn. change (2 ^ 16) with 65536. destruct (_ <? _); Z.to_euclidean_division_equations; lia. }
  rewrite M', Es, Z.eqb_refl. cbn [negb bind]. exists i3. split; [reflexivity|exact U3].
Qed.
Lemma wire_programs_length progs : (length progs <= length (concat (map wire_program progs)))%nat.
Proof. induction progs as [|p progs IH]; [apply Nat.le_refl|]. cbn [map concat length]. rewrite app_length. unfold wire_program at 1. rewrite app_length, le_length. lia. Qed.
Lemma list_programs_ok S (ctl : controller S) otid progs w : Forall program_ok progs -> NoDup (map kp_name progs) -> serves_programs ctl otid progs ->
  exists s1, list_programs ctl otid w = (Ok tt, LState s1 (l_seq w + 1) (set_progs (rev (map (fun p => (kp_name p, p)) progs)) (l_lists w))).
Proof.
  intros O N Sv. destruct (Sv (l_ctl w) (l_seq w)) as (eip & payload & s1 & Ec & Rp). exists s1. unfold list_programs.
  rewrite <- object_request_wire in Ec by (vm_compute; reflexivity).
  change (class_bytes 0x68 ++ instance_bytes 0) with (class_segment 0x68 ++ instance_segment 0). change (le 2 1 ++ le 2 28) with [1; 0; 28; 0].
  destruct (generic_ok _ _ _ _ _ _ 0x55 _ _ _ _ _ _ Ec Rp ltac:(lia) ltac:(reflexivity)) as (it & Eg & U). unfold svc_instances. rewrite Eg. cbn [bind].
  change (skipn (Z.to_nat (it_pos it)) (it_data it)) with (unread it). rewrite U. cbv zeta.
  rewrite programs_ok; [|exact O|pose proof (wire_programs_length progs); lia|exact N|intros p _ []]. rewrite app_nil_r. reflexivity.
Qed.

Lemma list_programs_padded S (ctl : controller S) otid rows w :
  Forall (fun '(raw, p) => program_ok p /\ padded raw (kp_name p) /\ len raw < 2 ^ 16) rows -> NoDup (map (fun x => kp_name (snd x)) rows) -> serves_padded ctl otid rows ->
  exists s1, list_programs ctl otid w = (Ok tt, LState s1 (l_seq w + 1) (set_progs (rev (map (fun x => (kp_name (snd x), snd x)) rows)) (l_lists w))).
Proof.
  intros O N Sv. destruct (Sv (l_ctl w) (l_seq w)) as (eip & payload & s1 & Ec & Rp). exists s1. unfold list_programs.
  rewrite <- object_request_wire in Ec by (vm_compute; reflexivity).
  change (class_bytes 0x68 ++ instance_bytes 0) with (class_segment 0x68 ++ instance_segment 0). change (le 2 1 ++ le 2 28) with [1; 0; 28; 0].
  destruct (generic_ok _ _ _ _ _ _ 0x55 _ _ _ _ _ _ Ec Rp ltac:(lia) ltac:(reflexivity)) as (it & Eg & U). unfold svc_instances. rewrite Eg. cbn [bind].
  change (skipn (Z.to_nat (it_pos it)) (it_data it)) with (unread it). rewrite U. cbv zeta.
  change (map (fun '(raw, p) => wire_program {| kp_name := raw; kp_id := kp_id p |}) rows) with (map wire_row rows).
  assert (Le : (length rows <= length (concat (map wire_row rows)))%nat).
  { clear. induction rows as [|[raw p] rows IH]; [apply Nat.le_refl|]. cbn [map concat length]. rewrite app_length. unfold wire_row at 1, wire_program at 1. rewrite app_length, le_length. lia. }
  rewrite programs_padded; [|exact O|lia|exact N|intros p _ []]. rewrite app_nil_r. reflexivity.
Qed.

(** ** All tags *)
Definition pages {S} (k : nat) (order : list known_program -> list known_program) (ctl : controller S) (otid : Z) (fallback : bool) (start : Z) : LM S unit :=
  lbind (send ctl otid svc_instances (class_bytes obj_symbol ++ instance_bytes start) tag_attrs) (fun d =>
  lbind (llift (page_header d)) (fun '(status, d) =>
  lbind (all_page (fun p => list_sub_tags k ctl otid p 1) (list_members k ctl otid) fallback (length d) d start) (fun last =>
  if status =? st_partial then list_all_tags k order ctl otid last else lret tt))).
Lemma list_all_tags_later S k order (ctl : controller S) otid start w : 2 <= start ->
  list_all_tags (Datatypes.S k) order ctl otid start w = pages k order ctl otid false start w.
Proof.
  intro H. cbn [list_all_tags]. assert (E1 : start <? 1 = false) by (apply Z.ltb_ge; lia). rewrite E1. assert (E2 : start =? 1 = false) by (apply Z.eqb_neq; lia). rewrite E2. reflexivity.
Qed.
Lemma keep_spec e : keep e = true <-> user_tag (e_name e) /\ ~ program_entry (e_name e).
Proof.
  unfold keep. rewrite andb_true_iff, negb_true_iff, is_valid_spec. rewrite <- program_test.
  destruct ((8 <? len (e_name e)) && has_prefix (str "Program:") (e_name e)); intuition congruence.
Qed.
Lemma in_global_puts T page x : In x (global_puts T page) <-> exists e, In e page /\ keep e = true /\ x = global_tag T e.
Proof.
  unfold global_puts. rewrite in_map_iff. split.
  - intros (e & <- & I). apply filter_In in I as [I K]. now exists e.
  - intros (e & I & K & ->). exists e. split; [reflexivity|]. now apply filter_In.
Qed.

Section Tags.
Context {S : Type} (ctl : controller S) (otid : Z) (T : Z -> option template) (table : list entry) (order : list known_program -> list known_program).
Context (O : Forall entry_ok table) (Inc : increasing table) (good : Z -> list entry -> Prop) (Two : forall start page, good start page -> two start page)
  (Sv : serves_symbols ctl otid [] table good).
Context (N : nat) (HN : forall k, (N <= k)%nat -> forall e, In e table -> template_no (e_type e) <> 0 -> member_call T (list_members k ctl otid) (template_no (e_type e))).

Lemma first_page k fb start w : 1 <= start < 2 ^ 32 -> exists w1 page more,
  page_of table start page more /\ Forall entry_ok page /\ l_lists w1 = l_lists w /\
  (more = [] /\ pages k order ctl otid fb start w =
     lbind (all_page (fun p => list_sub_tags k ctl otid p 1) (list_members k ctl otid) fb (length (concat (map wire_entry page))) (concat (map wire_entry page)) start) (fun _ => lret tt) w1 \/
   more <> [] /\ good start page /\ pages k order ctl otid fb start w =
     lbind (all_page (fun p => list_sub_tags k ctl otid p 1) (list_members k ctl otid) fb (length (concat (map wire_entry page))) (concat (map wire_entry page)) start) (list_all_tags k order ctl otid) w1).
Proof.
  intro R. destruct (Sv (l_ctl w) (l_seq w) start R) as (eip & payload & s1 & page & more & st & Ec & Pg & Rp & Hst).
  unfold symbols_request in Ec. rewrite <- symbols_path_spec in Ec by lia. cbn [app] in Ec.
  destruct (send_ok S ctl otid svc_instances (class_bytes obj_symbol ++ instance_bytes start) [3; 0; 1; 0; 2; 0; 8; 0] w eip payload s1 _ _ _ _
    (symbols_path_len [] start ltac:(lia) ltac:(reflexivity)) ltac:(vm_compute; reflexivity) Ec Rp) as (a & b & resv & Es).
  exists (LState s1 (l_seq w + 1) (l_lists w)), page, more. split; [exact Pg|]. split; [eapply page_reply_ok; eassumption|]. split; [reflexivity|].
  unfold pages. unfold lbind at 1. change tag_attrs with [3; 0; 1; 0; 2; 0; 8; 0]. rewrite Es. unfold lbind at 1, llift.
  destruct Hst as [(-> & ->)|(-> & Nm & G)]; rewrite page_header_ok by (reflexivity || lia).
  - left. split; [reflexivity|]. reflexivity.
  - right. split; [exact Nm|]. split; [exact G|]. unfold lbind at 1. unfold lbind. rewrite Es. rewrite page_header_ok by (reflexivity || lia). reflexivity.
Qed.
Lemma last_next start page more : page_of table start page more -> two start page -> exists z, In z page /\ last_inst page start = e_inst z /\ start < e_inst z /\
  forall e, In e table -> start <= e_inst e -> In e page \/ e_inst z <= e_inst e.
Proof.
  intros Pg Tw. destruct (page_facts _ _ _ _ Inc Pg) as (P1 & P2 & P3 & P4).
  destruct (last_in page start) as (z & Iz & Ez & Mz); [intros ->; unfold two in Tw; cbn in Tw; lia|]. specialize (Mz P2).
  exists z. split; [exact Iz|]. split; [exact Ez|]. split.
  - unfold two in Tw. destruct page as [|e1 [|e2 page]]; [cbn in Tw; lia|cbn in Tw; lia|]. destruct P2 as [P2 _]. specialize (P2 e2 (or_introl eq_refl)).
    specialize (Mz e2 (or_intror (or_introl eq_refl))). destruct (P1 e1 (or_introl eq_refl)) as [_ ?]. lia.
  - intros e I L. destruct (P3 e I L) as [J|J]; [now left|right]. specialize (P4 z e Iz J). lia.
Qed.
Lemma entry_range z : In z table -> 1 <= e_inst z < 2 ^ 32.
Proof. intro I. rewrite Forall_forall in O. destruct (O z I) as (? & [? ?] & _). lia. Qed.
Lemma pages_ok : forall m k start w, (after start table <= m)%nat -> (N + m <= k)%nat -> 1 <= start < 2 ^ 32 -> ids_ok T (l_ids (l_lists w)) ->
  exists w1 ts, pages k order ctl otid false start w = (Ok tt, w1) /\ stepped T ts w w1 /\
    (forall x, In x ts -> In x (global_puts T table)) /\
    (forall e, In e table -> start <= e_inst e -> keep e = true -> In (global_tag T e) ts).
Proof.
  induction m as [m IH] using lt_wf_ind. intros k start w Af Fu R W.
  destruct (first_page k false start w R) as (w1 & page & more & Pg & Op & Ew & Hp). destruct (page_facts _ _ _ _ Inc Pg) as (P1 & P2 & P3 & P4).
  destruct (all_page_ok S T (fun p => list_sub_tags k ctl otid p 1) (list_members k ctl otid) page Op
    (fun e I => HN k ltac:(lia) e (proj1 (P1 e I))) (length (concat (map wire_entry page))) start w1 (page_length page)) as (w2 & E2 & St2); [now rewrite Ew|].
  assert (St2' : stepped T (global_puts T page) w w2) by (destruct St2 as (A & B & C); rewrite Ew in A, B, C; split; [exact A|split; assumption]).
  assert (Sub1 : forall x, In x (global_puts T page) -> In x (global_puts T table)).
  { intros x I. apply in_global_puts in I as (e & I & K & ->). apply in_global_puts. exists e. split; [apply P1, I|now split]. }
  destruct Hp as [(-> & ->)|(Nm & G & ->)]; unfold lbind; rewrite E2.
  - exists w2, (global_puts T page). split; [reflexivity|]. split; [exact St2'|]. split; [exact Sub1|].
    intros e I L K. destruct (P3 e I L) as [J|[]]. apply in_global_puts. now exists e.
  - destruct (last_next start page more Pg (Two _ _ G)) as (z & Iz & Ez & Gz & Cz). rewrite Ez. destruct (P1 z Iz) as [Izt _].
    pose proof (after_less table start z Izt Gz) as Less. pose proof (entry_range z Izt) as Rz.
    destruct k as [|k]; [lia|]. rewrite list_all_tags_later by lia.
    destruct (IH (after (e_inst z) table) ltac:(lia) k (e_inst z) w2 ltac:(lia) ltac:(lia) Rz (proj2 (proj2 St2') W)) as (w3 & ts & E3 & St3 & S3 & C3).
    exists w3, (global_puts T page ++ ts). split; [exact E3|]. split; [apply (stepped_trans _ _ _ _ _ w2); assumption|]. split.
    + intros x I. apply in_app_or in I as [I|I]; auto.
    + intros e I L K. apply in_or_app. destruct (Cz e I L) as [J|J]; [left; apply in_global_puts; now exists e|right]. now apply C3.
Qed.
End Tags.

Lemma program_bytes_path p : program_ok p -> program_bytes p = program_path p.
Proof.
  intros (H & _). unfold program_bytes, program_path. assert (E : kp_id p =? 0 = false) by (apply Z.eqb_neq; lia). rewrite E.
  rewrite class_bytes_spec by lia. now rewrite instance_bytes_spec by lia.
Qed.
Lemma program_path_len p : program_ok p -> len (program_bytes p) < 480.
Proof. intros H. pose proof H as (Hi & _). unfold program_bytes. assert (E : kp_id p =? 0 = false) by (apply Z.eqb_neq; lia). rewrite E. pose proof (attr_path_len 0x68 (kp_id p)). lia. Qed.
Lemma each_program_ok S T (ctl : controller S) otid (tables : known_program -> list entry) k ps :
  (forall p, In p ps -> len (program_bytes p) < 480 /\ Forall entry_ok (tables p) /\ increasing (tables p) /\ serves_symbols ctl otid (program_bytes p) (tables p) moves) ->
  (forall p, In p ps -> (Datatypes.S (after 1 (tables p)) <= k)%nat) ->
  forall w, exists w1 ts, each_program (fun p => list_sub_tags k ctl otid p 1) ps w = (Ok tt, w1) /\ stepped T ts w w1 /\
    (forall x, In x ts -> exists p, In p ps /\ In x (sub_puts p (tables p))) /\
    (forall p e, In p ps -> In e (tables p) -> user_tag (e_name e) -> In (program_tag p e) ts).
Proof.
  induction ps as [|p ps IH]; intros H K w.
  - exists w, []. split; [reflexivity|]. split; [apply stepped_refl|]. split; [intros x []|intros p e []].
  - destruct (H p (or_introl eq_refl)) as (H1 & H2 & H3 & H4).
    destruct (list_sub_tags_ok S T ctl otid p (tables p) H1 H2 H3 moves (fun _ _ H => H) H4 (after 1 (tables p)) k 1 w ltac:(lia) (K p (or_introl eq_refl)) ltac:(lia)) as (res & w1 & ts1 & E1 & St1 & S1 & C1 & _).
    destruct (IH (fun p I => H p (or_intror I)) (fun p I => K p (or_intror I)) w1) as (w2 & ts2 & E2 & St2 & S2 & C2).
    exists w2, (ts1 ++ ts2). cbn [each_program]. unfold lbind. rewrite E1. split; [exact E2|]. split; [apply (stepped_trans _ _ _ _ _ w1); assumption|]. split.
    + intros x I. apply in_app_or in I as [I|I]; [exists p; split; [now left|auto]|]. destruct (S2 x I) as (p' & J & ?). exists p'. split; [now right|assumption].
    + intros p' e [<-|I] J U; apply in_or_app; [left|right; now apply C2]. apply C1; [exact J| |exact U]. rewrite Forall_forall in H2. destruct (H2 e J) as (? & _). lia.
Qed.
