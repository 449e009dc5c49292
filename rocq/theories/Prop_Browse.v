(** C52, C71: tags by number on the built-in server. *)
From Verif Require Import GoBase SegModel IoiModel IoiProof ItemsModel TypesModel ItemsSpec ItemsProof ReadModel ReadSpec WriteModel WriteSpec EipModel EipSpec EipProof
  OpenModel TableModel ProvModel ProvSpec ProvProof SrvValModel SrvValSpec SrvValProof SrvModel SrvSpec SrvProof Prop_SrvVal ReqSpec LinkModel ReqProof Prop_Srv Prop_Req
  Prop_List BrowseSpec BrowseProof.

(** The numbers are those of the dictionary, whatever order the map is listed
    in. *)
Theorem C52_numbers : forall s i inst n, 0 <= inst -> resolve s [1; 0] = Ok i -> keys_once (prov_at s i) ->
  symbolic_tag s inst = Some n <-> numbered (tags_of (prov_at s i)) n inst.
Proof. exact symbolic_tag_spec. Qed.
Print Assumptions C52_numbers.
Theorem C52_stable : forall s s' i i' inst, 0 <= inst -> resolve s [1; 0] = Ok i -> resolve s' [1; 0] = Ok i' ->
  keys_once (prov_at s i) -> keys_once (prov_at s' i') ->
  (forall n, tags_of (prov_at s i) n <-> tags_of (prov_at s' i') n) -> symbolic_tag s inst = symbolic_tag s' inst.
Proof.
  assert (K : forall P Q n j, (forall m, P m <-> Q m) -> numbered P n j -> numbered Q n j).
  { intros P Q n j E (H & l & N & I & L). split; [now apply E|]. exists l. split; [exact N|]. split; [|exact L]. intro m. now rewrite I, E. }
  intros s s' i i' inst Hi R R' N N' E.
  destruct (symbolic_tag s inst) as [n|] eqn:S; destruct (symbolic_tag s' inst) as [n'|] eqn:S'; try reflexivity.
  - apply (C52_numbers s i) in S; try assumption. apply (K _ _ _ _ E) in S. apply (C52_numbers s' i') in S; try assumption. congruence.
  - apply (C52_numbers s i) in S; try assumption. apply (K _ _ _ _ E) in S. apply (C52_numbers s' i') in S; try assumption. congruence.
  - apply (C52_numbers s' i') in S'; try assumption.
    apply (K _ (tags_of (prov_at s i))) in S'; [|intro m; symmetry; apply E]. apply (C52_numbers s i) in S'; try assumption. congruence.
Qed.
Print Assumptions C52_stable.
(** They are a bijection between 1..n and the tags. *)
Theorem C52_bijection : forall p, keys_once p -> let N := len (pv_data p) in
  (forall n, tags_of p n -> exists i, 1 <= i <= N /\ numbered (tags_of p) n i) /\
  (forall i, 1 <= i <= N -> exists n, numbered (tags_of p) n i) /\
  (forall n i j, numbered (tags_of p) n i -> numbered (tags_of p) n j -> i = j) /\
  (forall n m i, numbered (tags_of p) n i -> numbered (tags_of p) m i -> n = m).
Proof.
  intros p K N. destruct (sorted_names _ K) as (S & I). set (l := map fst (sort_tags (tag_list p))) in *.
  assert (L : length l = length (pv_data p)).
  { unfold l. rewrite map_length. rewrite (Permutation.Permutation_length (sort_tags_perm (tag_list p))). unfold tag_list. apply map_length. }
  assert (P := sorted_position _ _ S I).
  assert (U : forall n i, numbered (tags_of p) n i -> exists k, i = 1 + Z.of_nat k /\ nth_error l k = Some n).
  { intros n i H. exists (Z.to_nat (i - 1)). assert (0 < i) by (destruct H as (_ & q & _ & _ & ->); unfold len; lia).
    split; [lia|]. apply P. now replace (1 + Z.of_nat (Z.to_nat (i - 1))) with i by lia. }
  split; [|split; [|split]].
  - intros n H. apply I in H. apply In_nth_error in H as (k & H). exists (1 + Z.of_nat k). split; [|now apply P].
    assert ((k < length l)%nat) by (apply nth_error_Some; congruence). unfold N, len. lia.
  - intros i H. destruct (nth_error l (Z.to_nat (i - 1))) as [n|] eqn:E.
    + exists n. apply P in E. now replace (1 + Z.of_nat (Z.to_nat (i - 1))) with i in E by lia.
    + apply nth_error_None in E. unfold N, len in H. lia.
  - intros n i j Hi Hj. destruct Hi as (_ & a & Na & Ia & ->). destruct Hj as (_ & b & Nb & Ib & ->).
    assert (length a = length b); [|unfold len; lia].
    apply Nat.le_antisymm; apply NoDup_incl_length; try assumption; intros m H; [apply Ib, Ia|apply Ia, Ib]; exact H.
  - intros n m i Hn Hm. apply U in Hn as (k & -> & En). apply U in Hm as (k' & Ek & Em). assert (k' = k) by lia. congruence.
Qed.
Print Assumptions C52_bijection.
(** Every provider built by writes has each name once. *)
Theorem C52_keys : forall c ws, keys_once (fst (run_writes c prov_empty ws)).
Proof. intros c ws. apply run_writes_keys. constructor. Qed.
Print Assumptions C52_keys.

(** A server whose provider at 1, 0 is number i. *)
Definition at_home (s : server) (i : nat) : Prop :=
  resolve s [1; 0] = Ok i /\ (i < length (sv_provs s))%nat /\ keys_once (prov_at s i) /\ separate (prov_at s i).

(** Full statement: a read of the instance that is a tag's number returns the
    tag's value.  Missing: numbers above 255 and names not in lower case or with a
    bracket, for which it is false (C52_many_refuted, C52_case_refuted); of an array
    only the first element is returned (C52_array_refuted). *)
Theorem C52_read_partial : forall session context sh i n inst v d m,
  0 <= session < 2 ^ 32 -> 0 <= context < 2 ^ 64 -> handler_ok (snd sh) -> at_home (fst sh) i ->
  numbered (tags_of (prov_at (fst sh) i)) n inst -> inst < 256 ->
  lower n = n -> plain_name n -> shows (prov_at (fst sh) i) n = Some (VOne v) -> wire_view (VOne v) d -> len d < 60000 ->
  sent_as (get_by_number inst) m -> len m < 60000 ->
  exists h1, call session context 0x6F [zeros 6 ++ wire_list [(0, []); (0xB2, m)]] sh =
    (Ok (0, zeros 6 ++ wire_list [(0, []); (0xB2, [0x8E; 0; 0; 0] ++ d)]), (fst sh, h1)).
Proof.
  intros session context sh i n inst v d m Hs Hc Hh (R & Li & K & Sp) Nu Hi Lo Pl Sh Wv Ld Sa Lm.
  assert (P : 0 <= inst) by (destruct Nu as (_ & q & _ & _ & ->); unfold len; lia).
  rewrite rr_run; [|exact Hs|exact Hc|apply fits_rr; lia|rewrite wire_rr_len; lia].
  rewrite rr_unconnected. destruct (sent_as_run _ _ Sa 0x0E _ unconnected_get_attr eq_refl ltac:(now left)) as (more & ->).
  rewrite (get_attr_by_number inst more (fst sh) i n (VOne v) d) by
    (assumption || lia || reflexivity || (apply r_one; [now rewrite Lo|now rewrite Lo])).
  assert (L4 : len ([0x8E; 0; 0; 0] ++ d) = 4 + len d) by (rewrite len_app; reflexivity).
  unfold receiving. rewrite recv_one; [eexists; reflexivity|exact Hh|exact Hc|lia|apply fits_rr; lia|rewrite wire_rr_len; lia].
Qed.
Print Assumptions C52_read_partial.

(** Writes by number (C71).  Full statement: what is written to the instance that
    is a tag's number is what the tag then holds.  Missing: as for reads, and more
    than one value, for which it is false (C71_array_refuted). *)
Theorem C71_write_partial : forall session context sh i n inst k v ty e d m,
  0 <= session < 2 ^ 32 -> 0 <= context < 2 ^ 64 -> handler_ok (snd sh) -> at_home (fst sh) i ->
  numbered (tags_of (prov_at (fst sh) i)) n inst -> inst < 256 ->
  lower n = n -> plain_name n -> scalar k v -> carries (WOne v) ty e d ->
  sent_as (set_by_number inst ty e d) m -> len m < 60000 ->
  exists s1 h1, call session context 0x6F [zeros 6 ++ wire_list [(0, []); (0xB2, m)]] sh =
    (Ok (0, zeros 6 ++ wire_list [(0, []); (0xB2, [0x90; 0; 0; 0])]), (s1, h1)) /\
    at_home s1 i /\ updated (shows (prov_at (fst sh) i)) n (VOne v) (shows (prov_at s1 i)) /\
    forall j, j <> i -> prov_at s1 j = prov_at (fst sh) j.
Proof.
  intros session context sh i n inst k v ty e d m Hs Hc Hh (R & Li & K & Sp) Nu Hi Lo Pl Sc C Sa Lm.
  assert (P : 0 <= inst) by (destruct Nu as (_ & q & _ & _ & ->); unfold len; lia).
  assert (Rv : representable v) by (destruct Sc as [(code & _ & _ & H)|(x & -> & _)]; [exact H|exact Logic.I]).
  rewrite rr_run; [|exact Hs|exact Hc|apply fits_rr; lia|rewrite wire_rr_len; lia].
  rewrite rr_unconnected. destruct (sent_as_run _ _ Sa 0x10 _ unconnected_set_attr eq_refl ltac:(now right)) as (more & ->).
  destruct (set_attr_by_number inst more (fst sh) i n v ty e d (receiving (fst sh) (snd sh) context)) as (w1 & st & O & S1 & K1 & E & W);
    try assumption; [lia|reflexivity|].
  unfold set_by_number. cbn [app]. rewrite <- !app_assoc. cbn [app] in E. rewrite E. clear E.
  assert (Z0 : st = 0 /\ updated (shows (prov_at (fst sh) i)) n (VOne v) (shows (prov_at (w_srv w1) i))).
  { destruct W as [[-> W]|(-> & W & _)].
    - split; [reflexivity|]. inversion W as [b j e' l x l' m' En|e' l l0 l' m' _ _ Eg|m' _ _ U]; subst.
      + rewrite Lo in En. elim (Pl _ _ En).
      + discriminate.
      + now rewrite Lo in U.
    - exfalso. apply (W (fun q => if bseq q n then Some (VOne v) else shows (prov_at (fst sh) i) q)). apply w_plain; rewrite Lo.
      + exact Pl.
      + intros (? & ? & ? & _ & Eg). discriminate.
      + split; [now rewrite bseq_refl|]. intros q Nq. destruct (bseq q n) eqn:Eb; [apply bseq_spec in Eb; contradiction|reflexivity]. }
  destruct Z0 as [-> U]. destruct O as (O1 & O2 & O3 & O4 & O5 & O6 & O7). destruct w1 as [s1 h1 i1 o1]. cbn [w_srv w_h w_in w_sent receiving] in *. subst h1 i1 o1.
  rewrite recv_one; [|exact Hh|exact Hc|lia|apply fits_rr; reflexivity|rewrite wire_rr_len; reflexivity].
  eexists _, _. split; [reflexivity|]. split; [|split; [exact U|exact O7]].
  split; [unfold resolve; rewrite O5; exact R|]. split; [rewrite O6; exact Li|]. split; [exact K1|exact S1].
Qed.
Print Assumptions C71_write_partial.

(** The server's own listing (service 0x55) gives every tag with its number. *)
Lemma in_positions (l : list bytes) : forall a j n,
  In (j, n) (combine (map (fun k => 1 + Z.of_nat k) (seq a (length l))) l) <-> exists k, j = 1 + Z.of_nat (a + k) /\ nth_error l k = Some n.
Proof.
  induction l as [|x l IH]; intros a j n; cbn [length seq map combine In].
  - split; [contradiction|]. intros (k & _ & E). destruct k; discriminate.
  - rewrite IH. split.
    + intros [E|(k & -> & E)]; [apply pair_equal_spec in E as [<- <-]; exists 0%nat; split; [lia|reflexivity]|]. exists (S k). split; [lia|exact E].
    + intros ([|k] & -> & E); [left; cbn in E; injection E as ->; f_equal; lia|]. right. exists k. split; [lia|exact E].
Qed.
Lemma tag_list_types p : keys_once p -> Forall (fun x => snd x = match mget (pv_data p) (fst x) with Some v => pval_cip v | None => 0 end) (tag_list p).
Proof.
  unfold keys_once, tag_list. intro N. apply Forall_map. apply Forall_forall. intros [k v] H. cbn [fst snd].
  assert (E : mget (pv_data p) k = Some v); [|now rewrite E]. induction (pv_data p) as [|[k' v'] d IH]; [contradiction|].
  cbn [map fst] in N. inversion N; subst. cbn [mget]. destruct H as [E|H]; [injection E as -> ->; now rewrite bseq_refl|].
  destruct (bseq k' k) eqn:E; [|now apply IH]. apply bseq_spec in E. subst. elim H2. apply (in_map fst) in H. exact H.
Qed.
Theorem C52_listing : forall session context otid i sh q x r,
  linked session context otid i sh -> keys_once (prov_at (fst sh) i) ->
  (forall n, tags_of (prov_at (fst sh) i) n -> len n <= 255) -> len r < 60000 ->
  exists l body,
    symbols (fun n => match mget (pv_data (prov_at (fst sh) i)) n with Some v => pval_cip v | None => 0 end) l body /\
    (forall j n, In (j, n) l <-> numbered (tags_of (prov_at (fst sh) i)) n j) /\
    (len body < 60000 -> exists h1,
       link session context sh (zeros 6 ++ wire_list [(0xA1, le 4 otid); (0xB1, le 2 q ++ [0x55; x] ++ r)]) =
       (Ok (0, zeros 6 ++ wire_list [(0xA1, le 4 (h_to (snd sh))); (0xB1, le 2 q ++ [0xD5; 0; 0; 0] ++ body)]), (fst sh, h1))).
Proof.
  intros session context otid i sh q x r (Hs & Hc & Ho & Hh & (to & Li & cn & Ec & <- & Er) & Sp) K L255 Lr.
  destruct (sorted_names _ K) as (S & I). set (p := prov_at (fst sh) i) in *.
  set (l := sort_tags (tag_list p)) in *.
  assert (F : Forall (fun x => len (fst x) <= 255 /\ mget (pv_data p) (fst x) <> None /\
    snd x = match mget (pv_data p) (fst x) with Some v => pval_cip v | None => 0 end) l).
  { apply Forall_forall. intros y Hy. assert (T : tags_of p (fst y)) by (apply I, in_map, Hy). split; [now apply L255|]. split; [exact T|].
    pose proof (tag_list_types p K) as Ft. rewrite Forall_forall in Ft. apply Ft. apply (Permutation.Permutation_in _ (sort_tags_perm (tag_list p))). exact Hy. }
  pose proof (symbol_list_spec p K l 0 F) as Sy.
  eexists _, (symbol_list 0 l). split; [exact Sy|]. split.
  - intros j n. rewrite <- (map_length fst l). erewrite map_ext; [rewrite in_positions|intro; cbn; reflexivity].
    split.
    + intros (k & -> & E). cbn [Nat.add]. now apply (sorted_position _ _ S I).
    + intro H. assert (0 < j) by (destruct H as (_ & y & _ & _ & ->); unfold len; lia). exists (Z.to_nat (j - 1)). split; [lia|].
      apply (sorted_position _ _ S I). now replace (1 + Z.of_nat (Z.to_nat (j - 1))) with j by lia.
  - intro Lb. rewrite link_run; [|exact Hs|exact Hc| |].
    + rewrite unit_pair by lia. cbv zeta. change (0x55 =? svc_write) with false. change ((0x55 =? svc_fragread) || (0x55 =? svc_read)) with false.
      change (0x55 =? svc_multi) with false. change (0x55 =? svc_get_single) with false. change (0x55 =? svc_get_all) with false. change (0x55 =? svc_list) with true. cbv iota.
      unfold connected_symbols. erewrite lift_ok by (rewrite <- (app_nil_r (le 4 otid)); apply rd_app; apply le_length). cbv beta iota.
      unfold bindM at 1, ask. cbn [w_srv receiving]. rewrite unle_le_small by (cbn; lia).
      erewrite lift_ok by exact Ec. erewrite lift_ok by exact Er. cbv beta. rewrite unit_reply_run. cbn [w_h h_to h_seq receiving concat]. rewrite app_nil_r.
      fold p. fold l. rewrite <- app_assoc. change (as_response svc_list) with 0xD5. rewrite <- le2_wrap. unfold receiving. cbn [w_h w_in w_sent h_handle h_options h_context h_ot h_to].
      rewrite recv_one; [eexists; reflexivity|exact Hh|exact Hc|lia| |].
      * apply fits_pair; [rewrite le_len; lia|]. rewrite !len_app, le_len. change (len [0xD5; 0; 0; 0]) with 4. lia.
      * rewrite len_app, wire_pair_len, !len_app, !le_len. change (len (zeros 6)) with 6. change (len [0xD5; 0; 0; 0]) with 4. lia.
    + apply fits_pair; [rewrite le_len; lia|]. rewrite !len_app, le_len. change (len [0x55; x]) with 2. lia.
    + rewrite len_app, wire_pair_len, !len_app, !le_len. change (len (zeros 6)) with 6. change (len [0x55; x]) with 2. lia.
Qed.
Print Assumptions C52_listing.

(** ** Where it fails, and examples *)
Definition with_tags (d : list (bytes * pval)) (h : list (list pval)) : server * handler := (set_prov 0 (Prov d h) demo_server, demo_handler).
Lemma mget_member d k v : mget d k = Some v -> In (k, v) d.
Proof.
  induction d as [|[k' v'] d IH]; cbn [mget]; [discriminate|]. destruct (bseq k' k) eqn:E; [|right; auto].
  intro H. injection H as ->. apply bseq_spec in E. subst. now left.
Qed.
Lemma scalars_home d : Forall (fun kv => exists g, snd kv = PV g) d -> NoDup (map fst d) -> at_home (fst (with_tags d [])) 0.
Proof.
  intros F N. assert (K : forall k v, mget d k = Some v -> exists g, v = PV g).
  { intros k v H. apply mget_member in H. rewrite Forall_forall in F. exact (F _ H). }
  split; [reflexivity|]. split; [cbn; lia|]. split; [exact N|]. split; [|split].
  - intros k e a o n H. apply K in H as (g & H). discriminate.
  - intros k1 k2 e1 e2 a o1 o2 n1 n2 H. apply K in H as (g & H). discriminate.
  - intros k e a o n e' a' o' n' H. apply K in H as (g & H). discriminate.
Qed.
(** tag names: t followed by two letters. *)
Definition many (n : nat) : list (bytes * pval) :=
  map (fun k => ([116; 97 + Z.of_nat k / 26; 97 + Z.of_nat k mod 26], PV (GInt true 4 (Z.of_nat k)))) (seq 0 n).
Lemma many_home n : nodupb (map fst (many n)) = true -> at_home (fst (with_tags (many n) [])) 0.
Proof.
  intro H. apply scalars_home; [|now apply nodupb_ok]. unfold many. apply Forall_map, Forall_forall. intros k _. now exists (GInt true 4 (Z.of_nat k)).
Qed.
Definition numbered_by (sh : server * handler) (n : bytes) (inst : Z) : Prop := numbered (tags_of (prov_at (fst sh) 0)) n inst.
Lemma number_home sh n inst : at_home (fst sh) 0 -> 0 <= inst -> symbolic_tag (fst sh) inst = Some n -> numbered_by sh n inst.
Proof. intros (R & _ & K & _) Hi E. now apply (C52_numbers (fst sh) 0 inst n Hi R K). Qed.
Lemma plain_letters n : forallb (fun c => negb (c =? 91)) n = true -> plain_name n.
Proof.
  intros H base i (ds & -> & _). rewrite forallb_forall in H. specialize (H 91). rewrite Z.eqb_refl in H. cbn in H.
  discriminate H. apply in_or_app. right. now left.
Qed.
(** 200 tags; the tag numbered 30 holds 29. *)
Example ex_C52 : exists sh n v d, handler_ok (snd sh) /\ at_home (fst sh) 0 /\ numbered_by sh n 30 /\ lower n = n /\ plain_name n /\
  shows (prov_at (fst sh) 0) n = Some (VOne v) /\ wire_view (VOne v) d /\ d = [0xC4; 0; 29; 0; 0; 0].
Proof.
  exists (with_tags (many 200) []), (str "tbd"), (GInt true 4 29), [0xC4; 0; 29; 0; 0; 0].
  assert (H : at_home (fst (with_tags (many 200) [])) 0) by (apply many_home; vm_compute; reflexivity).
  split; [split; cbn; lia|]. split; [exact H|]. split; [apply number_home; [exact H|lia|vm_compute; reflexivity]|].
  split; [reflexivity|]. split; [apply plain_letters; reflexivity|]. split; [vm_compute; reflexivity|]. split; [|reflexivity].
  apply (wv_number (KInt true 4)); reflexivity.
Qed.

(** Above 255 the instance takes a segment of four bytes, and the server refuses
    the path (status 4), whatever the tag. *)
Definition get_by_wide_number (i : Z) : bytes := [0x0E; 4; 0x20; 0xC8; 0x25; 0] ++ le 2 i ++ [0x30; 1].
Theorem C52_wide_refused : forall session context sh inst, 0 <= session < 2 ^ 32 -> 0 <= context < 2 ^ 64 -> handler_ok (snd sh) ->
  exists h1, call session context 0x6F [zeros 6 ++ wire_list [(0, []); (0xB2, get_by_wide_number inst)]] sh =
    (Ok (0, zeros 6 ++ wire_list [(0, []); (0xB2, [0x8E; 0; 4; 0])]), (fst sh, h1)).
Proof.
  intros session context sh inst Hs Hc Hh.
  assert (L : len (get_by_wide_number inst) = 10) by (unfold get_by_wide_number; rewrite !len_app, le_len; reflexivity).
  rewrite rr_run; [|exact Hs|exact Hc|apply fits_rr; lia|rewrite wire_rr_len; lia]. rewrite rr_unconnected.
  assert (E : forall w, unconnected_data (get_by_wide_number inst) w = unconn_reply svc_get_single st_path_segment [] w) by reflexivity.
  rewrite E. change (unconn_reply svc_get_single st_path_segment []) with (send 0x6F (serialize_items (map mk [(0, []); (0xB2, [0x8E; 0; 4; 0])]))).
  unfold receiving. rewrite recv_one; [eexists; reflexivity|exact Hh|exact Hc|lia|apply fits_rr; reflexivity|rewrite wire_rr_len; reflexivity].
Qed.
Print Assumptions C52_wide_refused.
Theorem C52_many_refuted : exists sh n v d, handler_ok (snd sh) /\ at_home (fst sh) 0 /\ numbered_by sh n 256 /\ lower n = n /\ plain_name n /\
  shows (prov_at (fst sh) 0) n = Some (VOne v) /\ wire_view (VOne v) d /\
  forall session context, 0 <= session < 2 ^ 32 -> 0 <= context < 2 ^ 64 -> exists h1,
    call session context 0x6F [zeros 6 ++ wire_list [(0, []); (0xB2, get_by_wide_number 256)]] sh =
    (Ok (0, zeros 6 ++ wire_list [(0, []); (0xB2, [0x8E; 0; 4; 0])]), (fst sh, h1)).
Proof.
  exists (with_tags (many 256) []), (str "tjv"), (GInt true 4 255), ([0xC4; 0] ++ number_data (GInt true 4 255)).
  assert (H : at_home (fst (with_tags (many 256) [])) 0) by (apply many_home; vm_compute; reflexivity).
  split; [split; cbn; lia|]. split; [exact H|]. split; [apply number_home; [exact H|lia|vm_compute; reflexivity]|].
  split; [reflexivity|]. split; [apply plain_letters; reflexivity|]. split; [vm_compute; reflexivity|]. split; [apply (wv_number (KInt true 4)); reflexivity|].
  intros session context Hs Hc. apply C52_wide_refused; [exact Hs|exact Hc|split; cbn; lia].
Qed.
Print Assumptions C52_many_refuted.

(** Two tags differing in letter case only (put into the map by the program, not
    through a write): the number of one reads the other. *)
Definition two_cases : list (bytes * pval) := [(str "speed", PV (GInt true 4 7)); (str "SPEED", PV (GInt true 4 8))].
Definition reply_to (sh : server * handler) (m : bytes) : res (Z * bytes) := fst (call 77 9 0x6F [zeros 6 ++ wire_list [(0, []); (0xB2, m)]] sh).
Definition rr_reply (d : bytes) : res (Z * bytes) := Ok (0, zeros 6 ++ wire_list [(0, []); (0xB2, d)]).
Theorem C52_case_refuted : exists sh n, at_home (fst sh) 0 /\ numbered_by sh n 1 /\ plain_name n /\
  shows (prov_at (fst sh) 0) n = Some (VOne (GInt true 4 8)) /\
  reply_to sh (get_by_number 1) = rr_reply ([0x8E; 0; 0; 0] ++ [0xC4; 0] ++ le 4 7).
Proof.
  exists (with_tags two_cases []), (str "SPEED").
  assert (H : at_home (fst (with_tags two_cases [])) 0).
  { apply scalars_home; [|apply nodupb_ok; reflexivity]. apply Forall_cons; [now eexists|]. apply Forall_cons; [now eexists|apply Forall_nil]. }
  split; [exact H|]. split; [apply number_home; [exact H|lia|vm_compute; reflexivity]|]. split; [apply plain_letters; reflexivity|].
  split; vm_compute; reflexivity.
Qed.
Print Assumptions C52_case_refuted.

Lemma demo_home : at_home (fst demo) 0.
Proof.
  split; [reflexivity|]. split; [cbn; lia|]. split; [apply nodupb_ok; reflexivity|exact demo_separate].
Qed.
(** An array of three: the reply holds one element. *)
Theorem C52_array_refuted : exists sh n, at_home (fst sh) 0 /\ numbered_by sh n 1 /\ plain_name n /\
  shows (prov_at (fst sh) 0) n = Some (VMany (EK (KInt true 2)) (map VOne [GInt true 2 1; GInt true 2 2; GInt true 2 3])) /\
  reply_to sh (get_by_number 1) = rr_reply ([0x8E; 0; 0; 0] ++ [0xC3; 0] ++ le 2 1).
Proof.
  exists demo, (str "arr"). split; [exact demo_home|].
  split; [apply number_home; [exact demo_home|lia|vm_compute; reflexivity]|]. split; [apply plain_letters; reflexivity|].
  split; vm_compute; reflexivity.
Qed.
Print Assumptions C52_array_refuted.

(** Writing three values to that array: success is reported, and the array is
    gone, the tag now a single number. *)
Theorem C71_array_refuted : exists sh n ty d, at_home (fst sh) 0 /\ numbered_by sh n 1 /\ plain_name n /\
  shows (prov_at (fst sh) 0) n = Some (VMany (EK (KInt true 2)) (map VOne [GInt true 2 1; GInt true 2 2; GInt true 2 3])) /\
  carries (WMany (KInt true 2) [GInt true 2 4; GInt true 2 5; GInt true 2 6]) ty 3 d /\
  reply_to sh (set_by_number 1 ty 3 d) = rr_reply [0x90; 0; 0; 0] /\
  shows (prov_at (fst (snd (call 77 9 0x6F [zeros 6 ++ wire_list [(0, []); (0xB2, set_by_number 1 ty 3 d)]] sh))) 0) n = Some (VOne (GInt true 2 4)).
Proof.
  exists demo, (str "arr"), [0xC3; 0], [4; 0; 5; 0; 6; 0]. split; [exact demo_home|].
  split; [apply number_home; [exact demo_home|lia|vm_compute; reflexivity]|]. split; [apply plain_letters; reflexivity|].
  split; [vm_compute; reflexivity|]. split; [|split; vm_compute; reflexivity].
  apply (c_many (KInt true 2) [GInt true 2 4; GInt true 2 5; GInt true 2 6] 0xC3); [reflexivity|discriminate| |reflexivity].
  repeat (apply Forall_cons; [reflexivity|]). apply Forall_nil.
Qed.
Print Assumptions C71_array_refuted.
(** Speed is number 2; writing 9 to it, wrapped in an unconnected send. *)
Example ex_C71 : exists m, at_home (fst demo) 0 /\ numbered_by demo (str "speed") 2 /\ scalar (KInt true 4) (GInt true 4 9) /\
  carries (WOne (GInt true 4 9)) [0xC4; 0] 1 [9; 0; 0; 0] /\ sent_as (set_by_number 2 [0xC4; 0] 1 [9; 0; 0; 0]) m /\ len m = 26 /\
  reply_to demo m = rr_reply [0x90; 0; 0; 0] /\
  shows (prov_at (fst (snd (call 77 9 0x6F [zeros 6 ++ wire_list [(0, []); (0xB2, m)]] demo))) 0) (str "speed") = Some (VOne (GInt true 4 9)).
Proof.
  eexists. split; [exact demo_home|]. split; [apply number_home; [exact demo_home|lia|vm_compute; reflexivity]|].
  split; [left; exists 0xC4; split; [reflexivity|]; split; [reflexivity|]; cbn; unfold in_range; cbn; lia|].
  split; [apply (c_one (KInt true 4)); reflexivity|].
  split; [apply (sa_wrapped _ [0x20; 6; 0x24; 1] [10; 5] []); reflexivity|]. split; [|split]; vm_compute; reflexivity.
Qed.
(** The listing of the two tags. *)
Example ex_C52_listing : linked 77 9 5 0 demo /\ keys_once (prov_at (fst demo) 0) /\
  fst (link 77 9 demo (zeros 6 ++ wire_list [(0xA1, le 4 5); (0xB1, le 2 3 ++ [0x55; 3; 0x20; 0x6B; 0x25; 0; 0; 0])])) =
  Ok (0, zeros 6 ++ wire_list [(0xA1, le 4 6); (0xB1, le 2 3 ++ [0xD5; 0; 0; 0] ++
    le 4 1 ++ le 2 3 ++ str "arr" ++ le 2 0xC3 ++ le 4 2 ++ le 2 5 ++ str "speed" ++ le 2 0xC4)]).
Proof. split; [exact demo_linked|]. split; [apply demo_home|vm_compute; reflexivity]. Qed.
