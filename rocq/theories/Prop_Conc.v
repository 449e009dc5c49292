(** * C106 and C107: clients served at the same time *)
From Verif Require Import GoBase SegModel IoiModel ItemsModel TypesModel WriteModel ReadModel EipModel OpenModel
  TableModel ProvModel ProvSpec ProvProof Prop_Prov SrvValModel SrvModel Prop_Srv ConcModel ConcSpec ConcProof.

(** The steps of a request, when nobody comes in between, are SrvModel's request. *)
Theorem C106_alone : forall h its, exists h2, forall s inp sent,
  unit_items its (World s h inp sent) =
  (let '(r, s', fs) := alone (p_unit_items h its) s in (r, World s' h2 inp (sent ++ fs))).
Proof. exact unit_alone. Qed.
Print Assumptions C106_alone.

(** ** C106

    Full statement: however requests of several clients overlap, each gives the
    answer and has the effect that it would have in one go at some moment while it
    was being served.

    Proved, for any number of clients and any schedule, of every request over a
    connection but multiple ones, and of unconnected reads and writes; of reads of
    an array, if nobody names an element of it meanwhile, or what is read is a
    single value.  False otherwise: the elements are read one by one after the
    lock is released ([C106_array_refuted]). *)
Theorem C106_moment_partial : forall sched ps s ps' s' j h i0 i1 r fs others,
  play sched ps s = (ps', s') ->
  nth_error ps j = Some (p_unit_items h [i0; i1], []) -> nth_error ps' j = Some (Done r, fs) ->
  (forall i q gs, i <> j -> nth_error ps i = Some (q, gs) -> exists ds, requests q ds /\ incl ds others) ->
  all_separate s -> ~ service_of (it_data i1) 0x0A ->
  (forall tag q, service_of (it_data i1) 0x4C \/ service_of (it_data i1) 0x52 -> read_of (it_data i1) tag q ->
     (forall d w, In d others -> mentions d w -> ~ element_of tag w) \/ single_value (named others) s tag q) ->
  at_one_moment (named others) (unit_items [i0; i1]) h s r s' fs.
Proof.
  intros sched ps s ps' s' j h i0 i1 r fs others P J J' O S0 NM U.
  destruct (side_by_side (named others) sched ps s ps' s' j _ [] r fs P J) as (fs' & E & C); [|exact J'|].
  { intros i q gs N Hi. destruct (O i q gs N Hi) as (ds & R & I'). apply (within_requests _ q ds R).
    intros i' t (d & Hd & M). exists d. auto. }
  cbn [app] in E. subst fs'. destruct (unit_alone h [i0; i1]) as [h2 A].
  refine (moment_of _ _ _ _ h h2 s r s' fs A _ C).
  apply atomic_unit; [exact NM|]. intros tag q SV RO. split; [exact S0|].
  destruct (U tag q SV RO) as [U'|U']; [left|right; exact U'].
  intros _ w (d & Hd & M). exact (U' d w Hd M).
Qed.
Print Assumptions C106_moment_partial.

(** Unconnected writes, and reads with the same condition. *)
Theorem C106_unconnected_partial : forall sched ps s ps' s' j h d r fs others (m : M unit) p,
  play sched ps s = (ps', s') ->
  nth_error ps j = Some (p, []) -> nth_error ps' j = Some (Done r, fs) ->
  (forall i q gs, i <> j -> nth_error ps i = Some (q, gs) -> exists ds, requests q ds /\ incl ds others) ->
  (m = unconnected_write d /\ p = p_unconnected_write h d) \/
  (m = unconnected_read d /\ p = p_unconnected_read h d /\ all_separate s /\
   forall tag q, (exists l r1 x y rest, d = l :: r1 /\ get_tag_from_path r1 = Ok (tag, x :: y :: rest) /\ q = sgn 16 (unle [x; y])) ->
     (forall d w, In d others -> mentions d w -> ~ element_of tag w) \/ single_value (named others) s tag q) ->
  at_one_moment (named others) m h s r s' fs.
Proof.
  intros sched ps s ps' s' j h d r fs others m p P J J' O K.
  destruct (side_by_side (named others) sched ps s ps' s' j _ [] r fs P J) as (fs' & E & C); [|exact J'|].
  { intros i q gs N Hi. destruct (O i q gs N Hi) as (ds & R & I'). apply (within_requests _ q ds R).
    intros i' t (d' & Hd & M). exists d'. auto. }
  cbn [app] in E. subst fs'. destruct K as [[-> ->]|(-> & -> & S0 & U)].
  - refine (moment_of _ _ _ _ h h s r s' fs (aa_unconnected_write h d) _ C). apply atomic_unconnected_write.
  - refine (moment_of _ _ _ _ h h s r s' fs (aa_unconnected_read h d) _ C). apply atomic_unconnected_read.
    intros tag q RO. split; [exact S0|]. destruct (U tag q RO) as [U'|U']; [left|right; exact U'].
    intros _ w (d' & Hd & M). exact (U' d' w Hd M).
Qed.
Print Assumptions C106_unconnected_partial.

(** A server with an array and two numbers, one connection, and requests. *)
Definition shared : server :=
  Server (conn_add cman_init (SConn 1 5 6 10000 [1; 0] true)) [([1; 0], 0%nat)]
    [fst (run_writes cv0 prov_empty [(str "arr", GiveMany (EK (KInt true 4)) [GInt true 4 1; GInt true 4 2; GInt true 4 3]);
                                     (str "x", GiveOne (GInt true 4 0)); (str "y", GiveOne (GInt true 4 0))])]
    [] (fun n => Z.of_nat n) 0 [] cv0 [] 0.
Definition cliA : handler := Handler 77 0 0 5 6 0.
Definition cliB : handler := Handler 78 0 0 5 6 0.
Definition unit_of (d : bytes) : list item := [new_item item_connaddr (le 4 5); new_item item_conndata (le 2 9 ++ d)].
Definition read_arr : bytes := [0x4C; 3] ++ arr_path ++ [3; 0].
Definition put_elem (i v : Z) : bytes := [0x4D; 4] ++ arr_path ++ [0x28; i; 0xC4; 0; 1; 0; v; 0; 0; 0].
Definition values_of (f : bytes) : bytes := skipn 52 f.
Definition torn_pool : pool :=
  [(p_unit_items cliA (unit_of read_arr), []);
   (pbind (p_unit_items cliB (unit_of (put_elem 0 10))) (fun _ => p_unit_items cliB (unit_of (put_elem 2 30))), [])].
(** A looks up connection, endpoint and tag and two elements; B does two writes;
    A finishes. *)
Definition torn_sched : list nat := [0;0;0;0;0; 1;1;1;1; 1;1;1;1; 0;0]%nat.

Lemma shared_separate : all_separate shared.
Proof.
  intros [|i].
  - change (prov_at shared 0) with (fst (run_writes cv0 prov_empty
      [(str "arr", GiveMany (EK (KInt true 4)) [GInt true 4 1; GInt true 4 2; GInt true 4 3]);
       (str "x", GiveOne (GInt true 4 0)); (str "y", GiveOne (GInt true 4 0))])).
    match goal with |- separate (fst ?r) => destruct r as [p os] eqn:E end.
    exact (proj1 (run_history _ _ _ _ _ separate_empty E)).
  - destruct i; exact separate_empty.
Qed.

(** The values sent are 1, 2, 30; the array was never like that. *)
Theorem C106_array_refuted : exists sched ps s ps' s' h its fs,
  all_separate s /\ play sched ps s = (ps', s') /\
  nth_error ps 0 = Some (p_unit_items h its, []) /\ nth_error ps' 0 = Some (Done (Ok tt), fs) /\
  (exists q ds, nth_error ps 1 = Some (q, []) /\ requests q ds) /\ length ps = 2%nat /\
  forall k, w_sent (snd (unit_items its (World (snd (play (firstn k sched) ps s)) h [] []))) <> fs.
Proof.
  exists torn_sched, torn_pool, shared. do 2 eexists. exists cliA, (unit_of read_arr). eexists.
  split; [exact shared_separate|]. split; [vm_compute; reflexivity|]. split; [reflexivity|].
  split; [vm_compute; reflexivity|]. split.
  { eexists _, _. split; [reflexivity|]. refine (rs_more _ _ _ _ _ _); [apply rq_unit|apply rs_one, rq_unit]. }
  split; [reflexivity|]. intros k.
  do 16 (destruct k as [|k]; [vm_compute; discriminate|]). vm_compute. discriminate.
Qed.
Print Assumptions C106_array_refuted.

(** The theorem's case: meanwhile B writes a number and the whole array. *)
Definition x_path : bytes := [0x91; 1; 120; 0].
Definition y_path : bytes := [0x91; 1; 121; 0].
Definition put_whole : bytes := [0x4D; 3] ++ arr_path ++ [0xC4; 0; 2; 0; 7; 0; 0; 0; 8; 0; 0; 0].
Definition put_x (v : Z) : bytes := [0x4D; 2] ++ x_path ++ [0xC4; 0; 1; 0; v; 0; 0; 0].

(** All the names a request can mention, computed. *)
Definition names_in (d : bytes) : list bytes :=
  flat_map (fun k => match get_tag_from_path (skipn k d) with Ok (t, _) => [t] | _ => [] end) (seq 0 (S (length d))).
Lemma mentions_names : forall d w, mentions d w -> In w (names_in d).
Proof.
  intros d w (k & r & H). unfold names_in. apply in_flat_map. exists (Nat.min k (length d)). split; [apply in_seq; lia|].
  destruct (Nat.le_gt_cases k (length d)) as [L|L].
  - rewrite Nat.min_l by exact L. rewrite H. left. reflexivity.
  - rewrite Nat.min_r by lia. rewrite skipn_all2 in H by lia. rewrite skipn_all, H. left. reflexivity.
Qed.
Lemma no_elements : forall ds, forallb (fun d => forallb (fun t => negb (snd (parse_element_tag (lower t)))) (names_in d)) ds = true ->
  forall d w, In d ds -> mentions d w -> forall tag, ~ element_of tag w.
Proof.
  intros ds H d w I M tag (b & i & _ & E). rewrite forallb_forall in H. specialize (H d I). rewrite forallb_forall in H.
  specialize (H w (mentions_names d w M)). rewrite (parse_elem _ _ _ E) in H. discriminate.
Qed.

Lemma some_fst : forall A B (a c : A) (b d : B), Some (a, b) = Some (c, d) -> a = c.
Proof. intros A B a c b d H. congruence. Qed.
Definition calm_pool : pool :=
  [(p_unit_items cliA (unit_of read_arr), []);
   (pbind (p_unit_items cliB (unit_of put_whole)) (fun _ => p_unit_items cliB (unit_of (put_x 5))), [])].
Definition calm_others : list bytes := [le 2 9 ++ put_whole; le 2 9 ++ put_x 5].
Example ex_C106 : exists ps' s' fs,
  play torn_sched calm_pool shared = (ps', s') /\ nth_error ps' 0 = Some (Done (Ok tt), fs) /\
  map values_of fs = [[1; 0; 0; 0; 2; 0; 0; 0; 3; 0; 0; 0]] /\
  all_separate shared /\ ~ service_of (le 2 9 ++ read_arr) 0x0A /\
  (forall i q gs, i <> 0%nat -> nth_error calm_pool i = Some (q, gs) -> exists ds, requests q ds /\ incl ds calm_others) /\
  (forall d w, In d calm_others -> mentions d w -> forall tag, ~ element_of tag w).
Proof.
  do 3 eexists. split; [vm_compute; reflexivity|]. split; [reflexivity|]. split; [vm_compute; reflexivity|].
  split; [exact shared_separate|]. split; [intros (a & b & r & H); vm_compute in H; discriminate|]. split.
  - intros [|[|i]] q gs N H; [contradiction| |destruct i; discriminate].
    assert (pbind (p_unit_items cliB (unit_of put_whole)) (fun _ => p_unit_items cliB (unit_of (put_x 5))) = q) as <-
      by exact (some_fst _ _ _ _ _ _ H).
    exists calm_others. split; [|apply incl_refl]. refine (rs_more _ _ _ _ _ _); [apply rq_unit|apply rs_one, rq_unit].
  - apply no_elements. vm_compute. reflexivity.
Qed.

(** ** C107

    Full statement: a multiple service request is done in one go; no other
    client's request takes place between its parts.

    False: another client reads after the first of two writes and before the
    second ([C107_refuted]).  Proved: its parts are done in their order, each at a
    moment of its own, and the reply is made of their answers; of parts that read
    an array if nobody names an element of it meanwhile. *)
Theorem C107_in_turn_partial : forall sched ps s ps' s' j h d0 d1 fs others,
  play sched ps s = (ps', s') ->
  nth_error ps j = Some (p_connected_multi h d0 d1, []) -> nth_error ps' j = Some (Done (Ok tt), fs) ->
  (forall i q gs, i <> j -> nth_error ps i = Some (q, gs) -> exists ds, requests q ds /\ incl ds others) ->
  all_separate s -> bytes_ok d1 ->
  (forall n offs o tag q d w, multi_of d1 n offs -> In o offs -> sub_read d1 o tag q ->
     In d others -> mentions d w -> ~ element_of tag w) ->
  exists n offs i seq to results s1 s2,
    multi_of d1 n offs /\ meanwhile (named others) s s1 /\ in_turn (named others) h i d1 offs s1 results s2 /\
    meanwhile (named others) s2 s' /\
    (exists c, conn_by_ot s1 (unle (firstn 4 d0)) = Ok c /\ sc_to c = to /\ resolve s1 (sc_path c) = Ok i) /\
    seq = unle (firstn 2 d1) /\
    fs = [server_msg_build (h_handle h) (h_context h) (h_options h) cmd_unitdata
            [serialize_items (conn_reply_items 0x0A seq to 0 0 ([le 2 n; jump_table ((n + 1) * 2) results] ++ results))]].
Proof.
  intros sched ps s ps' s' j h d0 d1 fs others P J J' O S0 B U.
  destruct (side_by_side (named others) sched ps s ps' s' j _ [] (Ok tt) fs P J) as (fs' & E & C); [|exact J'|].
  { intros i q gs N Hi. destruct (O i q gs N Hi) as (ds & R & I'). apply (within_requests _ q ds R).
    intros i' t (d' & Hd & M). exists d'. auto. }
  cbn [app] in E. subst fs'. apply (multi_in_turn (named others) h h d0 d1 s s' fs S0); [|exact B|exact C].
  intros n offs MO o tag q Io SR _ w (d & Hd & M). exact (U n offs o tag q d w MO Io SR Hd M).
Qed.
Print Assumptions C107_in_turn_partial.

(** A writes x and y in one request while B reads x and y in one. *)
Definition two (a b : bytes) : bytes := [0x0A; 2; 0x20; 2; 0x24; 1; 2; 0; 6; 0] ++ le 2 (6 + len a) ++ a ++ b.
Definition put_both : bytes := two (put_x 1) ([0x4D; 2] ++ y_path ++ [0xC4; 0; 1; 0; 1; 0; 0; 0]).
Definition get_both : bytes := two ([0x4C; 2] ++ x_path ++ [1; 0]) ([0x4C; 2] ++ y_path ++ [1; 0]).
Definition both_pool : pool :=
  [(p_unit_items cliA (unit_of put_both), []); (p_unit_items cliB (unit_of get_both), [])].
Theorem C107_refuted : exists sched s hA iA hB iB ps' s' fa fb,
  all_separate s /\ play sched [(p_unit_items hA iA, []); (p_unit_items hB iB, [])] s = (ps', s') /\
  ps' = [(Done (Ok tt), fa); (Done (Ok tt), fb)] /\
  w_sent (snd (unit_items iB (World s hB [] []))) <> fb /\
  w_sent (snd (unit_items iB (World (w_srv (snd (unit_items iA (World s hA [] [])))) hB [] []))) <> fb.
Proof.
  exists [0;0;0;1;1;1;1;1;0;0]%nat, shared, cliA, (unit_of put_both), cliB, (unit_of get_both). do 4 eexists.
  split; [exact shared_separate|]. split; [vm_compute; reflexivity|]. split; [reflexivity|].
  split; vm_compute; discriminate.
Qed.
Print Assumptions C107_refuted.

Definition mixed_pool : pool :=
  [(p_connected_multi cliB (le 4 5) (le 2 9 ++ get_both), []); (p_unit_items cliA (unit_of put_both), [])].
Example ex_C107 : exists ps' s' fs,
  play [1;1;1;0;0;0;0;0;1;1]%nat mixed_pool shared = (ps', s') /\ nth_error ps' 0 = Some (Done (Ok tt), fs) /\
  map values_of fs = [[6; 0; 16; 0; 0xCC; 0; 0; 0; 0xC4; 0; 1; 0; 0; 0; 0xCC; 0; 0; 0; 0xC4; 0; 0; 0; 0; 0]] /\
  (forall i q gs, i <> 0%nat -> nth_error mixed_pool i = Some (q, gs) ->
     exists ds, requests q ds /\ incl ds [le 2 9 ++ put_both]) /\
  (forall d w, In d [le 2 9 ++ put_both] -> mentions d w -> forall tag, ~ element_of tag w).
Proof.
  do 3 eexists. split; [vm_compute; reflexivity|]. split; [reflexivity|]. split; [vm_compute; reflexivity|]. split.
  - intros [|[|i]] q gs N H; [contradiction| |destruct i; discriminate].
    assert (p_unit_items cliA (unit_of put_both) = q) as <- by exact (some_fst _ _ _ _ _ _ H).
    exists [le 2 9 ++ put_both]. split; [apply rs_one, rq_unit|apply incl_refl].
  - apply no_elements. vm_compute. reflexivity.
Qed.
