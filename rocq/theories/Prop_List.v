(** * C50, C51, C70: listing tags, programs and templates *)
From Coq Require Import Permutation.
From Verif Require Import GoBase SegModel SegSpec SegProof IoiModel IoiSpec IoiProof ItemsModel ItemsSpec ItemsProof ReadModel ReadProof AttrModel AttrSpec AttrProof Prop_Attr
  ListModel ListSpec ListProof.

(** ** A controller to try things on

    Pages of [chunk] entries for the controller's table, of [chunkp] for those of
    programs.  Template definitions are given as name, suffix and descriptor. *)
Definition request_tail (req : bytes) : Z * bytes := match skipn 22 req with svc :: _ :: r => (svc, r) | _ => (0, []) end.
Definition page_answer (chunk : nat) (table : list entry) (start : Z) : bytes :=
  let l := filter (fun e => start <=? e_inst e) table in
  plain_reply 0xD5 (match skipn chunk l with [] => 0 | _ => 6 end) 0 (concat (map wire_entry (firstn chunk l))).
Definition device (chunk chunkp : nat) (table : list entry) (progs : option (list known_program)) (by_id : Z -> list entry) (by_name : bytes -> list entry)
    (defs : Z -> option (bytes * bytes * template)) : controller unit := fun _ req =>
  let '(svc, r) := request_tail req in
  let symbols chunk table r :=
    match class_read r with
    | Ok (_, r1) => match instance_read r1 with Ok (start, _) => page_answer chunk table start | _ => [] end
    | _ => []
    end in
  let template f :=
    match class_read r with
    | Ok (_, r1) => match instance_read r1 with
                    | Ok (id, _) => match defs id with Some (n, x, t) => f n x t | None => plain_reply 0x83 5 0 [] end
                    | _ => [] end
    | _ => []
    end in
  let payload :=
    if svc =? 0x55 then
      if nth 0 r 0 =? 0x91 then
        match get_ascii_part (skipn 1 r) with Ok (n, r1) => symbols chunkp (by_name n) r1 | _ => [] end
      else
      match class_read r with
      | Ok (c, r1) =>
          if c =? 0x68 then
            match instance_read r1 with
            | Ok (i, r2) => if i =? 0 then match progs with Some ps => plain_reply 0xD5 0 0 (concat (map wire_program ps)) | None => plain_reply 0xD5 5 0 [] end
                            else symbols chunkp (by_id i) r2
            | _ => []
            end
          else symbols chunk table r
      | _ => []
      end
    else if svc =? 0x03 then template (fun _ _ t => let '(Template _ _ w s c h _) := t in plain_reply 0x83 0 0 (wire_attrs w s c h))
    else template (fun n x t => plain_reply 0xCC 0 0 (wire_definition n x (members_of t))) in
  (Ok (0, payload), tt).

Lemma request_tail_ok otid q svc path data : request_tail (object_request otid q svc path data) = (svc, path ++ data).
Proof. unfold request_tail, object_request, wire_list, wire_item. cbn [map concat fst snd le zeros repeat app]. rewrite app_nil_r. reflexivity. Qed.
Lemma wires_le (f : entry -> bool) l : len (concat (map wire_entry (filter f l))) <= len (concat (map wire_entry l)).
Proof.
  induction l as [|e l IH]; [apply Z.le_refl|]. cbn [filter]. destruct (f e); cbn [map concat]; rewrite ?len_app; pose proof (len_nonneg (wire_entry e)); lia.
Qed.
Lemma wires_firstn n l : len (concat (map wire_entry (firstn n l))) <= len (concat (map wire_entry l)).
Proof.
  revert n. induction l as [|e l IH]; intros [|n]; cbn [firstn map concat]; rewrite ?len_app; try apply Z.le_refl.
  - change (len []) with 0. pose proof (len_nonneg (wire_entry e)). pose proof (len_nonneg (concat (map wire_entry l))). lia.
  - specialize (IH n). lia.
Qed.
Lemma page_answer_ok chunk table start : len (concat (map wire_entry table)) < 60000 ->
  exists page more status, page_of table start page more /\ reply (page_answer chunk table start) 0xD5 status 0 (concat (map wire_entry page)) /\
    (status = 0 /\ more = [] \/ status = 6 /\ more <> [] /\ length page = chunk).
Proof.
  intro L. set (l := filter (fun e => start <=? e_inst e) table). exists (firstn chunk l), (skipn chunk l), (match skipn chunk l with [] => 0 | _ => 6 end).
  split; [unfold page_of; symmetry; apply firstn_skipn|]. split.
  - unfold page_answer. cbv zeta. fold l. apply plain_reply_ok. pose proof (wires_firstn chunk l). pose proof (wires_le (fun e => start <=? e_inst e) table). fold l in H0. lia.
  - destruct (skipn chunk l) eqn:E; [now left|right]. split; [reflexivity|]. split; [congruence|]. apply firstn_length_le.
    assert (length (skipn chunk l) <> 0)%nat by (rewrite E; discriminate). rewrite skipn_length in H. lia.
Qed.
Lemma class_segment_read c rest : 0 <= c < 2 ^ 16 -> class_read (class_segment c ++ rest) = Ok (c, rest).
Proof. intro H. rewrite <- class_bytes_spec by exact H. now apply class_read_bytes. Qed.
Lemma instance_segment_read c rest : 0 <= c < 2 ^ 32 -> instance_read (instance_segment c ++ rest) = Ok (c, rest).
Proof. intro H. rewrite <- instance_bytes_spec by exact H. now apply instance_read_bytes. Qed.

Section Device.
Context (chunk chunkp : nat) (table : list entry) (progs : option (list known_program)) (by_id : Z -> list entry) (by_name : bytes -> list entry)
  (defs : Z -> option (bytes * bytes * template)) (otid : Z).
Local Notation dev := (device chunk chunkp table progs by_id by_name defs).
Lemma device_symbols : len (concat (map wire_entry table)) < 60000 -> serves_symbols dev otid [] table (fun _ page => length page = chunk).
Proof.
  intros L s q start R. destruct (page_answer_ok chunk table start L) as (page & more & st & P & Rp & H).
  exists 0, (page_answer chunk table start), tt, page, more, st. split; [|split; [exact P|split; [exact Rp|exact H]]].
  unfold device, symbols_request. rewrite request_tail_ok. cbn [app]. rewrite <- app_assoc. change (0x55 =? 0x55) with true. cbv iota beta zeta.
  change (nth 0 (class_segment 0x6B ++ instance_segment start ++ [3; 0; 1; 0; 2; 0; 8; 0]) 0 =? 0x91) with false. cbv iota.
  rewrite class_segment_read by lia. change (0x6B =? 0x68) with false. cbv iota. now rewrite instance_segment_read by lia.
Qed.
Lemma device_program p : program_ok p -> len (concat (map wire_entry (by_id (kp_id p)))) < 60000 ->
  serves_symbols dev otid (program_path p) (by_id (kp_id p)) (fun _ page => length page = chunkp).
Proof.
  intros (I & _) L s q start R. destruct (page_answer_ok chunkp (by_id (kp_id p)) start L) as (page & more & st & P & Rp & H).
  exists 0, (page_answer chunkp (by_id (kp_id p)) start), tt, page, more, st. split; [|split; [exact P|split; [exact Rp|exact H]]].
  unfold device, symbols_request, program_path. rewrite request_tail_ok. rewrite <- !app_assoc. change (0x55 =? 0x55) with true. cbv iota beta zeta.
  match goal with |- context [nth 0 ?x 0 =? 0x91] => change (nth 0 x 0 =? 0x91) with false end. cbv iota.
  rewrite class_segment_read by lia. change (0x68 =? 0x68) with true. cbv iota. rewrite instance_segment_read by lia.
  assert (E : kp_id p =? 0 = false) by (apply Z.eqb_neq; lia). rewrite E. rewrite class_segment_read by lia. now rewrite instance_segment_read by lia.
Qed.
Lemma device_programs ps : progs = Some ps -> len (concat (map wire_program ps)) < 60000 -> serves_programs dev otid ps.
Proof.
  intros E L s q. exists 0, (plain_reply 0xD5 0 0 (concat (map wire_program ps))), tt. split; [|now apply plain_reply_ok].
  unfold device. rewrite request_tail_ok. change (0x55 =? 0x55) with true. cbv iota beta zeta. rewrite E. reflexivity.
Qed.
Lemma device_no_programs : progs = None -> no_programs dev otid.
Proof.
  intros E s q. exists 0, (plain_reply 0xD5 5 0 []), tt, 5, []. split; [|split; [lia|apply plain_reply_ok; reflexivity]].
  unfold device. rewrite request_tail_ok. change (0x55 =? 0x55) with true. cbv iota beta zeta. rewrite E. reflexivity.
Qed.
Lemma device_no_template id : 0 <= id < 2 ^ 32 -> defs id = None -> no_template dev otid id.
Proof.
  intros R E s q. exists 0, (plain_reply 0x83 5 0 []), tt, 5, 0, []. split; [|split; [apply plain_reply_ok; reflexivity|reflexivity]].
  unfold device, template_request. rewrite request_tail_ok. rewrite <- app_assoc. change (0x03 =? 0x55) with false. change (0x03 =? 0x03) with true. cbv iota beta zeta.
  rewrite class_segment_read by lia. rewrite instance_segment_read by exact R. now rewrite E.
Qed.
Lemma device_template id n x t : 0 <= id < 2 ^ 32 -> defs id = Some (n, x, t) ->
  (let '(Template i _ words size count handle ms) := t in
   i = id /\ count = len ms /\ u 16 count /\ u 16 handle /\ u 32 words /\ u 32 size /\ Forall member_ok ms /\ len (wire_definition n x ms) < 60000) ->
  ~ In 0 n -> ~ In 59 n -> suffix_ok x -> serves_template dev otid id n x t.
Proof.
  intros R E H Z0 Z59 Sx. destruct t as [i nm words size count handle ms]. destruct H as (-> & H1 & H2 & H3 & H4 & H5 & H6 & H7).
  do 7 (split; [assumption||reflexivity|]). do 3 (split; [assumption|]). split; intros s q.
  - exists 0, (plain_reply 0x83 0 0 (wire_attrs words size count handle)), tt. split; [|apply plain_reply_ok; reflexivity].
    unfold device, template_request. rewrite request_tail_ok. rewrite <- app_assoc. change (0x03 =? 0x55) with false. change (0x03 =? 0x03) with true. cbv iota beta zeta.
    rewrite class_segment_read by lia. rewrite instance_segment_read by exact R. now rewrite E.
  - exists 0, (plain_reply 0xCC 0 0 (wire_definition n x ms)), tt, []. rewrite app_nil_r. split; [|now apply plain_reply_ok].
    unfold device, definition_request. rewrite request_tail_ok. rewrite <- app_assoc. change (0x4C =? 0x55) with false. change (0x4C =? 0x03) with false. cbv iota beta zeta.
    rewrite class_segment_read by lia. rewrite instance_segment_read by exact R. now rewrite E.
Qed.
End Device.

(** ** C50

    Full statement: however the controller splits its tags into pages, ListAllTags
    records every valid tag exactly once under its lower-cased name and ends.
    Proved for controllers which list their programs, give at least two entries in
    every page of their own that is not the last, and in every such page of a
    program a tag after the one asked for.  Without that it does not end
    ([C50_single_refuted], [C51_ends_refuted]); where the programs cannot be listed,
    those on later pages are left out ([C50_fallback_refuted]); an error in place of
    a page counts as the end ([C50_error_refuted]). *)
Definition client_templates (T : Z -> option template) (l : lists) : Prop := forall id t, find_id id (l_ids l) = Some t -> T id = Some t.
Theorem C50_tags_partial : forall S (ctl : controller S) otid T table progs tables order start w,
  start = 0 \/ start = 1 -> Forall entry_ok table -> increasing table -> Forall program_ok progs -> NoDup (map kp_name progs) ->
  (forall p, In p progs -> Forall entry_ok (tables p) /\ increasing (tables p)) ->
  serves_symbols ctl otid [] table two -> serves_programs ctl otid progs ->
  (forall p, In p progs -> serves_symbols ctl otid (program_path p) (tables p) moves) ->
  serves_templates ctl otid T -> client_templates T (l_lists w) ->
  (forall l, Permutation (order l) l) -> distinct (wanted T table progs tables) ->
  exists n, forall fuel, (n <= fuel)%nat -> exists w1,
    list_all_tags fuel order ctl otid start w = (Ok tt, w1) /\
    records (wanted T table progs tables) (l_tags (l_lists w)) (l_tags (l_lists w1)) /\
    Permutation (map snd (l_progs (l_lists w1))) progs /\ client_templates T (l_lists w1).
Proof.
  intros S ctl otid T table progs tables order start w Hst O Inc Op Np Ht Sv Sp Ss HT Ci Or D.
  assert (HN : exists N, forall k, (N <= k)%nat -> forall e, In e table -> template_no (e_type e) <> 0 -> member_call T (list_members k ctl otid) (template_no (e_type e))).
  { apply (uniform (fun k e => template_no (e_type e) <> 0 -> member_call T (list_members k ctl otid) (template_no (e_type e)))). intros e I.
    destruct (Z.eq_dec (template_no (e_type e)) 0) as [E|E]; [exists 0%nat; intros; congruence|].
    assert (U : u 16 (e_type e)) by (rewrite Forall_forall in O; destruct (O e I) as (_ & _ & _ & ? & _); assumption).
    destruct (list_members_ok ctl otid T HT _ (template_no_range _ U E)) as (n & Hn). exists n. intros k K _. now apply Hn. }
  destruct HN as (N & HN).
  assert (HP : exists M, forall k, (M <= k)%nat -> forall p, In p progs -> (Datatypes.S (after 1 (tables p)) <= k)%nat).
  { apply (uniform (fun k p => (Datatypes.S (after 1 (tables p)) <= k)%nat)). intros p _. now exists (Datatypes.S (after 1 (tables p))). }
  destruct HP as (M & HP).
  exists (Datatypes.S (Nat.max M (N + after 1 table))). intros fuel F. destruct fuel as [|k]; [lia|]. cbn [list_all_tags].
  assert (E1 : (if start <? 1 then 1 else start) = 1) by (destruct Hst as [->| ->]; reflexivity). rewrite E1. change (1 =? 1) with true. cbv iota zeta.
  destruct (list_programs_ok S ctl otid progs w Op Np Sp) as (s1 & Ep).
  set (ps := rev (map (fun p => (kp_name p, p)) progs)) in Ep. set (w1 := LState s1 (l_seq w + 1) (set_progs ps (l_lists w))) in Ep.
  assert (Pm : Permutation (map snd ps) progs).
  { unfold ps. rewrite map_rev, map_map. cbn [snd]. rewrite map_id. symmetry. apply Permutation_rev. }
  assert (Po : Permutation (order (map snd ps)) progs) by (eapply Permutation_trans; [apply Or|exact Pm]).
  assert (Ip : forall p, In p (order (map snd ps)) <-> In p progs) by (intro p; split; apply Permutation_in; [exact Po|symmetry; exact Po]).
  destruct (each_program_ok S T ctl otid tables k (order (map snd ps))) with (w := w1) as (w2 & ts1 & E2 & St2 & S2 & C2).
  { intros p I. apply Ip in I. destruct (Ht p I). rewrite Forall_forall in Op. split; [apply program_path_len, Op, I|]. split; [assumption|]. split; [assumption|].
    rewrite program_bytes_path by apply Op, I. now apply Ss. }
  { intros p I. apply HP; [lia|now apply Ip]. }
  destruct (pages_ok ctl otid T table order O Inc two (fun _ _ H => H) Sv N HN (after 1 table) k 1 w2 ltac:(lia) ltac:(lia) ltac:(lia)) as (w3 & ts2 & E3 & St3 & S3 & C3).
  { apply St2. exact Ci. }
  exists w3. split; [|split; [|split]].
  - unfold lbind at 1 2 3 4 5 6. unfold attempt. rewrite Ep. unfold look, lret at 1. change (l_progs (l_lists w1)) with ps. rewrite E2. unfold lret at 1. exact E3.
  - destruct (stepped_trans _ _ _ _ _ _ _ St2 St3) as (A & _). change (l_tags (l_lists w1)) with (l_tags (l_lists w)) in A. rewrite A. apply puts_records; [exact D| |].
    + intros x t I. apply in_app_or in I as [I|I].
      * right. destruct (S2 _ I) as (p & Ips & J). unfold sub_puts in J. apply in_map_iff in J as (e & E & J). apply filter_In in J as [J V].
        exists p, e. split; [now apply Ip|]. split; [exact J|]. split; [now apply is_valid_spec|congruence].
      * left. apply S3 in I. apply in_global_puts in I as (e & I & K & E). apply keep_spec in K as [K1 K2]. exists e. split; [exact I|]. split; [exact K1|]. split; [exact K2|exact E].
    + intros x t [(e & I & U & Pe & E)|(p & e & Ips & I & U & E)]; rewrite E; apply in_or_app.
      * right. apply C3; [exact I| |now apply keep_spec]. rewrite Forall_forall in O. destruct (O e I) as (? & _). lia.
      * left. apply C2; [now apply Ip|exact I|exact U].
  - destruct St2 as (_ & B & _). destruct St3 as (_ & B' & _). rewrite B', B. exact Pm.
  - apply St3. apply St2. exact Ci.
Qed.
Print Assumptions C50_tags_partial.
(** The names may be padded with blanks: each program is known under its bare name. *)
Theorem C50_programs_partial : forall S (ctl : controller S) otid rows w,
  Forall (fun '(raw, p) => program_ok p /\ padded raw (kp_name p) /\ len raw < 2 ^ 16) rows -> NoDup (map (fun x => kp_name (snd x)) rows) ->
  serves_padded ctl otid rows ->
  exists w1, list_programs ctl otid w = (Ok tt, w1) /\ l_tags (l_lists w1) = l_tags (l_lists w) /\
    NoDup (map fst (l_progs (l_lists w1))) /\
    (forall k p, In (k, p) (l_progs (l_lists w1)) <-> k = kp_name p /\ exists raw, In (raw, p) rows).
Proof.
  intros S ctl otid rows w O N Sv. destruct (list_programs_padded S ctl otid rows w O N Sv) as (s1 & E). eexists. split; [exact E|]. cbn [l_lists].
  destruct (l_lists w) as [a b c d]. unfold set_progs. cbn [l_tags l_progs]. split; [reflexivity|]. split.
  - rewrite map_rev, map_map. cbn [fst]. now apply NoDup_rev.
  - intros k p. rewrite <- in_rev, in_map_iff. split.
    + intros ([raw p'] & E1 & I). cbn [snd] in E1. injection E1 as <- <-. split; [reflexivity|now exists raw].
    + intros (-> & raw & I). exists (raw, p). split; [reflexivity|exact I].
Qed.
Print Assumptions C50_programs_partial.
Definition padded_rows : list (bytes * known_program) := [(str "Main  ", {| kp_name := str "Main"; kp_id := 7 |}); (str " Aux", {| kp_name := str "Aux"; kp_id := 9 |})].
Example ex_C50_programs : exists w1,
  list_programs (fun (_ : unit) _ => (Ok (0, plain_reply 0xD5 0 0 (concat (map wire_row padded_rows))), tt)) 7 (LState tt 3 (Lists [] [] [] [])) = (Ok tt, w1) /\
  In (str "Main", {| kp_name := str "Main"; kp_id := 7 |}) (l_progs (l_lists w1)).
Proof.
  destruct (C50_programs_partial unit (fun _ _ => (Ok (0, plain_reply 0xD5 0 0 (concat (map wire_row padded_rows))), tt)) 7 padded_rows (LState tt 3 (Lists [] [] [] [])))
    as (w1 & E & _ & _ & H).
  - unfold padded_rows. constructor; [|constructor; [|constructor]]; (split; [|split; [|vm_compute; reflexivity]]).
    + split; [cbn [kp_id]; lia|]. split; [vm_compute; reflexivity|]. cbn [kp_name]. vm_compute. repeat (constructor; [reflexivity|]). constructor.
    + exists [], [32; 32]. split; [reflexivity|]. split; [constructor|]. unfold blank. repeat (constructor; [cbn [In]; tauto|]). constructor.
    + split; [cbn [kp_id]; lia|]. split; [vm_compute; reflexivity|]. cbn [kp_name]. vm_compute. repeat (constructor; [reflexivity|]). constructor.
    + exists [32], []. split; [reflexivity|]. split; [|constructor]. unfold blank. repeat (constructor; [cbn [In]; tauto|]). constructor.
  - cbn [padded_rows map snd kp_name]. constructor; [|constructor; [intros []|constructor]]. intros [E|[]]. discriminate E.
  - intros s q. do 3 eexists. split; [destruct s; reflexivity|]. apply plain_reply_ok; vm_compute; reflexivity.
  - exists w1. split; [exact E|]. apply H. split; [reflexivity|]. exists (str "Main  "). now left.
Qed.

Fixpoint nodupb (l : list bytes) : bool := match l with [] => true | k :: r => negb (existsb (bseq k) r) && nodupb r end.
Lemma nodupb_ok l : nodupb l = true -> NoDup l.
Proof.
  induction l as [|k l IH]; intro H; [constructor|]. cbn [nodupb] in H. apply andb_true_iff in H as [H1 H2]. constructor; [|auto].
  intro I. apply negb_true_iff in H1. assert (existsb (bseq k) l = true); [|congruence]. apply existsb_exists. exists k. split; [exact I|apply bseq_refl].
Qed.
Lemma distinct_list (P : bytes -> listed -> Prop) (l : list (bytes * listed)) : (forall k t, P k t -> In (k, t) l) -> NoDup (map fst l) -> distinct P.
Proof.
  intros H N k t1 t2 H1 H2. apply H in H1, H2. clear H. induction l as [|[k0 t0] l IH]; [destruct H1|]. cbn [map fst] in N. inversion_clear N as [|? ? N1 N2].
  destruct H1 as [E1|H1], H2 as [E2|H2]; try congruence; [| |auto].
  - injection E1 as -> ->. exfalso. apply N1. now apply (in_map fst) in H2.
  - injection E2 as -> ->. exfalso. apply N1. now apply (in_map fst) in H1.
Qed.

Definition t_inner : template := Template 0x100 (str "Inne") 30 8 1 0x77 [(str "Raw", (0, 0xC4, 0), None)].
Definition t_outer : template := Template 0xF83 (str "Motor") 60 20 3 0x55
  [(str "Speed", (0, 0xCA, 0), None); (str "Sub", (2, 0x8100, 4), Some t_inner); (str "Odd", (0, 0x8200, 12), None)].
Definition demo_T (id : Z) : option template := if id =? 0x100 then Some t_inner else if id =? 0xF83 then Some t_outer else None.
Definition demo_defs (id : Z) : option (bytes * bytes * template) :=
  if id =? 0x100 then Some (str "Inner", str ";nEBEC", t_inner) else if id =? 0xF83 then Some (str "Motor", [], t_outer) else None.
Definition demo_table : list entry :=
  [Entry 3 (str "Count") 0xC4 0 0 0; Entry 7 (str "__hidden") 0xC4 0 0 0; Entry 9 (str "Program:Main") 0x1068 0 0 0;
   Entry 12 (str "Motors") 0xAF83 5 6 0; Entry 70000 (str "Local:1:I") 0xC4 0 0 0; Entry 70001 (str "Last") 0xC3 10 0 0].
Definition demo_main : known_program := {| kp_name := str "Main"; kp_id := 300 |}.
Definition demo_sub : list entry := [Entry 1 (str "x") 0xC4 0 0 0; Entry 2 (str "Y") 0xC4 0 0 0; Entry 5 (str "__z") 0xC4 0 0 0; Entry 6 (str "w") 0xC4 0 0 0].
Definition demo_device (chunk : nat) : controller unit := device chunk 3 demo_table (Some [demo_main]) (fun i => if i =? 300 then demo_sub else []) (fun _ => []) demo_defs.
Definition fresh_client : lstate unit := LState tt 0 (Lists [] [] [] []).
Lemma demo_templates chunk otid : serves_templates (demo_device chunk) otid demo_T.
Proof.
  intros id R. unfold demo_device, demo_T. destruct (id =? 0x100) eqn:E1; [|destruct (id =? 0xF83) eqn:E2].
  - apply Z.eqb_eq in E1. subst id. split.
    + exists (str "Inner"), (str ";nEBEC"). split; [|split; [reflexivity|discriminate]]. apply (device_template chunk 3 demo_table (Some [demo_main]) (fun i => if i =? 300 then demo_sub else []) (fun _ => []) demo_defs otid 0x100 (str "Inner") (str ";nEBEC") t_inner); [lia|reflexivity| | | |].
      * unfold t_inner, u. split; [reflexivity|]. split; [reflexivity|]. do 4 (split; [lia|]). split; [|vm_compute; reflexivity]. repeat (apply Forall_cons; [unfold member_ok, u; split; [vm_compute; intuition discriminate|lia]|]). apply Forall_nil.
      * vm_compute. intuition discriminate.
      * vm_compute. intuition discriminate.
      * right. eexists. split; [reflexivity|]. vm_compute. intuition discriminate.
    + intros m [<-|[]]. reflexivity.
  - apply Z.eqb_eq in E2. subst id. split.
    + exists (str "Motor"), []. split; [|split; [reflexivity|congruence]]. apply (device_template chunk 3 demo_table (Some [demo_main]) (fun i => if i =? 300 then demo_sub else []) (fun _ => []) demo_defs otid 0xF83 (str "Motor") [] t_outer); [lia|reflexivity| | | |].
      * unfold t_outer, u. split; [reflexivity|]. split; [reflexivity|]. do 4 (split; [lia|]). split; [|vm_compute; reflexivity]. repeat (apply Forall_cons; [unfold member_ok, u; split; [vm_compute; intuition discriminate|lia]|]). apply Forall_nil.
      * vm_compute. intuition discriminate.
      * vm_compute. intuition discriminate.
      * now left.
    + intros m [<-|[<-|[<-|[]]]]; reflexivity.
  - apply device_no_template; [lia|]. unfold demo_defs. now rewrite E1, E2.
Qed.
Lemma demo_table_ok : Forall entry_ok demo_table /\ increasing demo_table.
Proof.
  split; [repeat (apply Forall_cons; [unfold entry_ok, u; cbn; lia|]); apply Forall_nil|].
  unfold demo_table. cbn [increasing In]. repeat (split; [intros b H; repeat (destruct H as [<-|H]; [reflexivity|]); destruct H|]). exact Logic.I.
Qed.
Lemma demo_sub_ok : Forall entry_ok demo_sub /\ increasing demo_sub.
Proof.
  split; [repeat (apply Forall_cons; [unfold entry_ok, u; cbn; lia|]); apply Forall_nil|].
  unfold demo_sub. cbn [increasing In]. repeat (split; [intros b H; repeat (destruct H as [<-|H]; [reflexivity|]); destruct H|]). exact Logic.I.
Qed.
Lemma demo_main_ok : program_ok demo_main.
Proof. split; [cbn; lia|]. split; [vm_compute; reflexivity|]. repeat (apply Forall_cons; [vm_compute; reflexivity|]). apply Forall_nil. Qed.
Definition demo_wanted : list (bytes * listed) :=
  map (global_tag demo_T) (filter keep demo_table) ++ map (program_tag demo_main) (filter (fun e => is_valid (e_name e)) demo_sub).
Lemma demo_distinct : distinct (wanted demo_T demo_table [demo_main] (fun _ => demo_sub)).
Proof.
  apply (distinct_list _ demo_wanted).
  - intros k t [(e & I & U & N & ->)|(p & e & [<-|[]] & I & U & ->)]; apply in_or_app; [left|right]; apply in_map; apply filter_In; (split; [exact I|]).
    + now apply keep_spec.
    + now apply is_valid_spec.
  - apply nodupb_ok. vm_compute. reflexivity.
Qed.
Lemma serves_weaken S (ctl : controller S) otid prefix table (good1 good2 : Z -> list entry -> Prop) :
  (forall start page more, 1 <= start -> page_of table start page more -> more <> [] -> good1 start page -> good2 start page) ->
  serves_symbols ctl otid prefix table good1 -> serves_symbols ctl otid prefix table good2.
Proof.
  intros H Sv s q start R. destruct (Sv s q start R) as (eip & payload & s1 & page & more & st & Ec & Pg & Rp & Hst).
  exists eip, payload, s1, page, more, st. split; [exact Ec|]. split; [exact Pg|]. split; [exact Rp|]. destruct Hst as [?|(? & ? & ?)]; [now left|right]. split; [assumption|]. split; [assumption|]. apply (H start page more); auto. lia.
Qed.
Lemma demo_moves start page more : 1 <= start -> page_of demo_sub start page more -> more <> [] -> length page = 3%nat -> moves start page.
Proof.
  unfold page_of, demo_sub. cbn [filter e_inst]. intros R E N L.
  destruct (start <=? 1) eqn:E1.
  - assert (start = 1) by lia. subst start. cbn [Z.leb Z.compare Pos.compare Pos.compare_cont] in E. destruct page as [|a [|b [|c [|d page]]]]; try discriminate.
    cbn [app] in E. injection E as <- <- <- _. exists (Entry 2 (str "Y") 0xC4 0 0 0). split; [right; now left|]. split; [apply is_valid_spec; reflexivity|]. reflexivity.
  - exfalso. destruct page as [|a [|b [|c [|d page]]]]; try discriminate. destruct more as [|x more]; [congruence|].
    destruct (start <=? 2), (start <=? 5), (start <=? 6); discriminate E.
Qed.
Example ex_C50 : exists n, forall fuel, (n <= fuel)%nat -> exists w1, list_all_tags fuel (fun l => l) (demo_device 2) 7 0 fresh_client = (Ok tt, w1) /\
  records (wanted demo_T demo_table [demo_main] (fun _ => demo_sub)) [] (l_tags (l_lists w1)).
Proof.
  destruct demo_table_ok as [O1 I1]. destruct demo_sub_ok as [O2 I2].
  destruct (C50_tags_partial unit (demo_device 2) 7 demo_T demo_table [demo_main] (fun _ => demo_sub) (fun l => l) 0 fresh_client) as (n & Hn).
  - now left.
  - exact O1.
  - exact I1.
  - apply Forall_cons; [exact demo_main_ok|apply Forall_nil].
  - apply nodupb_ok. reflexivity.
  - intros p _. now split.
  - apply (serves_weaken _ _ _ _ _ (fun _ page => length page = 2%nat)); [intros ? ? ? _ _ _ H; unfold two; lia|].
    apply (device_symbols 2 3 demo_table (Some [demo_main]) (fun i => if i =? 300 then demo_sub else []) (fun _ => []) demo_defs 7). vm_compute. reflexivity.
  - apply (device_programs 2 3 demo_table (Some [demo_main]) (fun i => if i =? 300 then demo_sub else []) (fun _ => []) demo_defs 7); [reflexivity|vm_compute; reflexivity].
  - intros p [<-|[]]. apply (serves_weaken _ _ _ _ _ (fun _ page => length page = 3%nat)); [exact demo_moves|].
    apply (device_program 2 3 demo_table (Some [demo_main]) (fun i => if i =? 300 then demo_sub else []) (fun _ => []) demo_defs 7 demo_main demo_main_ok). vm_compute. reflexivity.
  - apply demo_templates.
  - intros id t E. discriminate E.
  - intro l. apply Permutation_refl.
  - exact demo_distinct.
  - exists n. intros fuel F. destruct (Hn fuel F) as (w1 & E & R & _). exists w1. now split.
Qed.
Example ex_C50_run : exists w1, list_all_tags 20 (fun l => l) (demo_device 2) 7 0 fresh_client = (Ok tt, w1) /\
  map fst (l_tags (l_lists w1)) = [str "last"; str "motors"; str "count"; str "program:main.w"; str "program:main.y"; str "program:main.x"] /\
  exists t, lookup (str "motors") (l_tags (l_lists w1)) = Some t /\ ls_order t = [5; 6] /\ ls_udt t = Some t_outer.
Proof. eexists. split; [vm_compute; reflexivity|]. split; [vm_compute; reflexivity|]. eexists. split; [vm_compute; reflexivity|]. split; reflexivity. Qed.

Lemma filter_whole {A} (f : A -> bool) l : (forall x, In x l -> f x = true) -> filter f l = l.
Proof.
  induction l as [|a l IH]; intro H; [reflexivity|]. cbn [filter]. rewrite (H a (or_introl eq_refl)). f_equal. apply IH. intros x I. apply H. now right.
Qed.
(** Pages of one entry: the next request starts at the instance which was the last
    of the page before, and brings the same page. *)
Definition two_tags : list entry := [Entry 3 (str "Count") 0xC4 0 0 0; Entry 4 (str "Other") 0xC4 0 0 0].
Definition one_by_one : controller unit := device 1 1 two_tags (Some []) (fun _ => []) (fun _ => []) (fun _ => None).
Lemma single_send start w : start = 1 \/ start = 3 ->
  send one_by_one 7 svc_instances (class_bytes obj_symbol ++ instance_bytes start) tag_attrs w =
  (Ok ([1; 0; 0xD5; 0; 6; 0] ++ concat (map wire_entry [Entry 3 (str "Count") 0xC4 0 0 0])), LState tt (l_seq w + 1) (l_lists w)).
Proof. destruct w as [s q l]. intros [->| ->]; vm_compute; reflexivity. Qed.
Lemma single_loop T order : forall k start w, start = 1 \/ start = 3 -> ids_ok T (l_ids (l_lists w)) -> exists w1, pages k order one_by_one 7 false start w = (OutOfFuel, w1).
Proof.
  induction k as [k IH] using lt_wf_ind. intros start w St W. unfold pages. unfold lbind at 1. rewrite single_send by exact St. cbn [app]. unfold lbind at 1, llift.
  rewrite page_header_ok by (reflexivity || lia).
  match goal with |- context [all_page ?sub ?mem] => destruct (all_page_ok unit T sub mem [Entry 3 (str "Count") 0xC4 0 0 0]) with
    (n := length (concat (map wire_entry [Entry 3 (str "Count") 0xC4 0 0 0]))) (start := start) (w := LState tt (l_seq w + 1) (l_lists w)) as (w2 & E2 & St2) end.
  - apply Forall_cons; [unfold entry_ok, u; cbn; lia|apply Forall_nil].
  - intros e [<-|[]] N. exfalso. apply N. reflexivity.
  - apply page_length.
  - exact W.
  - unfold lbind at 1. rewrite E2. change (6 =? st_partial) with true. cbv iota. change (last_inst [Entry 3 (str "Count") 0xC4 0 0 0] start) with 3.
    destruct k as [|k]; [exists w2; reflexivity|]. rewrite list_all_tags_later by lia. apply IH; [lia|now right|]. apply St2. exact W.
Qed.
Theorem C50_single_refuted : exists table ctl, Forall entry_ok table /\ increasing table /\
  serves_symbols ctl 7 [] table (fun _ page => page <> []) /\ serves_programs ctl 7 [] /\ serves_templates ctl 7 (fun _ => None) /\
  forall fuel order, (forall l, Permutation (order l) l) -> exists w1, list_all_tags fuel order ctl 7 0 fresh_client = (OutOfFuel, w1).
Proof.
  exists two_tags, one_by_one. split; [|split; [|split; [|split; [|split]]]].
  - repeat (apply Forall_cons; [unfold entry_ok, u; cbn; lia|]); apply Forall_nil.
  - unfold two_tags. cbn [increasing In]. repeat (split; [intros b H; repeat (destruct H as [<-|H]; [reflexivity|]); destruct H|]). exact Logic.I.
  - apply (serves_weaken _ _ _ _ _ (fun _ page => length page = 1%nat)); [intros ? [|] ? _ _ _ H; [discriminate H|discriminate]|].
    apply (device_symbols 1 1 two_tags (Some []) (fun _ => []) (fun _ => []) (fun _ => None) 7). vm_compute. reflexivity.
  - apply (device_programs 1 1 two_tags (Some []) (fun _ => []) (fun _ => []) (fun _ => None) 7); reflexivity.
  - intros id R. apply (device_no_template 1 1 two_tags (Some []) (fun _ => []) (fun _ => []) (fun _ => None) 7); [lia|reflexivity].
  - intros fuel order Or. destruct fuel as [|k]; [eexists; reflexivity|]. cbn [list_all_tags]. change (if 0 <? 1 then 1 else 0) with 1. change (1 =? 1) with true. cbv iota zeta.
    assert (Ep : list_programs one_by_one 7 fresh_client = (Ok tt, LState tt 1 (l_lists fresh_client))) by (vm_compute; reflexivity).
    unfold lbind at 1 2 3 4 5 6. unfold attempt. rewrite Ep. unfold look, lret at 1. cbn [l_lists fresh_client l_progs map].
    assert (Eo : order [] = []) by (apply Permutation_nil; symmetry; apply Or). rewrite Eo. cbn [each_program]. unfold lret.
    apply (single_loop (fun _ => None)); [now left|]. intros id t E. discriminate E.
Qed.
Print Assumptions C50_single_refuted.

(** The programs cannot be listed and the entry of one is on the second page: its
    tags, which the controller would list, are not recorded, and nothing tells. *)
Definition late_table : list entry := [Entry 3 (str "Count") 0xC4 0 0 0; Entry 4 (str "Other") 0xC4 0 0 0; Entry 9 (str "Program:Main") 0x1068 0 0 0].
Definition late_device : controller unit := device 2 3 late_table None (fun _ => []) (fun n => if bseq n (str "Program:Main") then demo_sub else []) (fun _ => None).
Lemma late_program : serves_symbols late_device 7 (0x91 :: 12 :: str "Program:Main") demo_sub moves.
Proof.
  apply (serves_weaken _ _ _ _ _ (fun _ page => length page = 3%nat)); [exact demo_moves|]. intros s q start R.
  destruct (page_answer_ok 3 demo_sub start ltac:(vm_compute; reflexivity)) as (page & more & st & P & Rp & H).
  exists 0, (page_answer 3 demo_sub start), tt, page, more, st. split; [|split; [exact P|split; [exact Rp|exact H]]].
  unfold late_device, device, symbols_request. rewrite request_tail_ok. change (0x55 =? 0x55) with true. cbv iota beta zeta.
  change ((0x91 :: 12 :: str "Program:Main") ++ class_segment 0x6B ++ instance_segment start) with (0x91 :: 12 :: (str "Program:Main" ++ class_segment 0x6B ++ instance_segment start)).
  rewrite <- !app_comm_cons. cbn [nth skipn]. change (0x91 =? 0x91) with true. cbv iota.
  assert (Eg : get_ascii_part (12 :: (str "Program:Main" ++ class_segment 0x6B ++ instance_segment start) ++ [3; 0; 1; 0; 2; 0; 8; 0]) =
    Ok (str "Program:Main", class_segment 0x6B ++ instance_segment start ++ [3; 0; 1; 0; 2; 0; 8; 0])).
  { unfold get_ascii_part. rewrite rd_cons1. cbn [bind]. change (Z.to_nat (unle [12])) with 12%nat. rewrite <- !app_assoc. rewrite rd_app by reflexivity. reflexivity. }
  rewrite Eg. change (bseq (str "Program:Main") (str "Program:Main")) with true. cbv iota. rewrite class_segment_read by lia. now rewrite instance_segment_read by lia.
Qed.
Theorem C50_fallback_refuted : exists table tags ctl, Forall entry_ok table /\ increasing table /\ Forall entry_ok tags /\ increasing tags /\
  serves_symbols ctl 7 [] table two /\ no_programs ctl 7 /\ In (Entry 9 (str "Program:Main") 0x1068 0 0 0) table /\
  serves_symbols ctl 7 (0x91 :: 12 :: str "Program:Main") tags moves /\ In (Entry 1 (str "x") 0xC4 0 0 0) tags /\
  forall more, exists w1, list_all_tags (10 + more) (fun l => l) ctl 7 0 fresh_client = (Ok tt, w1) /\ lookup (str "program:main.x") (l_tags (l_lists w1)) = None.
Proof.
  exists late_table, demo_sub, late_device. split; [|split; [|split; [|split; [|split; [|split; [|split; [|split; [|split]]]]]]]].
  - repeat (apply Forall_cons; [unfold entry_ok, u; cbn; lia|]); apply Forall_nil.
  - unfold late_table. cbn [increasing In]. repeat (split; [intros b H; repeat (destruct H as [<-|H]; [reflexivity|]); destruct H|]). exact Logic.I.
  - apply demo_sub_ok.
  - apply demo_sub_ok.
  - apply (serves_weaken _ _ _ _ _ (fun _ page => length page = 2%nat)); [intros ? ? ? _ _ _ H; unfold two; lia|].
    apply (device_symbols 2 3 late_table None (fun _ => []) (fun n => if bseq n (str "Program:Main") then demo_sub else []) (fun _ => None) 7). vm_compute. reflexivity.
  - apply (device_no_programs 2 3 late_table None (fun _ => []) (fun n => if bseq n (str "Program:Main") then demo_sub else []) (fun _ => None) 7). reflexivity.
  - right. right. now left.
  - exact late_program.
  - now left.
  - intro more. eexists. split; vm_compute; reflexivity.
Qed.
Print Assumptions C50_fallback_refuted.

(** An error in place of the first page. *)
Definition refusing : controller unit := fun _ req =>
  let '(svc, r) := request_tail req in
  (Ok (0, match class_read r with Ok (c, _) => if c =? 0x68 then plain_reply 0xD5 0 0 [] else plain_reply 0xD5 0x0F 0 [] | _ => [] end), tt).
Theorem C50_error_refuted : exists ctl : controller unit,
  (forall s q, exists payload s1, ctl s (symbols_request 7 q [] 1) = (Ok (0, payload), s1) /\ reply payload 0xD5 0x0F 0 []) /\
  serves_programs ctl 7 [] /\ forall more, exists w1, list_all_tags (2 + more) (fun l => l) ctl 7 0 fresh_client = (Ok tt, w1) /\ l_tags (l_lists w1) = [].
Proof.
  exists refusing. split; [|split].
  - intros s q. exists (plain_reply 0xD5 0x0F 0 []), tt. split; [|apply plain_reply_ok; reflexivity].
    unfold refusing, symbols_request. rewrite request_tail_ok. cbn [app]. rewrite <- app_assoc. rewrite class_segment_read by lia. reflexivity.
  - intros s q. exists 0, (plain_reply 0xD5 0 0 []), tt. split; [|apply plain_reply_ok; reflexivity].
    unfold refusing. rewrite request_tail_ok. rewrite <- app_assoc. rewrite class_segment_read by lia. reflexivity.
  - intro more. eexists. split; vm_compute; reflexivity.
Qed.
Print Assumptions C50_error_refuted.

(** ** C51

    Full statement: the list ListSubTags returns has every valid tag of the
    program, and the call ends.  Proved: it ends when every page but the last has a
    tag after the instance asked for, KnownTags then has every valid tag, and the
    list has those of the first page; so it is complete when there is one page.
    Otherwise the tags of later pages are missing from it ([C51_pages_refuted]), and
    with a page of system symbols only it does not end ([C51_ends_refuted]). *)
Definition sub_tag (p : known_program) (table : list entry) (k : bytes) (t : listed) : Prop :=
  exists e, In e table /\ user_tag (e_name e) /\ (k, t) = program_tag p e.
Theorem C51_tags_partial : forall S (ctl : controller S) otid p table start w,
  start = 0 \/ start = 1 -> program_ok p -> Forall entry_ok table -> increasing table -> distinct (sub_tag p table) ->
  serves_symbols ctl otid (program_path p) table moves ->
  exists n, forall fuel, (n <= fuel)%nat -> exists res w1,
    list_sub_tags fuel ctl otid p start w = (Ok res, w1) /\
    records (sub_tag p table) (l_tags (l_lists w)) (l_tags (l_lists w1)) /\
    exists page more, table = page ++ more /\ forall t, In t res <-> exists k, sub_tag p page k t.
Proof.
  intros S ctl otid p table start w Hst Pp O Inc D Sv. rewrite <- program_bytes_path in Sv by exact Pp.
  exists (Datatypes.S (after 1 table)). intros fuel F.
  destruct (list_sub_tags_ok S (fun _ => None) ctl otid p table (program_path_len p Pp) O Inc moves (fun _ _ H => H) Sv (after 1 table) fuel 1 w ltac:(lia) F ltac:(lia)) as (res & w1 & ts & E & (A & _) & S1 & C1 & page & more & Pg & Er & _).
  exists res, w1. split.
  - destruct Hst as [->| ->]; [|exact E]. destruct fuel as [|k]; [lia|]. exact E.
  - split.
    + rewrite A. apply puts_records; [exact D| |].
      * intros k t I. apply S1 in I. unfold sub_puts in I. apply in_map_iff in I as (e & Ee & I). apply filter_In in I as [I V]. exists e. split; [exact I|]. split; [now apply is_valid_spec|now symmetry].
      * intros k t (e & I & U & ->). apply C1; [exact I| |exact U]. rewrite Forall_forall in O. destruct (O e I) as (? & _). lia.
    + exists page, more. split.
      * unfold page_of in Pg. rewrite <- Pg. symmetry. apply filter_whole. intros e I. rewrite Forall_forall in O. destruct (O e I) as (? & _). lia.
      * intro t. rewrite Er. rewrite in_map_iff. split.
        -- intros ([k t'] & <- & I). unfold sub_puts in I. apply in_map_iff in I as (e & Ee & I). apply filter_In in I as [I V]. exists k, e. split; [exact I|]. split; [now apply is_valid_spec|now symmetry].
        -- intros (k & e & I & U & Ee). exists (k, t). split; [reflexivity|]. rewrite Ee. now apply in_sub_puts.
Qed.
Print Assumptions C51_tags_partial.
(** One page: the whole list, in order.  [f] decides which names are tags'. *)
Theorem C51_page_partial : forall S (ctl : controller S) otid p table start w f,
  start = 0 \/ start = 1 -> program_ok p -> Forall entry_ok table -> increasing table -> (forall e, f e = true <-> user_tag (e_name e)) ->
  serves_symbols ctl otid (program_path p) table (fun _ _ => False) ->
  exists n, forall fuel, (n <= fuel)%nat -> exists w1,
    list_sub_tags fuel ctl otid p start w = (Ok (map (fun e => snd (program_tag p e)) (filter f table)), w1).
Proof.
  intros S ctl otid p table start w f Hst Pp O Inc Hf Sv. rewrite <- program_bytes_path in Sv by exact Pp.
  exists (Datatypes.S (after 1 table)). intros fuel F.
  destruct (list_sub_tags_ok S (fun _ => None) ctl otid p table (program_path_len p Pp) O Inc (fun _ _ => False) (fun _ _ H => match H with end) Sv (after 1 table) fuel 1 w ltac:(lia) F ltac:(lia))
    as (res & w1 & ts & E & _ & _ & _ & page & more & Pg & Er & [->|[]]).
  exists w1. assert (Et : page = table).
  { unfold page_of in Pg. rewrite app_nil_r in Pg. rewrite <- Pg. apply filter_whole. intros e I. rewrite Forall_forall in O. destruct (O e I) as (? & _). lia. }
  assert (Ef : filter f table = filter (fun e => is_valid (e_name e)) table).
  { apply filter_ext. intro e. destruct (f e) eqn:E1, (is_valid (e_name e)) eqn:E2; try reflexivity.
    - apply Hf, is_valid_spec in E1. congruence.
    - apply is_valid_spec, Hf in E2. congruence. }
  rewrite Ef. subst page res. unfold sub_puts in E. rewrite map_map in E. destruct Hst as [->| ->]; [|exact E]. destruct fuel as [|k]; [lia|]. exact E.
Qed.
Print Assumptions C51_page_partial.
Lemma demo_sub_distinct : distinct (sub_tag demo_main demo_sub).
Proof.
  apply (distinct_list _ (map (program_tag demo_main) (filter (fun e => is_valid (e_name e)) demo_sub))).
  - intros k t (e & I & U & ->). apply in_map. apply filter_In. split; [exact I|now apply is_valid_spec].
  - apply nodupb_ok. vm_compute. reflexivity.
Qed.
Lemma demo_program chunk : serves_symbols (demo_device chunk) 7 (program_path demo_main) demo_sub moves.
Proof.
  apply (serves_weaken _ _ _ _ _ (fun _ page => length page = 3%nat)); [exact demo_moves|].
  apply (device_program chunk 3 demo_table (Some [demo_main]) (fun i => if i =? 300 then demo_sub else []) (fun _ => []) demo_defs 7 demo_main demo_main_ok). vm_compute. reflexivity.
Qed.
Example ex_C51 : exists n, forall fuel, (n <= fuel)%nat -> exists res w1, list_sub_tags fuel (demo_device 2) 7 demo_main 0 fresh_client = (Ok res, w1) /\
  records (sub_tag demo_main demo_sub) [] (l_tags (l_lists w1)).
Proof.
  destruct (C51_tags_partial unit (demo_device 2) 7 demo_main demo_sub 0 fresh_client) as (n & Hn).
  - now left.
  - exact demo_main_ok.
  - apply demo_sub_ok.
  - apply demo_sub_ok.
  - exact demo_sub_distinct.
  - apply demo_program.
  - exists n. intros fuel F. destruct (Hn fuel F) as (res & w1 & E & R & _). exists res, w1. now split.
Qed.
Example ex_C51_page : exists n, forall fuel, (n <= fuel)%nat -> exists w1,
  list_sub_tags fuel (device 9 9 [] (Some [demo_main]) (fun i => if i =? 300 then demo_sub else []) (fun _ => []) (fun _ => None)) 7 demo_main 1 fresh_client =
    (Ok (map (fun e => snd (program_tag demo_main e)) [Entry 1 (str "x") 0xC4 0 0 0; Entry 2 (str "Y") 0xC4 0 0 0; Entry 6 (str "w") 0xC4 0 0 0]), w1).
Proof.
  refine (C51_page_partial unit _ 7 demo_main demo_sub 1 fresh_client (fun e => is_valid (e_name e)) (or_intror eq_refl) demo_main_ok (proj1 demo_sub_ok) (proj2 demo_sub_ok) (fun e => is_valid_spec (e_name e)) _).
  apply (serves_weaken _ _ _ _ _ (fun _ page => length page = 9%nat)).
  - unfold page_of. intros start page more _ Pg _ L. apply (f_equal (@length entry)) in Pg. rewrite app_length, L in Pg.
    unfold demo_sub in Pg. cbn [filter e_inst] in Pg. destruct (start <=? 1), (start <=? 2), (start <=? 5), (start <=? 6); cbn [length] in Pg; lia.
  - apply (device_program 9 9 [] (Some [demo_main]) (fun i => if i =? 300 then demo_sub else []) (fun _ => []) (fun _ => None) 7 demo_main demo_main_ok). vm_compute. reflexivity.
Qed.
(** The same controller: of the four entries x, Y, __z, w the first three are a
    page; w is recorded and not returned. *)
Theorem C51_pages_refuted : exists p table (ctl : controller unit) w, program_ok p /\ Forall entry_ok table /\ increasing table /\ serves_symbols ctl 7 (program_path p) table moves /\
  exists e, In e table /\ user_tag (e_name e) /\
  forall more, exists res w1, list_sub_tags (5 + more) ctl 7 p 0 w = (Ok res, w1) /\ lookup (fst (program_tag p e)) (l_tags (l_lists w1)) <> None /\
    ~ exists t, In t res /\ ls_name t = ls_name (snd (program_tag p e)).
Proof.
  exists demo_main, demo_sub, (demo_device 2), fresh_client. split; [exact demo_main_ok|]. split; [apply demo_sub_ok|]. split; [apply demo_sub_ok|]. split; [apply demo_program|].
  exists (Entry 6 (str "w") 0xC4 0 0 0). split; [right; right; right; now left|]. split; [apply is_valid_spec; reflexivity|].
  intro more. eexists. eexists. split; [vm_compute; reflexivity|]. split; [vm_compute; discriminate|]. intros (t & I & E). destruct I as [<-|[<-|[]]]; discriminate E.
Qed.
Print Assumptions C51_pages_refuted.
(** A page without a valid tag after the instance asked for. *)
Definition hidden_sub : list entry := [Entry 1 (str "x") 0xC4 0 0 0; Entry 2 (str "__y") 0xC4 0 0 0; Entry 5 (str "Z") 0xC4 0 0 0].
Definition hidden_device : controller unit := device 2 2 [] (Some [demo_main]) (fun i => if i =? 300 then hidden_sub else []) (fun _ => []) (fun _ => None).
Lemma hidden_send w : send hidden_device 7 svc_instances (program_bytes demo_main ++ class_bytes obj_symbol ++ instance_bytes 1) tag_attrs w =
  (Ok ([1; 0; 0xD5; 0; 6; 0] ++ concat (map wire_entry [Entry 1 (str "x") 0xC4 0 0 0; Entry 2 (str "__y") 0xC4 0 0 0])), LState tt (l_seq w + 1) (l_lists w)).
Proof. destruct w as [s q l]. vm_compute. reflexivity. Qed.
Lemma hidden_loop : forall k w, exists w1, list_sub_tags k hidden_device 7 demo_main 1 w = (OutOfFuel, w1).
Proof.
  induction k as [|k IH]; intro w; [exists w; reflexivity|]. cbn [list_sub_tags]. change (1 =? 0) with false. cbv iota. unfold lbind at 1. rewrite hidden_send. cbn [app]. unfold lbind at 1, llift.
  rewrite page_header_ok by (reflexivity || lia).
  destruct (sub_page_ok unit (fun _ => None) demo_main [Entry 1 (str "x") 0xC4 0 0 0; Entry 2 (str "__y") 0xC4 0 0 0]) with
    (n := length (concat (map wire_entry [Entry 1 (str "x") 0xC4 0 0 0; Entry 2 (str "__y") 0xC4 0 0 0]))) (acc := @nil listed) (start := 1) (w := LState tt (l_seq w + 1) (l_lists w)) as (w2 & E2 & St2).
  - repeat (apply Forall_cons; [unfold entry_ok, u; cbn; lia|]). apply Forall_nil.
  - apply page_length.
  - unfold lbind at 1. rewrite E2. change (6 =? st_partial) with true. cbv iota. change (last_valid [Entry 1 (str "x") 0xC4 0 0 0; Entry 2 (str "__y") 0xC4 0 0 0] 1) with 1.
    destruct (IH w2) as (w3 & E3). exists w3. unfold lbind. now rewrite E3.
Qed.
Theorem C51_ends_refuted : exists p table (ctl : controller unit), program_ok p /\ Forall entry_ok table /\ increasing table /\ serves_symbols ctl 7 (program_path p) table two /\
  forall fuel w, exists w1, list_sub_tags fuel ctl 7 p 0 w = (OutOfFuel, w1).
Proof.
  exists demo_main, hidden_sub, hidden_device. split; [exact demo_main_ok|]. split; [|split; [|split]].
  - repeat (apply Forall_cons; [unfold entry_ok, u; cbn; lia|]); apply Forall_nil.
  - unfold hidden_sub. cbn [increasing In]. repeat (split; [intros b H; repeat (destruct H as [<-|H]; [reflexivity|]); destruct H|]). exact Logic.I.
  - apply (serves_weaken _ _ _ _ _ (fun _ page => length page = 2%nat)); [intros ? ? ? _ _ _ H; unfold two; lia|].
    apply (device_program 2 2 [] (Some [demo_main]) (fun i => if i =? 300 then hidden_sub else []) (fun _ => []) (fun _ => None) 7 demo_main demo_main_ok). vm_compute. reflexivity.
  - intros fuel w. destruct (hidden_loop fuel w) as (w1 & E). exists w1. destruct fuel as [|k]; [now injection E as <-|exact E].
Qed.
Print Assumptions C51_ends_refuted.

(** ** C70

    Full statement: ListMembers returns the template's name and every member with
    name, type and offset, in order, nested templates with theirs; and it fails when
    the controller does not know the template.  Proved with a weaker name: the
    controller may add to the name a part that begins with a semicolon, and then the
    last character of the name is lost ([C70_name_refuted]); an empty name before the
    semicolon panics ([C70_empty_refuted]); a definition cut short with status 6 is
    taken for the whole ([C70_cut_refuted]). *)
Theorem C70_members_partial : forall S (ctl : controller S) otid T id t w,
  serves_templates ctl otid T -> 1 <= id < 2 ^ 12 -> T id = Some t -> client_templates T (l_lists w) ->
  exists n, forall fuel, (n <= fuel)%nat -> exists w1,
    list_members fuel ctl otid id w = (Ok t, w1) /\ client_templates T (l_lists w1) /\ l_tags (l_lists w1) = l_tags (l_lists w).
Proof.
  intros S ctl otid T id t w HT R E C. destruct (list_members_ok ctl otid T HT id R) as (n & Hn). exists n. intros fuel F.
  destruct (Hn fuel F w C) as (r & w1 & El & Hr & (A & _ & D)). rewrite E in Hr. subst r. exists w1. split; [exact El|]. split; [apply D; exact C|exact A].
Qed.
Print Assumptions C70_members_partial.
Theorem C70_unknown : forall S (ctl : controller S) otid id fuel w, 1 <= id < 2 ^ 12 -> no_template ctl otid id -> find_id id (l_ids (l_lists w)) = None ->
  (1 <= fuel)%nat -> exists e w1, list_members fuel ctl otid id w = (Err e, w1) /\ l_lists w1 = l_lists w.
Proof.
  intros S ctl otid id fuel w R H Ef F. destruct fuel as [|k]; [lia|]. cbn [list_members]. unfold lbind at 1, look. rewrite Ef.
  destruct (H (l_ctl w) (l_seq w)) as (eip & payload & s1 & st & ext & d & Ec & Rp & L).
  unfold template_request in Ec. rewrite <- template_path_spec in Ec by lia.
  destruct (send_ok S ctl otid svc_attrlist (template_path id) [4; 0; 4; 0; 5; 0; 2; 0; 1; 0] w eip payload s1 _ _ _ _ (template_path_len id ltac:(lia)) ltac:(vm_compute; reflexivity) Ec Rp)
    as (a & b & resv & Es).
  unfold template_attrs. assert (Ez : id =? 0 = false) by (apply Z.eqb_neq; lia). rewrite Ez. change (le 2 4 ++ le 2 4 ++ le 2 5 ++ le 2 2 ++ le 2 1) with [4; 0; 4; 0; 5; 0; 2; 0; 1; 0].
  unfold lbind at 1 2. rewrite Es. unfold llift at 1.
  assert (Er : exists e, rd 36 (a :: b :: 131 :: resv :: st :: ext :: d) = Err e).
  { unfold rd. assert (Lt : (36 <=? length (a :: b :: 131%Z :: resv :: st :: ext :: d))%nat = false) by (apply Nat.leb_gt; unfold len in L; cbn [length]; lia).
    rewrite Lt. destruct (a :: b :: 131 :: resv :: st :: ext :: d); eexists; reflexivity. }
  destruct Er as (e & Er). rewrite Er. cbn [bind]. eexists. eexists. split; reflexivity.
Qed.
Print Assumptions C70_unknown.
Example ex_C70 : exists n, forall fuel, (n <= fuel)%nat -> exists w1, list_members fuel (demo_device 2) 7 0xF83 fresh_client = (Ok t_outer, w1).
Proof.
  destruct (C70_members_partial unit (demo_device 2) 7 demo_T 0xF83 t_outer fresh_client) as (n & Hn).
  - apply demo_templates.
  - lia.
  - reflexivity.
  - intros id t E. discriminate E.
  - exists n. intros fuel F. destruct (Hn fuel F) as (w1 & E & _). now exists w1.
Qed.
Example ex_C70_unknown : exists e w1, list_members 1 (demo_device 2) 7 0x200 fresh_client = (Err e, w1) /\ l_lists w1 = l_lists fresh_client.
Proof.
  apply C70_unknown; [lia| |reflexivity|lia].
  apply (device_no_template 2 3 demo_table (Some [demo_main]) (fun i => if i =? 300 then demo_sub else []) (fun _ => []) demo_defs 7); [lia|reflexivity].
Qed.
Definition named_device (name suffix : bytes) : controller unit :=
  device 1 1 [] (Some []) (fun _ => []) (fun _ => []) (fun id => if id =? 0x100 then Some (name, suffix, Template 0x100 name 30 8 1 0x77 [(str "Raw", (0, 0xC4, 0), None)]) else None).
Lemma named_serves name suffix : ~ In 0 name -> ~ In 59 name -> suffix_ok suffix -> len (name ++ suffix) < 50000 ->
  serves_template (named_device name suffix) 7 0x100 name suffix (Template 0x100 name 30 8 1 0x77 [(str "Raw", (0, 0xC4, 0), None)]).
Proof.
  intros Z0 Z59 Su L.
  apply (device_template 1 1 [] (Some []) (fun _ => []) (fun _ => [])
    (fun id => if id =? 0x100 then Some (name, suffix, Template 0x100 name 30 8 1 0x77 [(str "Raw", (0, 0xC4, 0), None)]) else None) 7 0x100 name suffix
    (Template 0x100 name 30 8 1 0x77 [(str "Raw", (0, 0xC4, 0), None)])); [lia|reflexivity| |assumption|assumption|assumption].
  unfold u. split; [reflexivity|]. split; [reflexivity|]. do 4 (split; [lia|]). split.
  - apply Forall_cons; [unfold member_ok, u; split; [vm_compute; intuition discriminate|lia]|]. apply Forall_nil.
  - unfold wire_definition. cbn [map concat member_info member_name]. rewrite !len_app in *. change (len [0]) with 1. change (len (str "Raw")) with 3. change (len []) with 0. rewrite !le_len. lia.
Qed.
Theorem C70_name_refuted : exists ctl : controller unit, exists t, serves_template ctl 7 0x100 (str "MyUDT") (str ";nEBEC") t /\
  forall more, exists t1 w1, list_members (3 + more) ctl 7 0x100 fresh_client = (Ok t1, w1) /\ name_of t1 = str "MyUD".
Proof.
  exists (named_device (str "MyUDT") (str ";nEBEC")). eexists. split.
  - apply named_serves; [vm_compute; intuition discriminate|vm_compute; intuition discriminate| |vm_compute; reflexivity].
    right. eexists. split; [reflexivity|]. vm_compute. intuition discriminate.
  - intro more. eexists. eexists. split; vm_compute; reflexivity.
Qed.
Print Assumptions C70_name_refuted.
Theorem C70_empty_refuted : exists ctl : controller unit, exists t, serves_template ctl 7 0x100 [] (str ";nEBEC") t /\
  forall more, exists w1, list_members (3 + more) ctl 7 0x100 fresh_client = (Panic, w1).
Proof.
  exists (named_device [] (str ";nEBEC")). eexists. split.
  - apply named_serves; [tauto|tauto| |vm_compute; reflexivity]. right. eexists. split; [reflexivity|]. vm_compute. intuition discriminate.
  - intro more. eexists. vm_compute. reflexivity.
Qed.
Print Assumptions C70_empty_refuted.
(** A controller which sends the definition up to the middle of the last name, with
    status 6 for "there is more". *)
Definition cutting : controller unit := fun _ req =>
  let '(svc, _) := request_tail req in
  (Ok (0, if svc =? 0x03 then plain_reply 0x83 0 0 (wire_attrs 30 8 2 0x77)
          else plain_reply 0xCC 6 0 (firstn 33 (wire_definition (str "MyUDT") [] [(str "Speed", (0, 0xC4, 0), None); (str "Position", (0, 0xC4, 4), None)]))), tt).
Theorem C70_cut_refuted : exists ctl : controller unit,
  (forall s q, exists payload s1 d, ctl s (definition_request 7 q 0x100 30) = (Ok (0, payload), s1) /\ reply payload 0xCC 6 0 d /\
     exists rest, rest <> [] /\ d ++ rest = wire_definition (str "MyUDT") [] [(str "Speed", (0, 0xC4, 0), None); (str "Position", (0, 0xC4, 4), None)]) /\
  forall more, exists t1 w1, list_members (3 + more) ctl 7 0x100 fresh_client = (Ok t1, w1) /\ map member_name (members_of t1) = [str "Speed"; str "Posi"].
Proof.
  exists cutting. split.
  - intros s q. eexists. exists tt. eexists. split; [unfold cutting, definition_request; rewrite request_tail_ok; reflexivity|]. split; [apply plain_reply_ok; vm_compute; reflexivity|].
    eexists. split; [|apply firstn_skipn]. vm_compute. discriminate.
  - intro more. eexists. eexists. split; vm_compute; reflexivity.
Qed.
Print Assumptions C70_cut_refuted.
