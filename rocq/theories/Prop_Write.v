(** * C23 (WriteMap), C27, C28, C55 (writes), C58, C59: writing tags *)
From Coq Require Import Permutation.
From Verif Require Import GoBase SegModel IoiModel IoiSpec IoiProof ItemsModel ItemsSpec ItemsProof TypesModel
  ReadModel ReadSpec ReadProof BatchModel BatchSpec BatchProof Prop_Batch PackTypes PackModel PackSpec Prop_Pack
  WriteModel WriteSpec WriteProof.

Definition t_speed : tag := tag1 (str "Speed").
Lemma speed_named : named [] t_speed.
Proof. exact w_speed_named. Qed.
(** What comes over the wire is bytes. *)
Definition sends_bytes {S} (ctl : controller S) : Prop := forall s req st p s1, ctl s req = (Ok (st, p), s1) -> bytes_ok p.
(** A controller that answers every write with the given status. *)
Definition says (st : Z) (s : unit) (req : bytes) : res (Z * bytes) * unit := (Ok (0, plain_write_answer 1 st), s).

(** C58: Write sends one Write Tag request: the tag's path, the type of the Go
    value, the number of elements, the elements in order.
    Missing: names that end in a bit number (refuted below), []bool (refuted
    below), strings of more than 82 characters (C13), and requests beyond 64 kB
    (C10). *)
Theorem C58_write_sends_partial : forall S (ctl : controller S) ops tg v ty e d s otid q,
  named ops tg -> t_bit tg = None -> carries v ty e d -> len (ty ++ le 2 e ++ d) < 65000 ->
  exists r s1, write_single (asked ctl) (cl_run ops) (s, []) otid q (text tg) v =
               (r, (s1, [write_request otid q (write_service (encode tg) ty e d)]), q + 1).
Proof.
  intros S ctl ops tg v ty e d s otid q N _ C L. rewrite (write_single_sends _ _ _ _ _ _ _ _ _ _ N C L).
  unfold exchange, asked. cbn [fst snd].
  destruct (ctl s _) as [[[x p]| | |] s1]; cbn [app]; repeat eexists.
Qed.
Print Assumptions C58_write_sends_partial.

Lemma ints_carry : carries (WMany (KInt true 2) [GInt true 2 5; GInt true 2 (-1)]) [0xC3; 0] 2 [5; 0; 255; 255].
Proof.
  apply (c_many (KInt true 2) [GInt true 2 5; GInt true 2 (-1)] 0xC3); [reflexivity|discriminate| |vm_compute; reflexivity].
  each ltac:(reflexivity).
Qed.
Example C58_example :
  snd (fst (write_single (asked (says 0)) (cl_run []) (tt, []) 7 1 (str "Speed") (WMany (KInt true 2) [GInt true 2 5; GInt true 2 (-1)]))) =
    (tt, [zeros 6 ++ [2; 0; 0xA1; 0; 4; 0; 7; 0; 0; 0; 0xB1; 0; 20; 0; 1; 0; 0x4D; 4; 0x91; 5] ++ str "speed" ++
          [0; 0xC3; 0; 2; 0; 5; 0; 255; 255]]).
Proof.
  destruct (C58_write_sends_partial unit (says 0) [] t_speed _ _ _ _ tt 7 1 speed_named eq_refl ints_carry eq_refl) as (r & [] & E).
  change (str "Speed") with (text t_speed). rewrite E. vm_compute. reflexivity.
Qed.

(** Write("Speed.3", true) sends the same request as Write("Speed", true): a BOOL
    for the whole tag. *)
Theorem C58_bit_refuted : exists tg1 tg2, named [] tg1 /\ named [] tg2 /\ t_bit tg1 = Some 3 /\ t_bit tg2 = None /\
  forall S (ctl : controller S) s otid q v,
    write_single ctl (cl_run []) s otid q (text tg1) (WOne (GBool v)) =
    write_single ctl (cl_run []) s otid q (text tg2) (WOne (GBool v)).
Proof.
  exists {| t_members := t_members t_speed; t_bit := Some 3 |}, t_speed.
  assert (N : named [] {| t_members := t_members t_speed; t_bit := Some 3 |}).
  { split; [apply valid_tagb_sound; vm_compute; reflexivity|]. split; [reflexivity|vm_compute; reflexivity]. }
  split; [exact N|]. split; [exact speed_named|]. split; [reflexivity|]. split; [reflexivity|].
  intros S ctl s otid q v.
  assert (C : carries (WOne (GBool v)) [0xC1; 0] 1 [if v then 1 else 0]) by (apply (c_one KBool (GBool v)); reflexivity).
  rewrite (write_single_sends ctl [] _ _ _ _ _ s otid q N C) by (destruct v; vm_compute; reflexivity).
  rewrite (write_single_sends ctl [] _ _ _ _ _ s otid q speed_named C) by (destruct v; vm_compute; reflexivity).
  reflexivity.
Qed.
Print Assumptions C58_bit_refuted.

(** A []bool goes out as a structure, without a handle. *)
Theorem C58_bool_slice_refuted : exists tg v, named [] tg /\ t_bit tg = None /\
  forall S (ctl : controller S) s otid q, exists r s1,
    write_single (asked ctl) (cl_run []) (s, []) otid q (text tg) v =
      (r, (s1, [write_request otid q (write_service (encode tg) [0xA0; 0] 2 [1; 0])]), q + 1).
Proof.
  exists t_speed, (WMany KBool [GBool true; GBool false]). split; [exact speed_named|]. split; [reflexivity|].
  intros S ctl s otid q. destruct (named_ioi [] t_speed T_struct speed_named) as (i & En & Eb).
  unfold write_single. change (wvalue_type (WMany KBool [GBool true; GBool false])) with T_struct. rewrite En, Eb.
  change (item_value (WMany KBool [GBool true; GBool false])) with (@Ok bytes [1; 0]).
  change (write_footer T_struct (len [GBool true; GBool false])) with ([0xA0; 0] ++ le 2 2).
  cbv beta iota. rewrite write_request_wire by (vm_compute; reflexivity).
  unfold exchange, asked. cbn [fst snd].
  destruct (ctl s _) as [[[x p]| | |] s1]; cbn [app]; repeat eexists.
Qed.
Print Assumptions C58_bool_slice_refuted.

(** A struct is sent as a structure with the checksum of its description as
    handle and its packed form as data. *)
Theorem C58_udt_sends : forall S crc (ctl : controller S) ops tg name fs v s otid q,
  named ops tg -> regular (TStruct name fs) -> len (fst (pack (TStruct name fs) v)) < 64000 ->
  exists r s1, write_udt crc (asked ctl) (cl_run ops) (s, []) otid q (text tg) (TStruct name fs) v =
    (r, (s1, [write_request otid q (write_service (encode tg)
                ([0xA0; 0x02] ++ le 2 (crc (join 44 (name :: members fs 0)))) 1 (fst (pack (TStruct name fs) v)))]), q + 1).
Proof.
  intros S crc ctl ops tg name fs v s otid q N R L.
  rewrite (write_udt_sends crc _ ops tg _ v _ _ otid q N (C16_type_encode_partial name fs R) L).
  unfold exchange, asked. cbn [fst snd].
  destruct (ctl s _) as [[[x p]| | |] s1]; cbn [app]; repeat eexists.
Qed.
Print Assumptions C58_udt_sends.
Example C58_udt_example : exists r s1,
  write_udt (fun _ => 0x1234) (asked (says 0)) (cl_run []) (tt, []) 7 1 (str "Speed") pair_type (VStruct [VInt 5; VBool true]) =
    (r, (s1, [write_request 7 1 (write_service (encode t_speed) [0xA0; 2; 0x34; 0x12] 1 [5; 0; 1])]), 2).
Proof.
  apply (C58_udt_sends unit (fun _ => 0x1234) (says 0) [] t_speed (str "P")); [exact speed_named|cbn; tauto|vm_compute; reflexivity].
Qed.

(** C27: any status but 0 becomes an error. *)
Theorem C27_write_reports : forall S (ctl : controller S) ops tg v ty e d s s1 otid q p st,
  named ops tg -> carries v ty e d -> len (ty ++ le 2 e ++ d) < 65000 ->
  ctl s (write_request otid q (write_service (encode tg) ty e d)) = (Ok (0, p), s1) ->
  write_answer p st ->
  write_single ctl (cl_run ops) s otid q (text tg) v = (if st =? 0 then Ok tt else Err (EStatus st), s1, q + 1).
Proof.
  intros S ctl ops tg v ty e d s s1 otid q p st N C L E A. rewrite (write_single_sends _ _ _ _ _ _ _ _ _ _ N C L).
  unfold exchange. rewrite E. now rewrite (write_answer_parsed _ _ A).
Qed.
Print Assumptions C27_write_reports.
Example C27_example : fst (fst (write_single (says 5) (cl_run []) tt 7 1 (str "Speed") (WOne (GInt true 4 3)))) = Err (EStatus 5).
Proof.
  change (str "Speed") with (text t_speed).
  rewrite (C27_write_reports unit (says 5) [] t_speed _ _ _ _ tt tt 7 1 _ 5 speed_named
    (c_one (KInt true 4) (GInt true 4 3) 0xC4 eq_refl eq_refl) eq_refl eq_refl (plain_write_answer_ok 1 5 ltac:(lia))). reflexivity.
Qed.

(** Conversely, success means the controller said so. *)
Theorem C27_success_confirmed : forall S (ctl : controller S) ops tg v ty e d s s' otid q q',
  named ops tg -> carries v ty e d -> len (ty ++ le 2 e ++ d) < 65000 -> sends_bytes ctl ->
  write_single ctl (cl_run ops) s otid q (text tg) v = (Ok tt, s', q') ->
  exists p, ctl s (write_request otid q (write_service (encode tg) ty e d)) = (Ok (0, p), s') /\ write_answer p 0.
Proof.
  intros S ctl ops tg v ty e d s s' otid q q' N C L B. rewrite (write_single_sends _ _ _ _ _ _ _ _ _ _ N C L).
  unfold exchange. destruct (ctl s _) as [[[x p]| | |] s1] eqn:E; try discriminate.
  intros X. injection X as X <- <-.
  assert (Bp : bytes_ok p) by (eapply B; exact E).
  destruct (write_ok_answer x p Bp X) as [-> A]. exists p. split; [reflexivity|exact A].
Qed.
Print Assumptions C27_success_confirmed.
Example C27_success_example : sends_bytes (says 0) /\
  fst (fst (write_single (says 0) (cl_run []) tt 7 1 (str "Speed") (WOne (GInt true 4 3)))) = Ok tt.
Proof.
  split; [|vm_compute; reflexivity]. intros s req st p s1 E. injection E as <- <- <-.
  repeat constructor; lia.
Qed.

(** Structs: the same. *)
Theorem C27_udt_reports : forall S crc (ctl : controller S) ops tg name fs v s s1 otid q p st,
  named ops tg -> regular (TStruct name fs) -> len (fst (pack (TStruct name fs) v)) < 64000 ->
  ctl s (write_request otid q (write_service (encode tg)
     ([0xA0; 0x02] ++ le 2 (crc (join 44 (name :: members fs 0)))) 1 (fst (pack (TStruct name fs) v)))) = (Ok (0, p), s1) ->
  write_answer p st ->
  write_udt crc ctl (cl_run ops) s otid q (text tg) (TStruct name fs) v = (if st =? 0 then Ok tt else Err (EStatus st), s1, q + 1).
Proof.
  intros S crc ctl ops tg name fs v s s1 otid q p st N R L E A.
  rewrite (write_udt_sends crc _ ops tg _ v _ _ otid q N (C16_type_encode_partial name fs R) L).
  unfold exchange. rewrite E. now rewrite (write_answer_parsed _ _ A).
Qed.
Print Assumptions C27_udt_reports.
Example C27_udt_example :
  fst (fst (write_udt (fun _ => 0x1234) (says 15) (cl_run []) tt 7 1 (str "Speed") pair_type (VStruct [VInt 5; VBool true]))) = Err (EStatus 15).
Proof.
  change (str "Speed") with (text t_speed). unfold pair_type.
  rewrite (C27_udt_reports unit (fun _ => 0x1234) (says 15) [] t_speed (str "P") _ _ tt tt 7 1 (plain_write_answer 1 15) 15 speed_named); try reflexivity.
  - cbn; tauto.
  - apply plain_write_answer_ok; lia.
Qed.

(** A request that cannot be made or sent, and a transport status, are reported
    by every write. *)
Theorem C27_transport_reported : forall S crc (ctl : controller S) c s otid q tag v t x kv,
  (forall s req, is_ok (fst (ctl s req)) = false) ->
  is_ok (fst (fst (write_single ctl c s otid q tag v))) = false /\
  is_ok (fst (fst (write_udt crc ctl c s otid q tag t x))) = false /\
  is_ok (fst (fst (write_map ctl c s otid q kv))) = false.
Proof.
  intros S crc ctl c s otid q tag v t x kv D.
  assert (X : forall s req k, is_ok (fst (exchange ctl s req k)) = false).
  { intros s0 req k. unfold exchange. specialize (D s0 req). destruct (ctl s0 req) as [[[? ?]| | |] ?]; cbn in *; congruence. }
  split; [|split].
  - unfold write_single. destruct (fst (new_ioi c tag (wvalue_type v))); try reflexivity.
    destruct (item_value v); try reflexivity.
    match goal with |- context [exchange ctl s ?r ?k] => specialize (X s r k); destruct (exchange ctl s r k) end. exact X.
  - unfold write_udt. destruct (fst (new_ioi c tag T_struct)); try reflexivity.
    destruct (type_encode t); try reflexivity.
    match goal with |- context [exchange ctl s ?r ?k] => specialize (X s r k); destruct (exchange ctl s r k) end. exact X.
  - unfold write_map. destruct (map_iois c kv); try reflexivity. destruct (map_subs _); try reflexivity.
    match goal with |- context [exchange ctl s ?r ?k] => specialize (X s r k); destruct (exchange ctl s r k) end. exact X.
Qed.
Print Assumptions C27_transport_reported.
Example C27_transport_example : forall s req, is_ok (fst ((fun (s : unit) (_ : bytes) => (@Err (Z * bytes) EEof, s)) s req)) = false.
Proof. reflexivity. Qed.

(** WriteMap (and so WriteMulti) reports success whatever the controller says. *)
Theorem C27_write_map_refuted : exists kv, forall p,
  fst (fst (write_map (fun s _ => (Ok (5, p), s)) (cl_run []) tt 7 1 kv)) = Ok tt.
Proof. exists [(str "Speed", MVal (WOne (GInt true 4 3)))]. intros p. vm_compute. reflexivity. Qed.
Print Assumptions C27_write_map_refuted.

(** C28: for a struct without arrays, slices or names occurring twice, WriteMulti
    sends one request holding one write per leaf, in whatever order the map is
    walked. *)
Theorem C28_one_write_per_leaf_partial : forall S (ctl : controller S) ops fs ls order s otid q,
  Forall (fun f => array_free (snd f)) fs -> NoDup (map fst (all_leaves fs)) ->
  Forall2 (fun x l => fst x = text (lw_tag l) /\ named ops (lw_tag l) /\
                      (forall k y, snd x <> WMany k y) /\ carries (snd x) (lw_type l) 1 (lw_data l)) (all_leaves fs) ls ->
  (forall d : list (bytes * mvalue), Permutation d (order d)) ->
  len (multi_body q (map leaf_service ls)) < 65536 ->
  exists r s1 ls', Permutation ls ls' /\
    write_multi (asked ctl) (cl_run ops) (s, []) otid q fs order =
    (r, (s1, [multi_request otid q (map leaf_service ls')]), q + 1).
Proof.
  intros S ctl ops fs ls order s otid q A N F P L.
  unfold write_multi. rewrite multi_dict_leaves by assumption.
  assert (F' : Forall2 (leaf_ok ops) (as_dict (all_leaves fs)) ls).
  { clear -F. induction F as [|[k v] l xs ls (E & Nm & W & C) _ IH]; cbn [as_dict map]; constructor; [|exact IH].
    cbn [fst snd] in *. split; [exact E|]. split; [exact Nm|]. exists v. auto. }
  destruct (Permutation_Forall2 (P (as_dict (all_leaves fs))) F') as (ls' & P' & F'').
  assert (L' : len (multi_body q (map leaf_service ls')) < 65536).
  { rewrite multi_body_len in *. assert (Pm := Permutation_map leaf_service P').
    assert (len (concat (map leaf_service ls')) = len (concat (map leaf_service ls))).
    { clear -Pm. induction Pm; cbn [concat]; rewrite ?len_app; lia. }
    assert (len (map leaf_service ls') = len (map leaf_service ls)) by (unfold len; now rewrite (Permutation_length Pm)).
    lia. }
  rewrite (write_map_sends _ ops _ ls' _ otid q F'' L').
  unfold exchange, asked. cbn [fst snd].
  destruct (ctl s _) as [[[x p]| | |] s1]; cbn [app]; repeat eexists; exact P'.
Qed.
Print Assumptions C28_one_write_per_leaf_partial.

(** struct { A struct { B int32; C string } `gologix:"Tank"`; D int16 `gologix:"Speed"` } *)
Definition ex_fields : list (bytes * bytes * node) :=
  [(str "A", str "Tank", NStruct [(str "B", [], NLeaf (WOne (GInt true 4 3))); (str "C", [], NLeaf (WOne (GStr (str "hi"))))]);
   (str "D", str "Speed", NLeaf (WOne (GInt true 2 9)))].
Definition tag2 (a b : bytes) : tag :=
  {| t_members := [{| m_name := a; m_subs := [] |}; {| m_name := b; m_subs := [] |}]; t_bit := None |}.
Definition ex_leaves : list leaf_write :=
  [LeafWrite (tag2 (str "Tank") (str "B")) [0xC4; 0] [3; 0; 0; 0];
   LeafWrite (tag2 (str "Tank") (str "C")) [0xA0; 2; 0xCE; 0x0F] (string_data (str "hi"));
   LeafWrite t_speed [0xC3; 0] [9; 0]].
Example C28_example : exists r s1 ls', Permutation ex_leaves ls' /\
  write_multi (asked (says 0)) (cl_run []) (tt, []) 7 1 ex_fields (fun d => rev d) =
    (r, (s1, [multi_request 7 1 (map leaf_service ls')]), 2).
Proof.
  apply (C28_one_write_per_leaf_partial unit (says 0) [] ex_fields ex_leaves).
  - each ltac:(cbn; tauto).
  - vm_compute. repeat (apply NoDup_cons; [cbn [In]; intuition congruence|]). apply NoDup_nil.
  - assert (Nm : forall a b, valid_tagb (tag2 a b) = true -> (len (encode (tag2 a b)) <? 512) = true -> named [] (tag2 a b)).
    { intros a b V L. split; [now apply valid_tagb_sound|]. split; [reflexivity|lia]. }
    change (all_leaves ex_fields) with
      [(str "Tank.B", WOne (GInt true 4 3)); (str "Tank.C", WOne (GStr (str "hi"))); (str "Speed", WOne (GInt true 2 9))].
    apply Forall2_cons; [|apply Forall2_cons; [|apply Forall2_cons; [|apply Forall2_nil]]]; cbn [fst snd lw_tag lw_type lw_data].
    + split; [reflexivity|]. split; [apply Nm; vm_compute; reflexivity|]. split; [discriminate|].
      apply (c_one (KInt true 4) (GInt true 4 3) 0xC4); reflexivity.
    + split; [reflexivity|]. split; [apply Nm; vm_compute; reflexivity|]. split; [discriminate|]. apply c_string. vm_compute. discriminate.
    + split; [reflexivity|]. split; [exact speed_named|]. split; [discriminate|].
      apply (c_one (KInt true 2) (GInt true 2 9) 0xC3); reflexivity.
  - intros d. apply Permutation_rev.
  - vm_compute. reflexivity.
Qed.

(** Arrays are left out without an error; *)
Theorem C28_arrays_dropped_refuted : exists f n, all_leaves [f] <> [] /\
  (forall S (ctl : controller S) s otid q order, (forall d : list (bytes * mvalue), Permutation d (order d)) ->
     write_multi ctl (cl_run []) s otid q [f; n] order = write_multi ctl (cl_run []) s otid q [n] order).
Proof.
  exists (str "A", str "Levels", NArray [NLeaf (WOne (GInt true 4 3)); NLeaf (WOne (GInt true 4 4))]), (str "D", str "Speed", NLeaf (WOne (GInt true 2 9))).
  split; [discriminate|]. reflexivity.
Qed.
Print Assumptions C28_arrays_dropped_refuted.
(** a slice is announced as one element; *)
Theorem C28_slice_refuted : exists l, len l = 3 /\ forall S (ctl : controller S) s otid q,
  exists r s1, write_map (asked ctl) (cl_run []) (s, []) otid q [(text t_speed, MVal (WMany (KInt true 4) l))] =
    (r, (s1, [multi_request otid q [write_service (encode t_speed) [0xC4; 0] 1 (le 4 1 ++ le 4 2 ++ le 4 3)]]), q + 1).
Proof.
  exists [GInt true 4 1; GInt true 4 2; GInt true 4 3]. split; [reflexivity|].
  intros S ctl s otid q. destruct (named_ioi [] t_speed T_dint speed_named) as (i & En & Eb).
  unfold write_map. cbn [map_iois]. change (mvalue_type (MVal (WMany (KInt true 4) _))) with T_dint. rewrite En. cbn [bind].
  cbn [combine map_subs mvalue_bytes buffer_value item_value bind]. rewrite Eb.
  rewrite multi_request_wire by (vm_compute; reflexivity).
  match goal with |- context [multi_request otid q ?l] => change l with [write_service (encode t_speed) [0xC4; 0] 1 (le 4 1 ++ le 4 2 ++ le 4 3)] end.
  unfold exchange, asked. cbn [fst snd].
  destruct (ctl s _) as [[[x p]| | |] s1]; cbn [app]; repeat eexists.
Qed.
Print Assumptions C28_slice_refuted.
(** a struct in a map goes out without a handle, whatever its type. *)
Theorem C28_struct_in_map_no_handle : forall raw, len raw < 60000 -> forall S (ctl : controller S) s otid q,
  exists r s1, write_map (asked ctl) (cl_run []) (s, []) otid q [(text t_speed, MStruct raw)] =
    (r, (s1, [multi_request otid q [write_service (encode t_speed) [0xA0; 0] 1 raw]]), q + 1).
Proof.
  intros raw L S ctl s otid q. destruct (named_ioi [] t_speed T_struct speed_named) as (i & En & Eb).
  unfold write_map. cbn [map_iois]. change (mvalue_type (MStruct raw)) with T_struct. rewrite En. cbn [bind].
  cbn [combine map_subs mvalue_bytes bind mvalue_type]. rewrite Eb.
  replace ([svc_write; path_size_byte (encode t_speed)] ++ encode t_speed ++ write_footer T_struct 1 ++ raw)
    with (write_service (encode t_speed) [0xA0; 0] 1 raw) by reflexivity.
  assert (Lb : len (multi_body q [write_service (encode t_speed) [0xA0; 0] 1 raw]) < 65536).
  { rewrite multi_body_len. cbn [concat]. rewrite app_nil_r, len_cons, len_nil. unfold write_service. rewrite !len_app.
    change (len (encode t_speed)) with 8. rewrite ?len_cons, ?len_nil. change (len (le 2 1)) with 2. change (@len Z []) with 0. lia. }
  rewrite multi_request_wire by exact Lb.
  unfold exchange, asked. cbn [fst snd].
  destruct (ctl s _) as [[[x p]| | |] s1]; cbn [app]; repeat eexists.
Qed.
Print Assumptions C28_struct_in_map_no_handle.
Theorem C28_struct_in_map_refuted : exists raw, forall S (ctl : controller S) s otid q,
  exists r s1, write_map (asked ctl) (cl_run []) (s, []) otid q [(text t_speed, MStruct raw)] =
    (r, (s1, [multi_request otid q [write_service (encode t_speed) [0xA0; 0] 1 raw]]), q + 1).
Proof. exists [1; 2; 3; 4]. intros. now apply C28_struct_in_map_no_handle. Qed.
Print Assumptions C28_struct_in_map_refuted.

(** C23 for WriteMap: one request, well formed. *)
Theorem C23_write_map_well_formed : forall S (ctl : controller S) ops kv ls s otid q,
  Forall2 (leaf_ok ops) kv ls -> len (multi_body q (map leaf_service ls)) < 65536 ->
  exists r s1 body, write_map (asked ctl) (cl_run ops) (s, []) otid q kv =
      (r, (s1, [zeros 6 ++ wire_list [(0xA1, le 4 otid); (0xB1, body)]]), q + 1) /\
    well_formed body (map leaf_service ls).
Proof.
  intros S ctl ops kv ls s otid q F L. rewrite (write_map_sends _ ops kv ls _ otid q F L).
  unfold exchange, asked. cbn [fst snd].
  destruct (ctl s _) as [[[x p]| | |] s1]; cbn [app]; do 3 eexists; (split; [reflexivity|]); now apply multi_body_well_formed.
Qed.
Print Assumptions C23_write_map_well_formed.
(** Whatever the values are, slices and structs included: if anything is sent it
    is one packet whose count, offsets and paths are those of the map's entries, in
    the order the map is walked. *)
Lemma serialize_two_len a b : len (serialize_items [a; b]) = 16 + len (it_data a) + len (it_data b).
Proof.
  unfold serialize_items. cbn [map concat]. unfold item_bytes. rewrite !len_app, !le_len, ?len_nil. lia.
Qed.
Lemma multi_request_bytes_len otid q l : len (multi_request_bytes otid q l) = 30 + 2 * len l + len (concat l).
Proof.
  unfold multi_request_bytes. rewrite serialize_two_len. unfold new_item, item_write, item_empty. cbn [it_data].
  rewrite !len_app, concat_le_len, !le_len. unfold multi_path. change (len [svc_multi; 2]) with 2. change (len [32; 2; 36; 1]) with 4. change (@len Z []) with 0.
  replace (len (jump_table (2 + 2 * len l) l)) with (len l); [lia|].
  generalize (2 + 2 * len l). induction l as [|x l IH]; intro z; [reflexivity|]. cbn [jump_table]. rewrite !len_cons. now rewrite <- IH.
Qed.
Lemma map_subs_paths ops kv tags iois subs : map fst kv = map text tags -> Forall (named ops) tags ->
  map_iois (cl_run ops) kv = Ok iois -> map_subs (combine kv iois) = Ok subs ->
  Forall2 (fun tg b => exists tail, b = [0x4D; len (encode tg) / 2] ++ encode tg ++ tail) tags subs.
Proof.
  revert tags iois subs. induction kv as [|[k v] kv IH]; intros [|tg tags] iois subs Ek F Ei Es; try discriminate.
  - cbn in Ei. injection Ei as <-. cbn in Es. injection Es as <-. constructor.
  - cbn [map fst] in Ek. injection Ek as -> Ek. inversion F as [|? ? N F']; subst.
    cbn [map_iois] in Ei. destruct (named_ioi ops tg (mvalue_type v) N) as (i & En & Eb). rewrite En in Ei. cbn [bind] in Ei.
    destruct (map_iois (cl_run ops) kv) as [l| | |] eqn:E1; cbn [bind] in Ei; try discriminate. injection Ei as <-.
    cbn [combine map_subs] in Es. destruct (mvalue_bytes v) as [d| | |]; cbn [bind] in Es; try discriminate.
    destruct (map_subs (combine kv l)) as [l2| | |] eqn:E2; cbn [bind] in Es; try discriminate. injection Es as <-.
    constructor; [|exact (IH tags l l2 Ek F' eq_refl E2)].
    rewrite Eb, path_size_ok by apply N. eexists. reflexivity.
Qed.
Theorem C23_write_map_any : forall S (ctl : controller S) ops kv tags s otid q r s1 log q1,
  map fst kv = map text tags -> Forall (named ops) tags ->
  write_map (asked ctl) (cl_run ops) (s, []) otid q kv = (r, (s1, log), q1) ->
  Forall (fun req => len req < 65536) log ->
  log = [] /\ r <> Ok tt \/
  exists body services, log = [zeros 6 ++ wire_list [(0xA1, le 4 otid); (0xB1, body)]] /\
    well_formed body services /\
    Forall2 (fun tg b => exists tail, b = [0x4D; len (encode tg) / 2] ++ encode tg ++ tail) tags services.
Proof.
  intros S ctl ops kv tags s otid q r s1 log q1 Ek F E Lg. unfold write_map in E.
  destruct (map_iois (cl_run ops) kv) as [iois|e| |] eqn:Ei; [|injection E as <- _ <- _; left; split; [reflexivity|discriminate]..].
  destruct (map_subs (combine kv iois)) as [subs|e| |] eqn:Es; [|injection E as <- _ <- _; left; split; [reflexivity|discriminate]..].
  right. assert (log = [multi_request_bytes otid q subs]) as ->.
  { unfold exchange, asked in E. cbn [fst snd] in E. destruct (ctl s (multi_request_bytes otid q subs)) as [[[x p]| | |] s2]; now injection E. }
  inversion Lg as [|? ? L _]; subst. rewrite multi_request_bytes_len in L.
  assert (B : len (multi_body q subs) < 65536) by (rewrite multi_body_len; lia).
  exists (multi_body q subs), subs. split; [now rewrite multi_request_wire|]. split; [now apply multi_body_well_formed|].
  exact (map_subs_paths ops kv tags iois subs Ek F Ei Es).
Qed.
Print Assumptions C23_write_map_any.
Example ex_C23_any : exists req, snd (snd (fst (write_map (asked (says 0)) (cl_run []) (tt, []) 7 1
    [(text t_speed, MStruct [1; 2; 3]); (text (tag2 (str "Tank") (str "B")), MVal (WMany (KInt true 2) [GInt true 2 5; GInt true 2 6]))]))) = [req] /\
  len req < 65536 /\ named [] t_speed /\ named [] (tag2 (str "Tank") (str "B")).
Proof.
  eexists. split; [vm_compute; reflexivity|]. split; [vm_compute; reflexivity|]. split; [exact speed_named|].
  split; [apply valid_tagb_sound; vm_compute; reflexivity|]. split; [reflexivity|vm_compute; reflexivity].
Qed.
(** The number of elements is not that of the entry, though: 1 for a slice of
    three; *)
Theorem C23_elements_refuted : exists kv v, kv = [(text t_speed, MVal v)] /\ carries v [0xC4; 0] 3 (le 4 1 ++ le 4 2 ++ le 4 3) /\
  forall S (ctl : controller S) s otid q, exists r s1 body,
    write_map (asked ctl) (cl_run []) (s, []) otid q kv = (r, (s1, [zeros 6 ++ wire_list [(0xA1, le 4 otid); (0xB1, body)]]), q + 1) /\
    well_formed body [write_service (encode t_speed) [0xC4; 0] 1 (le 4 1 ++ le 4 2 ++ le 4 3)].
Proof.
  exists [(text t_speed, MVal (WMany (KInt true 4) [GInt true 4 1; GInt true 4 2; GInt true 4 3]))], (WMany (KInt true 4) [GInt true 4 1; GInt true 4 2; GInt true 4 3]).
  split; [reflexivity|]. split.
  { apply (c_many (KInt true 4) [GInt true 4 1; GInt true 4 2; GInt true 4 3] 0xC4); [reflexivity|discriminate|each ltac:(reflexivity)|reflexivity]. }
  intros S ctl s otid q. destruct (named_ioi [] t_speed T_dint speed_named) as (i & En & Eb).
  unfold write_map. cbn [map_iois]. change (mvalue_type (MVal (WMany (KInt true 4) _))) with T_dint. rewrite En. cbn [bind].
  cbn [combine map_subs mvalue_bytes buffer_value item_value bind]. rewrite Eb.
  rewrite multi_request_wire by (vm_compute; reflexivity).
  match goal with |- context [multi_request otid q ?l] => change l with [write_service (encode t_speed) [0xC4; 0] 1 (le 4 1 ++ le 4 2 ++ le 4 3)] end.
  unfold exchange, asked. cbn [fst snd].
  destruct (ctl s _) as [[[x p]| | |] s1]; cbn [app]; do 3 eexists; (split; [reflexivity|]); apply multi_body_well_formed; rewrite multi_body_len; vm_compute; reflexivity.
Qed.
Print Assumptions C23_elements_refuted.
(** and a map of more than 64 kB makes a packet whose offsets have wrapped around:
    the last entry's points into the first entries. *)
Definition big_map : list (bytes * mvalue) := [(text t_speed, MStruct (zeros (Z.to_nat 65540))); (text t_speed, MVal (WOne (GInt true 4 3)))].
Theorem C23_big_refuted : exists (ctl : controller unit) req, Forall (fun kv => fst kv = text t_speed) big_map /\
  snd (snd (fst (write_map (asked ctl) (cl_run []) (tt, []) 7 1 big_map))) = [req] /\
  let body := skipn 20 req in
  firstn 10 body = le 2 1 ++ [0x0A; 2; 0x20; 0x02; 0x24; 0x01] ++ le 2 2 /\
  (let at2 := skipn (8 + Z.to_nat (unle (firstn 2 (skipn 12 body)))) body in firstn 2 at2 <> [0x4D; 4]).
Proof.
  exists (says 0), (hd [] (snd (snd (fst (write_map (asked (says 0)) (cl_run []) (tt, []) 7 1 big_map))))).
  split; [apply Forall_cons; [reflexivity|apply Forall_cons; [reflexivity|apply Forall_nil]]|]. split.
  { assert (L : length (snd (snd (fst (write_map (asked (says 0)) (cl_run []) (tt, []) 7 1 big_map)))) = 1%nat) by (vm_compute; reflexivity).
    destruct (snd (snd (fst (write_map (asked (says 0)) (cl_run []) (tt, []) 7 1 big_map)))) as [|x [|]]; [discriminate|reflexivity|discriminate]. }
  cbv zeta. split; [vm_compute; reflexivity|]. vm_compute. discriminate.
Qed.
Print Assumptions C23_big_refuted.

(** C59: the size of a batch write.  It is never split, so it fits the connection
    only if all its parts do; *)
Theorem C59_size_partial : forall S (ctl : controller S) ops kv ls s otid q cs,
  Forall2 (leaf_ok ops) kv ls -> cs < 65536 ->
  10 + fold_right (fun l n => 2 + len (leaf_service l) + n) 0 ls <= cs ->
  exists r s1 body, write_map (asked ctl) (cl_run ops) (s, []) otid q kv =
      (r, (s1, [zeros 6 ++ wire_list [(0xA1, le 4 otid); (0xB1, body)]]), q + 1) /\ len body <= cs.
Proof.
  intros S ctl ops kv ls s otid q cs F C L.
  assert (B : len (multi_body q (map leaf_service ls)) = 10 + fold_right (fun l n => 2 + len (leaf_service l) + n) 0 ls).
  { rewrite multi_body_len. clear. induction ls as [|l ls IH]; [reflexivity|].
    cbn [map concat fold_right]. rewrite len_cons, len_app. lia. }
  rewrite (write_map_sends _ ops kv ls _ otid q F) by lia.
  unfold exchange, asked. cbn [fst snd].
  destruct (ctl s _) as [[[x p]| | |] s1]; cbn [app]; do 3 eexists; (split; [reflexivity|]); rewrite B; exact L.
Qed.
Print Assumptions C59_size_partial.
(** fifty strings make a request of more than 4000 bytes. *)
Definition many_strings : list (bytes * mvalue) := repeat (text t_speed, MVal (WOne (GStr (str "hi")))) 50.
Theorem C59_write_map_refuted : exists (ctl : controller unit) kv req body,
  Forall (fun x => exists l, leaf_ok [] x l /\ len (leaf_service l) <= 110) kv /\
  snd (snd (fst (write_map (asked ctl) (cl_run []) (tt, []) 7 1 kv))) = [req] /\
  req = zeros 6 ++ wire_list [(0xA1, le 4 7); (0xB1, body)] /\ len body > 4002.
Proof.
  exists (says 0), many_strings, (multi_request 7 1 (map leaf_service (repeat (LeafWrite t_speed [0xA0; 2; 0xCE; 0x0F] (string_data (str "hi"))) 50))),
    (multi_body 1 (map leaf_service (repeat (LeafWrite t_speed [0xA0; 2; 0xCE; 0x0F] (string_data (str "hi"))) 50))).
  assert (Lf : leaf_ok [] (text t_speed, MVal (WOne (GStr (str "hi")))) (LeafWrite t_speed [0xA0; 2; 0xCE; 0x0F] (string_data (str "hi")))).
  { split; [reflexivity|]. split; [exact speed_named|]. exists (WOne (GStr (str "hi"))). split; [reflexivity|]. split; [discriminate|].
    apply c_string. vm_compute. discriminate. }
  split; [|split; [vm_compute; reflexivity|split; [reflexivity|vm_compute; reflexivity]]].
  apply Forall_forall. intros x I. apply repeat_spec in I. subst x. eexists. split; [exact Lf|vm_compute; discriminate].
Qed.
Print Assumptions C59_write_map_refuted.

(** C55, writes: a reply with fewer than two items is fatal. *)
Theorem C55_write_reply_refuted : exists p, fst (fst (write_single (fun s _ => (Ok (0, p), s)) (cl_run []) tt 7 1 (text t_speed) (WOne (GInt true 4 3)))) = Panic.
Proof. exists (zeros 8). vm_compute. reflexivity. Qed.
Print Assumptions C55_write_reply_refuted.
(** Nothing else crashes a write. *)
Theorem C55_write_only_short_crashes : forall S (ctl : controller S) ops tg v ty e d s otid q,
  named ops tg -> carries v ty e d -> len (ty ++ le 2 e ++ d) < 65000 -> sends_bytes ctl ->
  (forall s req, fst (ctl s req) <> Panic) ->
  fst (fst (write_single ctl (cl_run ops) s otid q (text tg) v)) = Panic ->
  exists pre l rest s1, length pre = 6%nat /\ len l < 2 /\
    ctl s (write_request otid q (write_service (encode tg) ty e d)) = (Ok (0, pre ++ wire_list l ++ rest), s1).
Proof.
  intros S ctl ops tg v ty e d s otid q N C L B P. rewrite (write_single_sends _ _ _ _ _ _ _ _ _ _ N C L).
  unfold exchange. specialize (P s (write_request otid q (write_service (encode tg) ty e d))).
  destruct (ctl s _) as [[[x p]| | |] s1] eqn:E; cbn [fst] in *; try congruence.
  unfold write_reply, reply_items. destruct (x =? 0) eqn:Ex; cbn [negb]; [|discriminate].
  destruct (rd 6 p) as [[pre r]| | |] eqn:R.
  2-4: cbn; discriminate.
  assert (Bp := B _ _ _ _ _ E).
  destruct (rd_ok_inv _ _ _ _ R) as [-> Lp]. apply bytes_ok_app in Bp. destruct Bp as [_ Bp].
  destruct (read_items r) as [[its rest]| | |] eqn:I; cbn [bind]; try discriminate.
  2: exfalso; now apply (proj1 (read_items_safe r)).
  apply read_items_sound in I; [|exact Bp]. destruct I as [-> F]. intros X.
  exists pre, (contents its), rest, s1. split; [exact Lp|]. assert (x = 0) by lia. subst x. split; [|reflexivity].
  destruct its as [|i0 [|i1 its]]; [vm_compute; reflexivity|unfold contents, len; cbn; lia|exfalso].
  destruct (rd 6 (it_data i1)) as [[h z]| | |] eqn:Z6; cbn [bind] in X.
  - destruct (nth 4 h 0 =? 0); discriminate.
  - discriminate.
  - unfold rd in Z6. destruct (6 <=? List.length (it_data i1))%nat; [|destruct (it_data i1)]; discriminate.
  - discriminate.
Qed.
Print Assumptions C55_write_only_short_crashes.
Example C55_write_example : exists p, len p = 8 /\
  fst (fst (write_single (fun (s : unit) _ => (Ok (0, p), s)) (cl_run []) tt 7 1 (text t_speed) (WOne (GInt true 4 3)))) = Panic /\
  carries (WOne (GInt true 4 3)) [0xC4; 0] 1 [3; 0; 0; 0].
Proof. exists (zeros 8). split; [reflexivity|]. split; [vm_compute; reflexivity|]. apply (c_one (KInt true 4) (GInt true 4 3)); reflexivity. Qed.
