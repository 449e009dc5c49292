(** * Lemmas about writes *)
From Coq Require Import Permutation.
From Verif Require Import GoBase SegModel IoiModel IoiSpec IoiProof ItemsModel ItemsSpec ItemsProof TypesModel
  ReadModel ReadSpec ReadProof BatchModel BatchSpec BatchProof PackTypes PackModel WriteModel WriteSpec.

(** ** Values *)
Lemma number_raw k v : is_number k v -> raw_bytes v = number_data v /\ val_kind v = k /\ k <> KString.
Proof. destruct v; cbn [is_number raw_bytes number_data val_kind]; intros H; try contradiction; subst k; repeat split; discriminate. Qed.
Lemma number_code_cip k code : number_code k = Some code -> kind_cip k = code /\ code <> 0xFF /\ 0 <= code < 256.
Proof.
  destruct k as [|s w|w|]; [|destruct s| |]; cbn [number_code]; try discriminate.
  - intros [= <-]. vm_compute. repeat split; discriminate.
  - do 9 (try (destruct w as [|w]; try discriminate)); intros [= <-]; vm_compute; repeat split; discriminate.
  - do 9 (try (destruct w as [|w]; try discriminate)); intros [= <-]; vm_compute; repeat split; discriminate.
  - do 9 (try (destruct w as [|w]; try discriminate)); intros [= <-]; vm_compute; repeat split; discriminate.
Qed.

Lemma ser_string_data s : len s <= 82 -> ser_string s = string_data s.
Proof.
  intros H. unfold ser_string, string_data, fit. f_equal. unfold len in H.
  rewrite firstn_all2 by lia. reflexivity.
Qed.
Lemma ser_string_elem_data s : len s <= 82 -> ser_string_elem s = string_data s.
Proof.
  intros H. rewrite <- ser_string_data by exact H. unfold ser_string_elem, ser_string. cbv zeta.
  pose proof (len_nonneg s). rewrite Z.mod_small by lia. replace (84 <? len s) with false by lia. reflexivity.
Qed.

Lemma le2_code code : 0 <= code < 256 -> le 2 code = [code; 0].
Proof.
  intros. cbn [le]. rewrite Z.mod_small by lia. replace (code / 256) with 0 by (Z.to_euclidean_division_equations; lia). reflexivity.
Qed.

Lemma carries_model v ty e d : carries v ty e d ->
  item_value v = Ok d /\ (match v with WMany _ l => len l | _ => 1 end) = e /\
  forall n, write_footer (wvalue_type v) n = ty ++ le 2 n.
Proof.
  destruct 1 as [k v code C N|k l code C Nb N L|s L|ss F L].
  - destruct (number_raw k v N) as (R & K & Ns). destruct (number_code_cip k code C) as (E & Nf & B).
    assert (T : wvalue_type (WOne v) = code).
    { unfold wvalue_type. rewrite K. cbn [go_to_cip fst]. exact E. }
    split; [|split; [reflexivity|]].
    + rewrite <- R. destruct v; try reflexivity. contradiction.
    + intros n. rewrite T. unfold write_footer. replace (code =? T_string) with false by (unfold T_string; lia).
      rewrite le2_code by exact B. reflexivity.
  - destruct (number_code_cip k code C) as (E & Nf & B).
    assert (T : wvalue_type (WMany k l) = code).
    { unfold wvalue_type. cbn [go_to_cip]. destruct k; try congruence; exact E. }
    split; [|split; [reflexivity|]].
    + assert (M : map raw_bytes l = map number_data l).
      { apply map_ext_in. intros v I. rewrite Forall_forall in N. apply (number_raw k v (N v I)). }
      cbn [item_value]. rewrite M. destruct k; try reflexivity. discriminate.
    + intros n. rewrite T. unfold write_footer. replace (code =? T_string) with false by (unfold T_string; lia).
      rewrite le2_code by exact B. reflexivity.
  - split; [|split; reflexivity]. cbn [item_value]. now rewrite ser_string_data.
  - split; [|split; [|reflexivity]].
    + cbn [item_value]. rewrite map_map. cbn [str_of]. unfold ser_strings. rewrite map_id. f_equal. f_equal. apply map_ext_in.
      intros s I. apply ser_string_elem_data. rewrite Forall_forall in F. now apply F.
    + apply len_map.
Qed.

Lemma carries_scalar_buffer v ty d : carries v ty 1 d -> (forall k l, v <> WMany k l) -> buffer_value v = Ok d.
Proof.
  intros C N. destruct (carries_model _ _ _ _ C) as (E & _). destruct v as [v|k l|]; [|exfalso; now apply (N k l)|].
  - rewrite <- E. destruct v; reflexivity.
  - inversion C.
Qed.

(** ** Replies *)
Lemma write_answer_parsed payload st : write_answer payload st ->
  write_reply 0 payload = if st =? 0 then Ok tt else Err (EStatus st).
Proof.
  intros (pre & addr & id & q & svc & resv & ext & more & others & rest & L & Q & F & ->).
  unfold write_reply, reply_items. rewrite rd_app by exact L. rewrite read_items_wire by exact F. cbn [bind map].
  change (negb (0 =? 0)) with false. cbv iota. rewrite mk_data. cbn [snd].
  destruct (length2 q Q) as (a & b & ->).
  change ([a; b] ++ [svc; resv; st; ext] ++ more) with ([a; b; svc; resv; st; ext] ++ more).
  rewrite rd_app by reflexivity. reflexivity.
Qed.

Lemma write_ok_answer eip payload : bytes_ok payload -> write_reply eip payload = Ok tt ->
  eip = 0 /\ write_answer payload 0.
Proof.
  intros B. unfold write_reply, reply_items. destruct (eip =? 0) eqn:E0; cbn [negb]; [|discriminate].
  destruct (rd 6 payload) as [[pre r]| | |] eqn:R.
  2-4: cbn; discriminate.
  destruct (rd_ok_inv _ _ _ _ R) as [-> L]. apply bytes_ok_app in B. destruct B as [_ B].
  destruct (read_items r) as [[its rest]| | |] eqn:E; cbn [bind]; try discriminate.
  apply read_items_sound in E; [|exact B]. destruct E as [-> F].
  destruct its as [|i0 [|i1 others]]; try discriminate.
  destruct (rd 6 (it_data i1)) as [[hd d]| | |] eqn:R8; cbn [bind]; try discriminate.
  destruct (rd_ok_inv _ _ _ _ R8) as [D L8].
  destruct hd as [|a [|b [|c [|e [|f [|g [|]]]]]]]; try discriminate. cbn [nth].
  destruct (f =? 0) eqn:Ef; [|discriminate]. intros _. split; [lia|].
  unfold contents in *. cbn [map] in *. rewrite D in *. assert (f = 0) by lia. subst f.
  exists pre, (it_id i0, it_data i0), (it_id i1), [a; b], c, e, g, d, (map (fun it => (it_id it, it_data it)) others), rest.
  repeat split; auto; apply F.
Qed.

Lemma plain_write_answer_ok q st : 0 <= st < 256 -> write_answer (plain_write_answer q st) st.
Proof.
  intros H. exists (zeros 6), (0xA1, [1;2;3;4]), 0xB1, (le 2 q), 0xCD, 0, 0, [], [], [].
  split; [reflexivity|]. split; [apply le_length|]. split.
  - split; [vm_compute; reflexivity|]. repeat constructor; cbn [fst snd]; try (vm_compute; congruence).
  - now rewrite !app_nil_r.
Qed.

(** ** Requests *)
Lemma named_ioi ops tg d : named ops tg -> exists i, fst (new_ioi (cl_run ops) (text tg) d) = Ok i /\ ioi_buf i = encode tg.
Proof. intros (V & K & _). rewrite (C01_lemma ops tg d V K). eexists. split; reflexivity. Qed.

Lemma write_request_wire otid q path ty e d : len path < 512 -> len (ty ++ le 2 e ++ d) < 65000 ->
  path_request otid q svc_write path ((ty ++ le 2 e) ++ d) = write_request otid q (write_service path ty e d).
Proof. intros P L. rewrite <- app_assoc. rewrite path_request_wire by assumption. reflexivity. Qed.

Lemma write_single_sends {S} (ctl : controller S) ops tg v ty e d s otid q :
  named ops tg -> carries v ty e d -> len (ty ++ le 2 e ++ d) < 65000 ->
  write_single ctl (cl_run ops) s otid q (text tg) v =
  (let '(r, s1) := exchange ctl s (write_request otid q (write_service (encode tg) ty e d)) write_reply in (r, s1, q + 1)).
Proof.
  intros N C L. destruct (carries_model _ _ _ _ C) as (Ei & Ee & Ef).
  destruct (named_ioi ops tg (wvalue_type v) N) as (i & En & Eb).
  unfold write_single. rewrite En, Ei, Ee, Eb, Ef. rewrite write_request_wire; [reflexivity|apply N|exact L].
Qed.

Lemma write_udt_sends {S} crc (ctl : controller S) ops tg t v desc s otid q :
  named ops tg -> type_encode t = Ok desc -> len (fst (pack t v)) < 64000 ->
  write_udt crc ctl (cl_run ops) s otid q (text tg) t v =
  (let '(r, s1) := exchange ctl s (write_request otid q
      (write_service (encode tg) ([0xA0; 0x02] ++ le 2 (crc desc)) 1 (fst (pack t v)))) write_reply in (r, s1, q + 1)).
Proof.
  intros N E L. destruct (named_ioi ops tg T_struct N) as (i & En & Eb).
  unfold write_udt. rewrite En, E, Eb.
  replace ([T_struct; 2] ++ le 2 (crc desc) ++ le 2 1 ++ fst (pack t v))
    with ((([0xA0; 0x02] ++ le 2 (crc desc)) ++ le 2 1) ++ fst (pack t v)) by (rewrite <- !app_assoc; reflexivity).
  rewrite write_request_wire; [reflexivity|apply N|]. rewrite !len_app, !le_len. change (len [160; 2]) with 2. lia.
Qed.

(** ** WriteMap *)
Definition leaf_ok (ops : list cl_op) (kv : bytes * mvalue) (l : leaf_write) : Prop :=
  fst kv = text (lw_tag l) /\ named ops (lw_tag l) /\
  exists v, snd kv = MVal v /\ (forall k x, v <> WMany k x) /\ carries v (lw_type l) 1 (lw_data l).

Lemma map_iois_ok ops kv ls : Forall2 (leaf_ok ops) kv ls ->
  exists iois, map_iois (cl_run ops) kv = Ok iois /\ map_subs (combine kv iois) = Ok (map leaf_service ls).
Proof.
  induction 1 as [|[k mv] l kv ls (Ek & N & v & Ev & Nm & C) F (iois & E1 & E2)]; [exists []; split; reflexivity|].
  cbn [fst snd] in *. subst mv k.
  destruct (named_ioi ops (lw_tag l) (mvalue_type (MVal v)) N) as (i & En & Eb).
  exists (i :: iois). cbn [map_iois]. rewrite En. cbn [bind]. rewrite E1. cbn [bind]. split; [reflexivity|].
  cbn [combine map_subs mvalue_bytes]. rewrite (carries_scalar_buffer _ _ _ C Nm). cbn [bind]. rewrite E2. cbn [bind map].
  f_equal. f_equal. unfold leaf_service, write_service. rewrite Eb, path_size_ok by apply N.
  destruct (carries_model _ _ _ _ C) as (_ & _ & Ef). cbn [mvalue_type]. rewrite Ef, <- !app_assoc. reflexivity.
Qed.

Lemma write_map_sends {S} (ctl : controller S) ops kv ls s otid q :
  Forall2 (leaf_ok ops) kv ls -> len (multi_body q (map leaf_service ls)) < 65536 ->
  write_map ctl (cl_run ops) s otid q kv =
  (let '(r, s1) := exchange ctl s (multi_request otid q (map leaf_service ls)) (fun _ _ => Ok tt) in (r, s1, q + 1)).
Proof.
  intros F L. destruct (map_iois_ok ops kv ls F) as (iois & E1 & E2).
  unfold write_map. rewrite E1, E2, multi_request_wire by exact L. reflexivity.
Qed.

(** ** The dictionary of a struct *)
Lemma put_new k v d : ~ In k (map fst d) -> put k v d = d ++ [(k, v)].
Proof.
  induction d as [|[k' v'] d IH]; intros N; [reflexivity|]. cbn [put map fst In] in *.
  destruct (bseq k' k) eqn:E; [apply bseq_spec in E; subst; exfalso; apply N; now left|].
  rewrite IH by (intros I; apply N; now right). reflexivity.
Qed.
Lemma put_all_new d2 : forall d, NoDup (map fst (d ++ d2)) -> put_all d2 d = d ++ d2.
Proof.
  induction d2 as [|[k v] d2 IH]; intros d N; [now rewrite app_nil_r|].
  unfold put_all. cbn [fold_left fst snd]. rewrite put_new.
  - change (put_all d2 (d ++ [(k, v)]) = d ++ (k, v) :: d2). rewrite IH.
    + now rewrite <- app_assoc.
    + rewrite <- app_assoc. exact N.
  - rewrite map_app in N. cbn [map fst] in N. apply NoDup_remove_2 in N. intros I. apply N. apply in_or_app. now left.
Qed.

Definition as_dict (l : list (bytes * wvalue)) : list (bytes * mvalue) := map (fun x => (fst x, MVal (snd x))) l.
Lemma as_dict_keys l : map fst (as_dict l) = map fst l.
Proof. unfold as_dict. rewrite map_map. reflexivity. Qed.
Lemma as_dict_app a b : as_dict (a ++ b) = as_dict a ++ as_dict b.
Proof. apply map_app. Qed.
Lemma NoDup_app_l {A} (a b : list A) : NoDup (a ++ b) -> NoDup a.
Proof. induction a; intros H; [constructor|]. inversion H; subst. constructor; [|auto]. intros I. apply H2. apply in_or_app. now left. Qed.

(** Induction over nodes. *)
Fixpoint node_rect' (P : node -> Prop)
  (HL : forall v, P (NLeaf v)) (HA : forall l, P (NArray l))
  (HS : forall fs, Forall (fun f => P (snd f)) fs -> P (NStruct fs)) (n : node) : P n :=
  match n with
  | NLeaf v => HL v
  | NArray l => HA l
  | NStruct fs => HS fs ((fix go fs : Forall (fun f : bytes * bytes * node => P (snd f)) fs :=
                            match fs with [] => Forall_nil _ | f :: r => Forall_cons f (node_rect' P HL HA HS (snd f)) (go r) end) fs)
  end.

Lemma fold_dict (sub : bytes * bytes * node -> list (bytes * mvalue)) (want : bytes * bytes * node -> list (bytes * wvalue)) fs :
  Forall (fun f => NoDup (map fst (want f)) -> sub f = as_dict (want f)) fs ->
  forall d, NoDup (map fst (d ++ as_dict (concat (map want fs)))) ->
  fold_left (fun d f => put_all (sub f) d) fs d = d ++ as_dict (concat (map want fs)).
Proof.
  induction 1 as [|f fs Hf _ IH]; intros d N; [cbn; now rewrite app_nil_r|].
  cbn [map concat fold_left] in *. rewrite as_dict_app in *.
  assert (Nf : NoDup (map fst (want f))).
  { rewrite map_app in N. apply NoDup_app_r in N. rewrite map_app in N. apply NoDup_app_l in N. now rewrite as_dict_keys in N. }
  rewrite (Hf Nf). rewrite put_all_new.
  - rewrite IH; rewrite <- app_assoc; [reflexivity|exact N].
  - rewrite app_assoc in N. rewrite map_app in N. now apply NoDup_app_l in N.
Qed.

Lemma node_dict_leaves n : forall path, array_free n -> NoDup (map fst (leaves path n)) ->
  node_dict path n = as_dict (leaves path n).
Proof.
  induction n as [v|l|fs IH] using node_rect'; intros path A N.
  - reflexivity.
  - contradiction.
  - cbn [node_dict leaves] in *.
    rewrite (fold_dict (fun f => node_dict (path ++ [46] ++ fst (fst f)) (snd f)) (fun f => leaves (path ++ [46] ++ fst (fst f)) (snd f))).
    + reflexivity.
    + cbn [array_free] in A. clear N. induction IH as [|f fs Hf _ IHf]; [constructor|].
      cbn [fold_right] in A. destruct A as [A1 A2]. constructor; [|now apply IHf]. intros N. now apply Hf.
    + cbn [app]. now rewrite as_dict_keys.
Qed.

Lemma multi_dict_leaves fs : Forall (fun f => array_free (snd f)) fs -> NoDup (map fst (all_leaves fs)) ->
  multi_dict fs = as_dict (all_leaves fs).
Proof.
  intros A N. unfold multi_dict, all_leaves in *.
  rewrite (fold_dict (fun f => node_dict (snd (fst f)) (snd f)) (fun f => leaves (snd (fst f)) (snd f))).
  - reflexivity.
  - eapply Forall_impl; [|exact A]. intros f Af Nf. now apply node_dict_leaves.
  - cbn [app]. now rewrite as_dict_keys.
Qed.
