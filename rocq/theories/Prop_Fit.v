(** * Properties C120 and C121: sizes of replies and of types *)
From Verif Require Import GoBase IoiModel IoiSpec IoiProof ItemsModel ItemsSpec TypesModel
  ReadModel ReadSpec ReadProof BatchModel BatchSpec BatchProof FitSpec FitProof Prop_Batch.

(** C120.  ReadList divides the tags so that what the controller has to say to
    each request fits in the connection.  This holds when no tag's answer is
    longer than its question; *)
Theorem C120_short_partial : forall S (ctl : controller S) ops ex otid cs ws fuel s q r s' log q',
  cs < 65535 -> Forall (fun w => named ops (w_tag w)) ws ->
  Forall (fun w => 16 + len (encode (w_tag w)) <= cs) ws ->
  Forall (fun w => forall b, answer_to w b -> len b <= len (read_service w)) ws ->
  read_batches fuel (asked ctl) (cl_run ops) (s, []) otid q cs (map (desc ex) ws) = (r, (s', log), q') ->
  Forall (fun req => exists q0 l, req = multi_request otid q0 (map read_service l) /\ replies_fit cs l) log.
Proof.
  intros S ctl ops ex otid cs ws fuel s q r s' log q' Hcs F Fit Sh E.
  destruct (batches_data_log ops ex ctl otid cs Hcs fuel ws F Fit _ _ _ _ _ _ _ E) as (new & -> & Snt).
  eapply Forall_impl; [|exact Snt]. intros req (q0 & l & Fl & (_ & (a & b & Ew) & Rq & _) & ->).
  exists q0, l. split; [reflexivity|]. intros q1 answers A.
  rewrite Ew, !Forall_app in Sh. destruct Sh as (_ & Sl & _).
  pose proof (answers_short l answers A Sl). rewrite multi_reply_len. rewrite request_size_eq in Rq.
  assert (len answers = len l) by (unfold len; f_equal; symmetry; now apply Forall2_len in A). lia.
Qed.
Print Assumptions C120_short_partial.

(** for elementary types, when the values and two bytes are no longer than the
    path.  A single REAL or DINT needs a name of three letters. *)
Theorem C120_elementary_partial : forall S (ctl : controller S) ops ex otid cs ws fuel s q r s' log q',
  cs < 65535 -> Forall (fun w => named ops (w_tag w)) ws ->
  Forall (fun w => 16 + len (encode (w_tag w)) <= cs) ws ->
  Forall (fun w => exists k, width (w_type w) = Some k /\ k * w_elems w + 2 <= len (encode (w_tag w))) ws ->
  read_batches fuel (asked ctl) (cl_run ops) (s, []) otid q cs (map (desc ex) ws) = (r, (s', log), q') ->
  Forall (fun req => exists q0 l, req = multi_request otid q0 (map read_service l) /\ replies_fit cs l) log.
Proof.
  intros S ctl ops ex otid cs ws fuel s q r s' log q' Hcs F Fit Sh E.
  eapply C120_short_partial; try eassumption.
  eapply Forall_impl; [|exact Sh]. intros w (k & W & L) b A. rewrite (answer_len w k b W A), read_service_len. lia.
Qed.
Print Assumptions C120_elementary_partial.

Definition w_press : wish := Wish (tag1 (str "Pressure")) 0xCA 2 None.
Example ex_C120_short :
  Forall (fun w => exists k, width (w_type w) = Some k /\ k * w_elems w + 2 <= len (encode (w_tag w))) [w_speed; w_press] /\
  snd (snd (fst (read_batches 9 (asked ex_plc) (cl_run []) (tt, []) 7 1 40 (map (desc (fun _ => SNil)) [w_speed; w_press])))) <> [] /\
  Forall2 answer_to [w_speed; w_press]
    [[0xCC; 0; 0; 0] ++ [0xC4; 0] ++ le 4 77; [0xCC; 0; 0; 0] ++ [0xCA; 0] ++ le 4 0x3F800000 ++ le 4 0x40000000] /\
  len (multi_body 1 (map read_service [w_speed; w_press])) = 40 /\
  len (multi_reply 1 [[0xCC; 0; 0; 0] ++ [0xC4; 0] ++ le 4 77;
                      [0xCC; 0; 0; 0] ++ [0xCA; 0] ++ le 4 0x3F800000 ++ le 4 0x40000000]) = 36.
Proof.
  split; [each ltac:(eexists; split; [reflexivity|vm_compute; discriminate])|].
  split; [vm_compute; discriminate|]. split; [|split; vm_compute; reflexivity].
  constructor; [|constructor; [|constructor]].
  - apply (ans_values w_speed [GInt true 4 77] (le 4 77)); [discriminate| |reflexivity].
    rewrite <- (app_nil_r (le 4 77)). constructor; [|constructor]. apply enc_int; [reflexivity|cbn; lia].
  - apply (ans_values w_press [GFloat 4 0x3F800000; GFloat 4 0x40000000] (le 4 0x3F800000 ++ le 4 0x40000000)); [discriminate| |reflexivity].
    constructor; [apply enc_real; lia|]. rewrite <- (app_nil_r (le 4 0x40000000)). constructor; [apply enc_real; lia|constructor].
Qed.

(** What is always counted is the values themselves: unless a request is for one
    tag only, they come to less than the size of the connection, and the reply is
    too long by less than eight bytes and eight for each tag. *)
Theorem C120_values_partial : forall S (ctl : controller S) ops ex otid cs ws fuel s q r s' log q',
  cs < 65535 -> Forall (fun w => named ops (w_tag w)) ws ->
  Forall (fun w => 16 + len (encode (w_tag w)) <= cs) ws ->
  Forall (fun w => width (w_type w) <> None) ws ->
  read_batches fuel (asked ctl) (cl_run ops) (s, []) otid q cs (map (desc ex) ws) = (r, (s', log), q') ->
  Forall (fun req => exists q0 l, req = multi_request otid q0 (map read_service l) /\
    (length l = 1%nat \/ values_size l < cs /\ replies_fit (cs + 7 + 8 * len l) l)) log.
Proof.
  intros S ctl ops ex otid cs ws fuel s q r s' log q' Hcs F Fit El E.
  destruct (batches_data_log ops ex ctl otid cs Hcs fuel ws F Fit _ _ _ _ _ _ _ E) as (new & -> & Snt).
  eapply Forall_impl; [|exact Snt]. intros req (q0 & l & Fl & (_ & (a & b & Ew) & _ & Dt) & ->).
  exists q0, l. split; [reflexivity|]. destruct Dt as [?|Dt]; [now left|right].
  rewrite Ew, !Forall_app in El. destruct El as (_ & El & _).
  assert (V : values_size l = counted l).
  { clear -El. induction El as [|w l N _ IH]; [reflexivity|]. cbn [values_size counted fold_right].
    fold (values_size l) (counted l). rewrite IH. destruct (width (w_type w)) as [k|] eqn:W; [|congruence].
    now rewrite (width_size _ _ W). }
  split; [lia|]. intros q1 answers A. rewrite multi_reply_len, (answers_values l answers A El).
  assert (len answers = len l) by (unfold len; f_equal; symmetry; now apply Forall2_len in A). lia.
Qed.
Print Assumptions C120_values_partial.
Definition letters (from n : Z) : list wish :=
  map (fun i => Wish (tag1 [from + Z.of_nat i]) 0xC4 1 None) (seq 0 (Z.to_nat n)).
Example ex_C120_values : Forall (fun w => width (w_type w) <> None) (letters 97 3) /\
  snd (snd (fst (read_batches 9 (asked ex_plc) (cl_run []) (tt, []) 7 1 40 (map (desc (fun _ => SNil)) (letters 97 3))))) =
    [multi_request 7 2 (map read_service (letters 97 3))] /\
  values_size (letters 97 3) = 12.
Proof. split; [repeat constructor; discriminate|]. split; vm_compute; reflexivity. Qed.

(** In full it is false: what stands around the values is not counted.  Fifty
    DINTs with two-letter names, over a connection of 504 bytes: the first
    request asks for 49 of them and the reply takes 596 bytes. *)
Definition pairs : list wish :=
  concat (map (fun c => map (fun i => Wish (tag1 [c; 48 + Z.of_nat i]) 0xC4 1 None) (seq 0 10)) [97; 98; 99; 100; 101]).
Definition zero_dint : bytes := [0xCC; 0; 0; 0] ++ [0xC4; 0] ++ le 4 0.
Lemma dint_answer w : w_type w = 0xC4 -> w_elems w = 1 -> answer_to w zero_dint.
Proof.
  intros T E. unfold zero_dint. rewrite <- T. apply (ans_values w [GInt true 4 0] (le 4 0)).
  - now rewrite T.
  - rewrite T. rewrite <- (app_nil_r (le 4 0)). constructor; [|constructor]. apply enc_int; [reflexivity|cbn; lia].
  - now rewrite E.
Qed.
Lemma dint_answers l : Forall (fun w => w_type w = 0xC4 /\ w_elems w = 1) l -> Forall2 answer_to l (repeat zero_dint (length l)).
Proof. induction 1 as [|w l [T E] _ IH]; constructor; [now apply dint_answer|exact IH]. Qed.
Theorem C120_refuted : exists (ctl : controller unit) ws,
  Forall (fun w => named [] (w_tag w)) ws /\ Forall (fun w => 16 + len (encode (w_tag w)) <= 504) ws /\
  Forall (fun w => width (w_type w) <> None) ws /\
  exists req l answers,
    In req (snd (snd (fst (read_batches 9 (asked ctl) (cl_run []) (tt, []) 7 1 504 (map (desc (fun _ => SNil)) ws))))) /\
    req = multi_request 7 2 (map read_service l) /\ length l = 49%nat /\
    Forall2 answer_to l answers /\ len (multi_reply 2 answers) = 596.
Proof.
  exists (fun s _ => (Err EEof, s)), pairs.
  split; [each ltac:(apply tag1_named; vm_compute; reflexivity)|].
  split; [each ltac:(vm_compute; discriminate)|].
  split; [each ltac:(vm_compute; discriminate)|].
  exists (multi_request 7 2 (map read_service (firstn 49 pairs))), (firstn 49 pairs), (repeat zero_dint 49).
  split; [vm_compute; now left|]. split; [reflexivity|]. split; [reflexivity|].
  split; [|vm_compute; reflexivity]. apply (dint_answers (firstn 49 pairs)).
  each ltac:(split; reflexivity).
Qed.
Print Assumptions C120_refuted.

(** A text counts for one byte and takes ninety: ten of them are asked for at once. *)
Definition texts : list wish :=
  map (fun i => Wish (tag1 (str "Operator" ++ [48 + Z.of_nat i])) 0xFF 1 None) (seq 0 10).
Definition no_text : bytes := [0xCC; 0; 0; 0] ++ [0xA0; 2] ++ [0xCE; 0x0F] ++ (le 4 0 ++ zeros 82 ++ zeros 2).
Lemma text_answer w : w_type w = 0xFF -> w_elems w = 1 -> answer_to w no_text.
Proof.
  intros T E. apply (ans_texts w [[]] (le 4 0 ++ zeros 82 ++ zeros 2) [0xCE; 0x0F]); [exact T| |now rewrite E|reflexivity].
  rewrite <- (app_nil_r (le 4 0 ++ zeros 82 ++ zeros 2)). constructor; [|constructor].
  exists (zeros 82), (zeros 2). split; [vm_compute; discriminate|]. repeat split; reflexivity.
Qed.
Theorem C120_texts_refuted : exists (ctl : controller unit) ws,
  Forall (fun w => named [] (w_tag w)) ws /\ Forall (fun w => 16 + len (encode (w_tag w)) <= 504) ws /\
  exists req l answers,
    In req (snd (snd (fst (read_batches 9 (asked ctl) (cl_run []) (tt, []) 7 1 504 (map (desc (fun _ => SNil)) ws))))) /\
    req = multi_request 7 2 (map read_service l) /\ length l = 10%nat /\
    Forall2 answer_to l answers /\ len (multi_reply 2 answers) = 988.
Proof.
  exists (fun s _ => (Err EEof, s)), texts.
  split; [each ltac:(apply tag1_named; vm_compute; reflexivity)|].
  split; [each ltac:(vm_compute; discriminate)|].
  exists (multi_request 7 2 (map read_service texts)), texts, (repeat no_text 10).
  split; [vm_compute; now left|]. split; [reflexivity|]. split; [reflexivity|].
  split; [|vm_compute; reflexivity]. repeat (constructor; [apply text_answer; reflexivity|]). constructor.
Qed.
Print Assumptions C120_texts_refuted.

(** A structure counts for 88 bytes however large it is. *)
Definition blocks : list wish :=
  map (fun i => Wish (tag1 (str "Recipe" ++ [48 + Z.of_nat i])) 0xA0 1 (Some 200%nat)) (seq 0 4).
Definition block_reply : bytes := [0xCC; 0; 0; 0] ++ [0xA0; 2] ++ [0x34; 0x12] ++ zeros 200.
Lemma block_answer w : w_type w = 0xA0 -> w_struct w = Some 200%nat -> w_elems w = 1 -> answer_to w block_reply.
Proof. intros T S E. now apply (ans_struct w 200 (zeros 200) [0x34; 0x12]). Qed.
Theorem C120_structures_refuted : exists (ctl : controller unit) ws,
  Forall (fun w => named [] (w_tag w)) ws /\ Forall (fun w => 16 + len (encode (w_tag w)) <= 504) ws /\
  exists req l answers,
    In req (snd (snd (fst (read_batches 9 (asked ctl) (cl_run []) (tt, []) 7 1 504 (map (desc (fun _ => SNil)) ws))))) /\
    req = multi_request 7 2 (map read_service l) /\ length l = 4%nat /\
    Forall2 answer_to l answers /\ len (multi_reply 2 answers) = 848.
Proof.
  exists (fun s _ => (Err EEof, s)), blocks.
  split; [each ltac:(apply tag1_named; vm_compute; reflexivity)|].
  split; [each ltac:(vm_compute; discriminate)|].
  exists (multi_request 7 2 (map read_service blocks)), blocks, (repeat block_reply 4).
  split; [vm_compute; now left|]. split; [reflexivity|]. split; [reflexivity|].
  split; [|vm_compute; reflexivity]. repeat (constructor; [apply block_answer; reflexivity|]). constructor.
Qed.
Print Assumptions C120_structures_refuted.

(** C121.  CIPType.Size is the number of bytes readValue takes from its reader;
    true except for texts, *)
Theorem C121_size_partial : forall t r v r', read_value t r = Ok (v, r') -> t <> 0xFF ->
  len r = type_size t + len r'.
Proof.
  intros t r v r' E N. unfold read_value, read_int in E.
  repeat match type of E with
  | (if t =? ?c then _ else _) = _ => destruct (Z.eqb_spec t c); [subst t|]
  end; try discriminate.
  all: try (unfold T_string in N; congruence).
  all: match type of E with (let* (_, _) := ?x in _) = _ => destruct x as [[d rr]|e| |] eqn:R; try discriminate end;
    injection E as _ <-; apply rd_ok_inv in R as (-> & L); rewrite len_app; unfold len; rewrite L; reflexivity.
Qed.
Print Assumptions C121_size_partial.
(** and a buffer of that size holds one value of every elementary type but ULINT. *)
Theorem C121_buffer_partial : forall t d k, width t = Some k -> t <> 0xC9 -> len d = type_size t ->
  exists v, read_value t d = Ok (v, []) /\ type_size t = k.
Proof.
  intros t d k W N L. pose proof (width_size t k W) as K. rewrite K in L.
  assert (D : forall n, k = Z.of_nat n -> rd n d = Ok (d, [])).
  { intros n ->. rewrite <- (app_nil_r d) at 1. apply rd_app. unfold len in L. lia. }
  enough (exists v, read_value t d = Ok (v, [])) as [v E] by (exists v; now split).
  clear K L. unfold width in W. destruct (int_type t) as [[sg w]|] eqn:I.
  - injection W as <-. specialize (D w eq_refl). unfold int_type in I.
    repeat match type of I with match ?x with _ => _ end = _ => destruct x; try discriminate end;
    injection I as <- <-; try congruence; cbv [read_value read_int];
    cbn [Z.eqb Pos.eqb T_unknown T_struct T_bool T_byte T_sint T_int T_dint T_lint T_usint T_uint T_udint T_lword T_real T_lreal T_word T_dword T_string];
    rewrite D; cbn [bind]; eexists; reflexivity.
  - repeat match type of W with match ?x with _ => _ end = _ => destruct x; try discriminate end;
    injection W as <-; first [specialize (D 1%nat eq_refl)|specialize (D 4%nat eq_refl)|specialize (D 8%nat eq_refl)];
    cbv [read_value];
    cbn [Z.eqb Pos.eqb T_unknown T_struct T_bool T_byte T_sint T_int T_dint T_lint T_usint T_uint T_udint T_lword T_real T_lreal T_word T_dword T_string];
    rewrite D; cbn [bind]; eexists; reflexivity.
Qed.
Print Assumptions C121_buffer_partial.
Example ex_C121 : read_value 0xC3 [5; 1; 9] = Ok (GInt true 2 261, [9]) /\ len [5; 1; 9] = type_size 0xC3 + len [9] /\
  width 0xC3 = Some 2 /\ read_value 0xC3 [5; 1] = Ok (GInt true 2 261, []).
Proof. repeat split; vm_compute; reflexivity. Qed.

(** A text is 86 bytes, and its Size is 1; a ULINT has a Size but cannot be read. *)
Theorem C121_text_refuted : exists r v, read_value 0xFF r = Ok (v, []) /\ len r <> type_size 0xFF.
Proof. exists (zeros 86), (GArr86 (zeros 86)). split; vm_compute; [reflexivity|discriminate]. Qed.
Print Assumptions C121_text_refuted.
Theorem C121_ulint_fails : forall d, type_size 0xC9 = 8 /\ exists e, read_value 0xC9 d = Err e.
Proof. intro d. split; [reflexivity|]. eexists. reflexivity. Qed.
Print Assumptions C121_ulint_fails.
