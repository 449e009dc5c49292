(** * Properties C01-C05: tag names and request paths *)
From Verif Require Import GoBase SegModel IoiModel IoiSpec IoiProof.

(** C01.  After any history of the client, a name of the grammar that is not in
    the tag list is sent as its reference encoding, and its bit number is what
    the user wrote. *)
Theorem C01_tag_name_encoding : forall ops t dtype,
  valid_tag t -> lookup (lower (text t)) (cl_known (cl_run ops)) = None ->
  fst (new_ioi (cl_run ops) (text t) dtype) =
  Ok {| ioi_buf := encode t;
        ioi_bit := match t_bit t with Some _ => true | None => false end;
        ioi_bitpos := match t_bit t with Some b => b | None => 0 end |}.
Proof. exact C01_lemma. Qed.
Print Assumptions C01_tag_name_encoding.

(** Two names with the same path are the same name up to letter case (and the
    bit number, which is kept beside the path). *)
Theorem C01_encoding_injective : forall t t',
  valid_tag t -> valid_tag t' -> encode t = encode t' ->
  t_members (lower_tag t) = t_members (lower_tag t').
Proof. exact encode_inj. Qed.
Print Assumptions C01_encoding_injective.

(** A controller-scope tag of the tag list is addressed by its symbol instance
    (class 0x6B) on firmware above 20. *)
Theorem C01_known_tag_instance : forall ops p d t,
  20 < cl_firmware (cl_run ops) ->
  lookup (lower p) (cl_known (cl_run ops)) = Some t -> kt_type t <> 0 ->
  d <> 0xA0 -> d <> 0x00 -> d <> 0xFF -> kt_parent t = None -> 0 <= kt_instance t < 2 ^ 32 ->
  fst (new_ioi (cl_run ops) p d) =
  Ok {| ioi_buf := [0x20; 0x6B] ++
          (if kt_instance t <? 2 ^ 8 then [0x24; kt_instance t]
           else if kt_instance t <? 2 ^ 16 then [0x25; 0; kt_instance t mod 256; kt_instance t / 256]
           else [0x26; 0] ++ le 4 (kt_instance t));
        ioi_bit := false; ioi_bitpos := 0 |}.
Proof. exact C01_known_lemma. Qed.
Print Assumptions C01_known_tag_instance.

(** A non-trivial tag: "Program:Main.Arr[3,300,70000].Val.7". *)
Definition ex_tag : tag :=
  {| t_members := [ {| m_name := str "Program:Main"; m_subs := [] |};
                    {| m_name := str "Arr"; m_subs := [3; 300; 70000] |};
                    {| m_name := str "Val"; m_subs := [] |} ];
     t_bit := Some 7 |}.
Example ex_tag_text : text ex_tag = str "Program:Main.Arr[3,300,70000].Val.7".
Proof. vm_compute. reflexivity. Qed.
Example ex_tag_valid : valid_tag ex_tag.
Proof. apply valid_tagb_sound. vm_compute. reflexivity. Qed.
Example ex_C01 : fst (new_ioi (cl_run [OpLookup (str "x") 0xC4; OpLookup (str "PROGRAM:main.arr[3,300,70000].val.7") 0xC1])
                       (text ex_tag) 0xC1) =
  Ok {| ioi_buf := encode ex_tag; ioi_bit := true; ioi_bitpos := 7 |}.
Proof. vm_compute. reflexivity. Qed.

(** C02.  Decoding what the client encodes gives the lower-cased name back and
    leaves the rest unread, when subscripts are below 65536 and the byte after
    the path is not itself a segment type. *)
Theorem C02_server_decodes_path_partial : forall t rest,
  valid_tag t ->
  Forall (fun m => Forall (fun i => i < 65536) (m_subs m)) (t_members t) ->
  (match rest with [] => True | b :: _ => b <> 0x28 /\ b <> 0x29 /\ b <> 0x91 end) ->
  get_tag_from_path (encode t ++ rest) =
  Ok (lower (text {| t_members := t_members t; t_bit := None |}), rest).
Proof. exact C02_lemma. Qed.
Print Assumptions C02_server_decodes_path_partial.

Definition tag1 (n : bytes) (subs : list Z) : tag :=
  {| t_members := [ {| m_name := n; m_subs := subs |} ]; t_bit := None |}.
Example ex_C02 : valid_tag (tag1 (str "Arr") [3; 300]) /\
  get_tag_from_path (encode (tag1 (str "Arr") [3; 300]) ++ [1; 0]) = Ok (str "arr[3,300]", [1; 0]).
Proof.
  split; [apply valid_tagb_sound; vm_compute; reflexivity|vm_compute; reflexivity].
Qed.

(** The full statement fails twice: a 32-bit subscript is not recognised (the
    server sees the bare array) ... *)
Theorem C02_server_decodes_path_refuted : exists t rest,
  valid_tag t /\ rest = [1; 0] /\
  text t = str "arr[65536]" /\
  (exists rest', get_tag_from_path (encode t ++ rest) = Ok (str "arr", rest')).
Proof.
  exists (tag1 (str "arr") [65536]), [1; 0].
  split; [apply valid_tagb_sound; vm_compute; reflexivity|].
  split; [reflexivity|]. split; [vm_compute; reflexivity|].
  eexists. vm_compute. reflexivity.
Qed.
Print Assumptions C02_server_decodes_path_refuted.

(** ... and an element count whose low byte is 0x28, 0x29 or 0x91 is taken for a
    further path segment: a request for 40 elements of "arr" is understood as
    "arr[0]" with no element count left. *)
Theorem C02_element_count_40_refuted : exists t,
  valid_tag t /\ text t = str "arr" /\
  get_tag_from_path (encode t ++ le 2 40) = Ok (str "arr[0]", []).
Proof.
  exists (tag1 (str "arr") []).
  split; [apply valid_tagb_sound; vm_compute; reflexivity|].
  split; vm_compute; reflexivity.
Qed.
Print Assumptions C02_element_count_40_refuted.

(** Decoding any bytes finishes. *)
Theorem C02_decoding_terminates : forall r, get_tag_from_path r <> OutOfFuel.
Proof. exact (fun r => get_tag_terminates _ [] r (Nat.lt_succ_diag_r _)). Qed.
Print Assumptions C02_decoding_terminates.

(** C03.  The full statement fails: a malformed name is never rejected. *)
Theorem C03_malformed_examples :
  (* a blank in a subscript list silently becomes subscript 0 *)
  build_ioi (str "a[1, 2]") = build_ioi (str "a[1,0]") /\
  (* a non-numeric subscript is silently dropped *)
  build_ioi (str "a[x]") = build_ioi (str "a") /\
  (* only the last bracket counts *)
  build_ioi (str "a[1][2]") = build_ioi (str "a[2]") /\
  (* a closing bracket alone panics *)
  build_ioi (str "a]") = Panic /\
  (* a subscript beyond 32 bits wraps around *)
  build_ioi (str "a[4294967296]") = Ok {| ioi_buf := [0x91; 1; 97; 0; 0x2A; 0; 0; 0; 0; 0];
                                          ioi_bit := false; ioi_bitpos := 0 |}.
Proof. vm_compute. repeat split; reflexivity. Qed.
Print Assumptions C03_malformed_examples.
Theorem C03_malformed_rejected_refuted : exists path,
  (forall tg, valid_tag tg -> text tg <> path) /\ exists i, build_ioi path = Ok i.
Proof.
  exists (str "a[x]"). split; [|eexists; vm_compute; reflexivity].
  intros tg (Hne & Hm & Hb) T. unfold text in T. apply (f_equal (split 46)) in T.
  rewrite split_join in T.
  2: { destruct (t_members tg); [congruence|discriminate]. }
  2: { apply Forall_app. split; [apply Forall_map; eapply Forall_impl; [|exact Hm]; apply member_text_nodot|].
       destruct (t_bit tg); constructor; [|constructor]. apply dec_not_in; lia. }
  change (split 46 (str "a[x]")) with [[97; 91; 120; 93]] in T.
  destruct (t_members tg) as [|m ms]; [congruence|]. cbn [map app] in T. injection T as T _.
  inversion Hm as [|? ? [Vn Vs] _]; subst. unfold member_text in T.
  assert (N91 : ~ In 91 (m_name m)).
  { intros I. destruct Vn as (_ & F & _). rewrite Forall_forall in F. apply F in I. unfold name_char in I. lia. }
  destruct (m_subs m) as [|i subs] eqn:Es; [apply N91; rewrite T; right; left; reflexivity|].
  assert (C := idx_text_chars (i :: subs) (Forall_nonneg _ Vs)). fold (idx_text (i :: subs)) in T.
  destruct (m_name m) as [|c [|c2 r]]; cbn [app] in T.
  - injection T as T _. discriminate.
  - injection T as _ T. destruct (idx_text (i :: subs)) as [|x l]; cbn [app] in T; [discriminate|].
    inversion C; subst. injection T as T _. lia.
  - injection T as _ T _. apply N91. right. left. exact T.
Qed.
Print Assumptions C03_malformed_rejected_refuted.

(** What does hold for every byte string: the call never returns an error; it
    panics exactly when some dotted part ends in "]" without containing "[". *)
Theorem C03_names_never_error_partial : forall path,
  ((exists p, In p (split 46 path) /\ ends_with 93 p = true /\ ~ In 91 p) /\ build_ioi path = Panic) \/
  ((~ exists p, In p (split 46 path) /\ ends_with 93 p = true /\ ~ In 91 p) /\
   exists i, build_ioi path = Ok i).
Proof. exact build_ioi_total. Qed.
Print Assumptions C03_names_never_error_partial.

(** C04.  The cache never changes the outcome, whatever happened before and
    whatever the letter case. *)
Theorem C04_cache_transparent : forall ops p p' dtype,
  lower p = lower p' ->
  fst (new_ioi (cl_run ops) p dtype) =
  fst (new_ioi {| cl_firmware := cl_firmware (cl_run ops);
                  cl_known := cl_known (cl_run ops); cl_cache := [] |} p' dtype).
Proof. exact C04_lemma. Qed.
Print Assumptions C04_cache_transparent.
Example ex_C04 :
  let c := cl_run [OpLookup (str "Tag.3") 0xC1; OpFirmware 33;
                   OpRefresh [(str "tag", {| kt_type := 0xC4; kt_instance := 300; kt_parent := None |})];
                   OpLookup (str "tag") 0xC4; OpLookup (str "tag") 0xA0] in
  length (cl_cache c) = 2%nat /\ lower (str "TAG.3") = lower (str "tag.3") /\
  fst (new_ioi c (str "TAG.3") 0xC1) =
  Ok {| ioi_buf := [0x91; 3; 116; 97; 103; 0]; ioi_bit := true; ioi_bitpos := 3 |}.
Proof. vm_compute. repeat split; reflexivity. Qed.

(** C05.  Every path is a whole number of 16-bit words; the size byte is right
    for paths of at most 510 bytes ... *)
Theorem C05_path_words_partial : forall ops p d i,
  fst (new_ioi (cl_run ops) p d) = Ok i ->
  Z.even (len (ioi_buf i)) = true /\
  (len (ioi_buf i) <= 510 -> 2 * path_size_byte (ioi_buf i) = len (ioi_buf i)).
Proof. exact C05_lemma. Qed.
Print Assumptions C05_path_words_partial.
Example ex_C05 : exists i, fst (new_ioi (cl_run []) (str "a[5].bcd.e[300]") 0xC4) = Ok i /\
  len (ioi_buf i) = 20 /\ path_size_byte (ioi_buf i) = 10.
Proof. eexists. vm_compute. repeat split; reflexivity. Qed.

(** ... and wrong beyond: a valid name of three 200-character members. *)
Theorem C05_path_words_refuted : exists t i,
  valid_tag t /\ fst (new_ioi (cl_run []) (text t) 0xC4) = Ok i /\
  2 * path_size_byte (ioi_buf i) <> len (ioi_buf i).
Proof.
  exists {| t_members := repeat {| m_name := repeat 97 200; m_subs := [] |} 3; t_bit := None |}.
  eexists. split; [|split; [vm_compute; reflexivity|vm_compute; discriminate]].
  apply valid_tagb_sound. vm_compute. reflexivity.
Qed.
Print Assumptions C05_path_words_refuted.
