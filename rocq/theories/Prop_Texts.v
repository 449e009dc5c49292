(** * C134: several elements of an array of texts *)
From Verif Require Import GoBase SegModel IoiModel IoiSpec IoiProof ItemsModel TypesModel ItemsSpec ItemsProof ReadModel ReadSpec ReadProof Prop_Read
  PackTypes PackModel PackSpec PackProof PackRead Prop_Pack StructModel LgxModel KnownModel KnownSpec KnownProof WriteModel WriteSpec
  WriteProof BatchSpec EipModel EipSpec OpenModel TableModel SrvValModel SrvValSpec SrvValProof ProvModel ProvSpec ProvProof Prop_SrvVal SrvModel SrvSpec
  SrvProof Prop_Srv ReqSpec LinkModel ReqProof Prop_Req Prop_Known Prop_Structs Prop_StructsE TextsSpec TextsProof.

(** The array or part of an array a tag names, as texts. *)
Definition texts (ss : list bytes) : view := VMany (EK TypesModel.KString) (map (fun s => VOne (GStr s)) ss).

Lemma slots_cons s ss : text_slots (s :: ss) = text_type ++ text_data s ++ text_slots ss.
Proof. unfold text_slots. cbn [map concat]. now rewrite <- app_assoc. Qed.
Lemma slots_ok ss : Forall short_text ss -> bytes_ok (text_slots ss).
Proof.
  induction 1 as [|s ss [B _] F IH]; [constructor|]. rewrite slots_cons. unfold text_data. repeat (apply bytes_ok_app; split); try assumption.
  - unfold bytes_ok, text_type. repeat (constructor; [unfold byte_ok; lia|]). constructor.
  - apply le_ok.
  - apply bytes_ok_zeros.
Qed.

(** ** What the server sends

    Full statement: the texts are received in order, or the read fails with an
    error.  It is false (C134_slice_refuted in Prop_StructsE, C134_second_wrong, C134_crashes).

    The answer holds all texts in order, each in 92 bytes of its own. *)
Theorem C134_sent : forall session context otid i sh tg ss q,
  linked session context otid i sh -> addressed tg -> len (encode tg) < 512 -> clear_count (len ss) -> Forall short_text ss -> ss <> [] -> 92 * len ss < 65000 ->
  ProvSpec.reads (behind i sh) (text tg) (len ss) (texts ss) ->
  exists p sh1 d, link session context sh (read_request otid q (encode tg) (len ss)) = (Ok (0, p), sh1) /\
    answer p 0 0xA0 d /\ [0xA0; 0x02] ++ d = text_slots ss /\ linked session context otid i sh1 /\ fst sh1 = fst sh.
Proof.
  intros session context otid i sh tg ss q L Ad Lt Cc F Ne Ls R. destruct ss as [|s ss]; [congruence|].
  pose proof (sends_texts _ F) as W. pose proof (text_slots_len _ F) as Ln. rewrite slots_cons in W, Ln.
  change (text_type ++ ?x) with ([0xA0; 0x02] ++ ([0xCE; 0x0F] ++ x)) in W, Ln. rewrite len_app in Ln. change (len [160; 2]) with 2 in Ln.
  destruct (link_read_sends session context otid i sh q tg _ _ _ _ _ L Ad Lt Cc R W ltac:(lia)) as (p & sh1 & E & A & L1 & F1).
  exists p, sh1. eexists. split; [exact E|]. split; [exact A|]. split; [now rewrite slots_cons|]. now split.
Qed.
Print Assumptions C134_sent.

(** ** Into a slice of STRING *)
Definition string_of (d : bytes) : gv := VStruct [VInt (sgn 32 (unle (firstn 4 d))); VArr (map sint_of (skipn 4 d))].
Lemma string_of_typed d : bytes_ok d -> length d = 86%nat -> has_type (under KString) (string_of d) /\ fst (kpack KString (string_of d)) = d.
Proof.
  intros B L. assert (F : Forall (has_type (TInt true 1)) (map sint_of (skipn 4 d))).
  { apply Forall_map. eapply Forall_impl; [|exact (Forall_skipn _ 4 _ B)]. intros c H. unfold byte_ok in H. unfold sint_of. cbn [has_type]. split; [cbn; tauto|].
    change (2 ^ (8 * 1 - 1)) with 128. destruct (Z.ltb_spec c 128); lia. }
  assert (Lc : length (map sint_of (skipn 4 d)) = 82%nat) by (rewrite map_length, skipn_length, L; reflexivity).
  pose proof (unle_bound (firstn 4 d) (Forall_firstn _ 4 _ B)) as U. assert (L4 : length (firstn 4 d) = 4%nat) by (rewrite firstn_length, L; reflexivity).
  unfold len in U. rewrite L4 in U. change (256 ^ Z.of_nat 4) with (2 ^ 32) in U. unfold string_of. split.
  - cbn [under has_type fields_have dint]. split; [split; [cbn; tauto|]|split; [|exact Logic.I]; split; [exact Lc|exact F]].
    unfold sgn. rewrite (Z.mod_small _ _ U). change (2 ^ (32 - 1)) with (2 ^ 31). destruct (Z.ltb_spec (unle (firstn 4 d)) (2 ^ 31)); lia.
  - rewrite pack_string by assumption. rewrite bytes_sints by exact (Forall_skipn _ 4 _ B).
    assert (E : le 4 (sgn 32 (unle (firstn 4 d))) = firstn 4 d).
    { transitivity (le 4 (unle (firstn 4 d))); [|rewrite <- L4 at 1; apply le_unle, (Forall_firstn _ 4 _ B)].
      rewrite <- (le_mod 4 (sgn 32 _)). f_equal. unfold sgn. rewrite (Z.mod_small _ _ U). change (256 ^ Z.of_nat 4) with (2 ^ 32). destruct (Z.ltb_spec (unle (firstn 4 d)) (2 ^ (32 - 1))); [now apply Z.mod_small|].
      replace (unle (firstn 4 d) - 2 ^ 32) with (unle (firstn 4 d) + (-1) * 2 ^ 32) by lia. rewrite Z.mod_add by lia. now apply Z.mod_small. }
    rewrite E. apply firstn_skipn.
Qed.
Lemma each_step d pad r tgs : bytes_ok d -> length d = 86%nat -> length pad = 2%nat ->
  unpack_each (string_target :: tgs) (d ++ pad ++ r) = let* (vs, r3) := unpack_each tgs r in Ok (SStruct (string_of d) :: vs, r3).
Proof.
  intros B L Lp. destruct (string_of_typed d B L) as (H & E).
  assert (U : unpack_into string_target (d ++ pad ++ r) = Ok (SStruct (string_of d), 86, pad ++ r)).
  { pose proof (C14_round_trip _ _ (string_of d) (pad ++ r) H) as T. change (fst (pack _ (string_of d))) with (fst (kpack KString (string_of d))) in T. rewrite E in T.
    assert (S86 : snd (pack (under KString) (string_of d)) = 86) by reflexivity.
    unfold string_target. cbn [under]. unfold unpack_into. cbn [under] in T, S86. rewrite T. cbn [bind fst snd]. now rewrite S86. }
  cbn [unpack_each]. rewrite U. cbn [bind fst snd]. change (target_align string_target) with 4. change (86 mod 4 =? 0) with false. cbv iota.
  change (Z.to_nat (4 - 86 mod 4)) with 2%nat. destruct pad as [|a [|b [|]]]; try discriminate. reflexivity.
Qed.
Lemma each_any n : forall b, bytes_ok b -> 88 * Z.of_nat n <= len b -> exists vs r, unpack_each (repeat string_target n) b = Ok (vs, r) /\ length vs = n.
Proof.
  induction n as [|n IH]; intros b B L; [now exists [], b|].
  assert (Ln : (88 <= length b)%nat) by (unfold len in L; lia).
  assert (E : b = firstn 86 b ++ firstn 2 (skipn 86 b) ++ skipn 88 b).
  { change 88%nat with (86 + 2)%nat. rewrite <- skipn_skipn. now rewrite !firstn_skipn. }
  destruct (IH (skipn 88 b)) as (vs & r & Er & Lv); [now apply Forall_skipn|unfold len in *; rewrite skipn_length; lia|].
  exists (SStruct (string_of (firstn 86 b)) :: vs), r. split; [|cbn [length]; now rewrite Lv].
  transitivity (unpack_each (string_target :: repeat string_target n) (firstn 86 b ++ firstn 2 (skipn 86 b) ++ skipn 88 b)); [now rewrite <- E|]. rewrite each_step.
  - now rewrite Er.
  - now apply Forall_firstn.
  - rewrite firstn_length. lia.
  - rewrite firstn_length, skipn_length. lia.
Qed.
Lemma string_of_text s : short_text s -> string_of (le 4 (len s) ++ s ++ zeros (82 - length s)) = string_struct s.
Proof.
  intros [B L]. unfold string_of, string_struct. rewrite firstn_app_exact, skipn_app_exact by apply le_length. pose proof (len_nonneg s).
  rewrite unle_le_small by (cbn; lia). rewrite sgn_id by (cbn; lia). reflexivity.
Qed.

(** The client's side: what it makes of the answer. *)
Lemma texts_read session context otid i sh ops tg ss fuel q :
  linked session context otid i sh -> named ops tg -> addressed tg -> clear_count (len ss) -> Forall short_text ss -> ss <> [] -> 92 * len ss < 65000 ->
  ProvSpec.reads (behind i sh) (text tg) (len ss) (texts ss) ->
  exists sh1 d, read_single fuel (link session context) (cl_run ops) sh otid q (text tg) T_struct (len ss) = (Ok (GBytes d), sh1, q + 1) /\
    text_type ++ d = text_slots ss /\ linked session context otid i sh1 /\ fst sh1 = fst sh.
Proof.
  intros L N Ad Cc F Ne Ls R. destruct (C134_sent session context otid i sh tg ss q L Ad (proj2 (proj2 N)) Cc F Ne Ls R) as (p & sh1 & d & E & A & Ed & L1 & F1).
  destruct ss as [|s ss]; [congruence|]. rewrite slots_cons in *. change (text_type ++ ?x) with ([0xA0; 0x02] ++ ([0xCE; 0x0F] ++ x)) in *. apply app_inv_head in Ed. subst d.
  exists sh1. eexists. split; [|split; [reflexivity|now split]]. change T_struct with 0xA0.
  eapply C17_structure_bytes; [exact N| |exists 0, p; split; [exact E|exact A]]. reflexivity.
Qed.
(** One element comes back as it is. *)
Theorem C134_one_partial : forall session context otid i sh ops tg s fuel q,
  linked session context otid i sh -> named ops tg -> addressed tg -> short_text s ->
  ProvSpec.reads (behind i sh) (text tg) 1 (texts [s]) ->
  exists sh1, read_to fuel (link session context) (cl_run ops) sh otid q (text tg) (DMany [string_target]) = (Ok (OMany [SStruct (string_struct s)]), sh1, q + 1) /\
    linked session context otid i sh1 /\ fst sh1 = fst sh.
Proof.
  intros session context otid i sh ops tg s fuel q L N Ad H R.
  destruct (texts_read session context otid i sh ops tg [s] fuel q L N Ad) as (sh1 & d & E & Ed & L1 & F1).
  - unfold clear_count. change (len [s]) with 1. rewrite Z.mod_small by lia. lia.
  - now constructor.
  - discriminate.
  - change (len [s]) with 1. lia.
  - exact R.
  - exists sh1. split; [|now split]. unfold read_to. change (len [string_target] mod 65536) with (len [s]). rewrite E. cbn [as_bytes bind].
    rewrite slots_cons in Ed. apply app_inv_head in Ed. subst d. unfold text_slots. cbn [map concat]. rewrite app_nil_r. unfold text_data.
    replace (le 4 (len s) ++ s ++ zeros (84 - length s)) with ((le 4 (len s) ++ s ++ zeros (82 - length s)) ++ [0; 0] ++ []).
    2:{ rewrite <- !app_assoc. do 2 f_equal. change ([0; 0] ++ []) with (zeros 2). unfold zeros. rewrite <- repeat_app. f_equal. destruct H as [_ H]. unfold len in H. lia. }
    rewrite each_step; [cbn [unpack_each bind]; now rewrite string_of_text| | |reflexivity].
    + destruct H as [B _]. repeat (apply bytes_ok_app; split); [apply le_ok|exact B|apply bytes_ok_zeros].
    + destruct H as [_ H]. rewrite !app_length, le_length. unfold zeros. rewrite repeat_length. unfold len in H. lia.
Qed.
Print Assumptions C134_one_partial.

(** Of several, the read succeeds, the first is right and the second is no text at
    all. *)
Theorem C134_second_wrong : forall session context otid i sh ops tg s s' ss fuel q,
  linked session context otid i sh -> named ops tg -> addressed tg -> clear_count (len (s :: s' :: ss)) -> Forall short_text (s :: s' :: ss) -> 92 * len (s :: s' :: ss) < 65000 ->
  ProvSpec.reads (behind i sh) (text tg) (len (s :: s' :: ss)) (texts (s :: s' :: ss)) ->
  exists sh1 w vs, read_to fuel (link session context) (cl_run ops) sh otid q (text tg) (DMany (repeat string_target (length (s :: s' :: ss)))) =
      (Ok (OMany (SStruct (string_struct s) :: SStruct w :: vs)), sh1, q + 1) /\
    length vs = length ss /\ (forall s2, short_text s2 -> w <> string_struct s2) /\ linked session context otid i sh1 /\ fst sh1 = fst sh.
Proof.
  intros session context otid i sh ops tg s s' ss fuel q L N Ad Cc F Ls R.
  destruct (texts_read session context otid i sh ops tg (s :: s' :: ss) fuel q L N Ad Cc F ltac:(discriminate) Ls R) as (sh1 & d & E & Ed & L1 & F1).
  pose proof (Forall_inv F) as H. pose proof (Forall_inv_tail F) as F'. pose proof (slots_ok _ F') as Bs. pose proof (text_slots_len _ F') as Lns.
  rewrite slots_cons in Ed. apply app_inv_head in Ed. subst d.
  set (b := text_slots (s' :: ss)) in *. assert (Eb : firstn 4 b = text_type) by reflexivity. 
  rewrite len_cons in Lns. pose proof (len_nonneg ss).
  assert (Ln : (92 <= length b)%nat) by (unfold len in Lns at 1; lia).
  assert (Sp : b = firstn 86 b ++ firstn 2 (skipn 86 b) ++ skipn 88 b).
  { change 88%nat with (86 + 2)%nat. rewrite <- skipn_skipn. now rewrite !firstn_skipn. }
  destruct (each_any (length ss) (skipn 88 b)) as (vs & r & Er & Lv); [now apply Forall_skipn| |].
  { unfold len in *. rewrite skipn_length. lia. }
  exists sh1, (string_of (firstn 86 b)), vs. split; [|split; [exact Lv|split; [|now split]]].
  - unfold read_to. assert (Em : len (repeat string_target (length (s :: s' :: ss))) mod 65536 = len (s :: s' :: ss)).
    { unfold len. rewrite repeat_length. apply Z.mod_small. unfold len in Ls. lia. }
    rewrite Em, E. cbn [as_bytes bind length repeat]. unfold text_data.
    replace ((le 4 (len s) ++ s ++ zeros (84 - length s)) ++ b) with ((le 4 (len s) ++ s ++ zeros (82 - length s)) ++ [0; 0] ++ b).
    2:{ rewrite <- !app_assoc. do 2 f_equal. rewrite app_assoc. f_equal. change [0; 0] with (zeros 2). unfold zeros. rewrite <- repeat_app. f_equal. destruct H as [_ Hx]. unfold len in Hx. lia. }
    rewrite each_step; [| | |reflexivity].
    + transitivity (let* (vs, _) := (let* (vs, r3) := unpack_each (string_target :: repeat string_target (length ss)) (firstn 86 b ++ firstn 2 (skipn 86 b) ++ skipn 88 b) in
        Ok (SStruct (string_of (le 4 (len s) ++ s ++ zeros (82 - length s))) :: vs, r3)) in Ok (OMany vs), sh1, q + 1); [now rewrite <- Sp|].
      rewrite each_step.
      * rewrite Er. cbn [bind]. now rewrite string_of_text.
      * now apply Forall_firstn.
      * rewrite firstn_length. lia.
      * rewrite firstn_length, skipn_length. lia.
    + destruct H as [B _]. repeat (apply bytes_ok_app; split); [apply le_ok|exact B|apply bytes_ok_zeros].
    + destruct H as [_ Hx]. rewrite !app_length, le_length. unfold zeros. rewrite repeat_length. unfold len in Hx. lia.
  - intros s2 [_ H2] X. assert (E4 : firstn 4 (firstn 86 b) = firstn 4 b) by (rewrite firstn_firstn; reflexivity).
    unfold string_of in X. rewrite E4, Eb in X. change (sgn 32 (unle text_type)) with 0x0FCE02A0 in X. unfold string_struct in X. injection X as X _. lia.
Qed.
Print Assumptions C134_second_wrong.

(** ** Into a []string: the program crashes. *)
Theorem C134_crashes : forall session context otid i sh ops tg ss fuel q,
  linked session context otid i sh -> named ops tg -> addressed tg -> clear_count (len ss) -> Forall short_text ss -> 2 <= len ss -> 92 * len ss < 65000 ->
  ProvSpec.reads (behind i sh) (text tg) (len ss) (texts ss) ->
  exists sh1, client_read_slice fuel (link session context) (cl_run ops) sh otid q (text tg) TypesModel.KString (len ss) = (Panic, sh1, q + 1).
Proof.
  intros session context otid i sh ops tg ss fuel q L N Ad Cc F L2 Ls R.
  destruct (C134_sent session context otid i sh tg ss q L Ad (proj2 (proj2 N)) Cc F ltac:(intros ->; cbn in L2; lia) Ls R) as (p & sh1 & d & E & A & Ed & L1 & F1).
  exists sh1. unfold client_read_slice. rewrite Z.mod_small by lia. destruct (Z.eqb_spec (len ss) 0); [lia|].
  destruct N as (V & K & Lt). pose proof (C01_lemma ops tg (kind_cip TypesModel.KString) V K) as New.
  rewrite (read_single_done _ _ _ _ _ _ _ _ _ _ _ _ _ _ _ New Lt E A). change (kind_cip TypesModel.KString) with T_string.
  unfold decode_read. change (160 =? T_struct) with true. change (T_string =? T_string) with true. cbv iota. destruct (Z.eqb_spec (len ss) 1); [lia|].
  destruct ss as [|s [|s' ss]]; [cbn in L2; lia|cbn in L2; lia|]. pose proof (Forall_inv F) as [Bs Hs]. pose proof (Forall_inv (Forall_inv_tail F)) as [Bs' Hs'].
  rewrite !slots_cons in Ed. change (text_type ++ text_data s ++ ?x) with ([0xA0; 0x02] ++ ([0xCE; 0x0F] ++ text_data s ++ x)) in Ed. apply app_inv_head in Ed. subst d.
  assert (Z.to_nat (len (s :: s' :: ss)) = S (S (length ss))) as -> by (unfold len; rewrite Nat2Z.id; reflexivity).
  assert (Z0 : zeros (84 - length s) = zeros (82 - length s) ++ [0; 0]).
  { change [0; 0] with (zeros 2). unfold zeros. rewrite <- repeat_app. f_equal. unfold len in Hs. lia. }
  assert (L82 : length (s ++ zeros (82 - length s)) = 82%nat).
  { rewrite app_length. unfold zeros. rewrite repeat_length. unfold len in Hs. lia. }
  unfold text_data at 1. rewrite Z0.
  replace ([206; 15] ++ (le 4 (len s) ++ s ++ zeros (82 - length s) ++ [0; 0]) ++ text_type ++ text_data s' ++ text_slots ss)
    with (([206; 15] ++ le 4 (len s)) ++ (s ++ zeros (82 - length s)) ++ ([0; 0] ++ text_type) ++ text_data s' ++ text_slots ss) by (rewrite <- !app_assoc; reflexivity).
  cbn [read_string_elems]. unfold read_string_elem at 1. rewrite rd_app by (rewrite app_length, le_length; reflexivity). cbn [bind].
  rewrite rd_app by exact L82. cbn [bind]. rewrite skipn_app_exact by reflexivity. pose proof (len_nonneg s). rewrite unle_le_small by (cbn; lia).
  destruct (Z.ltb_spec 82 (len s)); [lia|]. cbn [bind]. unfold read_string_elem at 1. rewrite rd_app by reflexivity. cbn [bind].
  pose proof (text_data_len s' Hs') as Ld.
  rewrite <- (firstn_skipn 82 (text_data s')). rewrite <- app_assoc. rewrite rd_app by (rewrite firstn_length; unfold len in Ld; lia). reflexivity.
Qed.
Print Assumptions C134_crashes.

(** ** Examples: the array of three texts of Prop_StructsE *)
Lemma lines_read n : 0 <= n <= 3 -> ProvSpec.reads (behind 0 lines) (str "Lines") n (texts (firstn (Z.to_nat n) [str "a"; str "b"; str "c"])).
Proof.
  intros H. unfold texts. rewrite <- firstn_map. apply r_many; [|vm_compute; reflexivity|exact H].
  assert (T : addressed (nm (str "Lines") [])) by demo_tag. destruct T as (V & B & _). apply (plain_lower _ V B). vm_compute. discriminate.
Qed.
Lemma lines_short : Forall short_text [str "a"; str "b"; str "c"].
Proof. repeat (constructor; [split; [unfold bytes_ok; cbn; repeat (constructor; [unfold byte_ok; lia|]); constructor|vm_compute; discriminate]|]). constructor. Qed.
Example ex_C134_one : exists sh1, read_to 0 (link 77 9) (cl_run []) lines 5 1 (str "Lines") (DMany [string_target]) = (Ok (OMany [SStruct (string_struct (str "a"))]), sh1, 2).
Proof.
  destruct (C134_one_partial 77 9 5 0 lines [] (nm (str "Lines") []) (str "a") 0 1 lines_linked ltac:(demo_tag) ltac:(demo_tag) (Forall_inv lines_short) (lines_read 1 ltac:(lia))) as (sh1 & E & _).
  exists sh1. exact E.
Qed.
Lemma three_clear : clear_count 3.
Proof. unfold clear_count. rewrite Z.mod_small by lia. lia. Qed.
Example ex_C134_second : exists sh1 w v, read_to 0 (link 77 9) (cl_run []) lines 5 1 (str "Lines") (DMany (repeat string_target 3)) =
    (Ok (OMany [SStruct (string_struct (str "a")); SStruct w; v]), sh1, 2) /\ forall s2, short_text s2 -> w <> string_struct s2.
Proof.
  destruct (C134_second_wrong 77 9 5 0 lines [] (nm (str "Lines") []) (str "a") (str "b") [str "c"] 0 1 lines_linked ltac:(demo_tag) ltac:(demo_tag) three_clear lines_short
    ltac:(vm_compute; reflexivity) (lines_read 3 ltac:(lia))) as (sh1 & w & vs & E & Lv & W & _).
  destruct vs as [|v [|]]; try discriminate Lv. exists sh1, w, v. split; [exact E|exact W].
Qed.
Example ex_C134_crash : exists sh1, client_read_slice 0 (link 77 9) (cl_run []) lines 5 1 (str "Lines") TypesModel.KString 3 = (Panic, sh1, 2).
Proof.
  exact (C134_crashes 77 9 5 0 lines [] (nm (str "Lines") []) [str "a"; str "b"; str "c"] 0 1 lines_linked ltac:(demo_tag) ltac:(demo_tag) three_clear lines_short
    ltac:(vm_compute; discriminate) ltac:(vm_compute; reflexivity) (lines_read 3 ltac:(lia))).
Qed.
