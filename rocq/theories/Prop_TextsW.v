(** * C135: arrays of strings written to the built-in server *)
From Verif Require Import GoBase SegModel IoiModel IoiSpec IoiProof ItemsModel TypesModel ItemsSpec ItemsProof ReadModel ReadSpec ReadProof Prop_Read
  WriteModel WriteSpec
  WriteProof BatchSpec EipModel EipSpec OpenModel TableModel SrvValModel SrvValSpec SrvValProof ProvModel ProvSpec ProvProof Prop_SrvVal SrvModel SrvSpec
  SrvProof Prop_Srv ReqSpec LinkModel ReqProof Prop_Req Prop_StructsE TextsSpec TextsProof Prop_Texts.

(** ** What the server makes of the strings *)
Lemma texts_parsed n d : 0 <= n < 65536 -> parse_write_values ([0xA0; 0x02; 0xCE; 0x0F] ++ le 2 n ++ d) = parse_strings (Z.to_nat n) d.
Proof.
  intros H. change ([160; 2; 206; 15] ++ ?x) with (160 :: 2 :: [206; 15] ++ x). unfold parse_write_values.
  rewrite rd_cons1. cbn [bind]. rewrite rd_cons1. cbn [bind]. change (Z.to_nat (unle [2])) with 2%nat. rewrite rd_app by reflexivity. cbn [bind].
  rewrite rd_app by apply le_length. cbn [bind]. change (unle [160] =? T_struct) with true. cbv iota. change (len [206; 15]) with 2. change (2 <=? 2) with true. cbn [andb].
  change (unle (firstn 2 [206; 15]) =? 0x0FCE) with true. cbv iota. rewrite unle_le. change (2 ^ (8 * Z.of_nat 2)) with 65536. now rewrite Z.mod_small by lia.
Qed.
Lemma parse_step a d r n : length a = 4%nat -> length d = 82%nat ->
  parse_strings (S n) (a ++ d ++ r) = let* (vs, r2) := parse_strings n r in Ok (GStr (firstn (Z.to_nat (if 82 <? unle a then 82 else unle a)) d) :: vs, r2).
Proof. intros La Ld. cbn [parse_strings]. unfold parse_string. rewrite rd_app by exact La. cbn [bind]. rewrite rd_app by exact Ld. reflexivity. Qed.
Lemma parse_any n : forall b, 86 * Z.of_nat n <= len b -> exists vs r, parse_strings n b = Ok (map GStr vs, r) /\ length vs = n.
Proof.
  induction n as [|n IH]; intros b L; [now exists [], b|]. assert (Ln : (86 <= length b)%nat) by (unfold len in L; lia).
  destruct (IH (skipn 86 b)) as (vs & r & Er & Lv); [unfold len in *; rewrite skipn_length; lia|].
  assert (E : b = firstn 4 b ++ firstn 82 (skipn 4 b) ++ skipn 86 b) by (change 86%nat with (4 + 82)%nat; rewrite <- skipn_skipn; now rewrite !firstn_skipn).
  eexists (_ :: vs), r. split; [|cbn [length]; now rewrite Lv].
  transitivity (parse_strings (S n) (firstn 4 b ++ firstn 82 (skipn 4 b) ++ skipn 86 b)); [now rewrite <- E|].
  rewrite parse_step; [rewrite Er; reflexivity|rewrite firstn_length; lia|rewrite firstn_length, skipn_length; lia].
Qed.
Lemma parse_zeros n : forall m, (86 * n <= m)%nat -> exists r, parse_strings n (zeros m) = Ok (map GStr (repeat [] n), r).
Proof.
  induction n as [|n IH]; intros m H; [now exists (zeros m)|]. destruct (IH (m - 86)%nat ltac:(lia)) as (r & Er). exists r.
  replace (zeros m) with (zeros 4 ++ zeros 82 ++ zeros (m - 86)).
  2:{ unfold zeros. rewrite <- !repeat_app. f_equal. lia. }
  rewrite parse_step by reflexivity. rewrite Er. reflexivity.
Qed.
Lemma parse_first s ss n : short_text s -> parse_strings (S n) (concat (map string_data (s :: ss))) =
  let* (vs, r2) := parse_strings n ([0; 0] ++ concat (map string_data ss)) in Ok (GStr s :: vs, r2).
Proof.
  intros [B L]. cbn [map concat]. unfold string_data at 1.
  replace ((le 4 (len s) ++ s ++ zeros (84 - length s)) ++ concat (map string_data ss)) with (le 4 (len s) ++ (s ++ zeros (82 - length s)) ++ [0; 0] ++ concat (map string_data ss)).
  2:{ rewrite <- !app_assoc. do 2 f_equal. rewrite app_assoc. f_equal. change [0; 0] with (zeros 2). unfold zeros. rewrite <- repeat_app. f_equal. unfold len in L. lia. }
  rewrite parse_step; [|apply le_length|rewrite app_length; unfold zeros; rewrite repeat_length; unfold len in L; lia].
  pose proof (len_nonneg s). rewrite unle_le_small by (cbn; lia). destruct (Z.ltb_spec 82 (len s)); [lia|].
  rewrite firstn_app_exact by (unfold len; lia). reflexivity.
Qed.
Lemma strings_len ss : Forall short_text ss -> len (concat (map string_data ss)) = 88 * len ss.
Proof.
  induction 1 as [|s ss [_ L] F IH]; [reflexivity|]. cbn [map concat]. rewrite len_app, IH, len_cons. change (string_data s) with (text_data s). rewrite text_data_len by exact L. lia.
Qed.

(** The write, given what the server makes of it. *)
Lemma texts_written session context otid i sh ops tg ss vs left l0 q :
  linked session context otid i sh -> named ops tg -> addressed tg -> length (last_subs tg) <> 1%nat -> Forall short_text ss -> 88 * len ss < 63000 -> (2 <= length vs)%nat ->
  parse_strings (length ss) (concat (map string_data ss)) = Ok (map GStr vs, left) ->
  behind i sh (lower (text tg)) = Some (VMany (EK KString) l0) ->
  exists sh1, write_single (link session context) (cl_run ops) sh otid q (text tg) (WMany KString (map GStr ss)) = (Ok tt, sh1, q + 1) /\
    linked session context otid i sh1 /\ others_same i (fst sh) (fst sh1) /\ updated (behind i sh) (lower (text tg)) (texts vs) (behind i sh1).
Proof.
  intros L N Ad Ls F Lb L2 P Hb. pose proof Ad as (V & B & _). pose proof (plain_lower tg V B Ls) as Pl. pose proof (len_nonneg ss). pose proof (strings_len ss F) as Ln.
  assert (Ca : carries (WMany KString (map GStr ss)) [0xA0; 0x02; 0xCE; 0x0F] (len ss) (concat (map string_data ss))).
  { apply c_strings; [eapply Forall_impl; [|exact F]; intros s [_ H0]; exact H0|]. cbn. lia. }
  assert (Lt : len ([0xA0; 0x02; 0xCE; 0x0F] ++ le 2 (len ss) ++ concat (map string_data ss)) < 64000) by (rewrite !len_app, le_len, Ln; change (len [160; 2; 206; 15]) with 4; lia).
  assert (Gv : as_given (map GStr vs) = GiveMany EAny (map GStr vs)) by (destruct vs as [|a [|b vs]]; cbn [length] in L2; try lia; reflexivity).
  destruct (link_write_parsed session context otid i sh q tg [0xA0; 0x02; 0xCE; 0x0F] (len ss) (concat (map string_data ss)) 0xA0
    ([0x02; 0xCE; 0x0F] ++ le 2 (len ss) ++ concat (map string_data ss)) (map GStr vs) left) as (r & sh1 & E & L1 & Os & K); try assumption.
  - apply N.
  - reflexivity.
  - lia.
  - change (160 :: [2; 206; 15] ++ ?x) with ([0xA0; 0x02; 0xCE; 0x0F] ++ x). rewrite texts_parsed by lia. unfold len. rewrite Nat2Z.id. exact P.
  - apply Forall_map, Forall_forall. intros s _. discriminate.
  - destruct vs; [cbn [length] in L2; lia|discriminate].
  - exists sh1. rewrite (write_single_sends _ ops tg _ _ _ _ sh otid q N Ca ltac:(lia)). unfold exchange. rewrite E. rewrite Gv in K.
    assert (Bs : Forall2 (fun g x => becomes (VOne g) (EK KString) x) (map GStr vs) (map (fun s => VOne (GStr s)) vs)).
    { clear. induction vs as [|s vs IH]; constructor; [|exact IH]. split; [discriminate|]. exists (GStr s), (GStr s). split; [reflexivity|]. split; [reflexivity|].
      split; [now left|]. split; [reflexivity|]. split; [reflexivity|]. intros s0 w z s' w' X. discriminate X. }
    assert (W : exists m, writes (behind i sh) (text tg) (GiveMany EAny (map GStr vs)) m).
    { exists (fun x => if bseq x (lower (text tg)) then Some (texts vs) else behind i sh x).
      apply (w_keep _ _ _ _ _ _ _ _ Pl Hb eq_refl Bs).
      split; [now rewrite bseq_refl|]. intros k' X. destruct (bseq k' (lower (text tg))) eqn:Eb; [|reflexivity]. apply bseq_spec in Eb. congruence. }
    destruct K as [(p & -> & A & K)|(er & _ & K & _)]; [|destruct W as (m & W); now elim (K m)].
    rewrite (write_answer_parsed _ _ A). split; [reflexivity|]. split; [exact L1|]. split; [exact Os|].
    apply writes_plain_inv in K as [(e1 & l1 & l2 & l' & E1 & E2 & F2 & U)|[No _]]; [| |exact Pl].
    + rewrite Hb in E1. injection E1 as <- <-. injection E2 as <-. replace (texts vs) with (VMany (EK KString) l'); [exact U|]. unfold texts. f_equal.
      clear - F2. revert l' F2. induction vs as [|s vs IH]; intros l' F2; inversion F2 as [|? ? ? ? [_ (g & g' & Eg & -> & _ & _ & Fk & _)] F']; subst; [reflexivity|].
      injection Eg as <-. cbn [map]. rewrite (Fk eq_refl). f_equal. now apply IH.
    + elim No. now exists (EK KString), l0, (map GStr vs).
Qed.

(** ** C135

    Full statement: Write of a slice of strings to an array of strings of the server
    either succeeds, and the array then holds these strings, or fails and changes
    nothing.  It is false: the write succeeds, but the second string is another one,
    unless it is empty or begins with a zero byte. *)
Theorem C135_second_wrong : forall session context otid i sh ops tg s s' ss l0 q,
  linked session context otid i sh -> named ops tg -> addressed tg -> length (last_subs tg) <> 1%nat -> Forall short_text (s :: s' :: ss) -> 88 * len (s :: s' :: ss) < 63000 ->
  hd 0 s' <> 0 -> behind i sh (lower (text tg)) = Some (VMany (EK KString) l0) ->
  exists sh1 w ws, write_single (link session context) (cl_run ops) sh otid q (text tg) (WMany KString (map GStr (s :: s' :: ss))) = (Ok tt, sh1, q + 1) /\
    linked session context otid i sh1 /\ others_same i (fst sh) (fst sh1) /\
    updated (behind i sh) (lower (text tg)) (texts (s :: w :: ws)) (behind i sh1) /\ length ws = length ss /\ w <> s'.
Proof.
  intros session context otid i sh ops tg s s' ss l0 q L N Ad Ls F Lb Hd Hb.
  pose proof (Forall_inv F) as H. pose proof (Forall_inv_tail F) as F'. pose proof (Forall_inv F') as [B' L']. pose proof (strings_len ss (Forall_inv_tail F')) as Ln.
  destruct s' as [|c s']; [cbn in Hd; congruence|]. cbn [hd] in Hd. pose proof (len_nonneg s') as P'. rewrite len_cons in L'. set (k := len s' + 1) in *.
  set (t := s' ++ zeros (84 - length (c :: s')) ++ concat (map string_data ss)).
  assert (Lt : length t = (83 + 88 * length ss)%nat).
  { unfold t. rewrite !app_length. unfold zeros. rewrite repeat_length. cbn [length]. unfold k, len in *. lia. }
  assert (E : [0; 0] ++ concat (map string_data ((c :: s') :: ss)) = [0; 0; k; 0] ++ (0 :: 0 :: c :: firstn 79 t) ++ skipn 79 t).
  { cbn [app map concat]. rewrite firstn_skipn. unfold string_data at 1. rewrite len_cons. unfold t. replace (1 + len s') with k by (unfold k; lia).
    replace (le 4 k) with [k; 0; 0; 0]; [cbn [app]; now rewrite <- !app_assoc|].
    cbn [le]. rewrite (Z.mod_small k) by lia. rewrite (Z.div_small k) by lia. reflexivity. }
  destruct (parse_any (length ss) (skipn 79 t)) as (ws & left & Er & Lw); [unfold len; rewrite skipn_length; lia|].
  assert (P : parse_strings (length (s :: (c :: s') :: ss)) (concat (map string_data (s :: (c :: s') :: ss))) = Ok (map GStr (s :: (0 :: 0 :: c :: firstn 79 t) :: ws), left)).
  { cbn [length]. rewrite parse_first by exact H. rewrite E. rewrite parse_step; [|reflexivity|cbn [length]; rewrite firstn_length; lia].
    rewrite Er. cbn [bind]. assert (Eu : (82 <? unle [0; 0; k; 0]) = true) by (cbn [unle]; apply Z.ltb_lt; unfold k; lia). rewrite Eu. change (Z.to_nat 82) with 82%nat.
    rewrite firstn_all2 by (cbn [length]; rewrite firstn_length; lia). reflexivity. }
  assert (L2 : (2 <= length (s :: ((0 :: 0 :: c :: firstn 79 t) : list Z)%Z :: ws))%nat) by (cbn [length]; lia).
  destruct (texts_written session context otid i sh ops tg _ _ _ l0 q L N Ad Ls F Lb L2 P Hb) as (sh1 & E1 & L1 & Os & U).
  exists sh1, (0 :: 0 :: c :: firstn 79 t), ws. split; [exact E1|]. split; [exact L1|]. split; [exact Os|]. split; [exact U|]. split; [exact Lw|]. congruence.
Qed.
Print Assumptions C135_second_wrong.

(** If all but the first are empty the array is stored as it is. *)
Theorem C135_empty_partial : forall session context otid i sh ops tg s n l0 q,
  linked session context otid i sh -> named ops tg -> addressed tg -> length (last_subs tg) <> 1%nat -> short_text s -> (1 <= n)%nat -> 88 * len (s :: repeat [] n) < 63000 ->
  behind i sh (lower (text tg)) = Some (VMany (EK KString) l0) ->
  exists sh1, write_single (link session context) (cl_run ops) sh otid q (text tg) (WMany KString (map GStr (s :: repeat [] n))) = (Ok tt, sh1, q + 1) /\
    linked session context otid i sh1 /\ others_same i (fst sh) (fst sh1) /\
    updated (behind i sh) (lower (text tg)) (texts (s :: repeat [] n)) (behind i sh1).
Proof.
  intros session context otid i sh ops tg s n l0 q L N Ad Ls H Hn Lb Hb.
  assert (F : Forall short_text (s :: repeat [] n)).
  { constructor; [exact H|]. apply Forall_forall. intros x I. apply repeat_spec in I. subst. split; [constructor|]. change (len (@nil Z)) with 0. lia. }
  assert (Ez : forall m, concat (map string_data (repeat [] m)) = zeros (88 * m)).
  { intros m. induction m as [|m IH]; [reflexivity|]. cbn [repeat map concat]. rewrite IH. change (string_data []) with (zeros 88). unfold zeros. rewrite <- repeat_app. f_equal. lia. }
  destruct (parse_zeros n (2 + 88 * n) ltac:(lia)) as (left & Er).
  assert (P : parse_strings (length (s :: repeat (@nil Z) n)) (concat (map string_data (s :: repeat [] n))) = Ok (map GStr (s :: repeat [] n), left)).
  { cbn [length]. rewrite parse_first by exact H. rewrite repeat_length, Ez. change [0; 0] with (zeros 2). unfold zeros in *. rewrite <- repeat_app, Er. reflexivity. }
  assert (L2 : (2 <= length (s :: repeat (@nil Z) n))%nat) by (cbn [length]; rewrite repeat_length; lia).
  destruct (texts_written session context otid i sh ops tg _ _ _ l0 q L N Ad Ls F Lb L2 P Hb) as (sh1 & E1 & L1 & Os & U).
  exists sh1. now split.
Qed.
Print Assumptions C135_empty_partial.

(** ** Examples *)
Lemma lines_there : behind 0 lines (lower (text (nm (str "Lines") []))) = Some (VMany (EK KString) [VOne (GStr (str "a")); VOne (GStr (str "b")); VOne (GStr (str "c"))]).
Proof. vm_compute. reflexivity. Qed.
Theorem C135_refuted : exists ss sh1 w, write_single (link 77 9) (cl_run []) lines 5 1 (str "Lines") (WMany KString (map GStr ss)) = (Ok tt, sh1, 2) /\
  linked 77 9 5 0 lines /\ Forall short_text ss /\ behind 0 sh1 (str "lines") = Some w /\ w <> texts ss.
Proof.
  destruct (C135_second_wrong 77 9 5 0 lines [] (nm (str "Lines") []) (str "a") (str "b") [str "c"] _ 1 lines_linked ltac:(demo_tag) ltac:(demo_tag) ltac:(discriminate) lines_short
    ltac:(vm_compute; reflexivity) ltac:(vm_compute; discriminate) lines_there) as (sh1 & w & ws & E & _ & _ & U & Lw & Ne).
  exists [str "a"; str "b"; str "c"], sh1, (texts (str "a" :: w :: ws)). split; [exact E|]. split; [exact lines_linked|]. split; [exact lines_short|].
  split; [exact (proj1 U)|]. unfold texts. cbn [map]. congruence.
Qed.
Print Assumptions C135_refuted.
Example ex_C135_empty : exists sh1, write_single (link 77 9) (cl_run []) lines 5 1 (str "Lines") (WMany KString [GStr (str "a"); GStr []; GStr []]) = (Ok tt, sh1, 2) /\
  behind 0 sh1 (str "lines") = Some (texts [str "a"; []; []]).
Proof.
  destruct (C135_empty_partial 77 9 5 0 lines [] (nm (str "Lines") []) (str "a") 2 _ 1 lines_linked ltac:(demo_tag) ltac:(demo_tag) ltac:(discriminate) (Forall_inv lines_short)
    ltac:(lia) ltac:(vm_compute; reflexivity) lines_there) as (sh1 & E & _ & _ & U).
  exists sh1. split; [exact E|exact (proj1 U)].
Qed.
