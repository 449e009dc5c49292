(** * C117: elements of arrays of texts *)
From Verif Require Import GoBase SegModel IoiModel IoiSpec IoiProof ItemsModel TypesModel ItemsSpec ItemsProof ReadModel ReadSpec ReadProof Prop_Read
  PackTypes PackModel PackSpec PackProof PackRead Prop_Pack StructModel LgxModel KnownModel KnownSpec KnownProof WriteModel WriteSpec
  WriteProof BatchSpec EipModel EipSpec OpenModel TableModel SrvValModel SrvValSpec SrvValProof ProvModel ProvSpec ProvProof Prop_SrvVal SrvModel SrvSpec
  SrvProof Prop_Srv ReqSpec LinkModel ReqProof Prop_Req Prop_Known Prop_Structs.

(** A text, wherever it is found, is read into a STRING. *)
Theorem C117_any_read : forall session context otid i sh ops tg s old fuel q,
  linked session context otid i sh -> named ops tg -> addressed tg -> bytes_ok s -> len s <= 82 ->
  ProvSpec.reads (behind i sh) (text tg) 1 (VOne (GStr s)) ->
  exists sh1, kread fuel (link session context) (cl_run ops) sh otid q (text tg) KString old = (Ok (string_struct s), sh1, q + 1) /\
    linked session context otid i sh1 /\ fst sh1 = fst sh.
Proof.
  intros session context otid i sh ops tg s old fuel q L N Ad B Len R.
  assert (Cc : clear_count 1) by (unfold clear_count; rewrite Z.mod_small by lia; lia).
  assert (Es : firstn 82 s = s) by (apply firstn_all2; unfold len in Len; lia).
  pose proof (wv_string s) as W. rewrite Es in W. rewrite Z.min_l in W by lia.
  change ([160; 2; 206; 15] ++ ?x) with ([160; 2] ++ ([206; 15] ++ x)) in W.
  assert (Lv : len ([206; 15] ++ le 4 (len s) ++ s ++ zeros (84 - length s)) < 65000).
  { rewrite !len_app, le_len. unfold zeros. unfold len in *. rewrite repeat_length. cbn [length]. lia. }
  destruct (link_read session context otid i sh q tg 1 _ _ _ _ L Ad (proj2 (proj2 N)) Cc R W Lv) as (p & sh1 & El & A & L1 & F1).
  exists sh1. split; [|split; assumption]. unfold kread. change T_struct with 0xA0.
  rewrite (C17_structure_bytes _ _ fuel ops sh sh1 otid q tg (le 4 (len s) ++ s ++ zeros (84 - length s)) [206; 15] 1 N eq_refl).
  2:{ exists 0, p. split; [exact El|exact A]. }
  cbn [as_bytes bind]. replace (le 4 (len s) ++ s ++ zeros (84 - length s)) with (fst (kpack KString (string_struct s)) ++ [0; 0]).
  2:{ rewrite string_struct_bytes by assumption. rewrite <- !app_assoc. do 2 f_equal. change [0; 0] with (zeros 2). unfold zeros. rewrite <- repeat_app. f_equal. unfold len in Len. lia. }
  assert (U : kunpack KString old (fst (kpack KString (string_struct s)) ++ [0; 0]) = Ok (string_struct s, snd (kpack KString (string_struct s)), [0; 0]))
    by exact (C14_round_trip _ _ (string_struct s) [0; 0] (string_struct_typed s B Len)).
  rewrite U. reflexivity.
Qed.
Print Assumptions C117_any_read.

(** Write of a STRING to an element of an array of texts or of an array of any
    values replaces that element; the element is read back into a STRING or a Go
    string, whatever others do with other tags. *)
Theorem C117_element_partial : forall session context otid i sh ops ops' tg tg' j e l s old fuel q q',
  linked session context otid i sh -> named ops tg -> addressed tg -> named ops' tg' -> addressed tg' ->
  lower (text tg') = lower (text tg) -> last_subs tg = [j] -> bytes_ok s -> len s <= 82 ->
  behind i sh (lower (text (strip_subs tg))) = Some (VMany e l) -> e = EK TypesModel.KString \/ e = EAny -> j < len l ->
  exists sh1, kwrite crc16 (link session context) (cl_run ops) sh otid q (text tg) KString (string_struct s) = (Ok tt, sh1, q + 1) /\
    linked session context otid i sh1 /\
    (exists l', behind i sh1 (lower (text (strip_subs tg))) = Some (VMany e l') /\ replaced l (Z.to_nat j) (VOne (GStr s)) l') /\
    forall sh2, meanwhile i (lower (text (strip_subs tg))) sh1 sh2 ->
      (exists sh3, kread fuel (link session context) (cl_run ops') sh2 otid q' (text tg') KString old = (Ok (string_struct s), sh3, q' + 1) /\ fst sh3 = fst sh2) /\
      (exists sh3, client_read fuel (link session context) (cl_run ops') sh2 otid q' (text tg') TypesModel.KString = (Ok (GStr s), sh3, q' + 1) /\ fst sh3 = fst sh2).
Proof.
  intros session context otid i sh ops ops' tg tg' j e l s old fuel q q' L N Ad N' Ad' El Ls B Len Hb He Hj.
  pose proof Ad as (V & Bt & _). pose proof (elem_lower tg j V Bt Ls) as En. pose proof (last_sub_nonneg tg j V Ls) as Hj0.
  pose proof (string_struct_typed s B Len) as H. set (v := string_struct s) in *. assert (Ch : characters v = s) by exact (string_struct_chars s B Len). assert (Ev : v = string_struct s) by reflexivity. clearbody v.
  assert (Lp : len (fst (kpack KString v)) = 86).
  { destruct (string_typed_inv v H) as (n & cs & -> & _ & Lc & F). rewrite pack_string by assumption. rewrite len_app, le_len. unfold len. rewrite map_length, Lc. reflexivity. }
  rewrite (kwrite_sends _ ops tg KString v sh otid q N Logic.I Logic.I string_regular H ltac:(lia)).
  change (logix_handle KString (logix_text KString)) with 0x0FCE.
  destruct (link_write_parsed session context otid i sh q tg ([0xA0; 0x02] ++ le 2 0x0FCE) 1 (fst (kpack KString v)) 0xA0
    (([0x02] ++ le 2 0x0FCE) ++ le 2 1 ++ fst (kpack KString v)) [GStr (characters v)] []) as (r & sh1 & E & L1 & Os & K); try assumption.
  - apply N.
  - reflexivity.
  - lia.
  - exact (string_parsed v H).
  - constructor; [discriminate|constructor].
  - discriminate.
  - rewrite !len_app, Lp, !le_len. reflexivity.
  - unfold exchange. rewrite E. rewrite Ch in K.
    assert (Bc : becomes (seen (GiveOne (GStr s))) e (VOne (GStr s))).
    { split; [cbn [seen]; congruence|]. destruct He as [-> | ->]; [|reflexivity]. exists (GStr s), (GStr s). split; [reflexivity|]. split; [reflexivity|].
      split; [now left|]. split; [reflexivity|]. split; [reflexivity|]. intros s0 w z s' w' X. discriminate. }
    assert (Rp : replaced l (Z.to_nat j) (VOne (GStr s)) (setn l (Z.to_nat j) (VOne (GStr s)))) by (apply replaced_setn; unfold len in Hj; lia).
    assert (W : exists m, writes (behind i sh) (text tg) (GiveOne (GStr s)) m).
    { exists (fun x => if bseq x (lower (text (strip_subs tg))) then Some (VMany e (setn l (Z.to_nat j) (VOne (GStr s)))) else behind i sh x).
      apply (w_elem _ _ _ _ _ _ _ _ _ _ En Hb (conj Hj0 Hj) Bc Rp).
      split; [now rewrite bseq_refl|]. intros k' X. destruct (bseq k' (lower (text (strip_subs tg)))) eqn:Eb; [|reflexivity]. apply bseq_spec in Eb. congruence. }
    destruct K as [(p & -> & A & K)|(er & _ & K & _)]; [|destruct W as (m & W); now elim (K m)].
    exists sh1. rewrite (write_answer_parsed _ _ A). split; [reflexivity|]. split; [exact L1|].
    destruct (writes_elem_inv _ _ _ _ _ _ En K) as (e1 & l1 & x & l' & E1 & _ & Bx & Rx & U). rewrite Hb in E1. injection E1 as <- <-.
    assert (x = VOne (GStr s)) as ->.
    { destruct Bx as [_ Bx]. destruct He as [-> | ->]; [|exact Bx]. destruct Bx as (g & g' & Eg & -> & _ & _ & Fk & _). cbn [as_given seen] in Eg.
      injection Eg as <-. now rewrite (Fk eq_refl). }
    split; [exists l'; split; [apply U|exact Rx]|]. intros sh2 Mw. destruct (meanwhile_keeps session context otid i _ _ _ Mw L1) as (L2 & E2).
    assert (R : ProvSpec.reads (behind i sh2) (text tg') 1 (VOne (GStr s))).
    { apply (r_elem _ _ _ (lower (text (strip_subs tg))) j e l'); [now rewrite El|rewrite E2; apply U|exact Hj0|reflexivity|apply Rx]. }
    split.
    + destruct (C117_any_read session context otid i sh2 ops' tg' s old fuel q' L2 N' Ad' B Len R) as (sh3 & E3 & _ & F3). rewrite Ev. now exists sh3.
    + destruct (C44_read session context otid i sh2 ops' tg' TypesModel.KString (GStr s) fuel q' L2 N' Ad') as (sh3 & E3 & _ & F3); [right; exists s; repeat split; assumption|exact R|]. now exists sh3.
Qed.
Print Assumptions C117_element_partial.

(** A server with an array of three texts. *)
Definition line_writes : list (bytes * given) := [(str "lines", GiveMany (EK TypesModel.KString) [GStr (str "a"); GStr (str "b"); GStr (str "c")])].
Definition line_prov : prov := fst (run_writes (sv_conv demo_server) (Prov [] []) line_writes).
Definition lines : server * handler := (set_prov 0 line_prov demo_server, demo_handler).
Lemma lines_linked : linked 77 9 5 0 lines.
Proof.
  split; [lia|]. split; [lia|]. split; [lia|]. split; [split; cbn; lia|].
  assert (E : run_writes (sv_conv demo_server) (Prov [] []) line_writes = (line_prov, [true])) by (vm_compute; reflexivity).
  split; [|exact (proj1 (run_history _ _ _ _ _ separate_empty E))]. exists 6. split; [cbn; lia|].
  exists (SConn 1 5 6 1000 [1; 0] true). split; [vm_compute; reflexivity|]. split; vm_compute; reflexivity.
Qed.
Example ex_C117_element : exists sh1 sh3, kwrite crc16 (link 77 9) (cl_run []) lines 5 1 (str "Lines[1]") KString (string_struct (str "hello")) = (Ok tt, sh1, 2) /\
  (exists l', behind 0 sh1 (str "lines") = Some (VMany (EK TypesModel.KString) l') /\ replaced [VOne (GStr (str "a")); VOne (GStr (str "b")); VOne (GStr (str "c"))] 1 (VOne (GStr (str "hello"))) l') /\
  kread 0 (link 77 9) (cl_run []) sh1 5 2 (str "LINES[1]") KString (VBool false) = (Ok (string_struct (str "hello")), sh3, 3).
Proof.
  destruct (C117_element_partial 77 9 5 0 lines [] [] (nm (str "Lines") [1]) (nm (str "LINES") [1]) 1 (EK TypesModel.KString) [VOne (GStr (str "a")); VOne (GStr (str "b")); VOne (GStr (str "c"))] (str "hello") (VBool false) 0 1 2 lines_linked
    ltac:(demo_tag) ltac:(demo_tag) ltac:(demo_tag) ltac:(demo_tag) eq_refl eq_refl) as (sh1 & E & _ & U & R).
  - unfold bytes_ok; cbn; repeat (constructor; [unfold byte_ok; lia|]); constructor.
  - vm_compute. discriminate.
  - vm_compute. reflexivity.
  - now left.
  - reflexivity.
  - destruct (R sh1 (mw_none _ _ _)) as ((sh3 & E3 & _) & _). exists sh1, sh3. split; [exact E|]. split; [exact U|exact E3].
Qed.
Example ex_C117_any : exists sh3, kread 0 (link 77 9) (cl_run []) lines 5 2 (str "LINES[2]") KString (VBool false) = (Ok (string_struct (str "c")), sh3, 3).
Proof.
  destruct (C117_any_read 77 9 5 0 lines [] (nm (str "LINES") [2]) (str "c") (VBool false) 0 2 lines_linked ltac:(demo_tag) ltac:(demo_tag)) as (sh3 & E3 & _).
  - unfold bytes_ok; cbn; repeat (constructor; [unfold byte_ok; lia|]); constructor.
  - vm_compute. discriminate.
  - refine (r_elem _ _ _ (str "lines") 2 (EK TypesModel.KString) [VOne (GStr (str "a")); VOne (GStr (str "b")); VOne (GStr (str "c"))] _ _ _ _ _ _); [|vm_compute; reflexivity|lia|reflexivity|reflexivity].
    exists (str "2"). split; reflexivity.
  - now exists sh3.
Qed.

(** ** Several STRINGs at once

    The server repeats the type in front of every text of an array, the client
    expects it once: Read of a slice of STRING succeeds, and the second STRING is
    not the second text. *)
Definition string_target : target := match under KString with TStruct name fs => TgStruct name fs | _ => TgStruct [] FNil end.
Theorem C134_slice_refuted : exists ss t w, linked 77 9 5 0 lines /\ named [] t /\ addressed t /\ Forall (fun s => bytes_ok s /\ len s <= 82) ss /\
  ProvSpec.reads (behind 0 lines) (text t) 2 (VMany (EK TypesModel.KString) (map (fun s => VOne (GStr s)) ss)) /\
  nth 0 ss [] = str "a" /\ nth 1 ss [] = str "b" /\
  fst (fst (read_to 0 (link 77 9) (cl_run []) lines 5 1 (text t) (DMany [string_target; string_target]))) = Ok (OMany [SStruct (string_struct (str "a")); SStruct w]) /\
  w <> string_struct (str "b").
Proof.
  exists [str "a"; str "b"], (nm (str "Lines") []).
  exists (VStruct [VInt 0x0FCE02A0; VArr (map sint_of ([1; 0; 0; 0; 98] ++ zeros 77))]).
  split; [exact lines_linked|]. split; [demo_tag|]. split; [demo_tag|].
  split; [repeat (constructor; [split; [unfold bytes_ok; cbn; repeat (constructor; [unfold byte_ok; lia|]); constructor|vm_compute; discriminate]|]); constructor|].
  split.
  - change (map (fun s => VOne (GStr s)) [str "a"; str "b"]) with (firstn (Z.to_nat 2) [VOne (GStr (str "a")); VOne (GStr (str "b")); VOne (GStr (str "c"))]).
    apply r_many; [|vm_compute; reflexivity|vm_compute; split; discriminate].
    assert (T : addressed (nm (str "Lines") [])) by demo_tag. destruct T as (V & B & _). apply (plain_lower _ V B). vm_compute. discriminate.
  - split; [reflexivity|]. split; [reflexivity|]. split; [vm_compute; reflexivity|]. intros X. vm_compute in X. discriminate X.
Qed.
Print Assumptions C134_slice_refuted.
