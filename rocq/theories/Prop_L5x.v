(** * C85 and C86: loading the tags of a project file *)
From Verif Require Import GoBase TypesModel L5xModel L5xSpec L5xProof.

Lemma nodup_parts {A} (a b : list A) : NoDup (a ++ b) -> NoDup a /\ NoDup b /\ forall k, In k a -> ~ In k b.
Proof.
  induction a as [|x a IH]; cbn [app]; intro ND; [split; [constructor|split; [exact ND|contradiction]]|].
  inversion ND as [|? ? N ND']; subst. destruct (IH ND') as (A1 & B & D). split; [|split; [exact B|]].
  - constructor; [|exact A1]. intro I. apply N, in_or_app. now left.
  - intros k [<-|I] J; [apply N, in_or_app; now right|exact (D k I J)].
Qed.

(** C85: every tag gets the value the file gives for it. *)
Theorem C85_loaded_partial : forall pf f ts ps,
  has_tags f ts ps -> unambiguous ts ps ->
  Forall (simple_controller pf) ts -> Forall (fun x => Forall (simple_program pf) (snd x)) ps ->
  exists m, load_tags pf f = Ok m /\ loaded pf ts ps m.
Proof.
  intros pf f ts ps (Et & programs & Ep & E) (ND & Nd) Ft Fp.
  destruct (nodup_parts _ _ ND) as (ND1 & ND2 & Dis).
  destruct (controller_tags_ok pf ts ND1 Ft [] ltac:(reflexivity)) as [Ce Co].
  destruct (load_programs_ok pf programs ps E ND2 Nd Fp (fold_left (controller_tag pf) ts [])) as (m & El & P & O).
  exists m. split; [unfold load_tags; rewrite Et, Ep; exact El|]. split; [|split; [exact P|]].
  - intros t I. rewrite O by (apply Dis; now apply in_map). now apply Ce.
  - intros k v G. apply in_or_app. destruct (in_dec (list_eq_dec Z.eq_dec) k (map (fun x => str "program:" ++ fst x) ps)) as [I|N]; [now right|left].
    rewrite O in G by exact N. destruct (in_dec (list_eq_dec Z.eq_dec) k (map lt_name ts)) as [I|N']; [exact I|]. rewrite Co in G by exact N'. discriminate.
Qed.
Print Assumptions C85_loaded_partial.

(** A DINT and an alias of the controller; in the program a BOOL, a structure, an
    array of numbers and an array of structures with a string. *)
Definition no_raw : ddata := DData (str "L5K") None None None.
Definition dec_value (ty v : bytes) : ddata := DData (str "Decorated") (Some (DValue [] ty v [])) None None.
Definition dec_struct (s : dstruct) : ddata := DData (str "Decorated") None (Some s) None.
Definition dec_array (a : darray) : ddata := DData (str "Decorated") None None (Some a).
Definition val_tag (n ty v : bytes) : ltag := LTag n ty [] [] [no_raw; dec_value ty v].
Definition pair_struct : dstruct := DStruct [] (str "Pair") [DValue (str "A") (str "INT") (str "-12") []; DValue (str "B") (str "BYTE") (str "100") []] [] [].
Definition text_struct : dstruct := DStruct [] (str "STRING") [DValue (str "LEN") (str "DINT") (str "2") []; DValue (str "DATA") (str "STRING") [] (quoted (str "hi"))] [] [].
Definition ex_ts : list ltag := [val_tag (str "Speed") (str "DINT") (str "-1500"); LTag (str "Alias") [] [] [] []].
Definition ex_tags : list ltag :=
  [val_tag (str "Run") (str "BOOL") (str "1"); LTag (str "P") (str "Pair") [] [] [no_raw; dec_struct pair_struct];
   LTag (str "L") (str "LINT") (str "2") [] [no_raw; dec_array (DArray [] (str "LINT") (str "2") [DElement (str "[0]") (str "7") None; DElement (str "[1]") (str "9") None])];
   LTag (str "S") (str "STRING") (str "1") [] [no_raw; dec_array (DArray [] (str "STRING") (str "1") [DElement (str "[0]") [] (Some [text_struct])])]].
Definition file (ts : list ltag) (ps : list (bytes * list ltag)) : lfile :=
  LFile None None (Some ts) (Some (map (fun x => LProgram (fst x) (Some (snd x)) None) ps)) None.
Lemma file_has ts ps : has_tags (file ts ps) ts ps.
Proof. split; [reflexivity|]. eexists. split; [reflexivity|]. rewrite map_map. reflexivity. Qed.
Definition no_pf : bytes -> Z := fun _ => 0.
(** Decimal texts. *)
Lemma pos_text d : digits d -> reads_as d (number d).
Proof. intro D. exists d. split; [exact D|]. left. split; [now left|reflexivity]. Qed.
Lemma digits_check d : negb (length d =? 0)%nat && forallb is_digit d = true -> digits d.
Proof.
  intro H. apply andb_true_iff in H. destruct H as [N F]. split.
  - intros ->. discriminate.
  - apply Forall_forall. intros c I. rewrite forallb_forall in F. apply is_digit_iff. now apply F.
Qed.
Definition in_rangeb (signed : bool) (w : nat) (z : Z) : bool :=
  if signed then (- 2 ^ (8 * Z.of_nat w - 1) <=? z) && (z <? 2 ^ (8 * Z.of_nat w - 1)) else (0 <=? z) && (z <? 2 ^ (8 * Z.of_nat w)).
Lemma in_range_check signed w z : in_rangeb signed w z = true -> in_range signed w z.
Proof. unfold in_rangeb, in_range. destruct signed; rewrite andb_true_iff, Z.leb_le, Z.ltb_lt; trivial. Qed.
Lemma int_means ty signed w s : In (ty, (signed, w)) int_types -> negb (length s =? 0)%nat && forallb is_digit s = true ->
  in_rangeb signed w (number s) = true -> means no_pf ty s (GInt signed w (number s)).
Proof. intros I D R. apply means_int; [exact I|now apply in_range_check|apply pos_text; now apply digits_check]. Qed.
Lemma neg_means ty w s : In (ty, (true, w)) int_types -> negb (length s =? 0)%nat && forallb is_digit s = true ->
  in_rangeb true w (- number s) = true -> means no_pf ty (str "-" ++ s) (GInt true w (- number s)).
Proof. intros I D R. apply means_int; [exact I|now apply in_range_check|]. exists s. split; [now apply digits_check|]. right. split; reflexivity. Qed.
Ltac listed := vm_compute; tauto.
Lemma nodup_check (l : list bytes) : (fix go (l : list bytes) := match l with [] => true | x :: r => negb (existsb (bseq x) r) && go r end) l = true -> NoDup l.
Proof.
  induction l as [|x r IH]; intro H; [constructor|]. apply andb_true_iff in H. destruct H as [N H]. constructor; [|now apply IH].
  intro I. apply negb_true_iff in N. assert (X : existsb (bseq x) r = true); [|congruence]. apply existsb_exists. exists x. split; [exact I|apply bseq_refl].
Qed.
Lemma ex_two n ty dims ds d : dd_format d = str "Decorated" -> two_forms (LTag n ty dims ds [no_raw; d]) d.
Proof. intro E. exists no_raw. split; [reflexivity|]. split; [discriminate|exact E]. Qed.
Example ex_C85 :
  has_tags (file ex_ts [(str "Main", ex_tags)]) ex_ts [(str "Main", ex_tags)] /\ unambiguous ex_ts [(str "Main", ex_tags)] /\
  Forall (simple_controller no_pf) ex_ts /\ Forall (simple_program no_pf) ex_tags /\
  load_tags no_pf (file ex_ts [(str "Main", ex_tags)]) =
  Ok [(str "program:Main", LMap [(str "S", LArr [LMap [(str "DATA", LVal (GStr (str "hi"))); (str "LEN", LVal (GInt true 4 2))]]);
                                 (str "L", LArr [LVal (GInt true 8 7); LVal (GInt true 8 9)]);
                                 (str "P", LMap [(str "B", LVal (GInt false 1 100)); (str "A", LVal (GInt true 2 (-12)))]);
                                 (str "Run", LVal (GBool true))]);
      (str "Speed", LVal (GInt true 4 (-1500)))].
Proof.
  split; [apply file_has|]. split. { split; [apply nodup_check; reflexivity|]. constructor; [apply nodup_check; reflexivity|constructor]. }
  split.
  { constructor; [|constructor; [now left|constructor]]. right. eexists _, _. split; [apply ex_two; reflexivity|]. split; [reflexivity|].
    eexists. split; [apply (neg_means (str "DINT") 4 (str "1500")); [listed|reflexivity|reflexivity]|exact I]. }
  split; [|vm_compute; reflexivity].
  constructor; [|constructor; [|constructor; [|constructor; [|constructor]]]].
  - left. right. eexists _, _. split; [apply ex_two; reflexivity|]. split; [reflexivity|]. eexists. split; [apply (means_bool no_pf true); now left|exact I].
  - right. eexists. split; [apply ex_two; reflexivity|]. split; [reflexivity|]. left. eexists. split; [reflexivity|].
    split; [reflexivity|]. split; [reflexivity|]. split; [apply nodup_check; reflexivity|].
    constructor; [|constructor; [|constructor]].
    + eexists. split; [apply (neg_means (str "INT") 2 (str "12")); [listed|reflexivity|reflexivity]|exact I].
    + eexists. split; [apply (int_means (str "BYTE") false 1 (str "100")); [listed|reflexivity|reflexivity]|]. split; [listed|reflexivity].
  - right. eexists. split; [apply ex_two; reflexivity|]. split; [reflexivity|]. right. split; [reflexivity|].
    eexists _, _, _, _. split; [reflexivity|]. split; [apply (pos_text (str "2")); now apply digits_check|]. split; [vm_compute; split; discriminate|].
    constructor; [|constructor; [|constructor]].
    + eexists. split; [apply (int_means (str "LINT") true 8 (str "7")); [listed|reflexivity|reflexivity]|exact I].
    + eexists. split; [apply (int_means (str "LINT") true 8 (str "9")); [listed|reflexivity|reflexivity]|exact I].
  - right. eexists. split; [apply ex_two; reflexivity|]. split; [reflexivity|]. right. split; [reflexivity|].
    eexists _, _, _, _. split; [reflexivity|]. split; [apply (pos_text (str "1")); now apply digits_check|]. split; [vm_compute; split; discriminate|].
    constructor; [|constructor]. split; [reflexivity|]. split; [reflexivity|]. split; [apply nodup_check; reflexivity|].
    constructor; [left|constructor; [right|constructor]].
    + eexists. split; [apply (int_means (str "DINT") true 4 (str "2")); [listed|reflexivity|reflexivity]|exact I].
    + split; [reflexivity|]. eexists. reflexivity.
Qed.

(** Files that say what every tag holds. *)
Definition told (pf : bytes -> Z) (t : ltag) : Prop := decorated t = None \/ exists v, shows pf t v.
Definition complete (pf : bytes -> Z) (f : lfile) (ts : list ltag) (ps : list (bytes * list ltag)) : Prop :=
  has_tags f ts ps /\ unambiguous ts ps /\ Forall (told pf) ts /\ Forall (fun x => Forall (told pf) (snd x)) ps.
Definition not_loaded (pf : bytes -> Z) (f : lfile) (ts : list ltag) (ps : list (bytes * list ltag)) : Prop :=
  forall m, load_tags pf f = Ok m -> ~ loaded pf ts ps m.
Lemma complete_controller t v : shows no_pf t v -> complete no_pf (file [t] []) [t] [].
Proof.
  intro S. split; [apply file_has|]. split; [split; [cbn [map app]; constructor; [intros []|constructor]|constructor]|].
  split; [constructor; [right; now exists v|constructor]|constructor].
Qed.
Lemma complete_program t v : shows no_pf t v -> complete no_pf (file [] [(str "Main", [t])]) [] [(str "Main", [t])].
Proof.
  intro S. split; [apply file_has|]. split; [split; [cbn [map app]; constructor; [intros []|constructor]|constructor; [|constructor]]|].
  - cbn [snd map]. constructor; [intros []|constructor].
  - split; [constructor|]. constructor; [|constructor]. cbn [snd]. constructor; [right; now exists v|constructor].
Qed.
Lemma plain_struct_shows n ty vs xs : NoDup (map dv_name vs) -> Forall2 (member_means no_pf) vs xs ->
  exists m, struct_shows no_pf (DStruct n ty vs [] []) m.
Proof.
  intros ND F. exists (combine (map dv_name vs) (map LVal xs)). apply (ss_intro no_pf n ty vs [] [] xs [] []); try constructor; try exact F.
  all: cbn [map combine app]; rewrite ?app_nil_r; try (intros v I); try (intros N).
  - revert v I. induction F as [|d x vs xs Hd F IH]; cbn [map combine]; [contradiction|]. cbn [map] in ND. inversion ND as [|? ? Nd ND']; subst.
    intros v [E|I]; unfold mget; cbn [find fst].
    + apply pair_equal_spec in E. destruct E as [<- <-]. rewrite bseq_refl. reflexivity.
    + destruct (bseq (dv_name d) k) eqn:B; [apply bseq_spec in B; subst k; exfalso; apply Nd; now apply in_combine_l in I|]. now apply IH.
  - clear ND. induction F as [|d x vs xs Hd F IH]; [reflexivity|]. cbn [map combine] in N |- *. unfold mget. cbn [find fst].
    destruct (bseq (dv_name d) k) eqn:B; [apply bseq_spec in B; exfalso; apply (N (LVal x)); left; now rewrite B|]. apply IH. intros v I. apply (N v). now right.
Qed.

(** Structures and arrays of the controller are left out. *)
Theorem C85_controller_structure_refuted : exists f ts ps, complete no_pf f ts ps /\ not_loaded no_pf f ts ps /\ load_tags no_pf f = Ok [].
Proof.
  set (t := LTag (str "P") (str "Pair") [] [] [no_raw; dec_struct pair_struct]). exists (file [t] []), [t], [].
  split; [|split; [|reflexivity]].
  - destruct (plain_struct_shows [] (str "Pair") (ds_values pair_struct) [GInt true 2 (-12); GInt false 1 100]) as (m & Sm).
    + apply nodup_check. reflexivity.
    + constructor; [|constructor; [|constructor]]; apply mm_plain.
      * apply (neg_means (str "INT") 2 (str "12")); [listed|reflexivity|reflexivity].
      * apply (int_means (str "BYTE") false 1 (str "100")); [listed|reflexivity|reflexivity].
    + apply (complete_controller t (LMap m)). now apply (sh_struct no_pf t (dec_struct pair_struct) pair_struct m).
  - intros m E (L & _). vm_compute in E. assert (m = []) as -> by congruence. destruct (L t (or_introl eq_refl)) as (v & G & _). discriminate.
Qed.
Print Assumptions C85_controller_structure_refuted.
Theorem C85_controller_array_refuted : exists f ts ps, complete no_pf f ts ps /\ not_loaded no_pf f ts ps /\ load_tags no_pf f = Ok [].
Proof.
  set (t := LTag (str "L") (str "LINT") (str "1") [] [no_raw; dec_array (DArray [] (str "LINT") (str "1") [DElement (str "[0]") (str "7") None])]).
  exists (file [t] []), [t], []. split; [|split; [|reflexivity]].
  - apply (complete_controller t (LArr [LVal (GInt true 8 7)])). eapply sh_array; try reflexivity. apply as_intro. constructor; [|constructor].
    apply es_value. apply (int_means (str "LINT") true 8 (str "7")); [listed|reflexivity|reflexivity].
  - intros m E (L & _). vm_compute in E. assert (m = []) as -> by congruence. destruct (L t (or_introl eq_refl)) as (v & G & _). discriminate.
Qed.
Print Assumptions C85_controller_array_refuted.
(** A structure inside a structure is left out. *)
Theorem C85_nested_refuted : exists f ts ps pm, complete no_pf f ts ps /\ not_loaded no_pf f ts ps /\
  load_tags no_pf f = Ok [(str "program:Main", LMap [(str "Outer", LMap pm)])] /\ pm = [].
Proof.
  set (inner := DStruct (str "Inner") (str "In") [DValue (str "X") (str "DINT") (str "5") []] [] []).
  set (s := DStruct [] (str "Out") [] [inner] []).
  set (t := LTag (str "Outer") (str "Out") [] [] [no_raw; dec_struct s]). exists (file [] [(str "Main", [t])]), [], [(str "Main", [t])], [].
  split; [|split; [|split; reflexivity]].
  - destruct (plain_struct_shows (str "Inner") (str "In") [DValue (str "X") (str "DINT") (str "5") []] [GInt true 4 5]) as (mi & Si).
    + apply nodup_check. reflexivity.
    + constructor; [|constructor]. apply mm_plain. apply (int_means (str "DINT") true 4 (str "5")); [listed|reflexivity|reflexivity].
    + apply (complete_program t (LMap [(str "Inner", LMap mi)])). apply (sh_struct no_pf t (dec_struct s) s); try reflexivity.
      apply (ss_intro no_pf [] (str "Out") [] [inner] [] [] [mi] []); [constructor|constructor; [exact Si|constructor]|constructor|].
      cbn [map combine app]. intro k. split.
      * intros v [Ek|[]]. apply pair_equal_spec in Ek. destruct Ek as [<- <-]. reflexivity.
      * intro N. unfold mget. cbn [find fst ds_name]. destruct (bseq (str "Inner") k) eqn:B; [|reflexivity]. apply bseq_spec in B. exfalso. apply (N (LMap mi)). left. now rewrite <- B.
  - intros m E (_ & L & _). vm_compute in E. assert (Em : m = [(str "program:Main", LMap [(str "Outer", LMap [])])]) by (vm_compute; congruence). subst m.
    destruct (L (str "Main") [t] (or_introl eq_refl)) as (pm & G & En & _). assert (pm = [(str "Outer", LMap [])]) as -> by (vm_compute in G |- *; congruence).
    destruct (En t (or_introl eq_refl)) as (v & Gv & Sv). assert (v = LMap []) as -> by (vm_compute in Gv |- *; congruence).
    inversion Sv as [|d s' m D Ev Es Ss|]; subst. assert (d = dec_struct s) as -> by (vm_compute in D |- *; congruence).
    assert (s' = s) as -> by (cbn in Es; congruence). inversion Ss as [? ? ? ? ? xs ms ls ? F1 F2 F3 M]; subst.
    inversion F2 as [|? mi ? ms' Hi F2']; subst. inversion F2'; inversion F1; inversion F3; subst. destruct (M (str "Inner")) as [M1 _].
    specialize (M1 (LMap mi)). cbn [map combine app] in M1. specialize (M1 (or_introl eq_refl)). discriminate.
Qed.
Print Assumptions C85_nested_refuted.
(** The text of a string in a structure is lost. *)
Theorem C85_string_refuted : exists f ts ps, complete no_pf f ts ps /\ not_loaded no_pf f ts ps /\
  load_tags no_pf f = Ok [(str "program:Main", LMap [(str "S", LMap [(str "DATA", LVal (GStr [])); (str "LEN", LVal (GInt true 4 2))])])].
Proof.
  set (t := LTag (str "S") (str "STRING") [] [] [no_raw; dec_struct text_struct]). exists (file [] [(str "Main", [t])]), [], [(str "Main", [t])].
  split; [|split; [|reflexivity]].
  - destruct (plain_struct_shows [] (str "STRING") (ds_values text_struct) [GInt true 4 2; GStr (str "hi")]) as (m & Sm).
    + apply nodup_check. reflexivity.
    + constructor; [|constructor; [|constructor]].
      * apply mm_plain. apply (int_means (str "DINT") true 4 (str "2")); [listed|reflexivity|reflexivity].
      * apply mm_string; reflexivity.
    + apply (complete_program t (LMap m)). now apply (sh_struct no_pf t (dec_struct text_struct) text_struct m).
  - intros m E (_ & L & _). destruct (L (str "Main") [t] (or_introl eq_refl)) as (pm & G & En & _).
    assert (Em : m = [(str "program:Main", LMap [(str "S", LMap [(str "DATA", LVal (GStr [])); (str "LEN", LVal (GInt true 4 2))])])]) by (vm_compute in E |- *; congruence). subst m.
    assert (pm = [(str "S", LMap [(str "DATA", LVal (GStr [])); (str "LEN", LVal (GInt true 4 2))])]) as -> by (vm_compute in G |- *; congruence).
    destruct (En t (or_introl eq_refl)) as (v & Gv & Sv).
    assert (v = LMap [(str "DATA", LVal (GStr [])); (str "LEN", LVal (GInt true 4 2))]) as -> by (vm_compute in Gv |- *; congruence).
    inversion Sv as [|d s' m D Ev Es Ss|]; subst. assert (d = dec_struct text_struct) as -> by (vm_compute in D |- *; congruence).
    assert (s' = text_struct) as -> by (cbn in Es; congruence). inversion Ss as [? ? ? ? ? xs ms ls ? F1 F2 F3 M]; subst.
    inversion F1 as [|? x1 ? xs1 H1 F1']; subst. inversion F1' as [|? x2 ? xs2 H2 F1'']; subst. inversion F1''; subst.
    destruct (M (str "DATA")) as [M1 _]. specialize (M1 (LVal x2)). cbn [map combine app dv_name] in M1. specialize (M1 (or_intror (or_introl eq_refl))).
    assert (x2 = GStr []) as -> by (vm_compute in M1; congruence).
    inversion H2 as [d v Mm|d s Ed Ei]; subst.
    + apply not_string in Mm. discriminate.
    + cbn [dv_inner] in Ei. apply (f_equal cdata) in Ei. rewrite !cdata_quoted in Ei. discriminate.
Qed.
Print Assumptions C85_string_refuted.
(** Unsigned numbers: the upper half of a BYTE becomes 127, a USINT a text. *)
Lemma atom_wrong ty s w z x : In (ty, (false, w)) int_types -> negb (length s =? 0)%nat && forallb is_digit s = true -> number s = z ->
  in_rangeb false w z = true -> go_value no_pf ty s = x -> (forall z', reads_as s z' -> z' = z) ->
  (forall sg w', In (ty, (sg, w')) int_types -> x <> GInt sg w' z) -> bseq ty (str "BOOL") = false -> bseq ty (str "BIT") = false -> bseq ty (str "REAL") = false ->
  let t := val_tag (str "X") ty s in
  complete no_pf (file [t] []) [t] [] /\ not_loaded no_pf (file [t] []) [t] [] /\ load_tags no_pf (file [t] []) = Ok [(str "X", LVal x)].
Proof.
  intros I D Nz R G U N B1 B2 B3 t. subst z. assert (E : load_tags no_pf (file [t] []) = Ok [(str "X", LVal x)]) by (subst x; reflexivity). split; [|split; [|exact E]].
  - apply (complete_controller t (LVal (GInt false w (number s)))). apply (sh_value no_pf t (dec_value ty s) (DValue [] ty s [])); try reflexivity. now apply int_means.
  - intros m Em (L & _). assert (m = [(str "X", LVal x)]) as -> by congruence. destruct (L t (or_introl eq_refl)) as (v & Gv & Sv).
    assert (v = LVal x) as -> by (change (mget (lt_name t) [(str "X", LVal x)]) with (Some (LVal x)) in Gv; congruence).
    inversion Sv as [d dv v D' Ev M Ex| |]; subst v. change (decorated t) with (Some (dec_value ty s)) in D'. assert (d = dec_value ty s) as -> by congruence.
    cbn [dec_value dd_value] in Ev. assert (dv = DValue [] ty s []) as -> by congruence. cbn [dv_value] in M. change (lt_type t) with ty in M.
    inversion M as [ty' sg w' s' z' I' R' Rd| b ty' [Eb|Eb]|s' Er]; subst.
    + apply (N sg w' I'). rewrite <- (U z' Rd). congruence.
    + now rewrite bseq_refl in B1.
    + now rewrite bseq_refl in B2.
    + now rewrite bseq_refl in B3.
Qed.

Lemma reads_as_once s z z' : reads_as s z -> reads_as s z' -> z = z'.
Proof.
  intros R R'. pose proof (fun b Hb => parse_int_spec b s z Hb R) as P. pose proof (fun b Hb => parse_int_spec b s z' Hb R') as P'.
  set (b := 2 + Z.abs z + Z.abs z'). assert (Hb : 2 <= b) by lia. specialize (P b Hb). specialize (P' b Hb). rewrite P in P'.
  assert (B : Z.abs z + Z.abs z' + 1 < 2 ^ (b - 1)). { replace (b - 1) with (Z.abs z + Z.abs z' + 1) by lia. apply Z.pow_gt_lin_r; lia. }
  apply (f_equal fst) in P'. cbn [fst] in P'. lia.
Qed.
Theorem C85_byte_refuted : exists f ts ps, complete no_pf f ts ps /\ not_loaded no_pf f ts ps /\ load_tags no_pf f = Ok [(str "X", LVal (GInt false 1 127))] /\
  map (fun t => (lt_type t, lt_data t)) ts = [(str "BYTE", [no_raw; dec_value (str "BYTE") (str "200")])].
Proof.
  assert (R : reads_as (str "200") 200) by (apply (pos_text (str "200")); now apply digits_check).
  destruct (atom_wrong (str "BYTE") (str "200") 1 200 (GInt false 1 127)) as (A & B & C); try reflexivity.
  - listed.
  - intros z' R'. now apply (reads_as_once (str "200")).
  - intros sg w' I E. congruence.
  - eexists _, _, _. split; [exact A|]. split; [exact B|]. split; [exact C|reflexivity].
Qed.
Print Assumptions C85_byte_refuted.
Theorem C85_unsigned_refuted : exists f ts ps, complete no_pf f ts ps /\ not_loaded no_pf f ts ps /\ load_tags no_pf f = Ok [(str "X", LVal (GStr (str "Unknown type: USINT")))].
Proof.
  assert (R : reads_as (str "20") 20) by (apply (pos_text (str "20")); now apply digits_check).
  destruct (atom_wrong (str "USINT") (str "20") 1 20 (GStr (str "Unknown type: USINT"))) as (A & B & C); try reflexivity.
  - listed.
  - intros z' R'. now apply (reads_as_once (str "20")).
  - intros sg w' I E. congruence.
  - eexists _, _, _. split; [exact A|]. split; [exact B|exact C].
Qed.
Print Assumptions C85_unsigned_refuted.
(** A file exported with decorated data only: nothing is loaded. *)
Theorem C85_decorated_only_refuted : exists f ts ps, complete no_pf f ts ps /\ not_loaded no_pf f ts ps /\ load_tags no_pf f = Ok [].
Proof.
  set (t := LTag (str "Speed") (str "DINT") [] [] [dec_value (str "DINT") (str "5")]). exists (file [t] []), [t], []. split; [|split; [|reflexivity]].
  - apply (complete_controller t (LVal (GInt true 4 5))). apply (sh_value no_pf t (dec_value (str "DINT") (str "5")) (DValue [] (str "DINT") (str "5") [])); try reflexivity.
    apply (int_means (str "DINT") true 4 (str "5")); [listed|reflexivity|reflexivity].
  - intros m E (L & _). assert (m = []) as -> by (vm_compute in E; congruence). destruct (L t (or_introl eq_refl)) as (v & G & _). discriminate.
Qed.
Print Assumptions C85_decorated_only_refuted.
(** One array of two dimensions and no tag of the file is loaded. *)
Theorem C85_dimensions_refuted : exists f ts ps, complete no_pf f ts ps /\ load_tags no_pf f = Err EMsg.
Proof.
  set (t := LTag (str "G") (str "DINT") (str "1 2") [] [no_raw; dec_array (DArray [] (str "DINT") (str "1,2") [DElement (str "[0,0]") (str "7") None; DElement (str "[0,1]") (str "8") None])]).
  exists (file [] [(str "Main", [t])]), [], [(str "Main", [t])]. split; [|reflexivity].
  apply (complete_program t (LArr [LVal (GInt true 4 7); LVal (GInt true 4 8)])). eapply sh_array; try reflexivity. apply as_intro.
  constructor; [|constructor; [|constructor]]; apply es_value.
  - apply (int_means (str "DINT") true 4 (str "7")); [listed|reflexivity|reflexivity].
  - apply (int_means (str "DINT") true 4 (str "8")); [listed|reflexivity|reflexivity].
Qed.
Print Assumptions C85_dimensions_refuted.

(** What becomes of other numbers, always without an error: one too large for its
    type is the nearest that is not, and a text that is not decimal is zero. *)
Theorem C85_out_of_range : forall pf ty w s z, In (ty, (true, w)) int_types -> reads_as s z ->
  go_value pf ty s = GInt true w (Z.max (- 2 ^ (8 * Z.of_nat w - 1)) (Z.min (2 ^ (8 * Z.of_nat w - 1) - 1) z)).
Proof.
  intros pf ty w s z I R. unfold int_types in I. cbn [In] in I.
  destruct I as [I|[I|[I|[I|[I|[I|[I|[I|[I|[I|[I|[I|[]]]]]]]]]]]]]; apply pair_equal_spec in I; destruct I as [<- I2]; apply pair_equal_spec in I2; destruct I2 as [Es <-]; try discriminate.
  - change (GInt true 1 (fst (parse_int 8 s)) = GInt true 1 (Z.max (- 2 ^ (8 - 1)) (Z.min (2 ^ (8 - 1) - 1) z))). now rewrite (parse_int_spec 8 s z ltac:(lia) R).
  - change (GInt true 2 (fst (parse_int 16 s)) = GInt true 2 (Z.max (- 2 ^ (16 - 1)) (Z.min (2 ^ (16 - 1) - 1) z))). now rewrite (parse_int_spec 16 s z ltac:(lia) R).
  - change (GInt true 4 (fst (parse_int 32 s)) = GInt true 4 (Z.max (- 2 ^ (32 - 1)) (Z.min (2 ^ (32 - 1) - 1) z))). now rewrite (parse_int_spec 32 s z ltac:(lia) R).
  - change (GInt true 8 (fst (parse_int 64 s)) = GInt true 8 (Z.max (- 2 ^ (64 - 1)) (Z.min (2 ^ (64 - 1) - 1) z))). now rewrite (parse_int_spec 64 s z ltac:(lia) R).
Qed.
Print Assumptions C85_out_of_range.
Example ex_C85_out_of_range : reads_as (str "300") 300 /\ go_value no_pf (str "SINT") (str "300") = GInt true 1 127.
Proof. split; [apply (pos_text (str "300")); now apply digits_check|reflexivity]. Qed.
Theorem C85_radix_refuted : exists t, lt_type t = str "DINT" /\ lt_data t = [no_raw; dec_value (str "DINT") (str "16#0000_00ff")] /\
  load_tags no_pf (file [t] []) = Ok [(lt_name t, LVal (GInt true 4 0))].
Proof. exists (val_tag (str "X") (str "DINT") (str "16#0000_00ff")). repeat split. Qed.
Print Assumptions C85_radix_refuted.

(** ** C86: no file brings LoadTags down. *)
Definition array_ok (t : ltag) : Prop :=
  forall d a, second t = Some d -> dd_value d = None -> dd_struct d = None -> dd_array d = Some a ->
    (exists z, reads_as (lt_dims t) z /\ 0 <= z <= 2 ^ 44) /\ Forall (fun e => match e with DElement _ _ (Some []) => False | _ => True end) (da_elements a).
Lemma array_values_total pf ty es : Forall (fun e => match e with DElement _ _ (Some []) => False | _ => True end) es -> exists l, array_values pf ty es = Ok l.
Proof.
  induction 1 as [|[i v [[|s ss]|]] es He _ (l & E)]; [now exists []|contradiction|..]; cbn [array_values bind]; rewrite E; cbn [bind]; eauto.
Qed.
Theorem C86_loads_partial : forall pf f ts ps, has_tags f ts ps -> Forall (fun x => Forall array_ok (snd x)) ps -> exists m, load_tags pf f = Ok m.
Proof.
  intros pf f ts ps (Et & programs & Ep & E) F. unfold load_tags. rewrite Et, Ep. cbn [section bind]. clear Ep.
  generalize (fold_left (controller_tag pf) ts []). revert ps E F. induction programs as [|p programs IH]; intros [|[n tags] ps] E F m; try discriminate; [now exists m|].
  cbn [map fst snd] in E. inversion F as [|? ? Ft F']; subst. cbn [snd] in Ft. cbn [load_programs]. assert (lp_tags p = Some tags) as -> by congruence. cbn [section bind].
  assert (X : forall m, exists pm, program_tags pf m tags = Ok pm).
  { clear -Ft. induction Ft as [|t tags Ht _ IH]; intro m; [now exists m|]. cbn [program_tags].
    assert (Y : exists m1, program_tag pf m t = Ok m1).
    { unfold program_tag. specialize (Ht). unfold array_ok in Ht. destruct (second t) as [d|]; [|eauto].
      destruct (dd_value d) eqn:Ev; [eauto|]. destruct (dd_struct d) eqn:Es; [eauto|]. destruct (dd_array d) as [a|] eqn:Ea; [|eauto].
      destruct (Ht d a eq_refl Ev Es Ea) as ((z & R & Hz) & Fe). rewrite (parse_int_in 64 (lt_dims t) z) by (try exact R; lia). cbn [negb]. unfold makes.
      replace (0 <=? z) with true by (symmetry; apply Z.leb_le; lia). replace (z <=? 2 ^ 44) with true by (symmetry; apply Z.leb_le; lia). cbn [andb negb].
      destruct (array_values_total pf (lt_type t) _ Fe) as (l & ->). cbn [bind]. eauto. }
    destruct Y as (m1 & ->). cbn [bind]. apply IH. }
  destruct (X []) as (pm & ->). cbn [bind]. apply (IH ps); [congruence|exact F'].
Qed.
Print Assumptions C86_loads_partial.
(** These are all the files it loads. *)
Theorem C86_only_these_load : forall pf f m, load_tags pf f = Ok m -> exists ts ps, has_tags f ts ps /\ Forall (fun x => Forall array_ok (snd x)) ps.
Proof.
  intros pf f m E. unfold load_tags in E. unfold has_tags. destruct (lf_tags f) as [ts|]; [|discriminate]. cbn [section bind] in E.
  destruct (lf_programs f) as [programs|]; [|discriminate]. cbn [section bind] in E. exists ts.
  assert (X : exists ps, map (fun p => (lp_name p, lp_tags p)) programs = map (fun x => (fst x, Some (snd x))) ps /\ Forall (fun x => Forall array_ok (snd x)) ps);
    [|destruct X as (ps & A & B); exists ps; split; [split; [reflexivity|exists programs; split; [reflexivity|exact A]]|exact B]].
  revert E. generalize (fold_left (controller_tag pf) ts []). induction programs as [|p programs IH]; intros m0 E; [exists []; split; [reflexivity|constructor]|].
  cbn [load_programs] in E. destruct (lp_tags p) as [tags|] eqn:Et; [|discriminate]. cbn [section bind] in E.
  destruct (program_tags pf [] tags) as [pm| | |] eqn:Ep; try discriminate. cbn [bind] in E. destruct (IH _ E) as (ps & A & B).
  exists ((lp_name p, tags) :: ps). split; [cbn [map fst snd]; now rewrite Et, A|]. constructor; [|exact B]. cbn [snd]. clear -Ep.
  revert Ep. generalize (@nil (bytes * lval)). induction tags as [|t tags IH]; intros m0 Ep; [constructor|]. cbn [program_tags] in Ep.
  destruct (program_tag pf m0 t) as [m1| | |] eqn:E1; try discriminate. cbn [bind] in Ep. constructor; [|exact (IH _ Ep)]. clear -E1.
  intros d a S Ev Es Ea. unfold program_tag in E1. rewrite S, Ev, Es, Ea in E1. destruct (parse_int 64 (lt_dims t)) as [z ok] eqn:P.
  destruct ok; [|discriminate]. cbn [negb] in E1. destruct (makes z) eqn:M; [|discriminate]. cbn [negb] in E1.
  destruct (parse_int_inv 64 _ _ ltac:(lia) P) as [R _]. split.
  - exists z. split; [exact R|]. unfold makes in M. apply andb_true_iff in M. rewrite !Z.leb_le in M. exact M.
  - destruct (array_values pf (lt_type t) (da_elements a)) as [l| | |] eqn:Av; try discriminate. clear -Av. revert l Av.
    induction (da_elements a) as [|[i v o] es IH]; intros l Av; [constructor|]. cbn [array_values] in Av. constructor.
    + destruct o as [[|s ss]|]; [discriminate|exact I|exact I].
    + destruct (match o with Some [] => Panic | Some (s :: _) => Ok (LMap (element_map pf s)) | None => Ok (LVal (go_value pf (lt_type t) v)) end); try discriminate.
      cbn [bind] in Av. destruct (array_values pf (lt_type t) es) as [l'| | |] eqn:Av'; try discriminate. now apply (IH l').
Qed.
Print Assumptions C86_only_these_load.
Example ex_C86 : has_tags (file ex_ts [(str "Main", ex_tags)]) ex_ts [(str "Main", ex_tags)] /\ Forall array_ok ex_tags.
Proof.
  split; [apply file_has|]. apply Forall_forall. intros t I d a S Ev Es Ea.
  destruct I as [<-|[<-|[<-|[<-|[]]]]]; unfold second in S; cbn [lt_data val_tag nth_error] in S; injection S as <-; try discriminate Ev; try discriminate Es; cbn [dd_array dec_array] in Ea; injection Ea as <-.
  - split; [exists 2; split; [apply (pos_text (str "2")); now apply digits_check|lia]|].
    constructor; [exact Logic.I|constructor; [exact Logic.I|constructor]].
  - split; [exists 1; split; [apply (pos_text (str "1")); now apply digits_check|lia]|].
    constructor; [exact Logic.I|constructor].
Qed.
(** A file without tags or programs of its own (an exported routine or type), a
    program without tags, and an array of a negative number of elements. *)
Theorem C86_no_section_crashes : forall pf f, lf_tags f = None \/ lf_programs f = None -> load_tags pf f = Panic.
Proof. intros pf f [E|E]; unfold load_tags; rewrite E; [reflexivity|]. destruct (lf_tags f); reflexivity. Qed.
Print Assumptions C86_no_section_crashes.
Theorem C86_program_refuted : exists f, lf_tags f = Some [] /\ lf_programs f = Some [LProgram (str "Main") None None] /\ load_tags no_pf f = Panic.
Proof. exists (LFile None None (Some []) (Some [LProgram (str "Main") None None]) None). repeat split. Qed.
Print Assumptions C86_program_refuted.
Theorem C86_dimension_refuted : exists f t, has_tags f [] [(str "Main", [t])] /\ lt_dims t = str "-1" /\ load_tags no_pf f = Panic.
Proof.
  set (t := LTag (str "A") (str "DINT") (str "-1") [] [no_raw; dec_array (DArray [] (str "DINT") (str "-1") [])]).
  exists (file [] [(str "Main", [t])]), t. split; [apply file_has|]. split; reflexivity.
Qed.
Print Assumptions C86_dimension_refuted.
