(** * C44, C47: reading and writing the built-in server's tags *)
From Verif Require Import GoBase IoiModel IoiSpec IoiProof ItemsModel TypesModel ItemsSpec ItemsProof ReadModel ReadSpec ReadProof Prop_Read WriteModel WriteSpec
  WriteProof BatchSpec EipModel EipSpec OpenModel TableModel SrvValModel SrvValSpec SrvValProof ProvModel ProvSpec ProvProof Prop_SrvVal SrvModel SrvSpec
  SrvProof Prop_Srv ReqSpec LinkModel ReqProof.

(** ** C44

    Full statement: after a client's write of a tag of the built-in server has
    succeeded, a read of the tag, in any letter case, returns the value written.
    It is false (the [_refuted] theorems).  Proved for single values and for
    arrays of numbers written over an array of their type.  Missing: arrays
    written to a new tag, arrays of strings and of bools, elements of arrays of
    another type, names with bit numbers or subscripts of 65536 and more, and
    reads of n elements where n mod 256 is 0x28, 0x29 or 0x91. *)

(** Other clients and the embedding program at work: writes that do not concern
    the name, of any client with its session, connection number and handler. *)
Inductive meanwhile (i : nat) (name : bytes) : server * handler -> server * handler -> Prop :=
| mw_none sh : meanwhile i name sh sh
| mw_client s h h2 session context otid j q t v ty e d r sh1 sh2 :
    linked session context otid j (s, h2) -> addressed t -> len (encode t) < 512 -> carries v ty e d ->
    Forall representable (given_values v) -> given_values v <> [] -> (forall l, v = WMany KString l -> len l <= 1) ->
    len (ty ++ le 2 e ++ d) < 64000 -> j <> i \/ ~ touches (text t) name ->
    link session context (s, h2) (write_request otid q (write_service (encode t) ty e d)) = (r, sh1) ->
    meanwhile i name (fst sh1, h) sh2 -> meanwhile i name (s, h) sh2
| mw_host s h j t v p r sh2 : write_given (sv_conv s) (prov_at s j) t v = (p, r) ->
    j <> i \/ ~ touches t name -> meanwhile i name (set_prov j p s, h) sh2 -> meanwhile i name (s, h) sh2.

Lemma untouched m t v m' name : writes m t v m' -> ~ touches t name -> m' name = m name.
Proof.
  intros W N. destruct W as [b i e l x l' m' En _ _ _ _ [_ U]|e l l0 l' m' _ _ _ _ [_ U]|m' _ _ [_ U]]; apply U; intros ->; apply N.
  - right. now exists i.
  - now left.
  - now left.
Qed.
Lemma linked_others session context otid i j sh s' : linked session context otid i sh -> others_same j (fst sh) s' ->
  separate (prov_at s' i) -> linked session context otid i (s', snd sh).
Proof.
  intros (Hs & Hc & Ho & Hh & (to & Ld) & S) (E1 & E2 & E3 & E4) S'.
  split; [exact Hs|]. split; [exact Hc|]. split; [exact Ho|]. split; [exact Hh|]. split; [|exact S'].
  exists to. cbn [fst]. now apply (leads_same _ _ _ _ _ Ld).
Qed.
Lemma meanwhile_keeps session context otid i name sh sh' : meanwhile i name sh sh' ->
  linked session context otid i sh -> linked session context otid i sh' /\ behind i sh' name = behind i sh name.
Proof.
  induction 1 as [sh|s h h2 session' context' otid' j q t v ty e d r sh1 sh2 Lk Ad Le C R NE Ns Lb Un E _ IH|s h j t v p r sh2 W Un _ IH]; intro L.
  - now split.
  - destruct (link_write session' context' otid' j (s, h2) q t v ty e d Lk Ad Le C R NE Ns Lb) as (r' & sh1' & E' & Lk1 & Os & K).
    rewrite E in E'. assert (sh1' = sh1) as -> by congruence. cbn [fst] in Os.
    assert (S1 : separate (prov_at (fst sh1) i)).
    { destruct (Nat.eq_dec i j) as [->|N]; [apply Lk1|]. destruct Os as (_ & _ & _ & Os). rewrite Os by exact N. apply L. }
    destruct (IH (linked_others _ _ _ _ _ (s, h) _ L Os S1)) as [I1 I2]. split; [exact I1|]. rewrite I2. unfold behind in *. cbn [fst] in *.
    destruct (Nat.eq_dec i j) as [->|N]; [|destruct Os as (_ & _ & _ & Os); now rewrite Os].
    destruct Un as [Un|Un]; [congruence|]. destruct K as [(p & _ & _ & K)|(er & _ & _ & K)]; [|apply K]. now apply (untouched _ _ _ _ _ K).
  - assert (Os : others_same j s (set_prov j p s)).
    { split; [reflexivity|]. split; [reflexivity|]. split; [apply setn_length|]. intros k N. now apply prov_at_other. }
    assert (Li : (i < length (sv_provs s))%nat) by (destruct L as (_ & _ & _ & _ & (to & Ld & _) & _); exact Ld).
    assert (S : separate (prov_at s i)) by apply L.
    assert (K : separate (prov_at (set_prov j p s) i) /\ shows (prov_at (set_prov j p s) i) name = shows (prov_at s i) name).
    { destruct (Nat.eq_dec i j) as [->|N]; [|now rewrite prov_at_other].
      rewrite prov_at_set by exact Li. destruct (write_given_spec _ _ _ _ _ _ S W) as [S' Wr]. split; [exact S'|].
      destruct Un as [Un|Un]; [congruence|]. destruct r as [u|er| |]; [now apply (untouched _ _ _ _ _ Wr)|apply Wr..]. }
    destruct K as [K1 K2].
    destruct (IH (linked_others _ _ _ _ _ (s, h) _ L Os K1)) as [I1 I2]. split; [exact I1|]. rewrite I2. exact K2.
Qed.

(** What a scalar looks like on the wire. *)
Lemma scalar_carries k v : scalar k v -> exists ty e d, carries (WOne v) ty e d /\ len (ty ++ le 2 e ++ d) < 64000 /\
  Forall representable (given_values (WOne v)).
Proof.
  intros [(code & N & I & R)|(s & -> & L & ->)].
  - exists [code; 0], 1, (number_data v). split; [now apply (c_one k)|]. split; [|constructor; [exact R|constructor]].
    rewrite !len_app, le_len. assert (len (number_data v) <= 8).
    { destruct (number_encodes k v code N I R) as (E & _). apply encodes_length in E. unfold len. lia. }
    change (len [code; 0]) with 2. lia.
  - exists [0xA0; 0x02; 0xCE; 0x0F], 1, (string_data s). split; [now apply c_string|]. split; [|constructor; [exact I|constructor]].
    unfold string_data. rewrite !len_app, !le_len. change (len [0xA0; 0x02; 0xCE; 0x0F]) with 4.
    unfold len in *. unfold zeros. rewrite repeat_length. lia.
Qed.
Lemma scalar_not_list k v l : scalar k v -> WOne v = WMany KString l -> len l <= 1.
Proof. discriminate. Qed.

(** Reading a tag that holds a scalar, from any state. *)
Theorem C44_read : forall session context otid i sh ops tg k v fuel q,
  linked session context otid i sh -> named ops tg -> addressed tg -> scalar k v ->
  ProvSpec.reads (behind i sh) (text tg) 1 (VOne v) ->
  exists sh1, client_read fuel (link session context) (cl_run ops) sh otid q (text tg) k = (Ok v, sh1, q + 1) /\
    linked session context otid i sh1 /\ fst sh1 = fst sh.
Proof.
  intros session context otid i sh ops tg k v fuel q L N Ad Sc R.
  assert (Cc : clear_count 1) by (unfold clear_count; rewrite Z.mod_small by lia; lia).
  pose proof (proj2 (proj2 N)) as Nl. pose proof Ad as (_ & B & _).
  destruct Sc as [(code & Nc & I & Rp)|(s & -> & Ls & ->)].
  - assert (En := number_encodes k v code Nc I Rp). destruct En as (En & C9 & _).
    assert (Lv : len (number_data v) < 65000) by (apply encodes_length in En; unfold len; lia).
    destruct (link_read session context otid i sh q tg 1 (VOne v) code 0 (number_data v) L Ad Nl Cc R
      (wv_number k code v Nc I) Lv) as (p & sh1 & E & A & L1 & F1).
    exists sh1. split; [|split; assumption].
    assert (Aw : answers_with (link session context) sh otid q (encode tg) 1 0 code (number_data v ++ []) sh1)
      by (rewrite app_nil_r; now exists 0, p).
    apply (proj1 (C17_scalar_partial _ _ fuel ops sh sh1 otid q tg code v (number_data v) [] k N B En C9 Aw)).
    destruct v; cbn [is_number] in I; try contradiction; now subst k.
  - assert (Es : firstn 82 s = s) by (apply firstn_all2; unfold len in Ls; lia).
    pose proof (wv_string s) as W. rewrite Es in W. rewrite Z.min_l in W by lia.
    change ([160; 2; 206; 15] ++ ?x) with ([160; 2] ++ ([206; 15] ++ x)) in W.
    assert (Lv : len ([206; 15] ++ le 4 (len s) ++ s ++ zeros (84 - length s)) < 65000).
    { rewrite !len_app, le_len. unfold zeros. unfold len in *. rewrite repeat_length. cbn [length]. lia. }
    destruct (link_read session context otid i sh q tg 1 _ _ _ _ L Ad Nl Cc R W Lv) as (p & sh1 & E & A & L1 & F1).
    exists sh1. split; [|split; assumption].
    apply (C17_string _ _ fuel ops sh sh1 otid q tg s (le 4 (len s) ++ s ++ zeros (84 - length s)) [206; 15] [] N); [|reflexivity|].
    + exists (zeros (82 - length s)), [0; 0]. split; [exact Ls|]. unfold len in Ls. split; [rewrite app_length; unfold zeros; rewrite repeat_length; lia|].
      split; [reflexivity|]. do 2 f_equal. change [0; 0] with (zeros 2). unfold zeros. rewrite <- repeat_app. f_equal. lia.
    + exists 0, p. split; [exact E|]. rewrite app_nil_r. exact A.
Qed.
Print Assumptions C44_read.

Lemma write_single_link session context otid i sh ops tg v ty e d q :
  linked session context otid i sh -> named ops tg -> addressed tg -> carries v ty e d ->
  Forall representable (given_values v) -> given_values v <> [] -> (forall l, v = WMany KString l -> len l <= 1) ->
  len (ty ++ le 2 e ++ d) < 64000 ->
  exists sh1, linked session context otid i sh1 /\ others_same i (fst sh) (fst sh1) /\
    ((write_single (link session context) (cl_run ops) sh otid q (text tg) v = (Ok tt, sh1, q + 1) /\
      writes (behind i sh) (text tg) (as_given (given_values v)) (behind i sh1)) \/
     (exists er, write_single (link session context) (cl_run ops) sh otid q (text tg) v = (Err er, sh1, q + 1) /\
      (forall m, ~ writes (behind i sh) (text tg) (as_given (given_values v)) m) /\
      forall k, behind i sh1 k = behind i sh k)).
Proof.
  intros L N Ad C R NE Ns Lb.
  destruct (link_write session context otid i sh q tg v ty e d L Ad (proj2 (proj2 N)) C R NE Ns Lb) as (r & sh1 & E & L1 & Os & K).
  exists sh1. split; [exact L1|]. split; [exact Os|].
  assert (Lb' : len (ty ++ le 2 e ++ d) < 65000) by lia.
  rewrite (write_single_sends _ ops tg v ty e d sh otid q N C Lb'). unfold exchange. rewrite E.
  destruct K as [(p & -> & A & W)|(er & -> & W)].
  - left. rewrite (write_answer_parsed _ _ A). split; [reflexivity|exact W].
  - right. exists er. split; [reflexivity|exact W].
Qed.

(** Write, then whatever the others do, then read: a single value under a name
    that is not an array element. *)
Theorem C44_scalar_partial : forall session context otid i sh ops ops' tg tg' k v fuel q q',
  linked session context otid i sh -> named ops tg -> addressed tg -> named ops' tg' -> addressed tg' ->
  lower (text tg') = lower (text tg) -> length (last_subs tg) <> 1%nat -> scalar k v ->
  exists sh1, write_single (link session context) (cl_run ops) sh otid q (text tg) (WOne v) = (Ok tt, sh1, q + 1) /\
    linked session context otid i sh1 /\
    forall sh2, meanwhile i (lower (text tg)) sh1 sh2 -> exists sh3,
      client_read fuel (link session context) (cl_run ops') sh2 otid q' (text tg') k = (Ok v, sh3, q' + 1) /\ fst sh3 = fst sh2.
Proof.
  intros session context otid i sh ops ops' tg tg' k v fuel q q' L N Ad N' Ad' El Ls Sc.
  pose proof Ad as (V & B & _). pose proof (plain_lower tg V B Ls) as Pl.
  destruct (scalar_carries k v Sc) as (ty & e & d & C & Lb & R).
  destruct (write_single_link session context otid i sh ops tg (WOne v) ty e d q L N Ad C R ltac:(discriminate) ltac:(discriminate) Lb)
    as (sh1 & L1 & _ & K). cbn [given_values as_given] in K.
  assert (W : exists m, writes (behind i sh) (text tg) (GiveOne v) m).
  { exists (fun x => if bseq x (lower (text tg)) then Some (VOne v) else behind i sh x). apply w_plain; [exact Pl| |].
    - intros (e0 & l & l0 & _ & H). discriminate.
    - split; [now rewrite bseq_refl|]. intros k' H. destruct (bseq k' (lower (text tg))) eqn:Eb; [|reflexivity].
      apply bseq_spec in Eb. congruence. }
  destruct K as [(K1 & K2)|(er & _ & K & _)]; [|destruct W as (m & W); now elim (K m)].
  exists sh1. split; [exact K1|]. split; [exact L1|]. intros sh2 Mw.
  destruct (meanwhile_keeps session context otid i _ _ _ Mw L1) as (L2 & E2).
  assert (E1 : behind i sh1 (lower (text tg)) = Some (VOne v)).
  { apply writes_plain_inv in K2 as [(e1 & l1 & l2 & l' & _ & H & _)|[_ [U _]]]; [discriminate|exact U|exact Pl]. }
  destruct (C44_read session context otid i sh2 ops' tg' k v fuel q' L2 N' Ad' Sc) as (sh3 & E3 & _ & F3).
  { apply r_one; [now rewrite El|]. now rewrite El, E2. }
  exists sh3. now split.
Qed.
Print Assumptions C44_scalar_partial.

Lemma last_sub_nonneg t j : valid_tag t -> last_subs t = [j] -> 0 <= j.
Proof.
  intros (Ne & F & _) E. unfold last_subs in E. destruct (exists_last Ne) as (l & m & El). rewrite El, last_last in E.
  rewrite El in F. apply Forall_app in F as [_ F]. inversion F as [|? ? [_ Fs] _]; subst. rewrite E in Fs. inversion Fs; subst. lia.
Qed.
(** An element of an array of the value's type, or of an array of any values. *)
Theorem C44_element_partial : forall session context otid i sh ops ops' tg tg' j e l k v fuel q q',
  linked session context otid i sh -> named ops tg -> addressed tg -> named ops' tg' -> addressed tg' ->
  lower (text tg') = lower (text tg) -> last_subs tg = [j] -> scalar k v ->
  behind i sh (lower (text (strip_subs tg))) = Some (VMany e l) -> e = EK k \/ e = EAny -> j < len l ->
  exists sh1, write_single (link session context) (cl_run ops) sh otid q (text tg) (WOne v) = (Ok tt, sh1, q + 1) /\
    linked session context otid i sh1 /\
    (exists l', behind i sh1 (lower (text (strip_subs tg))) = Some (VMany e l') /\ replaced l (Z.to_nat j) (VOne v) l') /\
    forall sh2, meanwhile i (lower (text (strip_subs tg))) sh1 sh2 -> exists sh3,
      client_read fuel (link session context) (cl_run ops') sh2 otid q' (text tg') k = (Ok v, sh3, q' + 1) /\ fst sh3 = fst sh2.
Proof.
  intros session context otid i sh ops ops' tg tg' j e l k v fuel q q' L N Ad N' Ad' El Ls Sc Hb He Hj.
  pose proof Ad as (V & B & _). pose proof (elem_lower tg j V B Ls) as En. pose proof (last_sub_nonneg tg j V Ls) as Hj0.
  destruct (scalar_carries k v Sc) as (ty & n & d & C & Lb & R).
  destruct (write_single_link session context otid i sh ops tg (WOne v) ty n d q L N Ad C R ltac:(discriminate) ltac:(discriminate) Lb)
    as (sh1 & L1 & _ & K). cbn [given_values as_given] in K.
  assert (Kv : ProvModel.kind_of v = Some k /\ v <> GNil).
  { destruct Sc as [(code & Nc & I & _)|(s & -> & _ & ->)]; [|split; [reflexivity|discriminate]].
    destruct v; cbn [is_number] in I; try contradiction; subst k; split; (reflexivity || discriminate). }
  destruct Kv as [Kv Nn].
  assert (Bc : becomes (seen (GiveOne v)) e (VOne v)).
  { split; [cbn [seen]; congruence|]. destruct He as [-> | ->]; [|reflexivity]. exists v, v. split; [reflexivity|]. split; [reflexivity|].
    split; [now left|]. split; [exact Kv|]. split; [reflexivity|]. intros s w z s' w' -> -> H. cbn [ProvModel.kind_of] in Kv. congruence. }
  assert (Ln : (Z.to_nat j < length l)%nat) by (unfold len in Hj; lia).
  assert (Rp : replaced l (Z.to_nat j) (VOne v) (setn l (Z.to_nat j) (VOne v))).
  { now apply replaced_setn. }
  assert (W : exists m, writes (behind i sh) (text tg) (GiveOne v) m).
  { exists (fun x => if bseq x (lower (text (strip_subs tg))) then Some (VMany e (setn l (Z.to_nat j) (VOne v))) else behind i sh x).
    apply (w_elem _ _ _ _ _ _ _ _ _ _ En Hb (conj Hj0 Hj) Bc Rp).
    split; [now rewrite bseq_refl|]. intros k' H. destruct (bseq k' (lower (text (strip_subs tg)))) eqn:Eb; [|reflexivity].
    apply bseq_spec in Eb. congruence. }
  destruct K as [(K1 & K2)|(er & _ & K & _)]; [|destruct W as (m & W); now elim (K m)].
  exists sh1. split; [exact K1|]. split; [exact L1|].
  destruct (writes_elem_inv _ _ _ _ _ _ En K2) as (e1 & l1 & x & l' & E1 & _ & Bx & Rx & U). rewrite Hb in E1. injection E1 as <- <-.
  assert (x = VOne v) as ->.
  { destruct Bx as [_ Bx]. destruct He as [-> | ->]; [|exact Bx]. destruct Bx as (g & g' & Eg & -> & _ & _ & Fk & _). cbn [seen] in Eg.
    injection Eg as <-. now rewrite (Fk Kv). }
  split; [exists l'; split; [apply U|exact Rx]|]. intros sh2 Mw.
  destruct (meanwhile_keeps session context otid i _ _ _ Mw L1) as (L2 & E2).
  destruct (C44_read session context otid i sh2 ops' tg' k v fuel q' L2 N' Ad' Sc) as (sh3 & E3 & _ & F3).
  { apply (r_elem _ _ _ (lower (text (strip_subs tg))) j e l'); [now rewrite El|rewrite E2; apply U|exact Hj0|reflexivity|apply Rx]. }
  exists sh3. now split.
Qed.
Print Assumptions C44_element_partial.

(** An array of numbers over an array of the same element type (of any length). *)
Theorem C44_array_partial : forall session context otid i sh ops ops' tg tg' k code l l0 fuel q q',
  linked session context otid i sh -> named ops tg -> addressed tg -> named ops' tg' -> addressed tg' ->
  lower (text tg') = lower (text tg) -> length (last_subs tg) <> 1%nat ->
  number_code k = Some code -> k <> KBool -> Forall (is_number k) l -> Forall representable l ->
  2 <= len l -> clear_count (len l) -> len (concat (map number_data l)) < 63990 ->
  behind i sh (lower (text tg)) = Some (VMany (EK k) l0) ->
  exists sh1, write_single (link session context) (cl_run ops) sh otid q (text tg) (WMany k l) = (Ok tt, sh1, q + 1) /\
    linked session context otid i sh1 /\
    forall sh2, meanwhile i (lower (text tg)) sh1 sh2 -> exists sh3,
      client_read_slice fuel (link session context) (cl_run ops') sh2 otid q' (text tg') k (len l) = (Ok l, sh3, q' + 1) /\ fst sh3 = fst sh2.
Proof.
  intros session context otid i sh ops ops' tg tg' k code l l0 fuel q q' L N Ad N' Ad' El Ls Nc Nb I R L2 Cc Lb Hb.
  pose proof Ad as (V & B & _). pose proof (plain_lower tg V B Ls) as Pl. pose proof (proj1 Cc) as C1.
  assert (Ca : carries (WMany k l) [code; 0] (len l) (concat (map number_data l))) by (apply c_many; try assumption; lia).
  assert (Gl : as_given (given_values (WMany k l)) = GiveMany EAny l).
  { cbn [given_values]. destruct l as [|a [|b l]]; try reflexivity. cbn in L2. lia. }
  assert (Kv : Forall (fun v => ProvModel.kind_of v = Some k /\ ReadSpec.kind_of v = k /\ v <> GNil) l).
  { eapply Forall_impl; [|exact I]. intros v Iv. destruct v; cbn [is_number] in Iv; try contradiction; subst k;
      (split; [reflexivity|]; split; [reflexivity|discriminate]). }
  destruct (write_single_link session context otid i sh ops tg (WMany k l) _ _ _ q L N Ad Ca R) as (sh1 & L1 & _ & K).
  { cbn [given_values]. intros ->. change (len (@nil gval)) with 0 in L2. lia. }
  { intros l1 E. injection E as -> ->. discriminate. }
  { rewrite !len_app, le_len. change (len [code; 0]) with 2. lia. }
  rewrite Gl in K.
  assert (Bs : Forall2 (fun g x => becomes (VOne g) (EK k) x) l (map VOne l)).
  { clear - Kv. induction Kv as [|v l (Hk & _ & Nn) _ IH]; constructor; [|exact IH]. split; [congruence|]. exists v, v.
    split; [reflexivity|]. split; [reflexivity|]. split; [now left|]. split; [exact Hk|]. split; [reflexivity|].
    intros s w z s' w' -> -> H. cbn [ProvModel.kind_of] in Hk. congruence. }
  assert (W : exists m, writes (behind i sh) (text tg) (GiveMany EAny l) m).
  { exists (fun x => if bseq x (lower (text tg)) then Some (VMany (EK k) (map VOne l)) else behind i sh x).
    apply (w_keep _ _ _ _ _ _ _ _ Pl Hb eq_refl Bs).
    split; [now rewrite bseq_refl|]. intros k' H. destruct (bseq k' (lower (text tg))) eqn:Eb; [|reflexivity].
    apply bseq_spec in Eb. congruence. }
  destruct K as [(K1 & K2)|(er & _ & K & _)]; [|destruct W as (m & W); now elim (K m)].
  exists sh1. split; [exact K1|]. split; [exact L1|]. intros sh2 Mw.
  assert (E1 : behind i sh1 (lower (text tg)) = Some (VMany (EK k) (map VOne l))).
  { apply writes_plain_inv in K2 as [(e1 & l1 & l2 & l' & E1 & E2 & F & U)|[No _]]; [| |exact Pl].
    - rewrite Hb in E1. injection E1 as <- <-. injection E2 as <-. rewrite (proj1 U). do 2 f_equal.
      clear - F Kv. revert l' F. induction Kv as [|v l (Hk & _ & Nn) _ IH]; intros l' F; inversion F as [|? ? ? ? [_ (g & g' & Eg & -> & _ & _ & Fk & _)] F']; subst; [reflexivity|].
      injection Eg as <-. cbn [map]. rewrite (Fk Hk). f_equal. now apply IH.
    - elim No. now exists (EK k), l0, l. }
  destruct (meanwhile_keeps session context otid i _ _ _ Mw L1) as (L2' & E2).
  assert (Rd : ProvSpec.reads (behind i sh2) (text tg') (len l) (VMany (EK k) (map VOne l))).
  { assert (Ef : map VOne l = firstn (Z.to_nat (len l)) (map VOne l)).
    { symmetry. apply firstn_all2. rewrite map_length. unfold len. lia. }
    rewrite Ef. apply (r_many _ _ _ (EK k)); [now rewrite El|now rewrite El, E2|]. unfold len. rewrite map_length. lia. }
  destruct (link_read session context otid i sh2 q' tg' (len l) _ code 0 _ L2' Ad' (proj2 (proj2 N')) Cc Rd (wv_numbers k code l Nc Nb I))
    as (p & sh3 & E3 & A & _ & F3); [lia|].
  exists sh3. split; [|exact F3].
  assert (Ea : encodes_all code l (concat (map number_data l)) /\ code <> 0xC9).
  { split.
    - clear - Nc I R. revert R. induction I as [|v l Iv _ IH]; intro R; [constructor|]. inversion R; subst. cbn [map concat]. constructor; [|now apply IH].
      now apply (number_encodes k v code).
    - destruct l as [|v l]; [change (len (@nil gval)) with 0 in L2; lia|]. inversion I; subst. inversion R; subst.
      now apply (number_encodes k v code). }
  destruct Ea as [Ea C9].
  assert (Ln : 2 <= len l < 65536) by lia.
  assert (Aw : answers_with (link session context) sh2 otid q' (encode tg') (len l) 0 code (concat (map number_data l) ++ []) sh3)
    by (rewrite app_nil_r; now exists 0, p).
  apply (proj1 (C17_array_partial _ _ fuel ops' sh2 sh3 otid q' tg' code l (concat (map number_data l)) [] k N' Ea C9 Ln Aw)).
  eapply Forall_impl; [|exact Kv]. now intros v (_ & Hv & _).
Qed.
Print Assumptions C44_array_partial.

(** ** C47

    Full statement: the reply to a multi-service request counts as many
    sub-replies as there were requests, the k-th offset leads to the k-th
    sub-reply, and that answers the k-th request.  Proved for reads and for
    writes of numbers, replies below 65000 bytes, when every request can be done;
    otherwise the server sends nothing at all ([C47_multi_partial], second case,
    and [C47_refuted]).  Missing: strings written, the other services (empty
    sub-replies, [C47_service_refuted]), larger replies, counts that are taken
    for a piece of the path. *)
Lemma body_locates a : forall rs start, len a = 6 + start -> 0 <= start ->
  Forall2 (fun off r => 0 <= off /\ exists tail, skipn (Z.to_nat (6 + off)) (a ++ concat rs) = r ++ tail) (offsets start rs) rs.
Proof.
  intros rs. revert a. induction rs as [|r rs IH]; intros a start L S; cbn [offsets]; [constructor|]. constructor.
  - split; [exact S|]. exists (concat rs). cbn [concat]. rewrite skipn_app_exact; [reflexivity|]. unfold len in L. lia.
  - pose proof (len_nonneg r). cbn [concat]. rewrite app_assoc. apply IH; [rewrite len_app; lia|lia].
Qed.
Lemma reply_lists q rs : 2 + 2 * len rs + len (concat rs) < 2 ^ 16 -> lists_replies (multi_reply_body q rs) q rs.
Proof.
  intro L. exists (offsets (2 + 2 * len rs) rs), (concat rs). split; [reflexivity|]. pose proof (len_nonneg rs).
  split.
  - clear - L. pose proof (len_nonneg rs) as H. revert L H. generalize (len rs) as n. intros n L H. assert (H' : 0 <= 2 + 2 * n) by lia. revert L H'. generalize (2 + 2 * n) as start. clear.
    induction rs as [|r rs IH]; intros start L H; cbn [offsets]; [constructor|]. cbn [concat] in L. rewrite len_app in L.
    pose proof (len_nonneg r). pose proof (len_nonneg (concat rs)). constructor; [lia|apply IH; lia].
  - unfold multi_reply_body. rewrite !app_assoc. apply body_locates; [|lia].
    rewrite !len_app, !le_len, table_len. unfold len at 2. rewrite offsets_len. rewrite !len_cons. change (len (@nil Z)) with 0. unfold len. lia.
Qed.

Theorem C47_multi_partial : forall w session status context options six otid q parts to i rest,
  let f := Frame 0x70 session status context options (six ++ wire_list [(0xA1, le 4 otid); (0xB1, multi_body q (map part_bytes parts))]) in
  frame_ok f -> length six = 6%nat -> w_in w = frame_bytes f ++ rest -> 0 <= otid < 2 ^ 32 -> 0 <= q < 2 ^ 16 ->
  leads (w_srv w) otid i to -> separate (prov_at (w_srv w) i) -> Forall part_ok parts ->
  len (multi_body q (map part_bytes parts)) < 2 ^ 15 ->
  match serve_one w with
  | (Ok _, w') => w_in w' = rest /\ (forall j, j <> i -> prov_at (w_srv w') j = prov_at (w_srv w) j) /\ exists rs,
      performs_all (shows (prov_at (w_srv w) i)) parts rs (shows (prov_at (w_srv w') i)) /\ len rs = len parts /\
      (2 + 2 * len parts + len (concat rs) < 65000 -> exists body, lists_replies body q rs /\
         w_sent w' = w_sent w ++ [frame_bytes (Frame 0x70 (h_handle (w_h w)) 0 context (h_options (w_h w))
           (zeros 6 ++ wire_list [(0xA1, le 4 to); (0xB1, body)]))])
  | (Err _, w') => w_in w' = rest /\ w_sent w' = w_sent w /\ (forall j, j <> i -> prov_at (w_srv w') j = prov_at (w_srv w) j) /\
      exists done a left rs m, parts = done ++ a :: left /\ performs_all (shows (prov_at (w_srv w) i)) done rs m /\
      impossible m a /\ forall k, shows (prov_at (w_srv w') i) k = m k
  | _ => False
  end.
Proof.
  intros w session status context options six otid q parts to i rest f FO L6 I Ho Hq Ld S F Lb.
  assert (Fp : fits [(0xA1, le 4 otid); (0xB1, multi_body q (map part_bytes parts))]).
  { apply fits_pair; [rewrite le_len; lia|lia]. }
  rewrite (serve_unit w session status context options six _ rest FO Fp L6 I).
  change (multi_body q (map part_bytes parts)) with
    (le 2 q ++ [0x0A; 2] ++ (skipn 4 (multi_body q (map part_bytes parts)))) at 1.
  rewrite unit_pair by lia. cbv zeta.
  change (0x0A =? svc_write) with false. change ((0x0A =? svc_fragread) || (0x0A =? svc_read)) with false.
  change (0x0A =? svc_multi) with true. cbv iota.
  change (le 2 q ++ [0x0A; 2] ++ (skipn 4 (multi_body q (map part_bytes parts)))) with (multi_body q (map part_bytes parts)).
  set (w0 := World _ _ _ _).
  pose proof (connected_multi_spec otid q parts to i w0 Ho Hq Ld S F Lb) as K.
  destruct (connected_multi _ _ w0) as [r w']. destruct r as [u|er| |]; try contradiction.
  - destruct K as (rs & w1 & P & S1 & (O1 & O2 & O3 & O4 & O5 & O6 & O7) & E).
    pose proof (performs_all_length _ _ _ _ P) as PL.
    assert (Ew : w_in w' = w_in w1 /\ w_srv w' = w_srv w1).
    { unfold send in E. injection E as ->. split; reflexivity. }
    destruct Ew as [Ei Es]. rewrite Ei, Es, O2. split; [reflexivity|]. split; [exact O7|].
    exists rs. split; [exact P|]. split; [exact PL|]. intro Lr. exists (multi_reply_body q rs).
    split; [apply reply_lists; lia|].
    rewrite send_frame in E.
    + injection E as ->. cbn [w_sent]. rewrite O3, O1. reflexivity.
    + apply fits_pair; [rewrite le_len; lia|rewrite multi_reply_len; lia].
    + rewrite len_app, wire_pair_len, le_len, multi_reply_len. change (len (zeros 6)) with 6. lia.
  - destruct K as ((O1 & O2 & O3 & O4 & O5 & O6 & O7) & K). split; [exact O2|]. split; [exact O3|]. split; [exact O7|exact K].
Qed.
Print Assumptions C47_multi_partial.

(** ** Examples and refutations

    The demo server of [Prop_Srv]: int32 tag speed, int16 array arr of three
    elements; the client has connection 5. *)
Definition demo_handler : handler := Handler 77 0 0 5 6 0.
Definition demo : server * handler := (demo_server, demo_handler).
Definition nm (s : bytes) (subs : list Z) : tag := {| t_members := [{| m_name := s; m_subs := subs |}]; t_bit := None |}.
Definition demo_writes : list (bytes * given) :=
  [(str "speed", GiveOne (GInt true 4 7)); (str "arr", GiveMany (EK (KInt true 2)) [GInt true 2 1; GInt true 2 2; GInt true 2 3])].
Lemma demo_separate : separate demo_prov.
Proof.
  assert (E : run_writes (sv_conv demo_server) (Prov [] []) demo_writes = (demo_prov, [true; true])) by (vm_compute; reflexivity).
  exact (proj1 (run_history _ _ _ _ _ separate_empty E)).
Qed.
Lemma demo_linked : linked 77 9 5 0 demo.
Proof.
  split; [lia|]. split; [lia|]. split; [lia|]. split; [split; cbn; lia|].
  split; [|exact demo_separate]. exists 6. split; [cbn; lia|].
  exists (SConn 1 5 6 1000 [1; 0] true). split; [vm_compute; reflexivity|]. split; vm_compute; reflexivity.
Qed.
Lemma nm_addressed s subs : valid_tagb (nm s subs) = true -> forallb (fun i => i <? 65536) subs = true -> addressed (nm s subs).
Proof.
  intros V F. split; [now apply valid_tagb_sound|]. split; [reflexivity|]. constructor; [|constructor].
  apply Forall_forall. intros i I. rewrite forallb_forall in F. specialize (F i I). lia.
Qed.
Lemma nm_named s subs : valid_tagb (nm s subs) = true -> len (encode (nm s subs)) < 512 -> named [] (nm s subs).
Proof. intros V L. split; [now apply valid_tagb_sound|]. split; [reflexivity|exact L]. Qed.
Ltac demo_tag := first [apply nm_named; vm_compute; reflexivity | apply nm_addressed; vm_compute; reflexivity].

(** A new tag, written as Motor and read as MOTOR, while another client writes
    speed and the program writes arr. *)
Example ex_C44_scalar : exists sh1 r2 sh2 p2 r3,
  lower (text (nm (str "MOTOR") [])) = lower (text (nm (str "Motor") [])) /\
  write_single (link 77 9) (cl_run []) demo 5 1 (text (nm (str "Motor") [])) (WOne (GInt true 2 (-300))) = (Ok tt, sh1, 2) /\
  link 78 1 (fst sh1, Handler 78 0 1 5 6 0) (write_request 5 3 (write_service (encode (nm (str "SPEED") [])) [0xC4; 0] 1 (le 4 11))) = (r2, sh2) /\
  write_given (sv_conv (fst sh2)) (prov_at (fst sh2) 0) (str "arr[1]") (GiveOne (GInt true 4 9)) = (p2, r3) /\
  meanwhile 0 (str "motor") sh1 (set_prov 0 p2 (fst sh2), snd sh1) /\
  exists sh3, client_read 0 (link 77 9) (cl_run []) (set_prov 0 p2 (fst sh2), snd sh1) 5 2 (text (nm (str "MOTOR") [])) (KInt true 2) =
    (Ok (GInt true 2 (-300)), sh3, 3).
Proof.
  assert (Sc : scalar (KInt true 2) (GInt true 2 (-300))).
  { left. exists 0xC3. split; [reflexivity|]. split; [reflexivity|]. cbn [representable]. unfold in_range. cbn. lia. }
  assert (No : forall t, bseq (lower t) (str "motor") = false -> (forall b j, elem_name (lower t) b j -> bseq b (str "motor") = false) -> ~ touches t (str "motor")).
  { intros t E1 E2 [E|(j & E)]; [rewrite E, bseq_refl in E1; discriminate|]. apply E2 in E. now rewrite bseq_refl in E. }
  destruct (C44_scalar_partial 77 9 5 0 demo [] [] (nm (str "Motor") []) (nm (str "MOTOR") []) (KInt true 2) (GInt true 2 (-300)) 0 1 2 demo_linked
    ltac:(demo_tag) ltac:(demo_tag) ltac:(demo_tag) ltac:(demo_tag) eq_refl ltac:(discriminate) Sc) as (sh1 & E & L1 & R).
  destruct (link 78 1 (fst sh1, Handler 78 0 1 5 6 0) (write_request 5 3 (write_service (encode (nm (str "SPEED") [])) [0xC4; 0] 1 (le 4 11)))) as [r2 sh2] eqn:E2.
  destruct (write_given (sv_conv (fst sh2)) (prov_at (fst sh2) 0) (str "arr[1]") (GiveOne (GInt true 4 9))) as [p2 r3] eqn:E3.
  exists sh1, r2, sh2, p2, r3. split; [reflexivity|]. split; [exact E|]. split; [exact E2|]. split; [exact E3|].
  assert (Mw : meanwhile 0 (str "motor") sh1 (set_prov 0 p2 (fst sh2), snd sh1)).
  { destruct sh1 as [s1 h1]. cbn [fst snd] in *.
    apply (mw_client 0 (str "motor") s1 h1 (Handler 78 0 1 5 6 0) 78 1 5 0 3 (nm (str "SPEED") []) (WOne (GInt true 4 11)) [0xC4; 0] 1 (le 4 11) r2 sh2).
    - destruct L1 as (_ & _ & Ho & _ & Ld & S). split; [lia|]. split; [lia|]. split; [exact Ho|]. split; [split; cbn; lia|]. split; [exact Ld|exact S].
    - demo_tag.
    - vm_compute. reflexivity.
    - now apply (c_one (KInt true 4)).
    - constructor; [|constructor]. cbn [representable]. unfold in_range. cbn. lia.
    - discriminate.
    - discriminate.
    - vm_compute. reflexivity.
    - right. apply No; [reflexivity|]. intros b j H. exfalso. revert H.
      refine (plain_lower (nm (str "SPEED") []) _ eq_refl _ b j); [now apply valid_tagb_sound|discriminate].
    - exact E2.
    - apply (mw_host 0 (str "motor") (fst sh2) h1 0 (str "arr[1]") (GiveOne (GInt true 4 9)) p2 r3 _ E3); [|apply mw_none].
      right. apply No; [reflexivity|]. intros b j H.
      assert (En : elem_name (lower (str "arr[1]")) (str "arr") 1) by (exists (str "1"); split; reflexivity).
      destruct (elem_name_inj _ _ _ _ _ H En) as [-> _]. reflexivity. }
  split; [exact Mw|]. destruct (R _ Mw) as (sh3 & R3 & _). now exists sh3.
Qed.

(** The element arr[1] of the int16 array, and a new array in place of it. *)
Example ex_C44_element :
  linked 77 9 5 0 demo /\ named [] (nm (str "Arr") [1]) /\ addressed (nm (str "Arr") [1]) /\ last_subs (nm (str "Arr") [1]) = [1] /\
  scalar (KInt true 2) (GInt true 2 500) /\
  behind 0 demo (lower (text (strip_subs (nm (str "Arr") [1])))) = Some (VMany (EK (KInt true 2)) (map VOne [GInt true 2 1; GInt true 2 2; GInt true 2 3])).
Proof.
  split; [exact demo_linked|]. split; [demo_tag|]. split; [demo_tag|]. split; [reflexivity|].
  split; [|vm_compute; reflexivity].
  left. exists 0xC3. split; [reflexivity|]. split; [reflexivity|]. cbn [representable]. unfold in_range. cbn. lia.
Qed.
Definition five : list gval := [GInt true 2 (-1); GInt true 2 10; GInt true 2 20; GInt true 2 30; GInt true 2 40].
Example ex_C44_array :
  named [] (nm (str "ARR") []) /\ addressed (nm (str "ARR") []) /\ Forall (is_number (KInt true 2)) five /\ Forall representable five /\ clear_count (len five) /\
  len (concat (map number_data five)) < 63990 /\
  behind 0 demo (lower (text (nm (str "ARR") []))) = Some (VMany (EK (KInt true 2)) (map VOne [GInt true 2 1; GInt true 2 2; GInt true 2 3])).
Proof.
  split; [demo_tag|]. split; [demo_tag|]. split; [repeat (apply Forall_cons; [reflexivity|]); constructor|].
  split; [repeat (apply Forall_cons; [cbn [representable]; unfold in_range; cbn; lia|]); constructor|].
  split; [unfold clear_count; vm_compute; repeat split; discriminate|]. split; vm_compute; reflexivity.
Qed.

(** A write that succeeds and a read that does not return what was written. *)
Definition lost (sh : server * handler) (ops : list cl_op) (t t' : tag) (k : gokind) (v : gval) : Prop :=
  let '(r, sh1, q) := write_single (link 77 9) (cl_run ops) sh 5 1 (text t) (WOne v) in
  r = Ok tt /\ fst (fst (client_read 0 (link 77 9) (cl_run ops) sh1 5 q (text t') k)) <> Ok v.
Definition lost_array (sh : server * handler) (t : tag) (k : gokind) (l : list gval) : Prop :=
  let '(r, sh1, q) := write_single (link 77 9) (cl_run []) sh 5 1 (text t) (WMany k l) in
  r = Ok tt /\ fst (fst (client_read_slice 0 (link 77 9) (cl_run []) sh1 5 q (text t) k (len l))) <> Ok l.

(** int32 100000 written to an element of an int16 array: the write succeeds, the
    element is another number. *)
Theorem C44_narrowing_refuted : exists t v, linked 77 9 5 0 demo /\ named [] t /\ addressed t /\ scalar (KInt true 4) v /\
  lost demo [] t t (KInt true 4) v.
Proof.
  exists (nm (str "arr") [1]), (GInt true 4 100000). split; [exact demo_linked|]. split; [demo_tag|]. split; [demo_tag|].
  split; [left; exists 0xC4; split; [reflexivity|]; split; [reflexivity|]; cbn [representable]; unfold in_range; cbn; lia|].
  vm_compute. split; [reflexivity|discriminate].
Qed.
(** An array written to a new tag is stored as a list of any values, which the
    server cannot send. *)
Theorem C44_new_array_refuted : exists t l, linked 77 9 5 0 demo /\ named [] t /\ addressed t /\ Forall (is_number (KInt true 2)) l /\
  Forall representable l /\ clear_count (len l) /\ lost_array demo t (KInt true 2) l.
Proof.
  exists (nm (str "fresh") []), five. split; [exact demo_linked|]. split; [demo_tag|]. split; [demo_tag|].
  split; [apply ex_C44_array|]. split; [apply ex_C44_array|]. split; [apply ex_C44_array|].
  vm_compute. split; [reflexivity|discriminate].
Qed.
(** Forty elements: the count 0x28 in the read request is taken for another
    subscript. *)
Theorem C44_count_refuted : exists t l, linked 77 9 5 0 demo /\ named [] t /\ addressed t /\ Forall (is_number (KInt true 2)) l /\
  Forall representable l /\ behind 0 demo (lower (text t)) = Some (VMany (EK (KInt true 2)) (map VOne [GInt true 2 1; GInt true 2 2; GInt true 2 3])) /\
  lost_array demo t (KInt true 2) l.
Proof.
  exists (nm (str "arr") []), (repeat (GInt true 2 4) 40). split; [exact demo_linked|]. split; [demo_tag|]. split; [demo_tag|].
  split; [apply Forall_forall; intros v H; apply repeat_spec in H; now subst|].
  split; [apply Forall_forall; intros v H; apply repeat_spec in H; subst; cbn [representable]; unfold in_range; cbn; lia|].
  split; [vm_compute; reflexivity|]. vm_compute. split; [reflexivity|discriminate].
Qed.
(** A bit of a tag: the write replaces the whole tag by a bool, and the next write
    to another of its bits takes the place of that. *)
Definition speed_bit (n : Z) : tag := {| t_members := [{| m_name := str "speed"; m_subs := [] |}]; t_bit := Some n |}.
Theorem C44_bit_refuted : named [] (speed_bit 3) /\ named [] (speed_bit 4) /\
  let '(r, sh1, q1) := write_single (link 77 9) (cl_run []) demo 5 1 (text (speed_bit 3)) (WOne (GBool true)) in
  let '(r2, sh2, q2) := write_single (link 77 9) (cl_run []) sh1 5 q1 (text (speed_bit 4)) (WOne (GBool false)) in
  r = Ok tt /\ r2 = Ok tt /\ behind 0 sh1 (str "speed") <> behind 0 demo (str "speed") /\
  fst (fst (client_read 0 (link 77 9) (cl_run []) sh2 5 q2 (text (speed_bit 3)) KBool)) <> Ok (GBool true).
Proof.
  split; [split; [now apply valid_tagb_sound|]; split; [reflexivity|vm_compute; reflexivity]|].
  split; [split; [now apply valid_tagb_sound|]; split; [reflexivity|vm_compute; reflexivity]|].
  vm_compute. split; [reflexivity|]. split; [reflexivity|]. split; discriminate.
Qed.

(** Multi-service requests: four parts, each done, a read after a write of the
    same tag seeing the new value. *)
Definition four_parts : list part :=
  [PRead 0x4C (nm (str "Speed") []) 1 []; PWrite 0x4D (nm (str "speed") []) (KInt true 4) 0xC4 [GInt true 4 (-5)];
   PRead 0x4C (nm (str "SPEED") []) 1 []; PRead 0x52 (nm (str "arr") []) 2 [0; 0; 0; 0]].
Definition multi_world (services : list bytes) : world :=
  World demo_server demo_handler (frame_bytes (Frame 0x70 77 0 9 0 (zeros 6 ++ wire_list [(0xA1, le 4 5); (0xB1, multi_body 3 services)]))) [].
Example ex_C47 : Forall part_ok four_parts /\ len (multi_body 3 (map part_bytes four_parts)) < 2 ^ 15 /\
  w_sent (snd (serve_one (multi_world (map part_bytes four_parts)))) =
    [frame_bytes (Frame 0x70 77 0 9 0 (zeros 6 ++ wire_list [(0xA1, le 4 6); (0xB1, multi_reply_body 3
      [[0xCC; 0; 0; 0] ++ [0xC4; 0] ++ le 4 7; [0xCD; 0; 0; 0]; [0xCC; 0; 0; 0] ++ [0xC4; 0] ++ le 4 (-5);
       [0xD2; 0; 0; 0] ++ [0xC3; 0] ++ le 2 1 ++ le 2 2])]))].
Proof.
  split; [|split; vm_compute; reflexivity].
  assert (Cc : clear_count 1 /\ clear_count 2) by (unfold clear_count; rewrite !Z.mod_small by lia; lia).
  apply Forall_cons; [split; [now left|]; split; [demo_tag|apply Cc]|].
  apply Forall_cons.
  { split; [reflexivity|]. split; [demo_tag|]. split; [reflexivity|]. split; [apply Forall_cons; [reflexivity|constructor]|].
    split; [apply Forall_cons; [|constructor]; cbn [representable]; unfold in_range; cbn; lia|]. cbn. lia. }
  apply Forall_cons; [split; [now left|]; split; [demo_tag|apply Cc]|].
  apply Forall_cons; [split; [now right|]; split; [demo_tag|apply Cc]|]. constructor.
Qed.
(** One tag that is not there, and the request gets no reply; what came before it
    is done. *)
Theorem C47_refuted : exists parts, Forall part_ok parts /\
  w_sent (snd (serve_one (multi_world (map part_bytes parts)))) = [] /\
  shows (prov_at (w_srv (snd (serve_one (multi_world (map part_bytes parts))))) 0) (str "speed") <> shows demo_prov (str "speed").
Proof.
  exists [PWrite 0x4D (nm (str "speed") []) (KInt true 4) 0xC4 [GInt true 4 (-5)]; PRead 0x4C (nm (str "nothere") []) 1 []].
  split; [|vm_compute; split; [reflexivity|discriminate]].
  apply Forall_cons.
  { split; [reflexivity|]. split; [demo_tag|]. split; [reflexivity|]. split; [apply Forall_cons; [reflexivity|constructor]|].
    split; [apply Forall_cons; [|constructor]; cbn [representable]; unfold in_range; cbn; lia|]. cbn. lia. }
  apply Forall_cons; [|constructor]. split; [now left|]. split; [demo_tag|]. unfold clear_count; rewrite !Z.mod_small by lia; lia.
Qed.
(** A service that is neither read nor write, Get Attribute Single of the
    identity: the sub-reply is empty, its offset that of the next one. *)
Theorem C47_service_refuted : exists services, length services = 2%nat /\
  w_sent (snd (serve_one (multi_world services))) =
    [frame_bytes (Frame 0x70 77 0 9 0 (zeros 6 ++ wire_list [(0xA1, le 4 6); (0xB1, multi_reply_body 3
      [[]; [0xCC; 0; 0; 0] ++ [0xC4; 0] ++ le 4 7])]))].
Proof.
  exists [[0x0E; 3; 0x20; 1; 0x24; 1; 0x30; 1]; part_bytes (PRead 0x4C (nm (str "speed") []) 1 [])].
  split; [reflexivity|]. vm_compute. reflexivity.
Qed.
(** A STRING written: its handle 0x0FCE is taken for the number of elements, and
    the request gets no reply.  (On its own the write succeeds, C44.) *)
Theorem C47_string_refuted : exists tg v ty e d, named [] tg /\ addressed tg /\ scalar KString v /\ carries (WOne v) ty e d /\
  fst (fst (write_single (link 77 9) (cl_run []) demo 5 3 (text tg) (WOne v))) = Ok tt /\
  w_sent (snd (serve_one (multi_world [write_service (encode tg) ty e d]))) = [].
Proof.
  exists (nm (str "label") []), (GStr (str "hello")), [0xA0; 0x02; 0xCE; 0x0F], 1, (string_data (str "hello")).
  split; [demo_tag|]. split; [demo_tag|]. split; [right; exists (str "hello"); split; [reflexivity|]; split; [vm_compute; discriminate|reflexivity]|].
  split; [apply c_string; vm_compute; discriminate|]. split; vm_compute; reflexivity.
Qed.
