(** * Variables behind data table tags: C78 *)
From Coq Require Import Permutation.
From Verif Require Import GoBase SegModel IoiModel IoiSpec IoiProof TypesModel ItemsModel ItemsSpec ItemsProof
  ReadModel ReadSpec ReadProof BatchSpec Prop_Batch AttrModel AttrSpec AttrProof Prop_Attr GroupModel GroupSpec GroupProof DataModel DataSpec DataProof Prop_Data
  RefModel RefSpec RefProof.

(** ** C78 *)

Lemma elements_kinds tg t k l : cip_of k = Some t -> forall i, Forall (fun x : slot => snd x = None \/ exists k, cip_of k = Some (snd (fst x))) (elements tg t i l).
Proof. intros E. induction l as [|a l IH]; intros i; cbn [elements]; constructor; [right; exists k; exact E|apply IH]. Qed.
Lemma bound_kinds h os : Forall2 rdoes h os -> Forall (fun x => snd x = None \/ exists k, cip_of k = Some (snd (fst x))) (bound h).
Proof.
  induction 1 as [|a o h os D _ IH]; [constructor|]. rewrite bound_cons. apply Forall_app. split; [|exact IH]. destruct D as [a o _ F|tg k t a E|fs args order ms l _ K P _].
  - destruct a; unfold bound; cbn [map concat]; rewrite ?app_nil_r; try constructor. eapply Forall_impl; [|exact F]. now left.
  - unfold bound. cbn. constructor; [right; now exists k|constructor].
  - unfold bound. cbn [map concat]. rewrite app_nil_r. eapply Permutation_Forall; [exact P|]. clear P. induction K as [|m ms M _ IHm]; cbn [map concat]; [constructor|]. apply Forall_app. split; [|exact IHm].
    destruct m as [|tg k a|tg k l']; cbn [stands]; [constructor| |].
    + destruct (cip_of k) eqn:E; constructor; [right; now exists k|constructor].
    + destruct (cip_of k) eqn:E; [now apply (elements_kinds _ _ k)|constructor].
Qed.

(** After any history of adding tags - by themselves, with a variable, by passing
    tagged structs, in whatever order maps are walked - announcing and reading them,
    ReadAll succeeds and every variable given holds the value its tag has in the
    controller at that time; every other variable is what it was in the beginning. *)
Theorem C78_filled_partial : forall S (ctl : controller S) otid inst rep mem ops usize h os s q hp value,
  table_device ctl otid inst rep mem -> rep s = [] -> Forall2 rdoes h os ->
  let all := bound h in let tags := map fst all in
  paced (acceptable usize) (map plain h) [] -> Forall (slot_ok ops usize) tags -> len tags < 2 ^ 16 -> need usize tags < 60000 ->
  all <> [] -> NoDup (map (fun x => text (fst x)) tags) -> NoDup (cells all) -> Forall (fun a => (a < length hp)%nat) (cells all) ->
  (forall s x, In x tags -> shown (snd x) (mem s (encode (fst x)) (fst (slot_entry usize x))) (value s x)) ->
  exists rs u1 s1 q1 hp1 r u2 s2 q2 hp2,
    rrun ctl (cl_run ops) usize otid os (RBuf (fresh inst) []) s q hp = (rs, u1, s1, q1, hp1) /\
    read_all_ref ctl s1 otid q1 u1 hp1 = (Ok r, u2, s2, q2, hp2) /\
    (forall x a, In (x, Some a) all -> nth_error hp2 a = Some (value s2 x)) /\
    (forall a, ~ In a (cells all) -> nth_error hp2 a = nth_error hp a) /\
    forall x, In x tags -> lookup (text (fst x)) r = Some (value s2 x).
Proof.
  intros S ctl otid inst rep mem ops usize h os s q hp value D R0 Do all tags P F L N Ne Nd Nc Hc V.
  assert (Hk := bound_kinds h os Do). fold all in Hk.
  assert (I0 : rinv inst rep usize [] [] [] (RBuf (fresh inst) []) s).
  { split; [|split; reflexivity]. split; [reflexivity|split; [reflexivity|split; [reflexivity|split; [now right|split; [constructor|exact R0]]]]]. }
  assert (Nd' : NoDup (map name_of ([] ++ bound h))) by (cbn [app]; unfold tags, all in Nd; rewrite map_map in Nd; exact Nd).
  destruct (rrun_ok ctl otid inst rep mem D ops usize h os Do [] [] [] _ s q hp I0 P F L N Nd') as (rs & u1 & s1 & q1 & hp1 & bs & p & E & (I & Ew & Ev) & Pa & Lh & Ch).
  cbn [app] in Ew, Ev, Ch. fold all in Ew, Ev, Ch. fold tags in Ew.
  assert (Nt : concat bs ++ p <> []) by (rewrite <- Ew; unfold tags; destruct all; [congruence|discriminate]).
  rewrite Ew in F, L, N, V.
  destruct (read_all_values ctl otid inst rep mem D ops usize value bs p (r_buf u1) s1 q1 I Pa F L N Nt V) as (b2 & s2 & q2 & R & _).
  destruct (read_step ctl otid inst rep mem D ops usize decode_table bs p (r_buf u1) s1 q1 I Pa F L N Nt) as (bs' & b2' & s2' & q2' & it & extra & Ec' & I' & _ & _ & R' & _ & _).
  assert (b2' = b2) as -> by (unfold read_all in R; rewrite R' in R; now injection R).
  set (r := store (value s2) (concat bs ++ p) []) in *.
  assert (Tn : map b_name (u_tags b2) = map name_of all).
  { rewrite (inv_names inst rep usize _ _ _ _ I'), app_nil_r, Ec', <- Ew. unfold tags. rewrite map_map. reflexivity. }
  assert (Lv : length (r_vars u1) = length (u_tags b2)).
  { apply (f_equal (@length _)) in Tn. rewrite !map_length in Tn. rewrite Ev, map_length. symmetry. exact Tn. }
  assert (Lk : forall x, In x tags -> lookup (text (fst x)) r = Some (value s2 x)).
  { intros x Ix. unfold r. rewrite lookup_store, <- Ew.
    assert (X : latest (text (fst x)) tags = Some x).
    { clear - Nd Ix. induction tags as [|y l IH]; [destruct Ix|]. cbn [map latest] in *. inversion_clear Nd as [|? ? N1 N2]. destruct Ix as [->|Ix].
      - assert (Z : latest (text (fst x)) l = None).
        { clear - N1. induction l as [|y l IH]; [reflexivity|]. cbn [map In latest] in *. rewrite IH by tauto.
          destruct (bseq (text (fst x)) (text (fst y))) eqn:B; [|reflexivity]. apply bseq_spec in B. exfalso. apply N1. left. now symmetry. }
        rewrite Z, bseq_refl. reflexivity.
      - rewrite (IH N2 Ix). reflexivity. }
    rewrite X. reflexivity. }
  assert (As : ascending 1 (u_tags b2)).
  { destruct I' as (_ & _ & -> & _). cbn [built]. rewrite app_nil_r. apply built_all_ascending. lia. }
  assert (Pairs : forall b d, In (b, d) (combine (u_tags b2) (r_vars u1)) -> exists x, In x all /\ b_name b = name_of x /\ d = var_for x).
  { rewrite Ev. clear - Tn. revert Tn. generalize (u_tags b2). generalize all. induction all0 as [|x l IH]; intros [|b ts] Tn b' d' I; cbn [map combine] in *; try discriminate; [destruct I|].
    injection Tn as E1 E2. destruct I as [[= <- <-]|I]; [exists x; auto using in_eq|]. destruct (IH _ E2 _ _ I) as (y & Iy & Y). exists y. split; [now right|exact Y]. }
  assert (Back : forall x, In x all -> exists b, In (b, var_for x) (combine (u_tags b2) (r_vars u1)) /\ b_name b = name_of x).
  { rewrite Ev. clear - Tn. revert Tn. generalize (u_tags b2). generalize all. induction all0 as [|x l IH]; intros [|b ts] Tn y Iy; cbn [map combine] in *; try discriminate; [destruct Iy|].
    injection Tn as E1 E2. destruct Iy as [->|Iy]; [exists b; auto using in_eq|]. destruct (IH _ E2 _ Iy) as (b' & Ib & Y). exists b'. split; [now right|exact Y]. }
  assert (Lka : forall x, In x all -> lookup (name_of x) r = Some (value s2 (fst x))).
  { intros x Ix. apply Lk. unfold tags. now apply in_map. }
  assert (St : Forall (settable r) (combine (u_tags b2) (r_vars u1))).
  { apply Forall_forall. intros [b d] Ib. destruct (Pairs b d Ib) as ([x o] & Ix & Nb & ->). unfold settable. cbn [fst snd]. unfold var_for. cbn [fst snd].
    destruct o as [a|]; [right|now left]. exists (PKind (kind_for (snd x))), a, (value s2 x). split; [reflexivity|]. split; [rewrite Nb; exact (Lka _ Ix)|].
    rewrite Forall_forall in Hk. destruct (Hk _ Ix) as [Hn|(k & Ek)]; [discriminate Hn|]. cbn [fst] in Ek.
    destruct (shown_type _ _ _ _ Ek (V s2 x ltac:(rewrite <- Ew; exact (in_map fst _ _ Ix)))) as [T1 T2].
    split; [exact T2|]. cbn [assignable]. destruct (cip_cases _ _ Ek) as [_ ->]. exact T1. }
  assert (NdB : NoDup (map b_name (u_tags b2))) by (rewrite Tn; cbn [app] in Nd'; exact Nd').
  assert (Rr := read_all_ref_ok ctl s1 otid q1 u1 hp1 r b2 s2 q2 R As NdB Lv St).
  assert (Tg : targets (map snd (combine (u_tags b2) (r_vars u1))) = cells all).
  { rewrite <- cells_targets, <- Ev. f_equal. clear - Lv. revert Lv. generalize (r_vars u1). induction (u_tags b2) as [|t ts IH]; intros [|v vs] Lv; cbn in *; try discriminate; [reflexivity|]. now rewrite IH by lia. }
  exists rs, u1, s1, q1, hp1, r, (RBuf b2 (r_vars u1)), s2, q2, (fill r (combine (u_tags b2) (r_vars u1)) hp1).
  split; [exact E|]. split; [exact Rr|]. split; [|split; [|exact Lk]].
  - intros x a Ix. destruct (Back _ Ix) as (b & Ib & Nb). unfold var_for in Ib. cbn [fst snd] in Ib.
    eapply fill_hit; [exact Ib|now rewrite Tg|rewrite Nb; exact (Lka _ Ix)|]. rewrite Lh. rewrite Forall_forall in Hc. apply Hc.
    unfold cells. apply in_concat. exists [a]. split; [|now left]. apply (in_map (fun x => match snd x with Some a => [a] | None => [] end) _ _ Ix).
  - intros a Na. rewrite fill_other by now rewrite Tg. now apply Ch.
Qed.
Print Assumptions C78_filled_partial.

(** Whatever way a map of tags is walked, a struct's addition is among those
    histories. *)
Theorem C78_any_order : forall fs args order ms,
  (forall l, Permutation l (order l)) -> Forall2 (field_is args) fs ms -> Forall member_ok ms ->
  exists l, Permutation (concat (map stands ms)) l /\ rdoes (RPut l) (RStruct true fs args order).
Proof.
  intros fs args order ms O F K. destruct (Permutation_map_inv typed_name (l1 := order (map typed_name (concat (map stands ms)))) (concat (map stands ms))) as (l & El & Pl); [apply Permutation_sym, O|].
  exists l. split; [exact Pl|]. exact (rd_struct fs args order ms l F K Pl El).
Qed.
Print Assumptions C78_any_order.

(** ** Whatever else happens *)

(** The variables an operation is given. *)
Definition field_cells (f : sfield) : list nat :=
  match f with
  | SField _ _ (FScalar _ a) | SField _ _ (FPtr _ a) | SField _ _ (FAny _ a) | SField _ _ (FOther a) => [a]
  | SField _ _ (FSlice _ a l) => a :: l
  | SEmbed _ _ a _ => [a]
  end.
Definition given (o : rop) : list nat :=
  match o with
  | RRef _ (VPtr _ a) => [a]
  | RStruct _ fs _ _ => concat (map field_cells fs)
  | _ => []
  end.

Lemma targets_app a b : targets (a ++ b) = targets a ++ targets b.
Proof. unfold targets. now rewrite map_app, concat_app. Qed.
Lemma targets_in d vs a : In d vs -> In a (targets [d]) -> In a (targets vs).
Proof. intros I J. apply in_split in I as (l1 & l2 & ->). change (l1 ++ d :: l2) with (l1 ++ [d] ++ l2). rewrite !targets_app. apply in_or_app. right. apply in_or_app. now left. Qed.
Lemma targets_incl vs ws : (forall d, In d vs -> incl (targets [d]) ws) -> incl (targets vs) ws.
Proof.
  intros H a I. unfold targets in I. apply in_concat in I as (l & I & J). apply in_map_iff in I as (d & <- & I). apply (H d I). unfold targets. cbn [map concat]. rewrite app_nil_r. exact J.
Qed.
Lemma put_in {A} k (v : A) m x : In x (put k v m) -> In x m \/ x = (k, v).
Proof.
  induction m as [|[k' v'] m IH]; cbn [put In]; [intros [<-|[]]; now right|]. destruct (bseq k k'); cbn [In]; [intros [<-|I]; auto|].
  intros [<-|I]; [auto|]. destruct (IH I); auto.
Qed.
Lemma put_ptrs_in names : forall ps m x, In x (put_ptrs names ps m) -> In x m \/ In (snd x) ps.
Proof.
  induction names as [|n ns IH]; intros [|p ps] m x I; cbn [put_ptrs] in I; auto. destruct (IH _ _ _ I) as [J|J]; [|right; now right].
  apply put_in in J as [J|J]; [now left|]. subst x. right. now left.
Qed.
Lemma gather_ptrs ptr fs args vis : forall i g x g', gather ptr fs args vis i g = (x, g') ->
  (forall e, In e (ga_ptrs g) -> incl (targets [snd e]) (concat (map field_cells fs))) ->
  forall e, In e (ga_ptrs g') -> incl (targets [snd e]) (concat (map field_cells fs)).
Proof.
  induction vis as [|[[|t0 ts]|] vis IH]; intros i g x g' E H; cbn [gather] in E.
  - now injection E as _ <-.
  - exact (IH _ _ _ _ E H).
  - destruct (nth_error fs i) as [f|] eqn:Ef; [|now injection E as _ <-].
    assert (Hf : forall a, In a (field_cells f) -> In a (concat (map field_cells fs))).
    { intros a Ia. apply in_concat. exists (field_cells f). split; [|exact Ia]. apply in_map. now apply nth_error_In in Ef. }
    destruct (direct f) as [exported v] eqn:Ed. destruct (negb exported); [now injection E as _ <-|].
    destruct (go_to_cip (field_type v)) as [ct n]. destruct (1 <? n).
    + apply (IH _ _ _ _ E). cbn [ga_ptrs]. intros e Ie. apply put_ptrs_in in Ie as [Ie|Ie]; [now apply H|].
      destruct v; cbn [slice_ptrs] in Ie; try (destruct Ie; fail). apply in_map_iff in Ie as (a' & <- & Ia).
      intros c Ic. cbn in Ic. destruct Ic as [<-|[]]. apply Hf. destruct f; cbn [direct] in Ed; [|discriminate]. injection Ed as _ ->. cbn [field_cells]. now right.
    + destruct (negb ptr); [now injection E as _ <-|]. apply (IH _ _ _ _ E). cbn [ga_ptrs]. intros e Ie. apply put_in in Ie as [Ie|Ie]; [now apply H|]. subst e. cbn [snd].
      intros c Ic. apply Hf. destruct f; cbn [direct] in Ed; injection Ed as _ <-; [destruct v0|]; cbn [field_ptr] in Ic; cbn in Ic; destruct Ic as [<-|[]]; now left.
  - exact (IH _ _ _ _ E H).
Qed.
Lemma lookup_in {A} n m (v : A) : lookup n m = Some v -> exists k, In (k, v) m.
Proof. induction m as [|[k w] m IH]; cbn [lookup]; [discriminate|]. destruct (bseq n k); [intros [= ->]; exists k; now left|]. intros H. destruct (IH H) as (k' & I). exists k'. now right. Qed.

Lemma rstep_given {S} (ctl : controller S) c usize otid o u s q hp r u' s' q' hp' :
  rstep ctl c usize otid o u s q hp = (r, u', s', q', hp') ->
  incl (targets (r_vars u')) (targets (r_vars u) ++ given o) /\ length hp' = length hp /\
  (o <> RDo ORead -> hp' = hp) /\ forall a, ~ In a (targets (r_vars u)) -> nth_error hp' a = nth_error hp a.
Proof.
  assert (Same : forall (x : list nat) y, incl x (x ++ y)) by (intros x y; now apply incl_appl, incl_refl).
  assert (Nones : forall n, targets (repeat VNone n) = []) by (induction n; [reflexivity|assumption]).
  intros E. destruct o as [o|n d|ptr fs args order].
  - assert (Plain : forall x, incl (targets (r_vars (snd (add_plain u x)))) (targets (r_vars u) ++ given (RDo o))).
    { intros [r0 b]. cbn [add_plain snd r_vars]. rewrite targets_app, Nones, app_nil_r. apply Same. }
    destruct o; cbn [rstep] in E;
      try (match type of E with context [step ?c1 ?c2 ?c3 ?c4 ?c5 ?c6 ?c7 ?c8] => destruct (step c1 c2 c3 c4 c5 c6 c7 c8) as [[[r0 b] s0] q0] end; injection E as <- <- <- <- <-; split; [exact (Plain (r0, b))|auto]; fail).
    + destruct (read_all_ref ctl s otid q u hp) as [[[[r1 u1] s1] q1] hp1] eqn:Er. injection E as <- <- <- <- <-.
      destruct (read_all_erase ctl s otid q u hp r1 u1 s1 q1 hp1 Er) as (_ & Rv & Lh & Ch). rewrite Rv. split; [apply Same|]. split; [exact Lh|]. split; [congruence|exact Ch].
    + destruct (remove_tag ctl s otid q (r_buf u) name) as [[[r0 b] s0] q0]. injection E as <- <- <- <- <-. cbn [r_vars].
      split; [|auto].
      assert (X : incl (targets (drop_var name u)) (targets (r_vars u))).
      { unfold drop_var. destruct (find_tag _ _) as [[[p x] z]|]; [|apply incl_refl]. apply targets_incl. intros d Id c0 Ic. apply (targets_in d); [|exact Ic].
        apply in_app_or in Id as [Id|Id]; [|now apply In_skipn in Id || (rewrite <- (firstn_skipn (Datatypes.S (length p)) (r_vars u)); apply in_or_app; now right)].
        rewrite <- (firstn_skipn (length p) (r_vars u)). apply in_or_app. now left. }
      destruct r0; intros c0 Ic; apply in_or_app; left; try exact Ic. now apply X.
  - cbn [rstep] in E. unfold add_tag_ref in E. destruct (add_tag c usize (r_buf u) n (var_cip d)) as [x b]. 
    assert (G : targets [d] = given (RRef n d)) by (destruct d; reflexivity).
    destruct x; injection E as <- <- <- <- <-; cbn [r_vars]; (split; [|auto]); try apply Same. rewrite targets_app, G. apply incl_refl.
  - cbn [rstep] in E. destruct (add_struct c usize u ptr fs args order) as [r0 u0] eqn:Ea. injection E as <- <- <- <- <-. split; [|auto].
    unfold add_struct in Ea. destruct (negb (u_created (r_buf u))); [injection Ea as <- <-; apply Same|].
    destruct (gather ptr fs args _ 0 _) as [x g] eqn:Eg. assert (Hg := gather_ptrs _ _ _ _ _ _ _ _ Eg ltac:(intros e [])).
    destruct x; try (injection Ea as <- <-; apply Same).
    destruct (add_plain _ _) as [y u2] eqn:Ep.
    assert (V2 : incl (targets (r_vars u2)) (targets (r_vars u))).
    { destruct (add_tags c usize _ _) as [y' b'] in Ep. injection Ep as _ <-. cbn [r_vars]. rewrite targets_app, Nones, app_nil_r. apply incl_refl. }
    destruct y; injection Ea as <- <-; try (intros c9 Ia; apply in_or_app; left; now apply V2).
    cbn [r_vars]. apply targets_incl. intros d Id. unfold bind_vars in Id. apply in_map_iff in Id as ([b d'] & Ed & Id). cbn [fst snd] in Ed. intros c9 Ia. apply in_or_app.
    destruct (lookup (b_name b) (ga_ptrs g)) as [p|] eqn:El.
    + subst d. right. apply lookup_in in El as (k & Ik). apply (Hg _ Ik). exact Ia.
    + subst d'. left. apply V2. apply in_combine_r in Id. now apply (targets_in d).
Qed.

(** Whatever operations are done on a buffer, in whatever order and with whatever
    answers from the controller: a variable it was never given keeps its value, and
    only ReadAll changes any. *)
Theorem C78_confined : forall S (ctl : controller S) c usize otid inst os s q hp rs u s' q' hp',
  rrun ctl c usize otid os (RBuf (fresh inst) []) s q hp = (rs, u, s', q', hp') ->
  length hp' = length hp /\
  (forall a, ~ In a (concat (map given os)) -> nth_error hp' a = nth_error hp a) /\
  (~ In (RDo ORead) os -> hp' = hp).
Proof.
  intros S ctl c usize otid inst os.
  enough (G : forall u0 seen, incl (targets (r_vars u0)) seen -> forall s q hp rs u s' q' hp', rrun ctl c usize otid os u0 s q hp = (rs, u, s', q', hp') ->
    length hp' = length hp /\ (forall a, ~ In a (seen ++ concat (map given os)) -> nth_error hp' a = nth_error hp a) /\ (~ In (RDo ORead) os -> hp' = hp)).
  { intros s q hp rs u s' q' hp' E. refine (G (RBuf (fresh inst) []) [] _ _ _ _ _ _ _ _ _ E). apply incl_refl. }
  induction os as [|o os IH]; intros u0 seen Hs s q hp rs u s' q' hp' E; cbn [rrun] in E.
  - injection E as _ _ _ _ <-. auto.
  - destruct (rstep ctl c usize otid o u0 s q hp) as [[[[r1 u1] s1] q1] hp1] eqn:E1.
    destruct (rrun ctl c usize otid os u1 s1 q1 hp1) as [[[[rs2 u2] s2] q2] hp2] eqn:E2. injection E as _ _ _ _ <-.
    destruct (rstep_given ctl c usize otid o u0 s q hp r1 u1 s1 q1 hp1 E1) as (V1 & L1 & O1 & C1).
    destruct (IH u1 (seen ++ given o)) with (1 := ltac:(intros a Ia; apply V1, in_app_or in Ia as [Ia|Ia]; apply in_or_app; [left; now apply Hs|now right]) : incl (targets (r_vars u1)) (seen ++ given o)) (2 := E2) as (L2 & C2 & O2).
    split; [congruence|]. split.
    + intros a Na. cbn [map concat] in Na. rewrite C2 by (now rewrite <- app_assoc). apply C1. intros I. apply Na, in_or_app. left. now apply Hs.
    + intros No. rewrite O2 by (intros I; apply No; now right). apply O1. intros ->. apply No. now left.
Qed.
Print Assumptions C78_confined.

(** ** Variables keep their types *)

(** The types the program declared: cell [a] is of type [ty a]. *)
Definition var_fits (ty : nat -> pointee) (d : var) : Prop := match d with VPtr p a => ty a = p | _ => True end.
Definition field_fits (ty : nat -> pointee) (f : sfield) : Prop :=
  match f with
  | SField _ _ (FScalar k a) => ty a = PKind k
  | SField _ _ (FAny _ a) => ty a = PAny
  | SField _ _ (FSlice k a l) => ty a = POther /\ Forall (fun c => ty c = PKind k) l
  | SField _ _ (FPtr _ a) | SField _ _ (FOther a) | SEmbed _ _ a _ => ty a = POther
  end.
Definition op_fits (ty : nat -> pointee) (o : rop) : Prop :=
  match o with RRef _ d => var_fits ty d | RStruct _ fs _ _ => Forall (field_fits ty) fs | RDo _ => True end.
(** Values of each Go type. *)
Definition of_kind (k : gokind) (v : gval) : Prop :=
  match v with
  | GBool _ => k = KBool
  | GInt sg w _ => k = KInt sg w
  | GFloat w _ => k = KFloat w
  | GStr _ => k = KString
  | _ => False
  end.
Definition typed (ty : nat -> pointee) (hp : heap) : Prop :=
  forall a k v, ty a = PKind k -> nth_error hp a = Some v -> of_kind k v.
Definition kept (ty : nat -> pointee) (hp hp' : heap) : Prop :=
  (typed ty hp -> typed ty hp') /\ forall a, ty a = POther -> nth_error hp' a = nth_error hp a.
Lemma kept_refl ty hp : kept ty hp hp. Proof. split; auto. Qed.
Lemma kept_trans ty a b c : kept ty a b -> kept ty b c -> kept ty a c.
Proof. intros [A B] [C D]. split; [auto|]. intros x H. now rewrite D, B. Qed.
Lemma assignable_of_kind k v : has_type k v = true -> of_kind k v.
Proof.
  destruct k, v; cbn [has_type of_kind]; try discriminate; try reflexivity.
  - intro H. apply andb_true_iff in H as [A B]. apply Bool.eqb_prop in A. apply Nat.eqb_eq in B. now subst.
  - intro H. apply Nat.eqb_eq in H. now subst.
Qed.
Lemma set_go_var_kept ty d v hp x hp1 : var_fits ty d -> set_go_var d v hp = (x, hp1) -> kept ty hp hp1.
Proof.
  intros F E. destruct d as [|p a|p|g]; cbn [set_go_var] in E; try (injection E as _ <-; apply kept_refl). cbn [var_fits] in F.
  assert (G : (if assignable p v then (Ok tt, ProvModel.setn hp a v) else (Err EMsg, hp)) = (x, hp1) -> kept ty hp hp1).
  { destruct (assignable p v) eqn:As; intro H; injection H as _ <-; [|apply kept_refl]. split.
    - intros T b k w Tb N. destruct (Nat.eq_dec b a) as [->|Nb].
      + destruct (nth_error hp a) as [old|] eqn:No.
        * rewrite ProvProof.setn_same in N by (apply nth_error_Some; congruence). injection N as <-.
          rewrite Tb in F. rewrite <- F in As. cbn [assignable] in As. now apply assignable_of_kind.
        * exfalso. apply nth_error_None in No. assert (X : nth_error (ProvModel.setn hp a v) a = None) by (apply nth_error_None; now rewrite ProvProof.setn_length). congruence.
      + rewrite setn_other' in N by exact Nb. exact (T _ _ _ Tb N).
    - intros b Tb. apply setn_other'. intros ->. rewrite Tb in F. rewrite <- F in As. discriminate. }
  destruct v; try (now apply G); injection E as _ <-; apply kept_refl.
Qed.
Lemma refs_kept ty l : forall cur it acc hp r hp', Forall (fun x => var_fits ty (snd x)) l -> read_refs l cur it acc hp = (r, hp') -> kept ty hp hp'.
Proof.
  induction l as [|[b d] l IH]; intros cur it acc hp r hp' F E; cbn [read_refs] in E; [injection E as _ <-; apply kept_refl|].
  inversion F as [|? ? Fd Fl]; subst. cbn [snd] in Fd.
  destruct (if b_batch b =? cur then (Ok 0, it) else item_uint 2 it) as [[h| | |] it1]; try (injection E as _ <-; apply kept_refl; fail).
  destruct (_ <? _); [injection E as _ <-; apply kept_refl|]. destruct (decode_table _ _) as [v| | |]; try (injection E as _ <-; apply kept_refl; fail).
  assert (X : forall x hp1, (match d with VNone => (Ok tt, hp) | _ => set_go_var d v hp end) = (x, hp1) -> kept ty hp hp1).
  { intros x hp1 H. destruct d; try (injection H as _ <-; apply kept_refl; fail); exact (set_go_var_kept ty _ _ _ _ _ Fd H). }
  destruct (match d with VNone => _ | _ => _ end) as [x hp1]. specialize (X _ _ eq_refl).
  destruct x; try (injection E as _ <-; exact X). exact (kept_trans _ _ _ _ X (IH _ _ _ _ _ _ Fl E)).
Qed.
Lemma read_all_kept {S} (ctl : controller S) ty s otid q u hp r u1 s1 q1 hp1 : Forall (var_fits ty) (r_vars u) ->
  read_all_ref ctl s otid q u hp = (r, u1, s1, q1, hp1) -> kept ty hp hp1 /\ r_vars u1 = r_vars u.
Proof.
  intros F E. unfold read_all_ref in E. destruct (negb _); [injection E as <- <- <- <- <-; split; [apply kept_refl|reflexivity]|].
  destruct (u_tags (r_buf u)); [injection E as <- <- <- <- <-; split; [apply kept_refl|reflexivity]|].
  destruct (if u_sync (r_buf u) then _ else _) as [[[r0 b2] s2] q2].
  destruct r0; try (injection E as <- <- <- <- <-; split; [apply kept_refl|reflexivity]; fail).
  destruct (generic ctl s2 otid q2 0x4C (table_path (u_inst b2)) []) as [[x s3] q3].
  destruct x as [it| | |]; try (injection E as <- <- <- <- <-; split; [apply kept_refl|reflexivity]; fail).
  destruct (read_refs _ 0 it [] hp) as [y hp2] eqn:Er. injection E as <- <- <- <- <-. split; [|reflexivity].
  apply (refs_kept ty _ _ _ _ _ _ _) in Er; [exact Er|]. apply Forall_forall. intros [b9 d9] I.
  apply (Permutation_in _ (Permutation_sym (by_index_ref_perm _))) in I. apply in_combine_r in I. rewrite Forall_forall in F. now apply F.
Qed.
Lemma gather_fits ty ptr fs args vis : Forall (field_fits ty) fs -> forall i g x g', gather ptr fs args vis i g = (x, g') ->
  Forall (fun e => var_fits ty (snd e)) (ga_ptrs g) -> Forall (fun e => var_fits ty (snd e)) (ga_ptrs g').
Proof.
  intro Ff. induction vis as [|[[|t0 ts]|] vis IH]; intros i g x g' E H; cbn [gather] in E.
  - now injection E as _ <-.
  - exact (IH _ _ _ _ E H).
  - destruct (nth_error fs i) as [f|] eqn:Ef; [|now injection E as _ <-].
    assert (Hf : field_fits ty f). { rewrite Forall_forall in Ff. apply Ff. now apply nth_error_In in Ef. }
    destruct (direct f) as [exported v] eqn:Ed. destruct (negb exported); [now injection E as _ <-|].
    destruct (go_to_cip (field_type v)) as [ct n]. rewrite Forall_forall in H. destruct (1 <? n).
    + apply (IH _ _ _ _ E). cbn [ga_ptrs]. apply Forall_forall. intros e Ie. apply put_ptrs_in in Ie as [Ie|Ie]; [now apply H|].
      destruct v; cbn [slice_ptrs] in Ie; try (destruct Ie; fail). apply in_map_iff in Ie as (a' & <- & Ia).
      destruct f; cbn [direct] in Ed; [|discriminate]. injection Ed as _ ->. cbn [field_fits] in Hf. destruct Hf as [_ Hf].
      rewrite Forall_forall in Hf. exact (Hf _ Ia).
    + destruct (negb ptr); [injection E as _ <-; cbn [ga_ptrs]; now apply Forall_forall|]. apply (IH _ _ _ _ E). cbn [ga_ptrs].
      apply Forall_forall. intros e Ie. apply put_in in Ie as [Ie|Ie]; [now apply H|]. subst e. cbn [snd].
      destruct f; cbn [direct] in Ed; injection Ed as _ <-; [destruct v0|]; cbn [field_ptr var_fits field_fits] in *; try exact Hf. apply Hf.
  - exact (IH _ _ _ _ E H).
Qed.
Lemma rstep_fits {S} (ctl : controller S) c usize otid ty o u s q hp r u' s' q' hp' : op_fits ty o -> Forall (var_fits ty) (r_vars u) ->
  rstep ctl c usize otid o u s q hp = (r, u', s', q', hp') -> Forall (var_fits ty) (r_vars u') /\ kept ty hp hp'.
Proof.
  assert (Nones : forall n, Forall (var_fits ty) (repeat VNone n)) by (induction n; constructor; [exact I|assumption]).
  intros Fo Fu E. destruct o as [o|n d|ptr fs args order].
  - assert (Plain : forall x, Forall (var_fits ty) (r_vars (snd (add_plain u x)))).
    { intros [r0 b]. cbn [add_plain snd r_vars]. apply Forall_app. auto. }
    destruct o; cbn [rstep] in E;
      try (match type of E with context [step ?c1 ?c2 ?c3 ?c4 ?c5 ?c6 ?c7 ?c8] => destruct (step c1 c2 c3 c4 c5 c6 c7 c8) as [[[r0 b] s0] q0] end; injection E as <- <- <- <- <-; split; [exact (Plain (r0, b))|apply kept_refl]; fail).
    + destruct (read_all_ref ctl s otid q u hp) as [[[[r1 u1] s1] q1] hp1] eqn:Er. injection E as <- <- <- <- <-.
      destruct (read_all_kept ctl ty s otid q u hp r1 u1 s1 q1 hp1 Fu Er) as [K ->]. auto.
    + destruct (remove_tag ctl s otid q (r_buf u) name) as [[[r0 b] s0] q0]. injection E as <- <- <- <- <-. cbn [r_vars].
      split; [|apply kept_refl]. destruct r0; try exact Fu. unfold drop_var. destruct (find_tag _ _) as [[[p x] z]|]; [|exact Fu].
      rewrite Forall_forall in *. intros d Id. apply Fu. apply in_app_or in Id as [Id|Id].
      * rewrite <- (firstn_skipn (length p) (r_vars u)). apply in_or_app. now left.
      * rewrite <- (firstn_skipn (Datatypes.S (length p)) (r_vars u)). apply in_or_app. now right.
  - cbn [rstep] in E. unfold add_tag_ref in E. destruct (add_tag c usize (r_buf u) n (var_cip d)) as [x b].
    destruct x; injection E as <- <- <- <- <-; cbn [r_vars]; (split; [|apply kept_refl]); try exact Fu. apply Forall_app. split; [exact Fu|]. constructor; [exact Fo|constructor].
  - cbn [rstep] in E. destruct (add_struct c usize u ptr fs args order) as [r0 u0] eqn:Ea. injection E as <- <- <- <- <-. split; [|apply kept_refl].
    unfold add_struct in Ea. destruct (negb (u_created (r_buf u))); [injection Ea as <- <-; exact Fu|].
    destruct (gather ptr fs args _ 0 _) as [x g] eqn:Eg. assert (Hg := gather_fits ty _ _ _ _ Fo _ _ _ _ Eg (Forall_nil _)).
    destruct x; try (injection Ea as <- <-; exact Fu).
    destruct (add_plain _ _) as [y u2] eqn:Ep.
    assert (V2 : Forall (var_fits ty) (r_vars u2)).
    { destruct (add_tags c usize _ _) as [y' b'] in Ep. injection Ep as _ <-. cbn [r_vars]. apply Forall_app. auto. }
    destruct y; injection Ea as <- <-; try exact V2.
    cbn [r_vars]. apply Forall_forall. intros d Id. unfold bind_vars in Id. apply in_map_iff in Id as ([b d'] & Ed & Id). cbn [fst snd] in Ed.
    destruct (lookup (b_name b) (ga_ptrs g)) as [p|] eqn:El.
    + subst d. apply lookup_in in El as (k & Ik). rewrite Forall_forall in Hg. exact (Hg _ Ik).
    + subst d'. apply in_combine_r in Id. rewrite Forall_forall in V2. now apply V2.
Qed.
(** Whatever is done and whatever the controller answers, a variable only ever holds
    values of its own type, and fields that are slices, arrays, pointers or structs
    stay as they are. *)
Theorem C78_typed : forall S (ctl : controller S) c usize otid inst ty os s q hp rs u s' q' hp',
  Forall (op_fits ty) os -> typed ty hp ->
  rrun ctl c usize otid os (RBuf (fresh inst) []) s q hp = (rs, u, s', q', hp') ->
  typed ty hp' /\ forall a, ty a = POther -> nth_error hp' a = nth_error hp a.
Proof.
  intros S ctl c usize otid inst ty os s q hp rs u s' q' hp' Fo T E.
  enough (K : kept ty hp hp') by (destruct K as [K1 K2]; auto). clear T.
  assert (F0 : Forall (var_fits ty) (r_vars (RBuf (fresh inst) []))) by constructor.
  revert F0 s q hp rs u s' q' hp' E. generalize (RBuf (fresh inst) []).
  induction Fo as [|o os Fo _ IH]; intros u0 F0 s q hp rs u s' q' hp' E; cbn [rrun] in E; [injection E as _ _ _ _ <-; apply kept_refl|].
  destruct (rstep ctl c usize otid o u0 s q hp) as [[[[r1 u1] s1] q1] hp1] eqn:E1.
  destruct (rrun ctl c usize otid os u1 s1 q1 hp1) as [[[[rs2 u2] s2] q2] hp2] eqn:E2. injection E as _ _ _ _ <-.
  destruct (rstep_fits ctl c usize otid ty o u0 s q hp r1 u1 s1 q1 hp1 Fo F0 E1) as [F1 K1].
  exact (kept_trans _ _ _ _ K1 (IH _ F1 _ _ _ _ _ _ _ _ E2)).
Qed.
Print Assumptions C78_typed.

(** ** An example, and what goes wrong *)

(** type T struct { Label string; AB int16 `gologix:"ab"`; Fast []int16 `gologix:"Speeds[%d]"` }:
    cells 0 to 6, and two more variables. *)
Definition ex_fields : list sfield :=
  [SField None true (FScalar KString 0); SField (Some (str "ab")) true (FScalar (KInt true 2) 1);
   SField (Some (str "{0}[4]")) true (FSlice (KInt true 2) 2 [3%nat; 4%nat; 5%nat])].
Definition ex_members : list RefSpec.member := [Untagged; Single (tag1 (str "ab")) (KInt true 2) 1; Many (speeds 4) (KInt true 2) [3%nat; 4%nat; 5%nat]].
Definition ex_heap : heap := [GStr (str "label"); GInt true 2 0; GNil; GInt true 2 7; GInt true 2 8; GInt true 2 9; GInt true 1 3; GInt true 4 5].
Definition ex_slots : list slot := [(speeds 6, 0xC3, Some 5%nat); (speeds 5, 0xC3, Some 4%nat); (speeds 4, 0xC3, Some 3%nat); (tag1 (str "ab"), 0xC3, Some 1%nat)].
Definition ex_rhist : list ract := [RPut [(tag1 (str "xy"), 0xC2, Some 6%nat)]; RSend; RPut ex_slots; RLook].
Definition ex_rops : list rop := [RRef (str "xy") (VPtr (PKind (KInt true 1)) 6); RDo OSync; RStruct true ex_fields [str "Speeds"] (@rev _); RDo ORead].
Example ex_C78 : table_device (ex_table ex_mem62) 7 9 (fun s => s) (fun _ => ex_mem62) /\ Forall2 rdoes ex_rhist ex_rops /\
  let all := bound ex_rhist in let tags := map fst all in
  paced (acceptable no_udt) (map plain ex_rhist) [] /\ Forall (slot_ok [] no_udt) tags /\ len tags < 2 ^ 16 /\ need no_udt tags < 60000 /\
  all <> [] /\ NoDup (map (fun x => text (fst x)) tags) /\ NoDup (cells all) /\ Forall (fun a => (a < length ex_heap)%nat) (cells all) /\
  (forall s x, In x tags -> shown (snd x) (ex_mem62 (encode (fst x)) (fst (slot_entry no_udt x))) (ex_value62 s x)) /\
  let '(rs, u1, s1, q1, hp1) := rrun (ex_table ex_mem62) (cl_run []) no_udt 7 ex_rops (RBuf (fresh 9) []) [] 1 ex_heap in
  rs = [Ok tt; Ok tt; Ok tt; Ok tt] /\
  snd (read_all_ref (ex_table ex_mem62) s1 7 q1 u1 ex_heap) =
    [GStr (str "label"); GInt true 2 24930; GNil; GInt true 2 0x2804; GInt true 2 0x2805; GInt true 2 0x2806; GInt true 1 121; GInt true 4 5].
Proof.
  split; [apply ex_table_device; intros p n H; unfold ex_mem62; rewrite fit_len; lia|]. split.
  { apply Forall2_cons; [exact (rd_ref (tag1 (str "xy")) (KInt true 1) 0xC2 6 eq_refl)|].
    apply Forall2_cons; [apply (rd_plain RSend OSync); [exact does_send|exact I]|].
    apply Forall2_cons; [|apply Forall2_cons; [apply (rd_plain RLook ORead); [exact does_read|exact I]|constructor]].
    apply (rd_struct ex_fields [str "Speeds"] (@rev _) ex_members ex_slots).
    - apply Forall2_cons; [exists true, (FScalar KString 0); now left|]. apply Forall2_cons; [exists (str "ab"); split; [reflexivity|split; [discriminate|vm_compute; reflexivity]]|].
      apply Forall2_cons; [|constructor]. exists (str "{0}[4]"), 2%nat. split; [reflexivity|split; [discriminate|vm_compute; reflexivity]].
    - apply Forall_cons; [exact I|]. apply Forall_cons; [exists 0xC3; reflexivity|]. apply Forall_cons; [|constructor].
      split; [discriminate|]. split; [exists 0xC3; reflexivity|]. split; [cbn; lia|]. split; [reflexivity|discriminate].
    - change ex_slots with (rev (concat (map stands ex_members))). apply Permutation_rev.
    - vm_compute. reflexivity. }
  cbv zeta. split. { cbn [ex_rhist paced map plain app]. unfold acceptable. repeat split; try discriminate; try (right; split); vm_compute; reflexivity. }
  assert (B : bound ex_rhist = (tag1 (str "xy"), 0xC2, Some 6%nat) :: ex_slots) by reflexivity. rewrite B. clear B. unfold ex_slots. cbn [map fst].
  split. { repeat (apply Forall_cons; [split; [split; [apply valid_tagb_sound; vm_compute; reflexivity|split; [reflexivity|vm_compute; reflexivity]]|eexists; split; [reflexivity|lia]]|]). apply Forall_nil. }
  split; [vm_compute; reflexivity|]. split; [vm_compute; reflexivity|]. split; [discriminate|]. split.
  { vm_compute. repeat (apply NoDup_cons; [cbn [In]; intros H; repeat destruct H as [H|H]; try discriminate H; destruct H|]). apply NoDup_nil. }
  split. { cbn. repeat (apply NoDup_cons; [cbn [In]; intros H; repeat destruct H as [H|H]; try discriminate H; destruct H|]). apply NoDup_nil. }
  split. { cbn. repeat (apply Forall_cons; [lia|]). constructor. }
  split.
  { intros s x I. cbn [In] in I. repeat destruct I as [I|I]; try (subst x; cbn [fst snd]; apply sh_value; [|discriminate..]).
    - change (ex_mem62 _ _) with (le 1 121). apply (enc_int 0xC2 true 1 121); [reflexivity|unfold in_range; lia].
    - change (ex_mem62 _ _) with (le 2 0x2806). apply (enc_int 0xC3 true 2 0x2806); [reflexivity|unfold in_range; lia].
    - change (ex_mem62 _ _) with (le 2 0x2805). apply (enc_int 0xC3 true 2 0x2805); [reflexivity|unfold in_range; lia].
    - change (ex_mem62 _ _) with (le 2 0x2804). apply (enc_int 0xC3 true 2 0x2804); [reflexivity|unfold in_range; lia].
    - change (ex_mem62 _ _) with (le 2 24930). apply (enc_int 0xC3 true 2 24930); [reflexivity|unfold in_range; lia].
    - destruct I. }
  vm_compute. split; reflexivity.
Qed.

(** One struct added to a new buffer, then a read: what the two calls report, and
    the variables afterwards. *)
Definition struct_read (ptr : bool) (fs : list sfield) (hp : heap) : res unit * res unit * heap :=
  let '(rs, _, _, _, hp1) := rrun (ex_table ex_mem62) (cl_run []) no_udt 7 [RStruct ptr fs [] (fun l => l); RDo ORead] (RBuf (fresh 9) []) [] 1 hp in
  (nth 0 rs OutOfFuel, nth 1 rs OutOfFuel, hp1).

(** A slice of three whose tag has no subscript: all succeeds and only the last
    element is ever written. *)
Theorem C78_subscript_refuted : exists v,
  struct_read true [SField (Some (str "ab")) true (FSlice (KInt true 2) 0 [1%nat; 2%nat; 3%nat])] [GNil; GInt true 2 7; GInt true 2 8; GInt true 2 9] =
  (Ok tt, Ok tt, [GNil; GInt true 2 7; GInt true 2 8; v]) /\ v <> GInt true 2 9.
Proof. eexists. split; [vm_compute; reflexivity|discriminate]. Qed.
Print Assumptions C78_subscript_refuted.

(** A slice of one element: added without complaint, after which every read of the
    buffer fails. *)
Theorem C78_single_refuted : struct_read true [SField (Some (str "ab[0]")) true (FSlice (KInt true 2) 0 [1%nat])] [GNil; GInt true 2 7] =
  (Ok tt, Err EMsg, [GNil; GInt true 2 7]).
Proof. vm_compute. reflexivity. Qed.
Print Assumptions C78_single_refuted.

(** A struct passed by value: the addition panics. *)
Theorem C78_value_refuted : fst (fst (struct_read false [SField (Some (str "ab")) true (FScalar (KInt true 2) 0)] [GInt true 2 7])) = Panic.
Proof. vm_compute. reflexivity. Qed.
Print Assumptions C78_value_refuted.

(** An embedded struct ahead of another field: the value of the embedded field's tag
    is written to that other field, which has no tag. *)
Theorem C78_embedded_refuted : exists v,
  struct_read true [SEmbed None true 0 [SField (Some (str "ab")) true (FScalar (KInt true 2) 1)]; SField None true (FScalar (KInt true 2) 2)]
    [GNil; GInt true 2 7; GInt true 2 8] = (Ok tt, Ok tt, [GNil; GInt true 2 7; v]) /\ v <> GInt true 2 8.
Proof. eexists. split; [vm_compute; reflexivity|discriminate]. Qed.
Print Assumptions C78_embedded_refuted.

(** Two structs naming one tag: only the second is filled from then on. *)
Theorem C78_twice_refuted : exists v,
  let fs a := [SField (Some (str "ab")) true (FScalar (KInt true 2) a)] in
  let '(rs, _, _, _, hp) := rrun (ex_table ex_mem62) (cl_run []) no_udt 7
    [RStruct true (fs 0%nat) [] (fun l => l); RStruct true (fs 1%nat) [] (fun l => l); RDo ORead] (RBuf (fresh 9) []) [] 1 [GInt true 2 7; GInt true 2 8] in
  rs = [Ok tt; Ok tt; Ok tt] /\ hp = [GInt true 2 7; v] /\ v <> GInt true 2 8.
Proof. eexists. vm_compute. split; [reflexivity|split; [reflexivity|discriminate]]. Qed.
Print Assumptions C78_twice_refuted.

(** An array field, [3]int16: added without complaint, after which every read of the
    buffer fails. *)
Theorem C78_array_refuted : struct_read true [SField (Some (str "ab[0]")) true (FOther 0)] [GNil] = (Ok tt, Err EMsg, [GNil]).
Proof. vm_compute. reflexivity. Qed.
Print Assumptions C78_array_refuted.

(** The types of the example's variables. *)
Definition ex_types (a : nat) : pointee :=
  match a with 0 => PKind KString | 1 | 3 | 4 | 5 => PKind (KInt true 2) | 6 => PKind (KInt true 1) | 7 => PKind (KInt true 4) | _ => POther end%nat.
Example ex_C78_typed : Forall (op_fits ex_types) ex_rops /\ typed ex_types ex_heap.
Proof.
  split.
  - constructor; [reflexivity|]. constructor; [exact I|]. constructor; [|constructor; [exact I|constructor]].
    constructor; [reflexivity|]. constructor; [reflexivity|]. constructor; [|constructor]. split; [reflexivity|].
    repeat (constructor; [reflexivity|]). constructor.
  - intros a k v T N. do 8 (destruct a as [|a]; [cbn in T, N; try discriminate; injection T as <-; injection N as <-; reflexivity|]).
    destruct a; discriminate.
Qed.
