(** * Lemmas about variables behind data table tags *)
From Coq Require Import Permutation.
From Verif Require Import GoBase SegModel IoiModel IoiSpec IoiProof TypesModel ItemsModel ItemsSpec ItemsProof
  ReadModel ReadSpec ReadProof BatchSpec AttrModel AttrSpec AttrProof GroupModel GroupSpec GroupProof DataModel DataSpec DataProof RefModel RefSpec.
From Verif Require ProvModel ProvProof.

Definition kind_for (t : Z) : gokind :=
  match t with
  | 0xC1 => KBool
  | 0xC2 => KInt true 1 | 0xC3 => KInt true 2 | 0xC4 => KInt true 4 | 0xC5 => KInt true 8
  | 0xD1 => KInt false 1 | 0xC7 => KInt false 2 | 0xC8 => KInt false 4 | 0xD4 => KInt false 8
  | 0xCA => KFloat 4 | 0xCB => KFloat 8
  | _ => KString
  end.
Lemma cip_cases k t : cip_of k = Some t -> kind_cip k = t /\ kind_for t = k.
Proof.
  destruct k as [|[] w|w|]; cbn [cip_of]; intros H; [injection H as <-; now split| | | |injection H as <-; now split];
    repeat (destruct w as [|w]; try discriminate H; try (injection H as <-; now split)).
Qed.
Lemma shown_type t k raw v : cip_of k = Some t -> shown t raw v -> has_type k v = true /\ v <> GNil.
Proof.
  intros H [v' E N1 N2 N3|s pad Ht _ _].
  - destruct (cip_cases _ _ H) as [_ <-]. destruct E as [x|t signed w z Ei R|bits R|bits R]; try (split; [reflexivity|discriminate]).
    split; [|discriminate]. unfold int_type in Ei.
    repeat match type of Ei with (match ?x with _ => _ end) = _ => destruct x; try discriminate Ei end;
      injection Ei as <- <-; first [reflexivity|discriminate H].
  - assert (t = 255) as ->.
    { destruct Ht as [-> | ->]; [reflexivity|]. exfalso. clear - H. destruct k as [|[] w|w|]; cbn [cip_of] in H; try discriminate H;
        repeat (destruct w as [|w]; try discriminate H). }
    apply cip_cases in H as [_ <-]. split; [reflexivity|discriminate].
Qed.

(** ** Reading *)
Lemma read_slots_other {A} (f : Z -> bytes -> res A) n l : ~ In n (map b_name l) -> forall cur it acc r,
  read_slots f l cur it acc = Ok r -> lookup n r = lookup n acc.
Proof.
  induction l as [|b l IH]; intros N cur it acc r; cbn [read_slots]; [now intros [= <-]|].
  destruct (if b_batch b =? cur then (Ok 0, it) else item_uint 2 it) as [[h| | |] it1]; cbn [bind]; try discriminate.
  destruct (_ <? _); [discriminate|]. destruct (f _ _) as [v| | |]; cbn [bind]; try discriminate.
  intros E. cbn [map In] in N. rewrite (IH (fun I => N (or_intror I)) _ _ _ _ E), lookup_put.
  destruct (bseq n (b_name b)) eqn:B; [|reflexivity]. apply bseq_spec in B. subst n. tauto.
Qed.

(** What the variables hold after reading the values [r]. *)
Definition fill1 (r : list (bytes * gval)) (x : btag * var) (hp : heap) : heap :=
  match snd x, lookup (b_name (fst x)) r with VPtr _ a, Some v => ProvModel.setn hp a v | _, _ => hp end.
Definition fill (r : list (bytes * gval)) (l : list (btag * var)) (hp : heap) : heap := fold_left (fun h x => fill1 r x h) l hp.
Definition settable (r : list (bytes * gval)) (x : btag * var) : Prop :=
  snd x = VNone \/ exists p a v, snd x = VPtr p a /\ lookup (b_name (fst x)) r = Some v /\ v <> GNil /\ assignable p v = true.

Lemma refs_of_slots l : NoDup (map (fun x => b_name (fst x)) l) -> forall cur it acc r hp,
  read_slots decode_table (map fst l) cur it acc = Ok r -> Forall (settable r) l -> read_refs l cur it acc hp = (Ok r, fill r l hp).
Proof.
  induction l as [|[b d] l IH]; intros N cur it acc r hp E F; cbn [map fst read_slots read_refs fill fold_left] in *.
  - now injection E as ->.
  - destruct (if b_batch b =? cur then (Ok 0, it) else item_uint 2 it) as [[h| | |] it1]; cbn [bind] in E; try discriminate.
    destruct (_ <? _); [discriminate|]. destruct (decode_table _ _) as [v| | |]; cbn [bind] in E; try discriminate.
    inversion_clear N as [|? ? N1 N2]. inversion_clear F as [|? ? F1 F2].
    assert (Lb : lookup (b_name b) r = Some v).
    { rewrite (read_slots_other _ (b_name b) (map fst l) ltac:(rewrite map_map; exact N1) _ _ _ _ E), lookup_put, bseq_refl. reflexivity. }
    destruct F1 as [Ed|(p & a & v' & Ed & Lv & Nv & As)]; cbn [fst snd] in *.
    + subst d. rewrite (IH N2 _ _ _ _ hp E F2). reflexivity.
    + subst d. rewrite Lb in Lv. injection Lv as <-. cbn [set_go_var]. rewrite As.
      assert (X : (match v with GNil => (Panic, hp) | _ => (Ok tt, ProvModel.setn hp a v) end : res unit * heap) = (Ok tt, ProvModel.setn hp a v)) by (destruct v; congruence).
      rewrite X. rewrite (IH N2 _ _ _ _ _ E F2). unfold fill. f_equal. f_equal. unfold fill1. cbn [fst snd]. now rewrite Lb.
Qed.

(** Reading touches no other variable, whatever happens. *)
Definition targets (vs : list var) : list nat := concat (map (fun d => match d with VPtr _ a => [a] | _ => [] end) vs).
Lemma setn_other' {A} (l : list A) i v j : j <> i -> nth_error (ProvModel.setn l i v) j = nth_error l j.
Proof. intros N. apply ProvProof.setn_other. congruence. Qed.
Lemma refs_confined l : forall cur it acc hp r hp', read_refs l cur it acc hp = (r, hp') ->
  length hp' = length hp /\ forall a, ~ In a (targets (map snd l)) -> nth_error hp' a = nth_error hp a.
Proof.
  induction l as [|[b d] l IH]; intros cur it acc hp r hp' E; cbn [read_refs] in E; [injection E as _ <-; auto|].
  destruct (if b_batch b =? cur then (Ok 0, it) else item_uint 2 it) as [[h| | |] it1]; try (injection E as _ <-; auto; fail).
  destruct (_ <? _); [injection E as _ <-; auto|]. destruct (decode_table _ _) as [v| | |]; try (injection E as _ <-; auto; fail).
  assert (X : forall x hp1, (match d with VNone => (Ok tt, hp) | _ => set_go_var d v hp end) = (x, hp1) ->
    length hp1 = length hp /\ forall a, ~ In a (targets [d]) -> nth_error hp1 a = nth_error hp a).
  { intros x hp1 H. destruct d as [|p a|p|g]; cbn [set_go_var] in H; try (injection H as _ <-; auto; fail).
    destruct v; try destruct (assignable p _); injection H as _ <-; auto;
      (split; [apply ProvProof.setn_length|intros a' N; apply setn_other'; intros ->; apply N; cbn; now left]). }
  destruct (match d with VNone => _ | _ => _ end) as [x hp1]. destruct (X _ _ eq_refl) as [L1 C1].
  change (targets (map snd ((b, d) :: l))) with (targets ([d] ++ map snd l)). unfold targets. rewrite map_app, concat_app. fold (targets [d]) (targets (map snd l)).
  destruct x.
  - destruct (IH _ _ _ _ _ _ E) as [L2 C2]. split; [congruence|]. intros a' N. rewrite C2, C1; [reflexivity| |]; intros I; apply N, in_or_app; auto.
  - injection E as _ <-. split; [exact L1|]. intros a' N. apply C1. intros I. apply N, in_or_app. auto.
  - injection E as _ <-. split; [exact L1|]. intros a' N. apply C1. intros I. apply N, in_or_app. auto.
  - injection E as _ <-. split; [exact L1|]. intros a' N. apply C1. intros I. apply N, in_or_app. auto.
Qed.

(** ** Sorting *)
Lemma ins_ref_last b l : Forall (fun x => b_index (fst x) < b_index (fst b)) l -> ins_ref b l = l ++ [b].
Proof.
  induction 1 as [|x l Hx F IH]; cbn [ins_ref app]; [reflexivity|]. destruct (Z.ltb_spec (b_index (fst b)) (b_index (fst x))); [lia|]. now rewrite IH.
Qed.
Lemma by_index_ref_id l : forall acc i, ascending i (map fst l) -> Forall (fun x => b_index (fst x) < i) acc ->
  fold_left (fun acc b => ins_ref b acc) l acc = acc ++ l.
Proof.
  induction l as [|b l IH]; intros acc i A F; cbn [fold_left]; [now rewrite app_nil_r|]. destruct A as [A1 A2].
  rewrite ins_ref_last by (eapply Forall_impl; [|exact F]; cbn; intros; lia).
  rewrite (IH _ (b_index (fst b) + 1) A2).
  - now rewrite <- app_assoc.
  - apply Forall_app. split; [eapply Forall_impl; [|exact F]; cbn; intros; lia|]. constructor; [lia|constructor].
Qed.
Lemma ins_ref_perm b l : Permutation (b :: l) (ins_ref b l).
Proof.
  induction l as [|x l IH]; cbn [ins_ref]; [reflexivity|]. destruct (_ <? _); [reflexivity|].
  rewrite perm_swap. now constructor.
Qed.
Lemma by_index_ref_perm l : Permutation l (by_index_ref l).
Proof.
  unfold by_index_ref. change l with ([] ++ l) at 1. generalize (@nil (btag * var)). induction l as [|b l IH]; intros acc; cbn [fold_left app]; [now rewrite app_nil_r|].
  rewrite <- IH, <- ins_ref_perm. symmetry. apply Permutation_middle.
Qed.

(** ** What reading does apart from the variables *)
Lemma read_all_erase {S} (ctl : controller S) s otid q u hp r u1 s1 q1 hp1 :
  read_all_ref ctl s otid q u hp = (r, u1, s1, q1, hp1) ->
  (exists r', read_all ctl s otid q (r_buf u) = (r', r_buf u1, s1, q1)) /\ r_vars u1 = r_vars u /\
  length hp1 = length hp /\ forall a, ~ In a (targets (r_vars u)) -> nth_error hp1 a = nth_error hp a.
Proof.
  unfold read_all_ref, read_all, read_with. intros E.
  destruct (negb (u_created (r_buf u))). { injection E as <- <- <- <- <-. eauto. }
  destruct (u_tags (r_buf u)) as [|t0 ts]. { injection E as <- <- <- <- <-. eauto. }
  destruct (if u_sync (r_buf u) then _ else _) as [[[r0 b1] s2] q2].
  destruct r0; try (injection E as <- <- <- <- <-; cbn [r_buf r_vars]; eauto; fail).
  destruct (generic ctl s2 otid q2 0x4C (table_path (u_inst b1)) []) as [[x s3] q3].
  destruct x as [it| | |]; try (injection E as <- <- <- <- <-; cbn [r_buf r_vars]; eauto; fail).
  destruct (read_refs _ _ _ _ _) as [y hp2] eqn:Er. injection E as <- <- <- <- <-. cbn [r_buf r_vars].
  split; [eauto|]. split; [reflexivity|]. apply refs_confined in Er as [L C]. split; [exact L|]. intros cell N. apply C.
  intros I. apply N. clear - I. unfold targets in *. apply in_concat in I as (l & I & Ia). apply in_map_iff in I as (d & Ed & I).
  apply in_map_iff in I as ([b d'] & <- & I). apply (Permutation_in _ (Permutation_sym (by_index_ref_perm _))) in I. apply in_combine_r in I.
  apply in_concat. exists l. split; [|exact Ia]. subst l. cbn [snd]. now apply (in_map (fun d => match d with VPtr _ a => [a] | _ => [] end)).
Qed.

Lemma read_all_ref_ok {S} (ctl : controller S) s otid q u hp r b1 s1 q1 :
  read_all ctl s otid q (r_buf u) = (Ok r, b1, s1, q1) -> ascending 1 (u_tags b1) -> NoDup (map b_name (u_tags b1)) ->
  length (r_vars u) = length (u_tags b1) -> Forall (settable r) (combine (u_tags b1) (r_vars u)) ->
  read_all_ref ctl s otid q u hp = (Ok r, RBuf b1 (r_vars u), s1, q1, fill r (combine (u_tags b1) (r_vars u)) hp).
Proof.
  unfold read_all_ref, read_all, read_with. intros E A N L F.
  destruct (negb (u_created (r_buf u))); [discriminate|]. destruct (u_tags (r_buf u)) as [|t0 ts]; [discriminate|].
  destruct (if u_sync (r_buf u) then _ else _) as [[[r0 b2] s2] q2]. destruct r0; try discriminate.
  destruct (generic ctl s2 otid q2 0x4C (table_path (u_inst b2)) []) as [[x s3] q3]. destruct x as [it| | |]; try discriminate.
  injection E as E -> -> ->.
  assert (M : map fst (combine (u_tags b1) (r_vars u)) = u_tags b1).
  { clear - L. revert L. generalize (r_vars u). induction (u_tags b1) as [|t ts IH]; intros [|v vs] L; cbn in *; try discriminate; [reflexivity|]. now rewrite IH by lia. }
  assert (B : by_index_ref (combine (u_tags b1) (r_vars u)) = combine (u_tags b1) (r_vars u)).
  { unfold by_index_ref. rewrite (by_index_ref_id _ [] 1); [reflexivity|now rewrite M|constructor]. }
  assert (B' : by_index (u_tags b1) = u_tags b1) by (unfold by_index; now rewrite (by_index_id _ [] 1)).
  rewrite B' in E. rewrite B. rewrite (refs_of_slots _ ltac:(now rewrite <- (map_map fst b_name), M) 0 it [] r hp); [reflexivity|now rewrite M|exact F].
Qed.

(** The variables after that: distinct ones hold their values. *)
Lemma fill_length r l : forall hp, length (fill r l hp) = length hp.
Proof.
  induction l as [|x l IH]; intros hp; cbn [fill fold_left]; [reflexivity|]. fold (fill r l (fill1 r x hp)). rewrite IH.
  unfold fill1. destruct (snd x); try reflexivity. destruct (lookup _ _); [apply ProvProof.setn_length|reflexivity].
Qed.
Lemma fill_other r l a : ~ In a (targets (map snd l)) -> forall hp, nth_error (fill r l hp) a = nth_error hp a.
Proof.
  induction l as [|[b d] l IH]; intros N hp; cbn [fill fold_left]; [reflexivity|]. fold (fill r l (fill1 r (b, d) hp)).
  unfold targets in N. cbn [map concat snd] in N. fold (targets (map snd l)) in N.
  rewrite IH by (intros I; apply N, in_or_app; now right). unfold fill1. cbn [snd fst]. destruct d; try reflexivity.
  destruct (lookup _ _); [|reflexivity]. apply setn_other'. intros ->. apply N. cbn. now left.
Qed.
Lemma fill_hit r l b p a v : In (b, VPtr p a) l -> NoDup (targets (map snd l)) -> lookup (b_name b) r = Some v ->
  forall hp, (a < length hp)%nat -> nth_error (fill r l hp) a = Some v.
Proof.
  induction l as [|[b' d'] l IH]; intros I N L hp H; [destruct I|]. cbn [fill fold_left]. fold (fill r l (fill1 r (b', d') hp)).
  unfold targets in N. cbn [map concat snd] in N. fold (targets (map snd l)) in N.
  destruct I as [[= -> ->]|I].
  - cbn [app] in N. inversion_clear N as [|? ? N1 N2]. rewrite fill_other by exact N1. unfold fill1. cbn [snd fst]. rewrite L. now apply ProvProof.setn_same.
  - apply IH; [exact I| |exact L|].
    + now apply NoDup_app_remove_l in N.
    + unfold fill1. cbn [snd fst]. destruct d'; try exact H. destruct (lookup (b_name b') r); [rewrite ProvProof.setn_length|]; exact H.
Qed.

(** ** Structs *)
Definition name_of (x : slot) : bytes := text (fst (fst x)).
Definition var_for (x : slot) : var := match snd x with None => VNone | Some a => VPtr (PKind (kind_for (snd (fst x)))) a end.
Definition typed_name (x : slot) : bytes * Z := (name_of x, snd (fst x)).

(** The fields of a Go struct are what the program means. *)
Definition field_is (args : list bytes) (f : sfield) (m : RefSpec.member) : Prop :=
  match m with
  | Untagged => exists e v, f = SField None e v \/ f = SField (Some []) e v
  | Single tg k a => exists t, f = SField (Some t) true (FScalar k a) /\ t <> [] /\ format_name t args = text tg
  | Many tg k l => exists t a, f = SField (Some t) true (FSlice k a l) /\ t <> [] /\ format_name t args = text tg
  end.

Lemma elements_fst tg t l : forall i, map fst (elements tg t i l) = map (fun k => (bump tg k, t)) (from i (length l)).
Proof. induction l as [|a l IH]; intros i; cbn [elements map length from fst]; [reflexivity|]. now rewrite IH. Qed.
Lemma elements_names tg t l : element tg -> 2 <= len l -> Forall (fun x => valid_tag (fst (fst x))) (elements tg t 0 l) ->
  map name_of (elements tg t 0 l) = expand_array (text tg) (len l).
Proof.
  intros El L V. set (g := Part tg t (len l)).
  assert (M : map fst (elements tg t 0 l) = members g).
  { rewrite elements_fst. unfold members, parts, g. cbn [g_count g_tag g_type]. replace (len l =? 1) with false by lia. unfold len. now rewrite Nat2Z.id. }
  destruct (members_names g) as (N & _).
  - split; [cbn; lia|]. intros _. exact El.
  - rewrite <- M. apply Forall_map. exact V.
  - rewrite <- M, map_map in N. refine (eq_trans N _). unfold g. cbn [g_count g_tag]. replace (1 <? len l) with true by lia. reflexivity.
Qed.
Lemma elements_types tg t l : forall i, map (fun x : slot => snd (fst x)) (elements tg t i l) = map (fun _ => t) l.
Proof. induction l as [|a l IH]; intros i; cbn [elements map fst snd]; [reflexivity|]. now rewrite IH. Qed.
Lemma elements_vars tg t l : forall i, map var_for (elements tg t i l) = map (VPtr (PKind (kind_for t))) l.
Proof. induction l as [|a l IH]; intros i; cbn [elements map]; [reflexivity|]. now rewrite IH. Qed.

Lemma put_ptrs_new names : forall ps m, length names = length ps -> NoDup (map fst m ++ names) -> put_ptrs names ps m = m ++ combine names ps.
Proof.
  induction names as [|n ns IH]; intros [|p ps] m L N; cbn [put_ptrs combine] in *; try discriminate; [now rewrite app_nil_r|].
  assert (N' := N). apply NoDup_remove_2 in N'. rewrite put_new by (intros I; apply N'; apply in_or_app; now left).
  rewrite IH; [now rewrite <- app_assoc|now injection L|]. rewrite map_app, <- app_assoc. exact N.
Qed.
Lemma combine_maps {A B C} (f : A -> B) (g : A -> C) l : combine (map f l) (map g l) = map (fun x => (f x, g x)) l.
Proof. induction l as [|x l IH]; cbn; [reflexivity|]. now rewrite IH. Qed.
Lemma NoDup_mid {A} (a b c : list A) : NoDup (a ++ b ++ c) -> NoDup (a ++ b) /\ NoDup ((a ++ b) ++ c).
Proof. intros N. rewrite app_assoc in N. split; [now apply NoDup_app_remove_r in N|exact N]. Qed.

Lemma go_to_cip_slice k (l : list nat) : k <> KBool -> go_to_cip (GoSlice k (len l)) = (kind_cip k, len l).
Proof. destruct k; [congruence|reflexivity..]. Qed.

Lemma gather_ok args fs ms : Forall2 (field_is args) fs ms -> Forall member_ok ms ->
  Forall (fun x => valid_tag (fst (fst x))) (concat (map stands ms)) -> forall pre g,
  NoDup (map fst (ga_tags g) ++ map name_of (concat (map stands ms))) -> NoDup (map fst (ga_ptrs g) ++ map name_of (concat (map stands ms))) ->
  exists e, gather true (pre ++ fs) args (concat (map visible fs)) (length pre) g =
    (Ok tt, Gathered e (ga_tags g ++ map typed_name (concat (map stands ms))) (ga_ptrs g ++ map (fun x => (name_of x, var_for x)) (concat (map stands ms)))).
Proof.
  induction 1 as [|f m fs ms Hf F IH]; intros Ok1 V pre g N1 N2.
  - cbn [map concat gather]. exists (ga_exp g). rewrite !app_nil_r. now destruct g.
  - inversion_clear Ok1 as [|? ? Hm Ok2]. cbn [map concat] in V, N1, N2 |- *. apply Forall_app in V as [V1 V2].
    rewrite map_app in N1, N2. apply NoDup_mid in N1 as [N1a N1b]. apply NoDup_mid in N2 as [N2a N2b].
    assert (Next : forall g', map fst (ga_tags g') = map fst (ga_tags g) ++ map name_of (stands m) -> map fst (ga_ptrs g') = map fst (ga_ptrs g) ++ map name_of (stands m) ->
      exists e, gather true (pre ++ f :: fs) args (concat (map visible fs)) (Datatypes.S (length pre)) g' =
        (Ok tt, Gathered e (ga_tags g' ++ map typed_name (concat (map stands ms))) (ga_ptrs g' ++ map (fun x => (name_of x, var_for x)) (concat (map stands ms))))).
    { intros g' E1 E2. replace (pre ++ f :: fs) with ((pre ++ [f]) ++ fs) by (now rewrite <- app_assoc).
      replace (Datatypes.S (length pre)) with (length (pre ++ [f])) by (rewrite app_length; cbn; lia).
      apply IH; [exact Ok2|exact V2|now rewrite E1|now rewrite E2]. }
    assert (Nth : nth_error (pre ++ f :: fs) (length pre) = Some f) by (rewrite nth_error_app2, Nat.sub_diag by lia; reflexivity).
    destruct m as [|tg k a|tg k l]; cbn [field_is member_ok] in Hf, Hm.
    + destruct Hf as (e0 & v & [-> | ->]); cbn [visible app gather stands];
        destruct (Next g ltac:(cbn; now rewrite app_nil_r) ltac:(cbn; now rewrite app_nil_r)) as (e & ->); exists e; reflexivity.
    + destruct Hf as (t & -> & Nt & En). destruct Hm as (ct & Ek). destruct (cip_cases _ _ Ek) as [Kc Kf].
      cbn [visible app gather]. destruct t as [|t0 ts]; [congruence|].
      assert (En' : match args with [] => t0 :: ts | _ => format_name (t0 :: ts) args end = text tg) by (destruct args; [rewrite <- En; reflexivity|exact En]).
      rewrite En', Nth. cbn [direct negb field_type go_to_cip]. change (1 <? 1) with false. cbn [field_ptr]. rewrite Kc.
      cbn [stands] in *. rewrite Ek in *. cbn [map app name_of fst snd] in N1a, N2a.
      assert (P1 : ~ In (text tg) (map fst (ga_tags g))) by (apply NoDup_remove_2 in N1a; intros I; apply N1a, in_or_app; now left).
      assert (P2 : ~ In (text tg) (map fst (ga_ptrs g))) by (apply NoDup_remove_2 in N2a; intros I; apply N2a, in_or_app; now left).
      rewrite (put_new _ _ _ P1), (put_new _ _ _ P2).
      match goal with |- exists e, gather _ _ _ _ _ ?g' = _ => destruct (Next g') as (e & Hg) end.
      { cbn [ga_tags]. now rewrite map_app. } { cbn [ga_ptrs]. now rewrite map_app. }
      exists e. rewrite Hg. cbn [ga_tags ga_ptrs map app]. rewrite <- !app_assoc. replace (var_for (tg, ct, Some a)) with (VPtr (PKind k) a) by (unfold var_for; cbn [fst snd]; now rewrite Kf). reflexivity.
    + destruct Hf as (t & a & -> & Nt & En). destruct Hm as (Nk & (ct & Ek) & L2 & El). destruct (cip_cases _ _ Ek) as [Kc Kf].
      cbn [visible app gather]. destruct t as [|t0 ts]; [congruence|].
      assert (En' : match args with [] => t0 :: ts | _ => format_name (t0 :: ts) args end = text tg) by (destruct args; [rewrite <- En; reflexivity|exact En]).
      rewrite En', Nth. cbn [direct negb field_type]. rewrite go_to_cip_slice by exact Nk. replace (1 <? len l) with true by lia.
      cbn [stands] in *. rewrite Ek in *. cbn [slice_ptrs]. rewrite Kc.
      assert (Nm := elements_names tg ct l El L2 V1). rewrite <- Nm.
      assert (T1 : fold_left (fun m x => put x ct m) (map name_of (elements tg ct 0 l)) (ga_tags g) = ga_tags g ++ map typed_name (elements tg ct 0 l)).
      { rewrite (fold_put_new (fun n => n) (fun _ => ct)) by (rewrite map_id; exact N1a). f_equal. rewrite map_map.
        assert (Ty := elements_types tg ct l 0). clear - Ty. revert Ty. generalize (elements tg ct 0 l). generalize l. 
        induction l0 as [|b l0 IH]; intros [|x xs] Ty; cbn in *; try discriminate; [reflexivity|]. injection Ty as E1 E2. rewrite (IH _ E2). unfold typed_name at 2. now rewrite E1. }
      assert (T2 : put_ptrs (map name_of (elements tg ct 0 l)) (map (VPtr (PKind k)) l) (ga_ptrs g) = ga_ptrs g ++ map (fun x => (name_of x, var_for x)) (elements tg ct 0 l)).
      { rewrite <- Kf. rewrite <- (elements_vars tg ct l 0). rewrite put_ptrs_new by (try exact N2a; now rewrite !map_length). f_equal. apply combine_maps. }
      rewrite T1, T2.
      match goal with |- exists e, gather _ _ _ _ _ ?g' = _ => destruct (Next g') as (e & Hg) end.
      { cbn [ga_tags]. rewrite map_app, map_map. reflexivity. } { cbn [ga_ptrs]. rewrite map_app, map_map. reflexivity. }
      exists e. rewrite Hg. cbn [ga_tags ga_ptrs]. rewrite <- !app_assoc, !map_app. reflexivity.
Qed.

(** Giving the tags their variables. *)
Lemma bind_old ptrs w : forall tags, map b_name tags = map name_of w -> (forall x, In x w -> lookup (name_of x) ptrs = None) ->
  bind_vars ptrs tags (map var_for w) = map var_for w.
Proof.
  unfold bind_vars. induction w as [|x w IH]; intros [|b tags] E H; cbn [map combine] in *; try discriminate; [reflexivity|].
  injection E as Eb Et. cbn [fst snd]. rewrite Eb, (H x (or_introl eq_refl)). f_equal. apply IH; [exact Et|]. intros y I. apply H. now right.
Qed.
Lemma bind_new ptrs l : forall tags vs, map b_name tags = map name_of l -> length vs = length l ->
  (forall x, In x l -> lookup (name_of x) ptrs = Some (var_for x)) -> bind_vars ptrs tags vs = map var_for l.
Proof.
  unfold bind_vars. induction l as [|x l IH]; intros [|b tags] [|v vs] E L H; cbn [map combine length] in *; try discriminate; [reflexivity|].
  injection E as Eb Et. cbn [fst snd]. rewrite Eb, (H x (or_introl eq_refl)). f_equal. apply IH; [exact Et|lia|]. intros y I. apply H. now right.
Qed.
Lemma lookup_map_in l : NoDup (map name_of l) -> forall x, In x l -> lookup (name_of x) (map (fun x => (name_of x, var_for x)) l) = Some (var_for x).
Proof.
  induction l as [|y l IH]; cbn [map lookup]; intros N x I; [destruct I|]. inversion_clear N as [|? ? N1 N2].
  destruct (bseq (name_of x) (name_of y)) eqn:B.
  - destruct I as [->|I]; [reflexivity|]. apply bseq_spec in B. exfalso. apply N1. rewrite <- B. now apply in_map.
  - destruct I as [->|I]; [now rewrite bseq_refl in B|]. now apply IH.
Qed.
Lemma lookup_map_out l n : ~ In n (map name_of l) -> lookup n (map (fun x => (name_of x, var_for x)) l) = None.
Proof.
  induction l as [|y l IH]; cbn [map lookup In]; intros N; [reflexivity|]. destruct (bseq n (name_of y)) eqn:B; [apply bseq_spec in B; subst; tauto|]. apply IH. tauto.
Qed.

(** ** A buffer's life *)
Inductive rdoes : ract -> rop -> Prop :=
| rd_plain a o : does (plain a) o -> (match a with RPut l => Forall (fun x => snd x = None) l | _ => True end) -> rdoes a (RDo o)
| rd_ref tg k t a : cip_of k = Some t -> rdoes (RPut [(tg, t, Some a)]) (RRef (text tg) (VPtr (PKind k) a))
| rd_struct fs args order ms l : Forall2 (field_is args) fs ms -> Forall member_ok ms -> Permutation (concat (map stands ms)) l ->
    order (map typed_name (concat (map stands ms))) = map typed_name l -> rdoes (RPut l) (RStruct true fs args order).

Lemma cells_targets w : targets (map var_for w) = cells w.
Proof.
  unfold targets, cells. induction w as [|x w IH]; cbn [map concat]; [reflexivity|]. rewrite IH. unfold var_for. now destruct (snd x).
Qed.
Lemma built_names usize i bid sy l : map b_name (built usize i bid sy l) = map (fun x => text (fst x)) l.
Proof. revert i; induction l as [|x l IH]; intros i; cbn [built map built1 b_name]; [reflexivity|]. now rewrite IH. Qed.
Lemma built_all_names usize i bid bs : map b_name (built_all usize i bid bs) = map (fun x => text (fst x)) (concat bs).
Proof. revert i bid; induction bs as [|l bs IH]; intros i bid; cbn [built_all concat]; [reflexivity|]. now rewrite !map_app, built_names, IH. Qed.
Lemma added_cons a r : added (a :: r) = added [a] ++ added r.
Proof. unfold added. cbn [map concat]. now rewrite app_nil_r. Qed.
Lemma bound_cons a r : bound (a :: r) = bound [a] ++ bound r.
Proof. unfold bound. cbn [map concat]. now rewrite app_nil_r. Qed.
Lemma added_plain h : added (map plain h) = map fst (bound h).
Proof.
  induction h as [|a h IH]; [reflexivity|]. cbn [map]. rewrite added_cons, bound_cons, map_app, IH. f_equal. destruct a; cbn; now rewrite ?app_nil_r.
Qed.

Section rlife.
Context {S : Type}.
Variable ctl : controller S.
Variables (otid inst : Z) (rep : S -> list (list entry)) (mem : S -> bytes -> Z -> bytes).
Hypothesis dev : table_device ctl otid inst rep mem.
Variable ops : list cl_op.
Variable usize : bytes -> Z.

Definition rinv (bs : list (list (tag * Z))) (p : list (tag * Z)) (w : list slot) (u : rbuf) (s : S) : Prop :=
  inv inst rep usize bs p (r_buf u) s /\ map fst w = concat bs ++ p /\ r_vars u = map var_for w.

Lemma inv_names bs p u s : inv inst rep usize bs p u s -> map b_name (u_tags u) = map (fun x => text (fst x)) (concat bs ++ p).
Proof. intros (_ & _ & -> & _). now rewrite !map_app, built_all_names, built_names. Qed.
Lemma inv_length bs p u s : inv inst rep usize bs p u s -> length (u_tags u) = length (concat bs ++ p).
Proof. intros I. apply inv_names in I. apply (f_equal (@length _)) in I. now rewrite !map_length in I. Qed.

(** Adding without variables, announcing, reading raw. *)
Lemma plain_vars w n : map var_for w ++ repeat VNone n = map var_for (w ++ repeat ({| t_members := []; t_bit := None |}, 0, None) n).
Proof. rewrite map_app. f_equal. induction n as [|n IH]; cbn; [reflexivity|]. now rewrite IH. Qed.
Lemma none_vars l : Forall (fun x : slot => snd x = None) l -> map var_for l = repeat VNone (length l).
Proof. induction 1 as [|x l H F IH]; cbn [map length repeat]; [reflexivity|]. rewrite IH. unfold var_for. now rewrite H. Qed.

Lemma rstep_ok a o rest bs p w u s q hp : rdoes a o -> rinv bs p w u s -> paced (acceptable usize) (map plain (a :: rest)) p ->
  Forall (slot_ok ops usize) (concat bs ++ p ++ map fst (bound (a :: rest))) -> len (concat bs ++ p ++ map fst (bound (a :: rest))) < 2 ^ 16 ->
  need usize (concat bs ++ p ++ map fst (bound (a :: rest))) < 60000 -> NoDup (map name_of (w ++ bound (a :: rest))) ->
  exists r u' s' q' hp' bs' p', rstep ctl (cl_run ops) usize otid o u s q hp = (r, u', s', q', hp') /\ rinv bs' p' (w ++ bound [a]) u' s' /\
    paced (acceptable usize) (map plain rest) p' /\ length hp' = length hp /\ forall c, ~ In c (cells w) -> nth_error hp' c = nth_error hp c.
Proof.
  intros D (I & Ew & Ev) P F L N Nd.
  assert (Ea : forall h, map fst (bound h) = added (map plain h)) by (intros h; now rewrite added_plain).
  rewrite Ea in F, L, N. cbn [map] in F, L, N, P.
  (* what the buffer itself becomes *)
  assert (Erased : forall o' b0, does (plain a) o' -> inv inst rep usize bs p b0 s ->
    exists r b' s' q' bs' p', step ctl (cl_run ops) usize otid o' b0 s q = (r, b', s', q') /\ inv inst rep usize bs' p' b' s' /\
      paced (acceptable usize) (map plain rest) p' /\ map fst (w ++ bound [a]) = concat bs' ++ p').
  { intros o' b0 D' I0. destruct (act_step ctl otid inst rep mem dev ops usize (plain a) o' bs p b0 s q (map plain rest) D' I0 P F L N)
      as (r & b' & s' & q' & bs' & p' & E & I' & P' & Ec & _).
    exists r, b', s', q', bs', p'. split; [exact E|]. split; [exact I'|]. split; [exact P'|].
    rewrite added_cons in Ec. rewrite !app_assoc in Ec. apply app_inv_tail in Ec. rewrite Ec. etransitivity; [apply map_app|]. f_equal; [exact Ew|exact (Ea [a])]. }
  destruct D as [a o D None_|tg k t a0 Ek|fs args order ms l Ff Fm Pl Eo].
  - (* as DataProof *)
    destruct (Erased o (r_buf u) D I) as (r & b' & s' & q' & bs' & p' & E & I' & P' & Ew').
    assert (Vars : o <> ORead -> (forall n, o <> ORemove n) ->
      exists r u' s' q' hp' bs' p', rstep ctl (cl_run ops) usize otid (RDo o) u s q hp = (r, u', s', q', hp') /\ rinv bs' p' (w ++ bound [a]) u' s' /\
        paced (acceptable usize) (map plain rest) p' /\ length hp' = length hp /\ forall c, ~ In c (cells w) -> nth_error hp' c = nth_error hp c).
    { intros X1 X2. exists r, (snd (add_plain u (r, b'))), s', q', hp, bs', p'. split.
      - destruct o; cbn [rstep]; try congruence; try (now rewrite E); exfalso; now apply (X2 name).
      - split; [|split; [exact P'|split; [reflexivity|auto]]]. split; [exact I'|]. split; [exact Ew'|]. cbn [add_plain snd r_vars].
        rewrite Ev, map_app. f_equal. rewrite (inv_length _ _ _ _ I), (inv_length _ _ _ _ I'). rewrite <- Ew, <- Ew', !map_length, app_length.
        rewrite Nat.add_comm, Nat.add_sub. symmetry. apply none_vars.
        destruct a as [l| |]; cbn [bound map concat]; [|constructor|constructor]. rewrite app_nil_r. exact None_. }
    destruct o; try (apply Vars; [discriminate|intros n; discriminate]).
    + clear Vars. cbn [rstep]. cbn [step] in E.
      destruct (read_all_ref ctl s otid q u hp) as [[[[r1 u1] s1] q1] hp1] eqn:Er.
      destruct (read_all_erase ctl s otid q u hp r1 u1 s1 q1 hp1 Er) as ((r' & Ra) & Rv & Lh & Ch). rewrite Ra in E. injection E as <- <- <- <-.
      exists (forget r1), u1, s1, q1, hp1, bs', p'. split; [reflexivity|]. split.
      { split; [exact I'|]. split; [exact Ew'|]. rewrite Rv, Ev. inversion D as [| | |Ea'|]; subst. destruct a as [| |]; try discriminate Ea'.
        cbn [bound map concat app]. now rewrite app_nil_r. }
      split; [exact P'|]. split; [exact Lh|]. intros c Nc. apply Ch. rewrite Ev, cells_targets. exact Nc.
    + exfalso. inversion D.
  - (* AddTagRef *)
    destruct (cip_cases _ _ Ek) as [Kc Kf].
    destruct (Erased (OAdd (text tg) t) (r_buf u) (does_one (tg, t)) I) as (r & b' & s' & q' & bs' & p' & E & I' & P' & Ew').
    cbn [rstep add_tag_ref var_cip]. unfold add_tag_ref. cbn [var_cip]. rewrite Kc. cbn [step] in E.
    assert (Lt := inv_length _ _ _ _ I). assert (Lt' := inv_length _ _ _ _ I').
    destruct (add_tag (cl_run ops) usize (r_buf u) (text tg) t) as [x b1] eqn:Ad. injection E as <- <- <- <-.
    assert (x = Ok tt) as ->.
    { assert (X : length (u_tags b1) = Datatypes.S (length (u_tags (r_buf u)))).
      { rewrite Lt', Lt. rewrite <- Ew', <- Ew. rewrite !map_length, app_length. apply Nat.add_1_r. }
      clear - Ad X. unfold add_tag in Ad. destruct (negb (u_created (r_buf u))); [injection Ad as <- <-; lia|].
      destruct (slot_of _ _ _ _ _); injection Ad as <- <-; try reflexivity; lia. }
    eexists _, _, _, _, _, bs', p'. split; [reflexivity|]. split; [|split; [exact P'|split; [reflexivity|auto]]].
    split; [exact I'|]. split; [exact Ew'|]. cbn [r_vars]. rewrite Ev, map_app, <- Kf. reflexivity.
  - (* AddTaggedStruct *)
    cbn [rstep]. unfold add_struct. replace (negb (u_created (r_buf u))) with false by (destruct I as (_ & -> & _); reflexivity).
    rewrite bound_cons, map_app, map_app in Nd. replace (bound [RPut l]) with l in * by (unfold bound; cbn; now rewrite app_nil_r).
    assert (Nl : NoDup (map name_of l)) by (apply NoDup_app_remove_l in Nd; now apply NoDup_app_remove_r in Nd).
    assert (Nm : NoDup (map name_of (concat (map stands ms)))) by (eapply Permutation_NoDup; [|exact Nl]; apply Permutation_sym, Permutation_map, Pl).
    assert (Vm : Forall (fun x => valid_tag (fst (fst x))) (concat (map stands ms))).
    { eapply Permutation_Forall; [apply Permutation_sym, Pl|]. rewrite !Forall_app in F. destruct F as (_ & _ & F). rewrite added_cons, Forall_app in F. destruct F as [F _].
      unfold added in F. cbn [map plain concat] in F. rewrite app_nil_r, Forall_map in F. eapply Forall_impl; [|exact F]. cbn. intros x ((Hx & _) & _). exact Hx. }
    destruct (gather_ok args fs ms Ff Fm Vm [] (Gathered (u_exp (r_buf u)) [] [])) as (e & Hg); [exact Nm|exact Nm|]. cbn [app length ga_tags ga_ptrs] in Hg. rewrite Hg.
    cbn [ga_exp ga_tags ga_ptrs]. rewrite Eo. set (b1 := Buf (u_inst (r_buf u)) (u_tags (r_buf u)) e (u_created (r_buf u)) (u_sync (r_buf u))).
    assert (I1 : inv inst rep usize bs p b1 s) by exact I.
    assert (Ep : map typed_name l = map pair_of (map fst l)) by (rewrite map_map; reflexivity).
    destruct (Erased (OAddMap (map pair_of (map fst l))) b1 (does_map _) I1) as (r & b' & s' & q' & bs' & p' & E & I' & P' & Ew').
    cbn [step] in E. rewrite Ep. assert (Lt := inv_length _ _ _ _ I1). assert (Lt' := inv_length _ _ _ _ I').
    assert (Nb := inv_names _ _ _ _ I1). assert (Nb' := inv_names _ _ _ _ I').
    destruct (add_tags (cl_run ops) usize b1 (map pair_of (map fst l))) as [x b2] eqn:Ad. injection E as <- <- <- <-.
    rewrite <- Ew', <- Ew in *. rewrite map_length, app_length in Lt'. rewrite map_length in Lt. rewrite map_map in Nb, Nb'.
    destruct l as [|x0 l0]; [cbn [map plain paced] in P; destruct P; congruence|]. set (l := x0 :: l0) in *.
    assert (X : length (u_tags b2) = (length (u_tags b1) + length l)%nat) by (rewrite Lt', Lt; reflexivity).
    assert (T : x = Ok tt /\ exists nt, u_tags b2 = u_tags b1 ++ nt).
    { clear - Ad X. unfold add_tags in Ad. destruct (negb (u_created b1)); [injection Ad as <- <-; unfold l in *; cbn [length] in *; lia|].
      destruct (slots_of _ _ _ _); injection Ad as <- <-; cbn [with_tags u_tags] in *; try (unfold l in *; cbn [length] in *; lia). split; eauto. }
    destruct T as (-> & nt & Ent). cbn [add_plain r_buf r_vars].
    eexists _, _, _, _, _, bs', p'. split; [reflexivity|]. split; [|split; [exact P'|split; [reflexivity|auto]]].
    split; [exact I'|]. split; [exact Ew'|]. cbn [r_vars]. rewrite Ev.
    replace (length (u_tags b2) - length (u_tags b1))%nat with (length l) by lia.
    unfold bind_vars. rewrite Ent in *. rewrite !map_app, Nb in Nb'. apply app_inv_head in Nb'.
    assert (Cm : forall (A B : Type) (l1 l2 : list A) (k1 k2 : list B), length l1 = length k1 -> combine (l1 ++ l2) (k1 ++ k2) = combine l1 k1 ++ combine l2 k2).
    { clear. intros A B. induction l1 as [|x l1 IH]; intros l2 [|y k1] k2 H; cbn in *; try discriminate; [reflexivity|]. now rewrite IH by lia. }
    rewrite Cm by (rewrite map_length; exact Lt). rewrite map_app, map_app. f_equal.
    + apply (bind_old _ w (u_tags b1)); [exact Nb|]. intros y Iy. apply lookup_map_out. intros In_.
      assert (In_' : In (name_of y) (map name_of l)) by (eapply Permutation_in; [apply Permutation_map, Pl|exact In_]).
      apply (in_map name_of) in Iy. clear - Nd Iy In_'. rewrite app_assoc in Nd. apply NoDup_app_remove_r in Nd.
      revert Nd Iy In_'. generalize (map name_of w) (map name_of l) (name_of y). clear. induction l as [|b l IH]; intros l' n N I1 I2; [destruct I1|].
      cbn [app] in N. inversion_clear N as [|? ? N1 N2]. destruct I1 as [->|I1]; [apply N1, in_or_app; now right|]. now apply (IH l' n).
    + apply (bind_new _ l nt); [exact Nb'|now rewrite repeat_length|]. intros y Iy. apply lookup_map_in; [exact Nm|].
      eapply Permutation_in; [apply Permutation_sym, Pl|exact Iy].
Qed.

Lemma rrun_ok h os : Forall2 rdoes h os -> forall bs p w u s q hp, rinv bs p w u s -> paced (acceptable usize) (map plain h) p ->
  Forall (slot_ok ops usize) (map fst (w ++ bound h)) -> len (map fst (w ++ bound h)) < 2 ^ 16 ->
  need usize (map fst (w ++ bound h)) < 60000 -> NoDup (map name_of (w ++ bound h)) ->
  exists rs u' s' q' hp' bs' p', rrun ctl (cl_run ops) usize otid os u s q hp = (rs, u', s', q', hp') /\ rinv bs' p' (w ++ bound h) u' s' /\
    (p' = [] \/ acceptable usize p') /\ length hp' = length hp /\ forall c, ~ In c (cells (w ++ bound h)) -> nth_error hp' c = nth_error hp c.
Proof.
  induction 1 as [|a o h os D F2 IH]; intros bs p w u s q hp I P F L N Nd; cbn [rrun].
  - exists [], u, s, q, hp, bs, p. split; [reflexivity|]. replace (w ++ bound []) with w by (cbn; now rewrite app_nil_r). auto.
  - assert (Ew : map fst (w ++ bound (a :: h)) = concat bs ++ p ++ map fst (bound (a :: h))) by (rewrite map_app, app_assoc; f_equal; apply I).
    rewrite Ew in F, L, N.
    destruct (rstep_ok a o h bs p w u s q hp D I P F L N Nd) as (r & u1 & s1 & q1 & hp1 & bs1 & p1 & E & I1 & P1 & L1 & C1). rewrite E.
    rewrite <- Ew in F, L, N. rewrite bound_cons, app_assoc in F, L, N, Nd |- *.
    destruct (IH bs1 p1 _ u1 s1 q1 hp1 I1 P1 F L N Nd) as (rs & u2 & s2 & q2 & hp2 & bs2 & p2 & E2 & I2 & P2 & L2 & C2). rewrite E2.
    exists (r :: rs), u2, s2, q2, hp2, bs2, p2. split; [reflexivity|]. split; [exact I2|]. split; [exact P2|]. split; [congruence|].
    intros c Nc. rewrite C2 by exact Nc. apply C1. intros Ic. apply Nc. unfold cells in *. rewrite !map_app, !concat_app. apply in_or_app. left. apply in_or_app. now left.
Qed.
End rlife.
