(* The provider with its heap against the plain store. *)
From Verif Require Import GoBase TypesModel ProvModel ProvSpec.
Import ListNotations.
Local Open Scope Z_scope.

(* ---- names ---- *)

Lemma atoi_no_bracket : forall ds i, atoi ds = (i, true) -> ~ In 91 ds.
Proof.
  intros ds i H Hin. unfold atoi in H.
  set (nd := match ds with
             | 45 :: r => (true, r) | 43 :: r => (false, r) | _ => (false, ds)
             end) in H.
  assert (In 91 (snd nd)) as Hd.
  { unfold nd. destruct ds as [|c r]; [destruct Hin|].
    destruct (Z.eq_dec c 45) as [->|N1]; [destruct Hin; [discriminate|exact H0]|].
    destruct (Z.eq_dec c 43) as [->|N2]; [destruct Hin; [discriminate|exact H0]|].
    assert (match c :: r with
            | 45 :: r0 => (true, r0) | 43 :: r0 => (false, r0) | _ => (false, c :: r)
            end = (false, c :: r)) as ->; [|exact Hin].
    destruct c as [|p|p]; try reflexivity.
    do 6 (destruct p as [p|p|]; try congruence; try reflexivity). }
  destruct nd as [neg d]. cbn [snd] in Hd.
  destruct d as [|c d]; [destruct Hd|].
  destruct (forallb is_digit (c :: d)) eqn:F; [|discriminate].
  rewrite forallb_forall in F. apply F in Hd. discriminate.
Qed.

Lemma parse_elem : forall t b i, elem_name t b i -> parse_element_tag t = (b, i, true).
Proof.
  intros t b i (ds & -> & Ha). unfold parse_element_tag.
  replace (b ++ 91 :: ds ++ [93]) with ((b ++ 91 :: ds) ++ [93])
    by (rewrite <- app_assoc; reflexivity).
  rewrite ends_with_app. cbn [negb]. rewrite <- app_assoc.
  change ((91 :: ds) ++ [93]) with (91 :: (ds ++ [93])).
  rewrite last_index_of_app.
  2:{ intros H. apply in_app_or in H as [H|[H|[]]]; [|discriminate].
      exact (atoi_no_bracket _ _ Ha H). }
  replace (skipn (length b + 1) (b ++ 91 :: ds ++ [93])) with (ds ++ [93]).
  2:{ rewrite skipn_app. replace (length b + 1 - length b)%nat with 1%nat by lia.
      rewrite skipn_all2 by lia. reflexivity. }
  replace (length (b ++ 91%Z :: ds ++ [93%Z]) - 1 - (length b + 1))%nat with (length ds).
  2:{ rewrite app_length. cbn [length]. rewrite app_length. cbn [length]. lia. }
  rewrite firstn_app, Nat.sub_diag, firstn_all. cbn [firstn]. rewrite app_nil_r, Ha.
  rewrite firstn_app, Nat.sub_diag, firstn_all. cbn [firstn]. rewrite app_nil_r.
  reflexivity.
Qed.

Lemma parse_cases : forall t b i has, parse_element_tag t = (b, i, has) ->
  if has then elem_name t b i else b = t /\ plain_name t.
Proof.
  intros t b i has H.
  assert (has = false -> plain_name t) as Hp.
  { intros -> b' i' He. apply parse_elem in He. congruence. }
  unfold parse_element_tag in H.
  destruct (ends_with 93 t) eqn:E; cbn [negb] in H.
  2:{ assert (t = b /\ has = false) as [<- Hh] by (split; congruence).
      rewrite Hh. auto. }
  destruct (last_index_of 91 t) as [o|] eqn:L.
  2:{ assert (t = b /\ has = false) as [<- Hh] by (split; congruence).
      rewrite Hh. auto. }
  destruct (atoi _) as [n [|]] eqn:A.
  2:{ assert (t = b /\ has = false) as [<- Hh] by (split; congruence).
      rewrite Hh. auto. }
  assert (firstn o t = b /\ n = i /\ has = true) as (Hb & -> & ->)
    by (repeat split; congruence).
  apply last_index_of_some in L as (Ht & _ & Ho).
  apply ends_with_inv in E as (a & Ea).
  set (ds := firstn (length t - 1 - (o + 1)) (skipn (o + 1) t)) in *.
  exists ds. split; [|exact A].
  rewrite Hb in Ht. rewrite Ht. f_equal. f_equal.
  replace (Datatypes.S o) with (o + 1)%nat by lia.
  assert (length b = o) as Lb by (rewrite <- Hb; rewrite firstn_length; lia).
  (* the last character is the closing bracket *)
  assert (skipn (o + 1) t <> []) as Hne.
  { intros Hs. replace (Datatypes.S o) with (o + 1)%nat in Ht by lia.
    rewrite Hs in Ht. rewrite Ea in Ht. apply app_inj_tail in Ht as [_ Hx]. discriminate. }
  assert (skipn (o + 1) t = removelast (skipn (o + 1) t) ++ [93]) as Hl.
  { rewrite (app_removelast_last 93 Hne) at 1. f_equal. f_equal.
    assert (last t 93 = 93) as H1 by (rewrite Ea; apply last_last).
    rewrite <- H1 at 2. replace (Datatypes.S o) with (o + 1)%nat in Ht by lia.
    rewrite Ht at 2. generalize (skipn (o + 1) t) Hne. clear.
    intros l Hl. induction b as [|x b IH].
    - cbn [app]. destruct l as [|y l]; [congruence|]. reflexivity.
    - cbn [app]. rewrite IH. destruct b; reflexivity. }
  unfold ds. rewrite Hl at 1. f_equal. symmetry.
  assert (length (skipn (o + 1) t) = (length (removelast (skipn (o + 1) t)) + 1)%nat) as Hn.
  { rewrite Hl at 1. rewrite app_length. reflexivity. }
  rewrite skipn_length in Hn.
  replace (length t - 1 - (o + 1))%nat with (length (removelast (skipn (o + 1) t))) by lia.
  rewrite Hl at 2. rewrite firstn_app, Nat.sub_diag, firstn_all. cbn [firstn].
  apply app_nil_r.
Qed.

Lemma elem_name_inj : forall t b i b' i',
  elem_name t b i -> elem_name t b' i' -> b = b' /\ i = i'.
Proof.
  intros t b i b' i' H H'. apply parse_elem in H, H'. split; congruence.
Qed.

(* ---- the map ---- *)

Lemma mget_mset_same : forall d k v, mget (mset d k v) k = Some v.
Proof.
  intros d k v; induction d as [|[k' v'] d IH]; cbn [mset mget].
  - rewrite bseq_refl. reflexivity.
  - destruct (bseq k' k) eqn:E; cbn [mget]; rewrite E; [reflexivity|exact IH].
Qed.

Lemma mget_mset_other : forall d k v k', k' <> k -> mget (mset d k v) k' = mget d k'.
Proof.
  intros d k v k' Hne; induction d as [|[k0 v0] d IH]; cbn [mset mget].
  - destruct (bseq k k') eqn:E; [apply bseq_spec in E; congruence|reflexivity].
  - destruct (bseq k0 k) eqn:E; cbn [mget].
    + apply bseq_spec in E. subst k0.
      destruct (bseq k k') eqn:E'; [apply bseq_spec in E'; congruence|reflexivity].
    + destruct (bseq k0 k'); [reflexivity|exact IH].
Qed.

Lemma mget_mset : forall d k v k', mget (mset d k v) k' = if bseq k k' then Some v else mget d k'.
Proof.
  intros d k v k'. destruct (bseq k k') eqn:E.
  - apply bseq_spec in E. subst. apply mget_mset_same.
  - apply mget_mset_other. intros ->. rewrite bseq_refl in E. discriminate.
Qed.

(* ---- the heap ---- *)

Lemma setn_length : forall (A : Type) (l : list A) i x, length (setn l i x) = length l.
Proof.
  intros A l; induction l as [|y l IH]; intros [|i] x; cbn [setn length]; try reflexivity.
  rewrite IH. reflexivity.
Qed.

Lemma setn_same : forall (A : Type) (l : list A) i x, (i < length l)%nat ->
  nth_error (setn l i x) i = Some x.
Proof.
  intros A l; induction l as [|y l IH]; intros [|i] x H; cbn [setn length nth_error] in *;
    try lia; [reflexivity|]. apply IH. lia.
Qed.

Lemma setn_other : forall (A : Type) (l : list A) i x j, j <> i ->
  nth_error (setn l i x) j = nth_error l j.
Proof.
  intros A l; induction l as [|y l IH]; intros [|i] x [|j] H; cbn [setn nth_error];
    try reflexivity; try congruence. apply IH. congruence.
Qed.

Lemma nth_setn_same : forall (A : Type) (l : list A) i x d, (i < length l)%nat ->
  nth i (setn l i x) d = x.
Proof. intros A l i x d H. apply nth_error_nth. apply setn_same. exact H. Qed.

Lemma nth_setn_other : forall (A : Type) (l : list A) i x j d, j <> i ->
  nth j (setn l i x) d = nth j l d.
Proof.
  intros A l; induction l as [|y l IH]; intros [|i] x [|j] d H; cbn [setn nth];
    try reflexivity; try congruence. apply IH. congruence.
Qed.

Lemma firstn_skipn_setn : forall (A : Type) (l : list A) o n i x,
  (i < n)%nat -> (o + n <= length l)%nat ->
  firstn n (skipn o (setn l (o + i) x)) = setn (firstn n (skipn o l)) i x.
Proof.
  intros A l o n i x Hi Hl.
  revert l Hl; induction o as [|o IH]; intros l Hl.
  - cbn [plus skipn]. revert i n Hi Hl.
    induction l as [|y l IHl]; intros i n Hi Hl; [cbn [length] in Hl; lia|].
    destruct n as [|n]; [lia|]. destruct i as [|i]; cbn [setn firstn]; [reflexivity|].
    rewrite IHl; [reflexivity|lia|cbn [length] in Hl; lia].
  - destruct l as [|y l]; [cbn [length] in Hl; lia|].
    cbn [plus setn skipn]. apply IH. cbn [length] in Hl. lia.
Qed.

Lemma elems_app : forall h x a o n, (a < length h)%nat -> elems (h ++ x) a o n = elems h a o n.
Proof. intros h x a o n H. unfold elems. rewrite app_nth1 by exact H. reflexivity. Qed.

Lemma elems_set_other : forall h b i x a o n, a <> b ->
  elems (harr_set h b i x) a o n = elems h a o n.
Proof.
  intros h b i x a o n H. unfold elems, harr_set. rewrite nth_setn_other by exact H.
  reflexivity.
Qed.

Lemma elems_set_same : forall h a o n i x,
  (a < length h)%nat -> (o + n <= length (nth a h []))%nat -> (i < n)%nat ->
  elems (harr_set h a (o + i) x) a o n = setn (elems h a o n) i x.
Proof.
  intros h a o n i x Ha Ho Hi. unfold elems, harr_set.
  rewrite nth_setn_same by exact Ha. apply firstn_skipn_setn; assumption.
Qed.

Lemma elems_length : forall h a o n, (o + n <= length (nth a h []))%nat ->
  length (elems h a o n) = n.
Proof.
  intros h a o n H. unfold elems. rewrite firstn_length, skipn_length. lia.
Qed.

Lemma harr_set_length : forall h a i x, length (harr_set h a i x) = length h.
Proof. intros. apply setn_length. Qed.

Lemma harr_set_nth_length : forall h a i x b,
  length (nth b (harr_set h a i x) []) = length (nth b h []).
Proof.
  intros h a i x b. unfold harr_set. destruct (Nat.eq_dec b a) as [->|N].
  - destruct (Nat.lt_ge_cases a (length h)) as [L|L].
    + rewrite nth_setn_same by exact L. apply setn_length.
    + rewrite !nth_overflow; [reflexivity|exact L|rewrite setn_length; exact L].
  - rewrite nth_setn_other by exact N. reflexivity.
Qed.

Lemma in_setn : forall (A : Type) (l : list A) i x y, In y (setn l i x) -> y = x \/ In y l.
Proof.
  intros A l; induction l as [|z l IH]; intros [|i] x y H; cbn [setn] in H.
  - destruct H.
  - destruct H.
  - destruct H as [<-|H]; [left; reflexivity|right; right; exact H].
  - destruct H as [<-|H]; [right; left; reflexivity|].
    apply IH in H as [->|H]; [left; reflexivity|right; right; exact H].
Qed.

(* ---- views ---- *)

Lemma see0 : forall h h' v, see 0 h v = see 0 h' v.
Proof. intros h h' [g|e a o n]; reflexivity. Qed.

Lemma see1_ext : forall h h' v,
  (forall e a o n, v = PS e a o n -> elems h' a o n = elems h a o n) ->
  see 1 h' v = see 1 h v.
Proof.
  intros h h' [g|e a o n] H; [reflexivity|]. cbn [see].
  rewrite (H e a o n eq_refl). reflexivity.
Qed.

Lemma see2_ext : forall h h' v,
  (forall e a o n, v = PS e a o n -> elems h' a o n = elems h a o n) ->
  (forall e a o n e' a' o' n', v = PS e a o n -> In (PS e' a' o' n') (elems h a o n) ->
     elems h' a' o' n' = elems h a' o' n') ->
  see 2 h' v = see 2 h v.
Proof.
  intros h h' [g|e a o n] H1 H2; [reflexivity|].
  change (VMany e (map (see 1 h') (elems h' a o n)) = VMany e (map (see 1 h) (elems h a o n))).
  rewrite (H1 e a o n eq_refl). f_equal. apply map_ext_in. intros x Hx.
  apply see1_ext. intros e' a' o' n' ->. exact (H2 _ _ _ _ _ _ _ _ eq_refl Hx).
Qed.

Lemma see_flat : forall d h l, Forall (fun x => exists g, x = PV g) l ->
  exists gs, l = map PV gs /\ map (see d h) l = map VOne gs.
Proof.
  intros d h l H. induction H as [|x l [g ->] Hl (gs & -> & E)].
  - exists []. split; reflexivity.
  - exists (g :: gs). split; [reflexivity|]. cbn [map]. rewrite E.
    destruct d; reflexivity.
Qed.

Lemma see_map_PV : forall d h gs, map (see d h) (map PV gs) = map VOne gs.
Proof.
  intros d h gs. rewrite map_map. apply map_ext. intros g. destruct d; reflexivity.
Qed.

Lemma replaced_setn : forall (A : Type) (l : list A) i x, (i < length l)%nat ->
  replaced l i x (setn l i x).
Proof.
  intros A l i x H. split; [apply setn_length|]. split; [apply setn_same; exact H|].
  intros j Hj. apply setn_other. exact Hj.
Qed.

Lemma map_setn : forall (A B : Type) (f : A -> B) l i x,
  map f (setn l i x) = setn (map f l) i (f x).
Proof.
  intros A B f l; induction l as [|y l IH]; intros [|i] x; cbn [setn map]; try reflexivity.
  rewrite IH. reflexivity.
Qed.

Lemma setn_map_ext : forall (A B : Type) (f f' : A -> B) l i x,
  (forall j y, j <> i -> nth_error l j = Some y -> f' y = f y) ->
  setn (map f' l) i x = setn (map f l) i x.
Proof.
  intros A B f f' l; induction l as [|y l IH]; intros [|i] x H; cbn [setn map]; try reflexivity.
  - f_equal. apply map_ext_in. intros z Hz.
    apply In_nth_error in Hz as (j & Hj). exact (H (Datatypes.S j) z ltac:(discriminate) Hj).
  - f_equal; [exact (H O y ltac:(discriminate) eq_refl)|].
    apply IH. intros j z Hj Hz. apply (H (Datatypes.S j) z); [congruence|exact Hz].
Qed.

(* ---- conversion ---- *)

Lemma kind_eqb_spec : forall a b, kind_eqb a b = true <-> a = b.
Proof.
  intros [|s w|w|] [|s' w'|w'|]; cbn [kind_eqb]; split; intros H; try discriminate;
    try reflexivity.
  - apply andb_true_iff in H as [H1 H2]. apply Bool.eqb_prop in H1. apply Nat.eqb_eq in H2.
    congruence.
  - assert (s = s' /\ w = w') as [-> ->] by (split; congruence).
    rewrite Bool.eqb_reflx, Nat.eqb_refl. reflexivity.
  - apply Nat.eqb_eq in H. congruence.
  - assert (w = w') as -> by congruence. apply Nat.eqb_refl.
Qed.

Lemma wrap_int_spec : forall s w z, (0 < w)%nat ->
  exists q, wrap_int s w z = z + q * 2 ^ (8 * Z.of_nat w) /\
    (if s then - 2 ^ (8 * Z.of_nat w - 1) <= wrap_int s w z < 2 ^ (8 * Z.of_nat w - 1)
     else 0 <= wrap_int s w z < 2 ^ (8 * Z.of_nat w)).
Proof.
  intros s w z Hw. unfold wrap_int.
  assert (0 < 2 ^ (8 * Z.of_nat w)) as Hp by (apply Z.pow_pos_nonneg; lia).
  pose proof (Z.div_mod z (2 ^ (8 * Z.of_nat w)) ltac:(lia)) as Hd.
  destruct s.
  - pose proof (sgn_range (8 * Z.of_nat w) z ltac:(lia)) as Hr.
    assert (exists q, sgn (8 * Z.of_nat w) z = z + q * 2 ^ (8 * Z.of_nat w)) as (q & Hq).
    { unfold sgn. destruct (z mod 2 ^ (8 * Z.of_nat w) <? 2 ^ (8 * Z.of_nat w - 1)).
      - exists (- (z / 2 ^ (8 * Z.of_nat w))). nia.
      - exists (- (z / 2 ^ (8 * Z.of_nat w)) - 1). nia. }
    exists q. split; assumption.
  - exists (- (z / 2 ^ (8 * Z.of_nat w))). unfold uns. split; [nia|].
    apply Z.mod_pos_bound. exact Hp.
Qed.

Lemma convert_one : forall c g e r, convert_elem c (PV g) e = r ->
  match r with
  | Ok x => exists g', x = PV g' /\ becomes (VOne g) e (VOne g')
  | _ => forall x, ~ becomes (VOne g) e x
  end.
Proof.
  intros c g e r H. unfold convert_elem in H.
  destruct e as [k|].
  2:{ destruct g; subst r; try (eexists; split; [reflexivity|]; split; [discriminate|reflexivity]).
      intros x [N _]. congruence. }
  assert (g = GNil \/ g <> GNil) as [->|Ng] by (destruct g; auto; right; discriminate).
  { subst r. intros x [N _]. congruence. }
  assert (match kind_of g with
          | None => Err EMsg
          | Some k0 =>
              if kind_eqb k0 k then Ok (PV g) else
              match g, k with
              | GInt _ _ z, KInt s w => Ok (PV (GInt s w (wrap_int s w z)))
              | GInt _ _ _, KFloat w => Ok (PV (GFloat w (cv_float c g w)))
              | GInt _ _ z, KString => Ok (PV (GStr (cv_str c z)))
              | GFloat w0 b, KInt s w => Ok (PV (GInt s w (wrap_int s w (cv_int c w0 b))))
              | GFloat _ _, KFloat w => Ok (PV (GFloat w (cv_float c g w)))
              | _, _ => Err EMsg
              end
          end = r) as H' by (destruct g; congruence).
  clear H. rename H' into H.
  assert (VOne g <> VOne GNil) as Nv by congruence.
  destruct (kind_of g) as [k0|] eqn:K.
  2:{ subst r. intros x [_ (g0 & g' & E & _ & (C & _))].
      assert (g0 = g) as -> by congruence.
      destruct C as [C|[[[(s & w & z & ->)|(w & b & ->)] _]|[(s & w & z & ->) _]]];
        try discriminate. congruence. }
  destruct (kind_eqb k0 k) eqn:Ek.
  { apply kind_eqb_spec in Ek. subst k0 r. exists g. split; [reflexivity|].
    split; [exact Nv|]. exists g, g. split; [reflexivity|]. split; [reflexivity|].
    split; [left; exact K|]. split; [exact K|]. split; [reflexivity|].
    intros s w z s' w' -> -> Hne. cbn [kind_of] in K. congruence. }
  assert (kind_of g <> Some k) as Nk.
  { intros Hk. assert (k0 = k) as E by congruence. apply kind_eqb_spec in E. congruence. }
  destruct g as [b|s w z|w b|l|l|s|l|l|]; cbn [kind_of] in K, Nk; try discriminate.
  - (* bool *)
    subst r. intros x [_ (g0 & g' & E & _ & (C & _))].
    assert (g0 = GBool b) as -> by congruence.
    destruct C as [C|[[[(s & w & z & C)|(w & b' & C)] _]|[(s & w & z & C) _]]];
      try discriminate. cbn [kind_of] in C. congruence.
  - (* integer *)
    destruct k as [|s' w'|w'|].
    + subst r. intros x [_ (g0 & g' & E & _ & (C & _))].
      assert (g0 = GInt s w z) as -> by congruence.
      destruct C as [C|[[_ (s' & w' & [C|C])]|[_ C]]]; try discriminate.
    + subst r. eexists. split; [reflexivity|]. split; [discriminate|].
      exists (GInt s w z), (GInt s' w' (wrap_int s' w' z)).
      split; [reflexivity|]. split; [reflexivity|].
      split.
      { right. left. split; [left; exists s, w, z; reflexivity|].
        exists s', w'. left. reflexivity. }
      split; [reflexivity|]. split; [cbn [kind_of]; congruence|].
      intros s1 w1 z1 s2 w2 E1 E2 _ Hw.
      assert (z1 = z) as -> by congruence.
      assert (s2 = s' /\ w2 = w') as [-> ->] by (split; congruence).
      destruct (wrap_int_spec s' w' z Hw) as (q & Hq & Hr).
      exists (wrap_int s' w' z), q. auto.
    + subst r. eexists. split; [reflexivity|]. split; [discriminate|].
      exists (GInt s w z), (GFloat w' (cv_float c (GInt s w z) w')).
      split; [reflexivity|]. split; [reflexivity|].
      split.
      { right. left. split; [left; exists s, w, z; reflexivity|].
        exists true, w'. right. reflexivity. }
      split; [reflexivity|]. split; [cbn [kind_of]; congruence|].
      intros s1 w1 z1 s2 w2 E1 E2. discriminate.
    + subst r. eexists. split; [reflexivity|]. split; [discriminate|].
      exists (GInt s w z), (GStr (cv_str c z)).
      split; [reflexivity|]. split; [reflexivity|].
      split.
      { right. right. split; [exists s, w, z; reflexivity|reflexivity]. }
      split; [reflexivity|]. split; [cbn [kind_of]; congruence|].
      intros s1 w1 z1 s2 w2 E1 E2. discriminate.
  - (* float *)
    destruct k as [|s' w'|w'|].
    + subst r. intros x [_ (g0 & g' & E & _ & (C & _))].
      assert (g0 = GFloat w b) as -> by congruence.
      destruct C as [C|[[_ (s' & w' & [C|C])]|[_ C]]]; try discriminate.
    + subst r. eexists. split; [reflexivity|]. split; [discriminate|].
      eexists (GFloat w b), _.
      split; [reflexivity|]. split; [reflexivity|].
      split.
      { right. left. split; [right; exists w, b; reflexivity|].
        exists s', w'. left. reflexivity. }
      split; [reflexivity|]. split; [cbn [kind_of]; congruence|].
      intros s1 w1 z1 s2 w2 E1 E2. discriminate.
    + subst r. eexists. split; [reflexivity|]. split; [discriminate|].
      eexists (GFloat w b), _.
      split; [reflexivity|]. split; [reflexivity|].
      split.
      { right. left. split; [right; exists w, b; reflexivity|].
        exists true, w'. right. reflexivity. }
      split; [reflexivity|]. split; [cbn [kind_of]; congruence|].
      intros s1 w1 z1 s2 w2 E1 E2. discriminate.
    + subst r. intros x [_ (g0 & g' & E & _ & (C & _))].
      assert (g0 = GFloat w b) as -> by congruence.
      destruct C as [C|[[_ (s' & w' & [C|C])]|[(s & w' & z & C) _]]]; discriminate.
  - (* string *)
    subst r. intros x [_ (g0 & g' & E & _ & (C & _))].
    assert (g0 = GStr s) as -> by congruence.
    destruct C as [C|[[[(s1 & w & z & C)|(w & b' & C)] _]|[(s1 & w & z & C) _]]];
      try discriminate. cbn [kind_of] in C. congruence.
Qed.

Lemma convert_all_spec : forall c e gs r, convert_all c (map PV gs) e = r ->
  match r with
  | Ok l => exists gs', l = map PV gs' /\
      Forall2 (fun g x => becomes (VOne g) e x) gs (map VOne gs')
  | _ => forall l', ~ Forall2 (fun g x => becomes (VOne g) e x) gs l'
  end.
Proof.
  intros c e gs; induction gs as [|g gs IH]; intros r H; cbn [map convert_all] in H.
  - subst r. exists []. split; [reflexivity|constructor].
  - pose proof (convert_one c g e _ eq_refl) as Hc.
    pose proof (IH _ eq_refl) as Ht.
    destruct (convert_elem c (PV g) e) as [x|er| |]; cbn [bind] in H.
    + destruct Hc as (g' & -> & Hb).
      destruct (convert_all c (map PV gs) e) as [l|er| |]; cbn [bind] in H; subst r.
      * destruct Ht as (gs' & -> & Hf). exists (g' :: gs'). split; [reflexivity|].
        constructor; assumption.
      * intros l' F. inversion F; subst. exact (Ht _ H3).
      * intros l' F. inversion F; subst. exact (Ht _ H3).
      * intros l' F. inversion F; subst. exact (Ht _ H3).
    + subst r. intros l' F. inversion F; subst. exact (Hc _ H1).
    + subst r. intros l' F. inversion F; subst. exact (Hc _ H1).
    + subst r. intros l' F. inversion F; subst. exact (Hc _ H1).
Qed.

(* ---- writes ---- *)

(* The value handed to TagWrite, in a provider whose heap already holds the
   array of a slice made for the call. *)
Definition hands (p : prov) (v : given) (pv : pval) : Prop :=
  match v with
  | GiveOne g => pv = PV g
  | GiveMany e l => exists a, pv = PS e a 0 (length l) /\
      (a < length (pv_heap p))%nat /\ nth a (pv_heap p) [] = map PV l /\
      (forall k e2 o2 n2, mget (pv_data p) k <> Some (PS e2 a o2 n2)) /\
      (forall k e1 a1 o1 n1 e2 o2 n2, mget (pv_data p) k = Some (PS e1 a1 o1 n1) ->
         ~ In (PS e2 a o2 n2) (elems (pv_heap p) a1 o1 n1))
  end.

Lemma hands_elems : forall p (e : elemt) l a, nth a (pv_heap p) [] = map PV l ->
  elems (pv_heap p) a 0 (length l) = map PV l.
Proof.
  intros p e l a H. unfold elems. rewrite H. cbn [skipn].
  rewrite <- (map_length PV l). apply firstn_all.
Qed.

Lemma hands_see : forall p v pv d, hands p v pv -> see (Datatypes.S d) (pv_heap p) pv = seen v.
Proof.
  intros p [g|e l] pv d H; cbn [hands] in H.
  - subst pv. reflexivity.
  - destruct H as (a & -> & _ & Hn & _). cbn [see seen].
    rewrite (hands_elems p e l a Hn). rewrite see_map_PV. reflexivity.
Qed.

Lemma shows_get : forall p k, shows p k = option_map (see 2 (pv_heap p)) (mget (pv_data p) k).
Proof. reflexivity. Qed.

Lemma shows_many : forall p k e l, shows p k = Some (VMany e l) ->
  exists a o n, mget (pv_data p) k = Some (PS e a o n) /\
    l = map (see 1 (pv_heap p)) (elems (pv_heap p) a o n).
Proof.
  intros p k e l H. rewrite shows_get in H.
  destruct (mget (pv_data p) k) as [[g|e' a o n]|]; cbn [option_map see] in H; try discriminate.
  assert (e' = e) as -> by congruence. exists a, o, n. split; [reflexivity|].
  assert (VMany e (map (see 1 (pv_heap p)) (elems (pv_heap p) a o n)) = VMany e l) as E
    by (cbn [see]; congruence). congruence.
Qed.

Lemma shows_one : forall p k g, shows p k = Some (VOne g) -> mget (pv_data p) k = Some (PV g).
Proof.
  intros p k g H. rewrite shows_get in H.
  destruct (mget (pv_data p) k) as [[g'|e' a o n]|]; cbn [option_map see] in H; try discriminate.
  congruence.
Qed.

Lemma shows_ps : forall p k e a o n, mget (pv_data p) k = Some (PS e a o n) ->
  shows p k = Some (VMany e (map (see 1 (pv_heap p)) (elems (pv_heap p) a o n))).
Proof. intros p k e a o n H. rewrite shows_get, H. reflexivity. Qed.

Lemma writes_elem_inv : forall m t b i v m', elem_name (lower t) b i -> writes m t v m' ->
  exists e l x l', m b = Some (VMany e l) /\ 0 <= i < len l /\ becomes (seen v) e x /\
    replaced l (Z.to_nat i) x l' /\ updated m b (VMany e l') m'.
Proof.
  intros m t b i v m' He H.
  destruct H as [b' i' e l x l' m' He' | e l l0 l' m' Hp | m' Hp].
  - destruct (elem_name_inj _ _ _ _ _ He He') as [-> ->].
    exists e, l, x, l'. auto 10.
  - destruct (Hp _ _ He).
  - destruct (Hp _ _ He).
Qed.

Lemma writes_plain_inv : forall m t v m', plain_name (lower t) -> writes m t v m' ->
  (exists e l l0 l', m (lower t) = Some (VMany e l) /\ v = GiveMany EAny l0 /\
     Forall2 (fun g x => becomes (VOne g) e x) l0 l' /\
     updated m (lower t) (VMany e l') m') \/
  (~ (exists e l l0, m (lower t) = Some (VMany e l) /\ v = GiveMany EAny l0) /\
   updated m (lower t) (seen v) m').
Proof.
  intros m t v m' Hp H.
  destruct H as [b' i' e l x l' m' He' | e l l0 l' m' _ | m' _].
  - destruct (Hp _ _ He').
  - left. exists e, l, l0, l'. auto 10.
  - right. auto.
Qed.

Lemma separate_set_elem : forall p b e a o n i x v,
  separate p -> mget (pv_data p) b = Some (PS e a o n) -> (i < n)%nat ->
  hands p v x \/ (exists g, x = PV g) ->
  separate (Prov (pv_data p) (harr_set (pv_heap p) a (o + i) x)) /\
  (forall k, k <> b -> shows (Prov (pv_data p) (harr_set (pv_heap p) a (o + i) x)) k = shows p k) /\
  shows (Prov (pv_data p) (harr_set (pv_heap p) a (o + i) x)) b =
    Some (VMany e (setn (map (see 1 (pv_heap p)) (elems (pv_heap p) a o n)) i
                        (see 1 (pv_heap p) x))).
Proof.
  intros p b e a o n i x v (S1 & S2 & S3) Hb Hi Hx.
  destruct (S1 _ _ _ _ _ Hb) as [Ha Ho].
  assert (forall e' a' o' n', x = PS e' a' o' n' -> a' <> a /\ (a' < length (pv_heap p))%nat /\
            (forall k2 e2 o2 n2, mget (pv_data p) k2 <> Some (PS e2 a' o2 n2)) /\
            Forall (fun y => exists g, y = PV g) (elems (pv_heap p) a' o' n')) as Hxs.
  { intros e' a' o' n' ->. destruct Hx as [Hx|(g & Hx)]; [|discriminate].
    destruct v as [g|ev lv]; cbn [hands] in Hx; [discriminate|].
    destruct Hx as (a0 & E & L & N & T & _).
    assert (e' = ev /\ a' = a0 /\ o' = O /\ n' = length lv) as (-> & -> & -> & ->)
      by (repeat split; congruence).
    split; [intros ->; exact (T _ _ _ _ Hb)|]. split; [exact L|]. split; [exact T|].
    rewrite (hands_elems p ev lv a0 N). apply Forall_forall. intros y Hy.
    apply in_map_iff in Hy as (g & <- & _). exists g. reflexivity. }
  (* nothing but array a changes *)
  assert (forall k e1 a1 o1 n1, mget (pv_data p) k = Some (PS e1 a1 o1 n1) -> k <> b -> a1 <> a) as Hne.
  { intros k e1 a1 o1 n1 Hk Hkb ->. apply Hkb. exact (S2 _ _ _ _ _ _ _ _ _ Hk Hb). }
  assert (forall k e1 a1 o1 n1 e' a' o' n', mget (pv_data p) k = Some (PS e1 a1 o1 n1) ->
            In (PS e' a' o' n') (elems (pv_heap p) a1 o1 n1) -> a' <> a) as Hnest.
  { intros k e1 a1 o1 n1 e' a' o' n' Hk Hin ->.
    destruct (S3 _ _ _ _ _ _ _ _ _ Hk Hin) as (_ & T & _). exact (T _ _ _ _ Hb). }
  set (h' := harr_set (pv_heap p) a (o + i) x).
  assert (elems h' a o n = setn (elems (pv_heap p) a o n) i x) as Hset
    by (apply elems_set_same; assumption).
  split; [|split].
  - split; [|split]; cbn [pv_data pv_heap].
    + intros k e1 a1 o1 n1 Hk. destruct (S1 _ _ _ _ _ Hk) as [L1 L2].
      unfold h'. rewrite harr_set_length, harr_set_nth_length. auto.
    + exact S2.
    + intros k e1 a1 o1 n1 e' a' o' n' Hk Hin.
      destruct (list_eq_dec Z.eq_dec k b) as [->|Nk].
      * assert (PS e1 a1 o1 n1 = PS e a o n) as E by congruence.
        injection E as -> -> -> ->. rewrite Hset in Hin.
        apply in_setn in Hin as [Hin|Hin].
        -- symmetry in Hin. destruct (Hxs _ _ _ _ Hin) as (N & L & T & F).
           unfold h'. rewrite harr_set_length. split; [exact L|]. split; [exact T|].
           rewrite elems_set_other by exact N. exact F.
        -- destruct (S3 _ _ _ _ _ _ _ _ _ Hb Hin) as (L & T & F).
           unfold h'. rewrite harr_set_length. split; [exact L|]. split; [exact T|].
           rewrite elems_set_other by exact (Hnest _ _ _ _ _ _ _ _ _ Hb Hin). exact F.
      * unfold h' in Hin. rewrite elems_set_other in Hin by exact (Hne _ _ _ _ _ Hk Nk).
        destruct (S3 _ _ _ _ _ _ _ _ _ Hk Hin) as (L & T & F).
        unfold h'. rewrite harr_set_length. split; [exact L|]. split; [exact T|].
        rewrite elems_set_other by exact (Hnest _ _ _ _ _ _ _ _ _ Hk Hin). exact F.
  - intros k Nk. rewrite !shows_get. cbn [pv_data pv_heap].
    destruct (mget (pv_data p) k) as [w|] eqn:Hk; [|reflexivity].
    cbn [option_map]. f_equal. apply see2_ext.
    + intros e1 a1 o1 n1 ->. apply elems_set_other. exact (Hne _ _ _ _ _ Hk Nk).
    + intros e1 a1 o1 n1 e' a' o' n' -> Hin. apply elems_set_other.
      exact (Hnest _ _ _ _ _ _ _ _ _ Hk Hin).
  - rewrite (shows_ps (Prov (pv_data p) h') b e a o n Hb).
    cbn [pv_heap pv_data]. rewrite Hset, map_setn. f_equal. f_equal.
    assert (see 1 h' x = see 1 (pv_heap p) x) as ->.
    { apply see1_ext. intros e' a' o' n' E. apply elems_set_other.
      exact (proj1 (Hxs _ _ _ _ E)). }
    apply setn_map_ext. intros j y Hj Hy. apply see1_ext.
    intros e' a' o' n' ->. apply elems_set_other.
    apply (Hnest _ _ _ _ _ _ _ _ _ Hb (nth_error_In _ _ Hy)).
Qed.

(* Storing under a name a value no other tag refers to. *)
Lemma separate_store : forall p k v h x,
  separate p -> h = pv_heap p ++ x ->
  (forall e a o n, v = PS e a o n -> (a < length h)%nat /\ (o + n <= length (nth a h []))%nat /\
     (forall k2 e2 o2 n2, mget (pv_data p) k2 <> Some (PS e2 a o2 n2)) /\
     (forall k2 e1 a1 o1 n1 e2 o2 n2, mget (pv_data p) k2 = Some (PS e1 a1 o1 n1) ->
        ~ In (PS e2 a o2 n2) (elems (pv_heap p) a1 o1 n1)) /\
     Forall (fun y => exists g, y = PV g) (elems h a o n)) ->
  separate (Prov (mset (pv_data p) k v) h) /\
  (forall k', k' <> k -> shows (Prov (mset (pv_data p) k v) h) k' = shows p k') /\
  shows (Prov (mset (pv_data p) k v) h) k = Some (see 2 h v).
Proof.
  intros p k v h x (S1 & S2 & S3) Eh Hv.
  assert (forall a o n, (a < length (pv_heap p))%nat -> elems h a o n = elems (pv_heap p) a o n) as Happ.
  { intros a o n L. rewrite Eh. apply elems_app. exact L. }
  assert (length (pv_heap p) <= length h)%nat as Hl by (rewrite Eh, app_length; lia).
  assert (forall k', mget (mset (pv_data p) k v) k' = if bseq k k' then Some v else mget (pv_data p) k') as Hm
    by (intros; apply mget_mset).
  split; [|split].
  - split; [|split]; cbn [pv_data pv_heap].
    + intros k1 e a o n H. rewrite Hm in H. destruct (bseq k k1).
      * assert (v = PS e a o n) as E by congruence. destruct (Hv _ _ _ _ E) as (L & O & _). auto.
      * destruct (S1 _ _ _ _ _ H) as [L O]. split; [lia|]. rewrite Eh, app_nth1 by exact L. exact O.
    + intros k1 k2 e1 e2 a o1 o2 n1 n2 H1 H2. rewrite Hm in H1, H2.
      destruct (bseq k k1) eqn:E1, (bseq k k2) eqn:E2.
      * apply bseq_spec in E1, E2. congruence.
      * assert (v = PS e1 a o1 n1) as E by congruence.
        destruct (Hv _ _ _ _ E) as (_ & _ & T & _). destruct (T _ _ _ _ H2).
      * assert (v = PS e2 a o2 n2) as E by congruence.
        destruct (Hv _ _ _ _ E) as (_ & _ & T & _). destruct (T _ _ _ _ H1).
      * exact (S2 _ _ _ _ _ _ _ _ _ H1 H2).
    + intros k1 e a o n e' a' o' n' H Hin. rewrite Hm in H. destruct (bseq k k1) eqn:E1.
      * assert (v = PS e a o n) as E by congruence.
        destruct (Hv _ _ _ _ E) as (_ & _ & _ & _ & F).
        rewrite Forall_forall in F. destruct (F _ Hin) as (g & Hg). discriminate.
      * assert (a < length (pv_heap p))%nat as L by exact (proj1 (S1 _ _ _ _ _ H)).
        rewrite Happ in Hin by exact L.
        destruct (S3 _ _ _ _ _ _ _ _ _ H Hin) as (L' & T & F).
        split; [lia|]. split; [|rewrite Happ by exact L'; exact F].
        intros k2 e2 o2 n2 H2. rewrite Hm in H2. destruct (bseq k k2).
        -- assert (v = PS e2 a' o2 n2) as E by congruence.
           destruct (Hv _ _ _ _ E) as (_ & _ & _ & N & _). exact (N _ _ _ _ _ _ _ _ H Hin).
        -- exact (T _ _ _ _ H2).
  - intros k' Nk. rewrite !shows_get. cbn [pv_data pv_heap].
    rewrite mget_mset_other by exact Nk.
    destruct (mget (pv_data p) k') as [w|] eqn:Hk; [|reflexivity].
    cbn [option_map]. f_equal. apply see2_ext.
    + intros e a o n ->. apply Happ. exact (proj1 (S1 _ _ _ _ _ Hk)).
    + intros e a o n e' a' o' n' -> Hin. apply Happ.
      exact (proj1 (S3 _ _ _ _ _ _ _ _ _ Hk Hin)).
  - rewrite shows_get. cbn [pv_data pv_heap]. rewrite mget_mset_same. reflexivity.
Qed.

Lemma tag_write_spec : forall c p t v pv p' r,
  separate p -> hands p v pv -> tag_write c p t pv = (p', r) ->
  separate p' /\
  match r with
  | Ok _ => writes (shows p) t v (shows p')
  | _ => p' = p /\ forall m', ~ writes (shows p) t v m'
  end.
Proof.
  intros c p t v pv p' r Hs Hh H. unfold tag_write in H.
  destruct (parse_element_tag (lower t)) as [[b i] has] eqn:Ep.
  apply parse_cases in Ep. destruct has.
  - (* one element *)
    destruct (mget (pv_data p) b) as [[g|e a o n]|] eqn:Eb.
    + assert (p' = p /\ r = Err EMsg) as [-> ->] by (split; congruence).
      split; [exact Hs|]. split; [reflexivity|]. intros m' W.
      destruct (writes_elem_inv _ _ _ _ _ _ Ep W) as (e & l & x & l' & Hm & _).
      apply shows_many in Hm as (a & o & n & Hm & _). congruence.
    + destruct (Hs) as (S1 & _ & _). destruct (S1 _ _ _ _ _ Eb) as [La Lo].
      assert (len (map (see 1 (pv_heap p)) (elems (pv_heap p) a o n)) = Z.of_nat n) as Hlen.
      { unfold len. rewrite map_length, elems_length by exact Lo. reflexivity. }
      destruct ((i <? 0) || (Z.of_nat n <=? i)) eqn:Ei.
      { assert (p' = p /\ r = Err EMsg) as [-> ->] by (split; congruence).
        split; [exact Hs|]. split; [reflexivity|]. intros m' W.
        destruct (writes_elem_inv _ _ _ _ _ _ Ep W) as (e' & l & x & l' & Hm & Hi & _).
        rewrite (shows_ps _ _ _ _ _ _ Eb) in Hm.
        assert (l = map (see 1 (pv_heap p)) (elems (pv_heap p) a o n)) as -> by congruence.
        lia. }
      assert (0 <= i < Z.of_nat n) as Hi by lia.
      assert (exists x, convert_elem c pv e = x) as (cr & Ec) by (eexists; reflexivity).
      assert (match cr with
              | Ok x => becomes (seen v) e (see 1 (pv_heap p) x) /\ (hands p v x \/ exists g, x = PV g)
              | _ => forall x, ~ becomes (seen v) e x
              end) as Hc.
      { destruct v as [g|ev lv]; cbn [hands] in Hh.
        - subst pv. pose proof (convert_one c g e _ Ec) as Hc. destruct cr as [x|er| |]; auto.
          destruct Hc as (g' & -> & Hb). split; [exact Hb|]. right. exists g'. reflexivity.
        - pose proof (hands_see p (GiveMany ev lv) pv O Hh) as Hsee.
          destruct Hh as (a0 & -> & L0 & N0 & T0 & I0). cbn [convert_elem] in Ec.
          destruct e as [k|]; subst cr.
          + intros x [_ (g & g' & E & _)]. discriminate.
          + split.
            * split; [discriminate|]. exact Hsee.
            * left. exists a0. auto 10. }
      rewrite Ec in H. destruct cr as [x|er| |].
      * assert (p' = Prov (pv_data p) (harr_set (pv_heap p) a (o + Z.to_nat i) x) /\ r = Ok tt)
          as [-> ->] by (split; congruence).
        destruct Hc as [Hb Hx].
        destruct (separate_set_elem p b e a o n (Z.to_nat i) x v Hs Eb ltac:(lia) Hx) as (H1 & H2 & H3).
        split; [exact H1|].
        eapply w_elem with (b := b) (i := i); [exact Ep|exact (shows_ps _ _ _ _ _ _ Eb)| | | |].
        -- rewrite Hlen. exact Hi.
        -- exact Hb.
        -- apply replaced_setn. rewrite map_length, elems_length by exact Lo. lia.
        -- split; [exact H3|exact H2].
      * assert (p' = p /\ r = Err er) as [-> ->] by (split; congruence).
        split; [exact Hs|]. split; [reflexivity|]. intros m' W.
        destruct (writes_elem_inv _ _ _ _ _ _ Ep W) as (e' & l & x & l' & Hm & _ & Hb & _).
        rewrite (shows_ps _ _ _ _ _ _ Eb) in Hm.
        assert (e' = e) as -> by congruence. exact (Hc _ Hb).
      * assert (p' = p /\ r = Panic) as [-> ->] by (split; congruence).
        split; [exact Hs|]. split; [reflexivity|]. intros m' W.
        destruct (writes_elem_inv _ _ _ _ _ _ Ep W) as (e' & l & x & l' & Hm & _ & Hb & _).
        rewrite (shows_ps _ _ _ _ _ _ Eb) in Hm.
        assert (e' = e) as -> by congruence. exact (Hc _ Hb).
      * assert (p' = p /\ r = OutOfFuel) as [-> ->] by (split; congruence).
        split; [exact Hs|]. split; [reflexivity|]. intros m' W.
        destruct (writes_elem_inv _ _ _ _ _ _ Ep W) as (e' & l & x & l' & Hm & _ & Hb & _).
        rewrite (shows_ps _ _ _ _ _ _ Eb) in Hm.
        assert (e' = e) as -> by congruence. exact (Hc _ Hb).
    + assert (p' = p /\ r = Err EMsg) as [-> ->] by (split; congruence).
      split; [exact Hs|]. split; [reflexivity|]. intros m' W.
      destruct (writes_elem_inv _ _ _ _ _ _ Ep W) as (e & l & x & l' & Hm & _).
      apply shows_many in Hm as (a & o & n & Hm & _). congruence.
  - (* the whole tag *)
    destruct Ep as [-> Hp].
    assert (tag_write_plain :
      p' = Prov (mset (pv_data p) (lower t) pv) (pv_heap p) -> r = Ok tt ->
      ~ (exists e l l0, shows p (lower t) = Some (VMany e l) /\ v = GiveMany EAny l0) ->
      separate p' /\ writes (shows p) t v (shows p')).
    { intros -> -> Hno.
      destruct (separate_store p (lower t) pv (pv_heap p) [] Hs (eq_sym (app_nil_r _)))
        as (H1 & H2 & H3).
      { intros e a o n ->. destruct v as [g|ev lv]; cbn [hands] in Hh; [discriminate|].
        destruct Hh as (a0 & E & L0 & N0 & T0 & I0).
        assert (e = ev /\ a = a0 /\ o = O /\ n = length lv) as (-> & -> & -> & ->)
          by (repeat split; congruence).
        split; [exact L0|]. split; [rewrite N0, map_length; lia|]. split; [exact T0|].
        split; [exact I0|]. rewrite (hands_elems p ev lv a0 N0). apply Forall_forall.
        intros y Hy. apply in_map_iff in Hy as (g & <- & _). exists g. reflexivity. }
      split; [exact H1|]. apply w_plain; [exact Hp|exact Hno|].
      split; [|exact H2]. rewrite H3. f_equal. exact (hands_see p v pv 1 Hh). }
    destruct (mget (pv_data p) (lower t)) as [[g|e a o n]|] eqn:Eb.
    + destruct tag_write_plain as [H1 H2]; [congruence|congruence| |].
      { intros (e & l & l0 & Hm & _). apply shows_many in Hm as (a & o & n & Hm & _). congruence. }
      split; [exact H1|]. assert (r = Ok tt) as -> by congruence. exact H2.
    + assert ((exists a' o' n', pv = PS EAny a' o' n') \/ forall a' o' n', pv <> PS EAny a' o' n')
        as [(a' & o' & n' & ->)|Hno].
      { destruct pv as [g|[k|] a' o' n']; [right; discriminate|right; discriminate|].
        left. exists a', o', n'. reflexivity. }
      * destruct v as [g|ev lv]; cbn [hands] in Hh; [discriminate|].
        destruct Hh as (a0 & E & L0 & N0 & T0 & I0).
        assert (ev = EAny /\ a' = a0 /\ o' = O /\ n' = length lv) as (-> & -> & -> & ->)
          by (repeat split; congruence).
        rewrite (hands_elems p EAny lv a0 N0) in H.
        pose proof (convert_all_spec c e lv _ eq_refl) as Hc.
        assert (forall m', writes (shows p) t (GiveMany EAny lv) m' ->
                  exists l', Forall2 (fun g x => becomes (VOne g) e x) lv l') as Winv.
        { intros m' W. apply writes_plain_inv in W; [|exact Hp].
          pose proof (shows_ps _ _ _ _ _ _ Eb) as Hsh.
          destruct W as [(e1 & l & l0 & l' & Hm & Hv & F & _)|[Hno _]].
          - assert (e1 = e) as -> by congruence. assert (l0 = lv) as -> by congruence.
            exists l'. exact F.
          - exfalso. apply Hno. eexists e, _, lv. split; [exact Hsh|reflexivity]. }
        destruct (convert_all c (map PV lv) e) as [l|er| |].
        -- assert (p' = Prov (mset (pv_data p) (lower t) (PS e (length (pv_heap p)) 0 (length l)))
                            (pv_heap p ++ [l]) /\ r = Ok tt) as [-> ->] by (split; congruence).
           destruct Hc as (gs' & -> & F).
           assert (nth (length (pv_heap p)) (pv_heap p ++ [map PV gs']) [] = map PV gs') as Hn.
           { rewrite app_nth2, Nat.sub_diag by lia. reflexivity. }
           assert (elems (pv_heap p ++ [map PV gs']) (length (pv_heap p)) 0 (length (map PV gs'))
                   = map PV gs') as He.
           { unfold elems. rewrite Hn. cbn [skipn]. apply firstn_all. }
           destruct Hs as (S1 & S2 & S3).
           destruct (separate_store p (lower t) (PS e (length (pv_heap p)) 0 (length (map PV gs')))
                       (pv_heap p ++ [map PV gs']) [map PV gs']
                       (conj S1 (conj S2 S3)) eq_refl) as (H1 & H2 & H3).
           { intros e1 a1 o1 n1 E1.
             assert (e1 = e /\ a1 = length (pv_heap p) /\ o1 = O /\ n1 = length (map PV gs'))
               as (-> & -> & -> & ->) by (repeat split; congruence).
             split; [rewrite app_length; cbn [length]; lia|].
             split; [rewrite Hn; lia|].
             split; [intros k2 e2 o2 n2 H2; pose proof (proj1 (S1 _ _ _ _ _ H2)); lia|].
             split.
             - intros k2 e1 a1 o1 n1 e2 o2 n2 H2 Hin.
               pose proof (proj1 (S3 _ _ _ _ _ _ _ _ _ H2 Hin)). lia.
             - rewrite He. apply Forall_forall.
               intros y Hy. apply in_map_iff in Hy as (g & <- & _). exists g. reflexivity. }
           split; [exact H1|].
           eapply w_keep; [exact Hp|exact (shows_ps _ _ _ _ _ _ Eb)|reflexivity|exact F|].
           split; [|exact H2]. rewrite H3.
           change (Some (VMany e (map (see 1 (pv_heap p ++ [map PV gs']))
                     (elems (pv_heap p ++ [map PV gs']) (length (pv_heap p)) 0 (length (map PV gs')))))
                   = Some (VMany e (map VOne gs'))).
           rewrite He, see_map_PV. reflexivity.
        -- assert (p' = p /\ r = Err er) as [-> ->] by (split; congruence).
           split; [exact Hs|]. split; [reflexivity|]. intros m' W.
           destruct (Winv m' W) as (l' & F). exact (Hc l' F).
        -- assert (p' = p /\ r = Panic) as [-> ->] by (split; congruence).
           split; [exact Hs|]. split; [reflexivity|]. intros m' W.
           destruct (Winv m' W) as (l' & F). exact (Hc l' F).
        -- assert (p' = p /\ r = OutOfFuel) as [-> ->] by (split; congruence).
           split; [exact Hs|]. split; [reflexivity|]. intros m' W.
           destruct (Winv m' W) as (l' & F). exact (Hc l' F).
      * assert (p' = Prov (mset (pv_data p) (lower t) pv) (pv_heap p) /\ r = Ok tt) as [E1 E2].
        { destruct pv as [g|[k|] a' o' n']; [split; congruence|split; congruence|].
          destruct (Hno a' o' n' eq_refl). }
        destruct tag_write_plain as [H1 H2]; [exact E1|exact E2| |].
        { intros (e1 & l & l0 & _ & ->). cbn [hands] in Hh.
          destruct Hh as (a0 & -> & _). exact (Hno _ _ _ eq_refl). }
        split; [exact H1|]. rewrite E2. exact H2.
    + destruct tag_write_plain as [H1 H2]; [congruence|congruence| |].
      { intros (e & l & l0 & Hm & _). apply shows_many in Hm as (a & o & n & Hm & _). congruence. }
      split; [exact H1|]. assert (r = Ok tt) as -> by congruence. exact H2.
Qed.

(* The slice made for the call. *)
Lemma alloc_ok : forall p e l, separate p ->
  let p0 := Prov (pv_data p) (pv_heap p ++ [map PV l]) in
  separate p0 /\ (forall k, shows p0 k = shows p k) /\
  hands p0 (GiveMany e l) (PS e (length (pv_heap p)) 0 (length l)).
Proof.
  intros p e l (S1 & S2 & S3) p0.
  assert (forall a o n, (a < length (pv_heap p))%nat ->
            elems (pv_heap p0) a o n = elems (pv_heap p) a o n) as Happ
    by (intros; apply elems_app; assumption).
  split; [|split].
  - split; [|split]; cbn [p0 pv_data pv_heap].
    + intros k e1 a o n H. destruct (S1 _ _ _ _ _ H) as [L O].
      rewrite app_length, app_nth1 by exact L. split; [lia|exact O].
    + exact S2.
    + intros k e1 a o n e' a' o' n' H Hin.
      change (In (PS e' a' o' n') (elems (pv_heap p0) a o n)) in Hin.
      rewrite Happ in Hin by exact (proj1 (S1 _ _ _ _ _ H)).
      destruct (S3 _ _ _ _ _ _ _ _ _ H Hin) as (L & T & F).
      rewrite app_length. split; [lia|]. split; [exact T|].
      change (Forall (fun x => exists g, x = PV g) (elems (pv_heap p0) a' o' n')).
      rewrite Happ by exact L. exact F.
  - intros k. rewrite !shows_get. cbn [p0 pv_data].
    destruct (mget (pv_data p) k) as [w|] eqn:Hk; [|reflexivity].
    cbn [option_map]. f_equal. apply see2_ext.
    + intros e1 a o n ->. apply Happ. exact (proj1 (S1 _ _ _ _ _ Hk)).
    + intros e1 a o n e' a' o' n' -> Hin. apply Happ.
      exact (proj1 (S3 _ _ _ _ _ _ _ _ _ Hk Hin)).
  - exists (length (pv_heap p)). split; [reflexivity|].
    cbn [p0 pv_heap pv_data]. split; [rewrite app_length; cbn [length]; lia|].
    split; [rewrite app_nth2, Nat.sub_diag by lia; reflexivity|].
    split; [intros k2 e2 o2 n2 H2; pose proof (proj1 (S1 _ _ _ _ _ H2)); lia|].
    intros k2 e1 a1 o1 n1 e2 o2 n2 H2 Hin.
    change (In (PS e2 (length (pv_heap p)) o2 n2) (elems (pv_heap p0) a1 o1 n1)) in Hin.
    rewrite Happ in Hin by exact (proj1 (S1 _ _ _ _ _ H2)).
    pose proof (proj1 (S3 _ _ _ _ _ _ _ _ _ H2 Hin)). lia.
Qed.

Lemma becomes_store_ext : forall m m2 t v m', (forall k, m2 k = m k) ->
  writes m2 t v m' -> writes m t v m'.
Proof.
  intros m m2 t v m' E W.
  destruct W as [b i e l x l' m' He Hm Hi Hb Hr [Hu1 Hu2] | e l l0 l' m' Hp Hm Hv F [Hu1 Hu2] | m' Hp Hno [Hu1 Hu2]].
  - eapply w_elem; [exact He|rewrite <- E; exact Hm|exact Hi|exact Hb|exact Hr|].
    split; [exact Hu1|]. intros k' N. rewrite <- E. exact (Hu2 k' N).
  - eapply w_keep; [exact Hp|rewrite <- E; exact Hm|exact Hv|exact F|].
    split; [exact Hu1|]. intros k' N. rewrite <- E. exact (Hu2 k' N).
  - apply w_plain; [exact Hp|intros (e & l & l0 & H & Hv); apply Hno; exists e, l, l0; rewrite E; auto|].
    split; [exact Hu1|]. intros k' N. rewrite <- E. exact (Hu2 k' N).
Qed.

Lemma write_given_spec : forall c p t v p' r,
  separate p -> write_given c p t v = (p', r) ->
  separate p' /\
  match r with
  | Ok _ => writes (shows p) t v (shows p')
  | _ => (forall k, shows p' k = shows p k) /\ forall m', ~ writes (shows p) t v m'
  end.
Proof.
  intros c p t v p' r Hs H. destruct v as [g|e l]; cbn [write_given] in H.
  - pose proof (tag_write_spec c p t (GiveOne g) (PV g) p' r Hs eq_refl H) as [H1 H2].
    split; [exact H1|]. destruct r; [exact H2| | |]; destruct H2 as [-> H2]; auto.
  - destruct (alloc_ok p e l Hs) as (Hs0 & Hsh & Hh).
    pose proof (tag_write_spec c _ t (GiveMany e l) _ p' r Hs0 Hh H) as [H1 H2].
    split; [exact H1|].
    destruct r; [exact (becomes_store_ext _ _ _ _ _ Hsh H2)| | |];
      destruct H2 as [-> H2]; (split; [exact Hsh|]); intros m' W; apply (H2 m');
      apply (becomes_store_ext (shows (Prov (pv_data p) (pv_heap p ++ [map PV l]))) (shows p));
      auto; intros k; symmetry; apply Hsh.
Qed.

(* ---- reads ---- *)

Lemma see_nested : forall p k e a o n x, separate p ->
  mget (pv_data p) k = Some (PS e a o n) -> In x (elems (pv_heap p) a o n) ->
  see 2 (pv_heap p) x = see 1 (pv_heap p) x.
Proof.
  intros p k e a o n x (S1 & S2 & S3) Hk Hin.
  destruct x as [g|e' a' o' n']; [reflexivity|].
  destruct (S3 _ _ _ _ _ _ _ _ _ Hk Hin) as (_ & _ & F).
  change (VMany e' (map (see 1 (pv_heap p)) (elems (pv_heap p) a' o' n')) =
          VMany e' (map (see 0 (pv_heap p)) (elems (pv_heap p) a' o' n'))).
  f_equal. apply map_ext_in. intros y Hy. rewrite Forall_forall in F.
  destruct (F y Hy) as (g & ->). reflexivity.
Qed.

Lemma reads_elem_inv : forall m t q b i v, elem_name (lower t) b i -> reads m t q v ->
  exists e l, m b = Some (VMany e l) /\ 0 <= i < len l /\
    ((q = 1 /\ nth_error l (Z.to_nat i) = Some v) \/
     (q <> 1 /\ 0 <= q /\ i + q <= len l /\
      v = VMany e (firstn (Z.to_nat q) (skipn (Z.to_nat i) l)))).
Proof.
  intros m t q b i v He H.
  destruct H as [g Hp _ | e l Hp _ _ | b' i' e l v He' Hm Hi Hq Hv | b' i' e l He' Hm Hi N Hq Hl].
  - destruct (Hp _ _ He).
  - destruct (Hp _ _ He).
  - destruct (elem_name_inj _ _ _ _ _ He He') as [-> ->]. exists e, l. split; [exact Hm|].
    assert (Z.to_nat i' < length l)%nat as L by (apply nth_error_Some; congruence).
    split; [unfold len; lia|]. left. auto.
  - destruct (elem_name_inj _ _ _ _ _ He He') as [-> ->]. exists e, l. split; [exact Hm|].
    split; [exact Hi|]. right. auto.
Qed.

Lemma reads_plain_inv : forall m t q v, plain_name (lower t) -> reads m t q v ->
  (exists g, m (lower t) = Some (VOne g) /\ v = VOne g) \/
  (exists e l, m (lower t) = Some (VMany e l) /\ 0 <= q <= len l /\
     v = VMany e (firstn (Z.to_nat q) l)).
Proof.
  intros m t q v Hp H.
  destruct H as [g _ Hm | e l _ Hm Hq | b' i' e l v He' | b' i' e l He'].
  - left. exists g. auto.
  - right. exists e, l. auto.
  - destruct (Hp _ _ He').
  - destruct (Hp _ _ He').
Qed.

Lemma map_see_firstn : forall h a o n q, (q <= n)%nat ->
  map (see 1 h) (elems h a o q) = firstn q (map (see 1 h) (elems h a o n)).
Proof.
  intros h a o n q H. rewrite firstn_map. unfold elems. rewrite firstn_firstn.
  replace (Init.Nat.min q n) with q by lia. reflexivity.
Qed.

Lemma map_see_skipn : forall h a o n i q, (i + q <= n)%nat ->
  map (see 1 h) (elems h a (o + i) q) = firstn q (skipn i (map (see 1 h) (elems h a o n))).
Proof.
  intros h a o n i q H. rewrite skipn_map, firstn_map. f_equal. unfold elems.
  rewrite skipn_firstn_comm, firstn_firstn.
  replace (Init.Nat.min q (n - i)) with q by lia. f_equal.
  clear. revert o. induction (nth a h []) as [|x l IH]; intros o.
  - rewrite !skipn_nil. reflexivity.
  - destruct o as [|o]; [reflexivity|]. cbn [plus skipn]. apply IH.
Qed.

Lemma tag_read_spec : forall p t q, separate p -> 0 <= q ->
  match tag_read p t q with
  | Ok x => reads (shows p) t q (see 2 (pv_heap p) x)
  | Err _ => forall v, ~ reads (shows p) t q v
  | _ => False
  end.
Proof.
  intros p t q Hs Hq. unfold tag_read. pose proof Hs as (S1 & S2 & S3).
  destruct (parse_element_tag (lower t)) as [[b i] has] eqn:Ep.
  apply parse_cases in Ep. destruct has.
  - destruct (mget (pv_data p) b) as [[g|e a o n]|] eqn:Eb.
    + intros v R. destruct (reads_elem_inv _ _ _ _ _ _ Ep R) as (e & l & Hm & _).
      apply shows_many in Hm as (a & o & n & Hm & _). congruence.
    + destruct (S1 _ _ _ _ _ Eb) as [La Lo].
      assert (len (map (see 1 (pv_heap p)) (elems (pv_heap p) a o n)) = Z.of_nat n) as Hlen.
      { unfold len. rewrite map_length, elems_length by exact Lo. reflexivity. }
      pose proof (shows_ps _ _ _ _ _ _ Eb) as Hsh.
      destruct ((i <? 0) || (Z.of_nat n <=? i)) eqn:Ei.
      { intros v R. destruct (reads_elem_inv _ _ _ _ _ _ Ep R) as (e' & l & Hm & Hi & _).
        assert (l = map (see 1 (pv_heap p)) (elems (pv_heap p) a o n)) as -> by congruence. lia. }
      destruct (Z.ltb_spec (Z.of_nat n) (i + q)) as [Hb|Hb].
      { intros v R. destruct (reads_elem_inv _ _ _ _ _ _ Ep R) as (e' & l & Hm & Hi & Hc).
        assert (l = map (see 1 (pv_heap p)) (elems (pv_heap p) a o n)) as -> by congruence.
        destruct Hc as [[-> Hc]|(_ & _ & Hc & _)]; lia. }
      destruct (Z.eqb_spec q 1) as [->|Nq].
      * destruct (nth_error (elems (pv_heap p) a o n) (Z.to_nat i)) as [x|] eqn:Ex.
        -- rewrite (see_nested _ _ _ _ _ _ _ Hs Eb (nth_error_In _ _ Ex)).
           eapply r_elem; [exact Ep|exact Hsh|lia|reflexivity|].
           rewrite nth_error_map, Ex. reflexivity.
        -- apply nth_error_None in Ex. rewrite elems_length in Ex by exact Lo. lia.
      * destruct (Z.ltb_spec q 0) as [Hn|_]; [lia|].
        change (see 2 (pv_heap p) (PS e a (o + Z.to_nat i) (Z.to_nat q))) with
          (VMany e (map (see 1 (pv_heap p)) (elems (pv_heap p) a (o + Z.to_nat i) (Z.to_nat q)))).
        rewrite (map_see_skipn _ a o n) by lia.
        eapply r_range; [exact Ep|exact Hsh|lia|exact Nq|lia|lia].
    + intros v R. destruct (reads_elem_inv _ _ _ _ _ _ Ep R) as (e & l & Hm & _).
      apply shows_many in Hm as (a & o & n & Hm & _). congruence.
  - destruct Ep as [-> Hp].
    destruct (mget (pv_data p) (lower t)) as [[g|e a o n]|] eqn:Eb.
    + apply r_one; [exact Hp|]. rewrite shows_get, Eb. reflexivity.
    + destruct (S1 _ _ _ _ _ Eb) as [La Lo].
      assert (len (map (see 1 (pv_heap p)) (elems (pv_heap p) a o n)) = Z.of_nat n) as Hlen.
      { unfold len. rewrite map_length, elems_length by exact Lo. reflexivity. }
      pose proof (shows_ps _ _ _ _ _ _ Eb) as Hsh.
      destruct (Z.leb_spec q (Z.of_nat n)) as [Hb|Hb].
      * destruct (Z.ltb_spec q 0) as [Hn|_]; [lia|].
        change (see 2 (pv_heap p) (PS e a o (Z.to_nat q))) with
          (VMany e (map (see 1 (pv_heap p)) (elems (pv_heap p) a o (Z.to_nat q)))).
        rewrite (map_see_firstn _ a o n) by lia.
        apply r_many; [exact Hp|exact Hsh|lia].
      * intros v R. apply reads_plain_inv in R as [(g & Hm & _)|(e' & l & Hm & Hl & _)]; [| |exact Hp].
        -- congruence.
        -- assert (l = map (see 1 (pv_heap p)) (elems (pv_heap p) a o n)) as -> by congruence. lia.
    + intros v R. apply reads_plain_inv in R as [(g & Hm & _)|(e' & l & Hm & Hl & _)]; [| |exact Hp].
      * apply shows_one in Hm. congruence.
      * apply shows_many in Hm as (a & o & n & Hm & _). congruence.
Qed.

(* ---- histories ---- *)

Lemma reads_fun : forall m t q v v', reads m t q v -> reads m t q v' -> v = v'.
Proof.
  intros m t q v v' H H'.
  destruct H as [g Hp Hm | e l Hp Hm Hq | b i e l v He Hm Hi Hq Hv | b i e l He Hm Hi N Hq Hl].
  - apply reads_plain_inv in H' as [(g' & H1 & ->)|(e' & l' & H1 & _ & ->)]; [| |exact Hp]; congruence.
  - apply reads_plain_inv in H' as [(g' & H1 & ->)|(e' & l' & H1 & _ & ->)]; [| |exact Hp]; congruence.
  - destruct (reads_elem_inv _ _ _ _ _ _ He H') as (e' & l' & H1 & _ & [[_ H2]|[H2 _]]); congruence.
  - destruct (reads_elem_inv _ _ _ _ _ _ He H') as (e' & l' & H1 & _ & [[H2 _]|(_ & _ & _ & ->)]);
      congruence.
Qed.

Lemma reads_ext : forall m m' t q v, (forall k, m' k = m k) -> reads m t q v -> reads m' t q v.
Proof.
  intros m m' t q v E H.
  destruct H as [g Hp Hm | e l Hp Hm Hq | b i e l v He Hm Hi Hq Hv | b i e l He Hm Hi N Hq Hl].
  - apply r_one; [exact Hp|rewrite E; exact Hm].
  - apply r_many; [exact Hp|rewrite E; exact Hm|exact Hq].
  - eapply r_elem; [exact He|rewrite E; exact Hm|exact Hi|exact Hq|exact Hv].
  - eapply r_range; [exact He|rewrite E; exact Hm|exact Hi|exact N|exact Hq|exact Hl].
Qed.

Lemma run_history : forall c ws p p' os, separate p -> run_writes c p ws = (p', os) ->
  separate p' /\ history (shows p) ws os (shows p').
Proof.
  intros c ws; induction ws as [|[t v] ws IH]; intros p p' os Hs H; cbn [run_writes] in H.
  - assert (p = p' /\ [] = os) as [<- <-] by (split; congruence).
    split; [exact Hs|]. apply h_nil. reflexivity.
  - destruct (write_given c p t v) as [p1 r] eqn:E1.
    destruct (run_writes c p1 ws) as [p2 os2] eqn:E2.
    assert (p2 = p' /\ is_ok r :: os2 = os) as [<- <-] by (split; congruence).
    destruct (write_given_spec c p t v p1 r Hs E1) as [Hs1 Hw].
    destruct (IH p1 p2 os2 Hs1 E2) as [Hs2 Hh]. split; [exact Hs2|].
    destruct r as [u|er| |]; cbn [is_ok].
    + exact (h_ok _ _ _ _ _ _ _ Hw Hh).
    + destruct Hw as [Hk Hn]. exact (h_fail _ _ _ _ _ _ _ Hn Hk Hh).
    + destruct Hw as [Hk Hn]. exact (h_fail _ _ _ _ _ _ _ Hn Hk Hh).
    + destruct Hw as [Hk Hn]. exact (h_fail _ _ _ _ _ _ _ Hn Hk Hh).
Qed.

Lemma writes_untouched : forall m t v m' k, writes m t v m' -> ~ touches t k -> m' k = m k.
Proof.
  intros m t v m' k W N.
  destruct W as [b i e l x l' m' He _ _ _ _ [_ Hu] | e l l0 l' m' _ _ _ _ [_ Hu] | m' _ _ [_ Hu]];
    apply Hu; intros ->; apply N.
  - right. exists i. exact He.
  - left. reflexivity.
  - left. reflexivity.
Qed.

Lemma history_untouched : forall ws m os m' k, history m ws os m' ->
  Forall (fun w => ~ touches (fst w) k) ws -> m' k = m k.
Proof.
  intros ws; induction ws as [|w ws IH]; intros m os m' k H F; inversion H as [? ? E1|? ? ? ? ? ? ? W1 Hh1|? ? ? ? ? ? ? N1 E1 Hh1]; subst.
  - auto.
  - apply Forall_cons_iff in F as [F1 F2].
    match goal with W : writes _ _ _ _, Hh : history _ _ _ _ |- _ =>
      rewrite (IH _ _ _ _ Hh F2); exact (writes_untouched _ _ _ _ _ W F1) end.
  - apply Forall_cons_iff in F as [F1 F2].
    match goal with Hk : forall k, _ k = m k, Hh : history ?m1 _ _ _ |- _ =>
      rewrite (IH m1 _ _ _ Hh F2); apply Hk end.
Qed.

Lemma separate_empty : separate prov_empty.
Proof.
  split; [|split]; intros; discriminate.
Qed.

Lemma run_writes_app : forall c ws1 ws2 p,
  fst (run_writes c p (ws1 ++ ws2)) = fst (run_writes c (fst (run_writes c p ws1)) ws2).
Proof.
  intros c ws1; induction ws1 as [|[t v] ws1 IH]; intros ws2 p; [reflexivity|].
  cbn [app run_writes]. destruct (write_given c p t v) as [p1 r].
  specialize (IH ws2 p1).
  destruct (run_writes c p1 (ws1 ++ ws2)) as [p2 os2].
  destruct (run_writes c p1 ws1) as [p3 os3]. cbn [fst] in *. exact IH.
Qed.

(* ---- what a write does to arrays handed out before ---- *)

Lemma tag_write_heap : forall c p t pv p' r, tag_write c p t pv = (p', r) ->
  (length (pv_heap p) <= length (pv_heap p'))%nat /\
  (forall a o n, (a < length (pv_heap p))%nat ->
     (forall b i e o' n', elem_name (lower t) b i -> mget (pv_data p) b <> Some (PS e a o' n')) ->
     elems (pv_heap p') a o n = elems (pv_heap p) a o n) /\
  (forall k e a o n, mget (pv_data p') k = Some (PS e a o n) ->
     mget (pv_data p) k = Some (PS e a o n) \/ pv = PS e a o n \/ (length (pv_heap p) <= a)%nat).
Proof.
  intros c p t pv p' r H. unfold tag_write in H.
  destruct (parse_element_tag (lower t)) as [[b i] has] eqn:Ep.
  apply parse_cases in Ep. destruct has.
  - destruct (mget (pv_data p) b) as [[g|e a o n]|] eqn:Eb.
    + assert (p' = p) as -> by congruence. auto.
    + destruct ((i <? 0) || (Z.of_nat n <=? i)).
      { assert (p' = p) as -> by congruence. auto. }
      destruct (convert_elem c pv e) as [x|er| |];
        [|assert (p' = p) as -> by congruence; auto..].
      assert (p' = Prov (pv_data p) (harr_set (pv_heap p) a (o + Z.to_nat i) x)) as -> by congruence.
      cbn [pv_data pv_heap]. rewrite harr_set_length. split; [lia|]. split; [|auto].
      intros a1 o1 n1 L N. apply elems_set_other. intros ->. exact (N _ _ _ _ _ Ep Eb).
    + assert (p' = p) as -> by congruence. auto.
  - destruct Ep as [-> _].
    assert (forall v h x, p' = Prov (mset (pv_data p) (lower t) v) h -> h = pv_heap p ++ x ->
      (forall e a o n, v = PS e a o n -> pv = PS e a o n \/ (length (pv_heap p) <= a)%nat) ->
      (length (pv_heap p) <= length (pv_heap p'))%nat /\
      (forall a o n, (a < length (pv_heap p))%nat ->
         (forall b i e o' n', elem_name (lower t) b i -> mget (pv_data p) b <> Some (PS e a o' n')) ->
         elems (pv_heap p') a o n = elems (pv_heap p) a o n) /\
      (forall k e a o n, mget (pv_data p') k = Some (PS e a o n) ->
         mget (pv_data p) k = Some (PS e a o n) \/ pv = PS e a o n \/ (length (pv_heap p) <= a)%nat))
      as Hst.
    { intros v h x -> -> Hv. cbn [pv_data pv_heap]. rewrite app_length. split; [lia|].
      split; [intros; apply elems_app; assumption|].
      intros k e a o n Hk. rewrite mget_mset in Hk. destruct (bseq (lower t) k); [|auto].
      right. apply Hv. congruence. }
    destruct (mget (pv_data p) (lower t)) as [[g|e a o n]|] eqn:Eb.
    + apply (Hst pv (pv_heap p) []); [congruence|symmetry; apply app_nil_r|auto].
    + destruct pv as [g|[k|] a' o' n'];
        [apply (Hst (PV g) (pv_heap p) []); [congruence|symmetry; apply app_nil_r|auto]
        |apply (Hst (PS (EK k) a' o' n') (pv_heap p) []);
           [congruence|symmetry; apply app_nil_r|auto]|].
      destruct (convert_all c (elems (pv_heap p) a' o' n') e) as [l|er| |];
        [|assert (p' = p) as -> by congruence; auto..].
      apply (Hst (PS e (length (pv_heap p)) O (length l)) (pv_heap p ++ [l]) [l]);
        [congruence|reflexivity|].
      intros e1 a1 o1 n1 E. right. assert (a1 = length (pv_heap p)) as -> by congruence. lia.
    + apply (Hst pv (pv_heap p) []); [congruence|symmetry; apply app_nil_r|auto].
Qed.

Lemma write_given_heap : forall c p t v p' r, write_given c p t v = (p', r) ->
  (length (pv_heap p) <= length (pv_heap p'))%nat /\
  (forall a o n, (a < length (pv_heap p))%nat ->
     (forall b i e o' n', elem_name (lower t) b i -> mget (pv_data p) b <> Some (PS e a o' n')) ->
     elems (pv_heap p') a o n = elems (pv_heap p) a o n) /\
  (forall k e a o n, mget (pv_data p') k = Some (PS e a o n) ->
     mget (pv_data p) k = Some (PS e a o n) \/ (length (pv_heap p) <= a)%nat).
Proof.
  intros c p t v p' r H. destruct v as [g|e l]; cbn [write_given] in H;
    apply tag_write_heap in H as (H1 & H2 & H3).
  - split; [exact H1|]. split; [exact H2|]. intros k e a o n Hk.
    destruct (H3 _ _ _ _ _ Hk) as [Hk'|[Hk'|Hk']]; [auto|discriminate|auto].
  - cbn [pv_heap pv_data] in *. rewrite app_length in *. cbn [length] in *.
    split; [lia|]. split.
    + intros a o n L N. rewrite H2; [|lia|exact N]. apply elems_app. exact L.
    + intros k e1 a o n Hk. destruct (H3 _ _ _ _ _ Hk) as [Hk'|[Hk'|Hk']]; [auto| |right; lia].
      right. assert (a = length (pv_heap p)) as -> by congruence. lia.
Qed.

Lemma stable_arrays : forall c ws p p' os k a,
  run_writes c p ws = (p', os) -> (a < length (pv_heap p))%nat ->
  (forall k' e o n, k' <> k -> mget (pv_data p) k' <> Some (PS e a o n)) ->
  Forall (fun w => forall i, ~ elem_name (lower (fst w)) k i) ws ->
  forall o n, elems (pv_heap p') a o n = elems (pv_heap p) a o n.
Proof.
  intros c ws; induction ws as [|[t v] ws IH]; intros p p' os k a H L T F o n;
    cbn [run_writes] in H.
  - assert (p' = p) as -> by congruence. reflexivity.
  - destruct (write_given c p t v) as [p1 r] eqn:E1.
    destruct (run_writes c p1 ws) as [p2 os2] eqn:E2.
    assert (p' = p2) as -> by congruence.
    apply Forall_cons_iff in F as [F1 F2]. cbn [fst] in F1.
    destruct (write_given_heap c p t v p1 r E1) as (H1 & H2 & H3).
    rewrite (IH p1 p2 os2 k a E2 ltac:(lia)); [apply H2; [exact L|]| |exact F2].
    + intros b i e o' n' He Hb. destruct (list_eq_dec Z.eq_dec b k) as [->|N].
      * exact (F1 i He).
      * exact (T _ _ _ _ N Hb).
    + intros k' e o' n' N Hk. destruct (H3 _ _ _ _ _ Hk) as [Hk'|Hk']; [|lia].
      exact (T _ _ _ _ N Hk').
Qed.
