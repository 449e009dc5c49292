(** * Lemmas on project files *)
From Verif Require Import GoBase TypesModel L5xModel L5xSpec.
From Verif Require ListModel.

(** ** Numbers *)
Lemma number_app a b : number (a ++ b) = number a * 10 ^ len b + number b.
Proof.
  induction a as [|c a IH]; [cbn [app number]; lia|]. cbn [app number]. rewrite IH.
  unfold len. rewrite app_length, Nat2Z.inj_add, Z.pow_add_r by lia. fold (len b). nia.
Qed.
Lemma number_nonneg s : Forall (fun c => 48 <= c <= 57) s -> 0 <= number s.
Proof.
  induction 1 as [|c s H _ IH]; [cbn; lia|]. cbn [number]. assert (0 < 10 ^ len s) by (apply Z.pow_pos_nonneg; unfold len; lia). nia.
Qed.
Lemma is_digit_iff c : is_digit c = true <-> 48 <= c <= 57.
Proof. unfold is_digit. rewrite andb_true_iff, !Z.leb_le. reflexivity. Qed.
Lemma parse_uint_digits mx s : forall n, 0 <= n <= mx -> Forall (fun c => 48 <= c <= 57) s ->
  parse_uint mx n s = Some (Z.min mx (n * 10 ^ len s + number s)).
Proof.
  induction s as [|c s IH]; intros n Hn F.
  - cbn [parse_uint number]. change (len []) with 0. rewrite Z.pow_0_r. f_equal. lia.
  - inversion F as [|? ? Hc F']; subst. cbn [parse_uint number]. rewrite (proj2 (is_digit_iff c) Hc).
    assert (Hp : 10 ^ len (c :: s) = 10 * 10 ^ len s).
    { unfold len. cbn [length]. rewrite Nat2Z.inj_succ, Z.pow_succ_r by lia. reflexivity. }
    assert (0 < 10 ^ len s) by (apply Z.pow_pos_nonneg; unfold len; lia). pose proof (number_nonneg s F').
    destruct (mx <? 10 * n + (c - 48)) eqn:L.
    + apply Z.ltb_lt in L. f_equal. rewrite Hp. nia.
    + apply Z.ltb_ge in L. rewrite IH by (lia || assumption). rewrite Hp. f_equal. f_equal. nia.
Qed.
Lemma digits_head d : digits d -> exists c r, d = c :: r /\ 48 <= c <= 57.
Proof. intros [Ne F]. destruct d as [|c r]; [congruence|]. inversion F; subst. eauto. Qed.

(** The whole of ParseInt on a decimal number: the nearest one in range. *)
Lemma parse_int_spec bits s z : 2 <= bits -> reads_as s z ->
  parse_int bits s = (Z.max (- 2 ^ (bits - 1)) (Z.min (2 ^ (bits - 1) - 1) z), (- 2 ^ (bits - 1) <=? z) && (z <? 2 ^ (bits - 1))).
Proof.
  intros Hb (d & D & H). destruct (digits_head d D) as (c & r & Ed & Hc). destruct D as [Ne F].
  assert (Hp : 2 ^ bits = 2 * 2 ^ (bits - 1)). { rewrite <- Z.pow_succ_r by lia. f_equal. lia. }
  assert (2 <= 2 ^ (bits - 1)) by (change 2 with (2 ^ 1) at 1; apply Z.pow_le_mono_r; lia).
  pose proof (number_nonneg d F) as Hn.
  pose proof (parse_uint_digits (2 ^ bits - 1) d 0 ltac:(lia) F) as P. rewrite Z.mul_0_l, Z.add_0_l in P.
  assert (pos : forall x, x = (false, d) ->
    (let '(neg, d) := x in match d with [] => (0, false) | _ =>
      match parse_uint (2 ^ bits - 1) 0 d with None => (0, false) | Some un => let cutoff := 2 ^ (bits - 1) in
        if negb neg && (cutoff <=? un) then (cutoff - 1, false) else if neg && (cutoff <? un) then (- cutoff, false) else (if neg then - un else un, true) end end)
    = (Z.max (- 2 ^ (bits - 1)) (Z.min (2 ^ (bits - 1) - 1) (number d)), (- 2 ^ (bits - 1) <=? number d) && (number d <? 2 ^ (bits - 1)))).
  { intros x ->. rewrite P. rewrite Ed at 1. cbn [negb andb].
    destruct (2 ^ (bits - 1) <=? Z.min (2 ^ bits - 1) (number d)) eqn:L.
    - apply Z.leb_le in L. replace (number d <? 2 ^ (bits - 1)) with false by (symmetry; apply Z.ltb_ge; lia). rewrite andb_false_r. f_equal. lia.
    - apply Z.leb_gt in L. replace (number d <? 2 ^ (bits - 1)) with true by (symmetry; apply Z.ltb_lt; lia).
      replace (- 2 ^ (bits - 1) <=? number d) with true by (symmetry; apply Z.leb_le; lia). cbn [andb]. f_equal. lia. }
  destruct H as [[[-> | ->] ->]|[-> ->]].
  - unfold parse_int. apply pos. rewrite Ed. destruct c as [|c|c]; try lia.
    repeat (destruct c as [c|c|]; try reflexivity); exfalso; lia.
  - apply (pos (false, d)). reflexivity.
  - change (parse_int bits (str "-" ++ d)) with
      (match d with [] => (0, false) | _ => match parse_uint (2 ^ bits - 1) 0 d with None => (0, false) | Some un =>
         if negb true && (2 ^ (bits - 1) <=? un) then (2 ^ (bits - 1) - 1, false) else if true && (2 ^ (bits - 1) <? un) then (- 2 ^ (bits - 1), false) else (- un, true) end end).
    rewrite P. rewrite Ed at 1. cbn [negb andb].
    destruct (2 ^ (bits - 1) <? Z.min (2 ^ bits - 1) (number d)) eqn:L.
    + apply Z.ltb_lt in L. replace (- 2 ^ (bits - 1) <=? - number d) with false by (symmetry; apply Z.leb_gt; lia). cbn [andb]. f_equal. lia.
    + apply Z.ltb_ge in L. replace (- 2 ^ (bits - 1) <=? - number d) with true by (symmetry; apply Z.leb_le; lia).
      replace (- number d <? 2 ^ (bits - 1)) with true by (symmetry; apply Z.ltb_lt; lia). cbn [andb]. f_equal. lia.
Qed.
Lemma parse_int_in bits s z : 2 <= bits -> reads_as s z -> - 2 ^ (bits - 1) <= z < 2 ^ (bits - 1) -> parse_int bits s = (z, true).
Proof.
  intros Hb R H. rewrite (parse_int_spec bits s z Hb R). replace (- 2 ^ (bits - 1) <=? z) with true by (symmetry; apply Z.leb_le; lia).
  replace (z <? 2 ^ (bits - 1)) with true by (symmetry; apply Z.ltb_lt; lia). cbn [andb]. f_equal. lia.
Qed.

Lemma parse_uint_inv mx d : forall n v, parse_uint mx n d = Some v -> v < mx ->
  Forall (fun c => 48 <= c <= 57) d /\ v = n * 10 ^ len d + number d.
Proof.
  induction d as [|c d IH]; intros n v P L; cbn [parse_uint] in P.
  - split; [constructor|]. change (len []) with 0. rewrite Z.pow_0_r. cbn [number]. assert (v = n) by congruence. lia.
  - destruct (is_digit c) eqn:D; [|discriminate]. apply is_digit_iff in D. destruct (mx <? 10 * n + (c - 48)); [assert (v = mx) by congruence; lia|].
    destruct (IH _ _ P L) as [F E]. split; [now constructor|]. cbn [number]. rewrite E.
    assert (Hp : 10 ^ len (c :: d) = 10 * 10 ^ len d).
    { unfold len. cbn [length]. rewrite Nat2Z.inj_succ, Z.pow_succ_r by lia. reflexivity. }
    rewrite Hp. nia.
Qed.
Lemma parse_int_inv bits s z : 2 <= bits -> parse_int bits s = (z, true) -> reads_as s z /\ - 2 ^ (bits - 1) <= z < 2 ^ (bits - 1).
Proof.
  intros Hb P.
  assert (Hp : 2 ^ bits = 2 * 2 ^ (bits - 1)). { rewrite <- Z.pow_succ_r by lia. f_equal. lia. }
  assert (2 <= 2 ^ (bits - 1)) by (change 2 with (2 ^ 1) at 1; apply Z.pow_le_mono_r; lia).
  assert (X : exists neg d, (s = d /\ neg = false \/ s = str "+" ++ d /\ neg = false \/ s = str "-" ++ d /\ neg = true) /\
    match d with [] => (0, false) | _ => match parse_uint (2 ^ bits - 1) 0 d with None => (0, false) | Some un =>
      if negb neg && (2 ^ (bits - 1) <=? un) then (2 ^ (bits - 1) - 1, false) else if neg && (2 ^ (bits - 1) <? un) then (- 2 ^ (bits - 1), false) else (if neg then - un else un, true) end end = (z, true)).
  { unfold parse_int in P. destruct s as [|c s]; [discriminate|].
    destruct (Z.eq_dec c 45) as [->|N1]; [exists true, s; split; [right; right; split; reflexivity|exact P]|].
    destruct (Z.eq_dec c 43) as [->|N2]; [exists false, s; split; [right; left; split; reflexivity|exact P]|].
    exists false, (c :: s). split; [left; split; reflexivity|]. rewrite <- P. destruct c as [|c|c]; try reflexivity.
    repeat (destruct c as [c|c|]; try reflexivity); exfalso; lia. }
  destruct X as (neg & d & Hs & E). destruct d as [|c d]; [discriminate|]. destruct (parse_uint _ 0 (c :: d)) as [un|] eqn:U; [|discriminate].
  destruct neg; cbn [negb andb] in E.
  - destruct (2 ^ (bits - 1) <? un) eqn:L; [discriminate|]. apply Z.ltb_ge in L. destruct (parse_uint_inv _ _ _ _ U) as [F V]; [lia|].
    rewrite Z.mul_0_l, Z.add_0_l in V. assert (z = - un) as -> by congruence. pose proof (number_nonneg _ F). split; [|lia].
    exists (c :: d). split; [split; [discriminate|exact F]|]. right. split; [|now rewrite V]. destruct Hs as [[_ ?]|[[_ ?]|[-> _]]]; [discriminate..|reflexivity].
  - destruct (2 ^ (bits - 1) <=? un) eqn:L; [discriminate|]. apply Z.leb_gt in L. destruct (parse_uint_inv _ _ _ _ U) as [F V]; [lia|].
    rewrite Z.mul_0_l, Z.add_0_l in V. assert (z = un) as -> by congruence. pose proof (number_nonneg _ F). split; [|lia].
    exists (c :: d). split; [split; [discriminate|exact F]|]. left. split; [|exact V]. destruct Hs as [[-> _]|[[-> _]|[_ ?]]]; [now left|now right|discriminate].
Qed.

(** ** Values *)
Lemma go_value_means pf ty s v : means pf ty s v -> handled ty v -> go_value pf ty s = v.
Proof.
  intros M H. destruct M as [ty signed w s z I R Rd|b ty [-> | ->]|s]; [|destruct b; reflexivity..|reflexivity].
  assert (S : forall bits, 2 <= bits -> - 2 ^ (bits - 1) <= z < 2 ^ (bits - 1) -> fst (parse_int bits s) = z).
  { intros bits Hb Hz. now rewrite (parse_int_in bits s z Hb Rd Hz). }
  assert (U : forall bits, 2 <= bits -> 0 <= z < 2 ^ (bits - 1) -> uns bits (fst (parse_int bits s)) = z).
  { intros bits Hb Hz. rewrite (S bits Hb) by lia. unfold uns. apply Z.mod_small.
    assert (2 ^ bits = 2 * 2 ^ (bits - 1)) by (rewrite <- Z.pow_succ_r by lia; f_equal; lia). lia. }
  unfold int_types in I. cbn [In] in I.
  destruct I as [I|[I|[I|[I|[I|[I|[I|[I|[I|[I|[I|[I|[]]]]]]]]]]]]]; apply pair_equal_spec in I; destruct I as [<- I2]; apply pair_equal_spec in I2; destruct I2 as [<- <-].
  1: change (GInt true 1 (fst (parse_int 8 s)) = GInt true 1 z); f_equal; apply S; [lia|exact R].
  1: change (GInt true 2 (fst (parse_int 16 s)) = GInt true 2 z); f_equal; apply S; [lia|exact R].
  1: change (GInt true 4 (fst (parse_int 32 s)) = GInt true 4 z); f_equal; apply S; [lia|exact R].
  1: change (GInt true 8 (fst (parse_int 64 s)) = GInt true 8 z); f_equal; apply S; [lia|exact R].
  all: cbn [handled] in H; destruct H as [Hi Hz]; unfold in_range in R.
  1: change (GInt false 1 (uns 8 (fst (parse_int 8 s))) = GInt false 1 z); f_equal; apply U; [lia|]; split; [apply R|exact Hz].
  1: change (GInt false 2 (uns 16 (fst (parse_int 16 s))) = GInt false 2 z); f_equal; apply U; [lia|]; split; [apply R|exact Hz].
  1: change (GInt false 4 (uns 32 (fst (parse_int 32 s))) = GInt false 4 z); f_equal; apply U; [lia|]; split; [apply R|exact Hz].
  1: change (GInt false 8 (uns 64 (fst (parse_int 64 s))) = GInt false 8 z); f_equal; apply U; [lia|]; split; [apply R|exact Hz].
  all: exfalso; vm_compute in Hi; intuition discriminate.
Qed.

(** What stands between the tags of a string. *)
Lemma has_prefix_app p s : has_prefix p (p ++ s) = true.
Proof. induction p as [|c p IH]; [destruct s; reflexivity|]. cbn [app has_prefix]. now rewrite Z.eqb_refl. Qed.
Lemma trim_prefix_app p s : trim_prefix p (p ++ s) = s.
Proof. unfold trim_prefix. rewrite has_prefix_app, skipn_app, skipn_all, Nat.sub_diag. reflexivity. Qed.
Lemma trim_suffix_app p s : trim_suffix p (s ++ p) = s.
Proof. unfold trim_suffix. rewrite rev_app_distr, trim_prefix_app. apply rev_involutive. Qed.
Lemma trim_space_solid a s b : ListModel.is_space a = false -> ListModel.is_space b = false -> ListModel.trim_space ([a] ++ s ++ [b]) = [a] ++ s ++ [b].
Proof.
  intros A B. unfold ListModel.trim_space. cbn [app ListModel.trim_left]. rewrite A.
  change (a :: s ++ [b]) with ((a :: s) ++ [b]). rewrite rev_app_distr. cbn [rev app ListModel.trim_left]. rewrite B.
  cbn [rev]. rewrite rev_app_distr, rev_involutive. reflexivity.
Qed.
Lemma cdata_quoted s : cdata (quoted s) = s.
Proof.
  unfold cdata, quoted.
  assert (E : ListModel.trim_space (str "<![CDATA['" ++ s ++ str "']]>") = str "<![CDATA['" ++ s ++ str "']]>").
  { replace (str "<![CDATA['" ++ s ++ str "']]>") with ([60] ++ (str "![CDATA['" ++ s ++ str "']]") ++ [62]); [now apply trim_space_solid|].
    rewrite <- !app_assoc. reflexivity. }
  rewrite E. change (str "<![CDATA['") with (str "<![CDATA[" ++ str "'"). change (str "']]>") with (str "'" ++ str "]]>").
  rewrite <- app_assoc, trim_prefix_app, !app_assoc, trim_suffix_app, <- app_assoc, trim_prefix_app. apply trim_suffix_app.
Qed.

(** ** Maps *)

Lemma mget_mset {A} (m : list (bytes * A)) k v k' : mget k' (mset m k v) = if bseq k k' then Some v else mget k' m.
Proof.
  unfold mget, mset. cbn [find fst]. destruct (bseq k k') eqn:E; [reflexivity|].
  induction m as [|x m IH]; [reflexivity|]. cbn [filter]. destruct (bseq (fst x) k) eqn:Ex; cbn [negb find].
  - rewrite IH. apply bseq_spec in Ex. rewrite Ex, E. reflexivity.
  - destruct (bseq (fst x) k'); [reflexivity|exact IH].
Qed.
Lemma mget_mset_same {A} (m : list (bytes * A)) k v : mget k (mset m k v) = Some v.
Proof. now rewrite mget_mset, bseq_refl. Qed.
Lemma mget_mset_other {A} (m : list (bytes * A)) k v k' : k <> k' -> mget k' (mset m k v) = mget k' m.
Proof. intro N. rewrite mget_mset. destruct (bseq k k') eqn:E; [apply bseq_spec in E; congruence|reflexivity]. Qed.
(** Setting keys one after the other. *)
Lemma fold_mset {A B} (key : B -> bytes) (val : B -> A) l : forall m k,
  mget k (fold_left (fun m x => mset m (key x) (val x)) l m) =
  match find (fun x => bseq (key x) k) (rev l) with Some x => Some (val x) | None => mget k m end.
Proof.
  induction l as [|x l IH]; intros m k; [reflexivity|]. cbn [fold_left rev]. rewrite IH.
  assert (E : forall r, find (fun x => bseq (key x) k) (r ++ [x]) =
    match find (fun x => bseq (key x) k) r with Some y => Some y | None => if bseq (key x) k then Some x else None end).
  { induction r as [|y r IHr]; [reflexivity|]. cbn [app find]. destruct (bseq (key y) k); [reflexivity|exact IHr]. }
  rewrite E. destruct (find _ (rev l)); [reflexivity|]. rewrite mget_mset. destruct (bseq (key x) k); reflexivity.
Qed.
Lemma find_unique {B} (key : B -> bytes) l x : NoDup (map key l) -> In x l -> find (fun y => bseq (key y) (key x)) (rev l) = Some x.
Proof.
  intros ND I. destruct (find (fun y => bseq (key y) (key x)) (rev l)) as [y|] eqn:E.
  - apply find_some in E. destruct E as [Iy Ey]. apply bseq_spec in Ey. rewrite <- in_rev in Iy. f_equal.
    clear -ND I Iy Ey. induction l as [|z l IH]; [contradiction|]. cbn [map] in ND. inversion ND as [|? ? Nz ND']; subst.
    destruct I as [<-|I], Iy as [<-|Iy]; [reflexivity| | |now apply IH]; exfalso; apply Nz.
    + rewrite <- Ey. now apply in_map.
    + rewrite Ey. now apply in_map.
  - apply find_none with (x := x) in E; [|now apply in_rev in I]. now rewrite bseq_refl in E.
Qed.
Lemma find_absent {B} (key : B -> bytes) l k : ~ In k (map key l) -> find (fun y => bseq (key y) k) (rev l) = None.
Proof.
  intro N. destruct (find _ (rev l)) as [y|] eqn:E; [|reflexivity]. apply find_some in E. destruct E as [Iy Ey]. apply bseq_spec in Ey.
  rewrite <- in_rev in Iy. exfalso. apply N. rewrite <- Ey. now apply in_map.
Qed.

(** ** Structures and arrays *)
Lemma combine_map {A B C} (f : A -> B) (g : A -> C) l : combine (map f l) (map g l) = map (fun x => (f x, g x)) l.
Proof. induction l as [|x l IH]; [reflexivity|]. cbn [map combine]. now rewrite IH. Qed.
Lemma fold_is_map {A B} (key : B -> bytes) (val : B -> A) l : NoDup (map key l) ->
  is_map (fold_left (fun m x => mset m (key x) (val x)) l []) (map (fun x => (key x, val x)) l).
Proof.
  intros ND k. split.
  - intros v I. apply in_map_iff in I. destruct I as (x & E & I). apply pair_equal_spec in E. destruct E as [<- <-].
    rewrite fold_mset, find_unique by assumption. reflexivity.
  - intro N. rewrite fold_mset, find_absent; [reflexivity|]. intro I. apply in_map_iff in I. destruct I as (x & <- & I).
    apply (N (val x)). now apply (in_map (fun x => (key x, val x))).
Qed.
Lemma flat_shows pf (txt : dvalue -> bytes) (ok : dvalue -> Prop) s :
  (forall d, ok d -> member_means pf d (go_value pf (dv_type d) (txt d))) -> flat ok s ->
  struct_shows pf s (fold_left (fun m v => mset m (dv_name v) (LVal (go_value pf (dv_type v) (txt v)))) (ds_values s) []).
Proof.
  intros H. destruct s as [n ty vs ss rs]. intros (-> & -> & ND & F). cbn [ds_values].
  apply (ss_intro pf n ty vs [] [] (map (fun v => go_value pf (dv_type v) (txt v)) vs) [] []); try constructor.
  - induction F as [|d vs Hd _ IH]; [constructor|]. cbn [map] in ND |- *. inversion ND; subst. constructor; [now apply H|now apply IH].
  - cbn [map combine app]. rewrite app_nil_r, map_map, combine_map in *. now apply (fold_is_map dv_name (fun v => LVal (go_value pf (dv_type v) (txt v)))).
  - cbn [map combine app]. rewrite app_nil_r, map_map, combine_map in *. now apply (fold_is_map dv_name (fun v => LVal (go_value pf (dv_type v) (txt v)))).
Qed.
Lemma plain_go pf ty s : plain_value pf ty s -> means pf ty s (go_value pf ty s).
Proof. intros (v & M & H). now rewrite (go_value_means pf ty s v M H). Qed.
Lemma not_string pf ty s v : means pf ty s v -> bseq ty (str "STRING") = false.
Proof.
  intro M. destruct M as [ty signed w s z I R Rd|b ty [-> | ->]|s]; try reflexivity.
  unfold int_types in I. cbn [In] in I.
  destruct I as [I|[I|[I|[I|[I|[I|[I|[I|[I|[I|[I|[I|[]]]]]]]]]]]]]; apply pair_equal_spec in I; destruct I as [<- _]; reflexivity.
Qed.
Lemma struct_map_shows pf s : flat (plain_member pf) s -> struct_shows pf s (struct_map pf s).
Proof. apply (flat_shows pf dv_value). intros d H. apply mm_plain. now apply plain_go. Qed.
Lemma element_map_shows pf s : flat (fun d => plain_member pf d \/ string_member d) s -> struct_shows pf s (element_map pf s).
Proof.
  apply (flat_shows pf (fun v => if bseq (dv_type v) (str "STRING") then cdata (dv_inner v) else dv_value v)).
  intros d [H|[E (t & Et)]].
  - destruct H as (v & M & Hv). rewrite (not_string _ _ _ _ M). apply mm_plain. rewrite (go_value_means _ _ _ _ M Hv). exact M.
  - rewrite E, bseq_refl, Et, cdata_quoted. change (go_value pf (str "STRING") t) with (GStr t). now apply mm_string.
Qed.
Lemma array_values_shows pf ty es : Forall (plain_element pf ty) es -> exists l, array_values pf ty es = Ok l /\ Forall2 (element_shows pf ty) es l.
Proof.
  induction 1 as [|[i v o] es He _ (l & E & F)]; [exists []; split; [reflexivity|constructor]|].
  destruct o as [[|d [|d2 ds]]|]; cbn [plain_element] in He; try contradiction; cbn [array_values bind]; rewrite E; cbn [bind]; eexists; (split; [reflexivity|]);
    (constructor; [|exact F]).
  - apply es_struct. now apply element_map_shows.
  - apply es_value. now apply plain_go.
Qed.

(** ** Tags *)
Lemma two_forms_second t d : two_forms t d -> second t = Some d /\ decorated t = Some d.
Proof.
  intros (raw & E & N & D). unfold second, decorated. rewrite E. split; [reflexivity|]. cbn [find].
  destruct (bseq (dd_format raw) (str "Decorated")) eqn:B; [apply bseq_spec in B; congruence|]. rewrite D, bseq_refl. reflexivity.
Qed.
(** The value a program tag gets, if any. *)
Lemma simple_program_tag pf t : simple_program pf t ->
  (decorated t = None /\ forall m, program_tag pf m t = Ok m) \/
  (decorated t <> None /\ exists v, shows pf t v /\ forall m, program_tag pf m t = Ok (mset m (lt_name t) v)).
Proof.
  intros [[E|(d & dv & T & Ev & P)]|(d & T & Ev & H)].
  - left. unfold decorated, program_tag, second. rewrite E. split; reflexivity.
  - right. destruct (two_forms_second t d T) as [S D]. split; [congruence|]. eexists. split; [exact (sh_value pf t d dv _ D Ev (plain_go _ _ _ P))|].
    intro m. unfold program_tag. rewrite S, Ev. reflexivity.
  - right. destruct (two_forms_second t d T) as [S D]. split; [congruence|]. destruct H as [(s & Es & Fs)|(Es & n & dims & es & z & Ea & R & Hz & Fe)].
    + eexists. split; [exact (sh_struct pf t d s _ D Ev Es (struct_map_shows pf s Fs))|]. intro m. unfold program_tag. rewrite S, Ev, Es. reflexivity.
    + destruct (array_values_shows pf (lt_type t) es Fe) as (l & E & F). eexists.
      split; [exact (sh_array pf t d n dims es l D Ev Es Ea (as_intro pf n (lt_type t) dims es l F))|]. intro m. unfold program_tag. rewrite S, Ev, Es, Ea.
      rewrite (parse_int_in 64 (lt_dims t) z) by (try exact R; lia). cbn [negb]. unfold makes.
      replace (0 <=? z) with true by (symmetry; apply Z.leb_le; lia). replace (z <=? 2 ^ 44) with true by (symmetry; apply Z.leb_le; lia).
      cbn [andb negb da_elements]. rewrite E. reflexivity.
Qed.
Lemma simple_controller_tag pf t : simple_controller pf t ->
  (decorated t = None /\ forall m, controller_tag pf m t = m) \/
  (decorated t <> None /\ exists v, shows pf t v /\ forall m, controller_tag pf m t = mset m (lt_name t) v).
Proof.
  intros [E|(d & dv & T & Ev & P)].
  - left. unfold decorated, controller_tag, second. rewrite E. split; reflexivity.
  - right. destruct (two_forms_second t d T) as [S D]. split; [congruence|]. eexists. split; [exact (sh_value pf t d dv _ D Ev (plain_go _ _ _ P))|].
    intro m. unfold controller_tag. rewrite S, Ev. reflexivity.
Qed.
(** A run over tags with different names. *)
Lemma program_tags_ok pf ts : NoDup (map lt_name ts) -> Forall (simple_program pf) ts -> forall m, (forall t, In t ts -> mget (lt_name t) m = None) ->
  exists m', program_tags pf m ts = Ok m' /\ (forall t, In t ts -> entry pf t (mget (lt_name t) m')) /\
    (forall k, ~ In k (map lt_name ts) -> mget k m' = mget k m).
Proof.
  intros ND F. induction F as [|t ts Ht _ IH]; intros m Hm; [exists m; split; [reflexivity|split; [contradiction|reflexivity]]|].
  cbn [map] in ND. inversion ND as [|? ? Nt ND']; subst. cbn [program_tags].
  assert (X : exists m1, program_tag pf m t = Ok m1 /\ entry pf t (mget (lt_name t) m1) /\ forall k, k <> lt_name t -> mget k m1 = mget k m).
  { destruct (simple_program_tag pf t Ht) as [[D E]|(D & v & S & E)]; rewrite E; eexists; (split; [reflexivity|]); unfold entry.
    - rewrite D. split; [apply Hm; now left|reflexivity].
    - destruct (decorated t); [|congruence]. split; [exists v; split; [apply mget_mset_same|exact S]|]. intros k N. apply mget_mset_other. congruence. }
  destruct X as (m1 & E & En & O). rewrite E. cbn [bind].
  destruct (IH ND' m1) as (m' & E' & Fe & Fo).
  { intros u Iu. rewrite O; [apply Hm; now right|]. intro Eq. apply Nt. rewrite <- Eq. now apply in_map. }
  exists m'. split; [exact E'|]. split.
  - intros u [<-|Iu]; [rewrite Fo by exact Nt; exact En|now apply Fe].
  - intros k N. rewrite Fo by (intro I; apply N; now right). apply O. intro Eq. apply N. left. now symmetry.
Qed.
Lemma controller_tags_ok pf ts : NoDup (map lt_name ts) -> Forall (simple_controller pf) ts -> forall m, (forall t, In t ts -> mget (lt_name t) m = None) ->
  let m' := fold_left (controller_tag pf) ts m in
  (forall t, In t ts -> entry pf t (mget (lt_name t) m')) /\ (forall k, ~ In k (map lt_name ts) -> mget k m' = mget k m).
Proof.
  intros ND F. induction F as [|t ts Ht _ IH]; intros m Hm; [split; [contradiction|reflexivity]|].
  cbn [map] in ND. inversion ND as [|? ? Nt ND']; subst. cbn [fold_left].
  assert (X : entry pf t (mget (lt_name t) (controller_tag pf m t)) /\ forall k, k <> lt_name t -> mget k (controller_tag pf m t) = mget k m).
  { destruct (simple_controller_tag pf t Ht) as [[D E]|(D & v & S & E)]; rewrite E; unfold entry.
    - rewrite D. split; [apply Hm; now left|reflexivity].
    - destruct (decorated t); [|congruence]. split; [exists v; split; [apply mget_mset_same|exact S]|]. intros k N. apply mget_mset_other. congruence. }
  destruct X as (En & O).
  destruct (IH ND' (controller_tag pf m t)) as (Fe & Fo).
  { intros u Iu. rewrite O; [apply Hm; now right|]. intro Eq. apply Nt. rewrite <- Eq. now apply in_map. }
  split.
  - intros u [<-|Iu]; [rewrite Fo by exact Nt; exact En|now apply Fe].
  - intros k N. rewrite Fo by (intro I; apply N; now right). apply O. intro Eq. apply N. left. now symmetry.
Qed.
Lemma load_programs_ok pf : forall programs ps, map (fun p => (lp_name p, lp_tags p)) programs = map (fun x => (fst x, Some (snd x))) ps ->
  NoDup (map (fun x => str "program:" ++ fst x) ps) -> Forall (fun x => NoDup (map lt_name (snd x))) ps -> Forall (fun x => Forall (simple_program pf) (snd x)) ps ->
  forall m, exists m', load_programs pf m programs = Ok m' /\
    (forall p tags, In (p, tags) ps -> exists pm, mget (str "program:" ++ p) m' = Some (LMap pm) /\
       (forall t, In t tags -> entry pf t (mget (lt_name t) pm)) /\ (forall k v, mget k pm = Some v -> In k (map lt_name tags))) /\
    (forall k, ~ In k (map (fun x => str "program:" ++ fst x) ps) -> mget k m' = mget k m).
Proof.
  induction programs as [|p programs IH]; intros [|[n ts] ps] E ND Nd F m; try discriminate; [exists m; split; [reflexivity|split; [contradiction|reflexivity]]|].
  cbn [map fst snd] in E, ND. assert (E1 : lp_name p = n) by congruence. assert (E2 : lp_tags p = Some ts) by congruence.
  inversion ND as [|? ? Nn ND']; inversion Nd as [|? ? Nt Nd']; inversion F as [|? ? Ft F']; subst. cbn [snd] in Nt, Ft. cbn [load_programs].
  rewrite E2. cbn [section bind]. destruct (program_tags_ok pf ts Nt Ft []) as (pm & Ep & Fe & Fo); [reflexivity|]. rewrite Ep. cbn [bind].
  destruct (IH ps ltac:(congruence) ND' Nd' F' (mset m (prog_prefix (lp_name p)) (LMap pm))) as (m' & El & P & O). exists m'. split; [exact El|]. split.
  - intros q tags [Eq|I].
    + apply pair_equal_spec in Eq. destruct Eq as [<- <-]. exists pm. split; [|split; [exact Fe|]].
      * rewrite O by exact Nn. apply mget_mset_same.
      * intros k v G. destruct (in_dec (list_eq_dec Z.eq_dec) k (map lt_name ts)) as [I|N]; [exact I|]. rewrite (Fo k N) in G. discriminate.
    + now apply P.
  - intros k N. cbn [map fst] in N. rewrite O by (intro I; apply N; now right). apply mget_mset_other. intro Eq. apply N. now left.
Qed.
