(** * C88: the comments of tags and their members in a project file *)
From Verif Require Import GoBase TypesModel L5xModel L5xSpec L5xProof.
From Verif Require Prop_L5xRung.
From Coq Require FinFun.

(** ** Maps with every key once *)
Definition keyed {A} (m : list (bytes * A)) : Prop := NoDup (map fst m).
Lemma mset_keyed {A} (m : list (bytes * A)) k v : keyed m -> keyed (mset m k v).
Proof.
  unfold keyed, mset. intro ND. cbn [map fst]. constructor.
  - intro I. apply in_map_iff in I. destruct I as (x & E & I). apply filter_In in I. destruct I as [_ B]. rewrite E, bseq_refl in B. discriminate.
  - now apply Prop_L5xRung.nodup_filter.
Qed.
Lemma find_rev {A} (m : list (bytes * A)) k : keyed m -> find (fun x => bseq (fst x) k) (rev m) = find (fun x => bseq (fst x) k) m.
Proof.
  intro ND. destruct (find (fun x => bseq (fst x) k) m) as [x|] eqn:E.
  - apply find_some in E. destruct E as [I B]. apply bseq_spec in B. subst k. now apply find_unique.
  - apply find_absent. intro I. apply in_map_iff in I. destruct I as (x & Ex & I). apply find_none with (x := x) in E; [|exact I]. rewrite Ex, bseq_refl in E. discriminate.
Qed.

(** ** The part of a key before the first dot or angle *)
Fixpoint head (k : bytes) : bytes := match k with [] => [] | c :: r => if (c =? 46) || (c =? 60) then [] else c :: head r end.
Lemma head_name n x : free_of 46 n -> free_of 60 n -> match x with [] => True | c :: _ => c = 46 \/ c = 60 end -> head (n ++ x) = n.
Proof.
  unfold free_of. induction n as [|c n IH]; intros D A H.
  - destruct x as [|c x]; [reflexivity|]. cbn [app head]. destruct H as [-> | ->]; reflexivity.
  - cbn [app head]. destruct (c =? 46) eqn:E1; [apply Z.eqb_eq in E1; exfalso; apply D; now left|].
    destruct (c =? 60) eqn:E2; [apply Z.eqb_eq in E2; exfalso; apply A; now left|]. cbn [orb]. rewrite IH; [reflexivity|..|exact H].
    + intro I. apply D. now right.
    + intro I. apply A. now right.
Qed.

(** ** One member *)
Definition pre (desc c : bytes) : bytes := match desc with [] => c | _ => desc ++ str " " ++ c end.
Lemma sub_comments_in m desc out subs k : keyed subs ->
  mget (lm_name m ++ str "." ++ k) (sub_comments m desc out subs) = match mget k subs with Some c => Some (pre desc c) | None => mget (lm_name m ++ str "." ++ k) out end.
Proof.
  intro K. unfold sub_comments. rewrite (fold_mset (fun s => lm_name m ++ str "." ++ fst s) (fun s => match desc with [] => snd s | _ => desc ++ str " " ++ snd s end)).
  assert (E : forall l, find (fun x : bytes * bytes => bseq (lm_name m ++ str "." ++ fst x) (lm_name m ++ str "." ++ k)) l = find (fun x => bseq (fst x) k) l).
  { induction l as [|x l IH]; [reflexivity|]. cbn [find]. rewrite IH. destruct (bseq (fst x) k) eqn:B.
    - apply bseq_spec in B. rewrite B, bseq_refl. reflexivity.
    - destruct (bseq (lm_name m ++ str "." ++ fst x) (lm_name m ++ str "." ++ k)) eqn:B2; [|reflexivity]. apply bseq_spec in B2. apply app_inv_head in B2. apply app_inv_head in B2. rewrite B2, bseq_refl in B. discriminate. }
  rewrite E, find_rev by exact K. unfold mget. destruct (find (fun x => bseq (fst x) k) subs); reflexivity.
Qed.
Lemma sub_comments_out m desc out subs k : free_of 46 (lm_name m) -> free_of 60 (lm_name m) -> (forall x, k <> lm_name m ++ str "." ++ x) ->
  mget k (sub_comments m desc out subs) = mget k out.
Proof.
  intros D A N. unfold sub_comments. rewrite (fold_mset (fun s => lm_name m ++ str "." ++ fst s) (fun s => match desc with [] => snd s | _ => desc ++ str " " ++ snd s end)).
  rewrite (find_absent (fun s : bytes * bytes => lm_name m ++ str "." ++ fst s)); [reflexivity|]. intro I. apply in_map_iff in I. destruct I as (x & E & _). exact (N (fst x) (eq_sym E)).
Qed.
Lemma sub_comments_keyed m desc subs : forall out, keyed out -> keyed (sub_comments m desc out subs).
Proof. unfold sub_comments. induction subs as [|x subs IH]; intros out K; [exact K|]. cbn [fold_left]. apply IH. now apply mset_keyed. Qed.
Lemma bit_name_ok m : (2 <= length (lm_target m))%nat -> exists o, bit_name m = Ok o /\ forall n, o = Some n -> exists x, n = lm_name m ++ str "<" ++ x.
Proof.
  intro L. unfold bit_name. replace (length (lm_target m) <? 2)%nat with false by (symmetry; apply Nat.ltb_ge; exact L).
  destruct (atoi _) as [num ok]. destruct ok; cbn [negb]; eexists; (split; [reflexivity|]); intros n E; [|discriminate]. injection E as <-. eexists. reflexivity.
Qed.

Lemma bit_number_name m k : bit_number m k -> bit_name m = Ok (Some (lm_name m ++ str "<" ++ dec k ++ str ">")).
Proof.
  intros (base & c & j & Lc & Hj & Hb & Et & Nb & ->). unfold bit_name. rewrite Et.
  assert (Lr : is_letter c = true) by (unfold is_letter; unfold letter in Lc; lia).
  assert (L1 : (length base > 0)%nat) by (destruct base; [congruence|cbn; lia]).
  assert (Dj : j = 0 \/ j = 1 \/ j = 2 \/ j = 3 \/ j = 4 \/ j = 5 \/ j = 6 \/ j = 7) by lia.
  assert (X : forall d, (length d = 1 \/ length d = 2)%nat -> (length (base ++ [c] ++ d) <? 2)%nat = false /\
    skipn (length (base ++ [c] ++ d) - 2) (base ++ [c] ++ d) = if (length d =? 1)%nat then [c] ++ d else d).
  { intros d Ld. rewrite !app_length. cbn [length]. split; [apply Nat.ltb_ge; lia|]. destruct Ld as [Ld|Ld]; rewrite Ld; cbn [Nat.eqb].
    - replace (length base + (1 + 1) - 2)%nat with (length base + 0)%nat by lia. rewrite skipn_app, skipn_all2 by lia. replace (length base + 0 - length base)%nat with 0%nat by lia. reflexivity.
    - replace (length base + (1 + 2) - 2)%nat with (length base + 1)%nat by lia. rewrite skipn_app, skipn_all2 by lia. replace (length base + 1 - length base)%nat with 1%nat by lia. reflexivity. }
  assert (Sg : forall z, 0 <= z <= 200 -> sgn 64 z = z) by (intros z Hz; apply sgn_id; [lia|]; split; [apply Z.le_trans with 0; [|lia]; vm_compute; discriminate|apply Z.le_lt_trans with 200; [lia|reflexivity]]).
  assert (Ds : forall z, 0 <= z -> dec_signed z = dec z) by (intros z Hz; unfold dec_signed; replace (z <? 0) with false by lia; reflexivity).
  destruct Dj as [->|[->|[->|[->|[->|[->|[->| ->]]]]]]].
  all: match goal with |- context [dec (9 * ?j)] => let d := eval vm_compute in (dec (9 * j)) in change (dec (9 * j)) with d; destruct (X d ltac:(cbn; lia)) as [X1 X2]; rewrite X1, X2 end.
  all: cbn [length Nat.eqb app trim_letters]; try rewrite Lr; cbn [trim_letters].
  all: match goal with |- context [atoi ?x] => let y := eval vm_compute in (atoi x) in let z := eval vm_compute in x in change (atoi x) with y end.
  all: cbn [negb].
  all: match goal with |- context [dec_signed (sgn 64 (_ + ?n - ?l))] => let z := eval vm_compute in l in change l with z end.
  all: rewrite Sg, Ds by lia; match goal with |- Ok (Some (_ ++ _ ++ dec ?a ++ _)) = Ok (Some (_ ++ _ ++ dec ?b ++ _)) => replace a with b by lia; reflexivity end.
Qed.

(** ** All members *)
Definition member_ok (m : lmember) : Prop :=
  free_of 46 (lm_name m) /\ free_of 60 (lm_name m) /\ (lm_type m = str "BIT" -> (2 <= length (lm_target m))%nat).
Lemma members_ok sub mine ms : NoDup (map lm_name ms) -> Forall member_ok ms ->
  (forall m, In m ms -> exists subs, sub (lm_type m) = Ok subs /\ keyed subs) -> forall out, keyed out ->
  exists out', member_comments sub mine ms out = Ok out' /\ keyed out' /\
    (forall m, In m ms -> lm_type m <> str "BIT" -> mget (lm_name m) out' = Some (member_desc mine m) /\
       forall subs k c, sub (lm_type m) = Ok subs -> mget k subs = Some c -> mget (lm_name m ++ str "." ++ k) out' = Some (pre (member_desc mine m) c)) /\
    (forall m n, In m ms -> lm_type m = str "BIT" -> bit_name m = Ok (Some n) -> mget n out' = Some (member_desc mine m)) /\
    (forall k, ~ In (head k) (map lm_name ms) -> mget k out' = mget k out).
Proof.
  intros ND F S. induction F as [|m ms (D & A & Bt) _ IH]; intros out K; [exists out; split; [reflexivity|split; [exact K|split; [contradiction|split; [contradiction|reflexivity]]]]|].
  cbn [map] in ND. inversion ND as [|? ? Nm ND']; subst. cbn [member_comments]. destruct (S m (or_introl eq_refl)) as (subs & Es & Ks). rewrite Es. cbn [bind].
  specialize (IH ND' (fun m I => S m (or_intror I))).
  assert (Hh : head (lm_name m) = lm_name m) by (rewrite <- (app_nil_r (lm_name m)) at 1; now apply head_name).
  assert (Hd : forall x, head (lm_name m ++ str "." ++ x) = lm_name m) by (intro x; apply head_name; [assumption..|now left]).
  assert (Ha : forall x, head (lm_name m ++ str "<" ++ x) = lm_name m) by (intro x; apply head_name; [assumption..|now right]).
  assert (X : exists n, (if bseq (lm_type m) (str "BIT") then bit_name m else Ok (Some (lm_name m))) = Ok n /\
    (forall n', n = Some n' -> head n' = lm_name m) /\ (lm_type m <> str "BIT" -> n = Some (lm_name m)) /\
    (lm_type m = str "BIT" -> bit_name m = Ok n /\ forall n', n = Some n' -> exists x, n' = lm_name m ++ str "<" ++ x)).
  { destruct (bseq (lm_type m) (str "BIT")) eqn:B.
    - apply bseq_spec in B. destruct (bit_name_ok m (Bt B)) as (o & E & H). exists o. split; [exact E|]. split; [|split; [congruence|now split]]. intros n' En. destruct (H n' En) as (x & ->). apply Ha.
    - eexists. split; [reflexivity|]. split; [|split; [reflexivity|intro Eb; rewrite Eb, bseq_refl in B; discriminate]]. intros n' En. injection En as <-. exact Hh. }
  destruct X as (n & -> & Hn & Hb & Hx). cbn [bind]. destruct n as [n|].
  - specialize (Hn n eq_refl).
    destruct (IH (sub_comments m (member_desc mine m) (mset out n (member_desc mine m)) subs)) as (out' & E & K' & P & Q & O); [apply sub_comments_keyed; now apply mset_keyed|].
    exists out'. split; [exact E|]. split; [exact K'|]. split.
    + intros m' [<-|I] Nb; [|now apply P]. specialize (Hb Nb). assert (n = lm_name m) as -> by congruence. split.
      * rewrite O by (now rewrite Hh). rewrite sub_comments_out; [apply mget_mset_same|exact D|exact A|]. intros x Ex.
        apply D. rewrite Ex. apply in_or_app. right. now left.
      * intros subs' k c Es' Gk. assert (subs' = subs) as -> by congruence. rewrite O by (now rewrite Hd). rewrite sub_comments_in by exact Ks. now rewrite Gk.
    + split.
      { intros m' n' [<-|I] Eb En; [|now apply Q]. destruct (Hx Eb) as [En2 Hs]. assert (n' = n) as -> by congruence. destruct (Hs n eq_refl) as (x & ->).
        rewrite O by (now rewrite Hn). rewrite sub_comments_out; [apply mget_mset_same|exact D|exact A|]. intros y Ey. apply app_inv_head in Ey. discriminate. }
      intros k N. cbn [map In] in N. rewrite O by tauto. rewrite sub_comments_out; [|exact D|exact A|].
      * apply mget_mset_other. intro Eq. apply N. left. now rewrite <- Eq.
      * intros x Ex. apply N. left. now rewrite Ex, Hd.
  - destruct (IH out K) as (out' & E & K' & P & Q & O). exists out'. split; [exact E|]. split; [exact K'|]. split; [|split].
    + intros m' [<-|I] Nb; [specialize (Hb Nb); discriminate|now apply P].
    + intros m' n' [<-|I] Eb En; [destruct (Hx Eb) as [En2 _]; congruence|now apply Q].
    + intros k N. cbn [map In] in N. apply O. tauto.
Qed.

(** ** Types *)
Lemma type_map_get ds name : NoDup (map ld_name ds) -> mget name (type_map ds) = find (fun dt => bseq (ld_name dt) name) ds.
Proof.
  intro ND. unfold type_map. rewrite (fold_mset ld_name (fun t => t)). destruct (find (fun dt => bseq (ld_name dt) name) ds) as [dt|] eqn:E.
  - apply find_some in E. destruct E as [I B]. apply bseq_spec in B. subst name. now rewrite find_unique.
  - rewrite find_absent; [reflexivity|]. intro I. apply in_map_iff in I. destruct I as (x & Ex & I). apply find_none with (x := x) in E; [|exact I]. rewrite Ex, bseq_refl in E. discriminate.
Qed.
Lemma described_cdata o x : described o x -> opt_cdata o = x.
Proof. destruct o as [inner|]; cbn [described opt_cdata]; [|congruence]. intros (S & U & _). now apply Prop_L5xRung.cdata_says. Qed.
Lemma member_desc_words mine m own : described (lm_desc m) own -> member_desc mine m = words mine own.
Proof.
  unfold member_desc. destruct (lm_desc m) as [inner|]; cbn [described].
  - intros (S & U & N). rewrite (Prop_L5xRung.cdata_says _ _ S U). destruct mine, own; try congruence; reflexivity.
  - intros ->. destruct mine; reflexivity.
Qed.
Lemma pre_words d c : c <> [] -> pre d c = words d c.
Proof. destruct d, c; try congruence; reflexivity. Qed.
Lemma dotted_cons x p : p <> [] -> dotted (x :: p) = x ++ str "." ++ dotted p.
Proof. destruct p; [congruence|reflexivity]. Qed.
Lemma path_nonempty ds ty p c : comment_at ds ty p c -> p <> [].
Proof. destruct 1; discriminate. Qed.

(** GetTypeComments ends, and says of every member what there is to say. *)
Lemma types_ok ds rank : NoDup (map ld_name ds) -> Forall type_ok ds -> below ds rank -> forall fuel ty, (rank ty + 1 < fuel)%nat ->
  exists out, type_comments fuel (type_map ds) ty = Ok out /\ keyed out /\ forall path c, comment_at ds ty path c -> mget (dotted path) out = Some c.
Proof.
  intros ND F B. rewrite Forall_forall in F. induction fuel as [|k IH]; intros ty L; [lia|]. cbn [type_comments]. rewrite type_map_get by exact ND.
  assert (Uniq : forall dt dt', In dt ds -> In dt' ds -> ld_name dt = ld_name dt' -> dt = dt').
  { intros dt dt' I I' E. assert (X : find (fun y => bseq (ld_name y) (ld_name dt)) (rev ds) = Some dt) by (now apply find_unique).
    rewrite E in X. rewrite (find_unique ld_name ds dt' ND I') in X. congruence. }
  destruct (find (fun dt => bseq (ld_name dt) ty) ds) as [dt|] eqn:E.
  - apply find_some in E. destruct E as [I E]. apply bseq_spec in E. subst ty. destruct (F dt I) as ((mine & Hm) & ms & Ems & NDm & Fm). rewrite Ems. cbn [section bind].
    rewrite (described_cdata _ _ Hm).
    assert (Sub : forall m, In m ms -> exists subs, type_comments k (type_map ds) (lm_type m) = Ok subs /\ keyed subs).
    { intros m Im. destruct (find (fun d => bseq (ld_name d) (lm_type m)) ds) as [dt'|] eqn:E'.
      - apply find_some in E'. destruct E' as [I' E']. apply bseq_spec in E'. pose proof (B dt ms m dt' I Ems Im I' E') as Lt.
        destruct (IH (lm_type m)) as (subs & Es & Ks & _); [lia|]. eauto.
      - destruct k as [|k']; [lia|]. cbn [type_comments]. rewrite type_map_get by exact ND. rewrite E'. exists []. split; [reflexivity|constructor]. }
    destruct (members_ok (type_comments k (type_map ds)) mine ms NDm) with (out := [(ld_name dt, mine)]) as (out & Eo & Ko & P & Pb & _).
    + eapply Forall_impl; [|exact Fm]. intros m (A1 & A2 & _ & A3). split; [exact A1|]. split; [exact A2|exact A3].
    + exact Sub.
    + constructor; [intros []|constructor].
    + exists out. split; [exact Eo|]. split; [exact Ko|]. intros path c C.
      inversion C as [dt' ms' m mine' own I' Ems' Im Nb Hm' Ho En|dt' ms' m mine' own bk I' Ems' Im Eb Hk Hm' Ho En|dt' ms' m mine' own path' c' I' Ems' Im Nb Hm' Ho Ci Nc En]; subst.
      * assert (dt' = dt) as -> by (apply Uniq; assumption). assert (ms' = ms) as -> by congruence.
        assert (mine' = mine) as -> by (rewrite <- (described_cdata _ _ Hm), <- (described_cdata _ _ Hm'); reflexivity).
        rewrite <- (member_desc_words mine m own Ho). cbn [dotted]. now apply P.
      * assert (dt' = dt) as -> by (apply Uniq; assumption). assert (ms' = ms) as -> by congruence.
        assert (mine' = mine) as -> by (rewrite <- (described_cdata _ _ Hm), <- (described_cdata _ _ Hm'); reflexivity).
        rewrite <- (member_desc_words mine m own Ho). cbn [dotted]. apply Pb; [exact Im|exact Eb|now apply bit_number_name].
      * assert (dt' = dt) as -> by (apply Uniq; assumption). assert (ms' = ms) as -> by congruence.
        assert (mine' = mine) as -> by (rewrite <- (described_cdata _ _ Hm), <- (described_cdata _ _ Hm'); reflexivity).
        rewrite <- (member_desc_words mine m own Ho). rewrite dotted_cons by (eapply path_nonempty; exact Ci). rewrite <- pre_words by exact Nc.
        assert (Lt : (rank (lm_type m) < rank (ld_name dt))%nat).
        { assert (X : exists d2, In d2 ds /\ ld_name d2 = lm_type m).
          { clear -Ci. remember (lm_type m) as ty. destruct Ci as [d2 ? ? ? ? I2|d2 ? ? ? ? ? I2|d2 ? ? ? ? ? ? I2]; exists d2; tauto. }
          destruct X as (d2 & I2 & E2). exact (B dt ms m d2 I Ems Im I2 E2). }
        destruct (IH (lm_type m)) as (subs & Es & _ & Q); [lia|]. destruct (P m Im Nb) as [_ P2]. apply (P2 subs); [exact Es|]. now apply Q.
  - exists []. split; [reflexivity|]. split; [constructor|]. intros path c C.
    assert (X : exists dt, In dt ds /\ ld_name dt = ty) by (destruct C as [dt ? ? ? ? I|dt ? ? ? ? ? I|dt ? ? ? ? ? ? I]; exists dt; tauto).
    destruct X as (dt & I & En). apply find_none with (x := dt) in E; [|exact I]. rewrite En, bseq_refl in E. discriminate.
Qed.

(** ** Tags *)
Definition tag_key (t : ltag) (k : bytes) : bytes := lt_name t ++ str "." ++ k.
Lemma tag_comments_get t m subs d : free_of 46 (lt_name t) -> keyed subs -> tag_says t d -> lt_data t <> [] ->
  (lt_descs t <> [] -> mget (lt_name t) (tag_comments t m subs) = Some d) /\
  (forall k c, mget k subs = Some c -> c <> [] -> mget (tag_key t k) (tag_comments t m subs) = Some (words d c)) /\
  (forall k, k <> lt_name t -> (forall x, k <> tag_key t x) -> mget k (tag_comments t m subs) = mget k m).
Proof.
  intros Fd K Sd Nd. unfold tag_comments.
  assert (Ed : tag_desc t = match lt_descs t with [] => None | _ => Some d end).
  { unfold tag_desc. destruct (lt_data t) as [|x l]; [congruence|]. unfold tag_says in Sd. destruct (lt_descs t) as [|inner [|? ?]]; [reflexivity| |contradiction].
    destruct Sd as [Sy U]. now rewrite (Prop_L5xRung.cdata_says _ _ Sy U). }
  assert (D0 : lt_descs t = [] -> d = []). { unfold tag_says in Sd. intro E. now rewrite E in Sd. }
  set (m0 := match tag_desc t with Some d => mset m (lt_name t) d | None => m end).
  set (val := fun c : bytes => match tag_desc t with Some ((_ :: _) as d) => d ++ str " " ++ c | _ => c end).
  assert (Ev : forall c, c <> [] -> val c = words d c).
  { intros c Nc. subst val. cbv beta. rewrite Ed. destruct (lt_descs t); [rewrite D0 by reflexivity; destruct c; [congruence|reflexivity]|]. destruct d, c; try congruence; reflexivity. }
  assert (El : forall m1, fold_left (fun m s => match snd s with [] => m | c => mset m (lt_name t ++ str "." ++ fst s) (match tag_desc t with Some ((_ :: _) as d) => d ++ str " " ++ c | _ => c end) end) subs m1
    = fold_left (fun m s => mset m (tag_key t (fst s)) (val (snd s))) (filter (fun s => negb (bseq (snd s) [])) subs) m1).
  { clear. intro m1. revert m1. induction subs as [|s subs IH]; intro m1; [reflexivity|]. cbn [fold_left filter]. rewrite IH. destruct (snd s) as [|c r] eqn:E; cbn [bseq negb]; [reflexivity|].
    cbn [fold_left]. now rewrite E. }
  rewrite El. fold m0.
  assert (G : forall k, mget k (fold_left (fun m s => mset m (tag_key t (fst s)) (val (snd s))) (filter (fun s => negb (bseq (snd s) [])) subs) m0)
    = match find (fun s => bseq (tag_key t (fst s)) k) (rev (filter (fun s => negb (bseq (snd s) [])) subs)) with Some s => Some (val (snd s)) | None => mget k m0 end).
  { intro k. apply (fold_mset (fun s : bytes * bytes => tag_key t (fst s)) (fun s => val (snd s))). }
  split; [|split].
  - intro Nn. rewrite G, (find_absent (fun s : bytes * bytes => tag_key t (fst s))).
    + subst m0. rewrite Ed. destruct (lt_descs t); [congruence|]. apply mget_mset_same.
    + intro I. apply in_map_iff in I. destruct I as (s & E & _). apply Fd. rewrite <- E. apply in_or_app. right. now left.
  - intros k c Gk Nc. rewrite G. unfold mget in Gk. destruct (find (fun x => bseq (fst x) k) subs) as [s|] eqn:Fk; [|discriminate]. apply find_some in Fk. destruct Fk as [I B].
    apply bseq_spec in B. subst k. assert (Es : snd s = c) by congruence.
    rewrite (find_unique (fun s : bytes * bytes => tag_key t (fst s))).
    + rewrite Es. f_equal. now apply Ev.
    + rewrite <- (map_map fst (tag_key t)). apply FinFun.Injective_map_NoDup; [intros x y E; unfold tag_key in E; apply app_inv_head in E; now apply app_inv_head in E|]. now apply Prop_L5xRung.nodup_filter.
    + apply filter_In. split; [exact I|]. rewrite Es. destruct c; [congruence|reflexivity].
  - intros k N1 N2. rewrite G, (find_absent (fun s : bytes * bytes => tag_key t (fst s))).
    + subst m0. destruct (tag_desc t); [|reflexivity]. apply mget_mset_other. congruence.
    + intro I. apply in_map_iff in I. destruct I as (s & E & _). exact (N2 (fst s) (eq_sym E)).
Qed.
Lemma all_tags_ok ds rank fuel : NoDup (map ld_name ds) -> Forall type_ok ds -> below ds rank -> forall ts,
  NoDup (map lt_name ts) -> Forall (fun t => free_of 46 (lt_name t) /\ lt_data t <> [] /\ (exists d, tag_says t d) /\ (rank (lt_type t) + 1 < fuel)%nat) ts -> forall m,
  exists m', all_tag_comments fuel (type_map ds) m ts = Ok m' /\
    (forall t d, In t ts -> tag_says t d -> (lt_descs t <> [] -> mget (lt_name t) m' = Some d) /\
       forall path c, comment_at ds (lt_type t) path c -> c <> [] -> mget (lt_name t ++ str "." ++ dotted path) m' = Some (words d c)) /\
    (forall k, (forall t, In t ts -> k <> lt_name t /\ forall x, k <> tag_key t x) -> mget k m' = mget k m).
Proof.
  intros ND F B ts NDt Ft. induction Ft as [|t ts (Fd & Nd & (d & Sd) & Lt) Ft IH]; intro m; [exists m; split; [reflexivity|split; [contradiction|reflexivity]]|].
  cbn [map] in NDt. inversion NDt as [|? ? Nt NDt']; subst. cbn [all_tag_comments].
  destruct (types_ok ds rank ND F B fuel (lt_type t) Lt) as (subs & Es & Ks & Q). rewrite Es. cbn [bind].
  destruct (tag_comments_get t m subs d Fd Ks Sd Nd) as (A1 & A2 & A3).
  destruct (IH NDt' (tag_comments t m subs)) as (m' & E & P & O). exists m'. split; [exact E|].
  assert (Dist : forall u, In u ts -> lt_name t <> lt_name u) by (intros u Iu Eq; apply Nt; rewrite Eq; now apply in_map).
  assert (Fu : forall u, In u ts -> free_of 46 (lt_name u)) by (intros u Iu; rewrite Forall_forall in Ft; now apply Ft).
  split.
  - intros u du [<-|Iu] Su; [|now apply P].
    assert (du = d) as ->.
    { unfold tag_says in Sd, Su. destruct (lt_descs t) as [|inner [|? ?]]; [congruence| |contradiction]. destruct Sd as [S1 U1], Su as [S2 U2].
      rewrite <- (Prop_L5xRung.cdata_says _ _ S1 U1), <- (Prop_L5xRung.cdata_says _ _ S2 U2). reflexivity. }
    split.
    + intro Nn. rewrite O; [now apply A1|]. intros u Iu. split; [now apply Dist|]. intros x Ex. apply Fd. rewrite Ex. apply in_or_app. right. now left.
    + intros path c C Nc. rewrite O; [apply A2; [now apply Q|exact Nc]|]. intros u Iu. split.
      * intro Ex. apply (Fu u Iu). rewrite <- Ex. apply in_or_app. right. now left.
      * intros x Ex. apply (Dist u Iu). unfold tag_key in Ex. apply (Prop_L5xRung.sep_inj 46) in Ex; [apply Ex|exact Fd|now apply Fu].
  - intros k N. rewrite O; [apply A3; apply (N t); now left|]. intros u Iu. apply N. now right.
Qed.

(** ** Modules *)
Lemma module_flat m u : module_comments m u = fold_left Prop_L5xRung.note (module_notes [u]) m.
Proof.
  unfold module_comments, module_notes. cbn [flat_map]. rewrite app_nil_r. destruct (lu_conns u) as [cs|]; [|reflexivity].
  revert m. induction cs as [|c cs IH]; intro m; [reflexivity|]. cbn [fold_left flat_map]. rewrite !fold_left_app, IH. f_equal.
  assert (X : forall mark l m, fold_left (fun m (oc : bytes * bytes) => match cdata (snd oc) with [] => m | c => mset m (lu_name u ++ mark ++ fst oc) c end) l m
    = fold_left Prop_L5xRung.note (map (fun oc => (lu_name u ++ mark ++ fst oc, snd oc)) l) m).
  { intros mark l. induction l as [|oc l IHl]; intro m1; [reflexivity|]. cbn [fold_left map]. rewrite IHl. f_equal. unfold Prop_L5xRung.note. cbn [fst snd]. destruct (cdata (snd oc)); reflexivity. }
  rewrite (X (str ":I")), (X (str ":O")). reflexivity.
Qed.
Lemma modules_flat us : forall m, fold_left module_comments us m = fold_left Prop_L5xRung.note (module_notes us) m.
Proof.
  induction us as [|u us IH]; intro m; [reflexivity|]. cbn [fold_left]. rewrite IH, module_flat, <- fold_left_app. f_equal. unfold module_notes. cbn [flat_map]. now rewrite app_nil_r.
Qed.
Lemma modules_get us k inner c : NoDup (map fst (module_notes us)) -> In (k, inner) (module_notes us) -> says inner c -> unquoted c -> c <> [] ->
  mget k (fold_left module_comments us []) = Some c.
Proof.
  intros ND I Sy U N. rewrite modules_flat, Prop_L5xRung.note_fold.
  rewrite (fold_mset fst (fun x => cdata (snd x))). rewrite (find_unique fst _ (k, inner)).
  - cbn [snd]. now rewrite (Prop_L5xRung.cdata_says _ _ Sy U).
  - now apply Prop_L5xRung.nodup_filter.
  - apply filter_In. split; [exact I|]. cbn [snd]. rewrite (Prop_L5xRung.cdata_says _ _ Sy U). destruct c; [congruence|reflexivity].
Qed.
Lemma module_key us k inner : In (k, inner) (module_notes us) -> exists u r, In u us /\ k = lu_name u ++ [58] ++ r.
Proof.
  unfold module_notes. intro I. apply in_flat_map in I. destruct I as (u & Iu & I). exists u. destruct (lu_conns u) as [cs|]; [|contradiction].
  apply in_flat_map in I. destruct I as (c & _ & I). apply in_app_or in I. destruct I as [I|I]; apply in_map_iff in I; destruct I as (oc & E & _); injection E as <- _.
  - exists (str "I" ++ fst oc). split; [exact Iu|reflexivity].
  - exists (str "O" ++ fst oc). split; [exact Iu|reflexivity].
Qed.

(** C88: the comment of every tag of the controller, and for every member of its
    type what the tag, the types and the members on the way say. *)
Theorem C88_tags_partial : forall f ds us ts ps rank fuel,
  lf_types f = Some ds -> lf_modules f = Some us -> lf_tags f = Some ts -> lf_programs f = Some ps -> Forall (fun p => lp_tags p <> None) ps ->
  NoDup (map ld_name ds) -> Forall type_ok ds -> below ds rank ->
  NoDup (map lt_name ts) -> Forall (fun t => free_of 46 (lt_name t) /\ lt_data t <> [] /\ (exists d, tag_says t d) /\ (rank (lt_type t) + 1 < fuel)%nat) ts ->
  exists m, load_tag_comments fuel f = Ok m /\
    (forall t d, In t ts -> tag_says t d -> (lt_descs t <> [] -> mget (lt_name t) m = Some d) /\
      forall path c, comment_at ds (lt_type t) path c -> c <> [] -> mget (lt_name t ++ str "." ++ dotted path) m = Some (words d c)) /\
    (NoDup (map fst (module_notes us)) -> Forall (fun u => free_of 46 (lu_name u)) us -> Forall (fun t => free_of 58 (lt_name t)) ts ->
     forall k inner c, In (k, inner) (module_notes us) -> says inner c -> unquoted c -> c <> [] -> mget k m = Some c).
Proof.
  intros f ds us ts ps rank fuel Ed Eu Et Ep Fp ND F B NDt Ft. unfold load_tag_comments. rewrite Ed, Eu, Et, Ep. cbn [section bind].
  destruct (all_tags_ok ds rank fuel ND F B ts NDt Ft (fold_left module_comments us [])) as (m & E & P & O). rewrite E. cbn [bind].
  assert (X : programs_looked_at ps = Ok tt).
  { clear -Fp. induction Fp as [|p ps H _ IH]; [reflexivity|]. cbn [programs_looked_at]. destruct (lp_tags p); [|congruence]. exact IH. }
  rewrite X. cbn [bind]. exists m. split; [reflexivity|]. split; [exact P|].
  intros NDu Fu Fc k inner c I Sy U N. rewrite O; [now apply (modules_get us k inner)|].
  destruct (module_key us k inner I) as (u & r & Iu & ->). rewrite Forall_forall in Fu, Fc, Ft. intros t It.
  assert (Ct : free_of 58 (lt_name t)) by (now apply Fc). assert (Du : free_of 46 (lu_name u)) by (now apply Fu). assert (Dt : free_of 46 (lt_name t)) by (now apply Ft). split.
  - intro Ek. apply Ct. rewrite <- Ek. apply in_or_app. right. now left.
  - intros x Ex. unfold tag_key in Ex. change (str ".") with [46] in Ex. clear -Ex Ct Du. revert Ex Ct Du. generalize (lu_name u), (lt_name t). unfold free_of.
    intro b. induction b as [|a b IH]; intros [|a' b'] Ex Ct Du; try discriminate.
    + injection Ex as E1 E2. subst a'. apply Ct. now left.
    + injection Ex as E1 E2. subst a. apply Du. now left.
    + injection Ex as E1 E2. apply (IH b' E2); intro H; [apply Ct|apply Du]; now right.
Qed.
Print Assumptions C88_tags_partial.
(** A pump with a drive in it: what is said of Pump1.Drive.Speed is what the tag,
    the type, the member and the member's member are described with. *)
Definition cd := Prop_L5xRung.cd.
Definition ex_ds : list ldtype :=
  [LDType (str "DRIVE") None (Some [LMember (str "Speed") (str "REAL") [] 0 (Some (cd (str "in rpm")))]);
   LDType (str "PUMP") (Some (cd (str "pump"))) (Some [LMember (str "Drive") (str "DRIVE") [] 0 (Some (cd (str "drive"))); LMember (str "On") (str "BIT") (str "ZZZZZZZZZZPUMP1") 3 None])].
Definition ex_ts : list ltag :=
  [LTag (str "Pump1") (str "PUMP") [] [cd (str "north")] [DData (str "L5K") None None None]; LTag (str "Pump2") (str "PUMP") [] [] [DData (str "L5K") None None None]].
Definition ex_rank (ty : bytes) : nat := if bseq ty (str "PUMP") then 1%nat else 0%nat.
Definition tag_file (ds : list ldtype) (ts : list ltag) (ps : list lprogram) : lfile := LFile (Some ds) (Some []) (Some ts) (Some ps) None.
Lemma cd_described s : unquoted s -> s <> [] -> described (Some (cd s)) s.
Proof. intros U N. split; [apply Prop_L5xRung.cd_says|]. now split. Qed.
Ltac plain_name := let H := fresh in intro H; vm_compute in H; intuition discriminate.
Example ex_C88 : NoDup (map ld_name ex_ds) /\ Forall type_ok ex_ds /\ below ex_ds ex_rank /\ NoDup (map lt_name ex_ts) /\
  Forall (fun t => free_of 46 (lt_name t) /\ lt_data t <> [] /\ (exists d, tag_says t d) /\ (ex_rank (lt_type t) + 1 < 3)%nat) ex_ts /\
  comment_at ex_ds (str "PUMP") [str "Drive"; str "Speed"] (str "pump drive in rpm") /\
  exists m, load_tag_comments 3 (tag_file ex_ds ex_ts []) = Ok m /\
    mget (str "Pump1") m = Some (str "north") /\ mget (str "Pump1.Drive.Speed") m = Some (str "north pump drive in rpm") /\
    mget (str "Pump2.Drive.Speed") m = Some (str "pump drive in rpm").
Proof.
  split; [constructor; [intros [E|[]]; discriminate|]; constructor; [intros []|constructor]|].
  split.
  { constructor; [|constructor; [|constructor]].
    - split; [now exists []|]. eexists. split; [reflexivity|]. split; [constructor; [intros []|constructor]|]. constructor; [|constructor].
      split; [plain_name|]. split; [plain_name|]. split; [|discriminate]. eexists. apply cd_described; [split; vm_compute; discriminate|discriminate].
    - split; [eexists; apply cd_described; [split; vm_compute; discriminate|discriminate]|]. eexists. split; [reflexivity|].
      split; [constructor; [intros [E|[]]; discriminate|]; constructor; [intros []|constructor]|]. constructor; [|constructor; [|constructor]].
      + split; [plain_name|]. split; [plain_name|]. split; [|discriminate]. eexists. apply cd_described; [split; vm_compute; discriminate|discriminate].
      + split; [plain_name|]. split; [plain_name|]. split; [now exists []|]. intros _. vm_compute. lia. }
  split.
  { intros dt ms m dt' [<-|[<-|[]]] E; cbn [ld_members] in E; injection E as <-.
    - intros [<-|[]] [<-|[<-|[]]] E; discriminate.
    - intros [<-|[<-|[]]] [<-|[<-|[]]] E; try discriminate. vm_compute. lia. }
  split; [constructor; [intros [E|[]]; discriminate|]; constructor; [intros []|constructor]|].
  split.
  { constructor; [|constructor; [|constructor]]; (split; [plain_name|]); (split; [discriminate|]); (split; [|vm_compute; lia]).
    - exists (str "north"). split; [apply Prop_L5xRung.cd_says|split; vm_compute; discriminate].
    - now exists []. }
  split.
  { change (str "pump drive in rpm") with (words (words (str "pump") (str "drive")) (words [] (str "in rpm"))).
    eapply (ca_inside ex_ds (LDType (str "PUMP") _ _) _ (LMember (str "Drive") (str "DRIVE") _ _ _)); [right; left; reflexivity|reflexivity|left; reflexivity|discriminate|
      apply cd_described; [split; vm_compute; discriminate|discriminate]|apply cd_described; [split; vm_compute; discriminate|discriminate]| |discriminate].
    eapply (ca_member ex_ds (LDType (str "DRIVE") _ _) _ (LMember (str "Speed") (str "REAL") _ _ _)); [left; reflexivity|reflexivity|left; reflexivity|discriminate|reflexivity|
      apply cd_described; [split; vm_compute; discriminate|discriminate]]. }
  eexists. split; [vm_compute; reflexivity|]. split; [reflexivity|]. split; reflexivity.
Qed.
(** Bit 2 of the second byte of a type of bits is its bit 10. *)
Definition ex_flag := LMember (str "Jam") (str "BIT") (str "ZZZZZZZZZZFLAGS9") 2 (Some (cd (str "jammed"))).
Definition ex_flags := LDType (str "FLAGS") None (Some [LMember (str "ZZZZZZZZZZFLAGS0") (str "SINT") [] 0 None; LMember (str "ZZZZZZZZZZFLAGS9") (str "SINT") [] 0 None; ex_flag]).
Example ex_C88_bit : type_ok ex_flags /\ comment_at [ex_flags] (str "FLAGS") [str "Jam<10>"] (str "jammed") /\
  exists m, load_tag_comments 3 (tag_file [ex_flags] [LTag (str "F") (str "FLAGS") [] [] [DData (str "L5K") None None None]] []) = Ok m /\ mget (str "F.Jam<10>") m = Some (str "jammed").
Proof.
  split; [|split].
  - split; [now exists []|]. eexists. split; [reflexivity|]. split; [repeat (constructor; [vm_compute; intuition discriminate|]); constructor|].
    constructor; [|constructor; [|constructor; [|constructor]]]; (split; [plain_name|]); (split; [plain_name|]).
    + split; [now exists []|discriminate].
    + split; [now exists []|discriminate].
    + split; [eexists; apply cd_described; [split; vm_compute; discriminate|discriminate]|]. intros _. vm_compute. lia.
  - change (str "jammed") with (words [] (str "jammed")). change (str "Jam<10>") with (lm_name ex_flag ++ str "<" ++ dec 10 ++ str ">").
    eapply (ca_bit [ex_flags] ex_flags _ ex_flag); [left; reflexivity|reflexivity|right; right; left; reflexivity|reflexivity| |reflexivity|
      apply cd_described; [split; vm_compute; discriminate|discriminate]].
    exists (str "ZZZZZZZZZZFLAG"), 83, 1. split; [left; lia|]. split; [lia|]. split; [cbn; lia|]. split; [reflexivity|]. split; [discriminate|reflexivity].
  - eexists. split; [vm_compute; reflexivity|reflexivity].
Qed.
(** Comments of a program's tags are looked at and thrown away; *)
Theorem C88_program_refuted : exists f p t d, lf_programs f = Some [p] /\ lp_tags p = Some [t] /\ tag_says t d /\ d <> [] /\ lt_data t <> [] /\
  forall fuel, load_tag_comments fuel f = Ok [].
Proof.
  exists (tag_file [] [] [LProgram (str "Main") (Some [LTag (str "Step") (str "DINT") [] [cd (str "now")] [DData (str "L5K") None None None]]) None]),
    (LProgram (str "Main") (Some [LTag (str "Step") (str "DINT") [] [cd (str "now")] [DData (str "L5K") None None None]]) None),
    (LTag (str "Step") (str "DINT") [] [cd (str "now")] [DData (str "L5K") None None None]), (str "now").
  split; [reflexivity|]. split; [reflexivity|]. split; [split; [apply Prop_L5xRung.cd_says|split; vm_compute; discriminate]|]. split; [discriminate|]. split; [discriminate|]. reflexivity.
Qed.
Print Assumptions C88_program_refuted.
(** the comment of a tag without data of its own, an alias, is lost; *)
Theorem C88_alias_refuted : exists f t d, lf_tags f = Some [t] /\ tag_says t d /\ d <> [] /\ lt_data t = [] /\
  forall fuel, load_tag_comments (S fuel) f = Ok [].
Proof.
  exists (tag_file [] [LTag (str "Start") (str "BOOL") [] [cd (str "button")] []] []), (LTag (str "Start") (str "BOOL") [] [cd (str "button")] []), (str "button").
  split; [reflexivity|]. split; [split; [apply Prop_L5xRung.cd_says|split; vm_compute; discriminate]|]. split; [discriminate|]. split; reflexivity.
Qed.
Print Assumptions C88_alias_refuted.
(** a bit of a type is not found under its name; *)
Theorem C88_bit_refuted : exists f m, load_tag_comments 3 f = Ok m /\
  lf_types f = Some [LDType (str "PUMP") None (Some [LMember (str "On") (str "BIT") (str "ZZZZZZZZZZPUMP1") 3 (Some (cd (str "runs")))])] /\
  lf_tags f = Some [LTag (str "Pump1") (str "PUMP") [] [] [DData (str "L5K") None None None]] /\
  mget (str "Pump1.On") m = None /\ mget (str "Pump1.On<4>") m = Some (str "runs").
Proof.
  exists (tag_file [LDType (str "PUMP") None (Some [LMember (str "On") (str "BIT") (str "ZZZZZZZZZZPUMP1") 3 (Some (cd (str "runs")))])]
    [LTag (str "Pump1") (str "PUMP") [] [] [DData (str "L5K") None None None]] []), [(str "Pump1.On<4>", str "runs")].
  split; [vm_compute; reflexivity|]. split; [reflexivity|]. split; [reflexivity|]. split; reflexivity.
Qed.
Print Assumptions C88_bit_refuted.
(** a type with a description leaves a comment for a member that does not exist. *)
Theorem C88_type_refuted : exists f m, load_tag_comments 3 f = Ok m /\
  lf_types f = Some [LDType (str "PUMP") (Some (cd (str "pump"))) (Some [])] /\
  lf_tags f = Some [LTag (str "Pump1") (str "PUMP") [] [] [DData (str "L5K") None None None]] /\
  mget (str "Pump1.PUMP") m = Some (str "pump").
Proof.
  exists (tag_file [LDType (str "PUMP") (Some (cd (str "pump"))) (Some [])] [LTag (str "Pump1") (str "PUMP") [] [] [DData (str "L5K") None None None]] []),
    [(str "Pump1.PUMP", str "pump")].
  split; [vm_compute; reflexivity|]. split; [reflexivity|]. split; reflexivity.
Qed.
Print Assumptions C88_type_refuted.
(** A type that is part of itself never ends, *)
Theorem C88_recursive_refuted : exists f, forall fuel, load_tag_comments fuel f = OutOfFuel.
Proof.
  exists (tag_file [LDType (str "NODE") None (Some [LMember (str "Next") (str "NODE") [] 0 None])] [LTag (str "Head") (str "NODE") [] [] []] []).
  assert (X : forall fuel, type_comments fuel (type_map [LDType (str "NODE") None (Some [LMember (str "Next") (str "NODE") [] 0 None])]) (str "NODE") = OutOfFuel).
  { induction fuel as [|k IH]; [reflexivity|]. cbn [type_comments]. 
    change (mget (str "NODE") (type_map [LDType (str "NODE") None (Some [LMember (str "Next") (str "NODE") [] 0 None])]))
      with (Some (LDType (str "NODE") None (Some [LMember (str "Next") (str "NODE") [] 0 None]))).
    cbv iota. cbn [ld_members section bind member_comments lm_type]. rewrite IH. reflexivity. }
  intro fuel. unfold load_tag_comments, tag_file. cbn [lf_types lf_modules lf_tags section bind fold_left all_tag_comments lt_type]. rewrite X. reflexivity.
Qed.
Print Assumptions C88_recursive_refuted.
(** and a file without modules panics. *)
Theorem C88_no_modules_crashes : forall f fuel, lf_modules f = None -> load_tag_comments fuel f = Panic.
Proof. intros f fuel E. unfold load_tag_comments. rewrite E. destruct (lf_types f); reflexivity. Qed.
Print Assumptions C88_no_modules_crashes.
