(** * C87: the comments of rungs in a project file *)
From Verif Require Import GoBase TypesModel L5xModel L5xSpec L5xProof.
From Verif Require ListModel.

(** ** The text of a comment *)
Lemma white_space c : c = 32 \/ 9 <= c <= 13 -> ListModel.is_space c = true.
Proof. unfold ListModel.is_space. intros [->|H]; [reflexivity|]. apply orb_true_iff. right. apply andb_true_iff. rewrite !Z.leb_le. lia. Qed.
Lemma trim_left_white a s : white a -> ListModel.trim_left (a ++ s) = ListModel.trim_left s.
Proof. induction 1 as [|c a H _ IH]; [reflexivity|]. cbn [app ListModel.trim_left]. now rewrite white_space. Qed.
Lemma trim_space_white a s b : white a -> white b -> hd 32 s <> 32 -> ListModel.is_space (hd 32 s) = false -> ListModel.is_space (last s 32) = false ->
  ListModel.trim_space (a ++ s ++ b) = s.
Proof.
  intros A B N H L. unfold ListModel.trim_space. rewrite trim_left_white by exact A.
  destruct s as [|c s]; [discriminate H|]. cbn [hd] in H. cbn [app ListModel.trim_left]. rewrite H.
  change (c :: s ++ b) with ((c :: s) ++ b). rewrite rev_app_distr, trim_left_white.
  - destruct (rev (c :: s)) as [|e t] eqn:E; [apply (f_equal (@length Z)) in E; rewrite rev_length in E; discriminate|].
    assert (Es : c :: s = rev t ++ [e]) by (rewrite <- (rev_involutive (c :: s)), E; reflexivity).
    assert (e = last (c :: s) 32) as He by (rewrite Es; symmetry; apply last_last).
    cbn [ListModel.trim_left]. rewrite He, L, <- He. cbn [rev]. now rewrite Es.
  - apply Forall_rev. exact B.
Qed.
Lemma trim_prefix_not p c s : p <> c -> trim_prefix [p] (c :: s) = c :: s.
Proof. intro N. unfold trim_prefix. cbn [has_prefix]. replace (p =? c) with false by (symmetry; apply Z.eqb_neq; exact N). reflexivity. Qed.
Lemma cdata_says inner c : says inner c -> unquoted c -> cdata inner = c.
Proof.
  intros (a & b & A & B & ->) (Q1 & Q2). unfold cdata.
  replace (a ++ str "<![CDATA[" ++ c ++ str "]]>" ++ b) with (a ++ (str "<![CDATA[" ++ c ++ str "]]>") ++ b) by (rewrite <- !app_assoc; reflexivity).
  rewrite trim_space_white; try assumption; [|discriminate|reflexivity|].
  - rewrite trim_prefix_app, trim_suffix_app. destruct c as [|x c]; [reflexivity|]. cbn [hd] in Q1.
    change (str "'") with [39]. rewrite trim_prefix_not by congruence. unfold trim_suffix.
    destruct (rev (x :: c)) as [|e t] eqn:E; [apply (f_equal (@length Z)) in E; rewrite rev_length in E; discriminate|].
    assert (Es : x :: c = rev t ++ [e]) by (rewrite <- (rev_involutive (x :: c)), E; reflexivity).
    assert (e <> 39) by (rewrite Es in Q2; now rewrite last_last in Q2). change (rev [39]) with [39]. rewrite trim_prefix_not by congruence. now rewrite Es.
  - rewrite app_assoc. change (str "]]>") with (str "]]" ++ [62]). rewrite app_assoc, last_last. reflexivity.
Qed.

(** ** Places are different for different rungs *)
Lemma sep_inj x a a' r r' : free_of x a -> free_of x a' -> a ++ [x] ++ r = a' ++ [x] ++ r' -> a = a' /\ r = r'.
Proof.
  unfold free_of. revert a'. induction a as [|c a IH]; intros [|c' a'] N N' E; cbn [app] in E.
  - split; [reflexivity|congruence].
  - exfalso. apply N'. left. congruence.
  - exfalso. apply N. left. congruence.
  - destruct (IH a') as [-> ->]; [intro I; apply N; now right|intro I; apply N'; now right|cbn [app]; congruence|]. split; [f_equal|]; congruence.
Qed.
Lemma place_inj t p o n t' p' o' n' : free_of 47 t -> free_of 47 t' -> free_of 47 p -> free_of 47 p' -> free_of 91 o -> free_of 91 o' ->
  place t p o n = place t' p' o' n' -> p = p' /\ o = o' /\ n = n'.
Proof.
  intros T T' P P' O O' E. unfold place in E. apply (sep_inj 47) in E; [|assumption..]. destruct E as [_ E].
  apply (sep_inj 47) in E; [|assumption..]. destruct E as [-> E]. apply (sep_inj 91) in E; [|assumption..]. destruct E as [-> E]. apply app_inv_tail in E. now subst.
Qed.

(** ** The loops *)
Lemma fold_flat {A B M} (g : M -> B -> M) (h : A -> list B) l : forall m, fold_left (fun m x => fold_left g (h x) m) l m = fold_left g (flat_map h l) m.
Proof. induction l as [|x l IH]; intro m; [reflexivity|]. cbn [fold_left flat_map]. now rewrite IH, fold_left_app. Qed.
Lemma fold_ext {A M} (f g : M -> A -> M) l : (forall m x, f m x = g m x) -> forall m, fold_left f l m = fold_left g l m.
Proof. intro E. induction l as [|x l IH]; intro m; [reflexivity|]. cbn [fold_left]. now rewrite E, IH. Qed.
Definition note (m : list (bytes * bytes)) (x : bytes * bytes) : list (bytes * bytes) :=
  match cdata (snd x) with [] => m | _ => mset m (fst x) (cdata (snd x)) end.
Definition rung_notes (loc : lrung -> bytes) (r : lrung) : list (bytes * bytes) := map (fun c => (loc r, c)) (lr_comments r).
Lemma rung_flat loc m r : rung_comments (loc r) m r = fold_left note (rung_notes loc r) m.
Proof.
  unfold rung_comments, rung_notes. revert m. induction (lr_comments r) as [|c l IH]; intro m; [reflexivity|]. cbn [fold_left map]. rewrite IH. reflexivity.
Qed.
Definition routine_notes (t p : bytes) (o : lroutine) : list (bytes * bytes) :=
  flat_map (rung_notes (fun r => rung_location t p (lo_name o) (lr_number r))) (concat (lo_content o)).
Lemma routine_flat t p m o : routine_comments t p m o = fold_left note (routine_notes t p o) m.
Proof.
  unfold routine_comments, routine_notes. rewrite <- fold_flat. set (loc := fun r => rung_location t p (lo_name o) (lr_number r)).
  rewrite (fold_ext _ (fun m rs => fold_left (fun m r => fold_left note (rung_notes loc r) m) rs m)).
  - rewrite (fold_flat (fun m r => fold_left note (rung_notes loc r) m) (fun rs => rs)). rewrite flat_map_concat_map, map_id. reflexivity.
  - intros m0 rs. apply fold_ext. intros m1 r. apply (rung_flat loc).
Qed.
Definition task_of (tasks : list (bytes * bytes)) (p : bytes) : bytes := match mget p tasks with Some t => t | None => [] end.
Definition all_notes (tasks : list (bytes * bytes)) (ps : list lprogram) : list (bytes * bytes) :=
  flat_map (fun p => flat_map (routine_notes (task_of tasks (lp_name p)) (lp_name p)) (match lp_routines p with Some os => os | None => [] end)) ps.
Lemma programs_flat tasks ps : Forall (fun p => lp_routines p <> None) ps -> forall m, programs_comments tasks m ps = Ok (fold_left note (all_notes tasks ps) m).
Proof.
  unfold all_notes. induction 1 as [|p ps H _ IH]; intro m; [reflexivity|]. cbn [programs_comments flat_map]. destruct (lp_routines p) as [os|]; [|congruence].
  cbn [section bind]. rewrite IH, fold_left_app. f_equal. f_equal. rewrite <- fold_flat. apply fold_ext. intros m0 o. apply routine_flat.
Qed.
(** Reading the result. *)
Lemma note_fold l : forall m, fold_left note l m = fold_left (fun m x => mset m (fst x) (cdata (snd x))) (filter (fun x => negb (bseq (cdata (snd x)) [])) l) m.
Proof.
  induction l as [|x l IH]; intro m; [reflexivity|]. cbn [fold_left filter]. unfold note at 2. destruct (cdata (snd x)) as [|c t] eqn:E; cbn [bseq negb]; [apply IH|].
  cbn [fold_left]. rewrite IH, E. reflexivity.
Qed.
Lemma nodup_filter {A B} (f : A -> B) g l : NoDup (map f l) -> NoDup (map f (filter g l)).
Proof.
  induction l as [|x l IH]; intro ND; [constructor|]. cbn [map] in ND. inversion ND as [|? ? N ND']; subst. cbn [filter]. destruct (g x); [|now apply IH].
  cbn [map]. constructor; [|now apply IH]. intro I. apply N. apply in_map_iff in I. destruct I as (y & E & I). apply filter_In in I. rewrite <- E. apply in_map. apply I.
Qed.
Lemma task_lookup_flat ks : task_lookup ks = fold_left (fun m x => mset m (fst x) (snd x))
  (flat_map (fun k => map (fun p => (p, lk_name k)) (match lk_programs k with Some l => l | None => [] end)) ks) [].
Proof.
  unfold task_lookup. rewrite <- fold_flat. apply fold_ext. intros m k. destruct (lk_programs k) as [l|]; [|reflexivity]. revert m.
  induction l as [|p l IH]; intro m; [reflexivity|]. cbn [fold_left map]. apply IH.
Qed.
Lemma task_of_runs ks p : NoDup (scheduled ks) -> runs_in ks p (task_of (task_lookup ks) p).
Proof.
  intro ND. unfold task_of. rewrite task_lookup_flat. set (l := flat_map _ ks).
  assert (Ek : map fst l = scheduled ks).
  { subst l. unfold scheduled. clear. induction ks as [|k ks IH]; [reflexivity|]. cbn [flat_map]. rewrite map_app, IH. f_equal. rewrite map_map. cbn [fst]. apply map_id. }
  rewrite fold_mset. destruct (find (fun x => bseq (fst x) p) (rev l)) as [[q t]|] eqn:F.
  - left. apply find_some in F. destruct F as [I B]. apply bseq_spec in B. cbn [fst] in B. subst q. rewrite <- in_rev in I. cbn [snd]. subst l. apply in_flat_map in I.
    destruct I as (k & Ik & I). apply in_map_iff in I. destruct I as (q & E & I). apply pair_equal_spec in E. destruct E as [-> <-]. exists k.
    destruct (lk_programs k) as [lp|]; [|contradiction]. exists lp. tauto.
  - right. split; [reflexivity|]. intros k lp Ik El Ip. apply find_none with (x := (p, lk_name k)) in F; [cbn [fst] in F; now rewrite bseq_refl in F|].
    rewrite <- in_rev. subst l. apply in_flat_map. exists k. split; [exact Ik|]. rewrite El. apply in_map_iff. exists p. split; [reflexivity|exact Ip].
Qed.
Lemma runs_in_once ks p t t' : NoDup (scheduled ks) -> runs_in ks p t -> runs_in ks p t' -> t = t'.
Proof.
  intros ND [(k & l & Ik & El & Ip & <-)|(-> & N)] [(k' & l' & Ik' & El' & Ip' & <-)|(-> & N')]; try reflexivity; try (exfalso; now apply (N' k l)); try (exfalso; now apply (N k' l')).
  f_equal. unfold scheduled in ND. clear -ND Ik El Ip Ik' El' Ip'.
  induction ks as [|x ks IH]; [contradiction|]. cbn [flat_map] in ND.
  assert (Other : forall k l, In k ks -> lk_programs k = Some l -> In p l -> In p (flat_map (fun k => match lk_programs k with Some l => l | None => [] end) ks)).
  { intros k0 l0 I E J. apply in_flat_map. exists k0. rewrite E. tauto. }
  assert (Dis : forall l0, lk_programs x = Some l0 -> In p l0 -> ~ In p (flat_map (fun k => match lk_programs k with Some l => l | None => [] end) ks)).
  { intros l0 E I J. rewrite E in ND. clear -ND I J. induction l0 as [|y l0 IH]; [contradiction|]. cbn [app] in ND. inversion ND as [|? ? N ND']; subst.
    destruct I as [<-|I]; [apply N, in_or_app; now right|now apply IH]. }
  destruct Ik as [->|Ik], Ik' as [->|Ik']; [reflexivity| | |apply IH; try assumption].
  - exfalso. apply (Dis l El Ip). now apply (Other k' l').
  - exfalso. apply (Dis l' El' Ip'). now apply (Other k l).
  - clear -ND. revert ND. generalize (match lk_programs x with Some l => l | None => [] end). intro a. induction a as [|y a IHa]; cbn [app]; intro ND; [exact ND|]. inversion ND; subst. now apply IHa.
Qed.

(** A rung is known by its names. *)
Lemma rung_once ps p o r p' o' r' : NoDup (rung_names ps) -> rung_of ps p o r -> rung_of ps p' o' r' ->
  lp_name p = lp_name p' -> lo_name o = lo_name o' -> lr_number r = lr_number r' -> r = r'.
Proof.
  set (T := flat_map (fun p => flat_map (fun o => map (fun r => (p, o, r)) (concat (lo_content o))) (match lp_routines p with Some os => os | None => [] end)) ps).
  set (key := fun x : lprogram * lroutine * lrung => (lp_name (fst (fst x)), lo_name (snd (fst x)), lr_number (snd x))).
  assert (E : rung_names ps = map key T).
  { subst T. unfold rung_names. induction ps as [|q ps IH]; [reflexivity|]. cbn [flat_map]. rewrite map_app, IH. f_equal.
    generalize (match lp_routines q with Some os => os | None => [] end). intro os. clear. induction os as [|u os IH]; [reflexivity|]. cbn [flat_map]. rewrite map_app, IH. f_equal.
    rewrite map_map. reflexivity. }
  assert (I : forall p o r, rung_of ps p o r -> In (p, o, r) T).
  { intros q u w (Iq & (os & Eo & Io) & rs & Irs & Iw). subst T. apply in_flat_map. exists q. split; [exact Iq|]. rewrite Eo. apply in_flat_map. exists u. split; [exact Io|].
    apply in_map. apply in_concat. exists rs. tauto. }
  rewrite E. intros ND H H' E1 E2 E3. pose proof (I p o r H) as J. pose proof (I p' o' r' H') as J'.
  assert (K : key (p, o, r) = key (p', o', r')) by (subst key; cbn [fst snd]; congruence). clear -ND J J' K.
  induction T as [|x T IH]; [contradiction|]. cbn [map] in ND. inversion ND as [|? ? N ND']; subst.
  destruct J as [->|J], J' as [E|J']; [congruence| | |now apply IH].
  - exfalso. apply N. rewrite K. now apply in_map.
  - exfalso. apply N. rewrite E, <- K. now apply in_map.
Qed.

(** C87: every comment of a rung is found at the rung's place, and nothing else is. *)
Theorem C87_rungs_partial : forall f ks ps, lf_tasks f = Some ks -> lf_programs f = Some ps ->
  Forall (fun p => lp_routines p <> None) ps -> NoDup (scheduled ks) -> NoDup (rung_names ps) ->
  Forall (fun k => free_of 47 (lk_name k)) ks -> Forall (fun p => free_of 47 (lp_name p)) ps ->
  (forall p o r, rung_of ps p o r -> free_of 91 (lo_name o) /\ (length (lr_comments r) <= 1)%nat /\
     Forall (fun inner => exists c, says inner c /\ unquoted c) (lr_comments r)) ->
  exists m, load_rung_comments f = Ok m /\
  (forall p o r inner c t, rung_of ps p o r -> lr_comments r = [inner] -> says inner c -> unquoted c -> c <> [] -> runs_in ks (lp_name p) t ->
     mget (place t (lp_name p) (lo_name o) (lr_number r)) m = Some c) /\
  (forall k c, mget k m = Some c -> exists p o r inner t, rung_of ps p o r /\ lr_comments r = [inner] /\ says inner c /\ c <> [] /\
     runs_in ks (lp_name p) t /\ k = place t (lp_name p) (lo_name o) (lr_number r)).
Proof.
  intros f ks ps Ek Ep Fr Ns Nr Fk Fp Hr. unfold load_rung_comments. rewrite Ek, Ep. cbn [section bind]. rewrite (programs_flat _ ps Fr).
  eexists. split; [reflexivity|]. set (tasks := task_lookup ks). set (L := all_notes tasks ps).
  assert (In_L : forall k inner, In (k, inner) L <-> exists p o r, rung_of ps p o r /\ In inner (lr_comments r) /\ k = place (task_of tasks (lp_name p)) (lp_name p) (lo_name o) (lr_number r)).
  { intros k inner. subst L. unfold all_notes, routine_notes, rung_notes. rewrite in_flat_map. split.
    - intros (p & Ip & I). apply in_flat_map in I. destruct I as (o & Io & I). apply in_flat_map in I. destruct I as (r & Ir & I). apply in_map_iff in I. destruct I as (c & E & I).
      apply pair_equal_spec in E. destruct E as [<- <-]. exists p, o, r. split; [|split; [exact I|reflexivity]]. split; [exact Ip|]. split.
      + destruct (lp_routines p) as [os|]; [exists os; split; [reflexivity|exact Io]|contradiction].
      + apply in_concat in Ir. destruct Ir as (rs & A & B). exists rs. tauto.
    - intros (p & o & r & (Ip & (os & Eo & Io) & rs & Irs & Ir) & Ii & ->). exists p. split; [exact Ip|]. rewrite Eo. apply in_flat_map. exists o. split; [exact Io|].
      apply in_flat_map. exists r. split; [apply in_concat; exists rs; tauto|]. apply in_map_iff. exists inner. split; [reflexivity|exact Ii]. }
  assert (Tf : forall p, free_of 47 (task_of tasks p)).
  { intro p. destruct (task_of_runs ks p Ns) as [(k & l & Ik & _ & _ & E)|[E _]]; fold tasks in E.
    - rewrite <- E. rewrite Forall_forall in Fk. now apply Fk.
    - rewrite E. intros []. }
  assert (Same : forall p o r p' o' r', rung_of ps p o r -> rung_of ps p' o' r' ->
    place (task_of tasks (lp_name p)) (lp_name p) (lo_name o) (lr_number r) = place (task_of tasks (lp_name p')) (lp_name p') (lo_name o') (lr_number r') -> r = r').
  { intros p o r p' o' r' H H' E. rewrite Forall_forall in Fp. apply place_inj in E; try apply Tf; [|apply Fp, H|apply Fp, H'|now apply (Hr p o r)|now apply (Hr p' o' r')].
    destruct E as (E1 & E2 & E3). now apply (rung_once ps p o r p' o' r'). }
  assert (Look : forall k, mget k (fold_left note L []) = match find (fun x => bseq (fst x) k) (rev (filter (fun x => negb (bseq (cdata (snd x)) [])) L)) with Some x => Some (cdata (snd x)) | None => None end).
  { intro k. rewrite note_fold, (fold_mset fst (fun x => cdata (snd x))). reflexivity. }
  split.
  - intros p o r inner c t H Ei Sc Uc Nc Rt. rewrite (runs_in_once ks (lp_name p) t _ Ns Rt (task_of_runs ks (lp_name p) Ns)). fold tasks.
    rewrite Look. set (k := place _ _ _ _). destruct (find _ _) as [[k' inner']|] eqn:F.
    + apply find_some in F. destruct F as [I B]. apply bseq_spec in B. cbn [fst] in B. subst k'. rewrite <- in_rev in I. apply filter_In in I. destruct I as [I _].
      apply In_L in I. destruct I as (p' & o' & r' & H' & Ii & E). assert (r = r') as <- by (now apply (Same p o r p' o' r')). rewrite Ei in Ii. destruct Ii as [<-|[]].
      cbn [snd]. f_equal. now apply cdata_says.
    + exfalso. apply find_none with (x := (k, inner)) in F; [cbn [fst] in F; now rewrite bseq_refl in F|]. rewrite <- in_rev. apply filter_In. split.
      * apply In_L. exists p, o, r. split; [exact H|]. split; [rewrite Ei; now left|reflexivity].
      * cbn [snd]. rewrite (cdata_says inner c Sc Uc). destruct c; [congruence|reflexivity].
  - intros k c G. rewrite Look in G. destruct (find _ _) as [[k' inner]|] eqn:F; [|discriminate]. apply find_some in F. destruct F as [I B]. apply bseq_spec in B. cbn [fst] in B. subst k'.
    rewrite <- in_rev in I. apply filter_In in I. destruct I as [I Nn]. apply In_L in I. destruct I as (p & o & r & H & Ii & ->). cbn [snd] in *.
    destruct (Hr p o r H) as (_ & Ln & Fc). rewrite Forall_forall in Fc. destruct (Fc inner Ii) as (c' & Sc & Uc). rewrite (cdata_says inner c' Sc Uc) in G, Nn. assert (c' = c) as -> by congruence.
    exists p, o, r, inner, (task_of tasks (lp_name p)). split; [exact H|]. split; [|split; [exact Sc|split; [|split; [apply (task_of_runs ks _ Ns)|reflexivity]]]].
    + destruct (lr_comments r) as [|x [|y l]]; [contradiction|destruct Ii as [->|[]]; reflexivity|cbn [length] in Ln; lia].
    + intros ->. discriminate.
Qed.
Print Assumptions C87_rungs_partial.
(** Two rungs of a program that runs in no task and one that does. *)
Definition cd (s : bytes) : bytes := [10] ++ str "<![CDATA[" ++ s ++ str "]]>" ++ [10].
Definition ex_ks : list ltask := [LTask (str "Fast") (Some [str "Main"]); LTask (str "Idle") None].
Definition ex_ps : list lprogram :=
  [LProgram (str "Main") None (Some [LRoutine (str "R1") [[LRung (str "0") [cd (str "start")]; LRung (str "1") []]]]);
   LProgram (str "Spare") None (Some [LRoutine (str "R1") [[LRung (str "0") [cd (str "it's off")]]]])].
Definition rung_file (ks : list ltask) (ps : list lprogram) : lfile := LFile None None None (Some ps) (Some ks).
Lemma cd_says s : says (cd s) s.
Proof. exists [10], [10]. split; [constructor; [lia|constructor]|]. split; [constructor; [lia|constructor]|reflexivity]. Qed.
Example ex_C87 :
  NoDup (scheduled ex_ks) /\ NoDup (rung_names ex_ps) /\
  (forall p o r, rung_of ex_ps p o r -> free_of 91 (lo_name o) /\ (length (lr_comments r) <= 1)%nat /\
     Forall (fun inner => exists c, says inner c /\ unquoted c) (lr_comments r)) /\
  load_rung_comments (rung_file ex_ks ex_ps) = Ok [(str "/Spare/R1[0]", str "it's off"); (str "Fast/Main/R1[0]", str "start")].
Proof.
  split; [constructor; [intros []|constructor]|]. split.
  { constructor; [intros [E|[E|[]]]; discriminate|]. constructor; [intros [E|[]]; discriminate|]. constructor; [intros []|constructor]. }
  split; [|vm_compute; reflexivity].
  intros p o r ([<-|[<-|[]]] & (os & Eo & Io) & rs & Irs & Ir); cbn [lp_routines] in Eo; injection Eo as <-; destruct Io as [<-|[]]; destruct Irs as [<-|[]].
  - split; [intro H; vm_compute in H; intuition discriminate|]. destruct Ir as [<-|[<-|[]]]; (split; [cbn; lia|]); cbn [lr_comments]; [|constructor].
    constructor; [|constructor]. eexists. split; [apply cd_says|]. split; vm_compute; discriminate.
  - split; [intro H; vm_compute in H; intuition discriminate|]. destruct Ir as [<-|[]]. split; [cbn; lia|]. cbn [lr_comments].
    constructor; [|constructor]. eexists. split; [apply cd_says|]. split; vm_compute; discriminate.
Qed.
(** Of two rungs with one number, as when a routine has pending edits, the first
    comment is lost; *)
Theorem C87_edits_refuted : exists f, lf_programs f = Some [LProgram (str "Main") None (Some [LRoutine (str "R1")
    [[LRung (str "0") [cd (str "start")]]; [LRung (str "0") [cd (str "stop")]]]])] /\
  load_rung_comments f = Ok [(str "/Main/R1[0]", str "stop")].
Proof. eexists (rung_file [] _). split; [reflexivity|]. vm_compute. reflexivity. Qed.
Print Assumptions C87_edits_refuted.
(** and a comment in quotes loses them. *)
Theorem C87_quote_refuted : exists f inner, says inner (str "'go'") /\
  lf_programs f = Some [LProgram (str "Main") None (Some [LRoutine (str "R1") [[LRung (str "0") [inner]]]])] /\
  load_rung_comments f = Ok [(str "/Main/R1[0]", str "go")].
Proof. eexists (rung_file [] _), _. split; [apply cd_says|]. split; [reflexivity|]. vm_compute. reflexivity. Qed.
Print Assumptions C87_quote_refuted.
(** A program without routines, or a file without tasks, panics. *)
Theorem C87_no_tasks_crashes : forall f, lf_tasks f = None -> load_rung_comments f = Panic.
Proof. intros f E. unfold load_rung_comments. rewrite E. reflexivity. Qed.
Print Assumptions C87_no_tasks_crashes.
