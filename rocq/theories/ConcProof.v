(* Facts about requests served at the same time. *)
From Verif Require Import GoBase SegModel IoiModel ItemsModel TypesModel WriteModel ReadModel EipModel OpenModel
  TableModel ProvModel ProvSpec ProvProof SrvValModel SrvModel ConcModel ConcSpec.

(* ---- what others can do ---- *)

Lemma mw_trans : forall W s t u, meanwhile W s t -> meanwhile W t u -> meanwhile W s u.
Proof.
  intros W s t u H1 H2. induction H2 as [|t' i tag v H2 IH HW|t1 t2 H2 IH R P C At K].
  - exact H1.
  - apply mw_write; assumption.
  - exact (mw_other W s t1 t2 IH R P C At K).
Qed.
Lemma mw_mono : forall (W W' : nat -> bytes -> Prop) s t, (forall i x, W i x -> W' i x) -> meanwhile W s t -> meanwhile W' s t.
Proof.
  intros W W' s t I H. induction H as [|t' i tag v H2 IH HW|t1 t2 H2 IH R P C At K].
  - apply mw_same.
  - apply mw_write; auto.
  - exact (mw_other W' s t1 t2 IH R P C At K).
Qed.
Lemma mw_kept : forall W s t, meanwhile W s t ->
  sv_router t = sv_router s /\ sv_attrs t = sv_attrs s /\
  forall ot c, conn_by_ot s ot = Ok c -> conn_by_ot t ot = Ok c.
Proof.
  intros W s t H. induction H as [|t i tag v H (I1 & I2 & I3) HW|t1 t2 H (I1 & I2 & I3) R P C At K].
  - auto.
  - split; [exact I1|]. split; [exact I2|]. exact I3.
  - split; [congruence|]. split; [congruence|]. auto.
Qed.
Lemma mw_resolve : forall W s t path, meanwhile W s t -> resolve t path = resolve s path.
Proof. intros W s t path H. unfold resolve. rewrite (proj1 (mw_kept W s t H)). reflexivity. Qed.

Lemma prov_at_set : forall i p s j, prov_at (set_prov i p s) j = prov_at s j \/ (prov_at (set_prov i p s) j = p /\ j = i).
Proof.
  intros i p s j. unfold prov_at, set_prov; cbn [sv_provs].
  destruct (Nat.eq_dec j i) as [->|N]; [|left; apply nth_setn_other; exact N].
  destruct (Nat.lt_ge_cases i (length (sv_provs s))) as [L|L].
  - right. split; [apply nth_setn_same; exact L|reflexivity].
  - left. rewrite !nth_overflow; [reflexivity|exact L|rewrite setn_length; exact L].
Qed.
Lemma mw_separate : forall W s t, meanwhile W s t -> all_separate s -> all_separate t.
Proof.
  intros W s t H S0. induction H as [|t i tag v H IH HW|t1 t2 H IH R P C At K].
  - exact S0.
  - intros j. destruct (prov_at_set i (fst (write_given (sv_conv t) (prov_at t i) tag v)) t j) as [->|[-> ->]]; [apply IH|].
    destruct (write_given (sv_conv t) (prov_at t i) tag v) as [p' r] eqn:E.
    exact (proj1 (write_given_spec _ _ _ _ _ _ (IH i) E)).
  - intros j. unfold prov_at. rewrite P. apply IH.
Qed.

(* An array only the entry of [k] can reach, when no element of [k] is written. *)
Definition held (s : server) (i : nat) (k : bytes) (a : nat) : Prop :=
  (a < length (pv_heap (prov_at s i)))%nat /\
  forall k' e o n, k' <> k -> mget (pv_data (prov_at s i)) k' <> Some (PS e a o n).
Lemma mw_held : forall (W : nat -> bytes -> Prop) s t i k a, (forall j w x, W j w -> ~ elem_name (lower w) k x) ->
  meanwhile W s t -> held s i k a ->
  held t i k a /\ forall o n, elems (pv_heap (prov_at t i)) a o n = elems (pv_heap (prov_at s i)) a o n.
Proof.
  intros W s t i k a N H. induction H as [|t j tag v H IH HW|t1 t2 H IH R P C At K]; intros HH.
  - auto.
  - destruct (IH HH) as [[L T] E].
    destruct (prov_at_set j (fst (write_given (sv_conv t) (prov_at t j) tag v)) t i) as [EQ|[EQ ->]].
    { unfold held. rewrite EQ. split; [split; assumption|exact E]. }
    unfold held. rewrite EQ. destruct (write_given (sv_conv t) (prov_at t j) tag v) as [p' r] eqn:EW. cbn [fst].
    destruct (write_given_heap _ _ _ _ _ _ EW) as (H1 & H2 & H3).
    split; [split; [lia|]|].
    + intros k' e o n Nk Hk. destruct (H3 _ _ _ _ _ Hk) as [Hk'|Hk']; [|lia]. exact (T _ _ _ _ Nk Hk').
    + intros o n. rewrite <- E. apply H2; [exact L|]. intros b x e o' n' Eb Hb.
      destruct (list_eq_dec Z.eq_dec b k) as [->|Nb]; [exact (N _ _ _ HW Eb)|exact (T _ _ _ _ Nb Hb)].
  - destruct (IH HH) as [[L T] E]. unfold held, prov_at in *. rewrite P. split; [split; assumption|exact E].
Qed.
Lemma nth_elems : forall h a o, nth_error (nth a h []) o = hd_error (elems h a o 1).
Proof.
  intros h a o. unfold elems. generalize (nth a h []) as l. clear.
  intros l. revert o. induction l as [|x l IH]; intros [|o]; try reflexivity. cbn [nth_error skipn]. apply IH.
Qed.
Lemma elems_step : forall h a o n, elems h a o (Datatypes.S n) =
  match nth_error (nth a h []) o with Some v => v :: elems h a (Datatypes.S o) n | None => [] end.
Proof.
  intros h a o n. unfold elems. generalize (nth a h []) as l. clear.
  intros l. revert o. induction l as [|x l IH]; intros [|o]; try reflexivity.
  exact (IH o).
Qed.

(* The array a read hands out. *)
Lemma read_held : forall p tag q e a o n, separate p -> tag_read p tag q = Ok (PS e a o n) ->
  exists k, touches tag k /\ (a < length (pv_heap p))%nat /\
    forall k' e' o' n', k' <> k -> mget (pv_data p) k' <> Some (PS e' a o' n').
Proof.
  intros p tag q e a o n Hs Hr. pose proof Hs as (S1 & S2 & S3). unfold tag_read in Hr.
  destruct (parse_element_tag (lower tag)) as [[b i] has] eqn:Ep. apply parse_cases in Ep.
  assert (touches tag b) as Htb.
  { destruct has; [right; exists i; exact Ep|left; symmetry; exact (proj1 Ep)]. }
  destruct (mget (pv_data p) b) as [[g|e0 a0 o0 n0]|] eqn:Eb; [destruct has; discriminate| |discriminate].
  assert (a = a0 \/ exists e' o' n', In (PS e' a o' n') (elems (pv_heap p) a0 o0 n0)) as [->|(e' & o' & n' & Hin)].
  { destruct has.
    - destruct ((i <? 0) || (Z.of_nat n0 <=? i)); [discriminate|]. destruct (Z.of_nat n0 <? i + q); [discriminate|].
      destruct (q =? 1).
      + destruct (nth_error (elems (pv_heap p) a0 o0 n0) (Z.to_nat i)) as [x|] eqn:Ex; [|discriminate].
        assert (x = PS e a o n) as -> by congruence. right. exists e, o, n. exact (nth_error_In _ _ Ex).
      + destruct (q <? 0); [discriminate|]. left. congruence.
    - destruct (q <=? Z.of_nat n0); [|discriminate]. destruct (q <? 0); [discriminate|]. left. congruence. }
  - exists b. split; [exact Htb|]. split; [exact (proj1 (S1 _ _ _ _ _ Eb))|].
    intros k' e' o' n' N Hk. apply N. exact (S2 _ _ _ _ _ _ _ _ _ Hk Eb).
  - destruct (S3 _ _ _ _ _ _ _ _ _ Eb Hin) as (L & T & _).
    exists b. split; [exact Htb|]. split; [exact L|]. intros k' e1 o1 n1 _. exact (T k' e1 o1 n1).
Qed.
Lemma read_negative : forall p tag q e a o n, tag_read p tag q = Ok (PS e a o n) -> q = 1 \/ 0 <= q.
Proof.
  intros p tag q e a o n Hr. unfold tag_read in Hr.
  destruct (parse_element_tag (lower tag)) as [[b i] has].
  destruct (mget (pv_data p) b) as [[g|e0 a0 o0 n0]|]; [destruct has; discriminate| |discriminate].
  destruct has.
  - destruct ((i <? 0) || (Z.of_nat n0 <=? i)); [discriminate|]. destruct (Z.of_nat n0 <? i + q); [discriminate|].
    destruct (Z.eqb_spec q 1); [auto|]. destruct (Z.ltb_spec q 0); [discriminate|auto].
  - destruct (q <=? Z.of_nat n0); [|discriminate]. destruct (Z.ltb_spec q 0); [discriminate|auto].
Qed.
Lemma read_many : forall p tag q e a o n, separate p -> tag_read p tag q = Ok (PS e a o n) ->
  exists l, reads (shows p) tag q (VMany e l).
Proof.
  intros p tag q e a o n Hs Hr. assert (0 <= q) as Q by (destruct (read_negative _ _ _ _ _ _ _ Hr); lia).
  pose proof (tag_read_spec p tag q Hs Q) as H. rewrite Hr in H. cbn [see] in H. eexists. exact H.
Qed.

(* ---- courses ---- *)

Section Courses.
Variable W : nat -> bytes -> Prop.
Notation mw := (meanwhile W).

Lemma course_later : forall A (p : prog A) s r t fs, course W p s r t fs -> forall s0, mw s0 s -> course W p s0 r t fs.
Proof.
  intros A p s r t fs H. induction H as [r s t H|f p s r t fs H IH|u k s m r t fs H1 H2 IH]; intros s0 M.
  - apply co_done. exact (mw_trans _ _ _ _ M H).
  - apply co_out. exact (IH s0 M).
  - exact (co_step W u k s0 m r t fs (mw_trans _ _ _ _ M H1) H2).
Qed.
Lemma course_done_inv : forall A (x : res A) s r t fs, course W (Done x) s r t fs -> r = x /\ fs = [] /\ mw s t.
Proof. intros A x s r t fs H. inversion H; subst. auto. Qed.
Lemma course_out_inv : forall A f (p : prog A) s r t fs, course W (Out f p) s r t fs ->
  exists gs, fs = f :: gs /\ course W p s r t gs.
Proof. intros A f p s r t fs H. inversion H; subst. eauto. Qed.
Lemma course_step_inv : forall A u (k : server -> prog A) s r t fs, course W (Step u k) s r t fs ->
  exists m, mw s m /\ course W (k m) (u m) r t fs.
Proof. intros A u k s r t fs H. inversion H; subst. eauto. Qed.
Lemma course_bind : forall A B (p : prog A) (f : A -> prog B) s r t fs, course W (pbind p f) s r t fs ->
  (exists a s1 fs1 fs2, course W p s (Ok a) s1 fs1 /\ course W (f a) s1 r t fs2 /\ fs = fs1 ++ fs2) \/
  (exists x, (forall a, x <> Ok a) /\ course W p s x t fs /\
             r = match x with Ok _ => Panic | Err e => Err e | Panic => Panic | OutOfFuel => OutOfFuel end).
Proof.
  intros A B p f. induction p as [x|y p IH|u k IH]; intros s r t fs H; cbn [pbind] in H.
  - destruct x as [a|e| |].
    + left. exists a, s, [], fs. split; [apply co_done, mw_same|]. split; [exact H|reflexivity].
    + right. apply course_done_inv in H as (-> & -> & M). exists (Err e). split; [discriminate|]. split; [apply co_done; exact M|reflexivity].
    + right. apply course_done_inv in H as (-> & -> & M). exists Panic. split; [discriminate|]. split; [apply co_done; exact M|reflexivity].
    + right. apply course_done_inv in H as (-> & -> & M). exists OutOfFuel. split; [discriminate|]. split; [apply co_done; exact M|reflexivity].
  - apply course_out_inv in H as (gs & -> & H). destruct (IH _ _ _ _ H) as [(a & s1 & f1 & f2 & C1 & C2 & ->)|(x & N & C & E)].
    + left. exists a, s1, (y :: f1), f2. split; [apply co_out; exact C1|]. split; [exact C2|reflexivity].
    + right. exists x. split; [exact N|]. split; [apply co_out; exact C|exact E].
  - apply course_step_inv in H as (m & M & H). destruct (IH m _ _ _ _ H) as [(a & s1 & f1 & f2 & C1 & C2 & ->)|(x & N & C & E)].
    + left. exists a, s1, f1, f2. split; [exact (co_step W u k s m _ _ _ M C1)|]. split; [exact C2|reflexivity].
    + right. exists x. split; [exact N|]. split; [exact (co_step W u k s m _ _ _ M C)|exact E].
Qed.

Lemma alone_bind : forall A B (p : prog A) (f : A -> prog B) s,
  alone (pbind p f) s =
  match alone p s with
  | (Ok a, s1, fs) => let '(r, s2, gs) := alone (f a) s1 in (r, s2, fs ++ gs)
  | (Err e, s1, fs) => (Err e, s1, fs)
  | (Panic, s1, fs) => (Panic, s1, fs)
  | (OutOfFuel, s1, fs) => (OutOfFuel, s1, fs)
  end.
Proof.
  intros A B p f. induction p as [x|y p IH|u k IH]; intros s; cbn [pbind alone].
  - destruct x as [a|e| |]; try reflexivity. destruct (alone (f a) s) as [[r s2] gs]. reflexivity.
  - rewrite IH. destruct (alone p s) as [[[a|e| |] s1] fs]; try reflexivity.
    destruct (alone (f a) s1) as [[r s2] gs]. reflexivity.
  - apply IH.
Qed.

(* A program that finds nothing changed since [m]. *)
Definition frozen {A} (p : prog A) (m : server) : Prop :=
  forall m' r t fs, mw m m' -> course W p m' r t fs -> alone p m = (r, m, fs) /\ mw m t.
Lemma frozen_done : forall A (r : res A) m, frozen (Done r) m.
Proof. intros A r m m' r' t fs H C. apply course_done_inv in C as (-> & -> & M). split; [reflexivity|exact (mw_trans _ _ _ _ H M)]. Qed.
Lemma frozen_out : forall A f (p : prog A) m, frozen p m -> frozen (Out f p) m.
Proof.
  intros A f p m F m' r t fs H C. apply course_out_inv in C as (gs & -> & C). destruct (F _ _ _ _ H C) as [E M].
  split; [cbn [alone]; rewrite E; reflexivity|exact M].
Qed.
Lemma frozen_bind : forall A B (p : prog A) (f : A -> prog B) m, frozen p m ->
  (forall a, (exists fs, alone p m = (Ok a, m, fs)) -> frozen (f a) m) -> frozen (pbind p f) m.
Proof.
  intros A B p f m F G m' r t fs H C. rewrite alone_bind.
  destruct (course_bind _ _ _ _ _ _ _ _ C) as [(a & s1 & f1 & f2 & C1 & C2 & ->)|(x & N & C1 & ->)].
  - destruct (F _ _ _ _ H C1) as [E M]. rewrite E. destruct (G a (ex_intro _ f1 E) _ _ _ _ M C2) as [E2 M2].
    rewrite E2. auto.
  - destruct (F _ _ _ _ H C1) as [E M]. rewrite E. destruct x as [a|e| |]; auto. destruct (N a eq_refl).
Qed.
Lemma frozen_ask : forall A (f : server -> A) m, (forall m', mw m m' -> f m' = f m) -> frozen (p_ask f) m.
Proof.
  intros A f m F m' r t fs H C. apply course_step_inv in C as (m1 & M1 & C). apply course_done_inv in C as (-> & -> & M2).
  pose proof (mw_trans _ _ _ _ H M1) as M.
  cbn [alone p_ask]. rewrite (F _ M). split; [reflexivity|exact (mw_trans _ _ _ _ M M2)].
Qed.

(* A program that looks and acts as at one moment. *)
Definition atomic {A} (p : prog A) (s : server) : Prop :=
  forall r t fs, course W p s r t fs -> exists s1 s2, mw s s1 /\ alone p s1 = (r, s2, fs) /\ mw s2 t.
Lemma frozen_atomic : forall A (p : prog A) s, (forall m, mw s m -> frozen p m) -> atomic p s.
Proof.
  intros A p s F r t fs C. destruct (F s (mw_same _ _) s r t fs (mw_same _ _) C) as [E M].
  exists s, s. split; [apply mw_same|]. auto.
Qed.
(* Nothing shared is looked at. *)
Fixpoint private {A} (p : prog A) : Prop :=
  match p with Done _ => True | Out _ q => private q | Step _ _ => False end.
Lemma private_frozen : forall A (p : prog A) m, private p -> frozen p m.
Proof.
  intros A p m. induction p as [r|f p IH|u k IH]; intros P; [apply frozen_done|apply frozen_out, IH, P|destruct P].
Qed.
Lemma private_bind : forall A B (p : prog A) (f : A -> prog B), private p -> (forall a, private (f a)) -> private (pbind p f).
Proof.
  intros A B p f. induction p as [[a|e| |]|y p IH|u k IH]; intros P F; cbn [pbind]; cbn [private] in *; auto.
Qed.
Lemma atomic_done : forall A (r : res A) s, atomic (Done r) s.
Proof. intros A r s. apply frozen_atomic. intros m _. apply frozen_done. Qed.
Lemma atomic_bind_private : forall A B (p : prog A) (f : A -> prog B) s, private p ->
  (forall a m, mw s m -> atomic (f a) m) -> atomic (pbind p f) s.
Proof.
  intros A B p f s P F. revert P. induction p as [[a|e| |]|y p IH|u k IH]; intros P; cbn [pbind]; cbn [private] in P;
    try apply atomic_done.
  - apply F, mw_same.
  - intros r t fs C. apply course_out_inv in C as (gs & -> & C). destruct (IH P _ _ _ C) as (s1 & s2 & M1 & E & M2).
    exists s1, s2. split; [exact M1|]. split; [cbn [alone]; rewrite E; reflexivity|exact M2].
  - destruct P.
Qed.
(* Found once, found again. *)
Lemma atomic_conn : forall B ot (f : res sconn -> prog B) s,
  (forall c m, mw s m -> atomic (f (Ok c)) m) -> (forall e, private (f (Err e))) -> atomic (pbind (p_conn ot) f) s.
Proof.
  intros B ot f s F P r t fs C. cbn [pbind p_conn p_ask] in C. apply course_step_inv in C as (m & H3 & H6).
  destruct (conn_by_ot m ot) as [c|e| |] eqn:E.
  - destruct (F c m H3 _ _ _ H6) as (s1 & s2 & M1 & A1 & M2). exists s1, s2.
    split; [exact (mw_trans _ _ _ _ H3 M1)|]. split; [|exact M2].
    cbn [pbind p_conn p_ask alone]. rewrite (proj2 (proj2 (mw_kept W m s1 M1)) _ _ E). exact A1.
  - destruct (private_frozen _ _ m (P e) _ _ _ _ (mw_same _ _) H6) as [A1 M2]. exists m, m.
    split; [exact H3|]. split; [|exact M2]. cbn [pbind p_conn p_ask alone]. rewrite E. exact A1.
  - unfold conn_by_ot in E. destruct (conn_get _ _); discriminate.
  - unfold conn_by_ot in E. destruct (conn_get _ _); discriminate.
Qed.
Lemma atomic_resolve : forall B path (f : res nat -> prog B) s,
  (forall x m, mw s m -> atomic (f x) m) -> atomic (pbind (p_resolve path) f) s.
Proof.
  intros B path f s F r t fs C. cbn [pbind p_resolve p_ask] in C. apply course_step_inv in C as (m & H3 & H6).
  destruct (F _ m H3 _ _ _ H6) as (s1 & s2 & M1 & A1 & M2). exists s1, s2.
  split; [exact (mw_trans _ _ _ _ H3 M1)|]. split; [|exact M2].
  cbn [pbind p_resolve p_ask alone]. rewrite (mw_resolve W m s1 path M1). exact A1.
Qed.
Lemma atomic_read : forall B i tag n (f : res pval -> prog B) s,
  (forall m, mw s m -> frozen (f (tag_read (prov_at m i) tag n)) m) -> atomic (pbind (p_tag_read i tag n) f) s.
Proof.
  intros B i tag n f s F r t fs C. cbn [pbind p_tag_read p_ask] in C. apply course_step_inv in C as (m & H3 & H6).
  destruct (F m H3 m r t fs (mw_same _ _) H6) as [E M]. exists m, m.
  split; [exact H3|]. split; [|exact M]. exact E.
Qed.
Lemma atomic_write : forall B i tag vs (f : unit -> prog B) s, (forall u, private (f u)) ->
  atomic (pbind (p_write_values i tag vs) f) s.
Proof.
  intros B i tag vs f s P. unfold p_write_values. destruct vs as [|v vs]; [apply atomic_done|].
  intros r t fs C. cbn [pbind] in C. apply course_step_inv in C as (m & H3 & H6).
  match type of H6 with course _ ?p ?m0 _ _ _ => assert (private p) as PP; [|
    destruct (private_frozen _ p m0 PP _ _ _ _ (mw_same _ _) H6) as [E M]; exists m, m0; split; [exact H3|];
    split; [cbn [pbind alone]; exact E|exact M]] end.
  destruct (snd _); cbn [pbind private]; auto.
Qed.

(* ---- reading the elements ---- *)

Lemma frozen_elems : forall i k a m, (forall j w x, W j w -> ~ elem_name (lower w) k x) -> held m i k a ->
  forall n o, frozen (p_elems i a o n) m.
Proof.
  intros i k a m N H n. induction n as [|n IH]; intros o; cbn [p_elems]; [apply frozen_done|].
  apply frozen_bind.
  - apply frozen_ask. intros m' M. rewrite !nth_elems. rewrite (proj2 (mw_held W m m' i k a N M H)). reflexivity.
  - intros [v|] _; [|apply frozen_done]. apply frozen_bind; [apply IH|]. intros vs _. apply frozen_done.
Qed.
Lemma frozen_item_ser : forall i v m, (forall k a o n, v = PS (EK k) a o n -> forall c, frozen (p_elems i a c n) m) ->
  frozen (p_item_ser i v) m.
Proof.
  intros i [g|[k|] a o n] m H; cbn [p_item_ser]; try apply frozen_done.
  apply frozen_bind; [exact (H _ _ _ _ eq_refl o)|]. intros l _. apply frozen_done.
Qed.
Lemma frozen_payload : forall i v m, (forall k a o n, v = PS (EK k) a o n -> forall c, frozen (p_elems i a c n) m) ->
  frozen (p_read_payload i v) m.
Proof.
  intros i v m H. unfold p_read_payload. destruct (pval_cip v =? T_string).
  - destruct v as [g|[k|] a o n]; [destruct g; apply frozen_done| |apply frozen_done].
    destruct k; try apply frozen_done.
    apply frozen_bind; [exact (H _ _ _ _ eq_refl o)|]. intros l _. apply frozen_done.
  - apply frozen_bind; [apply frozen_item_ser, H|]. intros b _. apply frozen_done.
Qed.
Lemma frozen_buffer : forall i v m, (forall k a o n, v = PS (EK k) a o n -> forall c, frozen (p_elems i a c n) m) ->
  frozen (p_buffer_ser i v) m.
Proof.
  intros i v m H. unfold p_buffer_ser.
  destruct v as [g|[k|] a o n]; [|destruct k; try apply frozen_done; apply frozen_item_ser, H|apply frozen_item_ser, H].
  destruct g; try apply frozen_done; apply frozen_item_ser, H.
Qed.
(* The two ways a read is safe from others. *)
Definition undisturbed (s : server) (tag : bytes) (q : Z) : Prop :=
  all_separate s /\ ((forall j w, W j w -> ~ element_of tag w) \/ single_value W s tag q).
Lemma frozen_read : forall s m i tag q e a o n, undisturbed s tag q -> mw s m ->
  tag_read (prov_at m i) tag q = Ok (PS e a o n) -> forall c k, frozen (p_elems i a c k) m.
Proof.
  intros s m i tag q e a o n [S0 D] M R c k. pose proof (mw_separate W s m M S0 i) as Sm.
  destruct D as [D|D].
  - destruct (read_held _ _ _ _ _ _ _ Sm R) as (b & T & L & U).
    apply (frozen_elems i b a m); [|split; assumption].
    intros j w x HW E. apply (D j w HW). exists b, x. auto.
  - destruct (read_many _ _ _ _ _ _ _ Sm R) as [l RL]. destruct (D m M i e l RL).
Qed.
Lemma undisturbed_later : forall s m tag q, mw s m -> undisturbed s tag q -> undisturbed m tag q.
Proof.
  intros s m tag q M [S0 D]. split; [exact (mw_separate W s m M S0)|].
  destruct D as [D|D]; [left; exact D|right]. intros m' M'. exact (D m' (mw_trans _ _ _ _ M M')).
Qed.

(* ---- the requests ---- *)

Lemma por_send_private : forall A (r : res A) m, private m -> private (p_or_send r m).
Proof. intros A [a|e| |] m P; cbn [p_or_send]; try exact I. apply private_bind; [exact P|]. intros _; exact I. Qed.

Ltac quiet := first [exact I | apply por_send_private; exact I].
Ltac parsed := apply atomic_bind_private; [quiet|].

Lemma atomic_connected_write : forall h d0 r s, atomic (p_connected_write h d0 r) s.
Proof.
  intros h d0 r s. unfold p_connected_write.
  parsed. intros [x0 r1] s1 _. parsed. intros [tag r2] s2 _. parsed. intros [vs r3] s3 _. parsed. intros [c r4] s4 _.
  apply atomic_conn; [|intros e; exact I]. intros cn s5 _. parsed. intros cn' s6 _.
  apply atomic_resolve. intros x s7 _. parsed. intros i s8 _.
  apply atomic_write. intros u. exact I.
Qed.
Lemma atomic_unconnected_write : forall h r s, atomic (p_unconnected_write h r) s.
Proof.
  intros h r s. unfold p_unconnected_write.
  parsed. intros [x0 r1] s1 _. parsed. intros [tag r2] s2 _. parsed. intros [vs r3] s3 _. parsed. intros [c r4] s4 _.
  parsed. intros [path r5] s5 _. apply atomic_resolve. intros x s7 _. parsed. intros i s8 _.
  apply atomic_write. intros u. exact I.
Qed.
Lemma frozen_reply : forall h svc seq to payload m, frozen (p_conn_reply h svc seq to payload) m.
Proof. intros. apply private_frozen. exact I. Qed.

Lemma err_private : forall A B (e : prog unit) x (f : A -> prog B), private e ->
  private (pbind (pbind e (fun _ => Done (Err x))) f).
Proof.
  intros A B e x f. induction e as [[a|y| |]|y e IH|u k IH]; intros P; cbn [pbind]; cbn [private] in *; auto.
Qed.
Lemma atomic_parse : forall A B (r : res A) (e : prog unit) (f : A -> prog B) s, private e ->
  (forall a, r = Ok a -> forall m, mw s m -> atomic (f a) m) -> atomic (pbind (p_or_send r e) f) s.
Proof.
  intros A B r e f s P F. destruct r as [a|x| |]; try (apply atomic_done).
  - apply (F a eq_refl), mw_same.
  - apply frozen_atomic. intros m _. apply private_frozen. apply err_private. exact P.
Qed.
Lemma frozen_parse : forall A B (r : res A) (e : prog unit) (f : A -> prog B) m, private e ->
  (forall a, r = Ok a -> frozen (f a) m) -> frozen (pbind (p_or_send r e) f) m.
Proof.
  intros A B r e f s P F. destruct r as [a|x| |]; try (apply frozen_done).
  - apply (F a eq_refl).
  - apply private_frozen. apply err_private. exact P.
Qed.
Lemma frozen_lift : forall A B (r : res A) (f : A -> prog B) m,
  (forall a, r = Ok a -> frozen (f a) m) -> frozen (pbind (Done r) f) m.
Proof. intros A B r f s F. destruct r as [a|x| |]; try (apply frozen_done). apply (F a eq_refl). Qed.
Lemma atomic_lift : forall A B (r : res A) (f : A -> prog B) s,
  (forall a, r = Ok a -> forall m, mw s m -> atomic (f a) m) -> atomic (pbind (Done r) f) s.
Proof. intros A B r f s F. destruct r as [a|x| |]; try (apply atomic_done). apply (F a eq_refl), mw_same. Qed.

Lemma atomic_connected_read : forall h svc d0 d1 s,
  (forall tag q, read_of d1 tag q -> undisturbed s tag q) -> atomic (p_connected_read h svc d0 d1) s.
Proof.
  intros h svc d0 d1 s U. unfold p_connected_read.
  apply atomic_parse; [exact I|]. intros [c x0] _ s1 M1.
  apply atomic_conn; [|intros e; exact I]. intros cn s2 M2.
  apply atomic_parse; [exact I|]. intros cn' _ s3 M3.
  apply atomic_parse; [exact I|]. intros [q r] E1 s4 M4.
  apply atomic_parse; [exact I|]. intros [x1 r1] E2 s5 M5.
  apply atomic_parse; [exact I|]. intros [tag r2] E3 s6 M6.
  apply atomic_parse; [exact I|]. intros [n r3] E4 s7 M7.
  apply atomic_resolve. intros x s8 M8.
  apply atomic_parse; [exact I|]. intros i _ s9 M9.
  apply atomic_read. intros m M10.
  apply frozen_parse; [exact I|]. intros v E5. apply frozen_bind; [|intros payload _; apply frozen_reply].
  apply frozen_payload. intros k a o n' -> c'.
  assert (read_of d1 tag (sgn 16 (unle n))) as RO.
  { apply rd_ok_inv in E1 as [-> L1]. apply rd_ok_inv in E2 as [-> L2]. apply rd_ok_inv in E4 as [-> L4].
    destruct q as [|qa [|qb [|]]]; try discriminate L1. destruct x1 as [|xa [|xb [|]]]; try discriminate L2.
    destruct n as [|na [|nb [|]]]; try discriminate L4.
    exists qa, qb, xa, xb, r1, na, nb, r3. split; [reflexivity|]. split; [exact E3|reflexivity]. }
  assert (mw s m) as M by (repeat (eapply mw_trans; [eassumption|]); apply mw_same).
  exact (frozen_read s m i tag _ _ a o n' (U _ _ RO) M E5 c' n').
Qed.

Lemma atomic_unconnected_read : forall h r s,
  (forall tag q, (exists l r1 x y rest, r = l :: r1 /\ get_tag_from_path r1 = Ok (tag, x :: y :: rest) /\ q = sgn 16 (unle [x; y])) ->
     undisturbed s tag q) -> atomic (p_unconnected_read h r) s.
Proof.
  intros h r s U. unfold p_unconnected_read.
  apply atomic_lift. intros [x1 r1] E2 s5 M5.
  apply atomic_lift. intros [tag r2] E3 s6 M6.
  apply atomic_lift. intros [n r3] E4 s7 M7.
  apply atomic_lift. intros [ps r4] _ s8 M8.
  apply atomic_lift. intros [path r5] _ s9 M9.
  apply atomic_resolve. intros x s10 M10.
  apply atomic_lift. intros i _ s11 M11.
  apply atomic_read. intros m M12.
  apply frozen_lift. intros v E5. apply frozen_bind; [|intros payload _; apply private_frozen; exact I].
  apply frozen_payload. intros k a o n' -> c'.
  refine (frozen_read s m i tag (sgn 16 (unle n)) (EK k) a o n' _ _ E5 c' n').
  - apply U. apply rd_ok_inv in E2 as [-> L2]. apply rd_ok_inv in E4 as [-> L4].
    destruct x1 as [|xa [|]]; try discriminate L2. destruct n as [|na [|nb [|]]]; try discriminate L4.
    exists xa, r1, na, nb, r3. split; [reflexivity|]. split; [exact E3|reflexivity].
  - repeat (eapply mw_trans; [eassumption|]); apply mw_same.
Qed.

Lemma atomic_once : forall h m s, atomic (p_once h m) s.
Proof.
  intros h m s r t fs C. apply course_step_inv in C as (m0 & H3 & H6).
  match type of H6 with course _ ?p _ _ _ _ => assert (private p) as PP end.
  { clear H6. destruct (m (World m0 h [] [])) as [r0 w]. induction (w_sent w) as [|f l IH]; [exact I|exact IH]. }
  destruct (private_frozen _ _ m0 PP _ _ _ _ (mw_same _ _) H6) as [E M]. exists m0, m0. auto.
Qed.

(* One request inside a multiple request. *)
Definition sub_read (d1 : bytes) (off : Z) (tag : bytes) (q : Z) : Prop :=
  exists r sv l r1 x y rest, slice_from d1 (off + 8) = Ok r /\ r = sv :: l :: r1 /\
    get_tag_from_path r1 = Ok (tag, x :: y :: rest) /\ q = sgn 16 (unle [x; y]).
Lemma atomic_sub : forall i d1 off s,
  (forall tag q, sub_read d1 off tag q -> undisturbed s tag q) -> atomic (p_multi_sub i d1 off) s.
Proof.
  intros i d1 off s U. unfold p_multi_sub.
  apply atomic_lift. intros r E0 s1 M1.
  apply atomic_lift. intros [sv r1] E1 s2 M2.
  apply atomic_lift. intros [x1 r2] E2 s3 M3. cbv zeta.
  destruct ((unle sv =? svc_fragread) || (unle sv =? svc_read)).
  - apply atomic_lift. intros [tag r3] E3 s4 M4. apply atomic_lift. intros [n r4] E4 s5 M5.
    apply atomic_read. intros m M. apply frozen_lift. intros v E5.
    destruct (pval_cip v =? T_string).
    { destruct v as [g|e a o n0]; [destruct g|]; apply frozen_done. }
    apply frozen_bind; [|intros; apply frozen_done]. apply frozen_buffer. intros k a o n' -> c'.
    refine (frozen_read s m i tag (sgn 16 (unle n)) (EK k) a o n' _ _ E5 c' n').
    + apply U. apply rd_ok_inv in E1 as [-> L1]. apply rd_ok_inv in E2 as [-> L2]. apply rd_ok_inv in E4 as [-> L4].
      destruct sv as [|sv [|]]; try discriminate L1.
      destruct x1 as [|xa [|]]; try discriminate L2. destruct n as [|na [|nb [|]]]; try discriminate L4.
      destruct (len d1 <=? off + 8); [discriminate|].
      eexists _, sv, xa, r2, na, nb, r4. split; [exact E0|]. split; [reflexivity|]. split; [exact E3|reflexivity].
    + repeat (eapply mw_trans; [eassumption|]); apply mw_same.
  - destruct ((unle sv =? svc_write) || (unle sv =? svc_fragwrite)); [|apply atomic_done].
    apply atomic_lift. intros [tag r3] E3 s4 M4. apply atomic_lift. intros [t r4] _ s5 M5.
    apply atomic_lift. intros [x2 r5] _ s6 M6. apply atomic_lift. intros [n r6] _ s7 M7.
    apply atomic_lift. intros [vs r7] _ s8 M8. apply atomic_write. intros u. exact I.
Qed.

(* ---- goroutines side by side ---- *)

Lemma within_bind : forall A B (p : prog A) (f : A -> prog B), within W p -> (forall a, within W (f a)) -> within W (pbind p f).
Proof.
  intros A B p f H F. induction H as [[a|e| |]|x p H IH|u k Hu Hk IH]; cbn [pbind]; try apply wi_done.
  - apply F.
  - apply wi_out, IH.
  - apply wi_step; [exact Hu|]. exact IH.
Qed.
Lemma within_lift : forall A B (r : res A) (f : A -> prog B), (forall a, r = Ok a -> within W (f a)) -> within W (pbind (Done r) f).
Proof. intros A B [a|e| |] f F; try apply wi_done. exact (F a eq_refl). Qed.
Lemma within_private : forall A (p : prog A), private p -> within W p.
Proof. intros A p. induction p as [r|x p IH|u k IH]; intros P; [apply wi_done|apply wi_out, IH, P|destruct P]. Qed.
Lemma within_parse : forall A B (r : res A) e (f : A -> prog B), private e -> (forall a, r = Ok a -> within W (f a)) ->
  within W (pbind (p_or_send r e) f).
Proof.
  intros A B [a|x| |] e f P F; try apply wi_done; [exact (F a eq_refl)|]. apply within_private, err_private, P.
Qed.
Lemma within_ask : forall A (f : server -> A), within W (p_ask f).
Proof. intros A f. apply wi_step; [intros s; apply mw_same|]. intros s. apply wi_done. Qed.
Lemma within_ask_bind : forall A B (g : server -> A) (f : A -> prog B), (forall a, within W (f a)) -> within W (pbind (p_ask g) f).
Proof. intros A B g f F. apply within_bind; [apply within_ask|exact F]. Qed.
Lemma within_elems : forall i a n o, within W (p_elems i a o n).
Proof.
  intros i a n. induction n as [|n IH]; intros o; cbn [p_elems]; [apply wi_done|].
  apply within_ask_bind. intros [v|]; [|apply wi_done]. apply within_bind; [apply IH|]. intros vs; apply wi_done.
Qed.
Lemma within_ser : forall i v, within W (p_item_ser i v).
Proof.
  intros i [g|[k|] a o n]; cbn [p_item_ser]; try apply wi_done.
  apply within_bind; [apply within_elems|]. intros l. apply wi_done.
Qed.
Lemma within_payload : forall i v, within W (p_read_payload i v).
Proof.
  intros i v. unfold p_read_payload. destruct (pval_cip v =? T_string).
  - destruct v as [g|[k|] a o n]; [destruct g; apply wi_done| |apply wi_done].
    destruct k; try apply wi_done. apply within_bind; [apply within_elems|]. intros l. apply wi_done.
  - apply within_bind; [apply within_ser|]. intros b. apply wi_done.
Qed.
Lemma within_buffer : forall i v, within W (p_buffer_ser i v).
Proof.
  intros i v. unfold p_buffer_ser.
  destruct v as [g|[k|] a o n]; [|destruct k; try apply wi_done; apply within_ser|apply within_ser].
  destruct g; try apply wi_done; apply within_ser.
Qed.
Lemma within_write : forall i tag vs, W i tag -> within W (p_write_values i tag vs).
Proof.
  intros i tag [|v vs] H; cbn [p_write_values]; [apply wi_done|].
  apply wi_step; [|intros s; apply wi_done]. intros s. apply mw_write; [apply mw_same|exact H].
Qed.

Lemma turn_other : forall i j ps s ps1 s1 x, turn i ps s = (ps1, s1) -> i <> j -> nth_error ps j = Some x ->
  nth_error ps1 j = Some x.
Proof.
  intros i j ps s ps1 s1 x H N E. unfold turn in H.
  destruct (nth_error ps i) as [[[r|f p|u k] fs]|]; injection H as <- <-; try exact E;
    rewrite setn_other by congruence; exact E.
Qed.
Lemma setn_same' : forall (A : Type) (l : list A) i x y, nth_error l i = Some y -> nth_error (setn l i x) i = Some x.
Proof. intros A l i x y H. apply setn_same. apply nth_error_Some. congruence. Qed.
Lemma side_by_side : forall sched ps s ps' s' j p fs0 r fs1, play sched ps s = (ps', s') ->
  nth_error ps j = Some (p, fs0) ->
  (forall i q gs, i <> j -> nth_error ps i = Some (q, gs) -> within W q) ->
  nth_error ps' j = Some (Done r, fs1) ->
  exists fs, fs1 = fs0 ++ fs /\ course W p s r s' fs.
Proof.
  induction sched as [|i sched IH]; intros ps s ps' s' j p fs0 r fs1 H E O F; cbn [play] in H.
  - injection H as <- <-. rewrite E in F. injection F as -> ->. exists []. split; [symmetry; apply app_nil_r|].
    apply co_done, mw_same.
  - destruct (turn i ps s) as [ps1 s1] eqn:T.
    assert (forall i' q gs, i' <> j -> nth_error ps1 i' = Some (q, gs) -> within W q) as O1.
    { intros i' q gs N E'. destruct (Nat.eq_dec i' i) as [->|Ni].
      - unfold turn in T. destruct (nth_error ps i) as [[q0 g0]|] eqn:Ei.
        + pose proof (O i q0 g0 N Ei) as Wq.
          destruct q0 as [r0|f0 p0|u0 k0]; injection T as <- <-.
          * rewrite Ei in E'. injection E' as <- <-. exact Wq.
          * rewrite (setn_same' _ _ _ _ _ Ei) in E'. injection E' as <- <-. inversion Wq; subst; assumption.
          * rewrite (setn_same' _ _ _ _ _ Ei) in E'. injection E' as <- <-. inversion Wq; subst; auto.
        + injection T as <- <-. rewrite Ei in E'. discriminate.
      - destruct (nth_error ps i') as [x|] eqn:Ei'.
        + rewrite (turn_other i i' ps s ps1 s1 x T (fun Q => Ni (eq_sym Q)) Ei') in E'. injection E' as ->. exact (O i' q gs N Ei').
        + exfalso. apply nth_error_None in Ei'. assert (length ps1 = length ps) as L.
          { unfold turn in T. destruct (nth_error ps i) as [[[r0|f0 p0|u0 k0] g0]|]; injection T as <- <-; try reflexivity; apply setn_length. }
          assert (nth_error ps1 i' <> None) as X by congruence. apply nth_error_Some in X. lia. }
    destruct (Nat.eq_dec i j) as [->|N].
    + unfold turn in T. rewrite E in T. destruct p as [r0|f0 p0|u0 k0]; injection T as <- <-.
      * exact (IH _ _ _ _ _ _ _ _ _ H E O1 F).
      * destruct (IH _ _ _ _ _ _ _ _ _ H (setn_same' _ _ _ _ _ E) O1 F) as (fs & -> & C).
        exists (f0 :: fs). split; [rewrite <- app_assoc; reflexivity|]. apply co_out, C.
      * destruct (IH _ _ _ _ _ _ _ _ _ H (setn_same' _ _ _ _ _ E) O1 F) as (fs & -> & C).
        exists fs. split; [reflexivity|]. exact (co_step W u0 k0 s s _ _ _ (mw_same _ _) C).
    + destruct (IH _ _ _ _ _ _ _ _ _ H (turn_other i j ps s ps1 s1 _ T N E) O1 F) as (fs & -> & C).
      exists fs. split; [reflexivity|]. apply (course_later _ _ _ _ _ _ C).
      unfold turn in T. destruct (nth_error ps i) as [[[r0|f0 p0|u0 k0] g0]|] eqn:Ei; injection T as <- <-; try apply mw_same.
      pose proof (O i _ _ N Ei) as Wq. inversion Wq; subst. auto.
Qed.
End Courses.

(* ---- the same as SrvModel when alone ---- *)

Definition as_alone {A} (m : M A) (p : prog A) (h : handler) (s : server) : Prop :=
  forall inp sent, m (World s h inp sent) = let '(r, s', fs) := alone p s in (r, World s' h inp (sent ++ fs)).

Lemma aa_lift_bind : forall A B (r : res A) (k : A -> M B) (f : A -> prog B) h s,
  (forall a, r = Ok a -> as_alone (k a) (f a) h s) -> as_alone (bindM (lift r) k) (pbind (Done r) f) h s.
Proof.
  intros A B [a|e| |] k f h s H inp sent; cbn [pbind alone bindM lift]; unfold bindM, lift;
    try (rewrite app_nil_r; reflexivity). exact (H a eq_refl inp sent).
Qed.
Lemma aa_lift : forall A (r : res A) h s, as_alone (lift r) (Done r) h s.
Proof. intros A r h s inp sent. cbn [alone]. rewrite app_nil_r. reflexivity. Qed.
Lemma aa_bind : forall A B (m : M A) (p : prog A) (k : A -> M B) (f : A -> prog B) h s, as_alone m p h s ->
  (forall a s' fs, alone p s = (Ok a, s', fs) -> as_alone (k a) (f a) h s') -> as_alone (bindM m k) (pbind p f) h s.
Proof.
  intros A B m p k f h s H F inp sent. unfold bindM. rewrite (H inp sent), alone_bind.
  destruct (alone p s) as [[[a|e| |] s1] fs] eqn:E; try reflexivity.
  rewrite (F a s1 fs eq_refl inp (sent ++ fs)). destruct (alone (f a) s1) as [[r s2] gs].
  rewrite app_assoc. reflexivity.
Qed.
Lemma aa_send : forall h cmd part s, as_alone (send cmd part) (p_send h cmd part) h s.
Proof. intros h cmd part s inp sent. reflexivity. Qed.
Lemma aa_or_bind : forall A B (r : res A) (m : M unit) e (k : A -> M B) (f : A -> prog B) h s, as_alone m e h s ->
  (forall a, r = Ok a -> as_alone (k a) (f a) h s) -> as_alone (bindM (or_send r m) k) (pbind (p_or_send r e) f) h s.
Proof.
  intros A B [a|x| |] m e k f h s M F; cbn [or_send p_or_send].
  - apply aa_lift_bind. intros b E. exact (F b E).
  - apply aa_bind; [|intros a s' fs E]; [apply aa_bind; [exact M|intros _ s' fs _; apply aa_lift]|].
    exfalso. rewrite alone_bind in E. destruct (alone e s) as [[[u|y| |] s1] gs]; cbn [alone] in E; discriminate.
  - apply aa_lift_bind. discriminate.
  - apply aa_lift_bind. discriminate.
Qed.
Lemma aa_ask : forall A (k : server -> M A) p h s, as_alone (k s) p h s -> as_alone (bindM (SrvModel.ask w_srv) k) p h s.
Proof. intros A k p h s H inp sent. exact (H inp sent). Qed.
Lemma aa_pask : forall A B (g : server -> A) (f : A -> prog B) (m : M B) h s,
  as_alone m (f (g s)) h s -> as_alone m (pbind (p_ask g) f) h s.
Proof. intros A B g f m h s H. exact H. Qed.

Lemma alone_elems : forall i a n o s, alone (p_elems i a o n) s = (Ok (elems (pv_heap (prov_at s i)) a o n), s, []).
Proof.
  intros i a n. induction n as [|n IH]; intros o s; cbn [p_elems]; [reflexivity|].
  rewrite elems_step. cbn [pbind p_ask alone].
  destruct (nth_error (nth a (pv_heap (prov_at s i)) []) o) as [v|]; [|reflexivity].
  rewrite alone_bind, IH. reflexivity.
Qed.
Lemma alone_ser : forall i v s, alone (p_item_ser i v) s = (item_ser (pv_heap (prov_at s i)) v, s, []).
Proof.
  intros i [g|[k|] a o n] s; cbn [p_item_ser]; try reflexivity.
  rewrite alone_bind, alone_elems. destruct k; reflexivity.
Qed.
Lemma alone_buffer : forall i v s, alone (p_buffer_ser i v) s = (buffer_ser (pv_heap (prov_at s i)) v, s, []).
Proof.
  intros i v s. unfold p_buffer_ser, buffer_ser.
  destruct v as [g|[k|] a o n]; [destruct g; try reflexivity; apply alone_ser|destruct k; try reflexivity; apply alone_ser|apply alone_ser].
Qed.
Lemma alone_payload : forall i v s, alone (p_read_payload i v) s = (read_payload (pv_heap (prov_at s i)) v, s, []).
Proof.
  intros i v s. unfold p_read_payload, read_payload. destruct (pval_cip v =? T_string).
  - destruct v as [g|[k|] a o n]; [destruct g; reflexivity|destruct k; try reflexivity|reflexivity].
    rewrite alone_bind, alone_elems. reflexivity.
  - rewrite alone_bind, alone_ser. destruct (item_ser (pv_heap (prov_at s i)) v); reflexivity.
Qed.
Lemma aa_alone : forall A B (p : prog A) (r : res A) (k : A -> M B) (f : A -> prog B) h s, alone p s = (r, s, []) ->
  (forall a, r = Ok a -> as_alone (k a) (f a) h s) -> as_alone (bindM (lift r) k) (pbind p f) h s.
Proof.
  intros A B p r k f h s E F inp sent. rewrite alone_bind, E. unfold bindM, lift.
  destruct r as [a|e| |]; try (rewrite app_nil_r; reflexivity).
  rewrite (F a eq_refl inp sent). destruct (alone (f a) s) as [[r s2] gs]. reflexivity.
Qed.
Lemma aa_write : forall i tag vs h s, as_alone (write_values i tag vs) (p_write_values i tag vs) h s.
Proof.
  intros i tag vs h s inp sent. unfold write_values, p_write_values, give.
  destruct vs as [|v [|v2 vs]]; cbn [bindM SrvModel.ask]; unfold bindM, SrvModel.ask, lift, put_srv; cbn [w_srv alone w_h w_in w_sent].
  - rewrite app_nil_r. reflexivity.
  - destruct (write_given (sv_conv s) (prov_at s i) tag (GiveOne v)) as [p r]; cbn [fst snd]. rewrite app_nil_r. reflexivity.
  - destruct (write_given (sv_conv s) (prov_at s i) tag (GiveMany EAny (v :: v2 :: vs))) as [p r]; cbn [fst snd].
    rewrite app_nil_r. reflexivity.
Qed.

Lemma aa_connected_write : forall h d0 r s, as_alone (connected_write d0 r) (p_connected_write h d0 r) h s.
Proof.
  intros h d0 r s. unfold connected_write, p_connected_write.
  apply aa_lift_bind. intros [x0 r1] _. apply aa_lift_bind. intros [tag r2] _. apply aa_lift_bind. intros [vs r3] _.
  apply aa_lift_bind. intros [c r4] _. apply aa_ask. apply aa_pask. apply aa_lift_bind. intros cn _.
  apply aa_pask. apply aa_lift_bind. intros i _. apply aa_bind; [apply aa_write|]. intros [] s' fs _.
  intros inp sent. reflexivity.
Qed.
Lemma aa_unconnected_write : forall h r s, as_alone (unconnected_write r) (p_unconnected_write h r) h s.
Proof.
  intros h r s. unfold unconnected_write, p_unconnected_write.
  apply aa_lift_bind. intros [x0 r1] _. apply aa_lift_bind. intros [tag r2] _. apply aa_lift_bind. intros [vs r3] _.
  apply aa_lift_bind. intros [c r4] _. apply aa_lift_bind. intros [path r5] _. apply aa_ask.
  apply aa_pask. apply aa_lift_bind. intros i _. apply aa_bind; [apply aa_write|]. intros [] s' fs _.
  intros inp sent. reflexivity.
Qed.
Lemma aa_connected_read : forall h svc d0 d1 s, as_alone (connected_read svc d0 d1) (p_connected_read h svc d0 d1) h s.
Proof.
  intros h svc d0 d1 s. unfold connected_read, p_connected_read. apply aa_ask.
  apply aa_or_bind; [apply aa_send|]. intros [c x0] _. apply aa_pask.
  apply aa_or_bind; [apply aa_send|]. intros cn _.
  apply aa_or_bind; [apply aa_send|]. intros [q r] _.
  apply aa_or_bind; [apply aa_send|]. intros [x1 r1] _.
  apply aa_or_bind; [apply aa_send|]. intros [tag r2] _.
  apply aa_or_bind; [apply aa_send|]. intros [n r3] _. apply aa_pask.
  apply aa_or_bind; [apply aa_send|]. intros i _. apply aa_pask.
  apply aa_or_bind; [apply aa_send|]. intros v _.
  apply aa_alone; [apply alone_payload|]. intros payload _. apply aa_send.
Qed.
Lemma aa_unconnected_read : forall h r s, as_alone (unconnected_read r) (p_unconnected_read h r) h s.
Proof.
  intros h r s. unfold unconnected_read, p_unconnected_read.
  apply aa_lift_bind. intros [x0 r1] _. apply aa_lift_bind. intros [tag r2] _. apply aa_lift_bind. intros [n r3] _.
  apply aa_lift_bind. intros [c r4] _. apply aa_lift_bind. intros [path r5] _. apply aa_ask.
  apply aa_pask. apply aa_lift_bind. intros i _. apply aa_pask. apply aa_lift_bind. intros v _.
  apply aa_alone; [apply alone_payload|]. intros payload _. apply aa_send.
Qed.
Lemma aa_sub : forall h i d1 off s, as_alone (multi_sub i d1 off) (p_multi_sub i d1 off) h s.
Proof.
  intros h i d1 off s. unfold multi_sub, p_multi_sub. cbv zeta.
  assert (forall X Y (k : bytes -> M X) f h0 s0, Y = (if len d1 <=? off + 8 then lift (Err EEof) else lift (slice_from d1 (off + 8))) ->
    (forall r, as_alone (k r) (f r) h0 s0) ->
    as_alone (bindM Y k) (pbind (Done (if len d1 <=? off + 8 then Err EEof else slice_from d1 (off + 8))) f) h0 s0) as HH.
  { intros X Y k f h0 s0 -> F. destruct (len d1 <=? off + 8); apply aa_lift_bind; intros a _; apply F. }
  apply HH; [reflexivity|]. intros r. clear HH.
  apply aa_lift_bind. intros [sv r1] _. apply aa_lift_bind. intros [x1 r2] _.
  destruct ((unle sv =? svc_fragread) || (unle sv =? svc_read)).
  - apply aa_lift_bind. intros [tag r3] _. apply aa_lift_bind. intros [n r4] _. apply aa_ask. apply aa_pask.
    apply aa_lift_bind. intros v _. destruct (pval_cip v =? T_string).
    + destruct v as [g|e a o n0]; [destruct g|]; apply aa_lift.
    + apply aa_alone; [apply alone_buffer|]. intros b _. apply aa_lift.
  - destruct ((unle sv =? svc_write) || (unle sv =? svc_fragwrite)); [|apply aa_lift].
    apply aa_lift_bind. intros [tag r3] _. apply aa_lift_bind. intros [t r4] _. apply aa_lift_bind. intros [x2 r5] _.
    apply aa_lift_bind. intros [n r6] _. apply aa_lift_bind. intros [vs r7] _.
    apply aa_bind; [apply aa_write|]. intros [] s' fs _. apply aa_lift.
Qed.
Lemma aa_subs : forall h i d1 offs s, as_alone (multi_subs i d1 offs) (p_multi_subs i d1 offs) h s.
Proof.
  intros h i d1 offs. induction offs as [|o os IH]; intros s; cbn [multi_subs p_multi_subs]; [apply aa_lift|].
  apply aa_bind; [apply aa_sub|]. intros x s' fs _. apply aa_bind; [apply IH|]. intros xs s2 fs2 _. apply aa_lift.
Qed.
Lemma aa_connected_multi : forall h d0 d1 s, as_alone (connected_multi d0 d1) (p_connected_multi h d0 d1) h s.
Proof.
  intros h d0 d1 s. unfold connected_multi, p_connected_multi.
  apply aa_lift_bind. intros [c x0] _. apply aa_ask. apply aa_pask. apply aa_lift_bind. intros cn _.
  apply aa_pask. apply aa_lift_bind. intros i _.
  apply aa_lift_bind. intros [q r] _. apply aa_lift_bind. intros [x1 r1] _. apply aa_lift_bind. intros [pl r2] _.
  apply aa_lift_bind. intros [x2 r3] _. apply aa_lift_bind. intros [n r4] _. apply aa_lift_bind. intros [offs r5] _.
  apply aa_bind; [apply aa_subs|]. intros results s' fs _. apply aa_send.
Qed.

(* ---- requests that look at the server once ---- *)

Definition tells {A} (m : M A) (h : handler) (s : server) : Prop :=
  exists r fs, forall inp sent, m (World s h inp sent) = (r, World s h inp (sent ++ fs)).
Lemma tells_lift : forall A (r : res A) h s, tells (lift r) h s.
Proof. intros A r h s. exists r, []. intros. rewrite app_nil_r. reflexivity. Qed.
Lemma tells_send : forall cmd part h s, tells (send cmd part) h s.
Proof.
  intros cmd part h s. exists (Ok tt), [server_msg_build (h_handle h) (h_context h) (h_options h) cmd [part]].
  intros. reflexivity.
Qed.
Lemma tells_bind : forall A B (m : M A) (k : A -> M B) h s, tells m h s -> (forall a, tells (k a) h s) -> tells (bindM m k) h s.
Proof.
  intros A B m k h s (r & fs & H) K. destruct r as [a|e| |].
  - destruct (K a) as (r2 & fs2 & H2). exists r2, (fs ++ fs2). intros. unfold bindM. rewrite H, H2, app_assoc. reflexivity.
  - exists (Err e), fs. intros. unfold bindM. rewrite H. reflexivity.
  - exists Panic, fs. intros. unfold bindM. rewrite H. reflexivity.
  - exists OutOfFuel, fs. intros. unfold bindM. rewrite H. reflexivity.
Qed.
Lemma tells_ask : forall A (k : server -> M A) h s, tells (k s) h s -> tells (bindM (SrvModel.ask w_srv) k) h s.
Proof. intros A k h s H. exact H. Qed.
Lemma tells_askh : forall A (k : handler -> M A) h s, tells (k h) h s -> tells (bindM (SrvModel.ask w_h) k) h s.
Proof. intros A k h s H. exact H. Qed.
Lemma tells_unit_reply : forall svc status payload h s, tells (unit_reply svc status payload) h s.
Proof. intros. unfold unit_reply. apply tells_askh. apply tells_send. Qed.
Lemma tells_get_attr : forall d0 d1 h s, tells (connected_get_attr d0 d1) h s.
Proof.
  intros d0 d1 h s. unfold connected_get_attr.
  apply tells_bind; [apply tells_lift|]. intros [c r0]. apply tells_ask.
  apply tells_bind; [apply tells_lift|]. intros cn. apply tells_bind; [apply tells_lift|]. intros [q r1].
  apply tells_bind; [apply tells_lift|]. intros [x r2]. apply tells_bind; [apply tells_lift|]. intros [ps r3].
  destruct (negb (unle ps =? 3)); [apply tells_lift|].
  apply tells_bind; [apply tells_lift|]. intros [cls r4]. apply tells_bind; [apply tells_lift|]. intros [inst r5].
  destruct (negb (cls =? 1) || negb (inst =? 1)); [apply tells_lift|].
  apply tells_bind; [apply tells_lift|]. intros [attr r6]. destruct (zlookup attr (sv_attrs s)); [|apply tells_lift].
  apply tells_bind; [apply tells_lift|]. intros b. apply tells_send.
Qed.
Lemma tells_get_all : forall r h s, tells (get_attribute_all (unit_reply svc_get_all) r) h s.
Proof.
  intros r h s. unfold get_attribute_all.
  apply tells_bind; [apply tells_lift|]. intros [ps r1]. apply tells_bind; [apply tells_lift|]. intros [path r2].
  apply tells_ask. destruct (class_instance path) as [[c i]|e| |]; cbn [or_reply];
    [|apply tells_unit_reply|apply tells_lift|apply tells_lift].
  destruct (c =? obj_identity).
  - destruct (negb (i =? 1)); [apply tells_unit_reply|]. apply tells_bind; [apply tells_lift|]. intros b. apply tells_unit_reply.
  - destruct (c =? 0x64); [|apply tells_unit_reply].
    destruct (negb (i =? 1)); [apply tells_unit_reply|]. apply tells_bind; [apply tells_lift|]. intros b. apply tells_unit_reply.
Qed.
Lemma tells_symbols : forall d0 h s, tells (connected_symbols d0) h s.
Proof.
  intros d0 h s. unfold connected_symbols. apply tells_bind; [apply tells_lift|]. intros [c r]. apply tells_ask.
  apply tells_bind; [apply tells_lift|]. intros cn. apply tells_bind; [apply tells_lift|]. intros i. apply tells_unit_reply.
Qed.
Lemma aa_once : forall m h s, tells m h s -> as_alone m (p_once h m) h s.
Proof.
  intros m h s (r & fs & H) inp sent. rewrite H. cbn [alone p_once]. rewrite H. cbn [app w_sent].
  assert (forall s0, alone (fold_right (fun f p => Out f p) (Done r) fs) s0 = (r, s0, fs)) as E.
  { clear. induction fs as [|f fs IH]; intros s0; cbn [fold_right alone]; [reflexivity|]. rewrite IH. reflexivity. }
  rewrite E. reflexivity.
Qed.

Lemma unit_alone : forall h its, exists h2, forall s inp sent,
  unit_items its (World s h inp sent) = let '(r, s', fs) := alone (p_unit_items h its) s in (r, World s' h2 inp (sent ++ fs)).
Proof.
  intros h its. unfold unit_items, p_unit_items.
  destruct its as [|i0 [|i1 [|]]];
    try (exists h; intros; cbn [alone]; rewrite app_nil_r; reflexivity).
  destruct (negb (it_id i0 =? item_connaddr)); [exists h; intros; cbn [alone]; rewrite app_nil_r; reflexivity|].
  destruct (rd 4 (it_data i0)) as [[c x]|e| |]; unfold bindM at 1, lift at 1; cbn [pbind];
    try (exists h; intros; cbn [alone]; rewrite app_nil_r; reflexivity).
  destruct (rd 2 (it_data i1)) as [[q r1]|e| |]; unfold bindM at 1, lift at 1; cbn [pbind];
    try (exists h; intros; cbn [alone]; rewrite app_nil_r; reflexivity).
  unfold bindM at 1, put_h at 1. cbn [w_srv w_h w_in w_sent].
  set (h2 := Handler _ _ _ _ _ _). exists h2. intros s inp sent. revert inp sent.
  refine (_ : as_alone _ _ h2 s).
  apply aa_lift_bind. intros [sv r2] _. cbv zeta.
  destruct (unle sv =? svc_write); [apply aa_connected_write|].
  destruct ((unle sv =? svc_fragread) || (unle sv =? svc_read)); [apply aa_connected_read|].
  destruct (unle sv =? svc_multi); [apply aa_connected_multi|].
  destruct (unle sv =? svc_get_single); [apply aa_once, tells_get_attr|].
  destruct (unle sv =? svc_get_all); [apply aa_once, tells_get_all|].
  destruct (unle sv =? svc_list); [apply aa_once, tells_symbols|].
  intros inp sent. reflexivity.
Qed.

Lemma moment_of : forall A W (m : M A) (p : prog A) h h2 s r t fs,
  (forall s inp sent, m (World s h inp sent) = let '(r, s', fs) := alone p s in (r, World s' h2 inp (sent ++ fs))) ->
  atomic W p s -> course W p s r t fs -> at_one_moment W m h s r t fs.
Proof.
  intros A W m p h h2 s r t fs E At C. destruct (At r t fs C) as (s1 & s2 & M1 & A1 & M2).
  exists s1, s2, h2. split; [exact M1|]. split; [|exact M2]. intros inp. rewrite (E s1 inp []), A1. reflexivity.
Qed.

(* The whole of a SendUnitData request that is not a multiple one. *)
Lemma atomic_unit : forall W h i0 i1 s,
  ~ service_of (it_data i1) svc_multi ->
  (forall tag q, service_of (it_data i1) svc_read \/ service_of (it_data i1) svc_fragread ->
     read_of (it_data i1) tag q -> undisturbed W s tag q) ->
  atomic W (p_unit_items h [i0; i1]) s.
Proof.
  intros W h i0 i1 s NM U. unfold p_unit_items.
  destruct (negb (it_id i0 =? item_connaddr)); [apply atomic_done|].
  apply atomic_lift. intros x _ s1 M1. apply atomic_lift. intros [q r1] E1 s2 M2. cbv zeta.
  apply atomic_lift. intros [sv r2] E2 s3 M3.
  assert (service_of (it_data i1) (unle sv)) as SV.
  { apply rd_ok_inv in E1 as [E1 L1]. apply rd_ok_inv in E2 as [-> L2].
    destruct q as [|qa [|qb [|]]]; try discriminate L1. destruct sv as [|v [|]]; try discriminate L2.
    exists qa, qb, r2. rewrite E1. cbn [unle app]. repeat f_equal. lia. }
  destruct (unle sv =? svc_write); [apply atomic_connected_write|].
  destruct ((unle sv =? svc_fragread) || (unle sv =? svc_read)) eqn:ER.
  { apply atomic_connected_read. intros tag n RO. apply (undisturbed_later W s); [|apply U; [|exact RO]].
    - repeat (eapply mw_trans; [eassumption|]); apply mw_same.
    - apply orb_true_iff in ER as [ER|ER]; apply Z.eqb_eq in ER; rewrite ER in SV; auto. }
  destruct (unle sv =? svc_multi) eqn:EM.
  { apply Z.eqb_eq in EM. rewrite EM in SV. contradiction. }
  destruct (unle sv =? svc_get_single); [apply atomic_once|].
  destruct (unle sv =? svc_get_all); [apply atomic_once|].
  destruct (unle sv =? svc_list); [apply atomic_once|].
  apply frozen_atomic. intros m _. apply private_frozen. exact I.
Qed.

(* ---- what requests may write ---- *)

Lemma rd_skip : forall n k (d : bytes) a r, rd n (skipn k d) = Ok (a, r) -> r = skipn (n + k) d.
Proof.
  intros n k d a r H. apply rd_ok_inv in H as [E L]. assert (skipn n (skipn k d) = skipn (n + k) d) as <- by (rewrite skipn_skipn; f_equal; lia).
  rewrite E, <- L, skipn_app, skipn_all, Nat.sub_diag. reflexivity.
Qed.
Section Within.
Variable W : nat -> bytes -> Prop.
Lemma within_connected_write : forall h d0 d k, (forall i t, mentions d t -> W i t) -> within W (p_connected_write h d0 (skipn k d)).
Proof.
  intros h d0 d k H. unfold p_connected_write.
  apply within_lift. intros [x0 r1] E1. apply rd_skip in E1. subst r1. apply within_lift. intros [tag r2] E2.
  apply within_lift. intros [vs r3] _. apply within_lift. intros [c r4] _. apply within_ask_bind. intros cn.
  apply within_lift. intros cn' _. apply within_ask_bind. intros x. apply within_lift. intros i _.
  apply within_bind; [|intros _; apply within_private; exact I]. apply within_write, H. eexists _, _. exact E2.
Qed.
Lemma within_unconnected_write : forall h d, (forall i t, mentions d t -> W i t) -> within W (p_unconnected_write h d).
Proof.
  intros h d H. unfold p_unconnected_write.
  apply within_lift. intros [x0 r1] E1. apply (rd_skip 1 0) in E1. subst r1. apply within_lift. intros [tag r2] E2.
  apply within_lift. intros [vs r3] _. apply within_lift. intros [c r4] _. apply within_lift. intros [path r5] _.
  apply within_ask_bind. intros x. apply within_lift. intros i _.
  apply within_bind; [|intros _; apply within_private; exact I]. apply within_write, H. eexists _, _. exact E2.
Qed.
Lemma within_unconnected_read : forall h d, within W (p_unconnected_read h d).
Proof.
  intros h d. unfold p_unconnected_read.
  apply within_lift. intros [x0 r1] _. apply within_lift. intros [tag r2] _.
  apply within_lift. intros [vs r3] _. apply within_lift. intros [c r4] _. apply within_lift. intros [path r5] _.
  apply within_ask_bind. intros x. apply within_lift. intros i _. apply within_ask_bind. intros y. apply within_lift. intros v _.
  apply within_bind; [apply within_payload|]. intros p. apply within_private; exact I.
Qed.
Lemma within_connected_read : forall h svc d0 d1, within W (p_connected_read h svc d0 d1).
Proof.
  intros h svc d0 d1. unfold p_connected_read.
  apply within_parse; [exact I|]. intros [c x0] _. apply within_ask_bind. intros cn.
  apply within_parse; [exact I|]. intros cn' _. apply within_parse; [exact I|]. intros [q r] _.
  apply within_parse; [exact I|]. intros [x1 r1] _. apply within_parse; [exact I|]. intros [tag r2] _.
  apply within_parse; [exact I|]. intros [n r3] _. apply within_ask_bind. intros x.
  apply within_parse; [exact I|]. intros i _. apply within_ask_bind. intros y.
  apply within_parse; [exact I|]. intros v _. apply within_bind; [apply within_payload|]. intros p. apply within_private; exact I.
Qed.
Lemma within_sub : forall i d off, (forall i t, mentions d t -> W i t) -> within W (p_multi_sub i d off).
Proof.
  intros i d off H. unfold p_multi_sub. apply within_lift. intros r E0.
  assert (exists k, r = skipn k d) as [k ->].
  { destruct (len d <=? off + 8); [discriminate|]. unfold slice_from in E0. destruct (_ && _); [|discriminate].
    eexists. injection E0 as <-. reflexivity. }
  apply within_lift. intros [sv r1] E1. apply rd_skip in E1. subst r1.
  apply within_lift. intros [x1 r2] E2. apply rd_skip in E2. subst r2. cbv zeta.
  destruct ((unle sv =? svc_fragread) || (unle sv =? svc_read)).
  - apply within_lift. intros [tag r3] _. apply within_lift. intros [n r4] _. apply within_ask_bind. intros y.
    apply within_lift. intros v _. destruct (pval_cip v =? T_string).
    + destruct v as [g|e a o n0]; [destruct g|]; apply wi_done.
    + apply within_bind; [apply within_buffer|]. intros b. apply wi_done.
  - destruct ((unle sv =? svc_write) || (unle sv =? svc_fragwrite)); [|apply wi_done].
    apply within_lift. intros [tag r3] E3. apply within_lift. intros [t r4] _. apply within_lift. intros [x2 r5] _.
    apply within_lift. intros [n r6] _. apply within_lift. intros [vs r7] _.
    apply within_bind; [|intros _; apply wi_done]. apply within_write, H. eexists _, _. exact E3.
Qed.
Lemma within_subs : forall i d offs, (forall i t, mentions d t -> W i t) -> within W (p_multi_subs i d offs).
Proof.
  intros i d offs H. induction offs as [|o os IH]; cbn [p_multi_subs]; [apply wi_done|].
  apply within_bind; [apply within_sub, H|]. intros x. apply within_bind; [exact IH|]. intros xs. apply wi_done.
Qed.
Lemma within_multi : forall h d0 d1, (forall i t, mentions d1 t -> W i t) -> within W (p_connected_multi h d0 d1).
Proof.
  intros h d0 d1 H. unfold p_connected_multi.
  apply within_lift. intros [c x0] _. apply within_ask_bind. intros cn. apply within_lift. intros cn' _.
  apply within_ask_bind. intros x. apply within_lift. intros i _. apply within_lift. intros [q r] _.
  apply within_lift. intros [x1 r1] _. apply within_lift. intros [pl r2] _. apply within_lift. intros [x2 r3] _.
  apply within_lift. intros [n r4] _. apply within_lift. intros [offs r5] _.
  apply within_bind; [apply within_subs, H|]. intros results. apply within_private; exact I.
Qed.
Lemma within_once : forall h m, within W (p_once h m).
Proof.
  intros h m. apply wi_step; [intros s; apply mw_same|]. intros s. destruct (m (World s h [] [])) as [r w].
  induction (w_sent w) as [|f l IH]; [apply wi_done|apply wi_out, IH].
Qed.
Lemma within_request : forall p d, request p d -> (forall i t, mentions d t -> W i t) -> within W p.
Proof.
  intros p d R H. destruct R as [h i0 i1|h d|h d];
    [|apply within_unconnected_write, H|apply within_unconnected_read].
  unfold p_unit_items. destruct (negb (it_id i0 =? item_connaddr)); [apply wi_done|].
  apply within_lift. intros x _. apply within_lift. intros [q r1] E1. cbv zeta.
  apply within_lift. intros [sv r2] E2. apply (rd_skip 2 0) in E1. subst r1. apply rd_skip in E2. subst r2.
  destruct (unle sv =? svc_write); [apply within_connected_write, H|].
  destruct ((unle sv =? svc_fragread) || (unle sv =? svc_read)); [apply within_connected_read|].
  destruct (unle sv =? svc_multi); [apply within_multi, H|].
  destruct (unle sv =? svc_get_single); [apply within_once|].
  destruct (unle sv =? svc_get_all); [apply within_once|].
  destruct (unle sv =? svc_list); [apply within_once|]. apply within_private. exact I.
Qed.
Lemma within_requests : forall p ds, requests p ds -> (forall i t, named ds i t -> W i t) -> within W p.
Proof.
  intros p ds R. induction R as [p d R|p d q ds R RS IH]; intros H.
  - apply (within_request p d R). intros i t M. apply H. exists d. split; [left; reflexivity|exact M].
  - apply within_bind.
    + apply (within_request p d R). intros i t M. apply H. exists d. split; [left; reflexivity|exact M].
    + intros _. apply IH. intros i t (d' & I' & M). apply H. exists d'. split; [right; exact I'|exact M].
Qed.
End Within.

(* ---- multiple requests ---- *)

Lemma sub_moment : forall W h i d o s r t fs, atomic W (p_multi_sub i d o) s -> course W (p_multi_sub i d o) s r t fs ->
  at_one_moment W (multi_sub i d o) h s r t fs.
Proof. intros W h i d o s r t fs A C. exact (moment_of _ W _ _ h h s r t fs (aa_sub h i d o) A C). Qed.
Fixpoint silent {A} (p : prog A) : Prop :=
  match p with Done _ => True | Out _ _ => False | Step _ k => forall s, silent (k s) end.
Lemma silent_bind : forall A B (p : prog A) (f : A -> prog B), silent p -> (forall a, silent (f a)) -> silent (pbind p f).
Proof.
  intros A B p f. induction p as [[a|e| |]|x p IH|u k IH]; intros P F; cbn [pbind]; cbn [silent] in *; tauto || auto.
Qed.
Lemma course_silent : forall W A (p : prog A) s r t fs, silent p -> course W p s r t fs -> fs = [].
Proof.
  intros W A p s r t fs P C. induction C as [r s t H|f p s r t fs C IH|u k s m r t fs H C IH]; [reflexivity|destruct P|].
  apply IH, P.
Qed.
Lemma silent_elems : forall i a n o, silent (p_elems i a o n).
Proof.
  intros i a n. induction n as [|n IH]; intros o; cbn [p_elems]; [exact I|].
  apply silent_bind; [intros s; exact I|]. intros [v|]; [|exact I]. apply silent_bind; [apply IH|]. intros; exact I.
Qed.
Lemma silent_ser : forall i v, silent (p_item_ser i v).
Proof.
  intros i [g|[k|] a o n]; cbn [p_item_ser]; try exact I. apply silent_bind; [apply silent_elems|]. intros; exact I.
Qed.
Lemma silent_sub : forall i d o, silent (p_multi_sub i d o).
Proof.
  intros i d o. unfold p_multi_sub. apply silent_bind; [exact I|]. intros r.
  apply silent_bind; [exact I|]. intros [sv r1]. apply silent_bind; [exact I|]. intros [x1 r2]. cbv zeta.
  destruct ((unle sv =? svc_fragread) || (unle sv =? svc_read)).
  - apply silent_bind; [exact I|]. intros [tag r3]. apply silent_bind; [exact I|]. intros [n r4].
    apply silent_bind; [intros s; exact I|]. intros y. apply silent_bind; [exact I|]. intros v.
    destruct (pval_cip v =? T_string); [destruct v as [g|e a o' n0]; [destruct g|]; exact I|].
    apply silent_bind; [|intros; exact I]. unfold p_buffer_ser.
    destruct v as [g|[k|] a o' n']; [|destruct k; try exact I; apply silent_ser|apply silent_ser].
    destruct g; try exact I; apply silent_ser.
  - destruct ((unle sv =? svc_write) || (unle sv =? svc_fragwrite)); [|exact I].
    apply silent_bind; [exact I|]. intros [tag r3]. apply silent_bind; [exact I|]. intros [t r4].
    apply silent_bind; [exact I|]. intros [x2 r5]. apply silent_bind; [exact I|]. intros [n r6].
    apply silent_bind; [exact I|]. intros [vs r7]. apply silent_bind; [|intros; exact I].
    destruct vs; [exact I|]. intros s. exact I.
Qed.
Lemma silent_subs : forall i d os, silent (p_multi_subs i d os).
Proof.
  intros i d os. induction os as [|o os IH]; cbn [p_multi_subs]; [exact I|].
  apply silent_bind; [apply silent_sub|]. intros x. apply silent_bind; [exact IH|]. intros; exact I.
Qed.
Lemma course_lift_bind : forall W A B (x : res A) (f : A -> prog B) s (b : B) t fs,
  course W (pbind (Done x) f) s (Ok b) t fs -> exists a, x = Ok a /\ course W (f a) s (Ok b) t fs.
Proof.
  intros W A B [a|e| |] f s b t fs C; [exists a; auto| | |]; apply course_done_inv in C as (E & _); discriminate E.
Qed.
Lemma course_ask_bind : forall W A B (g : server -> A) (f : A -> prog B) s r t fs,
  course W (pbind (p_ask g) f) s r t fs -> exists m, meanwhile W s m /\ course W (f (g m)) m r t fs.
Proof. intros W A B g f s r t fs C. exact (course_step_inv W _ _ _ _ _ _ _ C). Qed.

Lemma course_separate : forall W A (p : prog A) s r t fs, within (fun _ _ => True) p -> course W p s r t fs ->
  all_separate s -> all_separate t.
Proof.
  intros W A p s r t fs Wi C. induction C as [r s t H|f p s r t fs C IH|u k s m r t fs H C IH]; intros S0.
  - exact (mw_separate W s t H S0).
  - inversion Wi; subst; auto.
  - inversion Wi; subst. apply IH; [auto|]. apply (mw_separate (fun _ _ => True) m (u m)); [auto|]. exact (mw_separate W s m H S0).
Qed.
Lemma subs_in_turn : forall (W : nat -> bytes -> Prop) h i d os s xs t fs,
  (forall o tag q, In o os -> sub_read d o tag q -> forall j w, W j w -> ~ element_of tag w) -> all_separate s ->
  course W (p_multi_subs i d os) s (Ok xs) t fs -> in_turn W h i d os s xs t.
Proof.
  intros W h i d os. induction os as [|o os IH]; intros s xs t fs D S0 C; cbn [p_multi_subs] in C.
  - apply course_done_inv in C as (E & _ & M). injection E as ->. apply it_none. exact M.
  - apply course_bind in C as [(x & s1 & f1 & f2 & C1 & C2 & _)|(x & N & _ & E)];
      [|destruct x as [a| | |]; [destruct (N a eq_refl)|discriminate..]].
    apply course_bind in C2 as [(xs' & s2 & f3 & f4 & C3 & C4 & _)|(y & N & _ & E)];
      [|destruct y as [a| | |]; [destruct (N a eq_refl)|discriminate..]].
    apply course_done_inv in C4 as (E & _ & M). injection E as ->.
    rewrite (course_silent _ _ _ _ _ _ _ (silent_sub i d o) C1) in C1.
    apply it_next with s1.
    + apply sub_moment; [|exact C1]. apply atomic_sub. intros tag q R. split; [exact S0|]. left.
      intros j w. exact (D o tag q (or_introl eq_refl) R j w).
    + assert (in_turn W h i d os s1 xs' s2) as T.
      { apply (IH s1 xs' s2 f3); [|exact (course_separate W _ _ _ _ _ _ (within_sub _ i d o (fun _ _ _ => I)) C1 S0)|exact C3].
        intros o' tag q I' R. exact (D o' tag q (or_intror I') R). }
      clear - T M. induction T as [s t0 M0|o0 os0 s x s1 xs t0 A T IH]; [apply it_none; exact (mw_trans _ _ _ _ M0 M)|].
      apply it_next with s1; [exact A|exact (IH M)].
Qed.

(* The whole multiple request. *)
Lemma multi_in_turn : forall (W : nat -> bytes -> Prop) h h' d0 d1 s t fs, all_separate s ->
  (forall n offs, multi_of d1 n offs -> forall o tag q, In o offs -> sub_read d1 o tag q -> forall j w, W j w -> ~ element_of tag w) ->
  bytes_ok d1 -> course W (p_connected_multi h d0 d1) s (Ok tt) t fs ->
  exists n offs i seq to results s1 s2, multi_of d1 n offs /\ meanwhile W s s1 /\ in_turn W h' i d1 offs s1 results s2 /\ meanwhile W s2 t /\
    (exists c, conn_by_ot s1 (unle (firstn 4 d0)) = Ok c /\ sc_to c = to /\ resolve s1 (sc_path c) = Ok i) /\
    seq = unle (firstn 2 d1) /\
    fs = [server_msg_build (h_handle h) (h_context h) (h_options h) cmd_unitdata
            [serialize_items (conn_reply_items svc_multi seq to 0 0 ([le 2 n; jump_table ((n + 1) * 2) results] ++ results))]].
Proof.
  intros W h h' d0 d1 s t fs S0 D B C. unfold p_connected_multi in C.
  apply course_lift_bind in C as ([c x0] & E0 & C). apply course_ask_bind in C as (m1 & M1 & C).
  apply course_lift_bind in C as (cn & E1 & C). apply course_ask_bind in C as (m2 & M2 & C).
  apply course_lift_bind in C as (i & E2 & C). apply course_lift_bind in C as ([q r] & E3 & C).
  apply course_lift_bind in C as ([x1 r1] & E4 & C). apply course_lift_bind in C as ([pl r2] & E5 & C).
  apply course_lift_bind in C as ([x2 r3] & E6 & C). apply course_lift_bind in C as ([n r4] & E7 & C).
  apply course_lift_bind in C as ([offs r5] & E8 & C).
  apply course_bind in C as [(results & s1 & f1 & f2 & C1 & C2 & ->)|(x & N & _ & E)];
    [|destruct x as [a| | |]; [destruct (N a eq_refl)|discriminate..]].
  assert (meanwhile W s m2) as M by exact (mw_trans _ _ _ _ M1 M2).
  assert (multi_of d1 (unle n) offs) as MO.
  { apply rd_ok_inv in E3 as [-> L3]. apply rd_ok_inv in E4 as [-> L4]. apply rd_ok_inv in E5 as [-> L5].
    apply rd_ok_inv in E6 as [-> L6]. apply rd_ok_inv in E7 as [-> L7].
    destruct q as [|qa [|qb [|]]]; try discriminate L3. destruct x1 as [|x1 [|]]; try discriminate L4.
    destruct pl as [|pl [|]]; try discriminate L5. destruct n as [|na [|nb [|]]]; try discriminate L7.
    cbn [app] in B. repeat (apply Forall_cons_iff in B as [? B]). apply Forall_app in B as [_ B].
    repeat (apply Forall_cons_iff in B as [? B]). unfold byte_ok in *.
    assert (unle [pl] = pl) as Upl by (cbn [unle]; lia). rewrite Upl in L6.
    exists qa, qb, x1, pl, x2, r4, r5. split; [|split; [|split; [|exact E8]]].
    - change (le 2 (unle [na; nb])) with (le (length [na; nb]) (unle [na; nb])). rewrite le_unle by (apply Forall_cons; [assumption|apply Forall_cons; [assumption|apply Forall_nil]]). reflexivity.
    - unfold len. rewrite L6. lia.
    - cbn [unle]. lia. }
  exists (unle n), offs, i, (unle q), (sc_to cn), results, m2, s1.
  split; [exact MO|]. split; [exact M|].
  split; [apply (subs_in_turn W h' i d1 offs m2 results s1 f1); [|exact (mw_separate W s m2 M S0)|exact C1]|].
  { exact (D _ _ MO). }
  rewrite (course_silent _ _ _ _ _ _ _ (silent_subs i d1 offs) C1).
  apply course_out_inv in C2 as (gs & -> & C2). apply course_done_inv in C2 as (_ & -> & M3).
  split; [exact M3|]. split.
  { exists cn. split; [|split; [reflexivity|exact E2]].
    apply (proj2 (proj2 (mw_kept W m1 m2 M2))). apply rd_ok_inv in E0 as [-> L0].
    rewrite firstn_app, L0, Nat.sub_diag, firstn_O, app_nil_r, <- L0, firstn_all. exact E1. }
  split; [|reflexivity]. apply rd_ok_inv in E3 as [-> L3].
  rewrite firstn_app, L3, Nat.sub_diag, firstn_O, app_nil_r, <- L3, firstn_all. reflexivity.
Qed.
