(** * Lemmas: requests act on the tags they are meant for *)
From Verif Require Import GoBase SegModel IoiModel IoiProof ItemsModel ItemsSpec ItemsProof TypesModel WriteModel ReadModel ReadProof EipModel EipSpec EipProof
  OpenModel TableModel ProvModel ProvProof SrvValModel SrvModel SrvSpec SrvProof RouteSpec.

(** ** How long written values are *)
Lemma read_value_size t r v r1 : read_value t r = Ok (v, r1) ->
  exists x, r = x ++ r1 /\ forall z, number_size t = Some z -> len x = z.
Proof.
  assert (I : forall s n, read_int s n r = Ok (v, r1) -> exists x, r = x ++ r1 /\ len x = Z.of_nat n).
  { intros s n. unfold read_int. destruct (rd n r) as [[d r']| | |] eqn:E; cbn [bind]; try discriminate.
    apply rd_ok_inv in E as [-> L]. intro H. assert (r' = r1) as -> by congruence. exists d. unfold len. rewrite L. auto. }
  assert (R : forall n (f : bytes -> gval), (let* (d, r') := rd n r in Ok (f d, r')) = Ok (v, r1) -> exists x, r = x ++ r1 /\ len x = Z.of_nat n).
  { intros n f. destruct (rd n r) as [[d r']| | |] eqn:E; cbn [bind]; try discriminate.
    apply rd_ok_inv in E as [-> L]. intro H. assert (r' = r1) as -> by congruence. exists d. unfold len. rewrite L. auto. }
  unfold read_value.
  repeat (match goal with |- (if t =? ?c then _ else _) = _ -> _ => destruct (Z.eqb_spec t c) as [->|_] end;
    [first [discriminate | intro H; (apply I in H || apply R in H); destruct H as (x & -> & Lx);
       exists x; split; [reflexivity|]; intros z Z; vm_compute in Z; try discriminate; injection Z as <-; exact Lx]|]).
  discriminate.
Qed.
Lemma read_values_size n t : forall r vs r1, read_values n t r = Ok (vs, r1) ->
  exists x, r = x ++ r1 /\ forall z, number_size t = Some z -> len x = Z.of_nat n * z.
Proof.
  induction n as [|n IH]; intros r vs r1; cbn [read_values].
  - intro H. assert (r = r1) as -> by congruence. exists []. split; [reflexivity|]. intros. reflexivity.
  - destruct (read_value t r) as [[v r2]| | |] eqn:E; cbn [bind]; try discriminate.
    destruct (read_values n t r2) as [[ws r3]| | |] eqn:E2; cbn [bind]; try discriminate. intro H. assert (r3 = r1) as -> by congruence.
    destruct (read_value_size _ _ _ _ E) as (x & -> & X). destruct (IH _ _ _ E2) as (y & -> & Y).
    exists (x ++ y). split; [now rewrite app_assoc|]. intros z Z. rewrite len_app, (X z Z), (Y z Z). lia.
Qed.
Lemma parse_strings_suffix n : forall r vs r1, parse_strings n r = Ok (vs, r1) -> exists x, r = x ++ r1.
Proof.
  induction n as [|n IH]; intros r vs r1; cbn [parse_strings].
  - intro H. assert (r = r1) as -> by congruence. now exists [].
  - destruct (parse_string r) as [[v r2]| | |] eqn:E; cbn [bind]; try discriminate.
    destruct (parse_strings n r2) as [[ws r3]| | |] eqn:E2; cbn [bind]; try discriminate. intro H. assert (r3 = r1) as -> by congruence.
    destruct (IH _ _ _ E2) as (y & ->). revert E. unfold parse_string.
    destruct (rd 4 r) as [[a q1]| | |] eqn:R1; cbn [bind]; try discriminate. apply rd_ok_inv in R1 as [-> _].
    destruct (rd 82 q1) as [[b q2]| | |] eqn:R2; cbn [bind]; try discriminate. apply rd_ok_inv in R2 as [-> _].
    intro G. assert (q2 = y ++ r1) as -> by congruence. exists (a ++ b ++ y). now rewrite <- !app_assoc.
Qed.
Lemma parse_write_layout r vs r' : bytes_ok r -> parse_write_values r = Ok (vs, r') ->
  exists t info n vals, r = t :: len info :: info ++ n ++ vals ++ r' /\ length n = 2%nat /\
    forall z, number_size t = Some z -> len vals = unle n * z.
Proof.
  intros B. unfold parse_write_values.
  destruct (rd 1 r) as [[t r1]| | |] eqn:E1; cbn [bind]; try discriminate.
  apply rd_ok_inv in E1 as [-> L1]. destruct t as [|t [|]]; try discriminate. apply bytes_ok_app in B as [_ B].
  destruct (rd 1 r1) as [[il r2]| | |] eqn:E2; cbn [bind]; try discriminate.
  apply rd_ok_inv in E2 as [-> L2]. destruct il as [|il [|]]; try discriminate. apply bytes_ok_app in B as [Bl B].
  assert (Bil : byte_ok il) by (now inversion Bl). unfold byte_ok in Bil. rewrite !unle1.
  destruct (rd (Z.to_nat il) r2) as [[info r3]| | |] eqn:E3; cbn [bind]; try discriminate.
  apply rd_ok_inv in E3 as [-> L3]. apply bytes_ok_app in B as [_ B].
  destruct (rd 2 r3) as [[q r4]| | |] eqn:E4; cbn [bind]; try discriminate.
  apply rd_ok_inv in E4 as [-> L4]. apply bytes_ok_app in B as [Bq B].
  assert (Lq : 0 <= unle q) by (pose proof (unle_bound q Bq); lia).
  assert (Li : len info = il) by (unfold len; lia).
  intro H. exists t, info, q. rewrite Li.
  destruct (Z.eqb_spec t T_struct) as [->|N].
  - destruct (_ =? _); [|discriminate]. destruct (parse_strings_suffix _ _ _ _ H) as (x & ->).
    exists x. split; [reflexivity|]. split; [exact L4|]. intros z Z. discriminate.
  - destruct (read_values_size _ _ _ _ _ H) as (x & -> & X). exists x. split; [reflexivity|]. split; [exact L4|].
    intros z Z. rewrite (X z Z), Z2Nat.id by exact Lq. reflexivity.
Qed.

Section Two.
Context (J : nat -> Prop).
Record like (v w : world) : Prop := Like {
  lk_srv : alike J (w_srv v) (w_srv w); lk_h : w_h w = w_h v; lk_in : w_in w = w_in v; lk_sent : w_sent w = w_sent v }.
Definition kept (v v' : world) : Prop := untouched J (w_srv v) (w_srv v') /\ (bytes_ok (w_in v) -> bytes_ok (w_in v')).
(** The two computations give the same and leave like worlds; the first touches
    nothing outside J. *)
Definition both {A} (m n : M A) (v w : world) : Prop :=
  fst (n w) = fst (m v) /\ like (snd (m v)) (snd (n w)) /\ kept v (snd (m v)).

Lemma kept_refl v : kept v v.
Proof. split; [intros j _; reflexivity|auto]. Qed.
Ltac stays := split; [intros ? _; reflexivity|exact (fun x => x)].
Lemma kept_trans u v w : kept u v -> kept v w -> kept u w.
Proof. intros [A A'] [B B']. split; [|auto]. intros j N. now rewrite (B j N), (A j N). Qed.

Lemma both_bind {A B} (m n : M A) (k l : A -> M B) v w :
  both m n v w -> (forall a v' w', m v = (Ok a, v') -> n w = (Ok a, w') -> like v' w' -> both (k a) (l a) v' w') ->
  both (bindM m k) (bindM n l) v w.
Proof.
  intros (E & L & K) H. unfold both, bindM in *. destruct (m v) as [r v'] eqn:Em, (n w) as [r' w'] eqn:En. cbn [fst snd] in *. subst r'.
  destruct r as [a|e| |]; cbn [fst snd]; try (split; [reflexivity|split; assumption]).
  destruct (H a v' w' eq_refl eq_refl L) as (E2 & L2 & K2). split; [exact E2|split; [exact L2|]]. eapply kept_trans; eassumption.
Qed.
Lemma both_lift {A} (r : res A) v w : like v w -> both (lift r) (lift r) v w.
Proof. intro L. split; [reflexivity|split; [exact L|apply kept_refl]]. Qed.
Lemma both_blift {A B} (r : res A) (k l : A -> M B) v w : like v w ->
  (forall a, r = Ok a -> both (k a) (l a) v w) -> both (bindM (lift r) k) (bindM (lift r) l) v w.
Proof.
  intros L H. apply both_bind; [now apply both_lift|]. intros a v' w' E1 E2 _. unfold lift in E1, E2.
  assert (v = v') as <- by congruence. assert (w = w') as <- by congruence. apply H. congruence.
Qed.
Lemma both_ask {A B} (f : world -> A) (k l : A -> M B) v w :
  both (k (f v)) (l (f w)) v w -> both (bindM (ask f) k) (bindM (ask f) l) v w.
Proof. intro H. exact H. Qed.
Lemma both_send c p v w : like v w -> both (send c p) (send c p) v w.
Proof.
  intros [S H I O]. unfold both, send. cbn [fst snd]. split; [reflexivity|split; [|stays]].
  constructor; cbn [w_srv w_h w_in w_sent]; congruence.
Qed.
Lemma both_put_h f v w : like v w -> both (put_h f) (put_h f) v w.
Proof.
  intros [S H I O]. unfold both, put_h. cbn [fst snd]. split; [reflexivity|split; [|stays]].
  constructor; cbn [w_srv w_h w_in w_sent]; congruence.
Qed.
Lemma both_draw v w : like v w -> both draw draw v w.
Proof.
  intros [S H I O]. unfold both, draw. cbn [fst snd]. split; [now rewrite (al_rand _ _ _ S), (al_drawn _ _ _ S)|].
  split; [|stays]. constructor; cbn [w_srv w_h w_in w_sent]; try assumption.
  destruct S. constructor; cbn; try assumption; congruence.
Qed.
Lemma both_take n v w : like v w -> both (take n) (take n) v w.
Proof.
  intros [S H I O]. unfold both, take. rewrite I. destruct (rd n (w_in v)) as [[b r]|e| |] eqn:E; cbn [fst snd];
    (split; [reflexivity|split; [constructor; cbn [w_srv w_h w_in w_sent]; congruence|]]); (split; [intros ? _; reflexivity|]); cbn [w_in]; auto.
  - apply rd_ok_inv in E as [-> _]. intro B. now apply bytes_ok_app in B.
  - intros _. constructor.
Qed.
Lemma setn_alike (l m : list prov) i p j : nth_error l i = nth_error m i -> nth_error l j = nth_error m j ->
  nth_error (setn l i p) j = nth_error (setn m i p) j.
Proof.
  intros Ei Ej. destruct (Nat.eq_dec j i) as [->|N]; [|now rewrite !setn_other].
  destruct (nth_error l i) eqn:E.
  - rewrite !setn_same; [reflexivity| |]; apply nth_error_Some; congruence.
  - assert (nth_error (setn l i p) i = None) as -> by (apply nth_error_None; rewrite setn_length; now apply nth_error_None).
    symmetry. apply nth_error_None. rewrite setn_length. now apply nth_error_None.
Qed.
Lemma both_set_prov i p v w : J i -> like v w -> both (put_srv (set_prov i p)) (put_srv (set_prov i p)) v w.
Proof.
  intros Ji [S H I O]. unfold both, put_srv. cbn [fst snd]. split; [reflexivity|]. split.
  - constructor; cbn [w_srv w_h w_in w_sent]; try assumption. destruct S. constructor; cbn; try assumption.
    intros j Jj. apply setn_alike; auto.
  - split; [|exact (fun x => x)]. intros j N. cbn. apply setn_other. now intros ->.
Qed.
Lemma both_set_cm (f : server -> cman) v w : (forall s t, alike J s t -> f t = f s) -> like v w ->
  both (put_srv (fun s => set_cm (f s) s)) (put_srv (fun s => set_cm (f s) s)) v w.
Proof.
  intros E [S H I O]. unfold both, put_srv. cbn [fst snd]. split; [reflexivity|]. split; [|stays].
  constructor; cbn [w_srv w_h w_in w_sent]; try assumption. pose proof (E _ _ S). destruct S. constructor; cbn; assumption.
Qed.
Lemma both_add_io a v w : like v w -> both (put_srv (add_io a)) (put_srv (add_io a)) v w.
Proof.
  intros [S H I O]. unfold both, put_srv. cbn [fst snd]. split; [reflexivity|]. split; [|stays].
  constructor; cbn [w_srv w_h w_in w_sent]; try assumption. destruct S. constructor; cbn; try assumption; congruence.
Qed.

Lemma alike_prov s t i : alike J s t -> J i -> prov_at t i = prov_at s i.
Proof.
  intros S Ji. unfold prov_at. pose proof (al_provs _ _ _ S i Ji) as E.
  destruct (nth_error (sv_provs s) i) eqn:D.
  - apply nth_error_nth with (d := prov_empty) in D. apply nth_error_nth with (d := prov_empty) in E. congruence.
  - apply nth_error_None in D, E. now rewrite !nth_overflow.
Qed.
Lemma alike_resolve s t p : alike J s t -> resolve t p = resolve s p.
Proof. intro S. unfold resolve. now rewrite (al_router _ _ _ S). Qed.
Lemma alike_conn s t x : alike J s t -> conn_by_ot t x = conn_by_ot s x.
Proof. intro S. unfold conn_by_ot. now rewrite (al_cm _ _ _ S). Qed.

Lemma both_or_send {A B} (r : res A) (m n : M unit) (k l : A -> M B) v w : like v w ->
  both m n v w -> (forall a, r = Ok a -> both (k a) (l a) v w) -> both (bindM (or_send r m) k) (bindM (or_send r n) l) v w.
Proof.
  intros L Hm H. destruct r as [a|e| |]; cbn [or_send].
  - apply both_blift; [exact L|]. intros. now apply H.
  - apply both_bind.
    + apply both_bind; [exact Hm|]. intros. now apply both_lift.
    + intros a v' w' E. exfalso. unfold bindM in E. destruct (m v) as [[]]; discriminate.
  - apply both_blift; [exact L|]. discriminate.
  - apply both_blift; [exact L|]. discriminate.
Qed.
Lemma both_or_reply {A} (r : res A) (m n : M unit) (k l : A -> M unit) v w : like v w ->
  both m n v w -> (forall a, r = Ok a -> both (k a) (l a) v w) -> both (or_reply r m k) (or_reply r n l) v w.
Proof.
  intros L Hm H. destruct r as [a|e| |]; cbn [or_reply]; [now apply H|exact Hm|now apply both_lift|now apply both_lift].
Qed.
Lemma both_unit_reply a b c v w : like v w -> both (unit_reply a b c) (unit_reply a b c) v w.
Proof. intro L. unfold unit_reply. apply both_ask. rewrite (lk_h _ _ L). now apply both_send. Qed.
Lemma both_write_values i t vs v w : J i -> like v w -> both (write_values i t vs) (write_values i t vs) v w.
Proof.
  intros Ji L. unfold write_values. apply both_ask.
  rewrite (al_conv _ _ _ (lk_srv _ _ L)), (alike_prov _ _ _ (lk_srv _ _ L) Ji).
  destruct vs as [|x [|y vs]]; [now apply both_lift| |]; destruct (write_given _ _ _ _) as [p r];
    (apply both_bind; [now apply both_set_prov|]; intros; now apply both_lift).
Qed.

(** After [ask w_srv] the two servers are alike: use the first one's parts. *)
Ltac same L := rewrite ?(alike_conn _ _ _ (lk_srv _ _ L)), ?(alike_resolve _ _ _ (lk_srv _ _ L)), ?(al_attrs _ _ _ (lk_srv _ _ L)),
  ?(al_conv _ _ _ (lk_srv _ _ L)), ?(al_ip _ _ _ (lk_srv _ _ L)), ?(al_port _ _ _ (lk_srv _ _ L)).
Ltac two L := repeat first
  [ match goal with
    | |- both (bindM (lift _) _) _ _ _ => apply both_blift; [exact L|]
    | |- both (bindM (ask _) _) _ _ _ => apply both_ask; same L
    | |- both (bindM (or_send _ (conn_error _ _ _ _)) _) _ _ _ => apply both_or_send; [exact L|now apply both_send|]
    | |- both (or_reply _ _ _) _ _ _ => apply both_or_reply; [exact L|try now apply both_send|]
    | |- both (conn_reply _ _ _ _) _ _ _ => now apply both_send
    | |- both (unconn_reply _ _ _) _ _ _ => now apply both_send
    | |- both (unit_reply _ _ _) _ _ _ => now apply both_unit_reply
    | |- both fail _ _ _ => now apply both_lift
    | |- both (lift _) _ _ _ => now apply both_lift
    | |- both (ret _) _ _ _ => now apply (both_lift (Ok _))
    | |- both (if ?b then _ else _) _ _ _ => destruct b eqn:?
    | |- both (match ?x with _ => _ end) _ _ _ => destruct x
    end | progress intros | progress (same L) ].

Lemma both_connected_write d0 r v w : like v w ->
  (forall x y cn i, rd 4 d0 = Ok (x, y) -> conn_by_ot (w_srv v) (unle x) = Ok cn -> resolve (w_srv v) (sc_path cn) = Ok i -> J i) ->
  both (connected_write d0 r) (connected_write d0 r) v w.
Proof.
  intros L H. unfold connected_write. two L.
  apply both_bind; [apply both_write_values; [eauto|exact L]|]. intros. now apply both_unit_reply.
Qed.
Lemma both_connected_read svc d0 d1 v w : like v w ->
  (forall x y cn i, rd 4 d0 = Ok (x, y) -> conn_by_ot (w_srv v) (unle x) = Ok cn -> resolve (w_srv v) (sc_path cn) = Ok i -> J i) ->
  both (connected_read svc d0 d1) (connected_read svc d0 d1) v w.
Proof.
  intros L H. unfold connected_read. apply both_ask. same L. two L.
  match goal with |- both (bindM (or_send (tag_read (prov_at _ ?i) _ _) _) _) _ _ _ =>
    assert (Ji : J i) by eauto; rewrite (alike_prov _ _ _ (lk_srv _ _ L) Ji) end. two L.
Qed.
Lemma both_multi_sub i d1 o v w : J i -> like v w -> both (multi_sub i d1 o) (multi_sub i d1 o) v w.
Proof.
  intros Ji L. unfold multi_sub. cbv zeta. apply both_bind.
  { destruct (_ <=? _); now apply both_lift. }
  intros r v1 w1 _ _ L1. clear L. two L1.
  - rewrite (alike_prov _ _ _ (lk_srv _ _ L1) Ji). two L1.
  - apply both_bind; [now apply both_write_values|]. intros. now apply (both_lift (Ok _)).
Qed.
Lemma both_multi_subs i d1 offs : J i -> forall v w, like v w -> both (multi_subs i d1 offs) (multi_subs i d1 offs) v w.
Proof.
  intro Ji. induction offs as [|o os IH]; intros v w L; cbn [multi_subs]; [now apply (both_lift (Ok _))|].
  apply both_bind; [now apply both_multi_sub|]. intros x v1 w1 _ _ L1. apply both_bind; [now apply IH|].
  intros xs v2 w2 _ _ L2. now apply (both_lift (Ok _)).
Qed.
Lemma both_connected_multi d0 d1 v w : like v w ->
  (forall x y cn i, rd 4 d0 = Ok (x, y) -> conn_by_ot (w_srv v) (unle x) = Ok cn -> resolve (w_srv v) (sc_path cn) = Ok i -> J i) ->
  both (connected_multi d0 d1) (connected_multi d0 d1) v w.
Proof.
  intros L H. unfold connected_multi. two L.
  apply both_bind; [apply both_multi_subs; [eauto|exact L]|]. intros. now apply both_send.
Qed.
Lemma both_connected_get_attr d0 d1 v w : like v w -> both (connected_get_attr d0 d1) (connected_get_attr d0 d1) v w.
Proof. intros L. unfold connected_get_attr. two L. Qed.
Lemma both_get_attribute_all reply r v w : like v w -> (forall a b, both (reply a b) (reply a b) v w) ->
  both (get_attribute_all reply r) (get_attribute_all reply r) v w.
Proof. intros L H. unfold get_attribute_all. two L; apply H. Qed.
Lemma both_connected_symbols d0 v w : like v w ->
  (forall x y cn i, rd 4 d0 = Ok (x, y) -> conn_by_ot (w_srv v) (unle x) = Ok cn -> resolve (w_srv v) (sc_path cn) = Ok i -> J i) ->
  both (connected_symbols d0) (connected_symbols d0) v w.
Proof.
  intros L H. unfold connected_symbols. two L.
  match goal with |- both (unit_reply _ _ [symbol_list 0 (sort_tags (tag_list (prov_at _ ?i)))]) _ _ _ =>
    assert (Ji : J i) by eauto; rewrite (alike_prov _ _ _ (lk_srv _ _ L) Ji) end. two L.
Qed.

Lemma both_unconnected_write r v w : bytes_ok r -> like v w ->
  (forall l p t info n vals k route rest i, r = l :: p ++ t :: len info :: info ++ n ++ vals ++ le 2 k ++ route ++ rest ->
     tag_path p -> length n = 2%nat -> (forall z, number_size t = Some z -> len vals = unle n * z) ->
     len route = (2 * k) mod 65536 -> 0 <= k < 65536 -> resolve (w_srv v) route = Ok i -> J i) ->
  both (unconnected_write r) (unconnected_write r) v w.
Proof.
  intros B L H. unfold unconnected_write.
  apply both_blift; [exact L|]. intros [x r1] E1. apply rd_ok_inv in E1 as [-> L1]. apply bytes_ok_app in B as [_ B1].
  destruct x as [|x [|]]; try discriminate.
  apply both_blift; [exact L|]. intros [tag r2] E2. unfold get_tag_from_path in E2. destruct (get_tag_path _ _ _ _ _ B1 E2) as (p & -> & P).
  apply bytes_ok_app in B1 as [_ B2].
  apply both_blift; [exact L|]. intros [vs r3] E3. destruct (parse_write_layout _ _ _ B2 E3) as (t & info & n & vals & -> & Ln & Lv).
  apply both_blift; [exact L|]. intros [ps r4] E4. apply rd_ok_inv in E4 as [-> L4].
  apply both_blift; [exact L|]. intros [route r5] E5. apply rd_ok_inv in E5 as [-> L5].
  apply both_ask. same L. apply both_blift; [exact L|]. intros i R.
  assert (Bp : bytes_ok ps).
  { change (bytes_ok ([t; len info] ++ info ++ n ++ vals ++ ps ++ route ++ r5)) in B2.
    apply bytes_ok_app in B2 as [_ B2]. apply bytes_ok_app in B2 as [_ B2]. apply bytes_ok_app in B2 as [_ B2].
    apply bytes_ok_app in B2 as [_ B2]. now apply bytes_ok_app in B2. }
  pose proof (unle_bound ps Bp) as U. unfold len in U. rewrite L4 in U. change (256 ^ Z.of_nat 2) with 65536 in U.
  assert (Ji : J i).
  { apply (H x p t info n vals (unle ps) route r5 i); try assumption.
    - cbn [app]. rewrite <- L4, le_unle by exact Bp. reflexivity.
    - unfold len. pose proof (Z.mod_pos_bound (2 * unle ps) 65536). lia. }
  apply both_bind; [now apply both_write_values|]. intros. now apply both_send.
Qed.
Lemma both_unconnected_read r v w : bytes_ok r -> like v w ->
  (forall l p n k route rest i, r = l :: p ++ n ++ le 2 k ++ route ++ rest ->
     tag_path p -> length n = 2%nat -> len route = (2 * k) mod 65536 -> 0 <= k < 65536 -> resolve (w_srv v) route = Ok i -> J i) ->
  both (unconnected_read r) (unconnected_read r) v w.
Proof.
  intros B L H. unfold unconnected_read.
  apply both_blift; [exact L|]. intros [x r1] E1. apply rd_ok_inv in E1 as [-> L1]. apply bytes_ok_app in B as [_ B1].
  destruct x as [|x [|]]; try discriminate.
  apply both_blift; [exact L|]. intros [tag r2] E2. unfold get_tag_from_path in E2. destruct (get_tag_path _ _ _ _ _ B1 E2) as (p & -> & P).
  apply bytes_ok_app in B1 as [_ B2].
  apply both_blift; [exact L|]. intros [n r3] E3. apply rd_ok_inv in E3 as [-> L3]. apply bytes_ok_app in B2 as [_ B3].
  apply both_blift; [exact L|]. intros [ps r4] E4. apply rd_ok_inv in E4 as [-> L4]. apply bytes_ok_app in B3 as [Bp _].
  apply both_blift; [exact L|]. intros [route r5] E5. apply rd_ok_inv in E5 as [-> L5].
  apply both_ask. same L. apply both_blift; [exact L|]. intros i R.
  pose proof (unle_bound ps Bp) as U. unfold len in U. rewrite L4 in U. change (256 ^ Z.of_nat 2) with 65536 in U.
  assert (Ji : J i).
  { apply (H x p n (unle ps) route r5 i); try assumption.
    - cbn [app]. rewrite <- L4, le_unle by exact Bp. reflexivity.
    - unfold len. pose proof (Z.mod_pos_bound (2 * unle ps) 65536). lia. }
  rewrite (alike_prov _ _ _ (lk_srv _ _ L) Ji). two L.
Qed.
Lemma alike_symbolic s t x : alike J s t -> (forall i, resolve s [1; 0] = Ok i -> J i) -> symbolic_tag t x = symbolic_tag s x.
Proof.
  intros S H. unfold symbolic_tag. rewrite (alike_resolve _ _ _ S). destruct (resolve s [1; 0]) as [i|e| |]; try reflexivity.
  now rewrite (alike_prov _ _ _ S (H i eq_refl)).
Qed.
Lemma both_unconnected_get_attr r v w : like v w -> (forall i, resolve (w_srv v) [1; 0] = Ok i -> J i) ->
  both (unconnected_get_attr r) (unconnected_get_attr r) v w.
Proof.
  intros L H. unfold unconnected_get_attr. cbv zeta.
  apply both_blift; [exact L|]. intros [ps r1] _. destruct (negb _); [now apply both_send|].
  apply both_blift; [exact L|]. intros [cls r2] _. apply both_blift; [exact L|]. intros [inst r3] _.
  apply both_blift; [exact L|]. intros [attr r4] _. apply both_ask. same L.
  rewrite (alike_symbolic _ _ _ (lk_srv _ _ L) H).
  destruct (cls =? 0xC8); [|two L]. destruct (symbolic_tag _ _) as [tag|]; [|two L].
  destruct (negb _); [two L|]. apply both_or_reply; [exact L|now apply both_send|]. intros i R.
  rewrite (alike_prov _ _ _ (lk_srv _ _ L) (H i R)). two L.
Qed.
Lemma both_unconnected_set_attr r v w : like v w -> (forall i, resolve (w_srv v) [1; 0] = Ok i -> J i) ->
  both (unconnected_set_attr r) (unconnected_set_attr r) v w.
Proof.
  intros L H. unfold unconnected_set_attr. cbv zeta.
  apply both_blift; [exact L|]. intros [ps r1] _. destruct (negb _); [now apply both_send|].
  apply both_blift; [exact L|]. intros [cls r2] _. apply both_blift; [exact L|]. intros [inst r3] _.
  apply both_blift; [exact L|]. intros [attr r4] _. destruct (negb _); [two L|]. destruct (negb _); [two L|].
  apply both_ask. same L. rewrite (alike_symbolic _ _ _ (lk_srv _ _ L) H).
  destruct (symbolic_tag _ _) as [tag|]; [|two L].
  apply both_blift; [exact L|]. intros [vs r5] _. destruct vs as [|x vs]; [two L|].
  apply both_or_reply; [exact L|now apply both_send|]. intros i R.
  rewrite (alike_prov _ _ _ (lk_srv _ _ L) (H i R)). destruct (write_given _ _ _ _) as [p y].
  apply both_bind; [now apply both_set_prov; [apply H|]|]. intros u v1 w1 _ _ L1. two L1.
Qed.
Lemma both_fwd_open large d v w : like v w -> both (fwd_open large d) (fwd_open large d) v w.
Proof.
  intro L. unfold fwd_open. cbv zeta. two L.
  apply both_bind; [destruct (_ =? 0); [now apply both_draw|now apply (both_lift (Ok _))]|]. intros to v1 w1 _ _ L1.
  apply both_bind; [destruct (_ =? 0); [now apply both_draw|now apply (both_lift (Ok _))]|]. intros ot v2 w2 _ _ L2.
  apply both_bind; [now apply both_put_h|]. intros x v3 w3 _ _ L3.
  apply both_bind; [now apply both_send|]. intros y v4 w4 _ _ L4.
  apply both_ask. rewrite (al_cm _ _ _ (lk_srv _ _ L4)).
  apply both_bind.
  { apply both_set_cm; [|exact L4]. intros s t S. now rewrite (al_cm _ _ _ S). }
  intros z v5 w5 _ _ L5. two L5. now apply both_add_io.
Qed.
Lemma both_fwd_close d v w : like v w -> both (fwd_close d) (fwd_close d) v w.
Proof.
  intro L. unfold fwd_close. apply both_blift; [exact L|]. intros [f r] _. apply both_ask. rewrite (al_cm _ _ _ (lk_srv _ _ L)).
  destruct (conn_close _ _) as [m ok]. destruct (negb ok); [now apply both_lift|].
  apply both_bind; [now apply (both_set_cm (fun _ => m))|]. intros x v1 w1 _ _ L1. two L1.
Qed.

(** ** The whole frame *)
Lemma both_items (k : list item -> M unit) v w : bytes_ok (w_in v) -> like v w ->
  (forall its r v' w', w_in v = wire_list (contents its) ++ r -> fits (contents its) -> w_srv v' = w_srv v -> like v' w' -> both (k its) (k its) v' w') ->
  both (with_items k) (with_items k) v w.
Proof.
  intros B L H. unfold with_items. apply both_ask. rewrite (lk_in _ _ L).
  destruct (read_items (w_in v)) as [[its r]|e| |] eqn:E; try now apply both_lift.
  apply read_items_sound in E as [I F]; [|exact B].
  apply both_bind.
  { destruct L as [S Hh In O]. unfold both. cbn [fst snd]. split; [reflexivity|]. split.
    - constructor; cbn [w_srv w_h w_in w_sent]; assumption || reflexivity.
    - split; [intros ? _; reflexivity|]. cbn [w_in]. rewrite I. intros _. rewrite I in B. now apply bytes_ok_app in B. }
  intros x v' w' E1 E2 L'. injection E1 as <- <-. apply (H its r); auto.
Qed.
Lemma both_btake {B} n (k l : bytes -> M B) v w : like v w ->
  (forall b r v' w', w_in v = b ++ r -> length b = n -> w_in v' = r -> w_srv v' = w_srv v -> like v' w' -> both (k b) (l b) v' w') ->
  both (bindM (take n) k) (bindM (take n) l) v w.
Proof.
  intros L H. apply both_bind; [now apply both_take|]. intros b v' w' E1 E2 L'.
  destruct (take_cases n v) as [(b' & r & I & Lb & E)|(e & E)]; rewrite E in E1; [|discriminate].
  injection E1 as <- <-. apply (H b' r); auto.
Qed.

Lemma both_embedded svc r v w : bytes_ok r -> like v w ->
  (svc = 0x4C \/ svc = 0x4D -> forall m k route rest i, svc :: r = m ++ le 2 k ++ route ++ rest -> message m ->
     len route = (2 * k) mod 65536 -> 0 <= k < 65536 -> resolve (w_srv v) route = Ok i -> J i) ->
  (svc = 0x0E \/ svc = 0x10 -> forall i, resolve (w_srv v) [1; 0] = Ok i -> J i) ->
  both (embedded svc r) (embedded svc r) v w.
Proof.
  intros B L H1 H2. unfold embedded.
  destruct (Z.eqb_spec svc svc_write) as [->|_].
  { apply both_unconnected_write; [exact B|exact L|].
    intros l p t info n vals k route rest i E P Ln Lv Lr K R.
    apply (H1 (or_intror eq_refl) (0x4D :: l :: p ++ t :: len info :: info ++ n ++ vals) k route rest i); try assumption.
    - rewrite E. cbn [app]. rewrite <- !app_assoc. cbn [app]. rewrite <- !app_assoc. reflexivity.
    - now constructor. }
  destruct (Z.eqb_spec svc svc_read) as [->|_].
  { apply both_unconnected_read; [exact B|exact L|].
    intros l p n k route rest i E P Ln Lr K R.
    apply (H1 (or_introl eq_refl) (0x4C :: l :: p ++ n) k route rest i); try assumption.
    - rewrite E. cbn [app]. rewrite <- !app_assoc. reflexivity.
    - now constructor. }
  destruct (Z.eqb_spec svc svc_get_single) as [->|_]; [apply both_unconnected_get_attr; auto|].
  destruct (Z.eqb_spec svc svc_set_single) as [->|_]; [apply both_unconnected_set_attr; auto|].
  destruct (_ =? _); [apply both_get_attribute_all; [exact L|intros; now apply both_send]|now apply both_send].
Qed.
Lemma both_unconnected_data d v w : bytes_ok d -> like v w ->
  (forall route i, carries_route d route -> resolve (w_srv v) route = Ok i -> J i) ->
  (attribute_request d -> forall i, resolve (w_srv v) [1; 0] = Ok i -> J i) ->
  both (unconnected_data d) (unconnected_data d) v w.
Proof.
  intros B L H1 H2. unfold unconnected_data. apply both_blift; [exact L|]. intros [sv r] E. apply rd_ok_inv in E as [-> Ls].
  destruct sv as [|z [|]]; try discriminate. cbn [app] in *. rewrite unle1.
  assert (Br : bytes_ok r) by now inversion B.
  destruct (_ =? svc_open); [now apply both_fwd_open|]. destruct (_ =? svc_large_open); [now apply both_fwd_open|].
  destruct (_ =? svc_forward_close); [now apply both_fwd_close|].
  destruct (_ =? svc_get_all); [apply both_get_attribute_all; [exact L|intros; now apply both_send]|].
  destruct (Z.eqb_spec z svc_get_single) as [->|_]; [apply both_unconnected_get_attr; [exact L|apply H2; constructor; now left]|].
  destruct (Z.eqb_spec z svc_set_single) as [->|_]; [apply both_unconnected_set_attr; [exact L|apply H2; constructor; now right]|].
  destruct (Z.eqb_spec z svc_unconn) as [->|_]; [|now apply both_send].
  apply both_blift; [exact L|]. intros [ps r1] E1. apply rd_ok_inv in E1 as [-> L1]. destruct ps as [|ps [|]]; try discriminate.
  rewrite unle1. cbn [app] in *. assert (Br1 : bytes_ok r1) by now inversion Br.
  apply both_blift; [exact L|]. intros [path r2] E2. apply rd_ok_inv in E2 as [-> L2]. apply bytes_ok_app in Br1 as [_ Br2].
  apply both_blift; [exact L|]. intros [t1 r3] E3. apply rd_ok_inv in E3 as [-> L3]. apply bytes_ok_app in Br2 as [_ Br3].
  apply both_blift; [exact L|]. intros [t2 r4] E4. apply rd_ok_inv in E4 as [-> L4]. apply bytes_ok_app in Br3 as [_ Br4].
  apply both_blift; [exact L|]. intros [em r5] E5. apply rd_ok_inv in E5 as [-> L5]. destruct em as [|em [|]]; try discriminate.
  rewrite unle1. cbn [app] in *. assert (Br5 : bytes_ok r5) by now inversion Br4.
  assert (Lp : len path = (2 * ps) mod 256).
  { unfold len. rewrite L2. rewrite (Z.mul_comm 2). pose proof (Z.mod_pos_bound (ps * 2) 256). lia. }
  assert (Lt : length (t1 ++ t2) = 4%nat) by (rewrite app_length; lia).
  apply both_embedded; [exact Br5|exact L| |].
  - intros _ m k route rest i E Hm Lr K R. apply (H1 route i); [|exact R].
    pose proof (ca ps path (t1 ++ t2) m k route rest Lp Lt Hm Lr K) as C. rewrite <- E, <- !app_assoc in C. exact C.
  - intros Hs. apply H2. pose proof (ar_inside ps path (t1 ++ t2) em r5 Lp Lt Hs) as C. rewrite <- !app_assoc in C. exact C.
Qed.

Lemma connected_cases s d0 x y cn : rd 4 d0 = Ok (x, y) -> conn_by_ot s (unle x) = Ok cn ->
  d0 = x ++ y /\ length x = 4%nat /\ connected_to s (unle x) (sc_path cn).
Proof.
  intros E C. apply rd_ok_inv in E as [-> Lx]. split; [reflexivity|split; [exact Lx|]]. unfold conn_by_ot in C.
  destruct (conn_get _ _) as [a|] eqn:G; [|discriminate]. exists a. split; [exact G|]. congruence.
Qed.

Lemma both_serve_one v w : bytes_ok (w_in v) -> like v w -> (forall j, meant_for (w_srv v) (w_in v) j -> J j) ->
  both serve_one serve_one v w.
Proof.
  intros B L H. unfold serve_one. apply both_btake; [exact L|]. intros hb r v1 w1 I Lh I1 S1 L1.
  pose proof B as B0. rewrite I in B. pose proof (bytes_ok_sub _ _ B) as Br. apply bytes_ok_app in B as [Bh _].
  cbv zeta. apply both_bind; [now apply both_put_h|]. intros x v2 w2 E2 _ L2. injection E2 as _ <-.
  set (v2 := World _ _ _ _) in *. assert (S2 : w_srv v2 = w_srv v) by exact S1. assert (I2 : w_in v2 = r) by exact I1. clearbody v2. clear L1 I1 S1 v1 w1.
  assert (Cmd : forall c, eh_command (header_of hb) = c -> 0 <= c < 256 -> firstn 2 hb = [c; 0]).
  { intros c <- Hc. cbn [header_of eh_command] in *. pose proof (le_unle (firstn 2 hb)) as E.
    rewrite firstn_length, Lh in E. change (Nat.min 2 24) with 2%nat in E. rewrite <- E at 1 by (now apply Forall_firstn).
    set (c := unle (firstn 2 hb)) in *. cbn [le]. rewrite Z.mod_small by lia. rewrite Z.div_small by lia. reflexivity. }
  destruct (Z.eqb_spec (eh_command (header_of hb)) cmd_register).
  { unfold register_session. apply both_btake; [exact L2|]. intros reg r3 v3 w3 _ _ _ _ L3.
    apply both_bind; [destruct (_ =? 0); [now apply both_draw|now apply (both_lift (Ok _))]|]. intros hd v4 w4 _ _ L4.
    apply both_bind; [now apply both_put_h|]. intros y v5 w5 _ _ L5. now apply both_send. }
  destruct (Z.eqb_spec (eh_command (header_of hb)) cmd_rrdata) as [C|_].
  { assert (F := Cmd _ C ltac:(vm_compute; intuition congruence)). change cmd_rrdata with 0x6F in F.
    unfold rr_data. apply both_btake; [exact L2|]. intros b1 r1 v3 w3 J1 M1 K1 S3 L3.
    apply both_btake; [exact L3|]. intros b2 r2 v4 w4 J2 M2 K2 S4 L4.
    rewrite K1 in J2. rewrite J2, I2 in J1. rewrite J1 in I. rewrite J1 in Br. apply bytes_ok_app in Br as [_ Br]. apply bytes_ok_app in Br as [_ Br].
    apply both_items; [rewrite K2; exact Br|exact L4|]. intros its r4 v5 w5 J3 Ft S5 L5. rewrite K2 in J3. rewrite J3 in I.
    assert (Sv : w_srv v5 = w_srv v) by congruence.
    unfold rr_items. destruct its as [|i0 [|i1 [|]]]; try now apply both_lift.
    assert (I6 : w_in v = hb ++ (b1 ++ b2) ++ wire_list [(it_id i0, it_data i0); (it_id i1, it_data i1)] ++ r4).
    { rewrite I, <- !app_assoc. reflexivity. }
    assert (M6 : length (b1 ++ b2) = 6%nat) by (rewrite app_length; lia).
    assert (Bd : bytes_ok (it_data i1)).
    { rewrite J3 in Br. apply bytes_ok_app in Br as [Br _]. unfold wire_list, wire_item in Br. cbn [contents map concat fst snd] in Br.
      apply bytes_ok_app in Br as [_ Br]. apply bytes_ok_app in Br as [_ Br]. apply bytes_ok_app in Br as [Br _].
      apply bytes_ok_app in Br as [_ Br]. now apply bytes_ok_app in Br. }
    destruct (Z.eqb_spec (it_id i1) item_conndata) as [Ei|_].
    { apply both_blift; [exact L5|]. intros [sv r5] _. apply both_connected_read; [exact L5|].
      intros x' y' cn i E1 E2 E3. destruct (connected_cases _ _ _ _ _ E1 E2) as (D & Lx & Ct). apply H. rewrite I6, Ei, D.
      apply (mf_rr _ hb (b1 ++ b2) (it_id i0) x' y' (it_data i1) r4 (sc_path cn) i); try assumption; unfold registered; rewrite <- Sv; assumption. }
    destruct (Z.eqb_spec (it_id i1) item_unconndata) as [Ei|_]; [|now apply (both_lift (Ok _))].
    rewrite Ei in I6. apply both_unconnected_data; [exact Bd|exact L5| |].
    - intros route i Cr R. apply H. rewrite I6. apply (mf_send _ hb (b1 ++ b2) _ _ _ _ route i); try assumption. unfold registered. congruence.
    - intros Ar i R. apply H. rewrite I6. apply mf_attr; try assumption. unfold registered. congruence. }
  destruct (Z.eqb_spec (eh_command (header_of hb)) cmd_unitdata) as [C|_].
  { assert (F := Cmd _ C ltac:(vm_compute; intuition congruence)). change cmd_unitdata with 0x70 in F.
    unfold unit_data. apply both_btake; [exact L2|]. intros b1 r1 v3 w3 J1 M1 K1 S3 L3.
    apply both_btake; [exact L3|]. intros b2 r2 v4 w4 J2 M2 K2 S4 L4.
    rewrite K1 in J2. rewrite J2, I2 in J1. rewrite J1 in I. rewrite J1 in Br. apply bytes_ok_app in Br as [_ Br]. apply bytes_ok_app in Br as [_ Br].
    apply both_items; [rewrite K2; exact Br|exact L4|]. intros its r4 v5 w5 J3 Ft S5 L5. rewrite K2 in J3. rewrite J3 in I.
    unfold unit_items. destruct its as [|i0 [|i1 [|]]]; try now apply both_lift.
    assert (I6 : w_in v = hb ++ (b1 ++ b2) ++ wire_list [(it_id i0, it_data i0); (it_id i1, it_data i1)] ++ r4).
    { rewrite I, <- !app_assoc. reflexivity. }
    assert (M6 : length (b1 ++ b2) = 6%nat) by (rewrite app_length; lia).
    destruct (Z.eqb_spec (it_id i0) item_connaddr) as [Ei|_]; cbn [negb]; [|now apply both_lift].
    apply both_blift; [exact L5|]. intros a0 _. apply both_blift; [exact L5|]. intros [q r5] _.
    apply both_bind; [now apply both_put_h|]. intros u v6 w6 E6 _ L6. injection E6 as _ <-. set (v6 := World _ _ _ _) in *.
    assert (Sv : w_srv v6 = w_srv v) by (unfold v6; cbn [w_srv]; congruence). clearbody v6.
    apply both_blift; [exact L6|]. intros [sv r6] _.
    assert (Hc : forall x y cn i, rd 4 (it_data i0) = Ok (x, y) -> conn_by_ot (w_srv v6) (unle x) = Ok cn ->
      resolve (w_srv v6) (sc_path cn) = Ok i -> J i).
    { intros x' y' cn i E1 E2 E3. destruct (connected_cases _ _ _ _ _ E1 E2) as (D & Lx & Ct). apply H. rewrite I6, Ei, D.
      apply (mf_unit _ hb (b1 ++ b2) x' y' (it_id i1) (it_data i1) r4 (sc_path cn) i); try assumption; unfold registered; rewrite <- Sv; assumption. }
    destruct (_ =? svc_write); [now apply both_connected_write|]. destruct (_ || _); [now apply both_connected_read|].
    destruct (_ =? svc_multi); [now apply both_connected_multi|]. destruct (_ =? svc_get_single); [now apply both_connected_get_attr|].
    destruct (_ =? svc_get_all); [apply both_get_attribute_all; [exact L6|intros; now apply both_unit_reply]|].
    destruct (_ =? svc_list); [now apply both_connected_symbols|now apply both_unit_reply]. }
  destruct (_ =? cmd_listservices); [now apply both_send|].
  destruct (_ =? cmd_listidentity); [|now apply (both_lift (Ok _))].
  unfold list_identity. apply both_ask. same L2. apply both_blift; [exact L2|]. intros b _. now apply both_send.
Qed.
End Two.
