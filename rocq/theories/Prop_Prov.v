(* C41, C66, C67: the built-in tag provider. *)
From Verif Require Import GoBase TypesModel ProvModel ProvSpec ProvProof.
Import ListNotations.
Local Open Scope Z_scope.

(* C41.  Full statement: after any sequence of writes, reads return what a plain
   map of arrays would hold.  Missing from the theorems below: values that the
   caller goes on sharing with the provider (a slice got from one tag and
   written to another), for which it is false: C41_shared_refuted. *)

(* Every sequence of writes, each handing over its own value, leaves the
   provider showing the store a plain map would hold: each write that succeeds
   changes its own tag or element and nothing else, each one that fails changes
   nothing, and one fails only when the plain map has no answer either. *)
Theorem C41_history_partial : forall c p ws p' os,
  separate p -> run_writes c p ws = (p', os) ->
  separate p' /\ history (shows p) ws os (shows p').
Proof. intros c p ws p' os Hs H. exact (run_history c ws p p' os Hs H). Qed.
Print Assumptions C41_history_partial.

(* Every read answers from that store, whatever the letter case. *)
Theorem C41_read_partial : forall p t q, separate p -> 0 <= q ->
  match tag_read p t q with
  | Ok x => forall v, reads (shows p) t q v <-> v = see 2 (pv_heap p) x
  | Err _ => forall v, ~ reads (shows p) t q v
  | _ => False
  end.
Proof.
  intros p t q Hs Hq. pose proof (tag_read_spec p t q Hs Hq) as H.
  destruct (tag_read p t q) as [x|er| |]; try exact H.
  intros v. split; [intros R; exact (reads_fun _ _ _ _ _ R H)|intros ->; exact H].
Qed.
Print Assumptions C41_read_partial.

(* The value written last to a tag is the one read, after any later writes to
   other tags, under any spelling of the name. *)
Theorem C41_last_write : forall c ws1 t v ws2 t' q,
  plain_name (lower t) -> lower t' = lower t ->
  Forall (fun w => ~ touches (fst w) (lower t)) ws2 ->
  (forall l, v <> GiveMany EAny l) ->
  0 <= q <= match v with GiveOne _ => q | GiveMany _ l => len l end ->
  let p := fst (run_writes c prov_empty (ws1 ++ (t, v) :: ws2)) in
  exists x, tag_read p t' q = Ok x /\
    see 2 (pv_heap p) x =
      match v with
      | GiveOne g => VOne g
      | GiveMany e l => VMany e (firstn (Z.to_nat q) (map VOne l))
      end.
Proof.
  intros c ws1 t v ws2 t' q Hp Ht F Hv Hq p.
  set (p1 := fst (run_writes c prov_empty ws1)).
  assert (separate p1) as Hs1.
  { unfold p1. destruct (run_writes c prov_empty ws1) as [p1' os1] eqn:E.
    exact (proj1 (run_history _ _ _ _ _ separate_empty E)). }
  assert (p = fst (run_writes c p1 ((t, v) :: ws2))) as Ep
    by exact (run_writes_app c ws1 ((t, v) :: ws2) prov_empty).
  cbn [run_writes] in Ep.
  destruct (write_given c p1 t v) as [p2 r] eqn:E2.
  destruct (run_writes c p2 ws2) as [p3 os3] eqn:E3. cbn [fst] in Ep. clearbody p. subst p.
  destruct (write_given_spec c p1 t v p2 r Hs1 E2) as [Hs2 Hw].
  destruct (run_history c ws2 p2 p3 os3 Hs2 E3) as [Hs3 Hh].
  rename p3 into p.
  assert (shows p (lower t) = Some (seen v)) as Hsh.
  { rewrite (history_untouched _ _ _ _ _ Hh F).
    destruct r as [u|er| |].
    - apply writes_plain_inv in Hw as [(e & l & l0 & l' & _ & E & _)|[_ [Hu _]]]; [| |exact Hp].
      + destruct (Hv _ E).
      + exact Hu.
    - destruct Hw as [_ Hn]. exfalso.
      apply (Hn (fun k => if bseq (lower t) k then Some (seen v) else shows p1 k)).
      apply w_plain; [exact Hp|intros (e & l & l0 & _ & E); exact (Hv _ E)|].
      split; [rewrite bseq_refl; reflexivity|].
      intros k' N. destruct (bseq (lower t) k') eqn:E; [apply bseq_spec in E; congruence|reflexivity].
    - destruct Hw as [_ Hn]. exfalso.
      apply (Hn (fun k => if bseq (lower t) k then Some (seen v) else shows p1 k)).
      apply w_plain; [exact Hp|intros (e & l & l0 & _ & E); exact (Hv _ E)|].
      split; [rewrite bseq_refl; reflexivity|].
      intros k' N. destruct (bseq (lower t) k') eqn:E; [apply bseq_spec in E; congruence|reflexivity].
    - destruct Hw as [_ Hn]. exfalso.
      apply (Hn (fun k => if bseq (lower t) k then Some (seen v) else shows p1 k)).
      apply w_plain; [exact Hp|intros (e & l & l0 & _ & E); exact (Hv _ E)|].
      split; [rewrite bseq_refl; reflexivity|].
      intros k' N. destruct (bseq (lower t) k') eqn:E; [apply bseq_spec in E; congruence|reflexivity]. }
  assert (plain_name (lower t')) as Hp' by (rewrite Ht; exact Hp).
  rewrite <- Ht in Hsh.
  assert (0 <= q) as Hq0 by lia.
  pose proof (tag_read_spec p t' q Hs3 Hq0) as Hr.
  destruct v as [g|e l]; cbn [seen] in Hsh.
  - assert (reads (shows p) t' q (VOne g)) as R by (apply r_one; assumption).
    destruct (tag_read p t' q) as [x|er| |]; [|destruct (Hr _ R)|destruct Hr|destruct Hr].
    exists x. split; [reflexivity|]. exact (reads_fun _ _ _ _ _ Hr R).
  - assert (reads (shows p) t' q (VMany e (firstn (Z.to_nat q) (map VOne l)))) as R.
    { apply r_many; [exact Hp'|exact Hsh|]. unfold len in *. rewrite map_length. lia. }
    destruct (tag_read p t' q) as [x|er| |]; [|destruct (Hr _ R)|destruct Hr|destruct Hr].
    exists x. split; [reflexivity|]. exact (reads_fun _ _ _ _ _ Hr R).
Qed.
Print Assumptions C41_last_write.

(* The written array may have been coerced: an []any written over a typed array
   reads back with the array's type, element by element. *)
Theorem C41_coerced : forall c p t e l l0 p' u,
  separate p -> plain_name (lower t) -> shows p (lower t) = Some (VMany e l) ->
  write_given c p t (GiveMany EAny l0) = (p', Ok u) ->
  exists l', shows p' (lower t) = Some (VMany e l') /\
    Forall2 (fun g x => becomes (VOne g) e x) l0 l'.
Proof.
  intros c p t e l l0 p' u Hs Hp Hm H.
  destruct (write_given_spec c p t _ p' _ Hs H) as [_ W].
  apply writes_plain_inv in W as [(e1 & l1 & l2 & l' & H1 & H2 & F & [Hu _])|[Hno _]]; [| |exact Hp].
  - assert (e1 = e) as -> by congruence. assert (l2 = l0) as -> by congruence.
    exists l'. auto.
  - exfalso. apply Hno. exists e, l, l0. auto.
Qed.
Print Assumptions C41_coerced.

Definition cv0 : conv := Conv (fun _ z => z) (fun _ _ => 0) (fun z => [z]).
Definition i32 (z : Z) : gval := GInt true 4 z.
Definition i16 (z : Z) : gval := GInt true 2 z.

(* Three arrays of tags; an element write, a failed element write, a coerced
   array write. *)
Definition c41_writes : list (bytes * given) :=
  [ (str "Arr", GiveMany (EK (KInt true 4)) [i32 1; i32 2; i32 3]);
    (str "S", GiveOne (GStr (str "hi")));
    (str "ARR[1]", GiveOne (i16 (-5)));
    (str "arr[3]", GiveOne (i32 9));
    (str "other[0]", GiveOne (i32 9));
    (str "arr[0]", GiveOne (GStr (str "x"))) ].
Example ex_C41_history :
  snd (run_writes cv0 prov_empty c41_writes) = [true; true; true; false; false; false] /\
  shows (fst (run_writes cv0 prov_empty c41_writes)) (str "arr") =
    Some (VMany (EK (KInt true 4)) [VOne (i32 1); VOne (i32 (-5)); VOne (i32 3)]).
Proof. split; vm_compute; reflexivity. Qed.

Lemma plain_no_bracket : forall t, ~ In 93 t -> plain_name t.
Proof.
  intros t H b i (ds & -> & _). apply H. apply in_or_app. right. right.
  apply in_or_app. right. left. reflexivity.
Qed.

Example ex_C41_last_write :
  let p := fst (run_writes cv0 prov_empty
                  ([(str "S", GiveOne (i32 1))] ++ (str "s", GiveOne (GStr (str "hi")))
                     :: [(str "s2", GiveOne (i32 7)); (str "s2[0]", GiveOne (i32 7))])) in
  exists x, tag_read p (str "S") 4 = Ok x /\ see 2 (pv_heap p) x = VOne (GStr (str "hi")).
Proof.
  apply (C41_last_write cv0 [(str "S", GiveOne (i32 1))] (str "s") (GiveOne (GStr (str "hi")))
           [(str "s2", GiveOne (i32 7)); (str "s2[0]", GiveOne (i32 7))] (str "S") 4).
  - apply plain_no_bracket. vm_compute. intros [H|[]]; discriminate.
  - reflexivity.
  - apply Forall_cons; [|apply Forall_cons; [|constructor]]; cbn [fst]; intros [H|(i & H)].
    + vm_compute in H. discriminate.
    + apply parse_elem in H. vm_compute in H. discriminate.
    + vm_compute in H. discriminate.
    + apply parse_elem in H. vm_compute in H. discriminate.
  - discriminate.
  - lia.
Qed.

Example ex_C41_read :
  let p := fst (run_writes cv0 prov_empty c41_writes) in
  separate p /\ tag_read p (str "ARR[1]") 1 = Ok (PV (i32 (-5))) /\
  tag_read p (str "ARR[1]") 3 = Err EMsg.
Proof.
  split; [|split; vm_compute; reflexivity].
  destruct (run_writes cv0 prov_empty c41_writes) as [p os] eqn:E.
  exact (proj1 (run_history _ _ _ _ _ separate_empty E)).
Qed.

Example ex_C41_coerced :
  let p := fst (run_writes cv0 prov_empty c41_writes) in
  shows p (lower (str "Arr")) = Some (VMany (EK (KInt true 4)) [VOne (i32 1); VOne (i32 (-5)); VOne (i32 3)]) /\
  snd (write_given cv0 p (str "Arr") (GiveMany EAny [i16 300; GInt false 1 200])) = Ok tt.
Proof. split; vm_compute; reflexivity. Qed.

(* Writing to one tag the slice read from another makes them share it: a later
   element write to one changes the other. *)
Theorem C41_shared_refuted : exists c p x p1 p2,
  separate p /\
  tag_read p (str "a") 2 = Ok x /\
  tag_write c p (str "b") x = (p1, Ok tt) /\
  tag_write c p1 (str "b[0]") (PV (i32 9)) = (p2, Ok tt) /\
  shows p2 (str "a") <> shows p1 (str "a").
Proof.
  exists cv0, (fst (run_writes cv0 prov_empty [(str "a", GiveMany (EK (KInt true 4)) [i32 1; i32 2])])).
  eexists. eexists. eexists.
  split.
  { destruct (run_writes cv0 prov_empty [(str "a", GiveMany (EK (KInt true 4)) [i32 1; i32 2])])
      as [p os] eqn:E.
    exact (proj1 (run_history _ _ _ _ _ separate_empty E)). }
  split; [vm_compute; reflexivity|]. split; [vm_compute; reflexivity|].
  split; [vm_compute; reflexivity|]. vm_compute. discriminate.
Qed.
Print Assumptions C41_shared_refuted.

(* C66.  Full statement: the value a read returned keeps its contents whatever
   is written afterwards.  It does as long as no single element of that tag is
   written. *)
Theorem C66_snapshot_partial : forall c p t q x ws p' os,
  separate p -> 0 <= q -> tag_read p t q = Ok x ->
  Forall (fun w => forall b i, touches t b -> ~ elem_name (lower (fst w)) b i) ws ->
  run_writes c p ws = (p', os) ->
  see 2 (pv_heap p') x = see 2 (pv_heap p) x.
Proof.
  intros c p t q x ws p' os Hs Hq Hr F H. pose proof Hs as (S1 & S2 & S3).
  assert (forall k e a o n, mget (pv_data p) k = Some (PS e a o n) -> touches t k ->
            forall o' n', elems (pv_heap p') a o' n' = elems (pv_heap p) a o' n') as Htop.
  { intros k e a o n Hk Ht. apply (stable_arrays c ws p p' os k a H).
    - exact (proj1 (S1 _ _ _ _ _ Hk)).
    - intros k' e' o' n' N Hk'. apply N. exact (S2 _ _ _ _ _ _ _ _ _ Hk' Hk).
    - eapply Forall_impl; [|exact F]. intros w Hw i. exact (Hw k i Ht). }
  assert (forall k e a o n e' a' o' n', mget (pv_data p) k = Some (PS e a o n) -> touches t k ->
            In (PS e' a' o' n') (elems (pv_heap p) a o n) ->
            forall o1 n1, elems (pv_heap p') a' o1 n1 = elems (pv_heap p) a' o1 n1) as Hnest.
  { intros k e a o n e' a' o' n' Hk Ht Hin.
    destruct (S3 _ _ _ _ _ _ _ _ _ Hk Hin) as (L & T & _).
    apply (stable_arrays c ws p p' os k a' H L).
    - intros k' e1 o1 n1 _. exact (T k' e1 o1 n1).
    - eapply Forall_impl; [|exact F]. intros w Hw i. exact (Hw k i Ht). }
  unfold tag_read in Hr.
  destruct (parse_element_tag (lower t)) as [[b i] has] eqn:Ep.
  apply parse_cases in Ep.
  assert (touches t b) as Htb.
  { destruct has; [right; exists i; exact Ep|left; symmetry; exact (proj1 Ep)]. }
  destruct (mget (pv_data p) b) as [[g|e a o n]|] eqn:Eb; [| |discriminate].
  - destruct has; [discriminate|]. assert (x = PV g) as -> by congruence. reflexivity.
  - assert (forall y, In y (elems (pv_heap p) a o n) ->
              see 1 (pv_heap p') y = see 1 (pv_heap p) y) as Hy.
    { intros y Hin. apply see1_ext. intros e' a' o' n' ->.
      exact (Hnest _ _ _ _ _ _ _ _ _ Eb Htb Hin o' n'). }
    assert (forall o' n', (forall y, In y (elems (pv_heap p) a o' n') -> In y (elems (pv_heap p) a o n)) ->
              see 2 (pv_heap p') (PS e a o' n') = see 2 (pv_heap p) (PS e a o' n')) as Hps.
    { intros o' n' Hsub.
      change (VMany e (map (see 1 (pv_heap p')) (elems (pv_heap p') a o' n')) =
              VMany e (map (see 1 (pv_heap p)) (elems (pv_heap p) a o' n'))).
      rewrite (Htop _ _ _ _ _ Eb Htb). f_equal. apply map_ext_in. auto. }
    destruct (S1 _ _ _ _ _ Eb) as [La Lo].
    assert (forall o1 n1, (o1 + n1 <= n)%nat ->
      forall y, In y (elems (pv_heap p) a (o + o1) n1) -> In y (elems (pv_heap p) a o n)) as Hsub.
    { intros o1 n1 L y Hin. apply In_nth_error in Hin as (j & Hj).
      assert (j < n1)%nat as Lj.
      { assert (j < length (elems (pv_heap p) a (o + o1) n1))%nat as L1
          by (apply nth_error_Some; congruence).
        rewrite elems_length in L1 by lia. exact L1. }
      apply nth_error_In with (o1 + j)%nat. rewrite <- Hj. unfold elems.
      clear -L Lj Lo. revert L Lj Lo. generalize (nth a (pv_heap p) []) as l. intros l L Lj Lo.
      assert (forall m (l0 : list pval) k, (k < m)%nat -> nth_error (firstn m l0) k = nth_error l0 k) as F.
      { intros m; induction m as [|m IH]; intros l0 k Hk; [lia|].
        destruct l0 as [|z l0]; [destruct k; reflexivity|]. destruct k as [|k]; [reflexivity|].
        cbn [firstn nth_error]. apply IH. lia. }
      assert (forall m (l0 : list pval) k, nth_error (skipn m l0) k = nth_error l0 (m + k)) as K.
      { intros m; induction m as [|m IH]; intros l0 k; [reflexivity|].
        destruct l0 as [|z l0]; [cbn [skipn plus nth_error]; destruct k; reflexivity|].
        cbn [skipn plus nth_error]. apply IH. }
      rewrite F by lia. rewrite K. rewrite F by lia. rewrite K. f_equal. lia. }
    destruct has.
    + destruct ((i <? 0) || (Z.of_nat n <=? i)) eqn:Ei; [discriminate|].
      destruct (Z.ltb_spec (Z.of_nat n) (i + q)) as [Hb|Hb]; [discriminate|].
      destruct (Z.eqb_spec q 1) as [->|Nq].
      * destruct (nth_error (elems (pv_heap p) a o n) (Z.to_nat i)) as [y|] eqn:Ex; [|discriminate].
        assert (y = x) as -> by congruence. clear Hr.
        pose proof (nth_error_In _ _ Ex) as Hin.
        destruct x as [g|e' a' o' n']; [reflexivity|].
        destruct (S3 _ _ _ _ _ _ _ _ _ Eb Hin) as (_ & _ & Hf).
        change (VMany e' (map (see 1 (pv_heap p')) (elems (pv_heap p') a' o' n')) =
                VMany e' (map (see 1 (pv_heap p)) (elems (pv_heap p) a' o' n'))).
        rewrite (Hnest _ _ _ _ _ _ _ _ _ Eb Htb Hin). f_equal. apply map_ext_in. intros z Hz.
        rewrite Forall_forall in Hf. destruct (Hf z Hz) as (g & ->). reflexivity.
      * destruct (Z.ltb_spec q 0) as [Hn|_]; [lia|].
        assert (x = PS e a (o + Z.to_nat i) (Z.to_nat q)) as -> by congruence.
        apply Hps. apply Hsub. lia.
    + destruct (Z.leb_spec q (Z.of_nat n)) as [Hb|Hb]; [|discriminate].
      destruct (Z.ltb_spec q 0) as [Hn|_]; [lia|].
      assert (x = PS e a o (Z.to_nat q)) as -> by congruence.
      apply Hps. intros y Hin. apply (Hsub O (Z.to_nat q) ltac:(lia)).
      rewrite Nat.add_0_r. exact Hin.
Qed.
Print Assumptions C66_snapshot_partial.

Example ex_C66 :
  let p := fst (run_writes cv0 prov_empty c41_writes) in
  let ws := [(str "arr", GiveMany EAny [i32 7]); (str "s", GiveOne (i32 1))] in
  exists x, tag_read p (str "arr") 2 = Ok x /\
    Forall (fun w => forall b i, touches (str "arr") b -> ~ elem_name (lower (fst w)) b i) ws /\
    see 2 (pv_heap (fst (run_writes cv0 p ws))) x =
      VMany (EK (KInt true 4)) [VOne (i32 1); VOne (i32 (-5))].
Proof.
  eexists. split; [vm_compute; reflexivity|]. split.
  - apply Forall_cons; [|apply Forall_cons; [|constructor]]; intros b i _ H;
      apply parse_elem in H; vm_compute in H; discriminate.
  - vm_compute. reflexivity.
Qed.

(* After an element is written, a value read before shows the new element: the
   reply being built from it mixes old and new. *)
Theorem C66_element_refuted : exists c p t q x w p' os,
  separate p /\ tag_read p t q = Ok x /\ run_writes c p [w] = (p', os) /\
  see 2 (pv_heap p') x <> see 2 (pv_heap p) x.
Proof.
  exists cv0, (fst (run_writes cv0 prov_empty c41_writes)), (str "arr"), 3.
  eexists. exists (str "arr[2]", GiveOne (i32 42)). eexists. eexists.
  split.
  { destruct (run_writes cv0 prov_empty c41_writes) as [p os] eqn:E.
    exact (proj1 (run_history _ _ _ _ _ separate_empty E)). }
  split; [vm_compute; reflexivity|]. split; [vm_compute; reflexivity|].
  vm_compute. discriminate.
Qed.
Print Assumptions C66_element_refuted.

(* C67.  Full statement: writing n values to name[i] stores them in elements
   i .. i+n-1.  It holds for one value ... *)
Theorem C67_one_element_partial : forall c p t b i e l g p' u,
  separate p -> elem_name (lower t) b i -> shows p b = Some (VMany e l) ->
  write_given c p t (GiveOne g) = (p', Ok u) ->
  exists x l', becomes (VOne g) e x /\ replaced l (Z.to_nat i) x l' /\
    updated (shows p) b (VMany e l') (shows p').
Proof.
  intros c p t b i e l g p' u Hs He Hm H.
  destruct (write_given_spec c p t _ p' _ Hs H) as [_ W].
  destruct (writes_elem_inv _ _ _ _ _ _ He W) as (e1 & l1 & x & l' & H1 & _ & H2 & H3 & H4).
  assert (e1 = e) as -> by congruence. assert (l1 = l) as -> by congruence.
  exists x, l'. auto.
Qed.
Print Assumptions C67_one_element_partial.

Example ex_C67 :
  let p := fst (run_writes cv0 prov_empty c41_writes) in
  elem_name (lower (str "Arr[1]")) (str "arr") 1 /\
  snd (write_given cv0 p (str "Arr[1]") (GiveOne (i32 77))) = Ok tt.
Proof.
  split; [|vm_compute; reflexivity].
  exists (str "1"). split; vm_compute; reflexivity.
Qed.

(* ... but not for two, even when they are in range and of the array's type:
   the write is refused for a typed array, although the same range can be read ... *)
Theorem C67_range_write_refuted : exists c p t x l,
  separate p /\ tag_read p t 2 = Ok x /\ see 2 (pv_heap p) x = VMany (EK (KInt true 4)) (map VOne l) /\
  snd (write_given c p t (GiveMany EAny l)) = Err EMsg.
Proof.
  exists cv0, (fst (run_writes cv0 prov_empty c41_writes)), (str "arr[0]").
  eexists. exists [i32 1; i32 (-5)].
  split.
  { destruct (run_writes cv0 prov_empty c41_writes) as [p os] eqn:E.
    exact (proj1 (run_history _ _ _ _ _ separate_empty E)). }
  split; [vm_compute; reflexivity|]. split; vm_compute; reflexivity.
Qed.
Print Assumptions C67_range_write_refuted.

(* ... and puts the whole list into one element of an untyped array. *)
Theorem C67_nested_refuted : exists c p p',
  separate p /\
  shows p (str "a") = Some (VMany EAny [VOne (i32 1); VOne (i32 2); VOne (i32 3)]) /\
  write_given c p (str "a[0]") (GiveMany EAny [i32 7; i32 8]) = (p', Ok tt) /\
  shows p' (str "a") =
    Some (VMany EAny [VMany EAny [VOne (i32 7); VOne (i32 8)]; VOne (i32 2); VOne (i32 3)]).
Proof.
  exists cv0, (fst (run_writes cv0 prov_empty [(str "a", GiveMany EAny [i32 1; i32 2; i32 3])])).
  eexists.
  split.
  { destruct (run_writes cv0 prov_empty [(str "a", GiveMany EAny [i32 1; i32 2; i32 3])])
      as [p os] eqn:E.
    exact (proj1 (run_history _ _ _ _ _ separate_empty E)). }
  split; [vm_compute; reflexivity|]. split; vm_compute; reflexivity.
Qed.
Print Assumptions C67_nested_refuted.
