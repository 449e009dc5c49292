(** * C73: WriteMap to the built-in server *)
From Verif Require Import GoBase IoiModel IoiSpec IoiProof ItemsModel TypesModel ItemsSpec ItemsProof ReadModel ReadSpec ReadProof Prop_Read WriteModel WriteSpec
  WriteProof BatchModel BatchSpec BatchProof Prop_Batch EipModel EipSpec OpenModel TableModel SrvValModel SrvValSpec SrvValProof ProvModel ProvSpec ProvProof Prop_SrvVal SrvModel SrvSpec
  SrvProof Prop_Srv ReqSpec LinkModel ReqProof Prop_Req ManySpec ManyProof Prop_Many.

(** Full statement: when WriteMap to the built-in server reports success every
    tag of the map has its value, and when it reports an error none has changed.
    The second half is false ([C73_half_refuted]: the entries before the one that
    fails are stored), and a string never arrives ([C73_string_refuted]).  Proved
    for maps of single numbers and bools, in whatever order they are walked.
    Missing: requests over 32 kB. *)
Definition as_map (l : list entry) : list (bytes * mvalue) := map (fun e => (text (e_tag e), MVal (WOne (e_val e)))) l.

Theorem C73_outcome_partial : forall session context otid i sh ops l q,
  linked session context otid i sh ->
  Forall (fun e => named ops (e_tag e) /\ addressed (e_tag e) /\ number_entry e) l -> entries_size l < 2 ^ 15 ->
  exists r sh1, write_map (link session context) (cl_run ops) sh otid q (as_map l) = (r, sh1, q + 1) /\
    others_same i (fst sh) (fst sh1) /\
    ((r = Ok tt /\ linked session context otid i sh1 /\ stored_all (behind i sh) l (behind i sh1)) \/
     (exists er done e left, r = Err er /\ l = done ++ e :: left /\ stored_all (behind i sh) done (behind i sh1) /\
        forall m, ~ writes (behind i sh1) (text (e_tag e)) (GiveOne (e_val e)) m)).
Proof. exact link_write_map. Qed.
Print Assumptions C73_outcome_partial.

(** Names that are not array elements and differ in more than case: WriteMap
    succeeds, every tag has its value, no other tag has changed, and any client
    reads it back. *)
Lemma plain_store m t v m' : plain_name (lower (text t)) -> writes m (text t) (GiveOne v) m' -> updated m (lower (text t)) (VOne v) m'.
Proof.
  intros P W. apply writes_plain_inv in W as [(e1 & l1 & l2 & l' & _ & H & _)|[_ U]]; [discriminate|exact U|exact P].
Qed.
Lemma stored_plain : forall l m m', Forall (fun e => plain_name (lower (text (e_tag e)))) l ->
  NoDup (map (fun e => lower (text (e_tag e))) l) -> stored_all m l m' ->
  (forall e, In e l -> m' (lower (text (e_tag e))) = Some (VOne (e_val e))) /\
  (forall k, ~ In k (map (fun e => lower (text (e_tag e))) l) -> m' k = m k).
Proof.
  induction l as [|e l IH]; intros m m' F N S; inversion S as [? ? H|? ? m1 ? ? W S1]; subst.
  - split; [easy|]. intros k _. apply H.
  - inversion F; subst. cbn [map] in N. inversion N as [|? ? Ni Nd]; subst.
    destruct (IH m1 m') as (A & B); try assumption. destruct (plain_store _ _ _ _ ltac:(eassumption) W) as (U1 & U2). split.
    + intros x [-> | I]; [|now apply A]. now rewrite B.
    + intros k Nk. cbn [map In] in Nk. rewrite B by tauto. apply U2. intro E. apply Nk. now left.
Qed.
Theorem C73_values_partial : forall session context otid i sh ops l q,
  linked session context otid i sh ->
  Forall (fun e => named ops (e_tag e) /\ addressed (e_tag e) /\ number_entry e /\ length (last_subs (e_tag e)) <> 1%nat) l ->
  NoDup (map (fun e => lower (text (e_tag e))) l) -> entries_size l < 2 ^ 15 ->
  exists sh1, write_map (link session context) (cl_run ops) sh otid q (as_map l) = (Ok tt, sh1, q + 1) /\
    linked session context otid i sh1 /\ others_same i (fst sh) (fst sh1) /\
    (forall k, ~ In k (map (fun e => lower (text (e_tag e))) l) -> behind i sh1 k = behind i sh k) /\
    forall e tg ops' fuel q', In e l -> named ops' tg -> addressed tg -> lower (text tg) = lower (text (e_tag e)) ->
      exists sh2, client_read fuel (link session context) (cl_run ops') sh1 otid q' (text tg) (e_kind e) = (Ok (e_val e), sh2, q' + 1) /\ fst sh2 = fst sh1.
Proof.
  intros session context otid i sh ops l q L F N Sz.
  assert (Fp : Forall (fun e => plain_name (lower (text (e_tag e)))) l).
  { eapply Forall_impl; [|exact F]. intros e (_ & (V & B & _) & _ & Ls). now apply plain_lower. }
  destruct (C73_outcome_partial session context otid i sh ops l q L) as (r & sh1 & E & Os & [(-> & L1 & S)|(er & done & e & left & _ & -> & _ & K)]).
  - eapply Forall_impl; [|exact F]. intros e (A & B & C & _). auto.
  - exact Sz.
  - destruct (stored_plain _ _ _ Fp N S) as (A & B).
    exists sh1. split; [exact E|]. split; [exact L1|]. split; [exact Os|]. split; [exact B|].
    intros e tg ops' fuel q' I Nm Ad El. rewrite Forall_forall in F, Fp. destruct (F e I) as (_ & _ & (code & Nc & In' & Rp) & _).
    destruct (C44_read session context otid i sh1 ops' tg (e_kind e) (e_val e) fuel q' L1 Nm Ad) as (sh2 & E2 & _ & F2).
    + left. now exists code.
    + apply r_one; [rewrite El; now apply Fp|]. rewrite El. now apply A.
    + now exists sh2.
  - exfalso. apply Forall_app in Fp as [_ Fp]. inversion Fp as [|? ? P _]; subst.
    apply (K (fun x => if bseq x (lower (text (e_tag e))) then Some (VOne (e_val e)) else behind i sh1 x)). apply w_plain; [exact P| |].
    + intros (e0 & l0 & l1 & _ & H). discriminate.
    + split; [now rewrite bseq_refl|]. intros k' H. destruct (bseq k' (lower (text (e_tag e)))) eqn:Eb; [|reflexivity].
      apply bseq_spec in Eb. congruence.
Qed.
Print Assumptions C73_values_partial.

Definition three : list entry :=
  [(nm (str "Speed") [], KInt true 4, GInt true 4 (-8)); (nm (str "fresh") [], KBool, GBool true); (nm (str "Temp") [], KFloat 4, GFloat 4 0x3F800000)].
Example ex_C73 : linked 77 9 5 0 demo /\
  Forall (fun e => named [] (e_tag e) /\ addressed (e_tag e) /\ number_entry e /\ length (last_subs (e_tag e)) <> 1%nat) three /\
  NoDup (map (fun e => lower (text (e_tag e))) three) /\ entries_size three < 2 ^ 15 /\
  fst (fst (write_map (link 77 9) (cl_run []) demo 5 1 (as_map three))) = Ok tt.
Proof.
  split; [exact demo_linked|]. split.
  { unfold three. apply Forall_cons; [|apply Forall_cons; [|apply Forall_cons; [|apply Forall_nil]]]; (split; [demo_tag|]); (split; [demo_tag|]); (split; [|discriminate]).
    - exists 0xC4. split; [reflexivity|]. split; [reflexivity|in_type].
    - exists 0xC1. split; [reflexivity|]. split; [reflexivity|exact I].
    - exists 0xCA. split; [reflexivity|]. split; [reflexivity|in_type]. }
  split; [|split; vm_compute; reflexivity].
  apply NoDup_cons; [intros [E|[E|[]]]; vm_compute in E; discriminate|]. apply NoDup_cons; [intros [E|[]]; vm_compute in E; discriminate|].
  apply NoDup_cons; [easy|apply NoDup_nil].
Qed.

(** WriteMap fails, and half of it is done: arr has three elements. *)
Theorem C73_half_refuted : exists l er, linked 77 9 5 0 demo /\
  Forall (fun e => named [] (e_tag e) /\ addressed (e_tag e) /\ number_entry e) l /\
  let '(r, sh1, _) := write_map (link 77 9) (cl_run []) demo 5 1 (as_map l) in
  r = Err er /\ behind 0 demo (str "speed") = Some (VOne (GInt true 4 7)) /\ behind 0 sh1 (str "speed") = Some (VOne (GInt true 4 99)).
Proof.
  exists [(nm (str "speed") [], KInt true 4, GInt true 4 99); (nm (str "arr") [3], KInt true 2, GInt true 2 5)], EEof.
  split; [exact demo_linked|]. split; [|vm_compute; repeat split; reflexivity].
  apply Forall_cons; [|apply Forall_cons; [|apply Forall_nil]]; (split; [demo_tag|]); (split; [demo_tag|]).
  - exists 0xC4. split; [reflexivity|]. split; [reflexivity|in_type].
  - exists 0xC3. split; [reflexivity|]. split; [reflexivity|in_type].
Qed.
Print Assumptions C73_half_refuted.
(** A map with one string in it cannot be written. *)
Theorem C73_string_refuted : linked 77 9 5 0 mixed /\ behind 0 mixed (str "label") = Some (VOne (GStr (str "ready"))) /\
  let '(r, sh1, _) := write_map (link 77 9) (cl_run []) mixed 5 1 [(str "label", MVal (WOne (GStr (str "done"))))] in
  r = Err EEof /\ behind 0 sh1 (str "label") <> Some (VOne (GStr (str "done"))).
Proof. split; [exact mixed_linked|]. split; vm_compute; [reflexivity|]. split; [reflexivity|discriminate]. Qed.
Print Assumptions C73_string_refuted.
