(** * C124: sessions of the built-in server *)
From Verif Require Import GoBase IoiModel ItemsModel TypesModel ItemsSpec EipModel EipSpec EipProof OpenModel TableModel ProvModel ProvSpec SrvModel SrvSpec SrvProof Prop_Srv SessionSpec.

Lemma under_take s f : length s = 4%nat -> (24 <= length f)%nat ->
  exists hb hb' r, f = hb ++ r /\ under s f = hb' ++ r /\ length hb = 24%nat /\ length hb' = 24%nat /\
    eh_command (header_of hb') = eh_command (header_of hb) /\ eh_context (header_of hb') = eh_context (header_of hb) /\
    firstn 2 f = firstn 2 hb.
Proof.
  intros L G. exists (firstn 24 f), (under s (firstn 24 f)), (skipn 24 f).
  destruct s as [|s0 [|s1 [|s2 [|s3 [|]]]]]; try discriminate L.
  do 24 (destruct f as [|? f]; [cbn in G; lia|]).
  repeat split.
Qed.

(** The handle a frame carries changes nothing: what the server does, keeps and
    answers is the same under any other.  Only a registration looks at it. *)
Theorem C124_ignored : forall w s, length s = 4%nat -> (24 <= length (w_in w))%nat -> bytes_ok (w_in w) -> ~ registers (w_in w) ->
  serve_one (World (w_srv w) (w_h w) (under s (w_in w)) (w_sent w)) = serve_one w.
Proof.
  intros w s L G B N. destruct (under_take s (w_in w) L G) as (hb & hb' & r & E & E' & Lh & Lh' & C & X & F).
  set (w' := World (w_srv w) (w_h w) (under s (w_in w)) (w_sent w)).
  assert (T : take 24 w = (Ok hb, fed w r)) by now apply take_app.
  assert (T' : take 24 w' = (Ok hb', fed w r)) by now apply (take_app 24 hb' r w').
  rewrite (serve_one_ok w hb r T), (serve_one_ok w' hb' r T'). rewrite X. unfold dispatch. cbv zeta. rewrite C.
  assert (K : eh_command (header_of hb) =? cmd_register = false).
  { apply Z.eqb_neq. intro K. apply N. unfold registers. rewrite F.
    assert (B2 : bytes_ok (firstn 2 hb)).
    { rewrite <- F. apply Forall_forall. intros x I. eapply Forall_forall; [exact B|]. rewrite <- (firstn_skipn 2 (w_in w)). apply in_or_app. now left. }
    rewrite <- (le_unle (firstn 2 hb) B2). cbn [header_of eh_command] in K. rewrite K, firstn_length, Lh. reflexivity. }
  rewrite K. reflexivity.
Qed.
Print Assumptions C124_ignored.

(** A registration is answered with the handle to use: the one the frame names,
    or one drawn by the server when it names none.  The rest stays. *)
Theorem C124_registration : forall w handle ctx rest, 0 <= handle < 2 ^ 32 -> 0 <= ctx < 2 ^ 64 ->
  w_in w = registration handle ctx ++ rest ->
  let drawn := sv_rand (w_srv w) (sv_drawn (w_srv w)) in
  let given := if handle =? 0 then drawn else handle in
  let w' := snd (serve_one w) in
  fst (serve_one w) = Ok tt /\ w_in w' = rest /\ h_handle (w_h w') = given /\
  w_sent w' = w_sent w ++ [frame_bytes (Frame 0x65 given 0 ctx 0 [1; 0; 0; 0])] /\
  sv_provs (w_srv w') = sv_provs (w_srv w) /\ sv_cm (w_srv w') = sv_cm (w_srv w).
Proof.
  intros w handle ctx rest H X I. cbv zeta.
  destruct (frame_split (Frame 0x65 handle 0 ctx 0 [1; 0; 0; 0])) as (hb & E & L & C & Cx & S & O).
  { unfold frame_ok. cbn. lia. }
  cbn [f_payload f_command f_context f_session f_options] in *.
  unfold registration in I. rewrite E, <- app_assoc in I.
  rewrite (serve_one_ok w hb _ (take_app 24 hb _ w I L)).
  unfold dispatch. cbv zeta. rewrite C, Cx. change (0x65 =? cmd_register) with true. cbv iota.
  unfold register_session, bindM at 1.
  rewrite (take_app 4 [1; 0; 0; 0] rest) by reflexivity. rewrite S, O.
  unfold bindM, draw, ret, put_h, send. destruct (handle =? 0); cbn [fst snd fed with_context w_in w_h w_srv w_sent h_handle h_options h_context sv_provs sv_cm];
  repeat split.
Qed.
Print Assumptions C124_registration.

(** From then on every reply carries that handle, for as long as no other
    registration comes. *)
Fixpoint turns (n : nat) (w : world) : world :=
  match n with O => w | Datatypes.S k => turns k (snd (serve_one w)) end.
Theorem C124_kept : forall n w,
  (forall k, (k < n)%nat -> bytes_ok (w_in (turns k w)) /\ ~ registers (w_in (turns k w))) ->
  h_handle (w_h (turns n w)) = h_handle (w_h w) /\
  exists fs, w_sent (turns n w) = w_sent w ++ fs /\ forall f, In f fs -> session_of f = le 4 (h_handle (w_h w)).
Proof.
  induction n as [|n IH]; intros w H.
  { split; [reflexivity|]. exists []. split; [symmetry; apply app_nil_r|intros f []]. }
  destruct (H 0%nat) as [B N]; [lia|]. cbn [turns] in B, N.
  destruct (serve_one_replies w B) as (fs & S & _ & C & _ & K). specialize (K N).
  destruct (IH (snd (serve_one w))) as (K' & fs' & S' & C').
  { intros k Hk. apply (H (Datatypes.S k)). lia. }
  cbn [turns]. split; [now rewrite K', K|].
  exists (fs ++ fs'). split; [rewrite S', S; symmetry; apply app_assoc|].
  intros f I. apply in_app_or in I as [I|I].
  - destruct (C f I) as [_ C2]. now rewrite C2, K.
  - now rewrite (C' f I), K.
Qed.
Print Assumptions C124_kept.

(** Full statement: the server serves those that registered a session and give
    its handle, no handle is held by two peers at a time, and a peer that gives
    its session up is served no longer.  False: a peer that never registered
    writes a tag under a handle the server never gave out. *)
Definition forged : bytes := [0xEF; 0xBE; 0xAD; 0xDE].
Theorem C124_unregistered_refuted : exists w, w_h w = handler_new /\ w_sent w = [] /\ session_of (w_in w) = forged /\
  fst (serve_one w) = Ok tt /\ map pv_data (sv_provs (w_srv w)) <> map pv_data (sv_provs (w_srv (snd (serve_one w)))) /\
  map session_of (w_sent (snd (serve_one w))) = [[0; 0; 0; 0]].
Proof.
  exists (World demo_server handler_new (under forged good_write) []).
  split; [reflexivity|]. split; [reflexivity|]. split; [vm_compute; reflexivity|]. split; [vm_compute; reflexivity|].
  split; [vm_compute; discriminate|vm_compute; reflexivity].
Qed.
Print Assumptions C124_unregistered_refuted.
(** Two peers that ask for the same handle both get it. *)
Theorem C124_shared_refuted : exists s, let s' := happens s [Turn 0; Turn 1] in
  si_down s' = false /\ map (fun p => pe_h p) (si_peers s) = [handler_new; handler_new] /\
  map (fun p => h_handle (pe_h p)) (si_peers s') = [1234; 1234].
Proof.
  exists (demo_site [registration 1234 1; registration 1234 2]). cbv zeta. repeat split; vm_compute; reflexivity.
Qed.
Print Assumptions C124_shared_refuted.
(** A peer that gave its session up is served as before: the farewell changes
    nothing but the context of the next reply. *)
Theorem C124_farewell : forall w handle ctx rest, 0 <= handle < 2 ^ 32 -> 0 <= ctx < 2 ^ 64 ->
  w_in w = farewell handle ctx ++ rest ->
  let h := w_h w in
  serve_one w = (Ok tt, World (w_srv w) (Handler (h_handle h) (h_options h) ctx (h_ot h) (h_to h) (h_seq h)) rest (w_sent w)).
Proof.
  intros w handle ctx rest H X I. cbv zeta.
  destruct (frame_split (Frame 0x66 handle 0 ctx 0 [])) as (hb & E & L & C & Cx & S & O).
  { unfold frame_ok. cbn. lia. }
  cbn [f_payload f_command f_context f_session f_options] in *.
  unfold farewell in I. rewrite E, app_nil_r in I.
  rewrite (serve_one_ok w hb _ (take_app 24 hb _ w I L)).
  unfold dispatch. cbv zeta. rewrite C, Cx. reflexivity.
Qed.
Print Assumptions C124_farewell.
Theorem C124_farewell_refuted : exists w, let w2 := turns 2 w in let w3 := turns 3 w in
  w_h w = handler_new /\ w_in w = registration 0 1 ++ farewell 77 2 ++ good_write /\
  h_handle (w_h w2) = 77 /\ w_in w2 = good_write /\ fst (serve_one w2) = Ok tt /\
  map pv_data (sv_provs (w_srv w)) <> map pv_data (sv_provs (w_srv w3)) /\
  map session_of (w_sent w3) = [le 4 77; le 4 77].
Proof.
  exists (World demo_server handler_new (registration 0 1 ++ farewell 77 2 ++ good_write) []). cbv zeta.
  split; [reflexivity|]. split; [reflexivity|]. split; [vm_compute; reflexivity|]. split; [vm_compute; reflexivity|].
  split; [vm_compute; reflexivity|]. split; [vm_compute; discriminate|vm_compute; reflexivity].
Qed.
Print Assumptions C124_farewell_refuted.

Example ex_C124_ignored : let w := World demo_server (Handler 77 0 0 5 6 0) good_read [] in
  length forged = 4%nat /\ (24 <= length (w_in w))%nat /\ bytes_ok (w_in w) /\ ~ registers (w_in w) /\
  under forged (w_in w) <> w_in w /\ length (w_sent (snd (serve_one w))) = 1%nat.
Proof.
  cbv zeta. split; [reflexivity|]. split; [apply Nat.leb_le; vm_compute; reflexivity|].
  split; [apply bytes_okb; vm_compute; reflexivity|]. split; [vm_compute; discriminate|].
  split; [vm_compute; discriminate|vm_compute; reflexivity].
Qed.
Example ex_C124_kept : let w := World demo_server (Handler 77 0 0 5 6 0) (good_read ++ good_write) [] in
  (forall k, (k < 2)%nat -> bytes_ok (w_in (turns k w)) /\ ~ registers (w_in (turns k w))) /\
  length (w_sent (turns 2 w)) = 2%nat.
Proof.
  cbv zeta. split; [|vm_compute; reflexivity]. intros [|[|k]] H; [| |exfalso; lia];
    (split; [apply bytes_okb; vm_compute; reflexivity|vm_compute; discriminate]).
Qed.
Example ex_C124_registration : registration 0 9 = [0x65; 0; 4; 0; 0; 0; 0; 0; 0; 0; 0; 0; 9; 0; 0; 0; 0; 0; 0; 0; 0; 0; 0; 0; 1; 0; 0; 0] /\
  w_sent (snd (serve_one (World demo_server handler_new (registration 0 9) []))) = [registration 77 9] /\
  w_sent (snd (serve_one (World demo_server handler_new (registration 5 9) []))) = [registration 5 9].
Proof. repeat split; vm_compute; reflexivity. Qed.
