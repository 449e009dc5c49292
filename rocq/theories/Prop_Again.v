(** * C126: connecting again *)
From Verif Require Import GoBase SegModel IoiModel IoiSpec IoiProof ItemsModel TypesModel ItemsSpec ReadModel ReadSpec ReadProof WriteModel WriteSpec
  EipModel EipSpec OpenModel OpenSpec OpenProof TableModel TableSpec TableProof SrvValModel SrvValSpec ProvModel ProvSpec ProvProof SrvModel SrvSpec Prop_Srv ReqSpec LinkModel ReqProof Prop_Req
  MeetModel MeetSpec MeetProof Prop_Meet AgainSpec.
From Verif Require Prop_Prov.

Lemma visitor_ok hop c : visitor hop c -> client_ok c.
Proof. intros (A & B & C & D & _). now repeat split. Qed.

(** Whoever has the number, it leads where this client wants to go. *)
Lemma joins sh now c i : client_ok c -> server_ok sh -> routed (fst sh) (s_route c) i -> one_hop (firstn 2 (s_route c)) (fst sh) ->
  exists c' sh', OpenModel.connect (served (s_context c)) (sh, s_handle c) now c = (Ok tt, c', (sh', s_handle c')) /\
    s_context c' = s_context c /\ s_route c' = s_route c /\ same_tags (fst sh) (fst sh') /\ server_ok sh' /\
    linked (s_handle c') (s_context c') (s_otid c') i sh' /\ one_hop (firstn 2 (s_route c)) (fst sh').
Proof.
  intros C S R O. destruct (connect_run sh now c i C S R) as (c' & sh' & to & rpi & E & A1 & A2 & A3 & A4 & _ & _ & _ & T & S' & Cm & L).
  set (cn := SConn (s_serial c') (s_otid c') to rpi (firstn 2 (s_route c)) true) in *.
  assert (Cn : connections (fst sh') = connections (fst sh) ++ [cn]) by (unfold connections; rewrite Cm; reflexivity).
  assert (Lk : linked (s_handle c') (s_context c') (s_otid c') i sh').
  { destruct (conn_get (sv_cm (fst sh)) (KeyOT (s_otid c'))) as [a|] eqn:G.
    - pose proof (reached_good _ (proj1 (proj2 S))) as Gd. pose proof (get_live' _ _ _ Gd G) as (k & N & Op & K).
      unfold one_hop in O. rewrite Forall_forall in O. destruct (O k (nth_error_In _ _ N)) as [P B].
      change (sc_ot k = s_otid c') in K.
      destruct R as (R1 & R2 & R3). split; [exact A4|]. split; [rewrite A1; apply C|]. split; [rewrite <- K; exact B|].
      split; [apply S'|]. split; [|rewrite (prov_tags _ _ i T); exact R3].
      exists (sc_to k). split; [destruct T as (-> & _); exact R2|]. exists k.
      destruct (get_add _ _ cn _ Gd G) as (X1 & X2). unfold conn_by_ot. rewrite Cm, X1, X2, (conn_at_nth _ _ _ N).
      split; [reflexivity|]. split; [reflexivity|]. rewrite (resolve_tags _ _ _ T), P. exact R1.
    - apply L. intros a La. pose proof (get_live (sv_cm (fst sh)) (KeyOT (s_otid c')) (reached_good _ (proj1 (proj2 S)))) as X.
      unfold conn_get in G. destruct (find_conn _ _ _ _) as [[j b]|]; [discriminate|]. exact (X a La). }
  exists c', sh'. split; [exact E|]. split; [exact A1|]. split; [exact A2|]. split; [exact T|]. split; [exact S'|]. split; [exact Lk|].
  unfold one_hop. rewrite Cn. apply Forall_app. split; [exact O|]. constructor; [|constructor]. split; [reflexivity|]. cbn [cn sc_ot]. apply Lk.
Qed.

(** What visits leave: a server in order, with connections of that hop only. *)
Definition in_order (hop : bytes) (i : nat) (s : server) : Prop :=
  server_ok (s, handler_new) /\ one_hop hop s /\ resolve s hop = Ok i /\ (i < length (sv_provs s))%nat /\ separate (prov_at s i).
Lemma closed_hop hop h a h' : Forall (fun c => sc_path c = hop /\ 0 <= sc_ot c < 2 ^ 32) h -> closes h a h' ->
  Forall (fun c => sc_path c = hop /\ 0 <= sc_ot c < 2 ^ 32) h'.
Proof.
  intros F (_ & Co & c & N & _ & N'). rewrite Forall_forall in *. intros x I. apply In_nth_error in I as (b & Nb).
  destruct (Nat.eq_dec b a) as [->|Nx].
  - rewrite N' in Nb. injection Nb as <-. cbn [sc_path sc_ot]. apply (F c), (nth_error_In _ _ N).
  - rewrite (Co b Nx) in Nb. apply (F x), (nth_error_In _ _ Nb).
Qed.
Lemma visits_order hop i s s' : in_order hop i s -> visits hop s s' -> in_order hop i s'.
Proof.
  intros I0 V. induction V as [|s1 now c c' s2 h z V IH Vc E|s1 h c s2 h2 z V IH Vc Hh E|s1 s2 V IH U]; [exact I0| | |].
  - destruct IH as (S & O & R1 & R2 & R3). pose proof (visitor_ok _ _ Vc) as C. destruct Vc as (_ & _ & _ & _ & _ & Hop).
    destruct (joins (s1, handler_new) now c i C S) as (c2 & sh2 & E2 & _ & _ & T & S2 & _ & O2).
    { split; [rewrite Hop; exact R1|]. split; assumption. }
    { rewrite Hop. exact O. }
    rewrite E in E2. injection E2 as _ Es _. subst sh2. cbn [fst snd] in *. rewrite Hop in O2.
    split; [split; [split; cbn; lia|]; apply S2|]. split; [exact O2|]. split; [now rewrite (resolve_tags _ _ _ T)|].
    split; [destruct T as (-> & _); exact R2|now rewrite (prov_tags _ _ i T)].
  - destruct IH as ((S1 & S2 & S3) & O & R1 & R2 & R3). destruct Vc as (_ & B & C & D & F & _).
    rewrite (disconnect_run (s_context c) (s1, h) (s_handle c) c B C F ltac:(lia)) in E. cbn [fst snd] in *. injection E as E _ _.
    pose proof (step_refines (sv_cm s1) (OpClose (KeyID (s_serial c))) (reached_good _ S2)) as (_ & X). cbn [cman_step] in X.
    pose proof (reached_close (sv_cm s1) (KeyID (s_serial c)) S2) as Rc.
    destruct (conn_close (sv_cm s1) (KeyID (s_serial c))) as [m ok]. cbn [fst snd] in X, Rc, E. destruct ok; subst s2; [|exact (conj (conj S1 (conj S2 S3)) (conj O (conj R1 (conj R2 R3))))].
    split; [split; [exact S1|]; split; [exact Rc|exact S3]|]. split; [|exact (conj R1 (conj R2 R3))].
    inversion X as [| | |k b h' Lb Cl E1 E2 E3|]; subst. unfold one_hop, connections. cbn [set_cm sv_cm]. exact (closed_hop hop _ _ _ O Cl).
  - destruct IH as ((S1 & S2 & S3) & O & R1 & R2 & R3). destruct U as (U1 & U2 & U3 & U4 & U5).
    split; [split; [exact S1|]; cbn [fst snd] in *; split; [rewrite U1; exact S2|rewrite U3; exact S3]|].
    split; [unfold one_hop, connections in *; rewrite U1; exact O|]. split; [unfold resolve in *; rewrite U2; exact R1|].
    split; [rewrite U4; exact R2|auto].
Qed.

(** A client that connects again, or for the first time, however many connections
    were made, closed or lost before it and whatever numbers they had: it is
    connected to the tags at its route. *)
Theorem C126_again : forall hop i s s' now c, in_order hop i s -> visits hop s s' -> visitor hop c ->
  exists c' sh', OpenModel.connect (served (s_context c)) (s', handler_new, s_handle c) now c = (Ok tt, c', (sh', s_handle c')) /\
    same_tags s' (fst sh') /\ linked (s_handle c') (s_context c') (s_otid c') i sh'.
Proof.
  intros hop i s s' now c I V Vc. destruct (visits_order hop i s s' I V) as (S & O & R1 & R2 & R3).
  pose proof (visitor_ok _ _ Vc) as C. destruct Vc as (_ & _ & _ & _ & _ & Hop).
  destruct (joins (s', handler_new) now c i C S) as (c' & sh' & E & _ & _ & T & _ & L & _).
  { split; [rewrite Hop; exact R1|]. split; assumption. }
  { rewrite Hop. exact O. }
  exists c', sh'. auto.
Qed.
Print Assumptions C126_again.

(** Its reads give what the tags hold then. *)
Theorem C126_read : forall hop i s s' now c ops tg k v fuel q, in_order hop i s -> visits hop s s' -> visitor hop c ->
  named ops tg -> addressed tg -> scalar k v -> ProvSpec.reads (shows (prov_at s' i)) (text tg) 1 (VOne v) ->
  exists c' sh' sh2, OpenModel.connect (served (s_context c)) (s', handler_new, s_handle c) now c = (Ok tt, c', (sh', s_handle c')) /\
    client_read fuel (link (s_handle c') (s_context c')) (cl_run ops) sh' (s_otid c') q (text tg) k = (Ok v, sh2, q + 1).
Proof.
  intros hop i s s' now c ops tg k v fuel q I V Vc N Ad Sc R.
  destruct (C126_again hop i s s' now c I V Vc) as (c' & sh' & E & T & L).
  assert (Rd : ProvSpec.reads (behind i sh') (text tg) 1 (VOne v)) by (unfold behind; rewrite (prov_tags _ _ i T); exact R).
  destruct (C44_read _ _ _ _ sh' ops tg k v fuel q L N Ad Sc Rd) as (sh2 & Er & _). exists c', sh', sh2. auto.
Qed.
Print Assumptions C126_read.

(** A client of route 1,0 that connects three times without ever leaving, twice
    in the same millisecond, and another that comes and leaves: a fourth session
    reads the tag as before. *)
Definition came1 : server := fst (fst (snd (arrives 100 (new_client 0) two_routes))).
Definition came2 : server := fst (fst (snd (arrives 100 (new_client 0) came1))).
Definition came3 : server := fst (fst (snd (arrives 200 (new_client 0) came2))).
Definition leaver (serial : Z) : session :=
  {| s_size := 4002; s_counter := 0; s_handle := 0; s_context := 0; s_otid := 0; s_serial := serial;
     s_vendor := 0x9999; s_orig := 42; s_rpi := 2500; s_route := [1; 0] |}.
Definition left3 : server := fst (fst (snd (disconnect (served 0) (came3, handler_new, 0) (leaver 101)))).
Example ex_C126 : exists s', in_order [1; 0] 0 two_routes /\ visits [1; 0] two_routes s' /\
  map sc_ot (connections s') = [102; 102; 202] /\ map sc_open (connections s') = [false; true; true] /\
  visitor [1; 0] (new_client 0) /\ ProvSpec.reads (shows (prov_at s' 0)) (str "speed") 1 (VOne (GInt true 4 7)).
Proof.
  assert (Vc : forall z, 0 <= z < 2 ^ 16 -> visitor [1; 0] (leaver z)).
  { intros z Hz. unfold visitor, leaver. cbn [s_size s_handle s_context s_route s_serial]. change (len [1; 0]) with 2. repeat split; try lia. }
  exists left3. split; [split; [apply two_ok; split; cbn; lia|]; split; [constructor|]; apply (two_routed 0); now left|].
  split.
  - apply (v_leave [1; 0] two_routes came3 handler_new (leaver 101) left3
      (snd (fst (snd (disconnect (served 0) (came3, handler_new, 0) (leaver 101))))) (snd (snd (disconnect (served 0) (came3, handler_new, 0) (leaver 101)))));
      [|apply Vc; lia|split; cbn; lia|vm_compute; reflexivity].
    eapply (v_come _ _ came2 200 (new_client 0)); [|apply (Vc 0); lia|vm_compute; reflexivity].
    eapply (v_come _ _ came1 100 (new_client 0)); [|apply (Vc 0); lia|vm_compute; reflexivity].
    eapply (v_come _ _ two_routes 100 (new_client 0)); [|apply (Vc 0); lia|vm_compute; reflexivity].
    constructor.
  - split; [vm_compute; reflexivity|]. split; [vm_compute; reflexivity|]. split; [apply (Vc 0); lia|].
    apply r_one; [|vm_compute; reflexivity]. apply Prop_Prov.plain_no_bracket. intro I. vm_compute in I. intuition discriminate.
Qed.
