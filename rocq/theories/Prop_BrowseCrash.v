(** * Property C122: what the controller answers to a browsing client *)
From Verif Require Import GoBase SegModel IoiModel ItemsModel ItemsSpec ItemsProof ReadModel AttrModel ListModel CannedModel
  CrashSpec BrowseCrashSpec.
From Verif Require Prop_Crash Prop_Attr IdentModel ReadProof DataModel.

Section client.
Context {S : Type}.
Variable ctl : controller S.
Variable otid : Z.
Hypothesis Hon : honest ctl.

Definition fatal (s' : S) : Prop := last_fatal ctl (path_request otid) s'.
(** A call that comes down does so with such an exchange. *)
Definition safe {A} (m : LM S A) : Prop := forall w w', m w = (Panic, w') -> fatal (l_ctl w').

Lemma safe_ret {A} (a : A) : safe (lret a).
Proof. intros w w' E. discriminate. Qed.
Lemma safe_lift {A} (r : res A) : r <> Panic -> safe (llift r).
Proof. intros N w w' E. unfold llift in E. injection E as E _. congruence. Qed.
Lemma safe_bind {A B} (m : LM S A) (k : A -> LM S B) : safe m -> (forall a, safe (k a)) -> safe (lbind m k).
Proof.
  intros M K w w' E. unfold lbind in E. destruct (m w) as [[a|e| |] w1] eqn:Em; try discriminate.
  - exact (K a _ _ E).
  - injection E as <-. exact (M _ _ Em).
Qed.
Lemma safe_attempt {A} (m : LM S A) : safe m -> safe (attempt m).
Proof.
  intros M w w' E. unfold attempt in E. destruct (m w) as [[a|e| |] w1] eqn:Em; try discriminate.
  injection E as <-. exact (M _ _ Em).
Qed.
Lemma safe_look : safe look.
Proof. intros w w' E. discriminate. Qed.
Lemma safe_change f : safe (change f).
Proof. intros w w' E. discriminate. Qed.
Lemma safe_send service path tail : safe (send ctl otid service path tail).
Proof.
  intros w w' E. unfold send in E. pose proof (Hon (l_ctl w) (path_request otid (l_seq w) service path tail)) as H.
  destruct (ctl (l_ctl w) (path_request otid (l_seq w) service path tail)) as [[[st p]|e| |] s1] eqn:C; cbn [fst bind] in *; try discriminate; [|contradiction].
  destruct (second_item true p) as [it| | |] eqn:Si; cbn [bind] in E; try discriminate.
  injection E as <-. cbn [l_ctl]. left. exists (l_ctl w), (path_request otid (l_seq w) service path tail), st, p.
  split; [exact C|]. now apply Prop_Crash.second_item_panic in Si.
Qed.

(** What was sent and received when a [send] succeeds. *)
Lemma send_ok service path tail w d w1 : send ctl otid service path tail w = (Ok d, w1) ->
  exists q st p, ctl (l_ctl w) (path_request otid q service path tail) = (Ok (st, p), l_ctl w1) /\
    exists pre addr id more rest, length pre = 6%nat /\ p = pre ++ wire_list (addr :: (id, d) :: more) ++ rest.
Proof.
  unfold send. intro E. pose proof (Hon (l_ctl w) (path_request otid (l_seq w) service path tail)) as H.
  destruct (ctl (l_ctl w) (path_request otid (l_seq w) service path tail)) as [[[st p]|e| |] s1] eqn:C; cbn [fst bind] in *; try discriminate.
  destruct (second_item true p) as [it| | |] eqn:Si; cbn [bind] in E; try discriminate.
  injection E as <- <-. cbn [l_ctl]. exists (l_seq w), st, p. split; [exact C|].
  unfold second_item in Si. destruct (rd 6 p) as [[pre r]| | |] eqn:R; cbn [bind] in Si; try discriminate.
  apply rd_ok_inv in R as [-> L]. apply bytes_ok_app in H as [_ B].
  destruct (read_items r) as [[its rest]| | |] eqn:I; cbn [bind] in Si; try discriminate.
  apply read_items_sound in I; [|exact B]. destruct I as [-> _].
  destruct its as [|i0 [|i1 its]]; try discriminate. injection Si as ->.
  unfold contents. cbn [map]. exists pre. eexists _, _, _, rest. split; [exact L|]. reflexivity.
Qed.

Lemma rd_safe {A} n r (k : bytes * bytes -> res A) : (forall x, k x <> Panic) -> bind (rd n r) k <> Panic.
Proof. exact (Prop_Crash.bind_rd_panic n r k). Qed.

Lemma safe_attrs id : safe (template_attrs ctl otid id).
Proof.
  unfold template_attrs. apply safe_bind; [apply safe_send|]. intro d. apply safe_lift.
  apply rd_safe. intros [h r]. discriminate.
Qed.

Lemma struct_name_panic s : s <> [] -> struct_name s = Panic -> exists t, s = 59 :: t.
Proof.
  intros N. unfold struct_name. destruct (contains 59 s) eqn:C.
  - destruct s as [|c t]; [congruence|]. cbn [before_semicolon]. destruct (Z.eqb_spec c 59) as [->|]; [now exists t|discriminate].
  - destruct s; [congruence|discriminate].
Qed.
Lemma read_string_some r s r1 : read_string r = (s, Some r1) -> s <> [] /\ r = s ++ r1.
Proof.
  revert s r1. induction r as [|c r IH]; intros s r1 E; [discriminate|]. cbn [read_string] in E.
  assert (Q : forall s1 o, read_string r = (s1, o) -> (c :: s1, o) = (s, Some r1) -> s <> [] /\ c :: r = s ++ r1).
  { intros s1 o E1 E2. injection E2 as <- ->. split; [discriminate|]. destruct (IH _ _ E1) as [_ ->]. reflexivity. }
  destruct (read_string r) as [s1 o]. destruct c as [|pc|pc].
  - injection E as <- <-. split; [discriminate|reflexivity].
  - now apply (Q s1 o).
  - now apply (Q s1 o).
Qed.

Lemma safe_members again n : (forall id, safe (again id)) -> forall infos r, safe (read_members again n infos r).
Proof.
  intro Ag. induction n as [|n IH]; intros infos r; [apply safe_ret|]. cbn [read_members].
  destruct (read_string r) as [s o] eqn:Rs.
  assert (K : s <> [] -> forall r1, safe (do name <- llift (drop_last s);
        do udt <- (if template_id (unle (firstn 2 (skipn 2 infos))) =? 0 then lret None
                   else do d <- attempt (again (template_id (unle (firstn 2 (skipn 2 infos))))); lret (match d with Ok t => Some t | _ => None end));
        do rest <- read_members again n (skipn 8 infos) r1;
        lret ((name, (unle (firstn 2 infos), unle (firstn 2 (skipn 2 infos)), unle (firstn 4 (skipn 4 infos))), udt) :: rest))).
  { intros N r1. apply safe_bind; [apply safe_lift; destruct s; [congruence|discriminate]|]. intro name.
    apply safe_bind.
    - destruct (_ =? 0); [apply safe_ret|]. apply safe_bind; [apply safe_attempt, Ag|]. intro; apply safe_ret.
    - intro udt. apply safe_bind; [apply IH|]. intro; apply safe_ret. }
  destruct s as [|c s]; [|apply K; discriminate].
  destruct o as [r1|]; [|apply safe_lift; discriminate].
  exfalso. now destruct (read_string_some _ _ _ Rs).
Qed.

Lemma template_path_bytes id : exists path, template_path id = [0x20; 0x6C] ++ path.
Proof. unfold template_path. now exists (instance_bytes id). Qed.

Lemma safe_list_members fuel : forall id, safe (list_members fuel ctl otid id).
Proof.
  induction fuel as [|fuel IH]; intro id; [apply safe_lift; discriminate|]. cbn [list_members].
  apply safe_bind; [apply safe_look|]. intro l. destruct (find_id id (l_ids l)) as [t|]; [apply safe_ret|].
  apply safe_bind; [apply safe_attrs|]. intros [[[words size] count] handle].
  intros w w' E. unfold lbind at 1 in E.
  destruct (send ctl otid svc_read (template_path id) (le 4 0 ++ le 2 (words * 4 - 23)) w) as [[d|e| |] w1] eqn:Es; try discriminate.
  2: { injection E as <-. exact (safe_send _ _ _ _ _ Es). }
  unfold lbind at 1, llift at 1 in E.
  destruct (rd 6 d) as [[h0 r0]| | |] eqn:R0; cbn [bind] in E; try discriminate; [|now apply rd_no_panic in R0].
  destruct (rd (8 * Z.to_nat count) r0) as [[infos r]| | |] eqn:R1; try discriminate; [|now apply rd_no_panic in R1].
  unfold lbind at 1, llift at 1 in E. destruct (read_string r) as [s [r1|]] eqn:Rs; [|discriminate].
  destruct (read_string_some _ _ _ Rs) as [Ns ->].
  unfold lbind at 1, llift at 1 in E. destruct (struct_name s) as [name| | |] eqn:Sn; try discriminate.
  - revert E. match goal with |- ?m w1 = _ -> _ => assert (X : safe m) end; [|apply X].
    apply safe_bind; [now apply safe_members|]. intro ms. apply safe_bind; [apply safe_change|]. intro; apply safe_ret.
  - injection E as <-. right. destruct (struct_name_panic s Ns Sn) as [t ->].
    destruct (send_ok _ _ _ _ _ _ Es) as (q & st & p & C & pre & addr & ident & more & rest & Lp & Ep).
    destruct (template_path_bytes id) as [path Pt]. rewrite Pt in C.
    exists (l_ctl w), q, path, (le 4 0 ++ le 2 (words * 4 - 23)), st, p. split; [exact C|].
    exists pre, addr, ident, d, more, rest. split; [exact Lp|]. split; [exact Ep|].
    apply rd_ok_inv in R0 as [-> L0]. apply rd_ok_inv in R1 as [-> L1].
    exists (h0 ++ infos), (Z.to_nat count), (t ++ r1). split; [rewrite app_length; lia|]. now rewrite <- app_assoc.
Qed.

Lemma next_tag_safe d : next_tag d <> Panic.
Proof.
  unfold next_tag. apply rd_safe. intros [h r]. apply rd_safe. intros [name r1]. apply rd_safe. intros [f r2]. discriminate.
Qed.
Lemma safe_sub_page n : forall p d acc start, safe (sub_page n p d acc start).
Proof.
  induction n as [|n IH]; intros p d acc start; destruct d as [|x d]; cbn [sub_page];
    try apply safe_ret; [apply safe_lift; discriminate|].
  apply safe_bind; [apply safe_lift, next_tag_safe|]. intros [[[inst name] info] r].
  destruct (negb (is_valid name)); [apply IH|]. apply safe_bind; [apply safe_change|]. intro; apply IH.
Qed.
Lemma page_header_safe d : page_header d <> Panic.
Proof. unfold page_header. apply rd_safe. intros [h r]. discriminate. Qed.
Lemma safe_sub_tags fuel : forall p start, safe (list_sub_tags fuel ctl otid p start).
Proof.
  induction fuel as [|fuel IH]; intros p start; [apply safe_lift; discriminate|]. cbn [list_sub_tags].
  apply safe_bind; [apply safe_send|]. intro d. apply safe_bind; [apply safe_lift, page_header_safe|]. intros [status r].
  apply safe_bind; [apply safe_sub_page|]. intros [acc last].
  destruct (status =? st_partial); [|apply safe_ret]. apply safe_bind; [apply IH|]. intro; apply safe_ret.
Qed.
Lemma programs_safe n : forall d acc, programs n d acc <> Panic.
Proof.
  induction n as [|n IH]; intros d acc; [discriminate|]. cbn [programs].
  destruct (rd 8 d) as [[h r]| | |] eqn:R; try discriminate; [|now apply rd_no_panic in R].
  apply rd_safe. intros [name r1]. apply IH.
Qed.
Lemma safe_programs : safe (list_programs ctl otid).
Proof.
  intros w w' E. unfold list_programs in E.
  destruct (generic ctl (l_ctl w) otid (l_seq w) svc_instances (class_bytes 0x68 ++ instance_bytes 0) (le 2 1 ++ le 2 28)) as [[r s1] q1] eqn:G.
  destruct r as [it|e| |]; cbn [bind] in E; try discriminate.
  - destruct (programs _ _ _) as [ps| | |] eqn:P; try discriminate. now apply programs_safe in P.
  - injection E as <-. cbn [l_ctl]. left. exists (l_ctl w).
    apply (proj2 (proj2 (Prop_Crash.C55_attr_only_short_crashes S ctl (l_ctl w) otid (l_seq w) s1 q1 Hon))) in G as (req & st & p & C & F).
    now exists req, st, p.
Qed.
Lemma safe_all_page sub members fallback n : (forall p, safe (sub p)) -> (forall id, safe (members id)) ->
  forall d start, safe (all_page sub members fallback n d start).
Proof.
  intros Su Me. induction n as [|n IH]; intros d start; destruct d as [|x d]; cbn [all_page];
    try apply safe_ret; [apply safe_lift; discriminate|].
  apply safe_bind; [apply safe_lift, next_tag_safe|]. intros [[[inst name] info] r].
  destruct (negb (is_valid name)); [apply IH|]. destruct (_ && negb fallback); [apply IH|].
  apply safe_bind.
  { destruct (_ && _); [|apply safe_ret]. apply safe_bind; [apply safe_look|]. intro l.
    apply safe_bind; [apply safe_change|]. intros _. apply safe_bind; [apply Su|]. intro; apply safe_ret. }
  intros _. apply safe_bind.
  { destruct (_ =? 0); [apply safe_ret|]. apply safe_bind; [apply safe_attempt, Me|]. intros [t|e| |]; try apply safe_ret.
    apply safe_bind; [apply safe_change|]. intro; apply safe_ret. }
  intro udt. apply safe_bind; [apply safe_change|]. intro; apply IH.
Qed.
Lemma safe_each sub ps : (forall p, safe (sub p)) -> safe (each_program sub ps).
Proof. intro Su. induction ps as [|p ps IH]; [apply safe_ret|]. cbn [each_program]. apply safe_bind; [apply Su|]. intro; apply IH. Qed.

Lemma attempt_shape {A} (m : LM S A) w r w1 : attempt m w = (Ok r, w1) -> r <> Panic /\ r <> OutOfFuel.
Proof. unfold attempt. destruct (m w) as [[a|e| |] w2]; intro E; try discriminate; injection E as <- _; split; discriminate. Qed.

Lemma safe_all_tags order fuel : forall start, safe (list_all_tags fuel order ctl otid start).
Proof.
  induction fuel as [|fuel IH]; intro start; [apply safe_lift; discriminate|]. cbn [list_all_tags]. cbv zeta.
  apply safe_bind.
  { destruct (_ =? 1); [|apply safe_ret].
    intros w w' E. unfold lbind at 1 in E. destruct (attempt (list_programs ctl otid) w) as [[r|e| |] w1] eqn:A; try discriminate.
    2: { injection E as <-. exact (safe_attempt _ safe_programs _ _ A). }
    destruct (attempt_shape _ _ _ _ A) as [N1 N2].
    revert E. match goal with |- ?m w1 = _ -> _ => assert (X : safe m) end; [|apply X].
    apply safe_bind.
    { destruct r as [u|e| |]; try congruence; [apply safe_ret|]. destruct e; try (apply safe_lift; discriminate).
      apply safe_bind; [apply safe_change|]. intro; apply safe_ret. }
    intro fb. apply safe_bind; [apply safe_look|]. intro l. apply safe_bind; [apply safe_each; intro; apply safe_sub_tags|]. intro; apply safe_ret. }
  intro fallback. apply safe_bind; [apply safe_send|]. intro d. apply safe_bind; [apply safe_lift, page_header_safe|]. intros [status r].
  apply safe_bind; [apply safe_all_page; [intro; apply safe_sub_tags|apply safe_list_members]|]. intro last.
  destruct (status =? st_partial); [apply IH|apply safe_ret].
Qed.
End client.

(** C122.  Browsing returns, whatever the controller answers.  Of ListAllTags,
    ListSubTags, ListAllPrograms and ListMembers: the program comes down only with
    a reply of fewer than two items or a template without a name. *)
Theorem C122_browse_partial : forall S (ctl : controller S) otid, honest ctl ->
  (forall fuel order start w w', list_all_tags fuel order ctl otid start w = (Panic, w') -> last_fatal ctl (path_request otid) (l_ctl w')) /\
  (forall fuel p start w w', list_sub_tags fuel ctl otid p start w = (Panic, w') -> last_fatal ctl (path_request otid) (l_ctl w')) /\
  (forall w w', list_programs ctl otid w = (Panic, w') -> last_fatal ctl (path_request otid) (l_ctl w')) /\
  (forall fuel id w w', list_members fuel ctl otid id w = (Panic, w') -> last_fatal ctl (path_request otid) (l_ctl w')).
Proof.
  intros S ctl otid H. repeat split.
  - intros fuel order start. now apply safe_all_tags.
  - intros fuel p start. now apply safe_sub_tags.
  - now apply safe_programs.
  - intros fuel id. now apply safe_list_members.
Qed.
Print Assumptions C122_browse_partial.

(** A controller that answers the two requests ListMembers makes by turns: the
    size of a template with one member, and its definition [d]. *)
Definition reply_of (d : bytes) : bytes := zeros 6 ++ wire_list [(0xA1, [1; 2; 3; 4]); (0xB1, d)].
Definition turns (d : bytes) : controller bool := fun second _ =>
  (Ok (0, if second then reply_of d else reply_of (zeros 28 ++ le 2 1 ++ zeros 6)), negb second).
Definition definition_of (name : bytes) (ty : Z) : bytes := zeros 6 ++ (le 2 0 ++ le 2 ty ++ le 4 0) ++ name ++ [0] ++ str "next" ++ [0].
Definition newcomer : lstate bool := LState false 1 (Lists [] [] [] []).
Lemma turns_honest d : forallb (fun x => (0 <=? x) && (x <? 256)) (reply_of d) = true -> honest (turns d).
Proof.
  intros B s req. unfold turns. cbn [fst]. destruct s; apply Prop_Crash.check_bytes; [exact B|vm_compute; reflexivity].
Qed.
Example ex_C122_browse : honest (turns (definition_of (str ";n") 0xC4)) /\
  nameless (reply_of (definition_of (str ";n") 0xC4)) /\
  fst (list_members 3 (turns (definition_of (str ";n") 0xC4)) 7 0x234 newcomer) = Panic /\
  exists w, list_members 3 (turns (definition_of (str "Node") 0xC4)) 7 0x234 newcomer =
    (Ok (Template 0x234 (str "Node") 0 0 1 0 [(str "next", (0, 0xC4, 0), None)]), w).
Proof.
  split; [apply turns_honest; vm_compute; reflexivity|]. split; [|split].
  - exists (zeros 6), (0xA1, [1; 2; 3; 4]), 0xB1, (definition_of (str ";n") 0xC4), [], []. split; [reflexivity|]. split; [reflexivity|].
    exists (zeros 6 ++ (le 2 0 ++ le 2 0xC4 ++ le 4 0)), 1%nat, (str "n" ++ [0] ++ str "next" ++ [0]). split; reflexivity.
  - vm_compute. reflexivity.
  - eexists. vm_compute. reflexivity.
Qed.

(** Both bring it down, *)
Theorem C122_browse_refuted : exists ctl : controller unit, honest ctl /\
  fst (list_all_tags 1 (fun l => l) ctl 7 0 (LState tt 1 (Lists [] [] [] []))) = Panic.
Proof.
  exists (Prop_Attr.answers (zeros 8)). split; [intros s req; apply Prop_Crash.check_bytes; reflexivity|]. vm_compute. reflexivity.
Qed.
Print Assumptions C122_browse_refuted.
Theorem C122_name_refuted : exists ctl : controller bool, honest ctl /\
  fst (list_members 1 ctl 7 0x234 newcomer) = Panic.
Proof.
  exists (turns (definition_of (str ";n") 0xC4)). split; [apply ex_C122_browse|]. vm_compute. reflexivity.
Qed.
Print Assumptions C122_name_refuted.
(** and a template which has itself for a member is asked for again and again. *)
Theorem C122_recursion_refuted : exists ctl : controller bool, honest ctl /\
  forall fuel, fst (list_members fuel ctl 7 0x234 newcomer) = OutOfFuel.
Proof.
  exists (turns (definition_of (str "Node") 0x8234)).
  split; [apply turns_honest; vm_compute; reflexivity|].
  intro fuel. change newcomer with (LState false 1 (Lists [] [] [] [])). generalize 1 as q.
  induction fuel as [|fuel IH]; intro q; [reflexivity|].
  assert (E : list_members (S fuel) (turns (definition_of (str "Node") 0x8234)) 7 0x234 (LState false q (Lists [] [] [] [])) =
    (do ms <- (do udt <- (do d <- attempt (list_members fuel (turns (definition_of (str "Node") 0x8234)) 7 0x234);
                          lret (match d with Ok t => Some t | _ => None end));
               do rest <- lret []; lret ((str "next", (0, 0x8234, 0), udt) :: rest));
     do _ <- change (set_id 0x234 (Template 0x234 (str "Node") 0 0 1 0 ms));
     lret (Template 0x234 (str "Node") 0 0 1 0 ms)) (LState false (q + 1 + 1) (Lists [] [] [] []))) by reflexivity.
  rewrite E. specialize (IH (q + 1 + 1)). unfold lbind, attempt.
  destruct (list_members fuel (turns (definition_of (str "Node") 0x8234)) 7 0x234 (LState false (q + 1 + 1) (Lists [] [] [] []))) as [[t|e| |] w1];
    try discriminate IH. reflexivity.
Qed.
Print Assumptions C122_recursion_refuted.

(** ListIdentity and ListServices take any bytes for an answer or return an error. *)
Lemma parse_identity_safe d : IdentModel.parse_identity d <> Panic.
Proof. unfold IdentModel.parse_identity. repeat (apply rd_safe; intros [? ?]). discriminate. Qed.
Lemma parse_services_safe its : IdentModel.parse_services its <> Panic.
Proof.
  induction its as [|it its IH]; [discriminate|]. cbn [IdentModel.parse_services]. unfold IdentModel.parse_service.
  destruct (rd 2 (it_data it)) as [[v r]| | |] eqn:R0; cbn [bind]; try discriminate; [|now apply rd_no_panic in R0].
  destruct (rd 2 r) as [[c r1]| | |] eqn:R1; cbn [bind]; try discriminate; [|now apply rd_no_panic in R1].
  destruct (rd 16 r1) as [[n r2]| | |] eqn:R2; cbn [bind]; try discriminate; [|now apply rd_no_panic in R2].
  destruct (IdentModel.parse_services its); cbn [bind]; try discriminate. congruence.
Qed.
Theorem C122_identity : forall d, IdentModel.identity_reply d <> Panic /\ IdentModel.services_reply d <> Panic.
Proof.
  intro d. unfold IdentModel.identity_reply, IdentModel.services_reply. destruct (ReadProof.read_items_safe d) as [P _].
  destruct (read_items d) as [[its rest]| | |]; cbn [bind]; split; try discriminate; try congruence.
  - destruct its as [|it its]; [discriminate|apply parse_identity_safe].
  - apply parse_services_safe.
Qed.
Print Assumptions C122_identity.
Example ex_C122_identity : IdentModel.identity_reply [1; 0; 0xC; 0; 2; 0; 1; 0] = Err EShort \/ IdentModel.identity_reply [1; 0; 0xC; 0; 2; 0; 1; 0] = Err EEof.
Proof. vm_compute. auto. Qed.

(** Faults, forces and controller properties: as the attribute requests they make. *)
Lemma ask_pos {S} strict (ctl : controller S) s req k it s1 : (forall i j, k i = Ok j -> 0 <= it_pos i -> 0 <= it_pos j) -> honest ctl ->
  ask strict ctl s req k = (Ok it, s1) -> 0 <= it_pos it.
Proof.
  intros K H E. unfold ask in E. specialize (H s req). destruct (ctl s req) as [[[x p]| | |] s2]; cbn [fst] in *; try discriminate.
  injection E as E _. destruct (second_item strict p) as [i| | |] eqn:Si; cbn [bind] in E; try discriminate.
  apply (K i it E). unfold second_item in Si.
  assert (B : forall r its rest, bytes_ok r -> read_items r = Ok (its, rest) -> Forall (fun i => it_pos i = 0) its).
  { intros r its rest Br Er. pose proof (C11_lemma r Br) as C. rewrite Er in C. destruct C as [_ F]. eapply Forall_impl; [|exact F]. now intros ? []. }
  destruct (rd 6 p) as [[pre r]| | |] eqn:R; cbn [bind] in Si; try discriminate.
  - apply rd_ok_inv in R as [-> _]. apply bytes_ok_app in H as [_ Br].
    destruct (read_items r) as [[its rest]| | |] eqn:Er; cbn [bind] in Si; try discriminate. specialize (B _ _ _ Br Er).
    destruct its as [|? [|i1 ?]]; try discriminate. injection Si as ->. inversion B as [|? ? _ B1]; subst. inversion B1; subst. lia.
  - destruct strict; cbn [bind] in Si; discriminate.
Qed.
Lemma generic_pos {S} (ctl : controller S) s otid q service path data it s1 q1 : honest ctl ->
  generic ctl s otid q service path data = (Ok it, s1, q1) -> 0 <= it_pos it.
Proof.
  intros H E. unfold generic in E. match type of E with (?X, _) = _ => assert (E' : X = (Ok it, s1)) by congruence end.
  apply ask_pos in E'; [exact E'| |exact H]. intros i j Ej P. cbv beta in Ej.
  destruct (Prop_Crash.item_int_moves 2 i P) as [_ N0]. destruct (item_int 2 i) as [[?|?| |] i0]; cbn [bind fst snd] in *; try discriminate.
  destruct (Prop_Crash.item_int_moves 2 i0 N0) as [_ N1]. destruct (item_int 2 i0) as [[?|?| |] i1]; cbn [bind fst snd] in *; try discriminate.
  destruct (negb _); [discriminate|].
  destruct (Prop_Crash.item_int_moves 2 i1 N1) as [_ N2]. destruct (item_int 2 i1) as [[?|?| |] i2]; cbn [bind fst snd] in *; try discriminate.
  destruct (negb _); [discriminate|]. injection Ej as <-. exact N2.
Qed.
Lemma list_pos {S} (ctl : controller S) s otid q class inst attrs it s1 q1 : honest ctl ->
  get_attr_list ctl s otid q class inst attrs = (Ok it, s1, q1) -> 0 <= it_pos it.
Proof.
  intros H E. unfold get_attr_list in E. match type of E with (?X, _) = _ => assert (E' : X = (Ok it, s1)) by congruence end.
  apply ask_pos in E'; [exact E'| |exact H]. intros i j Ej P. cbv beta in Ej.
  destruct (Prop_Crash.item_des_moves 6 i P) as [_ N0]. destruct (item_des 6 i) as [[h|?| |] i0]; cbn [fst snd] in *; try discriminate.
  destruct (negb _); [discriminate|].
  destruct (Prop_Crash.item_int_moves 2 i0 N0) as [_ N1]. destruct (item_int 2 i0) as [[?|?| |] i1]; cbn [fst snd] in *; try discriminate.
  injection Ej as <-. exact N1.
Qed.
Lemma deserialize_panic {A} w (k : bytes -> A) r : (forall it, r = Ok it -> 0 <= it_pos it) -> deserialize w k r = Panic -> r = Panic.
Proof.
  intros P E. unfold deserialize in E. destruct r as [it| | |]; cbn [bind] in E; try discriminate; [|reflexivity].
  destruct (Prop_Crash.item_des_moves w it (P it eq_refl)) as [N _]. destruct (fst (item_des w it)); congruence.
Qed.
Theorem C122_canned_partial : forall S (ctl : controller S) s otid q s1 q1, honest ctl ->
  get_faults ctl s otid q = (Panic, s1, q1) \/ get_forces ctl s otid q = (Panic, s1, q1) \/ get_props ctl s otid q = (Panic, s1, q1) ->
  exists req st p, ctl s req = (Ok (st, p), s1) /\ few_items p.
Proof.
  intros S ctl s otid q s1 q1 H E.
  destruct (Prop_Crash.C55_attr_only_short_crashes S ctl s otid q s1 q1 H) as (_ & L & G).
  destruct E as [E|[E|E]].
  - unfold get_faults in E. destruct (generic ctl s otid q 0x01 (class_bytes 0x73 ++ instance_bytes 1) []) as [[r s2] q2] eqn:R.
    injection E as E -> ->. apply deserialize_panic in E; [subst r; exact (G _ _ _ R)|]. intros it ->. exact (generic_pos _ _ _ _ _ _ _ _ _ _ H R).
  - unfold get_forces in E. destruct (get_attr_list ctl s otid q 0x69 0 [9]) as [[r s2] q2] eqn:R.
    injection E as E -> ->. apply deserialize_panic in E; [subst r; exact (L _ _ _ R)|]. intros it ->. exact (list_pos _ _ _ _ _ _ _ _ _ _ H R).
  - unfold get_props in E. destruct (get_attr_list ctl s otid q 0xAC 1 [1; 2; 3; 4; 10]) as [[r s2] q2] eqn:R.
    injection E as E -> ->. apply deserialize_panic in E; [subst r; exact (L _ _ _ R)|]. intros it ->. exact (list_pos _ _ _ _ _ _ _ _ _ _ H R).
Qed.
Print Assumptions C122_canned_partial.
Example ex_C122_canned : honest (Prop_Attr.answers (zeros 8)) /\ fst (fst (get_faults (Prop_Attr.answers (zeros 8)) tt 7 1)) = Panic.
Proof. split; [intros s req; apply Prop_Crash.check_bytes; reflexivity|vm_compute; reflexivity]. Qed.

(** Buffers of tags: creating, telling the controller of tags, reading, removing
    and closing.  (Sizes of slots are 16-bit, so not negative.) *)
Import DataModel.
Lemma item_uint_moves n it : 0 <= it_pos it -> fst (item_uint n it) <> Panic /\ 0 <= it_pos (snd (item_uint n it)).
Proof.
  intro P. destruct (Prop_Crash.item_int_moves n it P) as [A B]. unfold item_int in A, B.
  destruct (item_uint n it) as [[?|?| |] i]; cbn [fst snd] in *; split; try discriminate; try congruence.
Qed.
Lemma decode_table_safe t raw : decode_table t raw <> Panic.
Proof.
  unfold decode_table. destruct (_ || _); [destruct (_ <? 4); discriminate|].
  apply Prop_Crash.bind_value_safe. intros [v r]. discriminate.
Qed.
Lemma read_slots_safe {A} (f : Z -> bytes -> res A) l : (forall t raw, f t raw <> Panic) -> Forall (fun b => 0 <= b_size b) l ->
  forall cur it acc, 0 <= it_pos it -> read_slots f l cur it acc <> Panic.
Proof.
  intro Sf. induction 1 as [|b l B _ IH]; intros cur it acc P; [discriminate|]. cbn [read_slots].
  assert (Q : forall h it1, (if b_batch b =? cur then (Ok 0, it) else item_uint 2 it) = (h, it1) -> h <> Panic /\ 0 <= it_pos it1).
  { intros h it1 E. destruct (b_batch b =? cur); [injection E as <- <-; split; [discriminate|exact P]|].
    destruct (item_uint_moves 2 it P) as [N M]. rewrite E in N, M. now split. }
  destruct (if b_batch b =? cur then (Ok 0, it) else item_uint 2 it) as [h it1]. destruct (Q _ _ eq_refl) as [N M].
  destruct h as [?|?| |]; cbn [bind]; try discriminate; try congruence.
  destruct (_ <? _); [discriminate|].
  destruct (f (b_type b) _) as [v|?| |] eqn:F; cbn [bind]; try discriminate; [|now apply Sf in F].
  apply IH. cbn [item_at it_pos]. lia.
Qed.
Lemma ins_sizes b l : 0 <= b_size b -> Forall (fun b => 0 <= b_size b) l -> Forall (fun b => 0 <= b_size b) (ins b l).
Proof.
  intros B F. induction F as [|x l X F IH]; [now repeat constructor|]. cbn [ins]. destruct (_ <? _); repeat constructor; auto.
Qed.
Lemma by_index_sizes l : Forall (fun b => 0 <= b_size b) l -> Forall (fun b => 0 <= b_size b) (by_index l).
Proof.
  unfold by_index. assert (G : Forall (fun b : btag => 0 <= b_size b) []) by constructor. revert G. generalize (@nil btag).
  induction l as [|b l IH]; intros acc Ha F; [exact Ha|]. inversion F; subst. cbn [fold_left]. apply IH; [now apply ins_sizes|assumption].
Qed.
Lemma synched_sizes batch l : Forall (fun b => 0 <= b_size b) l -> Forall (fun b => 0 <= b_size b) (map (synched batch) l).
Proof. induction 1 as [|b l B _ IH]; [constructor|]. cbn [map]. constructor; [|exact IH]. unfold synched. destruct (b_sync b); exact B. Qed.

Section buffers.
Context {S : Type}.
Variable ctl : controller S.
Variable otid : Z.
Hypothesis Hon : honest ctl.
Lemma generic_panic s q service path data s1 q1 : generic ctl s otid q service path data = (Panic, s1, q1) -> short_reply ctl s1.
Proof. intro E. exists s. exact (proj2 (proj2 (Prop_Crash.C55_attr_only_short_crashes S ctl s otid q s1 q1 Hon)) _ _ _ E). Qed.
Lemma word_panic s q service path data s1 q1 : reply_word (generic ctl s otid q service path data) = (Panic, s1, q1) -> short_reply ctl s1.
Proof.
  unfold reply_word. destruct (generic ctl s otid q service path data) as [[r s2] q2] eqn:G. intro E. injection E as E <- <-.
  destruct r as [it|?| |]; try discriminate; [|exact (generic_panic _ _ _ _ _ _ _ G)].
  destruct (item_uint_moves 2 it (generic_pos _ _ _ _ _ _ _ _ _ _ Hon G)). congruence.
Qed.
Lemma sync_panic s q u u1 s1 q1 : sync_tags ctl s otid q u = (Panic, u1, s1, q1) -> short_reply ctl s1.
Proof.
  unfold sync_tags. destruct (reply_word _) as [[r s2] q2] eqn:G. destruct r; intro E; try discriminate.
  injection E as <- <- <-. exact (word_panic _ _ _ _ _ _ _ G).
Qed.
Lemma read_panic {A} (f : Z -> bytes -> res A) s q u u1 s1 q1 : (forall t raw, f t raw <> Panic) -> Forall (fun b => 0 <= b_size b) (u_tags u) ->
  read_with f ctl s otid q u = (Panic, u1, s1, q1) -> short_reply ctl s1.
Proof.
  intros Sf F. unfold read_with. destruct (negb (u_created u)); [discriminate|].
  destruct (u_tags u) as [|b l] eqn:Et; [discriminate|]. rewrite <- Et in F.
  destruct (if u_sync u then (Ok tt, u, s, q) else sync_tags ctl s otid q u) as [[[r0 u2] s2] q2] eqn:E0.
  assert (F2 : r0 = Ok tt -> Forall (fun b => 0 <= b_size b) (u_tags u2)).
  { intros ->. destruct (u_sync u); [injection E0 as <- _ _; exact F|]. unfold sync_tags in E0.
    destruct (reply_word _) as [[r s3] q3]. destruct r; try discriminate. injection E0 as <- _ _. cbn [with_tags u_tags]. now apply synched_sizes. }
  destruct r0 as [[]|?| |]; intro E; try discriminate.
  - destruct (generic ctl s2 otid q2 0x4C (table_path (u_inst u2)) []) as [[r s3] q3] eqn:G. injection E as E <- <- <-.
    destruct r as [it|?| |]; try discriminate; [|exact (generic_panic _ _ _ _ _ _ _ G)].
    exfalso. revert E. apply read_slots_safe; [exact Sf|apply by_index_sizes; now apply F2|]. exact (generic_pos _ _ _ _ _ _ _ _ _ _ Hon G).
  - injection E as <- <- <-. destruct (u_sync u); [discriminate|]. exact (sync_panic _ _ _ _ _ _ E0).
Qed.
End buffers.

Theorem C122_buffer_partial : forall S (ctl : controller S) otid, honest ctl ->
  (forall s q s1 q1, new_buffer ctl s otid q = (Panic, s1, q1) -> short_reply ctl s1) /\
  (forall c usize o u s q u1 s1 q1, Forall (fun b => 0 <= b_size b) (u_tags u) ->
     match o with OAdd _ _ | OAddMap _ | OAddGroup _ _ _ => False | _ => True end ->
     step ctl c usize otid o u s q = (Panic, u1, s1, q1) -> short_reply ctl s1).
Proof.
  intros S ctl otid H. split.
  - intros s q s1 q1. unfold new_buffer. destruct (reply_word _) as [[r s2] q2] eqn:G. intro E. injection E as E <- <-.
    destruct r; try discriminate. exact (word_panic ctl otid H _ _ _ _ _ _ _ G).
  - intros c usize o u s q u1 s1 q1 F N E. destruct o; try contradiction; cbn [step] in E.
    + exact (sync_panic ctl otid H _ _ _ _ _ _ E).
    + destruct (read_all ctl s otid q u) as [[[r u2] s2] q2] eqn:R. injection E as E <- <- <-. destruct r; try discriminate.
      exact (read_panic ctl otid H decode_table _ _ _ _ _ _ decode_table_safe F R).
    + destruct (read_all_raw ctl s otid q u) as [[[r u2] s2] q2] eqn:R. injection E as E <- <- <-. destruct r; try discriminate.
      apply (read_panic ctl otid H (fun _ raw => Ok raw) s q u u2 s2 q2); [discriminate|exact F|exact R].
    + unfold remove_tag in E. destruct (negb _); [discriminate|]. destruct (find_tag name (u_tags u)) as [[[p b] z]|]; [|discriminate].
      destruct (generic ctl s otid q 0x4F (table_path (u_inst u)) (le 2 (b_index b))) as [[r s2] q2] eqn:G.
      destruct r; try discriminate. injection E as <- <- <-. exact (generic_panic ctl otid H _ _ _ _ _ _ _ G).
    + unfold close in E. destruct (negb _); [discriminate|].
      destruct (generic ctl s otid q 0x09 (table_path (u_inst u)) []) as [[r s2] q2] eqn:G. injection E as E <- <- <-.
      destruct r; try discriminate. exact (generic_panic ctl otid H _ _ _ _ _ _ _ G).
Qed.
Print Assumptions C122_buffer_partial.
Example ex_C122_buffer : fst (fst (new_buffer (Prop_Attr.answers (zeros 8)) tt 7 1)) = Panic /\
  (let u := Buf 1 [BTag (str "a") 0xC4 4 1 [0x91; 1; 97; 0] 0 false] [] true false in
   fst (fst (fst (step (Prop_Attr.answers (zeros 8)) {| cl_firmware := 30; cl_known := []; cl_cache := [] |} (fun _ => 0) 7 ORead u tt 1))) = Panic /\
   fst (fst (fst (step (Prop_Attr.answers (reply_of [1; 0; 0xCE; 0; 0; 0; 5; 0])) {| cl_firmware := 30; cl_known := []; cl_cache := [] |} (fun _ => 0) 7 OSync u tt 1))) = Ok tt).
Proof. vm_compute. repeat split. Qed.
