(** * C72: batched reads of the built-in server's tags *)
From Verif Require Import GoBase IoiModel IoiSpec IoiProof ItemsModel TypesModel ItemsSpec ItemsProof ReadModel ReadSpec ReadProof Prop_Read WriteModel WriteSpec
  WriteProof BatchModel BatchSpec BatchProof Prop_Batch EipModel EipSpec OpenModel TableModel SrvValModel SrvValSpec SrvValProof ProvModel ProvSpec ProvProof Prop_SrvVal SrvModel SrvSpec
  SrvProof Prop_Srv ReqSpec LinkModel ReqProof Prop_Req ManySpec ManyProof.

(** Full statement: ReadList, ReadMap and ReadMulti of tags the built-in server
    has, return the values it has for them.  It is false (the [_refuted]
    theorems): strings over 82 characters are cut short, and a batch with a value
    the server cannot send gets no reply at all.  Proved for numbers, bools,
    strings of at most 82 characters and runs of numbers ([served]), in any mix,
    however many and however the batch is cut up.  Missing: structures, counts
    that are taken for a piece of the path, replies over 64 kB (which no batch of
    single values with the usual connection sizes reaches:
    [C72_scalars_partial]). *)

(** Nothing on the server has changed, and the client is still connected. *)
Definition undisturbed (session context otid : Z) (i : nat) (sh sh' : server * handler) : Prop :=
  linked session context otid i sh' /\ others_same i (fst sh) (fst sh') /\ forall k, behind i sh' k = behind i sh k.

Lemma served_gives session context otid i sh bound ws value : linked session context otid i sh ->
  Forall (fun w => addressed (w_tag w) /\ len (encode (w_tag w)) < 512 /\ served (behind i sh) w (value w)) ws -> bound < 2 ^ 15 ->
  (forall a l b, ws = a ++ l ++ b -> request_size l <= bound \/ length l = 1%nat -> replies_room l < 64000) ->
  gives_in (undisturbed session context otid i sh) (link session context) otid bound ws value /\ undisturbed session context otid i sh sh.
Proof.
  intros L F B R. split.
  - exact (link_gives session context otid i (fst sh) bound ws value F B R).
  - split; [exact L|]. split; [|reflexivity]. split; [reflexivity|]. split; [reflexivity|]. split; reflexivity.
Qed.

Theorem C72_list_partial : forall session context otid i sh ops ex cs ws value fuel q,
  linked session context otid i sh -> cs < 32000 ->
  Forall (fun w => named ops (w_tag w) /\ addressed (w_tag w) /\ 10 + len (encode (w_tag w)) <= cs /\ served (behind i sh) w (value w)) ws ->
  (forall a l b, ws = a ++ l ++ b -> request_size l <= cs + 1 \/ length l = 1%nat -> replies_room l < 64000) ->
  (length ws < fuel)%nat ->
  exists sh1 q1, read_batches fuel (link session context) (cl_run ops) sh otid q cs (map (desc ex) ws) = (Ok (map value ws), sh1, q1) /\
    undisturbed session context otid i sh sh1.
Proof.
  intros session context otid i sh ops ex cs ws value fuel q L Hc F R Hf.
  destruct (served_gives session context otid i sh (cs + 1) ws value L) as (G & U).
  { eapply Forall_impl; [|exact F]. intros w (N & A & _ & S). split; [exact A|]. split; [apply N|exact S]. }
  { lia. }
  { exact R. }
  apply (C21_lemma ops ex (undisturbed session context otid i sh) (link session context) otid cs value ltac:(lia) ws ws).
  - eapply Forall_impl; [|exact F]. intros w H. apply H.
  - eapply Forall_impl; [|exact F]. intros w H. apply H.
  - now exists [].
  - exact G.
  - exact U.
  - exact Hf.
Qed.
Print Assumptions C72_list_partial.

Theorem C72_map_partial : forall session context otid i sh ops ex cs ws value fuel q,
  linked session context otid i sh -> cs < 32000 ->
  Forall (fun w => named ops (w_tag w) /\ addressed (w_tag w) /\ 10 + len (encode (w_tag w)) <= cs /\ served (behind i sh) w (value w)) ws ->
  (forall a l b, ws = a ++ l ++ b -> request_size l <= cs + 1 \/ length l = 1%nat -> replies_room l < 64000) ->
  (length ws < fuel)%nat ->
  exists sh1 q1, read_map fuel (link session context) (cl_run ops) sh otid q cs (map (desc ex) ws) =
      (Ok (map (fun w => (text (w_tag w), value w)) ws), sh1, q1) /\
    undisturbed session context otid i sh sh1.
Proof.
  intros session context otid i sh ops ex cs ws value fuel q L Hc F R Hf.
  destruct (C72_list_partial session context otid i sh ops ex cs ws value fuel q L Hc F R Hf) as (sh1 & q1 & E & U).
  exists sh1, q1. split; [|exact U]. unfold read_map. rewrite E, !map_length, Nat.ltb_irrefl, map_map, combine_map. reflexivity.
Qed.
Print Assumptions C72_map_partial.

(** Single values: the reply to a batch of requests of at most 6100 bytes never
    gets too long. *)
Lemma single_room bound ws : bound <= 6100 ->
  Forall (fun w => valid_tag (w_tag w) /\ w_elems w = 1) ws ->
  forall a l b, ws = a ++ l ++ b -> request_size l <= bound \/ length l = 1%nat -> replies_room l < 64000.
Proof.
  intros Hb F a l b -> Sz. apply Forall_app in F as [_ F]. apply Forall_app in F as [F _].
  assert (Fr : Forall (fun w => reply_room w <= 96) l).
  { eapply Forall_impl; [|exact F]. intros w (_ & E). unfold reply_room. rewrite E. destruct (_ =? _); lia. }
  assert (Fe : Forall (fun w => 4 <= len (encode (w_tag w))) l).
  { eapply Forall_impl; [|exact F]. intros w (V & _). clear -V. destruct V as (Ne & Fm & _). unfold encode.
    destruct (t_members (w_tag w)) as [|m ms]; [congruence|]. inversion Fm as [|? ? Vm _]; subst. cbn [map concat].
    rewrite len_app. pose proof (len_nonneg (concat (map encode_member ms))).
    unfold encode_member at 1. destruct Vm as ((Vn & _) & _). rewrite len_app.
    pose proof (len_nonneg (concat (map element_segment (m_subs m)))).
    unfold symbol_segment. rewrite !len_cons, len_app. rewrite lower_len.
    destruct (Z.odd (len (m_name m))) eqn:O; [change (len [0]) with 1; lia|]. change (len (@nil Z)) with 0.
    destruct (Z.eq_dec (len (m_name m)) 1) as [X|X]; [rewrite X in O; discriminate|lia]. }
  assert (Lr : replies_room l <= 98 * len l).
  { clear -Fr. induction Fr as [|w l H F IH]; [cbn; lia|]. cbn [replies_room]. rewrite len_cons. lia. }
  destruct Sz as [Sz|Sz].
  - assert (10 + 10 * len l <= request_size l); [|lia]. unfold request_size. clear -Fe.
    induction Fe as [|w l H F IH]; [cbn; lia|]. cbn [fold_right]. rewrite len_cons. lia.
  - unfold len in Lr. rewrite Sz in Lr. lia.
Qed.

Theorem C72_scalars_partial : forall session context otid i sh ops ex cs ws value fuel q,
  linked session context otid i sh -> cs <= 4050 ->
  Forall (fun w => named ops (w_tag w) /\ addressed (w_tag w) /\ 10 + len (encode (w_tag w)) <= cs /\ served (behind i sh) w (value w) /\
                   w_elems w = 1) ws ->
  (length ws < fuel)%nat ->
  exists sh1 q1, read_batches fuel (link session context) (cl_run ops) sh otid q cs (map (desc ex) ws) = (Ok (map value ws), sh1, q1) /\
    undisturbed session context otid i sh sh1.
Proof.
  intros session context otid i sh ops ex cs ws value fuel q L Hc F Hf.
  apply C72_list_partial; [exact L|lia| | |exact Hf].
  - eapply Forall_impl; [|exact F]. intros w (H1 & H2 & H3 & H4 & _). auto.
  - apply single_room; [lia|]. eapply Forall_impl; [|exact F]. intros w (_ & (V & _) & _ & _ & E). now split.
Qed.
Print Assumptions C72_scalars_partial.

(** ReadMulti: a struct whose tagged fields are numbers, bools and strings. *)
Theorem C72_struct_partial : forall session context otid i sh ops cs (struct : list (field * option tag)) (value : tag -> gval) fuel q,
  let tags := flat_map (fun fo => match snd fo with Some tg => [text tg] | None => [] end) struct in
  linked session context otid i sh -> cs <= 4050 ->
  Forall (fun fo => f_tag (fst fo) = option_map text (snd fo) /\
    match snd fo with
    | Some tg => exists k, f_type (fst fo) = FScalar k /\ scalar k (value tg) /\ named ops tg /\ addressed tg /\
                           10 + len (encode tg) <= cs /\ ProvSpec.reads (behind i sh) (text tg) 1 (VOne (value tg))
    | None => go_ftype (f_type (fst fo))
    end) struct ->
  NoDup tags -> tags <> [] -> (length tags < fuel)%nat ->
  exists sh1 q1, read_multi fuel (link session context) (cl_run ops) sh otid q cs (map fst struct) =
    (Ok (map (fun fo => match snd fo with
                        | Some tg => Field (f_tag (fst fo)) (f_type (fst fo)) (value tg)
                        | None => fst fo
                        end) struct), sh1, q1) /\
    undisturbed session context otid i sh sh1.
Proof.
  intros session context otid i sh ops cs struct value fuel q tags L Hc F Nd Ne Hf.
  set (ws := flat_map (fun fo => match snd fo with Some tg => [field_wish (fst fo) tg] | None => [] end) struct).
  assert (Et : tags = map (fun w => text (w_tag w)) ws).
  { unfold tags, ws. clear -F. induction F as [|[f [tg|]] struct H F IH]; [reflexivity| |exact IH].
    cbn [flat_map fst snd app map]. rewrite IH. f_equal. f_equal. destruct H as (_ & k & E & _). cbn [fst] in E.
    unfold field_wish. now rewrite E. }
  assert (Fw : Forall (fun w => named ops (w_tag w) /\ addressed (w_tag w) /\ 10 + len (encode (w_tag w)) <= cs /\
                                served (behind i sh) w (value (w_tag w)) /\ w_elems w = 1) ws).
  { unfold ws. clear -F. induction F as [|[f [tg|]] struct H F IH]; [constructor| |exact IH].
    cbn [flat_map fst snd app]. constructor; [|exact IH]. destruct H as (_ & k & E & Sc & N & A & B & R). cbn [fst] in E.
    unfold field_wish. rewrite E. cbn [w_tag w_elems w_type]. split; [exact N|]. split; [exact A|]. split; [exact B|]. split; [|reflexivity].
    apply (sv_one _ _ k); [reflexivity|exact Sc| |exact R]. cbn [w_type].
    destruct Sc as [(code & Nc & _)|(x & _ & _ & ->)]; [|easy].
    destruct (number_kind _ _ Nc) as (K & _ & NS & _). rewrite K. split; [intro X; contradiction|]. intros ->. discriminate. }
  rewrite Et in Nd, Ne, Hf. rewrite map_length in Hf.
  destruct (served_gives session context otid i sh (10 + cs + cs / 2) ws (fun w => value (w_tag w)) L) as (G & U).
  { eapply Forall_impl; [|exact Fw]. intros w (N & A & _ & S & _). split; [exact A|]. split; [apply N|exact S]. }
  { lia. }
  { apply single_room; [lia|]. eapply Forall_impl; [|exact Fw]. intros w (_ & (V & _) & _ & _ & E). now split. }
  assert (Ft : forall f tg k, f_type f = FScalar k -> w_tag (field_wish f tg) = tg).
  { intros f tg k E. unfold field_wish. now rewrite E. }
  destruct (fields_filled (server * handler) (undisturbed session context otid i sh) (link session context) ops otid cs (10 + cs + cs / 2) struct
    (fun w => value (w_tag w)) fuel sh q) as (sh1 & q1 & E & U1).
  - lia.
  - lia.
  - eapply Forall_impl; [|exact F]. intros [f [tg|]] (T & H); cbn [fst snd option_map] in *; split; try exact T; try exact H.
    destruct H as (k & -> & Sc & _). cbn [go_ftype]. destruct Sc as [(code & Nc & _)|(x & _ & _ & ->)]; [|exact I].
    destruct k as [|s w|w|]; cbn [go_kind]; try exact I.
    + destruct s; destruct w as [|[|[|[|[|[|[|[|[|w]]]]]]]]]; try discriminate; cbn; auto 10.
    + destruct w as [|[|[|[|[|[|[|[|[|w]]]]]]]]]; try discriminate; cbn; auto 10.
  - exact Nd.
  - intro X. apply Ne. fold ws in X. now rewrite X.
  - eapply Forall_impl; [|exact Fw]. intros w H. split; apply H.
  - exact G.
  - eapply Forall_impl; [|exact F]. intros [f [tg|]] (T & H); cbn [fst snd] in *; [|exact I].
    destruct H as (k & E & Sc & _). rewrite (Ft f tg k E). unfold accepts. rewrite E.
    destruct Sc as [(code & Nc & Nm & _)|(x & -> & _ & ->)]; [|exact I].
    assert (K : ReadSpec.kind_of (value tg) = k /\ k <> KString).
    { destruct (value tg); cbn [is_number] in Nm; try contradiction; subst k; split; (reflexivity || discriminate). }
    destruct k; try exact K. now destruct K.
  - exact U.
  - exact Hf.
  - exists sh1, q1. split; [|exact U1]. rewrite E. f_equal. f_equal. f_equal. apply map_ext_in. intros [f [tg|]] I; [|reflexivity]. cbn [fst snd].
    rewrite Forall_forall in F. destruct (F _ I) as (_ & H). cbn [fst snd] in H. destruct H as (k & Ek & _). now rewrite (Ft f tg k Ek).
Qed.
Print Assumptions C72_struct_partial.

(** ** Examples: the server of [Prop_Srv] with a string tag besides *)
Definition mixed_writes : list (bytes * given) := demo_writes ++ [(str "label", GiveOne (GStr (str "ready")))].
Definition mixed_prov := fst (run_writes (sv_conv demo_server) (Prov [] []) mixed_writes).
Definition mixed : server * handler := (set_prov 0 mixed_prov demo_server, demo_handler).
Lemma mixed_linked : linked 77 9 5 0 mixed.
Proof.
  split; [lia|]. split; [lia|]. split; [lia|]. split; [split; cbn; lia|]. split.
  - exists 6. split; [cbn; lia|]. exists (SConn 1 5 6 1000 [1; 0] true). split; [vm_compute; reflexivity|]. split; vm_compute; reflexivity.
  - assert (E : run_writes (sv_conv demo_server) (Prov [] []) mixed_writes = (prov_at (fst mixed) 0, [true; true; true])) by (vm_compute; reflexivity).
    exact (proj1 (run_history _ _ _ _ _ separate_empty E)).
Qed.
Definition mixed_wishes : list wish :=
  [Wish (nm (str "Speed") []) 0xC4 1 None; Wish (nm (str "ARR") []) 0xC3 3 None; Wish (nm (str "label") []) 0xFF 1 None;
   Wish (nm (str "arr") [1]) 0xC3 2 None; Wish (nm (str "arr") [2]) 0xC3 1 None].
Definition mixed_value (w : wish) : gval :=
  if w_type w =? 0xC4 then GInt true 4 7 else if w_type w =? 0xFF then GStr (str "ready")
  else if w_elems w =? 3 then GList [GInt true 2 1; GInt true 2 2; GInt true 2 3]
  else if w_elems w =? 2 then GList [GInt true 2 2; GInt true 2 3] else GInt true 2 3.
Lemma plain_nm s : valid_tagb (nm s []) = true -> plain_name (lower (text (nm s []))).
Proof. intro V. apply plain_lower; [now apply valid_tagb_sound|reflexivity|discriminate]. Qed.
Lemma elem_nm s j : valid_tagb (nm s [j]) = true -> elem_name (lower (text (nm s [j]))) (lower (text (nm s []))) j.
Proof. intro V. exact (elem_lower (nm s [j]) j (valid_tagb_sound _ V) eq_refl eq_refl). Qed.
Ltac in_type := cbn [representable]; unfold in_range; cbn; lia.
Ltac all_of t := repeat (apply Forall_cons; [t|]); apply Forall_nil.
Example ex_C72 : linked 77 9 5 0 mixed /\
  Forall (fun w => named [] (w_tag w) /\ addressed (w_tag w) /\ 10 + len (encode (w_tag w)) <= 25 /\ served (behind 0 mixed) w (mixed_value w)) mixed_wishes /\
  (forall a l b, mixed_wishes = a ++ l ++ b -> request_size l <= 26 \/ length l = 1%nat -> replies_room l < 64000) /\
  fst (fst (read_batches 9 (link 77 9) (cl_run []) mixed 5 1 25 (map (desc (fun _ => SNil)) mixed_wishes))) = Ok (map mixed_value mixed_wishes) /\
  fst (fst (read_map 9 (link 77 9) (cl_run []) mixed 5 1 500 (map (desc (fun _ => SNil)) mixed_wishes))) =
    Ok (map (fun w => (text (w_tag w), mixed_value w)) mixed_wishes).
Proof.
  split; [exact mixed_linked|]. split.
  { unfold mixed_wishes. repeat apply Forall_cons; try apply Forall_nil; cbn [w_tag]; (split; [demo_tag|]); (split; [demo_tag|]);
      (split; [vm_compute; discriminate|]).
    - apply (sv_one _ _ (KInt true 4)); [reflexivity| |split; discriminate|].
      + left. exists 0xC4. split; [reflexivity|]. split; [reflexivity|in_type].
      + apply r_one; [apply plain_nm; reflexivity|vm_compute; reflexivity].
    - apply (sv_many _ _ (KInt true 2) 0xC3); [reflexivity|vm_compute; discriminate|unfold clear_count; vm_compute; repeat split; discriminate|reflexivity|discriminate|
        all_of reflexivity|all_of in_type|discriminate|].
      refine (r_many (behind 0 mixed) (text (nm (str "ARR") [])) 3 (EK (KInt true 2)) (map VOne [GInt true 2 1; GInt true 2 2; GInt true 2 3]) _ _ _);
        [apply plain_nm; reflexivity|vm_compute; reflexivity|vm_compute; split; discriminate].
    - apply (sv_one _ _ KString); [reflexivity| |split; reflexivity|].
      + right. exists (str "ready"). split; [reflexivity|]. split; [vm_compute; discriminate|reflexivity].
      + apply r_one; [apply plain_nm; reflexivity|vm_compute; reflexivity].
    - apply (sv_many _ _ (KInt true 2) 0xC3); [reflexivity|vm_compute; discriminate|unfold clear_count; vm_compute; repeat split; discriminate|reflexivity|discriminate|
        all_of reflexivity|all_of in_type|discriminate|].
      refine (r_range (behind 0 mixed) (text (nm (str "arr") [1])) 2 (lower (text (nm (str "arr") []))) 1 (EK (KInt true 2))
        (map VOne [GInt true 2 1; GInt true 2 2; GInt true 2 3]) _ _ _ _ _ _);
        [apply elem_nm; reflexivity|vm_compute; reflexivity|vm_compute; split; [discriminate|reflexivity]|vm_compute; discriminate|
         vm_compute; discriminate|vm_compute; discriminate].
    - apply (sv_one _ _ (KInt true 2)); [reflexivity| |split; discriminate|].
      + left. exists 0xC3. split; [reflexivity|]. split; [reflexivity|in_type].
      + apply (r_elem _ _ _ (lower (text (nm (str "arr") []))) 2 (EK (KInt true 2)) (map VOne [GInt true 2 1; GInt true 2 2; GInt true 2 3]));
          [apply elem_nm; reflexivity|vm_compute; reflexivity|lia|reflexivity|vm_compute; reflexivity]. }
  split; [|split; vm_compute; reflexivity].
  intros a l b E _. assert (X : forall l1 l2, replies_room (l1 ++ l2) = replies_room l1 + replies_room l2).
  { induction l1 as [|w l1 IH]; intro l2; [reflexivity|]. cbn [app replies_room]. rewrite IH. lia. }
  assert (Fn : Forall (fun w => 0 <= reply_room w) mixed_wishes) by all_of ltac:(vm_compute; discriminate).
  assert (Nn : forall l, Forall (fun w => 0 <= reply_room w) l -> 0 <= replies_room l).
  { clear. induction 1; [cbn; lia|]. cbn [replies_room]. lia. }
  assert (T : replies_room mixed_wishes < 64000) by (vm_compute; reflexivity).
  rewrite E, !X in T. rewrite E in Fn. apply Forall_app in Fn as [Fa Fn]. apply Forall_app in Fn as [_ Fb].
  pose proof (Nn _ Fa). pose proof (Nn _ Fb). lia.
Qed.
Example ex_C72_struct :
  fst (fst (read_multi 4 (link 77 9) (cl_run []) mixed 5 1 500 [f_speed; f_note; f_label])) =
    Ok [Field (Some (str "Speed")) (FScalar (KInt true 4)) (GInt true 4 7); f_note; Field (Some (str "Label")) (FScalar KString) (GStr (str "ready"))] /\
  Forall (fun fo => f_tag (fst fo) = option_map text (snd fo) /\
    match snd fo with
    | Some tg => exists k, f_type (fst fo) = FScalar k /\ scalar k (if bseq (text tg) (str "Speed") then GInt true 4 7 else GStr (str "ready")) /\ named [] tg /\ addressed tg /\
                           10 + len (encode tg) <= 500 /\
                           ProvSpec.reads (behind 0 mixed) (text tg) 1 (VOne (if bseq (text tg) (str "Speed") then GInt true 4 7 else GStr (str "ready")))
    | None => go_ftype (f_type (fst fo))
    end) [(f_speed, Some (nm (str "Speed") [])); (f_note, None); (f_label, Some (nm (str "Label") []))].
Proof.
  split; [vm_compute; reflexivity|]. apply Forall_cons; [|apply Forall_cons; [|apply Forall_cons; [|apply Forall_nil]]]; (split; [reflexivity|]); cbn [snd].
  - exists (KInt true 4). split; [reflexivity|]. split; [left; exists 0xC4; split; [reflexivity|]; split; [reflexivity|in_type]|].
    split; [demo_tag|]. split; [demo_tag|]. split; [vm_compute; discriminate|]. apply r_one; [apply plain_nm; reflexivity|vm_compute; reflexivity].
  - cbn; auto.
  - exists KString. split; [reflexivity|]. split; [right; exists (str "ready"); split; [reflexivity|]; split; [vm_compute; discriminate|reflexivity]|].
    split; [demo_tag|]. split; [demo_tag|]. split; [vm_compute; discriminate|]. apply r_one; [apply plain_nm; reflexivity|vm_compute; reflexivity].
Qed.

(** ** Refutations *)
Definition shelf (ws : list (bytes * given)) : server * handler :=
  (set_prov 0 (fst (run_writes (sv_conv demo_server) (Prov [] []) ws)) demo_server, demo_handler).
Lemma shelf_linked ws l : snd (run_writes (sv_conv demo_server) (Prov [] []) ws) = l -> linked 77 9 5 0 (shelf ws).
Proof.
  intro E. split; [lia|]. split; [lia|]. split; [lia|]. split; [split; cbn; lia|]. split.
  - exists 6. split; [cbn; lia|]. exists (SConn 1 5 6 1000 [1; 0] true). split; [vm_compute; reflexivity|]. split; vm_compute; reflexivity.
  - unfold shelf. cbn [fst]. rewrite prov_at_set by (cbn; lia).
    refine (proj1 (run_history (sv_conv demo_server) ws (Prov [] []) _ l separate_empty _)).
    rewrite <- E. now destruct (run_writes (sv_conv demo_server) (Prov [] []) ws).
Qed.
(** A string of 83 characters: ReadList succeeds with another string. *)
Definition long_label : bytes := repeat 65 83.
Definition long_home := shelf [(str "label", GiveOne (GStr long_label))].
Theorem C72_long_refuted : linked 77 9 5 0 long_home /\ exists v,
  ProvSpec.reads (behind 0 long_home) (str "label") 1 (VOne (GStr long_label)) /\
  fst (fst (read_batches 3 (link 77 9) (cl_run []) long_home 5 1 500
    (map (desc (fun _ => SNil)) [Wish (nm (str "label") []) 0xFF 1 None]))) = Ok [v] /\ v <> GStr long_label.
Proof.
  split; [now apply (shelf_linked _ [true])|]. exists (GStr (repeat 65 82)). split; [|split; [vm_compute; reflexivity|]].
  - apply r_one; [exact (plain_nm (str "label") eq_refl)|vm_compute; reflexivity].
  - intro E. assert (X : repeat 65 82 = long_label) by congruence. apply (f_equal (@length Z)) in X. vm_compute in X. discriminate.
Qed.
Print Assumptions C72_long_refuted.
(** An array of strings makes the whole batch fail: no reply is sent. *)
Definition names_home := shelf (demo_writes ++ [(str "names", GiveMany (EK KString) [GStr (str "a"); GStr (str "b")])]).
Theorem C72_strings_refuted : linked 77 9 5 0 names_home /\
  ProvSpec.reads (behind 0 names_home) (str "speed") 1 (VOne (GInt true 4 7)) /\
  ProvSpec.reads (behind 0 names_home) (str "names") 2 (VMany (EK KString) [VOne (GStr (str "a")); VOne (GStr (str "b"))]) /\
  fst (fst (read_batches 3 (link 77 9) (cl_run []) names_home 5 1 500
    (map (desc (fun _ => SNil)) [Wish (nm (str "speed") []) 0xC4 1 None; Wish (nm (str "names") []) 0xFF 2 None]))) = Err EEof.
Proof.
  split; [now apply (shelf_linked _ [true; true; true])|]. split; [|split; [|vm_compute; reflexivity]].
  - apply r_one; [exact (plain_nm (str "speed") eq_refl)|vm_compute; reflexivity].
  - refine (r_many (behind 0 names_home) (str "names") 2 (EK KString) [VOne (GStr (str "a")); VOne (GStr (str "b"))] _ _ _); [exact (plain_nm (str "names") eq_refl)|vm_compute; reflexivity|vm_compute; split; discriminate].
Qed.
Print Assumptions C72_strings_refuted.
