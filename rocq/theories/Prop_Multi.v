(** * C26 and C84: ReadMulti with arguments and embedded structs *)
From Verif Require Import GoBase SegModel IoiModel IoiSpec IoiProof ItemsModel ItemsSpec TypesModel ReadModel ReadSpec ReadProof
  BatchModel BatchSpec BatchProof Prop_Batch GroupModel GroupSpec GroupProof MultiModel.

(** A struct without embedded structs, its fields given with the tag each stands
    for, if any: [f] has the template [ps], which with these arguments reads [tg]. *)
Definition stands_for (args : list bytes) (f : mfield) (o : option tag) : Prop :=
  match f, o with
  | MField None _ ty _, None | MField (Some []) _ ty _, None => go_ftype ty
  | MField (Some t) true ty _, Some tg =>
      exists ps, t = template ps /\ t <> [] /\ Forall piece_ok ps /\ concat (map (GroupSpec.filled args) ps) = text tg /\ go_ftype ty
  | _, _ => False
  end.
(** The field with the name its tag has. *)
Definition renamed (f : mfield) (o : option tag) : field :=
  match f with MField _ _ ty v => Field (option_map text o) ty v | MEmbed _ _ n v _ => Field None (FStruct n) v end.

Lemma stands_name args f tg : Forall no_brace args -> stands_for args f (Some tg) ->
  exists t ty v, f = MField (Some t) true ty v /\ t <> [] /\ match args with [] => t | _ => format_name t args end = text tg /\ go_ftype ty.
Proof.
  intros Na H. destruct f as [[[|x t]|] [] ty v|? ? ? ? ?]; try contradiction.
  1: destruct H as (ps & _ & X & _); congruence.
  destruct H as (ps & E & Ne & P & Ft & G). exists (x :: t), ty, v. split; [reflexivity|]. split; [discriminate|]. split; [|exact G].
  pose proof (format_name_filled ps args P Na) as F. rewrite <- E in F. rewrite <- Ft, <- F. destruct args; reflexivity.
Qed.
Lemma collect_flat args struct : Forall no_brace args -> Forall (fun fo => stands_for args (fst fo) (snd fo)) struct ->
  Forall (fun fo => match snd fo with Some tg => text tg <> [] | None => True end) struct ->
  forall pre, exists tl, collect args (pre ++ map fst struct) (concat (map seen (map fst struct))) (length pre) = Ok tl /\
    map (fun x => (fst x, f_type (snd x), f_val (snd x))) tl =
    map (fun x => (fst x, f_type (snd x), f_val (snd x))) (tagged (map (fun fo => renamed (fst fo) (snd fo)) struct) (length pre)).
Proof.
  intros Na F Ne. induction struct as [|[f o] struct IH]; intro pre; [exists []; split; reflexivity|].
  inversion F as [|? ? Hf F']; inversion Ne as [|? ? Hn Ne']; subst. cbn [fst snd] in *.
  destruct (IH F' Ne' (pre ++ [f])) as (tl & E & T). rewrite app_length, Nat.add_comm in E, T. cbn [length Nat.add] in E, T.
  rewrite <- app_assoc in E. cbn [app] in E. cbn [map concat fst snd].
  destruct o as [tg|].
  - destruct (stands_name args f tg Na Hf) as (t & ty & v & -> & Nt & Fn & G). cbn [seen app]. destruct t as [|x t]; [congruence|].
    cbn [collect]. rewrite nth_error_app2, Nat.sub_diag by lia. cbn [nth_error own negb]. rewrite E. cbn [bind].
    rewrite Fn. eexists. split; [reflexivity|]. cbn [renamed option_map tagged f_tag].
    destruct (length (text tg) =? 0)%nat eqn:L; [apply Nat.eqb_eq, length_zero_iff_nil in L; congruence|].
    cbn [map fst snd f_type f_val]. now rewrite T.
  - destruct f as [[[|x t]|] e ty v|? ? ? ? ?]; try (destruct e; contradiction); try contradiction; cbn [seen app collect renamed option_map tagged f_tag];
      exists tl; (split; [exact E|exact T]).
Qed.
Lemma same_descs tl tl' : map (fun x : bytes * nat * field => (fst x, f_type (snd x), f_val (snd x))) tl = map (fun x => (fst x, f_type (snd x), f_val (snd x))) tl' ->
  map (fun x => field_desc (snd x) (fst (fst x))) tl = map (fun x => field_desc (snd x) (fst (fst x))) tl' /\
  map (fun x : bytes * nat * field => fst x) tl = map (fun x => fst x) tl'.
Proof.
  revert tl'. induction tl as [|x tl IH]; intros [|y tl'] E; try discriminate; [split; reflexivity|]. cbn [map] in E.
  assert (E1 : (fst x, f_type (snd x), f_val (snd x)) = (fst y, f_type (snd y), f_val (snd y))) by congruence.
  destruct (IH tl') as [A B]; [congruence|]. injection E1 as E2 E3 E4. cbn [map]. rewrite A, B. split; [|congruence].
  unfold field_desc. rewrite E2, E3, E4. reflexivity.
Qed.

(** What is stored depends on names, positions and values only. *)
Definition bare (f : field) : ftype * gval := (f_type f, f_val f).
Lemma set_field_bare f g v : bare f = bare g ->
  match set_field f v, set_field g v with Ok f', Ok g' => bare f' = bare g' | Err a, Err b => a = b | Panic, Panic => True | OutOfFuel, OutOfFuel => True | _, _ => False end.
Proof.
  destruct f as [tf ty vf], g as [tg ty' vg]. unfold bare. cbn [f_type f_val]. intro E. injection E as <- <-. unfold set_field. cbn [f_type f_val f_tag].
  destruct ty as [k|k| |n]; try (destruct (fits_type _ v); [reflexivity|exact I]).
  destruct vf as [| | | | | |old| |]; try exact I. destruct v as [| | | | | |new| |]; try (destruct old; [reflexivity|exact I]).
  destruct old as [|o old]; [reflexivity|]. destruct (set_slice k (o :: old) new); unfold bind; cbv beta iota; first [exact I|reflexivity].
Qed.
Definition alike (r r' : res (list field)) : Prop :=
  match r, r' with
  | Ok l, Ok l' => map bare l = map bare l'
  | Err a, Err b => a = b | Panic, Panic => True | OutOfFuel, OutOfFuel => True | _, _ => False
  end.
Lemma set_nth_bare fs : forall fs' n v, map bare fs = map bare fs' -> alike (set_nth fs n v) (set_nth fs' n v).
Proof.
  induction fs as [|f fs IH]; intros [|f' fs'] n v E; try discriminate; [exact I|]. cbn [map] in E. assert (E1 : bare f = bare f') by congruence.
  assert (E2 : map bare fs = map bare fs') by congruence. destruct n as [|n]; cbn [set_nth].
  - pose proof (set_field_bare f f' v E1) as X. destruct (set_field f v), (set_field f' v); try contradiction; cbn [bind alike map]; congruence.
  - specialize (IH fs' n v E2). destruct (set_nth fs n v), (set_nth fs' n v); try contradiction; cbn [bind alike map]; try exact I; try exact IH. cbn [alike] in IH. congruence.
Qed.
Lemma tag_map_bare tl tl' t : map (fun x : bytes * nat * field => fst x) tl = map (fun x => fst x) tl' -> tag_map tl t = tag_map tl' t.
Proof.
  unfold tag_map. generalize (@None nat). revert tl'. induction tl as [|x tl IH]; intros [|y tl'] a E; try discriminate; [reflexivity|].
  cbn [map] in E. cbn [fold_left]. assert (fst x = fst y) as -> by congruence. apply IH. congruence.
Qed.
Lemma unpack_bare tl tl' names : map (fun x : bytes * nat * field => fst x) tl = map (fun x => fst x) tl' -> forall vs fs fs', map bare fs = map bare fs' ->
  alike (unpack_results tl names vs fs) (unpack_results tl' names vs fs').
Proof.
  intro Et. induction names as [|t names IH]; intros vs fs fs' E; [exact E|]. cbn [unpack_results].
  rewrite (tag_map_bare tl tl' t Et). destruct vs as [|v vs]; [exact I|]. destruct (tag_map tl' t) as [n|]; [|exact I].
  pose proof (set_nth_bare fs fs' n v E) as X. destruct (set_nth fs n v), (set_nth fs' n v); try contradiction; cbn [bind]; try exact I; try exact X.
  now apply IH.
Qed.

(** ReadMulti with arguments does what it does with the names written out. *)
Lemma args_written_out {S} (ctl : controller S) c otid cs args struct fuel s q :
  Forall no_brace args -> Forall (fun fo => stands_for args (fst fo) (snd fo)) struct ->
  Forall (fun fo => match snd fo with Some tg => text tg <> [] | None => True end) struct ->
  let a := read_multi_args fuel ctl c s otid q cs args (map fst struct) in
  let b := read_multi fuel ctl c s otid q cs (map (fun fo => renamed (fst fo) (snd fo)) struct) in
  alike (fst (fst a)) (fst (fst b)) /\ snd (fst a) = snd (fst b) /\ snd a = snd b.
Proof.
  intros Na F Ne a b. destruct (collect_flat args struct Na F Ne []) as (tl & E & T). cbn [app length] in E, T.
  destruct (same_descs _ _ T) as [D P]. subst a b. unfold read_multi_args, read_multi. rewrite E, D.
  destruct (read_list _ _ _ _ _ _ _ _) as [[r s1] q1]. cbn [fst snd]. split; [|split; reflexivity].
  destruct r as [vs| | |]; cbn [bind alike]; try reflexivity.
  assert (map (fun x : bytes * nat * field => fst (fst x)) tl = map (fun x => fst (fst x)) (tagged (map (fun fo => renamed (fst fo) (snd fo)) struct) 0)) as ->.
  { apply (f_equal (map fst)) in P. now rewrite !map_map in P. }
  apply unpack_bare; [exact P|]. rewrite !map_map. apply map_ext_in. intros [f o] I. rewrite Forall_forall in F. specialize (F _ I). cbn [fst snd] in *.
  destruct f as [? ? ? ?|? ? ? ? ?]; [reflexivity|]. destruct o; contradiction.
Qed.

(** C84: every field gets the value of the tag its template stands for. *)
Definition mfield_of (f : mfield) : field := snd (own f).
Theorem C84_args_partial : forall S (ctl : controller S) ops otid cs args (struct : list (mfield * option tag)) value fuel s q,
  let wish_of fo := match snd fo with Some tg => [field_wish (mfield_of (fst fo)) tg] | None => [] end in
  let ws := flat_map wish_of struct in
  cs <= 40000 -> Forall no_brace args ->
  Forall (fun fo => stands_for args (fst fo) (snd fo)) struct ->
  NoDup (map (fun w => text (w_tag w)) ws) -> ws <> [] ->
  Forall (fun w => named ops (w_tag w) /\ 10 + len (encode (w_tag w)) <= cs) ws ->
  gives ctl otid 65535 ws value ->
  Forall (fun fo => match snd fo with Some tg => accepts (mfield_of (fst fo)) (value (field_wish (mfield_of (fst fo)) tg)) | None => True end) struct ->
  (length ws < fuel)%nat ->
  exists out s' q', read_multi_args fuel ctl (cl_run ops) s otid q cs args (map fst struct) = (Ok out, s', q') /\
    map f_val out = map (fun fo => match snd fo with
                                   | Some tg => value (field_wish (mfield_of (fst fo)) tg)
                                   | None => f_val (mfield_of (fst fo))
                                   end) struct.
Proof.
  intros S ctl ops otid cs args struct value fuel s q wish_of ws Hcs Na F ND Ne Fw G Ac Hf.
  set (str2 := map (fun fo => (renamed (fst fo) (snd fo), snd fo)) struct).
  assert (Fw_eq : forall fo, stands_for args (fst fo) (snd fo) -> forall tg, field_wish (renamed (fst fo) (snd fo)) tg = field_wish (mfield_of (fst fo)) tg).
  { intros [[t e ty v|t e n v inner] o] St tg; [reflexivity|]. cbn [fst snd stands_for] in St. destruct o; contradiction. }
  assert (Ews : flat_map (fun fo => match snd fo with Some tg => [field_wish (fst fo) tg] | None => [] end) str2 = ws).
  { subst str2 ws. clear - F Fw_eq. induction F as [|fo struct H _ IH]; [reflexivity|]. cbn [map flat_map fst snd]. rewrite IH. f_equal. unfold wish_of.
    destruct fo as [f [tg|]]; cbn [fst snd] in *; [|reflexivity]. f_equal. now apply (Fw_eq (f, Some tg)). }
  assert (Wt : forall f tg, w_tag (field_wish f tg) = tg).
  { intros f tg. unfold field_wish. destruct (f_type f) as [k|k| |n]; try reflexivity. destruct k, (f_val f); reflexivity. }
  assert (Nt : Forall (fun fo => match snd fo with Some tg => text tg <> [] | None => True end) struct).
  { apply Forall_forall. intros [f [tg|]] I; [|exact Logic.I]. cbn [snd]. rewrite Forall_forall in Fw. destruct (Fw (field_wish (mfield_of f) tg)) as [(V & _) _].
    - subst ws. apply in_flat_map. exists (f, Some tg). split; [exact I|]. now left.
    - rewrite Wt in V. now apply text_nonempty. }
  destruct (C26_fields_filled_partial S ctl ops otid cs str2 value fuel s q Hcs) as (s' & q' & R).
  - subst str2. apply Forall_map. apply Forall_forall. intros [f o] I. rewrite Forall_forall in F. specialize (F _ I). cbn [fst snd] in *.
    destruct o as [tg|].
    + destruct (stands_name args f tg Na F) as (t & ty & v & -> & _ & _ & Gt). split; [reflexivity|exact Gt].
    + destruct f as [[[|x t]|] e ty v|? ? ? ? ?]; try (destruct e; contradiction); try contradiction; (split; [reflexivity|destruct e; exact F]).
  - now rewrite Ews.
  - now rewrite Ews.
  - now rewrite Ews.
  - now rewrite Ews.
  - subst str2. apply Forall_map. rewrite Forall_forall in *. intros fo I. specialize (Ac fo I). specialize (F fo I). cbn [fst snd].
    pose proof (Fw_eq fo) as X. destruct (snd fo) as [tg|] eqn:E; [|exact Logic.I]. rewrite (X F).
    destruct (fst fo) as [t e ty v|t e n v inner]; [exact Ac|contradiction].
  - now rewrite Ews.
  - pose proof (args_written_out ctl (cl_run ops) otid cs args struct fuel s q Na F Nt) as W. cbn zeta in W.
    replace (map (fun fo => renamed (fst fo) (snd fo)) struct) with (map fst str2) in W by (subst str2; rewrite map_map; reflexivity).
    rewrite R in W. destruct (read_multi_args fuel ctl (cl_run ops) s otid q cs args (map fst struct)) as [[r s2] q2]. cbn [fst snd] in W.
    destruct W as (W & -> & ->). destruct r as [out| | |]; try contradiction. exists out, s', q'. split; [reflexivity|].
    cbn [alike] in W. apply (f_equal (map snd)) in W. rewrite !map_map in W. unfold bare in W. cbn [snd] in W. etransitivity; [exact W|]. clear W. subst str2. rewrite map_map.
    apply map_ext_in. intros fo I. rewrite Forall_forall in F. specialize (F fo I). cbn [fst snd]. destruct (snd fo) as [tg|] eqn:E.
    + cbn [f_val]. pose proof (Fw_eq fo) as X. rewrite E in X. now rewrite (X F).
    + destruct (fst fo); [reflexivity|contradiction].
Qed.
Print Assumptions C84_args_partial.
(** One struct for many machines: "{0}eed" and "L{1}l" with "Sp" and "abe". *)
Definition m_speed : mfield := MField (Some (str "{0}eed")) true (FScalar (KInt true 4)) (GInt true 4 0).
Definition m_label : mfield := MField (Some (str "L{1}l")) true (FScalar KString) (GStr []).
Definition m_note : mfield := MField None false (FScalar (KInt true 4)) (GInt true 4 9).
Definition ex_args : list bytes := [str "Sp"; str "abe"].
Example ex_C84 :
  Forall no_brace ex_args /\
  Forall (fun fo => stands_for ex_args (fst fo) (snd fo)) [(m_speed, Some (tag1 (str "Speed"))); (m_note, None); (m_label, Some (tag1 (str "Label")))] /\
  [field_wish (mfield_of m_speed) (tag1 (str "Speed")); field_wish (mfield_of m_label) (tag1 (str "Label"))] = [w_speed; w_label] /\
  gives ex_plc 7 65535 [w_speed; w_label] ex_value /\
  fst (fst (read_multi_args 3 ex_plc (cl_run []) tt 7 1 500 ex_args [m_speed; m_note; m_label]))
  = Ok [Field (Some (str "{0}eed")) (FScalar (KInt true 4)) (GInt true 4 77); mfield_of m_note;
        Field (Some (str "L{1}l")) (FScalar KString) (GStr (str "ok"))].
Proof.
  split. { apply Forall_forall. intros a [<-|[<-|[]]] H; vm_compute in H; intuition discriminate. }
  split.
  { apply Forall_cons; [|apply Forall_cons; [|apply Forall_cons; [|apply Forall_nil]]]; cbn [fst snd stands_for m_speed m_note m_label].
    - exists [Hole 0; Lit (str "eed")]. split; [reflexivity|]. split; [discriminate|]. split; [|split; [reflexivity|cbn; intuition lia]].
      apply Forall_cons; [exact I|apply Forall_cons; [intro H; vm_compute in H; intuition discriminate|apply Forall_nil]].
    - cbn; intuition lia.
    - exists [Lit (str "L"); Hole 1; Lit (str "l")]. split; [reflexivity|]. split; [discriminate|]. split; [|split; [reflexivity|cbn; intuition lia]].
      apply Forall_cons; [intro H; vm_compute in H; intuition discriminate|apply Forall_cons; [exact I|apply Forall_cons; [intro H; vm_compute in H; intuition discriminate|apply Forall_nil]]]. }
  split; [reflexivity|]. split; [apply ex_plc_gives|]. vm_compute. reflexivity.
Qed.

(** A tag on a field inside an embedded struct: its value goes to the field that
    follows the struct, though that one has no tag, *)
Theorem C84_embedded_refuted : exists (ctl : controller unit) inner note got,
  inner = MEmbed None true 4 (GStructV (zeros 4)) [Some (str "Speed")] /\ note = MField None true (FScalar (KInt true 4)) (GInt true 4 9) /\
  gives ctl 7 65535 [w_speed] ex_value /\ ex_value w_speed = GInt true 4 77 /\
  fst (fst (read_multi_args 3 ctl (cl_run []) tt 7 1 500 [] [inner; note])) = Ok [mfield_of inner; got] /\ f_val got = GInt true 4 77.
Proof.
  exists (fun s _ => (Ok (0, plain_multi [r_speed]), s)). eexists _, _, _. split; [reflexivity|]. split; [reflexivity|].
  split; [|split; [reflexivity|split; [vm_compute; reflexivity|reflexivity]]].
  intros s q a l b E Ne _. assert (l = [w_speed]) as ->.
  { destruct a as [|a0 a]; cbn [app] in E; [|injection E as _ E; destruct a, l; [congruence|discriminate|congruence|discriminate]].
    destruct l as [|l0 l]; [congruence|]. injection E as -> E. destruct l; [reflexivity|discriminate]. }
  exists (plain_multi [r_speed]), s, [r_speed]. split; [reflexivity|]. split; [apply plain_multi_ok; [repeat constructor; cbn; lia|vm_compute; reflexivity]|].
  apply Forall2_cons; [exact speed_yields|apply Forall2_nil].
Qed.
Print Assumptions C84_embedded_refuted.
(** and if nothing follows, ReadMulti panics before it sends anything, as it does
    for a tag on a field that is not exported. *)
Theorem C84_embedded_last_panics : forall S (ctl : controller S) c otid q cs args fuel s n v t, t <> [] ->
  read_multi_args fuel ctl c s otid q cs args [MEmbed None true n v [Some t]] = (Panic, s, q).
Proof. intros S ctl c otid q cs args fuel s n v t Ne. destruct t as [|x t]; [congruence|]. reflexivity. Qed.
Print Assumptions C84_embedded_last_panics.
Theorem C84_unexported_panics : forall S (ctl : controller S) c otid q cs args fuel s t ty v, t <> [] ->
  read_multi_args fuel ctl c s otid q cs args [MField (Some t) false ty v] = (Panic, s, q).
Proof. intros S ctl c otid q cs args fuel s t ty v Ne. destruct t as [|x t]; [congruence|]. reflexivity. Qed.
Print Assumptions C84_unexported_panics.
