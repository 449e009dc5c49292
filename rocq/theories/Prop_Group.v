(** * Tag groups: C33, C34, C61 *)
From Coq Require Import Permutation.
From Verif Require Import GoBase SegModel IoiModel IoiSpec IoiProof TypesModel ReadModel ReadSpec ReadProof
  BatchModel BatchSpec BatchProof Prop_Batch GroupModel GroupSpec GroupProof.

(** ** C33 *)

(** Element counts: at least 1, otherwise as given; names and types as given. *)
Theorem C33_counts : forall defs,
  Forall2 (fun d e => df_name e = df_name d /\ df_type e = df_type d /\ df_elems e = Z.max 1 (df_elems d)) defs (new_tag_group defs).
Proof.
  intros defs. unfold new_tag_group. induction defs as [|d defs IH]; cbn [map]; [constructor|]. constructor; [|exact IH].
  unfold normalise. cbn [df_name df_type df_elems]. repeat split. destruct (Z.leb_spec (df_elems d) 0); lia.
Qed.
Print Assumptions C33_counts.
Example ex_C33_counts : new_tag_group [TagDef (str "a") 0xC4 0; TagDef (str "b") 0xC4 7; TagDef (str "c") 0xC4 (-2)]
  = [TagDef (str "a") 0xC4 1; TagDef (str "b") 0xC4 7; TagDef (str "c") 0xC4 1].
Proof. reflexivity. Qed.

(** Names: every numbered hole that has an argument is replaced by it, every
    occurrence, and nothing else changes - when no argument contains a brace. *)
Theorem C33_names_partial : forall ps args, Forall piece_ok ps -> Forall no_brace args ->
  format_name (template ps) args = concat (map (filled args) ps).
Proof. intros. now apply format_name_filled. Qed.
Print Assumptions C33_names_partial.
Definition ex_pieces : list piece := [Lit (str "Tank"); Hole 0; Lit (str ".Zone"); Hole 10; Hole 1; Lit (str "."); Hole 0].
Example ex_C33_names : Forall piece_ok ex_pieces /\ Forall no_brace [str "7"; str "Level"] /\
  template ex_pieces = str "Tank{0}.Zone{10}{1}.{0}" /\
  format_name (template ex_pieces) [str "7"; str "Level"] = str "Tank7.Zone{10}Level.7".
Proof.
  repeat split; try reflexivity; repeat apply Forall_cons; try apply Forall_nil; cbn; unfold no_brace; cbn; intuition discriminate.
Qed.
(** An argument with a placeholder in it is itself filled in. *)
Theorem C33_names_refuted : exists ps args, Forall piece_ok ps /\
  format_name (template ps) args <> concat (map (filled args) ps).
Proof.
  exists [Hole 0], [str "{1}"; str "x"]. split; [repeat constructor|]. vm_compute. discriminate.
Qed.
Print Assumptions C33_names_refuted.

(** Expansion: the n elements starting at the one named, in order; *)
Theorem C33_elements_partial : forall t n, valid_tag t -> element t -> 1 <= n ->
  expand_array (text t) n = map (fun k => text (bump t k)) (from 0 (Z.to_nat n)).
Proof. exact expand_elements. Qed.
Print Assumptions C33_elements_partial.
Definition ex_arr : tag := {| t_members := [{| m_name := str "Cell"; m_subs := [] |}; {| m_name := str "Temp"; m_subs := [4; 8] |}]; t_bit := None |}.
Example ex_C33_elements : valid_tag ex_arr /\ element ex_arr /\ text ex_arr = str "Cell.Temp[4,8]" /\
  expand_array (str "Cell.Temp[4,8]") 3 = [str "Cell.Temp[4,8]"; str "Cell.Temp[4,9]"; str "Cell.Temp[4,10]"].
Proof.
  split; [apply valid_tagb_sound; reflexivity|]. split; [split; [reflexivity|discriminate]|]. split; reflexivity.
Qed.
(** n different names. *)
Theorem C33_elements_distinct : forall t n, valid_tag t -> element t -> 1 <= n ->
  NoDup (expand_array (text t) n) /\ len (expand_array (text t) n) = n.
Proof.
  intros t n V E N. rewrite expand_elements by assumption. split.
  - assert (G : forall k a, 0 <= a -> NoDup (map (fun k => text (bump t k)) (from a k)) /\ forall x, In x (from a k) -> a <= x).
    { induction k as [|k IH]; intros a Ha; cbn [from map]; [split; [constructor|intros x []]|].
      destruct (IH (a + 1) ltac:(lia)) as [IH1 IH2]. split.
      - constructor; [|exact IH1]. rewrite in_map_iff. intros (x & Ex & Ix). apply IH2 in Ix. apply bump_inj in Ex; [lia|assumption..|lia|lia].
      - intros x [->|I]; [lia|]. apply IH2 in I. lia. }
    apply G. lia.
  - unfold len. rewrite map_length. assert (G : forall k a, length (from a k) = k) by (induction k as [|k IH]; intros a; cbn; [reflexivity|now rewrite IH]).
    rewrite G. lia.
Qed.
Print Assumptions C33_elements_distinct.
Example ex_C33_distinct : expand_array (str "A[9]") 2 = [str "A[9]"; str "A[10]"].
Proof. reflexivity. Qed.
(** The documented base[0]..base[n-1] for a name without a subscript does not
    happen: the name itself is repeated. *)
Theorem C33_plain_refuted : exists base n, 1 < n /\
  expand_array base n <> map (fun k => base ++ [91] ++ dec k ++ [93]) (from 0 (Z.to_nat n)) /\
  expand_array base n = repeat base (Z.to_nat n).
Proof. exists (str "Recipe"), 3. split; [lia|]. split; [vm_compute; discriminate|reflexivity]. Qed.
Print Assumptions C33_plain_refuted.

(** ** C34 *)

(** What each accessor is for. *)
Definition holds (r : result) (n : bytes) (h : held) : Prop := In (n, h) r.

Theorem C34_scalars : forall r n, NoDup (map fst r) ->
  (forall x, get_string r n = Ok x <-> holds r n (HVal (GStr x))) /\
  (forall x, get_bool r n = Ok x <-> holds r n (HVal (GBool x))) /\
  (forall x, get_int16 r n = Ok x <-> holds r n (HVal (GInt true 2 x))) /\
  (forall x, get_int32 r n = Ok x <-> holds r n (HVal (GInt true 4 x))) /\
  (forall x, get_float 4 r n = Ok x <-> holds r n (HVal (GFloat 4 x))) /\
  (forall x, get_float 8 r n = Ok x <-> holds r n (HVal (GFloat 8 x))).
Proof.
  intros r n N. unfold holds.
  assert (L := fun h => lookup_in r n h N).
  repeat split; intros H;
  first [ apply L in H; cbv [get_string get_bool get_int16 get_int32 get_float]; rewrite H; reflexivity
        | apply L; revert H; cbv [get_string get_bool get_int16 get_int32 get_float];
          destruct (lookup n r) as [[v|k l]|]; try discriminate;
          destruct v as [|sg w z|w z| | | | | |]; try discriminate;
          repeat match goal with
            | |- context [if ?b then _ else _] => destruct b eqn:?; try discriminate
            | |- context [match ?b with _ => _ end] => destruct b; try discriminate end;
          congruence
        | idtac ].
  - apply L. revert H. cbv [get_float]. destruct (lookup n r) as [[v|k l]|]; try discriminate.
    destruct v as [| |w z| | | | | |]; try discriminate. destruct (Nat.eqb_spec 4 w); [|discriminate]. intros [= ->]. now subst w.
  - apply L. revert H. cbv [get_float]. destruct (lookup n r) as [[v|k l]|]; try discriminate.
    destruct v as [| |w z| | | | | |]; try discriminate. destruct (Nat.eqb_spec 8 w); [|discriminate]. intros [= ->]. now subst w.
Qed.
Print Assumptions C34_scalars.
Definition ex_result : result :=
  [(str "Count", HVal (GInt true 4 (-5))); (str "Name", HVal (GStr (str "abc"))); (str "Temps", HVal (GList [GFloat 4 7; GFloat 4 9]));
   (str "Mix", HVal (GList [GInt true 4 1; GFloat 4 9])); (str "Ids", HSlice (KInt true 4) [GInt true 4 3])].
Example ex_C34 : NoDup (map fst ex_result) /\ get_int32 ex_result (str "Count") = Ok (-5) /\
  get_int16 ex_result (str "Count") = Err EMsg /\ get_string ex_result (str "Name") = Ok (str "abc") /\
  get_string ex_result (str "Nope") = Err EMsg.
Proof.
  split; [|repeat split]. cbn [map fst ex_result].
  repeat first [apply NoDup_nil | apply NoDup_cons; [cbn; intuition discriminate|]].
Qed.

(** Slices: []int32 or []any of int32s (as ReadMap returns), all of them. *)
Theorem C34_slices : forall r n, NoDup (map fst r) ->
  (forall xs, get_int32s r n = Ok xs <->
     (holds r n (HSlice (KInt true 4) (map (GInt true 4) xs)) \/ holds r n (HVal (GList (map (GInt true 4) xs))))) /\
  (forall xs, get_float32s r n = Ok xs <->
     (holds r n (HSlice (KFloat 4) (map (GFloat 4) xs)) \/ holds r n (HVal (GList (map (GFloat 4) xs))))).
Proof.
  intros r n N. unfold holds.
  assert (L := fun h => lookup_in r n h N).
  assert (A : forall l xs, map as_int32 l = map Some xs <-> l = map (GInt true 4) xs).
  { induction l as [|v l IH]; intros [|x xs]; cbn [map]; try (split; congruence). split.
    - intros E. injection E as E1 E2. apply IH in E2. subst l. f_equal. destruct v as [|sg w z| | | | | | |]; try discriminate.
      destruct sg; [|discriminate]. do 5 (destruct w as [|w]; try discriminate). injection E1 as ->. reflexivity.
    - intros E. injection E as -> E2. apply IH in E2. rewrite E2. reflexivity. }
  assert (B : forall l xs, map as_float32 l = map Some xs <-> l = map (GFloat 4) xs).
  { induction l as [|v l IH]; intros [|x xs]; cbn [map]; try (split; congruence). split.
    - intros E. injection E as E1 E2. apply IH in E2. subst l. f_equal. destruct v as [| |w z| | | | | |]; try discriminate.
      do 5 (destruct w as [|w]; try discriminate). injection E1 as ->. reflexivity.
    - intros E. injection E as -> E2. apply IH in E2. rewrite E2. reflexivity. }
  split; intros xs; unfold get_int32s, get_float32s, get_slice; rewrite <- !L; destruct (lookup n r) as [[v|k l]|];
    try (split; [discriminate|intros [?|?]; discriminate]).
  - destruct v; try (split; [discriminate|intros [?|?]; discriminate]). rewrite all_of_ok, A. split; [intros ->; now right|intros [?|E]; [discriminate|congruence]].
  - destruct (kind_is (KInt true 4) k) eqn:K.
    + assert (k = KInt true 4) as ->.
      { destruct k as [|s w| |]; try discriminate. cbn [kind_is] in K. apply andb_true_iff in K as [K1 K2].
        destruct s; [|discriminate]. apply Nat.eqb_eq in K2. now subst. }
      rewrite all_of_ok, A. split; [intros ->; now left|intros [E|?]; [congruence|discriminate]].
    + split; [discriminate|]. intros [E|E]; [|discriminate]. injection E as -> _. discriminate.
  - destruct v; try (split; [discriminate|intros [?|?]; discriminate]). rewrite all_of_ok, B. split; [intros ->; now right|intros [?|E]; [discriminate|congruence]].
  - destruct (kind_is (KFloat 4) k) eqn:K.
    + assert (k = KFloat 4) as ->.
      { destruct k as [| |w|]; try discriminate. cbn [kind_is] in K. apply Nat.eqb_eq in K. now subst. }
      rewrite all_of_ok, B. split; [intros ->; now left|intros [E|?]; [congruence|discriminate]].
    + split; [discriminate|]. intros [E|E]; [|discriminate]. injection E as -> _. discriminate.
Qed.
Print Assumptions C34_slices.
Example ex_C34_slices : get_float32s ex_result (str "Temps") = Ok [7; 9] /\ get_int32s ex_result (str "Mix") = Err EMsg /\
  get_int32s ex_result (str "Ids") = Ok [3] /\ get_int32s ex_result (str "Temps") = Err EMsg.
Proof. repeat split. Qed.

(** Uint32 also takes an int32 and converts it: *)
Theorem C34_uint32_partial : forall r n x, NoDup (map fst r) ->
  (get_uint32 r n = Ok x <-> (holds r n (HVal (GInt false 4 x)) \/ exists z, holds r n (HVal (GInt true 4 z)) /\ x = z mod 2 ^ 32)).
Proof.
  intros r n x N. unfold holds. assert (L := fun h => lookup_in r n h N).
  assert (E : (exists z, In (n, HVal (GInt true 4 z)) r /\ x = z mod 2 ^ 32) <-> (exists z, lookup n r = Some (HVal (GInt true 4 z)) /\ x = z mod 2 ^ 32)).
  { split; intros (z & H & Hx); exists z; (split; [now apply L|exact Hx]). }
  rewrite E, <- L. clear E L N. unfold get_uint32.
  destruct (lookup n r) as [[v|k l]|]; try (split; [discriminate|intros [?|(z & ? & ?)]; discriminate]).
  destruct v as [|sg w z| | | | | | |]; try (split; [discriminate|intros [?|(z' & ? & ?)]; discriminate]).
  destruct sg; do 5 (destruct w as [|w]; try (split; [discriminate|intros [?|(z' & ? & ?)]; discriminate])).
  - unfold uns. change (8 * Z.of_nat 4) with 32. split.
    + intros [= <-]. right. now exists z.
    + intros [E|(z' & E & ->)]; [discriminate|]. injection E as ->. reflexivity.
  - split; [intros [= ->]; now left|]. intros [E|(z' & E & _)]; congruence.
Qed.
Print Assumptions C34_uint32_partial.
(** so a negative number comes back as a large positive one, without an error. *)
Theorem C34_uint32_refuted : exists r n x, NoDup (map fst r) /\ get_uint32 r n = Ok x /\ ~ holds r n (HVal (GInt false 4 x)) /\
  holds r n (HVal (GInt true 4 (-5))) /\ x = 4294967291.
Proof.
  exists ex_result, (str "Count"), 4294967291. split; [apply ex_C34|]. split; [reflexivity|]. split; [|split; [now left|reflexivity]].
  unfold holds, ex_result. cbn [In]. intros H. repeat destruct H as [H|H]; try discriminate H. destruct H.
Qed.
Print Assumptions C34_uint32_refuted.
(** ** C61 *)

(** A definition this holds for: a supported type, not an array of BOOL.  (Arrays
    of WORD are read as DINT; what counts is the type in the reply.) *)
Definition plain_def (d : tag_def) (t : Z) : Prop :=
  1 <= df_elems d /\
  (go_type_of (df_type d) = Some t /\ (1 < df_elems d -> df_type d <> 0xC1 /\ df_type d <> 0xD2) \/
   df_type d = 0xD2 /\ 1 < df_elems d /\ t = 0xC4).

(** [defs] name the tags [w_tag] of the wishes [ws]; the wish's type is the Go type
    of the definition, its count the definition's.  If the controller answers with
    the values, the result has exactly each name's value - whatever order the map
    is walked in. *)
Theorem C61_group_read_partial : forall S (ctl : controller S) ops otid cs group args ws value fuel s q order,
  cs < 65535 ->
  Forall2 (fun d w => format_name (df_name d) args = text (w_tag w) /\ plain_def d (w_type w) /\ w_elems w = df_elems d /\ w_struct w = None) group ws ->
  NoDup (map (fun w => text (w_tag w)) ws) ->
  Forall (fun w => named ops (w_tag w)) ws -> Forall (fun w => 10 + len (encode (w_tag w)) <= cs) ws ->
  (forall l, Permutation l (order l)) ->
  (forall ws', Permutation ws ws' -> gives ctl otid (cs + 1) ws' value) -> (length ws < fuel)%nat ->
  exists r s' q', read_tag_group fuel ctl (cl_run ops) s otid q cs group args order = (Ok r, s', q') /\
                  Permutation (map (fun w => (text (w_tag w), value w)) ws) r.
Proof.
  intros S ctl ops otid cs group args ws value fuel s q order Hcs F2 Nd Nm Sz Ho Hg Hf.
  assert (K : map snd (group_keys group args) = map (desc zero_example) ws).
  { rewrite group_keys_distinct.
    - clear -F2. induction F2 as [|d w group ws H F2 IH]; [reflexivity|]. cbn [map]. rewrite IH. f_equal.
      destruct H as (Hn & (P2 & [(P1 & P3)|(P1 & P3 & P4)]) & He & Hs); rewrite Hn.
      + rewrite (zero_desc_wish d (w_tag w) (w_type w)) by assumption.
        rewrite <- He. destruct w as [tg t n st]. cbn in *. now subst st.
      + destruct w as [tg t n st], d as [nm dt de]. cbn in *. subst. unfold zero_desc, desc, zero_example, zero_type. cbn [w_tag w_type w_elems w_struct df_elems df_type].
        destruct (Z.ltb_spec 1 de); [reflexivity|lia].
    - assert (E : map (fun d => format_name (df_name d) args) group = map (fun w => text (w_tag w)) ws).
      { clear -F2. induction F2 as [|d w group ws H F2 IH]; [reflexivity|]. cbn [map]. rewrite IH. f_equal. apply H. }
      now rewrite E. }
  unfold read_tag_group. rewrite K. specialize (Ho (map (desc zero_example) ws)).
  apply Permutation_sym, Permutation_map_inv in Ho as (ws' & E & P). rewrite E.
  destruct (C21_map_read_partial S ctl ops zero_example otid cs ws' value fuel s q) as (s' & q' & R); [exact Hcs|..].
  - eapply Permutation_Forall; [|exact Nm]. now apply Permutation_sym.
  - eapply Permutation_Forall; [|exact Sz]. now apply Permutation_sym.
  - apply Hg. now apply Permutation_sym.
  - rewrite <- (Permutation_length P). exact Hf.
  - eexists _, s', q'. split; [exact R|]. apply Permutation_map. now apply Permutation_sym.
Qed.
Print Assumptions C61_group_read_partial.
Definition ex_group : list tag_def := [TagDef (str "Sp{0}") 0xC4 1].
Example ex_C61 : Forall2 (fun d w => format_name (df_name d) [str "eed"] = text (w_tag w) /\ plain_def d (w_type w) /\ w_elems w = df_elems d /\ w_struct w = None) ex_group [w_speed] /\
  (forall ws', Permutation [w_speed] ws' -> gives ex_plc 7 501 ws' ex_value) /\
  fst (fst (read_tag_group 2 ex_plc (cl_run []) tt 7 1 500 ex_group [str "eed"] (fun l => l))) = Ok [(str "Speed", GInt true 4 77)].
Proof.
  split; [|split].
  - apply Forall2_cons; [|constructor]. split; [reflexivity|]. split; [|split; reflexivity]. split; [cbn; lia|]. left. split; [reflexivity|cbn; lia].
  - intros ws' P. apply Permutation_length_1_inv in P. subst ws'. intros s q a l b E Ne B.
    apply (ex_plc_gives 501 s q a l (b ++ [w_label])); [|exact Ne|exact B].
    rewrite !app_assoc, <- (app_assoc a). rewrite <- E. reflexivity.
  - vm_compute. reflexivity.
Qed.
(** An array of BOOL: one element is asked for, however many the definition says. *)
Theorem C61_bool_array_refuted : exists group tg, group = [TagDef (text tg) 0xC1 8] /\ named [] tg /\
  snd (snd (fst (read_tag_group 2 (asked (fun (s : unit) _ => (Err EEof, s))) (cl_run []) (tt, []) 7 1 500 group [] (fun l => l))))
  = [multi_request 7 2 [read_service (Wish tg 0xC1 1 None)]] /\
  read_service (Wish tg 0xC1 1 None) <> read_service (Wish tg 0xC1 8 None).
Proof.
  exists [TagDef (str "Flags") 0xC1 8], (tag1 (str "Flags")). split; [reflexivity|]. split; [apply tag1_named; vm_compute; reflexivity|].
  split; [vm_compute; reflexivity|vm_compute; discriminate].
Qed.
Print Assumptions C61_bool_array_refuted.
