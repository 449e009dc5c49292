(** * Removing tags from a data table buffer: C109 *)
From Verif Require Import GoBase SegModel IoiModel IoiSpec IoiProof TypesModel ItemsModel ItemsSpec ItemsProof
  ReadModel ReadSpec ReadProof BatchSpec Prop_Batch AttrModel AttrSpec AttrProof Prop_Attr GroupModel GroupSpec GroupProof DataModel DataSpec DataProof Prop_Data
  DropSpec DropProof.

Section reads.
Context {S : Type}.
Variable ctl : controller S.
Variables (otid inst : Z) (rep : S -> list (list (option entry))) (mem : S -> bytes -> Z -> bytes).
Hypothesis D : removing_device ctl otid inst rep mem.
Variables (ops : list cl_op) (usize : bytes -> Z).

Lemma read_after {A} (f : Z -> bytes -> res A) (g : S -> tag * Z -> A) h os s q : rep s = [] -> Forall2 ddoes h os ->
  orderly (acceptable usize) h [] [] false -> Forall (slot_ok ops usize) (ever h) -> len (ever h) < 2 ^ 16 ->
  need usize (ever h) + 2 * len (ever h) < 60000 -> present h <> [] ->
  (forall s x, In x (present h) -> f (snd x) (mem s (encode (fst x)) (fst (slot_entry usize x))) = Ok (g s x)) ->
  exists rs u1 s1 q1 r u2 s2 q2, run ctl (cl_run ops) usize otid os (fresh inst) s q = (rs, u1, s1, q1) /\
    Forall2 (fun a r => match a with Drop _ => r = Ok tt | _ => True end) h rs /\
    read_with f ctl s1 otid q1 u1 = (Ok r, u2, s2, q2) /\ NoDup (map fst r) /\
    forall n, lookup n r = option_map (g s2) (latest n (present h)).
Proof.
  intros R0 Do P F L N Ne G.
  assert (I0 : dinv inst rep ops usize [] [] false (fresh inst) s).
  { split; [reflexivity|]. split; [reflexivity|]. split; [reflexivity|]. split; [now right|]. split; [constructor|]. split; [exact R0|]. split; [reflexivity|constructor]. }
  assert (Rm : room usize [] ([] ++ ever h)) by (unfold room; cbn [concat app keep map]; rewrite len_none; lia).
  destruct (dacts_run ctl otid inst rep mem D ops usize h os Do [] [] false _ s q I0 P (Forall_nil _) F Rm)
    as (rs & u1 & s1 & q1 & bs & p & d & E & I & Pa & Fp & Rm1 & Ec & X).
  change (keep (concat bs) ++ p = present h) in Ec. rewrite <- Ec in Ne, G.
  destruct (dread ctl otid inst rep mem D ops usize f bs p d u1 s1 q1 I Pa Fp Rm1 Ne) as (bs' & u2 & s2 & q2 & it & extra & Ec' & I' & _ & R & C & U).
  rewrite <- Ec' in G. assert (Hk : Forall (slot_ok ops usize) (keep (concat bs'))) by apply I'.
  assert (M : forall p n, 0 <= n -> len (mem s2 p n) = n) by (destruct D as (M & _); apply M).
  assert (Rd : read_slots f (alive_all usize 1 1 bs') 0 it [] = Ok (store (g s2) (keep (concat bs')) [])).
  { eapply (read_left ops usize f (mem s2) (g s2) M); [|lia|exact C|exact U].
    apply Forall_forall. intros x Ix. split; [now apply (proj1 (Forall_forall _ _) Hk)|]. now apply G. }
  eexists rs, u1, s1, q1, _, u2, s2, q2. split; [exact E|]. split; [exact X|]. split; [rewrite R, Rd; reflexivity|].
  split; [apply store_nodup; constructor|]. intros n. rewrite lookup_store, Ec', Ec. cbn [lookup].
  destruct (latest n (present h)); reflexivity.
Qed.
End reads.

(** ** C109 *)

(** After adding tags, announcing them, reading, and removing tags the controller
    knows (adding none after the first removal), every removal succeeded and
    ReadAllRaw gives exactly the tags still there their bytes. *)
Theorem C109_raw_partial : forall S (ctl : controller S) otid inst rep mem ops usize h os s q,
  removing_device ctl otid inst rep mem -> rep s = [] -> Forall2 ddoes h os ->
  orderly (acceptable usize) h [] [] false -> Forall (slot_ok ops usize) (ever h) -> len (ever h) < 2 ^ 16 ->
  need usize (ever h) + 2 * len (ever h) < 60000 -> present h <> [] ->
  exists rs u1 s1 q1 r u2 s2 q2, run ctl (cl_run ops) usize otid os (fresh inst) s q = (rs, u1, s1, q1) /\
    Forall2 (fun a r => match a with Drop _ => r = Ok tt | _ => True end) h rs /\
    read_all_raw ctl s1 otid q1 u1 = (Ok r, u2, s2, q2) /\ NoDup (map fst r) /\
    forall n, lookup n r = option_map (fun x => mem s2 (encode (fst x)) (fst (slot_entry usize x))) (latest n (present h)).
Proof.
  intros S ctl otid inst rep mem ops usize h os s q D R0 Do P F L N Ne.
  exact (read_after ctl otid inst rep mem D ops usize (fun _ raw => Ok raw) (fun s x => mem s (encode (fst x)) (fst (slot_entry usize x))) h os s q R0 Do P F L N Ne (fun _ _ _ => eq_refl)).
Qed.
Print Assumptions C109_raw_partial.

(** ReadAll, the same with the values those bytes stand for. *)
Theorem C109_values_partial : forall S (ctl : controller S) otid inst rep mem ops usize h os s q value,
  removing_device ctl otid inst rep mem -> rep s = [] -> Forall2 ddoes h os ->
  orderly (acceptable usize) h [] [] false -> Forall (slot_ok ops usize) (ever h) -> len (ever h) < 2 ^ 16 ->
  need usize (ever h) + 2 * len (ever h) < 60000 -> present h <> [] ->
  (forall s x, In x (present h) -> shown (snd x) (mem s (encode (fst x)) (fst (slot_entry usize x))) (value s x)) ->
  exists rs u1 s1 q1 r u2 s2 q2, run ctl (cl_run ops) usize otid os (fresh inst) s q = (rs, u1, s1, q1) /\
    Forall2 (fun a r => match a with Drop _ => r = Ok tt | _ => True end) h rs /\
    read_all ctl s1 otid q1 u1 = (Ok r, u2, s2, q2) /\ NoDup (map fst r) /\
    forall n, lookup n r = option_map (value s2) (latest n (present h)).
Proof.
  intros S ctl otid inst rep mem ops usize h os s q value D R0 Do P F L N Ne V.
  apply (read_after ctl otid inst rep mem D ops usize decode_table value h os s q R0 Do P F L N Ne).
  intros s' x Ix. apply decode_shown. now apply V.
Qed.
Print Assumptions C109_values_partial.

(** ** A controller that removes *)
Definition ex_drop (mem : bytes -> Z -> bytes) (s : list (list (option entry))) (req : bytes) : res (Z * bytes) * list (list (option entry)) :=
  let svc := nth 22 req 0 in
  if svc =? 0x4E then (Ok (0, plain_reply 0xCE 0 0 (le 2 (len s + 1))), s ++ [map Some (parse_entries (Z.to_nat (nth 34 req 0)) (skipn 35 req))])
  else if svc =? 0x4C then (Ok (0, plain_reply 0xCC 0 0 (layout_left mem 1 s)), s)
  else match nth_error (concat s) (Z.to_nat (unle (firstn 2 (skipn 30 req)) - 1)) with
  | Some (Some _) => (Ok (0, plain_reply 0xCF 0 0 []), wipe (Z.to_nat (unle (firstn 2 (skipn 30 req)) - 1)) s)
  | _ => (Ok (0, plain_reply 0xCF 0 5 []), s)
  end.
Lemma layout_left_len mem : (forall p n, 0 <= n -> len (mem p n) = n) -> forall s k, Forall (Forall entry_ok) (map keep s) -> len (layout_left mem k s) <= total (map keep s).
Proof.
  intros M. induction s as [|l s IH]; intros k F; [cbn; lia|]. inversion_clear F as [|? ? F1 F2].
  cbn [layout_left map]. specialize (IH (k + 1) F2). unfold total. cbn [fold_right]. fold (total (map keep s)). rewrite len_app.
  assert (X : forall es, Forall entry_ok es -> len (concat (map (fun e => mem (snd e) (fst e)) es)) = fold_right (fun e y => fst e + y) 0 es).
  { clear -M. induction 1 as [|e es H F IH]; [reflexivity|]. cbn [map concat fold_right]. rewrite len_app, M, IH by apply H. reflexivity. }
  specialize (X _ F1). rewrite <- X. destruct (keep l) as [|e es].
  - cbn [map concat]. rewrite !len_none. lia.
  - cbn [map]. rewrite len_app, le_len. lia.
Qed.
Lemma ex_drop_device mem inst : (forall p n, 0 <= n -> len (mem p n) = n) -> removing_device (ex_drop mem) 7 inst (fun s => s) (fun _ => mem).
Proof.
  intros M. split; [intros _ p n H; now apply M|]. split; [|split].
  - intros s q es Ne L F Ls. eexists _, _. split; [|split; [apply plain_reply_ok; rewrite le_len; lia|]].
    + unfold ex_drop. change (nth 22 (object_request 7 q 0x4E (buffer_path inst) (add_data es)) 0) with 0x4E. cbn [Z.eqb Pos.eqb]. reflexivity.
    + f_equal. f_equal. f_equal.
      change (nth 34 (object_request 7 q 0x4E (buffer_path inst) (add_data es)) 0) with (len es).
      change (skipn 35 (object_request 7 q 0x4E (buffer_path inst) (add_data es))) with (concat (map (fun e => le 2 (fst e) ++ [len (snd e) / 2] ++ snd e) es) ++ []).
      rewrite app_nil_r. unfold len at 1. rewrite Nat2Z.id. now apply parse_entries_ok.
  - intros s q F T. eexists _, s, []. split; [|split; [|reflexivity]].
    + unfold ex_drop. change (nth 22 (object_request 7 q 0x4C (buffer_path inst) []) 0) with 0x4C. cbn [Z.eqb Pos.eqb]. reflexivity.
    + rewrite app_nil_r. apply plain_reply_ok. pose proof (layout_left_len mem M s 1 F). lia.
  - intros s q k e Hk H. eexists _, _, []. split; [|split; [apply plain_reply_ok; reflexivity|]].
    + unfold ex_drop. change (nth 22 (object_request 7 q 0x4F (buffer_path inst) (le 2 (Z.of_nat k + 1))) 0) with 0x4F. cbn [Z.eqb Pos.eqb].
      change (firstn 2 (skipn 30 (object_request 7 q 0x4F (buffer_path inst) (le 2 (Z.of_nat k + 1))))) with (le 2 (Z.of_nat k + 1)).
      rewrite unle_le_small by (change (8 * Z.of_nat 2) with 16; lia). replace (Z.to_nat (Z.of_nat k + 1 - 1)) with k by lia. rewrite H. reflexivity.
    + reflexivity.
Qed.

Definition ab : tag * Z := (tag1 (str "ab"), 0xC3).
Definition cd : tag * Z := (tag1 (str "cd"), 0xC3).
Definition ef : tag * Z := (tag1 (str "ef"), 0xC3).
Definition gh : tag * Z := (tag1 (str "gh"), 0xC3).
Definition drop_hist : list dact := [Do (Put [ab]); Do (Put [cd; ef]); Do Send; Do (Put [gh]); Do Look; Drop (str "cd"); Do Look; Drop (str "ab")].
Definition drop_ops : list op := [OAdd (str "ab") 0xC3; OAddMap [(str "cd", 0xC3); (str "ef", 0xC3)]; OSync; OAdd (str "gh") 0xC3; ORead; ORemove (str "cd"); OReadRaw; ORemove (str "ab")].
Definition drop_value (s : list (list (option entry))) (x : tag * Z) : gval :=
  if bseq (text (fst x)) (str "ef") then GInt true 2 26213 else GInt true 2 26727.
Lemma drop_slots_ok : Forall (slot_ok [] no_udt) (ever drop_hist).
Proof.
  repeat (apply Forall_cons; [split; [apply tag1_named; vm_compute; reflexivity|eexists; split; [reflexivity|lia]]|]). apply Forall_nil.
Qed.
Example ex_C109 : removing_device (ex_drop ex_mem) 7 9 (fun s => s) (fun _ => ex_mem) /\ Forall2 ddoes drop_hist drop_ops /\
  orderly (acceptable no_udt) drop_hist [] [] false /\ Forall (slot_ok [] no_udt) (ever drop_hist) /\
  need no_udt (ever drop_hist) + 2 * len (ever drop_hist) < 60000 /\ present drop_hist = [ef; gh] /\
  (forall s x, In x (present drop_hist) -> shown (snd x) (ex_mem (encode (fst x)) (fst (slot_entry no_udt x))) (drop_value s x)) /\
  (let '(_, u1, s1, q1) := run (ex_drop ex_mem) (cl_run []) no_udt 7 drop_ops (fresh 9) [] 1 in
   fst (fst (fst (read_all_raw (ex_drop ex_mem) s1 7 q1 u1))) = Ok [(str "ef", str "ef"); (str "gh", str "gh")] /\
   fst (fst (fst (read_all (ex_drop ex_mem) s1 7 q1 u1))) = Ok [(str "ef", GInt true 2 26213); (str "gh", GInt true 2 26727)]).
Proof.
  split; [apply ex_drop_device, ex_mem_len|]. split; [|split; [|split; [exact drop_slots_ok|split; [vm_compute; reflexivity|split; [reflexivity|split]]]]].
  - repeat apply Forall2_cons; try apply Forall2_nil; try apply ddoes_drop; apply ddoes_act.
    + exact (does_one ab).
    + exact (does_map [cd; ef]).
    + constructor.
    + exact (does_one gh).
    + constructor.
    + constructor.
  - assert (A1 : acceptable no_udt [ab; cd; ef]) by (split; vm_compute; reflexivity).
    assert (A2 : acceptable no_udt [gh]) by (split; vm_compute; reflexivity).
    cbn [orderly drop_hist app]. split; [discriminate|]. split; [reflexivity|]. split; [discriminate|]. split; [reflexivity|]. split; [discriminate|]. split; [exact A1|].
    split; [discriminate|]. split; [reflexivity|]. split; [right; exact A2|]. split; [right; left; reflexivity|]. split; [now left|]. split; [left; reflexivity|]. now left.
  - intros s x Ix. destruct Ix as [<-|[<-|[]]]; (apply sh_value; [|discriminate..]).
    + change (ex_mem _ _) with (le 2 26213). apply (enc_int 0xC3 true 2); [reflexivity|unfold in_range; lia].
    + change (ex_mem _ _) with (le 2 26727). apply (enc_int 0xC3 true 2); [reflexivity|unfold in_range; lia].
  - vm_compute. split; reflexivity.
Qed.

(** Not in general.  Indices are counted from the number of tags in the buffer, so
    a tag added after removals takes an index that is in use, or one below it. *)

(** Three tags, two removed, one added: all calls succeed, and the reading gives
    the new tag the value of the old one and the other way round. *)
Definition swap_hist : list dact := [Do (Put [ab; cd; ef]); Do Send; Drop (str "ab"); Drop (str "cd"); Do (Put [gh]); Do Send].
Definition swap_ops : list op := [OAddMap [(str "ab", 0xC3); (str "cd", 0xC3); (str "ef", 0xC3)]; OSync; ORemove (str "ab"); ORemove (str "cd"); OAdd (str "gh") 0xC3; OSync].
Theorem C109_refuted : exists S (ctl : controller S) otid inst rep mem ops usize h os s q,
  removing_device ctl otid inst rep mem /\ rep s = [] /\ Forall2 ddoes h os /\ Forall (slot_ok ops usize) (ever h) /\ len (ever h) < 2 ^ 16 /\
  need usize (ever h) + 2 * len (ever h) < 60000 /\
  exists rs u1 s1 q1 r u2 s2 q2 x y, run ctl (cl_run ops) usize otid os (fresh inst) s q = (rs, u1, s1, q1) /\ Forall (fun r => r = Ok tt) rs /\
    read_all_raw ctl s1 otid q1 u1 = (Ok r, u2, s2, q2) /\ present h = [x; y] /\
    lookup (text (fst x)) r = Some (mem s2 (encode (fst y)) 2) /\ lookup (text (fst y)) r = Some (mem s2 (encode (fst x)) 2) /\
    mem s2 (encode (fst x)) 2 <> mem s2 (encode (fst y)) 2.
Proof.
  exists (list (list (option entry))), (ex_drop ex_mem), 7, 9, (fun s => s), (fun _ => ex_mem), [], no_udt, swap_hist, swap_ops, [], 1.
  split; [apply ex_drop_device, ex_mem_len|]. split; [reflexivity|]. split.
  { apply Forall2_cons; [exact (ddoes_act _ _ (does_map [ab; cd; ef]))|]. apply Forall2_cons; [exact (ddoes_act _ _ does_send)|].
    apply Forall2_cons; [apply ddoes_drop|]. apply Forall2_cons; [apply ddoes_drop|].
    apply Forall2_cons; [exact (ddoes_act _ _ (does_one gh))|]. apply Forall2_cons; [exact (ddoes_act _ _ does_send)|]. constructor. }
  split; [exact drop_slots_ok|]. split; [vm_compute; reflexivity|]. split; [vm_compute; reflexivity|].
  eexists _, _, _, _, _, _, _, _, ef, gh. split; [vm_compute; reflexivity|]. split; [repeat constructor|]. split; [vm_compute; reflexivity|].
  split; [reflexivity|]. split; [vm_compute; reflexivity|]. split; [vm_compute; reflexivity|]. vm_compute. discriminate.
Qed.
Print Assumptions C109_refuted.

(** Three tags, one removed, one added and removed again: all calls succeed, but the
    controller dropped the third tag instead of the added one, and the reading does not give
    the third tag its bytes (here: those of a batch number, without an error). *)
Definition wrong_hist : list dact := [Do (Put [ab; cd; ef]); Do Send; Drop (str "ab"); Do (Put [gh]); Do Send; Drop (str "gh")].
Definition wrong_ops : list op := [OAddMap [(str "ab", 0xC3); (str "cd", 0xC3); (str "ef", 0xC3)]; OSync; ORemove (str "ab"); OAdd (str "gh") 0xC3; OSync; ORemove (str "gh")].
Theorem C109_wrong_tag_refuted : exists S (ctl : controller S) otid inst rep mem ops usize h os s q,
  removing_device ctl otid inst rep mem /\ rep s = [] /\ Forall2 ddoes h os /\ Forall (slot_ok ops usize) (ever h) /\ len (ever h) < 2 ^ 16 /\
  need usize (ever h) + 2 * len (ever h) < 60000 /\
  exists rs u1 s1 q1 x y z, run ctl (cl_run ops) usize otid os (fresh inst) s q = (rs, u1, s1, q1) /\ Forall (fun r => r = Ok tt) rs /\
    present h = [x; y] /\ keep (concat (rep s1)) = map (slot_entry usize) [x; z] /\ slot_entry usize z <> slot_entry usize y /\
    ~ exists r, fst (fst (fst (read_all_raw ctl s1 otid q1 u1))) = Ok r /\ lookup (text (fst y)) r = Some (mem s1 (encode (fst y)) 2).
Proof.
  exists (list (list (option entry))), (ex_drop ex_mem), 7, 9, (fun s => s), (fun _ => ex_mem), [], no_udt, wrong_hist, wrong_ops, [], 1.
  split; [apply ex_drop_device, ex_mem_len|]. split; [reflexivity|]. split.
  { apply Forall2_cons; [exact (ddoes_act _ _ (does_map [ab; cd; ef]))|]. apply Forall2_cons; [exact (ddoes_act _ _ does_send)|].
    apply Forall2_cons; [apply ddoes_drop|]. apply Forall2_cons; [exact (ddoes_act _ _ (does_one gh))|]. apply Forall2_cons; [exact (ddoes_act _ _ does_send)|].
    apply Forall2_cons; [apply ddoes_drop|]. constructor. }
  split; [exact drop_slots_ok|]. split; [vm_compute; reflexivity|]. split; [vm_compute; reflexivity|].
  eexists _, _, _, _, cd, ef, gh. split; [vm_compute; reflexivity|]. split; [repeat constructor|]. split; [reflexivity|]. split; [vm_compute; reflexivity|].
  split; [vm_compute; discriminate|]. intros (r & E & L). vm_compute in E. injection E as <-. vm_compute in L. discriminate.
Qed.
Print Assumptions C109_wrong_tag_refuted.

(** A tag the controller was not told of yet cannot be removed when no other has
    its index: the request fails and the tag stays. *)
Theorem C109_unsent_refuted : exists S (ctl : controller S) otid inst rep mem ops usize h os s q n,
  removing_device ctl otid inst rep mem /\ rep s = [] /\ Forall2 ddoes h os /\ Forall (slot_ok ops usize) (ever h) /\
  exists rs u1 s1 q1 e u2 s2 q2, run ctl (cl_run ops) usize otid os (fresh inst) s q = (rs, u1, s1, q1) /\
    In n (map (fun x => text (fst x)) (present h)) /\ remove_tag ctl s1 otid q1 u1 n = (Err e, u2, s2, q2) /\ u2 = u1.
Proof.
  exists (list (list (option entry))), (ex_drop ex_mem), 7, 9, (fun s => s), (fun _ => ex_mem), [], no_udt, [Do (Put [ab])], [OAdd (str "ab") 0xC3], [], 1, (str "ab").
  split; [apply ex_drop_device, ex_mem_len|]. split; [reflexivity|]. split; [apply Forall2_cons; [exact (ddoes_act _ _ (does_one ab))|constructor]|].
  split; [pose proof drop_slots_ok as H; inversion_clear H as [|? ? H1 H2]; exact (Forall_cons _ H1 (Forall_nil _))|].
  eexists _, _, _, _, _, _, _, _. split; [vm_compute; reflexivity|]. split; [left; reflexivity|]. split; [vm_compute; reflexivity|reflexivity].
Qed.
Print Assumptions C109_unsent_refuted.
