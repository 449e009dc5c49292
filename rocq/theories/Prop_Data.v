(** * Data table buffers: C30, C31, C32, C62 *)
From Coq Require Import Permutation.
From Verif Require Import GoBase SegModel IoiModel IoiSpec IoiProof TypesModel ItemsModel ItemsSpec ItemsProof
  ReadModel ReadSpec ReadProof BatchSpec Prop_Batch AttrModel AttrSpec AttrProof Prop_Attr GroupModel GroupSpec GroupProof DataModel DataSpec DataProof.

(** A buffer as NewDataTableBuffer returns it. *)
Definition fresh (inst : Z) : buf := Buf inst [] [] true false.

(** ** A controller with such a buffer, for the examples *)
Fixpoint parse_entries (n : nat) (b : bytes) : list entry :=
  match n with
  | O => []
  | Datatypes.S k =>
      let w := Z.to_nat (2 * nth 2 b 0) in
      (unle (firstn 2 b), firstn w (skipn 3 b)) :: parse_entries k (skipn (3 + w) b)
  end.
Definition ex_table (mem : bytes -> Z -> bytes) (s : list (list entry)) (req : bytes) : res (Z * bytes) * list (list entry) :=
  let svc := nth 22 req 0 in
  if svc =? 0x4E then (Ok (0, plain_reply 0xCE 0 0 (le 2 (len s + 1))), s ++ [parse_entries (Z.to_nat (nth 34 req 0)) (skipn 35 req)])
  else if svc =? 0x4C then (Ok (0, plain_reply 0xCC 0 0 (layout mem 1 s)), s)
  else (Ok (0, plain_reply (svc + 128) 0 0 (le 2 9)), s).
Lemma parse_entries_ok es : Forall entry_ok es ->
  parse_entries (length es) (concat (map (fun e => le 2 (fst e) ++ [len (snd e) / 2] ++ snd e) es)) = es.
Proof.
  induction 1 as [|[z p] es (Hz & He & Hl) F IH]; [reflexivity|]. cbn [map concat length parse_entries fst snd] in *.
  set (rest := concat _) in *. cbn [le app]. cbn [app nth firstn skipn].
  assert (E : Z.to_nat (2 * (len p / 2)) = length p).
  { apply Zeven_bool_iff in He. apply Zeven_ex in He as [m Hm]. unfold len in *. rewrite Hm. replace (2 * m / 2) with m by (Z.to_euclidean_division_equations; lia). lia. }
  rewrite E. cbn [plus skipn]. rewrite firstn_app, firstn_all, Nat.sub_diag. cbn [firstn]. rewrite app_nil_r.
  rewrite skipn_app, skipn_all, Nat.sub_diag. cbn [app skipn]. rewrite IH. f_equal. f_equal.
  change [z mod 256; z / 256 mod 256] with (le 2 z). rewrite unle_le_small; [reflexivity|]. change (8 * Z.of_nat 2) with 16. exact Hz.
Qed.
Lemma layout_len mem : (forall p n, 0 <= n -> len (mem p n) = n) -> forall s k, Forall (Forall entry_ok) s -> len (layout mem k s) = total s.
Proof.
  intros M. induction s as [|es s IH]; intros k F; [reflexivity|]. inversion_clear F as [|? ? F1 F2].
  cbn [layout]. rewrite !len_app, le_len, IH by exact F2. unfold total. cbn [fold_right]. change (Z.of_nat 2) with 2.
  assert (X : len (concat (map (fun e => mem (snd e) (fst e)) es)) = fold_right (fun e y => fst e + y) 0 es).
  { clear -F1 M. induction F1 as [|e es H F IH]; [reflexivity|]. cbn [map concat fold_right]. rewrite len_app, M, IH by apply H. reflexivity. }
  rewrite X. lia.
Qed.

Lemma ex_table_device mem inst : (forall p n, 0 <= n -> len (mem p n) = n) -> table_device (ex_table mem) 7 inst (fun s => s) (fun _ => mem).
Proof.
  intros M. split; [intros _ p n H; now apply M|]. split.
  - intros s q es Ne L F Ls. eexists _, _. split; [|split; [apply plain_reply_ok; rewrite le_len; lia|]].
    + unfold ex_table. change (nth 22 (object_request 7 q 0x4E (buffer_path inst) (add_data es)) 0) with 0x4E. cbn [Z.eqb Pos.eqb]. reflexivity.
    + f_equal. f_equal.
      change (nth 34 (object_request 7 q 0x4E (buffer_path inst) (add_data es)) 0) with (len es).
      change (skipn 35 (object_request 7 q 0x4E (buffer_path inst) (add_data es))) with (concat (map (fun e => le 2 (fst e) ++ [len (snd e) / 2] ++ snd e) es) ++ []).
      rewrite app_nil_r. unfold len at 1. rewrite Nat2Z.id. now apply parse_entries_ok.
  - intros s q F T. eexists _, s, []. split; [|split; [|reflexivity]].
    + unfold ex_table. change (nth 22 (object_request 7 q 0x4C (buffer_path inst) []) 0) with 0x4C. cbn [Z.eqb Pos.eqb]. reflexivity.
    + rewrite app_nil_r. apply plain_reply_ok. rewrite layout_len by assumption. exact T.
Qed.

(** ** C31 *)

(** A fresh buffer: what NewDataTableBuffer returns when the controller creates
    instance [inst]. *)
Theorem C31_created : forall S (ctl : controller S) s s1 otid q x p inst rest,
  ctl s (object_request otid q 0x08 [0x20; 0xB2; 0x25; 0; 0; 0] [1; 0; 3; 0; 3; 0]) = (Ok (x, p), s1) ->
  reply p 0x88 0 0 (le 2 inst ++ rest) -> 0 <= inst < 2 ^ 16 -> new_buffer ctl s otid q = (Ok (fresh inst), s1, q + 1).
Proof.
  intros S ctl s s1 otid q x p inst rest E R Hi. unfold new_buffer. change (table_path 0) with [0x20; 0xB2; 0x25; 0; 0; 0].
  destruct (generic_ok ctl s s1 otid q 0x08 [0x20; 0xB2; 0x25; 0; 0; 0] [1; 0; 3; 0; 3; 0] x p 0x88 _ eq_refl eq_refl E R ltac:(lia) eq_refl) as (it & G & C & U).
  rewrite G. unfold reply_word. rewrite item_uint_fits; [|exact C|lia|rewrite U, app_length, le_length; lia]. rewrite U. cbn [fst].
  change (firstn 2 (le 2 inst ++ rest)) with (le 2 inst).
  rewrite unle_le_small by exact Hi. reflexivity.
Qed.
Print Assumptions C31_created.
Example ex_C31_created : fst (fst (new_buffer (ex_table (fun _ n => zeros (Z.to_nat n))) [] 7 1)) = Ok (fresh 9).
Proof. vm_compute. reflexivity. Qed.

(** After any history of adding tags (one by one or several at once), announcing
    them and reading, ReadAllRaw hands every name the bytes the controller holds for
    it; a name added more than once has the size of the last addition. *)
Theorem C31_raw_partial : forall S (ctl : controller S) otid inst rep mem ops usize h os s q,
  table_device ctl otid inst rep mem -> rep s = [] -> Forall2 does h os ->
  paced (acceptable usize) h [] -> Forall (slot_ok ops usize) (added h) -> len (added h) < 2 ^ 16 -> need usize (added h) < 60000 ->
  added h <> [] ->
  exists rs u1 s1 q1 r u2 s2 q2, run ctl (cl_run ops) usize otid os (fresh inst) s q = (rs, u1, s1, q1) /\
    read_all_raw ctl s1 otid q1 u1 = (Ok r, u2, s2, q2) /\ NoDup (map fst r) /\
    forall n, lookup n r = option_map (fun x => mem s2 (encode (fst x)) (fst (slot_entry usize x))) (latest n (added h)).
Proof.
  intros S ctl otid inst rep mem ops usize h os s q D R0 Do P F L N Ne.
  assert (I0 : inv inst rep usize [] [] (fresh inst) s) by (split; [reflexivity|split; [reflexivity|split; [reflexivity|split; [now right|split; [constructor|exact R0]]]]]).
  destruct (acts_run ctl otid inst rep mem D ops usize h os Do [] [] _ s q I0 P F L N) as (rs & u1 & s1 & q1 & bs & p & E & I & Pa & Ec & _).
  cbn [concat app] in Ec. rewrite <- Ec in F, L, N, Ne.
  destruct (read_step ctl otid inst rep mem D ops usize (fun _ raw => Ok raw) bs p u1 s1 q1 I Pa F L N Ne) as (bs' & u2 & s2 & q2 & it & extra & Ec' & I' & _ & _ & R & C & U).
  rewrite <- Ec' in *. destruct D as (M & _).
  set (g := fun x => mem s2 (encode (fst x)) (fst (slot_entry usize x))).
  assert (Rd : read_slots (fun _ raw => Ok raw) (built_all usize 1 1 bs') (1 - 1) it [] = Ok (store g (concat bs') [])).
  { eapply (read_batches_ok ops usize _ (mem s2)); [now apply M| |lia| |exact C|exact U].
    - assert (Nb : Forall (fun l => l <> []) bs') by apply I'. clear -F Nb. induction bs' as [|l bs' IH]; [constructor|].
      cbn [concat] in F. apply Forall_app in F as [F1 F2]. inversion_clear Nb as [|? ? N1 N2]. constructor; [|now apply IH].
      split; [exact N1|]. split; [exact F1|]. apply Forall_forall. intros x _. reflexivity.
    - assert (X := batches_fewer bs' ltac:(apply I')). lia. }
  eexists rs, u1, s1, q1, _, u2, s2, q2. split; [exact E|]. split; [unfold read_all_raw; rewrite R; change 0 with (1 - 1) at 1; rewrite Rd; reflexivity|].
  split; [apply store_nodup; constructor|]. intros n. rewrite lookup_store, Ec. cbn [lookup].
  destruct (latest n (added h)); reflexivity.
Qed.
Print Assumptions C31_raw_partial.

(** ReadAll, the same with the values those bytes stand for. *)
Theorem C31_values_partial : forall S (ctl : controller S) otid inst rep mem ops usize h os s q value,
  table_device ctl otid inst rep mem -> rep s = [] -> Forall2 does h os ->
  paced (acceptable usize) h [] -> Forall (slot_ok ops usize) (added h) -> len (added h) < 2 ^ 16 -> need usize (added h) < 60000 ->
  added h <> [] ->
  (forall s x, In x (added h) -> shown (snd x) (mem s (encode (fst x)) (fst (slot_entry usize x))) (value s x)) ->
  exists rs u1 s1 q1 r u2 s2 q2, run ctl (cl_run ops) usize otid os (fresh inst) s q = (rs, u1, s1, q1) /\
    read_all ctl s1 otid q1 u1 = (Ok r, u2, s2, q2) /\ NoDup (map fst r) /\
    forall n, lookup n r = option_map (value s2) (latest n (added h)).
Proof.
  intros S ctl otid inst rep mem ops usize h os s q value D R0 Do P F L N Ne V.
  assert (I0 : inv inst rep usize [] [] (fresh inst) s) by (split; [reflexivity|split; [reflexivity|split; [reflexivity|split; [now right|split; [constructor|exact R0]]]]]).
  destruct (acts_run ctl otid inst rep mem D ops usize h os Do [] [] _ s q I0 P F L N) as (rs & u1 & s1 & q1 & bs & p & E & I & Pa & Ec & _).
  cbn [concat app] in Ec. rewrite <- Ec in F, L, N, Ne, V.
  destruct (read_step ctl otid inst rep mem D ops usize decode_table bs p u1 s1 q1 I Pa F L N Ne) as (bs' & u2 & s2 & q2 & it & extra & Ec' & I' & _ & _ & R & C & U).
  rewrite <- Ec' in *. destruct D as (M & _).
  assert (Rd : read_slots decode_table (built_all usize 1 1 bs') (1 - 1) it [] = Ok (store (value s2) (concat bs') [])).
  { eapply (read_batches_ok ops usize _ (mem s2)); [now apply M| |lia| |exact C|exact U].
    - assert (Nb : Forall (fun l => l <> []) bs') by apply I'. specialize (V s2). clear -F Nb V. induction bs' as [|l bs' IH]; [constructor|].
      cbn [concat] in F. apply Forall_app in F as [F1 F2]. inversion_clear Nb as [|? ? N1 N2]. constructor.
      + split; [exact N1|]. split; [exact F1|]. apply Forall_forall. intros x Ix.
        apply decode_shown. apply V. cbn [concat]. apply in_or_app. now left.
      + apply IH; [exact F2| |exact N2]. intros x Ix. apply V. cbn [concat]. apply in_or_app. now right.
    - assert (X := batches_fewer bs' ltac:(apply I')). lia. }
  eexists rs, u1, s1, q1, _, u2, s2, q2. split; [exact E|]. split; [unfold read_all; rewrite R; change 0 with (1 - 1) at 1; rewrite Rd; reflexivity|].
  split; [apply store_nodup; constructor|]. intros n. rewrite lookup_store, Ec. cbn [lookup].
  destruct (latest n (added h)); reflexivity.
Qed.
Print Assumptions C31_values_partial.

(** An example: the controller's memory holds, at every path, the path without
    its first two bytes. *)
Definition ex_mem (p : bytes) (n : Z) : bytes := fit (Z.to_nat n) (skipn 2 p).
Lemma fit_len n l : len (fit n l) = Z.of_nat n.
Proof. unfold len. now rewrite fit_length. Qed.
Lemma ex_mem_len p n : 0 <= n -> len (ex_mem p n) = n.
Proof. intros H. unfold ex_mem. rewrite fit_len. lia. Qed.
Definition no_udt (n : bytes) : Z := 0.
Definition ex_hist : list act := [Put [(tag1 (str "ab"), 0xC3)]; Put [(tag1 (str "Speed"), 0xC4); (tag1 (str "x"), 0xC2)]; Send; Put [(tag1 (str "cd"), 0xC7)]; Look; Put [(tag1 (str "ab"), 0xC2)]].
Definition ex_ops : list op := [OAdd (str "ab") 0xC3; OAddMap [(str "Speed", 0xC4); (str "x", 0xC2)]; OSync; OAdd (str "cd") 0xC7; ORead; OAdd (str "ab") 0xC2].
Definition ex_value31 (s : list (list entry)) (x : tag * Z) : gval :=
  match snd x with 0xC3 => GInt true 2 25185 | 0xC4 => GInt true 4 1701146739 | 0xC7 => GInt false 2 25699
  | _ => match len (encode (fst x)) with 4 => if bseq (text (fst x)) (str "x") then GInt true 1 120 else GInt true 1 97 | _ => GNil end end.
Lemma ex_slots_ok : Forall (slot_ok [] no_udt) (added ex_hist).
Proof.
  repeat (apply Forall_cons; [split; [apply tag1_named; vm_compute; reflexivity|eexists; split; [reflexivity|lia]]|]). apply Forall_nil.
Qed.
Example ex_C31 : table_device (ex_table ex_mem) 7 9 (fun s => s) (fun _ => ex_mem) /\ Forall2 does ex_hist ex_ops /\
  paced (acceptable no_udt) ex_hist [] /\ Forall (slot_ok [] no_udt) (added ex_hist) /\ need no_udt (added ex_hist) < 60000 /\
  (forall s x, In x (added ex_hist) -> shown (snd x) (ex_mem (encode (fst x)) (fst (slot_entry no_udt x))) (ex_value31 s x)) /\
  (let '(_, u1, s1, q1) := run (ex_table ex_mem) (cl_run []) no_udt 7 ex_ops (fresh 9) [] 1 in
   fst (fst (fst (read_all_raw (ex_table ex_mem) s1 7 q1 u1))) =
     Ok [(str "ab", str "a"); (str "Speed", str "spee"); (str "x", str "x"); (str "cd", str "cd")] /\
   fst (fst (fst (read_all (ex_table ex_mem) s1 7 q1 u1))) =
     Ok [(str "ab", GInt true 1 97); (str "Speed", GInt true 4 1701146739); (str "x", GInt true 1 120); (str "cd", GInt false 2 25699)]).
Proof.
  split; [apply ex_table_device, ex_mem_len|]. split.
  { apply Forall2_cons; [exact (does_one (tag1 (str "ab"), 0xC3))|].
    apply Forall2_cons; [exact (does_map [(tag1 (str "Speed"), 0xC4); (tag1 (str "x"), 0xC2)])|].
    apply Forall2_cons; [exact does_send|]. apply Forall2_cons; [exact (does_one (tag1 (str "cd"), 0xC7))|].
    apply Forall2_cons; [exact does_read|]. apply Forall2_cons; [exact (does_one (tag1 (str "ab"), 0xC2))|]. constructor. }
  split. { cbn [ex_hist paced app]. unfold acceptable. repeat split; try discriminate; try (right; split); vm_compute; reflexivity. }
  split; [exact ex_slots_ok|]. split; [vm_compute; reflexivity|]. split.
  { intros s x I. unfold added, ex_hist in I. cbn [map concat app In] in I.
    repeat destruct I as [I|I]; try (subst x; cbn [fst snd ex_value31]; apply sh_value; [|discriminate..]).
    - change (ex_mem _ _) with (le 2 25185). apply (enc_int 0xC3 true 2); [reflexivity|unfold in_range; lia].
    - change (ex_mem _ _) with (le 4 1701146739). apply (enc_int 0xC4 true 4); [reflexivity|unfold in_range; lia].
    - change (ex_mem _ _) with (le 1 120). apply (enc_int 0xC2 true 1); [reflexivity|unfold in_range; lia].
    - change (ex_mem _ _) with (le 2 25699). apply (enc_int 0xC7 false 2); [reflexivity|unfold in_range; lia].
    - change (ex_mem _ _) with (le 1 97). apply (enc_int 0xC2 true 1); [reflexivity|unfold in_range; lia].
    - destruct I. }
  vm_compute. split; reflexivity.
Qed.

(** A tag that names a bit is given its word's first byte: bit 3 of W is 0 in the
    controller, but ReadAll says true. *)
Theorem C31_bit_refuted : exists tg u, named [] tg /\ t_bit tg = Some 3 /\
  add_tag (cl_run []) no_udt (fresh 9) (text tg) 0xC1 = (Ok tt, u) /\
  Z.testbit (unle (ex_mem (encode tg) 4)) 3 = false /\
  fst (fst (fst (read_all (ex_table ex_mem) [] 7 1 u))) = Ok [(text tg, GBool true)].
Proof.
  exists {| t_members := [{| m_name := str "W"; m_subs := [] |}]; t_bit := Some 3 |}. eexists.
  split. { split; [apply valid_tagb_sound; reflexivity|]. split; reflexivity. }
  split; [reflexivity|]. split; [vm_compute; reflexivity|]. split; vm_compute; reflexivity.
Qed.
Print Assumptions C31_bit_refuted.
(** A string of a type longer than 82 characters is cut off. *)
Theorem C31_long_string_refuted : exists usize s raw u, len s = 100 /\ raw = le 4 (len s) ++ s /\
  add_tag (cl_run []) usize (fresh 9) (str "Long") 0xFF = (Ok tt, u) /\
  fst (fst (fst (read_all_raw (ex_table (fun _ n => fit (Z.to_nat n) raw)) [] 7 1 u))) = Ok [(str "Long", raw)] /\
  exists v, fst (fst (fst (read_all (ex_table (fun _ n => fit (Z.to_nat n) raw)) [] 7 1 u))) = Ok [(str "Long", GStr v)] /\ v <> s.
Proof.
  exists (fun _ => 104), (repeat 65 100), (le 4 100 ++ repeat 65 100). eexists. split; [reflexivity|]. split; [reflexivity|].
  split; [vm_compute; reflexivity|]. split; [vm_compute; reflexivity|]. exists (repeat 65 82). split; [vm_compute; reflexivity|discriminate].
Qed.
Print Assumptions C31_long_string_refuted.
(** More than 255 tags at once: their number does not fit its byte, and the
    controller, told of none, returns none. *)
Theorem C31_many_refuted : exists l, len l = 256 /\ Forall (slot_ok [] no_udt) l /\
  let '(rs, u1, s1, q1) := run (ex_table ex_mem) (cl_run []) no_udt 7 [OAddMap (map pair_of l); OSync] (fresh 9) [] 1 in
  rs = [Ok tt; Ok tt] /\ s1 = [[]] /\ fst (fst (fst (read_all_raw (ex_table ex_mem) s1 7 q1 u1))) = Err EShort.
Proof.
  exists (repeat (tag1 (str "ab"), 0xC3) 256). split; [reflexivity|]. split.
  - apply Forall_forall. intros x I. apply repeat_spec in I. subst x. split; [apply tag1_named; vm_compute; reflexivity|eexists; split; [reflexivity|lia]].
  - vm_compute. repeat split.
Qed.
Print Assumptions C31_many_refuted.
(** Announcing nothing: a controller that accepts it answers with a header for the
    empty batch, which is then taken for values. *)
Theorem C31_empty_sync_refuted : exists h, added h = [(tag1 (str "ab"), 0xC3); (tag1 (str "cd"), 0xC3)] /\
  h = [Put [(tag1 (str "ab"), 0xC3)]; Send; Send; Put [(tag1 (str "cd"), 0xC3)]] /\
  let '(rs, u1, s1, q1) := run (ex_table ex_mem) (cl_run []) no_udt 7 [OAdd (str "ab") 0xC3; OSync; OSync; OAdd (str "cd") 0xC3] (fresh 9) [] 1 in
  rs = [Ok tt; Ok tt; Ok tt; Ok tt] /\
  fst (fst (fst (read_all_raw (ex_table ex_mem) s1 7 q1 u1))) = Ok [(str "ab", str "ab"); (str "cd", [3; 0])].
Proof. eexists. split; [|split; [reflexivity|]]; vm_compute; repeat split. Qed.
Print Assumptions C31_empty_sync_refuted.

(** ** C30 *)

(** Without removals, whatever else is done and whatever the controller answers
    (errors included), the tags have the numbers 1, 2, 3, ... - as long as there are
    at most 65535. *)
Definition no_remove (o : op) : Prop := match o with ORemove _ => False | _ => True end.
Lemma step_numbers {S} (ctl : controller S) c usize otid o u s q r u' s' q' : no_remove o ->
  step ctl c usize otid o u s q = (r, u', s', q') ->
  exists k, map b_index (u_tags u') = map b_index (u_tags u) ++ map (fun z => z mod 2 ^ 16) (from (len (u_tags u) + 1) k).
Proof.
  intros No E.
  assert (Same : forall x : list btag, map b_index x = map b_index (u_tags u) -> exists k, map b_index x = map b_index (u_tags u) ++ map (fun z => z mod 2 ^ 16) (from (len (u_tags u) + 1) k)).
  { intros x Hx. exists 0%nat. cbn. now rewrite app_nil_r. }
  assert (Sync : forall s q r u1 s1 q1, sync_tags ctl s otid q u = (r, u1, s1, q1) -> map b_index (u_tags u1) = map b_index (u_tags u)).
  { clear. intros s q r u1 s1 q1. unfold sync_tags. destruct (reply_word _) as [[r0 s0] q0].
    destruct r0; intros X; injection X as <- <- <- <-; try reflexivity. cbn [u_tags with_tags]. rewrite map_map. apply map_ext.
    intros b. unfold synched. destruct (b_sync b); reflexivity. }
  assert (Read : forall A (f : Z -> bytes -> res A) s q r u1 s1 q1, read_with f ctl s otid q u = (r, u1, s1, q1) -> map b_index (u_tags u1) = map b_index (u_tags u)).
  { clear -Sync. intros A f s q r u1 s1 q1. unfold read_with. destruct (u_created u); cbn [negb]; [|now intros [= <- <- <- <-]].
    destruct (u_tags u) as [|b0 ts] eqn:Et; [intros [= <- <- <- <-]; now rewrite Et|]. rewrite <- Et in *.
    destruct (u_sync u).
    - destruct (generic ctl s otid q 0x4C (table_path (u_inst u)) []) as [[x s0] q0]. now intros [= <- <- <- <-].
    - destruct (sync_tags ctl s otid q u) as [[[r0 u0] s0] q0] eqn:Es. apply Sync in Es.
      destruct r0; try (intros X; injection X as <- <- <- <-; exact Es).
      destruct (generic ctl s0 otid q0 0x4C (table_path (u_inst u0)) []) as [[x s2] q2]. intros X; injection X as <- <- <- <-; exact Es. }
  assert (Slots : forall l base bs, slots_of c usize l base = Ok bs -> map b_index bs = map (fun z => z mod 2 ^ 16) (from base (length l))).
  { clear. induction l as [|[n t] l IH]; intros base bs; cbn [slots_of]; [now intros [= <-]|].
    unfold slot_of. destruct (fst (new_ioi c n t)); try discriminate. cbn [bind]. destruct (resolve_size usize n t); try discriminate. cbn [bind].
    destruct (slots_of c usize l (base + 1)) as [bs'| | |] eqn:E; try discriminate. cbn [bind]. intros [= <-]. cbn [map b_index length from].
    f_equal. now apply IH. }
  assert (AddMap : forall v l r1 u1, u_tags v = u_tags u -> add_tags c usize v l = (r1, u1) -> exists k, map b_index (u_tags u1) = map b_index (u_tags u) ++ map (fun z => z mod 2 ^ 16) (from (len (u_tags u) + 1) k)).
  { intros v l r1 u1 Hv. unfold add_tags. destruct (u_created v); cbn [negb]; [|intros [= <- <-]; apply Same; now rewrite Hv].
    rewrite Hv. destruct (slots_of c usize l (len (u_tags u) + 1)) as [bs| | |] eqn:Eb; intros [= <- <-]; try (apply Same; now rewrite Hv).
    exists (length l). cbn [u_tags with_tags]. rewrite map_app. f_equal. now apply Slots. }
  destruct o as [n t|l|g a ord| | | |n|]; cbn [step] in E.
  - unfold add_tag in E. destruct (u_created u); cbn [negb] in E; [|injection E as <- <- <- <-; now apply Same].
    unfold slot_of in E. destruct (fst (new_ioi c n t)); cbn [bind] in E; try (injection E as <- <- <- <-; now apply Same).
    destruct (resolve_size usize n t); cbn [bind] in E; try (injection E as <- <- <- <-; now apply Same).
    injection E as <- <- <- <-. exists 1%nat. cbn [u_tags with_tags]. rewrite map_app. reflexivity.
  - destruct (add_tags c usize u l) as [r1 u1] eqn:Ea. injection E as <- <- <- <-. now apply (AddMap u l r1).
  - unfold add_group in E. destruct (u_created u); cbn [negb] in E; [|injection E as <- <- <- <-; now apply Same].
    match type of E with (let '(_, _) := add_tags c usize ?v ?l in _) = _ => destruct (add_tags c usize v l) as [r1 u1] eqn:Ea; apply (AddMap v l r1 u1) in Ea; [|reflexivity] end.
    injection E as <- <- <- <-. exact Ea.
  - apply Sync in E. now apply Same.
  - destruct (read_all ctl s otid q u) as [[[r1 u1] s1] q1] eqn:Er. injection E as <- <- <- <-. apply Same. now apply Read in Er.
  - destruct (read_all_raw ctl s otid q u) as [[[r1 u1] s1] q1] eqn:Er. injection E as <- <- <- <-. apply Same. now apply Read in Er.
  - destruct No.
  - unfold close in E. destruct (u_created u); cbn [negb] in E; [|injection E as <- <- <- <-; now apply Same].
    destruct (generic ctl s otid q 0x09 (table_path (u_inst u)) []) as [[x s0] q0]. injection E as <- <- <- <-. now apply Same.
Qed.
Lemma from_app a n m : from a (n + m) = from a n ++ from (a + Z.of_nat n) m.
Proof. revert a; induction n as [|n IH]; intros a; cbn [Nat.add from app]; [now rewrite Z.add_0_r|]. rewrite IH. do 3 f_equal. lia. Qed.
Lemma from_length a n : length (from a n) = n.
Proof. revert a; induction n as [|n IH]; intros a; cbn [from length]; [reflexivity|]. now rewrite IH. Qed.
Lemma run_numbers {S} (ctl : controller S) c usize otid os : Forall no_remove os -> forall u s q rs u' s' q',
  run ctl c usize otid os u s q = (rs, u', s', q') ->
  map b_index (u_tags u) = map (fun z => z mod 2 ^ 16) (from 1 (length (u_tags u))) ->
  map b_index (u_tags u') = map (fun z => z mod 2 ^ 16) (from 1 (length (u_tags u'))).
Proof.
  induction 1 as [|o os No F IH]; intros u s q rs u' s' q' E Hu; cbn [run] in E; [injection E as <- <- <- <-; exact Hu|].
  destruct (step ctl c usize otid o u s q) as [[[x u1] s1] q1] eqn:E1.
  destruct (run ctl c usize otid os u1 s1 q1) as [[[xs u2] s2] q2] eqn:E2. injection E as <- <- <- <-.
  eapply IH; [exact E2|]. destruct (step_numbers _ _ _ _ _ _ _ _ _ _ _ _ No E1) as (k & K). rewrite Hu, <- map_app in K.
  assert (L : length (u_tags u1) = (length (u_tags u) + k)%nat).
  { apply (f_equal (@length Z)) in K. rewrite !map_length, app_length, !from_length in K. exact K. }
  rewrite L, from_app, K. do 2 f_equal. unfold len. f_equal. lia.
Qed.
Theorem C30_distinct_partial : forall S (ctl : controller S) c usize otid inst os s q rs u s' q',
  Forall no_remove os -> run ctl c usize otid os (fresh inst) s q = (rs, u, s', q') -> len (u_tags u) < 2 ^ 16 ->
  map b_index (u_tags u) = from 1 (length (u_tags u)) /\ NoDup (map b_index (u_tags u)).
Proof.
  intros S ctl c usize otid inst os s q rs u s' q' F E L.
  assert (N := run_numbers ctl c usize otid os F _ _ _ _ _ _ _ E eq_refl).
  assert (G : forall k a, (forall x, In x (from a k) -> a <= x < a + Z.of_nat k) /\ NoDup (from a k)).
  { induction k as [|k IH]; intros a; cbn [from]; [split; [intros x []|constructor]|]. destruct (IH (a + 1)) as [I1 I2]. split.
    - intros x [->|I]; [lia|]. apply I1 in I. lia.
    - constructor; [|exact I2]. intros I. apply I1 in I. lia. }
  assert (M : map (fun z => z mod 2 ^ 16) (from 1 (length (u_tags u))) = from 1 (length (u_tags u))).
  { rewrite <- map_id. apply map_ext_in. intros z I. apply G in I. unfold len in L. apply Z.mod_small. lia. }
  rewrite N, M. split; [reflexivity|apply G].
Qed.
Print Assumptions C30_distinct_partial.
Example ex_C30 : Forall no_remove ex_ops /\
  map b_index (u_tags (snd (fst (fst (run (ex_table ex_mem) (cl_run []) no_udt 7 ex_ops (fresh 9) [] 1))))) = [1; 2; 3; 4; 5].
Proof. split; [repeat constructor|vm_compute; reflexivity]. Qed.
(** Removing a tag makes the next one take a number in use: the requests to remove
    B and to remove C are then the same. *)
Theorem C30_remove_refuted : exists ops,
  let '(rs, u, s, q) := run (ex_table ex_mem) (cl_run []) no_udt 7 ops (fresh 9) [] 1 in
  rs = [Ok tt; Ok tt; Ok tt; Ok tt; Ok tt] /\ map (fun b => (b_name b, b_index b)) (u_tags u) = [(str "B", 2); (str "C", 2)] /\
  snd (snd (fst (remove_tag (asked (ex_table ex_mem)) (s, []) 7 q u (str "B")))) =
  snd (snd (fst (remove_tag (asked (ex_table ex_mem)) (s, []) 7 q u (str "C")))).
Proof.
  exists [OAdd (str "A") 0xC4; OAdd (str "B") 0xC4; OSync; ORemove (str "A"); OAdd (str "C") 0xC4]. vm_compute. repeat split.
Qed.
Print Assumptions C30_remove_refuted.
(** The first of 65536 tags has number 1, the last has number 0. *)
Theorem C30_number_wraps : forall c usize u n t u', len (u_tags u) = 65535 -> add_tag c usize u n t = (Ok tt, u') ->
  exists b, u_tags u' = u_tags u ++ [b] /\ b_index b = 0.
Proof.
  intros c usize u n t u' L. unfold add_tag. destruct (u_created u); cbn [negb]; [|discriminate]. rewrite L. unfold slot_of.
  destruct (fst (new_ioi c n t)); try discriminate. cbn [bind]. destruct (resolve_size usize n t); try discriminate. cbn [bind].
  intros [= <-]. eexists. split; reflexivity.
Qed.

Print Assumptions C30_number_wraps.
Example ex_C30_wraps : exists u', add_tag (cl_run []) no_udt (Buf 9 (repeat (BTag [] 0xC4 4 1 [] 0 false) (Z.to_nat 65535)) [] true false) (str "A") 0xC4 = (Ok tt, u').
Proof. eexists. unfold add_tag. cbn [u_created negb]. reflexivity. Qed.

(** ** C68 *)
Lemma find_tag_first n l p b z : find_tag n l = Some (p, b, z) ->
  l = p ++ b :: z /\ b_name b = n /\ ~ In n (map b_name p).
Proof.
  revert p b z; induction l as [|x l IH]; intros p b z H; cbn [find_tag] in H; [discriminate|].
  destruct (bseq (b_name x) n) eqn:B.
  - injection H as <- <- <-. apply bseq_spec in B. split; [reflexivity|]. split; [exact B|intros []].
  - destruct (find_tag n l) as [[[p' b'] z']|]; [|discriminate]. injection H as <- <- <-.
    destruct (IH _ _ _ eq_refl) as (-> & N & I). split; [reflexivity|]. split; [exact N|].
    intros [X|X]; [|now apply I]. rewrite X, bseq_refl in B. discriminate.
Qed.
Lemma find_tag_none n l : find_tag n l = None -> ~ In n (map b_name l).
Proof.
  induction l as [|x l IH]; cbn [find_tag map]; intros H; [intros []|].
  destruct (bseq (b_name x) n) eqn:B; [discriminate|]. destruct (find_tag n l) as [[[p' b'] z']|]; [discriminate|].
  intros [X|X]; [rewrite X, bseq_refl in B; discriminate|now apply IH].
Qed.
Lemma run_inst {S} (ctl : controller S) c usize otid os : forall u s q rs u' s' q',
  run ctl c usize otid os u s q = (rs, u', s', q') -> u_inst u' = u_inst u.
Proof.
  assert (Sync : forall u s q rs u' s' q', sync_tags ctl s otid q u = (rs, u', s', q') -> u_inst u' = u_inst u).
  { intros u s q rs u' s' q' E. unfold sync_tags in E. destruct (reply_word _) as [[[w|e| |] s1] q1]; injection E as <- <- <- <-; reflexivity. }
  assert (Read : forall A (f : Z -> bytes -> res A) u s q rs u' s' q', read_with f ctl s otid q u = (rs, u', s', q') -> u_inst u' = u_inst u).
  { intros A f u s q rs u' s' q' E. unfold read_with in E. destruct (u_created u); cbn [negb] in E; [|now injection E as <- <- <- <-].
    destruct (u_tags u); [now injection E as <- <- <- <-|].
    destruct (u_sync u).
    - destruct (generic ctl s otid q 0x4C (table_path (u_inst u)) []) as [[x s2] q2]. now injection E as <- <- <- <-.
    - destruct (sync_tags ctl s otid q u) as [[[r1 u1] s1] q1] eqn:Es. apply Sync in Es. rewrite <- Es.
      destruct r1; [|now injection E as <- <- <- <-..].
      destruct (generic ctl s1 otid q1 0x4C (table_path (u_inst u1)) []) as [[x s2] q2]. now injection E as <- <- <- <-. }
  induction os as [|o os IH]; intros u s q rs u' s' q' E; cbn [run] in E; [now injection E as <- <- <- <-|].
  destruct (step ctl c usize otid o u s q) as [[[x u1] s1] q1] eqn:E1.
  destruct (run ctl c usize otid os u1 s1 q1) as [[[xs u2] s2] q2] eqn:E2. injection E as <- <- <- <-.
  rewrite (IH _ _ _ _ _ _ _ E2). clear E2 IH. destruct o; cbn [step] in E1.
  - destruct (add_tag c usize u name t) as [r1 u3] eqn:Ea. injection E1 as <- <- <- <-. unfold add_tag in Ea.
    destruct (u_created u); cbn [negb] in Ea; [|now injection Ea as <- <-]. destruct (slot_of _ _ _ _ _); now injection Ea as <- <-.
  - destruct (add_tags c usize u l) as [r1 u3] eqn:Ea. injection E1 as <- <- <- <-. unfold add_tags in Ea.
    destruct (u_created u); cbn [negb] in Ea; [|now injection Ea as <- <-]. destruct (slots_of _ _ _ _); now injection Ea as <- <-.
  - destruct (add_group c usize u group args order) as [r1 u3] eqn:Ea. injection E1 as <- <- <- <-. unfold add_group in Ea.
    destruct (u_created u) eqn:Cu; cbn [negb] in Ea; [|now injection Ea as <- <-]. unfold add_tags in Ea. cbn [u_created negb] in Ea.
    destruct (slots_of _ _ _ _); now injection Ea as <- <-.
  - now apply Sync in E1.
  - destruct (read_all ctl s otid q u) as [[[r1 u3] s3] q3] eqn:Er. injection E1 as <- <- <- <-. now apply Read in Er.
  - destruct (read_all_raw ctl s otid q u) as [[[r1 u3] s3] q3] eqn:Er. injection E1 as <- <- <- <-. now apply Read in Er.
  - unfold remove_tag in E1. destruct (u_created u); cbn [negb] in E1; [|now injection E1 as <- <- <- <-].
    destruct (find_tag name (u_tags u)) as [[[p b] z]|]; [|now injection E1 as <- <- <- <-].
    destruct (generic _ _ _ _ _ _ _) as [[[r1|e| |] s3] q3]; now injection E1 as <- <- <- <-.
  - unfold close in E1. destruct (u_created u); cbn [negb] in E1; [|now injection E1 as <- <- <- <-].
    destruct (generic _ _ _ _ _ _ _) as [[r1 s3] q3]; now injection E1 as <- <- <- <-.
Qed.

(** C68: as long as no tag was removed before, RemoveTag of a name sends one request
    naming the place, counted from 1, at which the first tag of that name was
    added.  When the controller agrees exactly that tag is gone; otherwise the
    buffer stays as it was.  A name that was never added is an error and nothing is
    sent. *)
Theorem C68_remove_partial : forall S (ctl : controller S) c usize otid inst os s q rs u s1 q1 name,
  Forall no_remove os -> run ctl c usize otid os (fresh inst) s q = (rs, u, s1, q1) -> len (u_tags u) < 2 ^ 16 ->
  u_created u = true ->
  (forall before b after, u_tags u = before ++ b :: after -> b_name b = name -> ~ In name (map b_name before) ->
     exists r u' s2, remove_tag (asked ctl) (s1, []) otid q1 u name =
       (r, u', (s2, [object_request otid q1 0x4F (buffer_path inst) (le 2 (len before + 1))]), q1 + 1) /\
       (r = Ok tt -> u_tags u' = before ++ after) /\ (r <> Ok tt -> u' = u)) /\
  (~ In name (map b_name (u_tags u)) -> remove_tag (asked ctl) (s1, []) otid q1 u name = (Err EMsg, u, (s1, []), q1)).
Proof.
  intros S ctl c usize otid inst os s q rs u s1 q1 name F E L Cr.
  destruct (C30_distinct_partial _ ctl c usize otid inst os s q rs u s1 q1 F E L) as [N _].
  assert (I := run_inst ctl c usize otid os _ _ _ _ _ _ _ E). cbn [u_inst fresh] in I.
  split.
  - intros p b z T Nb Np. unfold remove_tag. rewrite Cr. cbn [negb].
    destruct (find_tag name (u_tags u)) as [[[p' b'] z']|] eqn:Ef.
    2: { apply find_tag_none in Ef. contradiction Ef. rewrite T, map_app. apply in_or_app. right. left. exact Nb. }
    apply find_tag_first in Ef as (T' & Nb' & Np').
    assert (X : p' = p /\ b' = b /\ z' = z).
    { clear -T T' Nb Nb' Np Np'. rewrite T in T'. clear T. revert p' Np' T'. induction p as [|x p IH]; intros [|y p'] Np' H; cbn [app map] in *.
      - injection H as -> ->. auto.
      - injection H as H1 H2. exfalso. apply Np'. left. congruence.
      - injection H as H1 H2. exfalso. apply Np. left. congruence.
      - injection H as -> H. destruct (IH (fun X => Np (or_intror X)) p' (fun X => Np' (or_intror X)) H) as (-> & -> & ->). auto. }
    destruct X as (-> & -> & ->). clear T' Nb' Np'.
    assert (B : b_index b = len p + 1).
    { rewrite T, map_app in N. cbn [map] in N. rewrite app_length in N. cbn [length] in N. rewrite from_app in N.
      apply (f_equal (fun l => nth (length p) l 0)) in N.
      rewrite app_nth2 in N by (rewrite map_length; lia). rewrite app_nth2 in N by (rewrite from_length; lia).
      rewrite map_length, from_length, Nat.sub_diag in N. cbn [nth from] in N. unfold len. lia. }
    rewrite I, B.
    destruct (C60_generic_sends S ctl s1 otid q1 0x4F (table_path inst) (le 2 (len p + 1))) as (r & s2 & G);
      [unfold table_path; rewrite len_app, le_len; cbn; lia|rewrite le_len; lia|].
    rewrite G. change (table_path inst) with (buffer_path inst).
    destruct r; eexists _, _, s2; (split; [reflexivity|split]); intros H; try discriminate; try reflexivity. congruence.
  - intros Ni. unfold remove_tag. rewrite Cr. cbn [negb]. destruct (find_tag name (u_tags u)) as [[[p' b'] z']|] eqn:Ef; [|reflexivity].
    apply find_tag_first in Ef as (T' & Nb' & _). contradiction Ni. rewrite T', map_app. apply in_or_app. right. left. exact Nb'.
Qed.
Print Assumptions C68_remove_partial.
Example ex_C68 : exists rs u s q, run (ex_table ex_mem) (cl_run []) no_udt 7 ex_ops (fresh 9) [] 1 = (rs, u, s, q) /\ u_created u = true /\
  len (u_tags u) = 5 /\ map b_name (u_tags u) = [str "ab"; str "Speed"; str "x"; str "cd"; str "ab"] /\
  snd (snd (fst (remove_tag (asked (ex_table ex_mem)) (s, []) 7 q u (str "x")))) = [object_request 7 q 0x4F (buffer_path 9) (le 2 3)].
Proof. eexists _, _, _, _. split; [vm_compute; reflexivity|]. split; [reflexivity|]. split; [reflexivity|]. split; vm_compute; reflexivity. Qed.
(** After a removal the numbers are wrong: the request meant for C names the slot
    of B, by C30_remove_refuted's history. *)
Theorem C68_after_removal_refuted : exists ops name,
  let '(rs, u, s, q) := run (ex_table ex_mem) (cl_run []) no_udt 7 ops (fresh 9) [] 1 in
  rs = [Ok tt; Ok tt; Ok tt; Ok tt; Ok tt] /\ map b_name (u_tags u) = [str "B"; str "C"] /\ name = str "C" /\
  snd (snd (fst (remove_tag (asked (ex_table ex_mem)) (s, []) 7 q u name))) = [object_request 7 q 0x4F (buffer_path 9) (le 2 2)].
Proof.
  exists [OAdd (str "A") 0xC4; OAdd (str "B") 0xC4; OSync; ORemove (str "A"); OAdd (str "C") 0xC4], (str "C").
  vm_compute. auto.
Qed.
Print Assumptions C68_after_removal_refuted.

(** ** C32 *)

(** After Close - even one that failed - every operation but SyncTags fails, sends
    nothing and changes nothing; Close succeeds. *)
Definition guarded (o : op) : Prop := match o with OSync => False | _ => True end.
Theorem C32_close_partial : forall S (ctl : controller S) c usize otid u s q r u1 s1 q1,
  close ctl s otid q u = (r, u1, s1, q1) ->
  forall os, Forall guarded os ->
  exists rs, run ctl c usize otid os u1 s1 q1 = (rs, u1, s1, q1) /\
    Forall2 (fun o x => x = match o with OClose => Ok tt | _ => Err EMsg end) os rs.
Proof.
  intros S ctl c usize otid u s q r u1 s1 q1 E.
  assert (C : u_created u1 = false).
  { unfold close in E. destruct (u_created u) eqn:Cu; cbn [negb] in E.
    - destruct (generic ctl s otid q 0x09 (table_path (u_inst u)) []) as [[x s0] q0]. injection E as <- <- <- <-. reflexivity.
    - injection E as <- <- <- <-. exact Cu. }
  induction 1 as [|o os G F (rs & IH & IH2)]; [exists []; split; [reflexivity|constructor]|].
  exists (match o with OClose => Ok tt | _ => Err EMsg end :: rs). split; [|constructor; [reflexivity|exact IH2]].
  cbn [run].
  assert (X : step ctl c usize otid o u1 s1 q1 = (match o with OClose => Ok tt | _ => Err EMsg end, u1, s1, q1)).
  { destruct o; try (destruct G); cbn [step]; unfold add_tag, add_tags, add_group, read_all, read_all_raw, read_with, remove_tag, close; rewrite C; reflexivity. }
  rewrite X, IH. reflexivity.
Qed.
Print Assumptions C32_close_partial.
Example ex_C32 : let '(r, u, s, q) := close (ex_table ex_mem) [] 7 1 (fresh 9) in
  r = Ok tt /\ u_created u = false /\
  fst (fst (fst (run (ex_table ex_mem) (cl_run []) no_udt 7 [OClose; OAdd (str "A") 0xC4; ORead; OClose] u s q))) = [Ok tt; Err EMsg; Err EMsg; Ok tt].
Proof. vm_compute. repeat split. Qed.
(** A Close that sends: exactly the delete request; *)
Theorem C32_close_sends : forall S (ctl : controller S) u s otid q, u_created u = true ->
  exists r u1 s1, close (asked ctl) (s, []) otid q u = (r, u1, (s1, [object_request otid q 0x09 (buffer_path (u_inst u)) []]), q + 1).
Proof.
  intros S ctl u s otid q C. unfold close. rewrite C. cbn [negb]. unfold generic.
  change (table_path (u_inst u)) with (buffer_path (u_inst u)). rewrite object_request_wire by (try apply buffer_path_len; reflexivity).
  unfold ask, asked. cbn [fst snd]. destruct (ctl s _) as [[[x p]| | |] s1]; cbn [app]; repeat eexists.
Qed.
Print Assumptions C32_close_sends.
Example ex_C32_sends : snd (snd (fst (close (asked (ex_table ex_mem)) ([], []) 7 1 (fresh 9)))) = [object_request 7 1 0x09 (buffer_path 9) []].
Proof. vm_compute. reflexivity. Qed.
(** but SyncTags does not look: it adds the tags to an instance that is gone. *)
Theorem C32_sync_refuted : exists os,
  let '(rs, u, s, q) := run (asked (ex_table ex_mem)) (cl_run []) no_udt 7 os (fresh 9) ([], []) 1 in
  rs = [Ok tt; Ok tt; Ok tt] /\ u_created u = false /\
  skipn 1 (snd s) = [object_request 7 2 0x4E (buffer_path 9) (add_data [(4, encode (tag1 (str "A")))])].
Proof. exists [OAdd (str "A") 0xC4; OClose; OSync]. vm_compute. repeat split. Qed.
Print Assumptions C32_sync_refuted.

(** ** C62 *)

(** A group added to a buffer that was used in any way before; maps are walked in
    any order.  ReadAllTyped hands each of the group's names its value, or for an
    array the values of its elements in order; other tags have their value. *)
Theorem C62_typed_partial : forall S (ctl : controller S) otid inst rep mem ops usize h os group args gs o1 o2 s q value,
  table_device ctl otid inst rep mem -> rep s = [] -> Forall2 does h os ->
  Forall2 (fun d g => format_name (df_name d) args = text (g_tag g) /\ df_type d = g_type g /\ df_elems d = g_count g) group gs ->
  Forall part_ok gs -> gs <> [] -> (forall l, Permutation l (o1 l)) -> (forall l, Permutation l (o2 l)) ->
  let mine := concat (map members gs) in let all := added h ++ mine in
  NoDup (map (fun x => text (fst x)) all) ->
  paced (acceptable usize) (h ++ [Put mine]) [] -> Forall (slot_ok ops usize) all -> len all < 2 ^ 16 -> need usize all < 60000 ->
  (forall s x, In x all -> shown (snd x) (mem s (encode (fst x)) (fst (slot_entry usize x))) (value s x)) ->
  exists rs u1 s1 q1 u2 r u3 s3 q3,
    run ctl (cl_run ops) usize otid os (fresh inst) s q = (rs, u1, s1, q1) /\
    add_group (cl_run ops) usize u1 group args o1 = (Ok tt, u2) /\
    read_all_typed ctl s1 otid q1 u2 o2 = (Ok r, u3, s3, q3) /\
    Permutation r (map (fun g => (text (g_tag g), whole (value s3) g)) gs ++ map (fun x => (text (fst x), value s3 x)) (added h)).
Proof.
  intros S ctl otid inst rep mem ops usize h os group args gs o1 o2 s q value D R0 Do G Pg Ng O1 O2 mine all Nd P F L N V.
  assert (I0 : inv inst rep usize [] [] (fresh inst) s) by (split; [reflexivity|split; [reflexivity|split; [reflexivity|split; [now right|split; [constructor|exact R0]]]]]).
  assert (Ea : added (h ++ [Put mine]) = all) by (unfold added; rewrite map_app, concat_app; cbn [map concat]; now rewrite app_nil_r).
  destruct (acts_then ctl otid inst rep mem D ops usize h os [Put mine] Do [] [] (fresh inst) s q I0 P) as (rs & u1 & s1 & q1 & bs & p & E & I & Pa & Ec & X1);
    try (rewrite Ea; assumption).
  rewrite Ea in Ec. cbn [concat app] in Ec. replace (added [Put mine]) with mine in Ec by (unfold added; cbn; now rewrite app_nil_r).
  assert (Ec1 : concat bs ++ p = added h) by (unfold all in Ec; rewrite app_assoc in Ec; now apply app_inv_tail in Ec).
  cbn [paced] in Pa. destruct Pa as [Nm Pa].
  (* what the group stands for *)
  assert (Vg : Forall (fun g => part_ok g /\ Forall (fun x => valid_tag (fst x)) (members g)) gs).
  { apply Forall_forall. intros g Ig. split; [now apply (proj1 (Forall_forall _ _) Pg)|]. apply Forall_forall. intros x Ix.
    assert (Ix' : In x all) by (apply in_or_app; right; apply in_concat; exists (members g); split; [now apply in_map|exact Ix]).
    apply (proj1 (Forall_forall _ _) F x Ix'). }
  assert (Names : forall d g, part_ok g /\ Forall (fun x => valid_tag (fst x)) (members g) ->
    format_name (df_name d) args = text (g_tag g) /\ df_type d = g_type g /\ df_elems d = g_count g -> group_names d args = exp_of g).
  { intros d g [P1 V1] (E1 & E2 & E3). unfold group_names, exp_of. rewrite E1, E3. f_equal. symmetry. now apply members_names. }
  assert (Ndm : NoDup (map (fun x => text (fst x)) mine)) by (unfold all in Nd; rewrite map_app in Nd; now apply NoDup_app_remove_l in Nd).
  assert (Ndb : NoDup (map (fun g => text (g_tag g)) gs)).
  { unfold mine in Ndm. clear -Ndm Vg. induction Vg as [|g gs [P1 V1] Vg IH]; cbn [map concat] in *; [constructor|].
    rewrite map_app in Ndm. destruct (members_names g P1 V1) as (_ & (r & Er) & _ & _). constructor; [|apply IH; now apply NoDup_app_remove_l in Ndm].
    intros I. rewrite Er in Ndm. cbn [map app fst] in Ndm. inversion_clear Ndm as [|? ? N1 N2]. apply N1. apply in_or_app. right.
    clear -I Vg. apply in_map_iff in I as (g' & E & I). rewrite concat_map. apply in_concat.
    exists (map (fun x => text (fst x)) (members g')). split; [now apply in_map, in_map|].
    apply (proj1 (Forall_forall _ _) Vg) in I as [P1 V1]. destruct (members_names g' P1 V1) as (_ & (r' & Er') & _ & _). rewrite Er'. rewrite <- E. now left. }
  assert (Exp : fold_left (fun m d => let '(n, l) := group_names d args in put n l m) group [] = map exp_of gs).
  { transitivity (fold_left (fun m g => put (text (g_tag g)) (snd (exp_of g)) m) gs []).
    - generalize (@nil (bytes * list bytes)). clear -G Vg Names. induction G as [|d g group gs H G IH]; intros acc; cbn [fold_left]; [reflexivity|].
      inversion_clear Vg as [|? ? V1 V2]. rewrite (Names d g V1 H). now apply IH.
    - now rewrite fold_put_new. }
  assert (Tags : fold_left (fun m d => fold_left (fun m n => put n (df_type d) m) (snd (group_names d args)) m) group [] = map pair_of mine).
  { transitivity (fold_left (fun m x => put (text (fst x)) (snd x) m) mine []).
    - unfold mine. generalize (@nil (bytes * Z)). clear -G Vg Names. induction G as [|d g group gs H G IH]; intros acc; cbn [fold_left map concat]; [reflexivity|].
      inversion_clear Vg as [|? ? V1 V2]. rewrite fold_left_app, IH by assumption. f_equal. rewrite (Names d g V1 H). unfold exp_of. cbn [snd].
      destruct H as (_ & -> & _). destruct (members_names g (proj1 V1) (proj2 V1)) as (_ & _ & T & _). clear -T. revert acc.
      induction T as [|x l Hx T IH]; intros acc; cbn [map fold_left]; [reflexivity|]. rewrite Hx. apply IH.
    - now rewrite fold_put_new. }
  destruct (Permutation_map_inv pair_of (l1 := o1 (map pair_of mine)) mine) as (l & El & Pl); [apply Permutation_sym, O1|].
  (* adding it *)
  assert (Cu : u_created u1 = true) by apply I.
  assert (Lt : len (u_tags u1) = len (concat bs) + len p) by (destruct I as (_ & _ & -> & _); now rewrite len_app, built_all_length, built_length).
  assert (Ll : len l = len mine) by (unfold len; now rewrite (Permutation_length Pl)).
  assert (La : len all = len (concat bs) + len p + len l) by (rewrite Ll; unfold all; rewrite len_app, <- Ec1, len_app; lia).
  assert (Pall : Permutation all (concat bs ++ p ++ l)) by (rewrite app_assoc, Ec1; apply Permutation_app_head; exact Pl).
  assert (Fall : Forall (slot_ok ops usize) (concat bs ++ p ++ l)) by (eapply Permutation_Forall; [exact Pall|exact F]).
  set (u2 := Buf (u_inst u1) (u_tags u1 ++ built usize (len (u_tags u1) + 1) 0 false l) (map exp_of gs) true false).
  assert (A : add_group (cl_run ops) usize u1 group args o1 = (Ok tt, u2)).
  { unfold add_group. rewrite Cu. cbn [negb]. rewrite X1. cbn [u_exp fresh]. rewrite Exp, Tags, El. unfold add_tags. cbn [u_created negb u_tags].
    pose proof (len_nonneg (u_tags u1)). rewrite (slots_of_ok ops usize l) by (try lia; rewrite !Forall_app in Fall; tauto). reflexivity. }
  assert (I2 : inv inst rep usize bs (p ++ l) u2 s1).
  { destruct I as (Hi & _ & Ht & Hs & Hb & Hr). unfold inv, u2. cbn [u_inst u_created u_tags u_sync]. split; [exact Hi|]. split; [reflexivity|]. split; [|split; [|split; assumption]].
    - rewrite Lt, Ht, built_app, <- app_assoc. do 3 f_equal. lia.
    - left. intros E0. apply app_eq_nil in E0 as [_ E0]. rewrite E0 in Pl. apply Permutation_sym, Permutation_nil in Pl. congruence. }
  (* reading *)
  assert (Pc : acceptable usize (p ++ l)).
  { destruct Pa as [Pa|Pa]; [apply app_eq_nil in Pa as [_ Pa]; congruence|]. eapply acceptable_perm; [|exact Pa]. now apply Permutation_app_head. }
  destruct (read_all_values ctl otid inst rep mem D ops usize value bs (p ++ l) u2 s1 q1 I2 (or_intror Pc) Fall) as (u3 & s3 & q3 & R & X3).
  { unfold len in *. rewrite <- (Permutation_length Pall). exact L. }
  { rewrite <- (need_perm _ _ _ Pall). exact N. }
  { intros E0. rewrite E0 in Pall. apply Permutation_sym, Permutation_nil in Pall. unfold all in Pall. apply app_eq_nil in Pall as [_ ?]. congruence. }
  { intros s0 x Ix. apply V. eapply Permutation_in; [apply Permutation_sym, Pall|exact Ix]. }
  set (m := store (value s3) (concat bs ++ p ++ l) []) in *.
  assert (Em : m = map (fun x => (text (fst x), value s3 x)) (concat bs ++ p ++ l)).
  { unfold m, store. rewrite (fold_put_new (fun x : tag * Z => text (fst x)) (value s3)); [reflexivity|]. cbn [map app].
    eapply Permutation_NoDup; [|exact Nd]. apply Permutation_map. exact Pall. }
  destruct (Permutation_map_inv exp_of (l1 := o2 (map exp_of gs)) gs) as (gs' & Eg & Pgs); [apply Permutation_sym, O2|].
  assert (Cl : collapse m (map exp_of gs') [] = Ok (map (fun g => (text (g_tag g), whole (value s3) g)) gs')).
  { rewrite (collapse_ok (value s3)).
    - rewrite fold_put_new; [reflexivity|]. cbn [map app]. eapply Permutation_NoDup; [|exact Ndb]. now apply Permutation_map.
    - eapply Permutation_Forall; [exact Pgs|exact Vg].
    - intros g x Ig Ix. apply lookup_in.
      + rewrite Em, map_map. cbn [fst]. eapply Permutation_NoDup; [|exact Nd]. apply (Permutation_map (fun x : tag * Z => text (fst x))). exact Pall.
      + rewrite Em. apply in_map_iff. exists x. split; [reflexivity|]. eapply Permutation_in; [exact Pall|]. apply in_or_app. right.
        apply in_concat. exists (members g). split; [|exact Ix]. apply in_map. eapply Permutation_in; [apply Permutation_sym, Pgs|exact Ig]. }
  set (consumed := concat (map snd (map exp_of gs'))).
  assert (Hc : forall x, In x consumed <-> In x (map (fun x => text (fst x)) mine)).
  { intros x. unfold consumed, mine. rewrite map_map. cbn [exp_of snd]. rewrite in_concat. split.
    - intros (y & Iy & Ix). apply in_map_iff in Iy as (g & <- & Ig). rewrite concat_map. apply in_concat. eexists. split; [|exact Ix]. apply in_map, in_map.
      eapply Permutation_in; [apply Permutation_sym, Pgs|exact Ig].
    - rewrite concat_map, in_concat. intros (y & Iy & Ix). rewrite map_map in Iy. apply in_map_iff in Iy as (g & <- & Ig).
      eexists. split; [|exact Ix]. apply in_map_iff. exists g. split; [reflexivity|]. eapply Permutation_in; [exact Pgs|exact Ig]. }
  assert (Hb : forall x, existsb (bseq x) consumed = true <-> In x (map (fun x => text (fst x)) mine)).
  { intros x. rewrite <- Hc, existsb_exists. split; [intros (y & Iy & E0); apply bseq_spec in E0; now subst y|intros Ix; exists x; split; [exact Ix|apply bseq_refl]]. }
  set (base := map (fun g => (text (g_tag g), whole (value s3) g)) gs') in *.
  assert (Fin : fold_left (fun a kv => if existsb (bseq (fst kv)) consumed then a else put (fst kv) (snd kv) a) m base
    = base ++ map (fun x => (text (fst x), value s3 x)) (added h)).
  { rewrite Em, app_assoc, Ec1, map_app, fold_left_app.
    assert (Nx : NoDup (map (fun x => text (fst x)) (added h)) /\ forall x, In x (map (fun x => text (fst x)) (added h)) -> ~ In x (map (fun x => text (fst x)) mine)).
    { unfold all in Nd. rewrite map_app in Nd. split; [now apply NoDup_app_remove_r in Nd|]. clear -Nd. induction (added h) as [|y l0 IH]; cbn [map app In] in *; [intros x []|].
      inversion_clear Nd as [|? ? N1 N2]. intros x [<-|Ix]; [intros J; apply N1, in_or_app; now right|now apply IH]. }
    assert (H1 : forall l0 acc, (forall x, In x l0 -> ~ In (text (fst x)) (map (fun x => text (fst x)) mine)) ->
      fold_left (fun a kv => if existsb (bseq (fst kv)) consumed then a else put (fst kv) (snd kv) a) (map (fun x => (text (fst x), value s3 x)) l0) acc =
      fold_left (fun a x => put (text (fst x)) (value s3 x) a) l0 acc).
    { induction l0 as [|x l0 IH]; intros acc H0; cbn [map fold_left]; [reflexivity|]. cbn [fst snd].
      destruct (existsb (bseq (text (fst x))) consumed) eqn:E0; [apply Hb in E0; exfalso; apply (H0 x); [now left|exact E0]|]. apply IH. intros y Iy. apply H0. now right. }
    assert (H2 : forall l0 acc, (forall x, In x l0 -> In (text (fst x)) (map (fun x => text (fst x)) mine)) ->
      fold_left (fun a kv => if existsb (bseq (fst kv)) consumed then a else put (fst kv) (snd kv) a) (map (fun x => (text (fst x), value s3 x)) l0) acc = acc).
    { induction l0 as [|x l0 IH]; intros acc H0; cbn [map fold_left]; [reflexivity|]. cbn [fst snd].
      rewrite (proj2 (Hb (text (fst x)))) by (apply H0; now left). apply IH. intros y Iy. apply H0. now right. }
    rewrite (H2 l) by (intros x Ix; apply (in_map (fun x : tag * Z => text (fst x))); eapply Permutation_in; [apply Permutation_sym, Pl|exact Ix]).
    rewrite (H1 (added h)) by (intros x Ix; apply (proj2 Nx), (in_map (fun x : tag * Z => text (fst x))), Ix).
    apply (fold_put_new (fun x : tag * Z => text (fst x)) (value s3)). unfold base. rewrite map_map. cbn [fst].
    eapply Permutation_NoDup; [apply Permutation_app_tail, (Permutation_map (fun g => text (g_tag g))), Pgs|].
    assert (Sub : forall g, In g gs -> In (text (g_tag g)) (map (fun x => text (fst x)) mine)).
    { intros g Ig. apply (in_map (fun x : tag * Z => text (fst x)) mine (g_tag g, g_type g)). unfold mine. apply in_concat. exists (members g). split; [now apply in_map|].
      destruct (proj1 (Forall_forall _ _) Vg g Ig) as [P1 V1]. destruct (members_names g P1 V1) as (_ & (r0 & Er) & _). rewrite Er. now left. }
    clearbody mine. clear -Ndb Nx Sub. destruct Nx as [N1 N2]. induction gs as [|g gs IH]; cbn [map app] in *; [exact N1|].
    inversion_clear Ndb as [|? ? M1 M2]. constructor; [|apply IH; [exact M2|intros g0 I0; apply Sub; now right]].
    intros J. apply in_app_or in J as [J|J]; [now apply M1|]. apply (N2 _ J). apply Sub. now left. }
  exists rs, u1, s1, q1, u2, (base ++ map (fun x => (text (fst x), value s3 x)) (added h)), u3, s3, q3.
  split; [exact E|]. split; [exact A|]. split.
  - unfold read_all_typed. rewrite R, X3. cbn [u_exp u2]. destruct gs as [|g0 gs0]; [congruence|].
    change (map exp_of (g0 :: gs0)) with (exp_of g0 :: map exp_of gs0) in Eg |- *. rewrite Eg. unfold typed. rewrite Cl. cbn [bind]. fold consumed. rewrite Fin. reflexivity.
  - apply Permutation_app_tail. unfold base. apply Permutation_map, Permutation_sym, Pgs.
Qed.
Print Assumptions C62_typed_partial.
Definition speeds (i : Z) : tag := {| t_members := [{| m_name := str "Speeds"; m_subs := [i] |}]; t_bit := None |}.
Definition ex_gs : list part := [Part (speeds 4) 0xC3 3; Part (tag1 (str "xy")) 0xC2 1].
Definition ex_group : list tag_def := [TagDef (str "{0}[4]") 0xC3 3; TagDef (str "xy") 0xC2 1].
Definition ex_hist62 : list act := [Put [(tag1 (str "ab"), 0xC3)]].
Definition ex_mem62 (p : bytes) (n : Z) : bytes := fit (Z.to_nat n) (rev p).
Definition ex_value62 (s : list (list entry)) (x : tag * Z) : gval :=
  let w := fst (slot_entry no_udt x) in GInt true (Z.to_nat w) (unle (ex_mem62 (encode (fst x)) w)).
Example ex_C62 : table_device (ex_table ex_mem62) 7 9 (fun s => s) (fun _ => ex_mem62) /\ Forall2 does ex_hist62 [OAdd (str "ab") 0xC3] /\
  Forall2 (fun d g => format_name (df_name d) [str "Speeds"] = text (g_tag g) /\ df_type d = g_type g /\ df_elems d = g_count g) ex_group ex_gs /\
  Forall part_ok ex_gs /\
  let mine := concat (map members ex_gs) in let all := added ex_hist62 ++ mine in
  map (fun x => text (fst x)) all = [str "ab"; str "Speeds[4]"; str "Speeds[5]"; str "Speeds[6]"; str "xy"] /\
  NoDup (map (fun x => text (fst x)) all) /\
  paced (acceptable no_udt) (ex_hist62 ++ [Put mine]) [] /\ Forall (slot_ok [] no_udt) all /\ len all < 2 ^ 16 /\ need no_udt all < 60000 /\
  (forall s x, In x all -> shown (snd x) (ex_mem62 (encode (fst x)) (fst (slot_entry no_udt x))) (ex_value62 s x)) /\
  (let '(_, u1, s1, q1) := run (ex_table ex_mem62) (cl_run []) no_udt 7 [OAdd (str "ab") 0xC3] (fresh 9) [] 1 in
   fst (fst (fst (read_all_typed (ex_table ex_mem62) s1 7 q1 (snd (add_group (cl_run []) no_udt u1 ex_group [str "Speeds"] (@rev _))) (@rev _)))) =
     Ok [(str "xy", GInt true 1 121); (str "Speeds[4]", GList [GInt true 2 0x2804; GInt true 2 0x2805; GInt true 2 0x2806]); (str "ab", GInt true 2 24930)]).
Proof.
  split; [apply ex_table_device; intros p n H; unfold ex_mem62; rewrite fit_len; lia|].
  split; [apply Forall2_cons; [exact (does_one (tag1 (str "ab"), 0xC3))|constructor]|].
  split; [apply Forall2_cons; [|apply Forall2_cons; [|apply Forall2_nil]]; (split; [vm_compute; reflexivity|split; reflexivity])|].
  split. { apply Forall_cons; [split; [cbn; lia|intros _; split; [reflexivity|discriminate]]|]. apply Forall_cons; [split; [cbn; lia|cbn; lia]|constructor]. }
  cbv zeta. split; [vm_compute; reflexivity|].
  split. { vm_compute. repeat (apply NoDup_cons; [cbn [In]; intros H; repeat destruct H as [H|H]; try discriminate H; destruct H|]). apply NoDup_nil. }
  split. { cbn [ex_hist62 paced app]. unfold acceptable. repeat split; try discriminate; try (right; split); vm_compute; reflexivity. }
  assert (M : concat (map members ex_gs) = [(speeds 4, 0xC3); (speeds 5, 0xC3); (speeds 6, 0xC3); (tag1 (str "xy"), 0xC2)]) by reflexivity.
  rewrite M. split.
  { repeat (apply Forall_cons; [split; [split; [apply valid_tagb_sound; vm_compute; reflexivity|split; [reflexivity|vm_compute; reflexivity]]|eexists; split; [reflexivity|lia]]|]). apply Forall_nil. }
  split; [vm_compute; reflexivity|]. split; [vm_compute; reflexivity|]. split.
  { intros s x I. unfold added, ex_hist62 in I. cbn [map concat app In] in I.
    repeat destruct I as [I|I]; try (subst x; cbn [fst snd]; apply sh_value; [|discriminate..]).
    - change (ex_mem62 _ _) with (le 2 24930). apply (enc_int 0xC3 true 2 24930); [reflexivity|unfold in_range; lia].
    - change (ex_mem62 _ _) with (le 2 0x2804). apply (enc_int 0xC3 true 2 0x2804); [reflexivity|unfold in_range; lia].
    - change (ex_mem62 _ _) with (le 2 0x2805). apply (enc_int 0xC3 true 2 0x2805); [reflexivity|unfold in_range; lia].
    - change (ex_mem62 _ _) with (le 2 0x2806). apply (enc_int 0xC3 true 2 0x2806); [reflexivity|unfold in_range; lia].
    - change (ex_mem62 _ _) with (le 1 121). apply (enc_int 0xC2 true 1 121); [reflexivity|unfold in_range; lia].
    - destruct I. }
  vm_compute. reflexivity.
Qed.

(** Three elements of an array given without a subscript: three times the whole
    array's first value. *)
Theorem C62_plain_refuted : exists group, group = [TagDef (str "Recipe") 0xC3 3] /\
  fst (fst (fst (read_all_typed (ex_table ex_mem) [] 7 1 (snd (add_group (cl_run []) no_udt (fresh 9) group [] (fun l => l))) (fun l => l)))) =
    Ok [(str "Recipe", GList [GInt true 2 25970; GInt true 2 25970; GInt true 2 25970])].
Proof. eexists. split; [reflexivity|]. vm_compute. reflexivity. Qed.
Print Assumptions C62_plain_refuted.
(** A tag added by itself that is also an element of a group's array is missing. *)
Theorem C62_shared_refuted : exists os group,
  let '(rs, u1, s1, q1) := run (ex_table ex_mem62) (cl_run []) no_udt 7 os (fresh 9) [] 1 in
  os = [OAdd (str "Speeds[5]") 0xC3] /\ rs = [Ok tt] /\
  exists r, fst (fst (fst (read_all_typed (ex_table ex_mem62) s1 7 q1 (snd (add_group (cl_run []) no_udt u1 group [] (fun l => l))) (fun l => l)))) = Ok r /\
    lookup (str "Speeds[5]") r = None /\ lookup (str "Speeds[4]") r = Some (GList [GInt true 2 0x2804; GInt true 2 0x2805]).
Proof. exists [OAdd (str "Speeds[5]") 0xC3], [TagDef (str "Speeds[4]") 0xC3 2]. vm_compute. split; [reflexivity|]. split; [reflexivity|]. eexists. repeat split. Qed.
Print Assumptions C62_shared_refuted.
