(** * Proofs about data table buffers *)
From Coq Require Import Permutation.
From Verif Require Import GoBase SegModel IoiModel IoiSpec IoiProof TypesModel ItemsModel ItemsSpec ItemsProof
  ReadModel ReadSpec ReadProof AttrModel AttrSpec AttrProof GroupModel GroupSpec GroupProof DataModel DataSpec.

(** ** Replies *)
Lemma generic_ok {S} (ctl : controller S) s s1 otid q service path data x p svc d :
  len path < 512 -> len data < 65000 ->
  ctl s (object_request otid q service path data) = (Ok (x, p), s1) -> reply p svc 0 0 d -> 0 <= svc < 256 -> svc mod 128 = service ->
  exists it, generic ctl s otid q service path data = (Ok it, s1, q + 1) /\ cursor_ok it /\ unread it = d.
Proof.
  intros L1 L2 E R Hs M. unfold generic, ask. rewrite object_request_wire by assumption. rewrite E.
  destruct (second_item_reply true p svc 0 0 d R) as (it & a & b & resv & -> & C0 & U0). cbn [bind].
  destruct (item_int2 _ _ _ _ C0 U0) as (i1 & -> & C1 & U1). cbn [bind].
  destruct (item_int2 _ _ _ _ C1 U1) as (i2 & -> & C2 & U2). cbn [bind].
  destruct (item_int2 _ _ _ _ C2 U2) as (i3 & E3 & C3 & U3). rewrite E3.
  assert (M' : sgn 16 (unle [svc; resv]) mod 256 = svc).
  { cbn [unle]. unfold sgn. change (2 ^ 16) with 65536. destruct (_ <? _); Z.to_euclidean_division_equations; lia. }
  rewrite M', M, Z.eqb_refl. cbn [negb bind]. exists i3. split; [reflexivity|]. now split.
Qed.
Lemma word_ok {S} (ctl : controller S) s s1 otid q service path data x p svc n :
  len path < 512 -> len data < 65000 -> 0 <= n < 2 ^ 16 ->
  ctl s (object_request otid q service path data) = (Ok (x, p), s1) -> reply p svc 0 0 (le 2 n) -> 0 <= svc < 256 -> svc mod 128 = service ->
  reply_word (generic ctl s otid q service path data) = (Ok n, s1, q + 1).
Proof.
  intros L1 L2 Hn E R Hs M. destruct (generic_ok ctl s s1 otid q service path data x p svc _ L1 L2 E R Hs M) as (it & -> & C & U).
  unfold reply_word. rewrite item_uint_fits; [|exact C|lia|rewrite U, le_length; lia]. rewrite U. cbn [fst].
  rewrite firstn_all2 by (rewrite le_length; lia). rewrite unle_le_small; [reflexivity|]. change (8 * Z.of_nat 2) with 16. exact Hn.
Qed.

(** ** Slots *)
Section slots.
Variable ops : list cl_op.
Variable usize : bytes -> Z.
Definition slot_ok (x : tag * Z) : Prop :=
  named ops (fst x) /\ exists w, slot_width usize (fst x) (snd x) = Some w /\ 0 <= w < 2 ^ 16.
Definition built1 (i bid : Z) (sy : bool) (x : tag * Z) : btag :=
  BTag (text (fst x)) (snd x) (fst (slot_entry usize x)) i (encode (fst x)) bid sy.
Fixpoint built (i bid : Z) (sy : bool) (l : list (tag * Z)) : list btag :=
  match l with [] => [] | x :: r => built1 i bid sy x :: built (i + 1) bid sy r end.
Fixpoint built_all (i bid : Z) (bs : list (list (tag * Z))) : list btag :=
  match bs with [] => [] | l :: r => built i bid true l ++ built_all (i + len l) (bid + 1) r end.

Lemma built_length i bid sy l : len (built i bid sy l) = len l.
Proof. revert i; induction l as [|x l IH]; intros i; cbn [built]; [reflexivity|]. rewrite !len_cons, IH. lia. Qed.
Lemma built_app i bid sy a b : built i bid sy (a ++ b) = built i bid sy a ++ built (i + len a) bid sy b.
Proof.
  revert i; induction a as [|x a IH]; intros i; cbn [built app].
  - now rewrite len_nil, Z.add_0_r.
  - rewrite IH, len_cons. do 3 f_equal. lia.
Qed.
Lemma built_all_length i bid bs : len (built_all i bid bs) = len (concat bs).
Proof.
  revert i bid; induction bs as [|l bs IH]; intros i bid; cbn [built_all concat]; [reflexivity|].
  now rewrite !len_app, built_length, IH.
Qed.
Lemma built_all_app i bid a b : built_all i bid (a ++ b) = built_all i bid a ++ built_all (i + len (concat a)) (bid + len a) b.
Proof.
  revert i bid; induction a as [|x a IH]; intros i bid; cbn [built_all app concat].
  - rewrite !len_nil, !Z.add_0_r. reflexivity.
  - rewrite IH, len_app, len_cons, <- app_assoc. do 3 f_equal; lia.
Qed.

Lemma resolve_ok x : slot_ok x -> resolve_size usize (text (fst x)) (snd x) = Ok (fst (slot_entry usize x)) /\ 0 <= fst (slot_entry usize x) < 2 ^ 16.
Proof.
  destruct x as [tg t]. intros (_ & w & E & R). unfold slot_entry. cbn [fst snd] in *. rewrite E. split; [|exact R].
  unfold resolve_size, slot_width in *. change T_string with 255 in *. change T_struct with 160 in *.
  destruct ((t =? 255) || (t =? 160)) eqn:B; cbn [andb].
  - destruct (0 <? usize (lower (text tg))); injection E as <-.
    + now rewrite Z.mod_small.
    + unfold table_type_size. change T_string with 255. change T_struct with 160. rewrite B. reflexivity.
  - unfold table_type_size. change T_string with 255. change T_struct with 160. rewrite B.
    unfold width_of in E.
    repeat match type of E with context [match ?x with _ => _ end] => destruct x; try discriminate E end; injection E as <-; reflexivity.
Qed.
Lemma entry_of_slot x : slot_ok x -> entry_ok (slot_entry usize x).
Proof.
  intros H. destruct (resolve_ok x H) as [_ R]. destruct H as ((V & K & L) & _). unfold entry_ok. split; [exact R|].
  unfold slot_entry. cbn [snd]. split; [|exact L]. assert (E := C01_lemma ops (fst x) 0 V K). apply C05_lemma in E. apply E.
Qed.
Lemma slot_of_ok x i : slot_ok x -> slot_of (cl_run ops) usize (text (fst x)) (snd x) i = Ok (built1 i 0 false x).
Proof.
  intros H. destruct (resolve_ok x H) as [R _]. destruct H as ((V & K & L) & _). unfold slot_of.
  rewrite (C01_lemma ops (fst x) _ V K). cbn [bind]. rewrite R. reflexivity.
Qed.
Definition pair_of (x : tag * Z) : bytes * Z := (text (fst x), snd x).
Lemma slots_of_ok l : Forall slot_ok l -> forall base, 0 <= base -> base + len l <= 2 ^ 16 ->
  slots_of (cl_run ops) usize (map pair_of l) base = Ok (built base 0 false l).
Proof.
  induction 1 as [|x l Hx Hl IH]; intros base H0 H1; cbn [map slots_of built]; [reflexivity|].
  rewrite len_cons in H1. pose proof (len_nonneg l).
  unfold pair_of at 1. rewrite Z.mod_small by lia. rewrite slot_of_ok by exact Hx. cbn [bind].
  rewrite IH by lia. reflexivity.
Qed.

(** ** What the controller is told *)
Lemma fresh_built i bid l : filter (fun b => negb (b_sync b)) (built i bid true l) = [].
Proof. revert i; induction l as [|x l IH]; intros i; cbn; auto. Qed.
Lemma fresh_all i bid bs : filter (fun b => negb (b_sync b)) (built_all i bid bs) = [].
Proof. revert i bid; induction bs as [|l bs IH]; intros i bid; cbn [built_all]; [reflexivity|]. now rewrite filter_app, fresh_built, IH. Qed.
Lemma fresh_pending i bid l : filter (fun b => negb (b_sync b)) (built i bid false l) = built i bid false l.
Proof. revert i; induction l as [|x l IH]; intros i; cbn; [reflexivity|]. now rewrite IH. Qed.
Lemma synched_built n i bid l : map (synched n) (built i bid true l) = built i bid true l.
Proof. revert i; induction l as [|x l IH]; intros i; cbn; [reflexivity|]. now rewrite IH. Qed.
Lemma synched_all n i bid bs : map (synched n) (built_all i bid bs) = built_all i bid bs.
Proof. revert i bid; induction bs as [|l bs IH]; intros i bid; cbn [built_all]; [reflexivity|]. now rewrite map_app, synched_built, IH. Qed.
Lemma synched_pending n i bid l : map (synched n) (built i bid false l) = built i n true l.
Proof. revert i; induction l as [|x l IH]; intros i; cbn [built map]; [reflexivity|]. now rewrite IH. Qed.
Lemma message_built i l : Forall slot_ok l -> len l < 256 ->
  add_message (built i 0 false l) = add_data (map (slot_entry usize) l).
Proof.
  intros F L. unfold add_message, add_data. rewrite built_length. pose proof (len_nonneg l). rewrite Z.mod_small by lia.
  unfold len at 2. rewrite map_length. fold (len l). f_equal. rewrite map_map. clear L H. revert i.
  induction F as [|x l Hx F IH]; intros i; cbn [built map concat]; [reflexivity|]. rewrite IH. f_equal.
  unfold add_entry, built1. cbn [b_size b_ioi]. unfold slot_entry. cbn [fst snd].
  destruct Hx as ((_ & _ & L) & _). pose proof (len_nonneg (encode (fst x))). now rewrite Z.mod_small by lia.
Qed.

(** ** Reading *)
Lemma ins_last b l : Forall (fun x => b_index x < b_index b) l -> ins b l = l ++ [b].
Proof.
  induction 1 as [|x l Hx F IH]; cbn [ins app]; [reflexivity|]. destruct (Z.ltb_spec (b_index b) (b_index x)); [lia|]. now rewrite IH.
Qed.
Fixpoint ascending (i : Z) (l : list btag) : Prop := match l with [] => True | b :: r => i <= b_index b /\ ascending (b_index b + 1) r end.
Lemma by_index_id l : forall acc i, ascending i l -> Forall (fun x => b_index x < i) acc -> fold_left (fun acc b => ins b acc) l acc = acc ++ l.
Proof.
  induction l as [|b l IH]; intros acc i A F; cbn [fold_left]; [now rewrite app_nil_r|]. destruct A as [A1 A2].
  rewrite ins_last by (eapply Forall_impl; [|exact F]; cbn; intros; lia).
  rewrite (IH _ (b_index b + 1) A2).
  - now rewrite <- app_assoc.
  - apply Forall_app. split; [eapply Forall_impl; [|exact F]; cbn; intros; lia|]. constructor; [lia|constructor].
Qed.
Lemma ascending_app i a b : (forall j, j <= i + len a -> ascending j b) ->
  (forall k x, nth_error a k = Some x -> b_index x = i + Z.of_nat k) -> ascending i (a ++ b).
Proof.
  revert i; induction a as [|x a IH]; intros i H N; cbn [app].
  - apply H. rewrite len_nil. lia.
  - assert (X := N 0%nat x eq_refl). cbn [ascending]. split; [lia|].
    replace (b_index x + 1) with (i + 1) by lia. apply IH.
    + intros j Hj. apply H. rewrite len_cons. lia.
    + intros k y Hk. rewrite (N (Datatypes.S k) y Hk). lia.
Qed.
Lemma built_ascending i bid sy l j b : j <= i -> (forall k, k <= i + len l -> ascending k b) -> ascending j (built i bid sy l ++ b).
Proof.
  revert i j; induction l as [|x l IH]; intros i j Hj H; cbn [built app].
  - apply H. rewrite len_nil. lia.
  - cbn [ascending built1 b_index]. split; [exact Hj|]. apply IH; [lia|]. intros k Hk. apply H. rewrite len_cons. lia.
Qed.
Lemma built_all_ascending bs : forall i bid j, j <= i -> ascending j (built_all i bid bs).
Proof.
  induction bs as [|l bs IH]; intros i bid j Hj; cbn [built_all]; [exact I|].
  apply built_ascending; [exact Hj|]. intros k Hk. now apply IH.
Qed.
Lemma by_index_built bs : by_index (built_all 1 1 bs) = built_all 1 1 bs.
Proof. unfold by_index. rewrite (by_index_id _ [] 1); [reflexivity|now apply built_all_ascending|constructor]. Qed.

Section read.
Context {A : Type}.
Variable f : Z -> bytes -> res A.
Variable mem : bytes -> Z -> bytes.
Variable g : tag * Z -> A.
Definition raw_of (x : tag * Z) : bytes := mem (snd (slot_entry usize x)) (fst (slot_entry usize x)).
Hypothesis mem_len : forall p n, 0 <= n -> len (mem p n) = n.
Definition store (l : list (tag * Z)) (acc : list (bytes * A)) : list (bytes * A) :=
  fold_left (fun a x => put (text (fst x)) (g x) a) l acc.

Lemma read_batch bid l : Forall slot_ok l -> Forall (fun x => f (snd x) (raw_of x) = Ok (g x)) l ->
  forall i it acc tail rest, cursor_ok it -> unread it = concat (map raw_of l) ++ rest ->
  exists it', cursor_ok it' /\ unread it' = rest /\
    read_slots f (built i bid true l ++ tail) bid it acc = read_slots f tail bid it' (store l acc).
Proof.
  intros F G. induction l as [|x l IH]; intros i it acc tail rest C U.
  - exists it. repeat split; [apply C..|exact U].
  - inversion_clear F as [|? ? Fx F']. inversion_clear G as [|? ? Gx G'].
    destruct (resolve_ok x Fx) as [_ Hw]. set (w := fst (slot_entry usize x)) in *.
    cbn [map concat] in U. rewrite <- app_assoc in U.
    assert (Lr : len (raw_of x) = w) by (apply mem_len; lia).
    assert (Ln : length (raw_of x) = Z.to_nat w) by (unfold len in Lr; lia).
    cbn [built app read_slots built1 b_batch b_size b_type b_name]. fold w. rewrite Z.eqb_refl. cbn [bind].
    pose proof (unread_length it C) as Lu. rewrite U, !len_app, Lr in Lu.
    pose proof (len_nonneg (concat (map raw_of l))). pose proof (len_nonneg rest).
    destruct (Z.ltb_spec (len (it_data it)) (it_pos it + w)); [lia|].
    assert (R0 : firstn (Z.to_nat w) (skipn (Z.to_nat (it_pos it)) (it_data it)) = raw_of x).
    { fold (unread it). rewrite U, firstn_app, <- Ln, firstn_all, Nat.sub_diag. cbn [firstn]. apply app_nil_r. }
    rewrite R0, Gx. cbn [bind].
    destruct (unread_advance it (Z.to_nat w) C) as [C' U']; [rewrite U, !app_length; lia|].
    rewrite Z2Nat.id in C', U' by lia. rewrite U in U'. rewrite <- Ln in U'. rewrite skipn_app, skipn_all, Nat.sub_diag in U'. cbn [app skipn] in U'.
    destruct (IH F' G' (i + 1) _ (put (text (fst x)) (g x) acc) tail rest C' U') as (it' & C2 & U2 & R).
    exists it'. split; [exact C2|]. split; [exact U2|exact R].
Qed.
Lemma read_batches_ok bs : Forall (fun l => l <> [] /\ Forall slot_ok l /\ Forall (fun x => f (snd x) (raw_of x) = Ok (g x)) l) bs ->
  forall i n it acc rest, 0 <= n - 1 -> n + len bs <= 2 ^ 16 -> cursor_ok it ->
  unread it = layout mem n (map (map (slot_entry usize)) bs) ++ rest ->
  read_slots f (built_all i n bs) (n - 1) it acc = Ok (store (concat bs) acc).
Proof.
  induction 1 as [|l bs (Ne & F & G) Fb IH]; intros i n it acc rest H0 H1 C U.
  - reflexivity.
  - rewrite len_cons in H1. pose proof (len_nonneg bs).
    cbn [map layout] in U. rewrite <- !app_assoc in U.
    assert (L2 : length (le 2 n) = 2%nat) by apply le_length.
    assert (W : (2 <= length (unread it))%nat) by (rewrite U, app_length, L2; lia).
    destruct (unread_advance it 2 C W) as [C1 U1]. change (Z.of_nat 2) with 2 in *.
    rewrite U in U1. rewrite skipn_app, L2 in U1. rewrite skipn_all2 in U1 by lia. cbn [app Nat.sub skipn] in U1.
    rewrite map_map in U1. change (fun x => mem (snd (slot_entry usize x)) (fst (slot_entry usize x))) with raw_of in U1.
    assert (B : exists it', cursor_ok it' /\ unread it' = layout mem (n + 1) (map (map (slot_entry usize)) bs) ++ rest /\
      read_slots f (built i n true l ++ built_all (i + len l) (n + 1) bs) n (item_at it (it_pos it + 2)) acc =
      read_slots f (built_all (i + len l) (n + 1) bs) n it' (store l acc)) by now apply read_batch.
    destruct B as (it' & C' & U' & R). cbn [built_all concat]. unfold store. rewrite fold_left_app. fold (store l acc).
    change (fold_left (fun (a : list (bytes * A)) x => put (text (fst x)) (g x) a) (concat bs) (store l acc)) with (store (concat bs) (store l acc)).
    specialize (IH (i + len l) (n + 1) it' (store l acc) rest). replace (n + 1 - 1) with n in IH by lia.
    rewrite <- IH by (try lia; assumption). rewrite <- R.
    destruct l as [|x l]; [congruence|].
    cbn [built app read_slots built1 b_batch b_size b_type b_name].
    destruct (Z.eqb_spec n (n - 1)); [lia|]. rewrite Z.eqb_refl.
    rewrite item_uint_fits by (try lia; assumption). cbn [bind]. reflexivity.
Qed.
End read.
End slots.

(** ** A buffer's life *)
Inductive does : act -> op -> Prop :=
| does_one x : does (Put [x]) (OAdd (text (fst x)) (snd x))
| does_map l : does (Put l) (OAddMap (map pair_of l))
| does_send : does Send OSync
| does_read : does Look ORead
| does_raw : does Look OReadRaw.

(** Room for everything in one reply, a batch number for each tag. *)
Definition need (usize : bytes -> Z) (l : list (tag * Z)) : Z := fold_right (fun x z => 2 + fst (slot_entry usize x) + z) 0 l.

Section life.
Context {S : Type}.
Variable ctl : controller S.
Variables (otid inst : Z) (rep : S -> list (list entry)) (mem : S -> bytes -> Z -> bytes).
Hypothesis dev : table_device ctl otid inst rep mem.
Variable ops : list cl_op.
Variable usize : bytes -> Z.
Notation entries := (map (slot_entry usize)).

Definition inv (bs : list (list (tag * Z))) (p : list (tag * Z)) (u : buf) (s : S) : Prop :=
  u_inst u = inst /\ u_created u = true /\
  u_tags u = built_all usize 1 1 bs ++ built usize (1 + len (concat bs)) 0 false p /\
  (if u_sync u then p = [] else p <> [] \/ bs = []) /\
  Forall (fun l => l <> []) bs /\ rep s = map entries bs.

Lemma batches_fewer {A} (bs : list (list A)) : Forall (fun l => l <> []) bs -> len bs <= len (concat bs).
Proof.
  induction 1 as [|l bs H F IH]; [cbn; lia|]. cbn [concat]. rewrite len_cons, len_app.
  destruct l; [congruence|]. rewrite len_cons. pose proof (len_nonneg l). lia.
Qed.
Lemma buffer_path_len : len (buffer_path inst) < 512.
Proof. unfold buffer_path. rewrite len_app, le_len, !len_cons, len_nil. lia. Qed.

Lemma sync_step bs p u s q : inv bs p u s -> p <> [] -> acceptable usize p -> Forall (slot_ok ops usize) p ->
  len (concat bs ++ p) < 2 ^ 16 ->
  exists u' s', sync_tags ctl s otid q u = (Ok tt, u', s', q + 1) /\ inv (bs ++ [p]) [] u' s' /\ u_sync u' = true /\ u_exp u' = u_exp u.
Proof.
  intros (Hi & Hc & Ht & Hs & Hb & Hr) Ne (L1 & L2) F Ht'. destruct dev as (_ & Dadd & _).
  pose proof (batches_fewer _ Hb). rewrite len_app in Ht'.
  assert (Lp : 1 <= len p) by (destruct p as [|p0 pl]; [congruence|rewrite len_cons; pose proof (len_nonneg pl); lia]).
  assert (Lr : len (rep s) = len bs) by (rewrite Hr; unfold len; now rewrite map_length).
  assert (Ne' : entries p <> []) by (destruct p; [congruence|discriminate]).
  assert (Le' : len (entries p) < 256) by (unfold len in *; rewrite map_length; lia).
  assert (Fe : Forall entry_ok (entries p)) by (apply Forall_map; eapply Forall_impl; [|exact F]; intros x Hx; now apply (entry_of_slot ops)).
  destruct (Dadd s q (entries p) Ne' Le' Fe ltac:(lia)) as (pl & s' & E & R & Rs).
  unfold sync_tags. rewrite Hi.
  assert (Fr : filter (fun b => negb (b_sync b)) (u_tags u) = built usize (1 + len (concat bs)) 0 false p).
  { rewrite Ht, filter_app, fresh_all, fresh_pending. reflexivity. }
  rewrite Fr. rewrite (message_built ops) by assumption. change (table_path inst) with (buffer_path inst).
  rewrite (word_ok ctl s s' otid q _ _ _ 0 pl 0xCE (len (rep s) + 1) buffer_path_len L2) by (try assumption; try reflexivity; pose proof (len_nonneg (rep s)); lia).
  eexists _, s'. split; [reflexivity|]. split; [|split; reflexivity].
  unfold with_tags. split; [exact Hi|]. split; [exact Hc|]. split; [|split; [reflexivity|split]].
  - cbn [u_tags]. rewrite Ht, map_app, synched_all, synched_pending. cbn [built]. rewrite app_nil_r, built_all_app. cbn [built_all].
    rewrite app_nil_r, Lr. f_equal. f_equal; lia.
  - apply Forall_app. split; [exact Hb|]. now repeat constructor.
  - rewrite Rs, Hr, map_app. reflexivity.
Qed.

Lemma entry_total (l : list (tag * Z)) : fold_right (fun e y => fst e + y) 0 (entries l) = need usize l - 2 * len l.
Proof. induction l as [|x l IH]; [reflexivity|]. cbn [map fold_right need]. fold (need usize l). rewrite IH, len_cons. lia. Qed.
Lemma need_app a b : need usize (a ++ b) = need usize a + need usize b.
Proof. unfold need. induction a as [|x a IH]; cbn [app fold_right]; [reflexivity|]. rewrite IH. lia. Qed.
Lemma total_need bs : Forall (fun l => l <> []) bs -> total (map entries bs) <= need usize (concat bs).
Proof.
  induction 1 as [|l bs H F IH]; [cbn; lia|]. cbn [map concat]. rewrite need_app. unfold total. cbn [fold_right]. fold (total (map entries bs)).
  rewrite entry_total. assert (1 <= len l) by (destruct l as [|l0 ll]; [congruence|rewrite len_cons; pose proof (len_nonneg ll); lia]). lia.
Qed.

Lemma read_step {A} (f : Z -> bytes -> res A) bs p u s q : inv bs p u s -> (p = [] \/ acceptable usize p) -> Forall (slot_ok ops usize) (concat bs ++ p) ->
  len (concat bs ++ p) < 2 ^ 16 -> need usize (concat bs ++ p) < 60000 -> concat bs ++ p <> [] ->
  exists bs' u' s' q' it extra, concat bs' = concat bs ++ p /\ inv bs' [] u' s' /\ u_sync u' = true /\ u_exp u' = u_exp u /\
    read_with f ctl s otid q u = (read_slots f (built_all usize 1 1 bs') 0 it [], u', s', q') /\
    cursor_ok it /\ unread it = layout (mem s') 1 (map entries bs') ++ extra.
Proof.
  intros I Hp Fa Hl Hn Ne. assert (F : Forall (slot_ok ops usize) p) by (rewrite Forall_app in Fa; tauto).
  assert (R : exists bs' u' s' q', concat bs' = concat bs ++ p /\ inv bs' [] u' s' /\ u_sync u' = true /\ u_exp u' = u_exp u /\
    (if u_sync u then (Ok tt, u, s, q) else sync_tags ctl s otid q u) = (Ok tt, u', s', q')).
  { destruct (u_sync u) eqn:Es.
    - exists bs, u, s, q. assert (p = []) by (destruct I as (_ & _ & _ & X & _); rewrite Es in X; exact X). subst p. rewrite app_nil_r. auto.
    - assert (Np : p <> []).
      { destruct I as (_ & _ & _ & X & _). rewrite Es in X. destruct X as [X|X]; [exact X|]. subst bs. exact Ne. }
      destruct Hp as [Hp|Hp]; [congruence|].
      destruct (sync_step bs p u s q I Np Hp F Hl) as (u' & s' & E & I' & X & Y). exists (bs ++ [p]), u', s', (q + 1).
      rewrite concat_app. cbn [concat]. rewrite app_nil_r. auto. }
  destruct R as (bs' & u1 & s1 & q1 & Ec & I1 & Y1 & X1 & R).
  destruct I1 as (Hi & Hc & Ht & Hs & Hb & Hr). destruct dev as (_ & _ & Dread).
  destruct (Dread s1 q1) as (pl & s2 & extra & E & Rp & Rs).
  { rewrite Hr. rewrite <- Ec in Fa. clear -Fa. induction bs' as [|l bs' IH]; cbn [map concat] in *; [constructor|]. apply Forall_app in Fa as [F1 F2].
    constructor; [|now apply IH]. apply Forall_map. eapply Forall_impl; [|exact F1]. intros x. apply entry_of_slot. }
  { rewrite Hr. pose proof (total_need bs' Hb). rewrite Ec in *. lia. }
  destruct (generic_ok ctl s1 s2 otid q1 0x4C (buffer_path inst) [] 0 pl 0xCC _ buffer_path_len eq_refl E Rp ltac:(lia) eq_refl) as (it & G & C & U).
  exists bs', u1, s2, (q1 + 1), it, extra. split; [exact Ec|]. split; [repeat split; try assumption; congruence|]. split; [exact Y1|]. split; [exact X1|].
  split; [|split; [exact C|]].
  - unfold read_with. assert (Cu : u_created u = true) by apply I. rewrite Cu. cbn [negb].
    destruct (u_tags u) as [|t0 ts] eqn:Et.
    { exfalso. destruct I as (_ & _ & Ht0 & _). rewrite Et in Ht0. apply (f_equal len) in Ht0.
      rewrite len_app, built_all_length, built_length, <- len_app in Ht0. change (len (@nil btag)) with 0 in Ht0.
      destruct (concat bs ++ p); [congruence|]. rewrite len_cons in Ht0. pose proof (len_nonneg l). lia. }
    rewrite R. rewrite Hi. change (table_path inst) with (buffer_path inst). rewrite G. rewrite Ht. cbn [built]. rewrite app_nil_r, by_index_built. reflexivity.
  - rewrite U, <- Hr. reflexivity.
Qed.

Lemma act_step a o bs p u s q rest : does a o -> inv bs p u s -> paced (acceptable usize) (a :: rest) p ->
  Forall (slot_ok ops usize) (concat bs ++ p ++ added (a :: rest)) -> len (concat bs ++ p ++ added (a :: rest)) < 2 ^ 16 ->
  need usize (concat bs ++ p ++ added (a :: rest)) < 60000 -> 
  exists r u' s' q' bs' p', step ctl (cl_run ops) usize otid o u s q = (r, u', s', q') /\ inv bs' p' u' s' /\
    paced (acceptable usize) rest p' /\ concat bs' ++ p' ++ added rest = concat bs ++ p ++ added (a :: rest) /\ u_exp u' = u_exp u.
Proof.
  intros D I P F L N.
  assert (PutCase : forall l (x : res unit * buf), a = Put l -> x = (Ok tt, with_tags u (u_tags u ++ built usize (1 + len (concat bs) + len p) 0 false l) false) ->
    exists bs' p', inv bs' p' (snd x) s /\ paced (acceptable usize) rest p' /\ concat bs' ++ p' ++ added rest = concat bs ++ p ++ added (a :: rest) /\ u_exp (snd x) = u_exp u).
  { intros l x -> ->. cbn [paced] in P. destruct P as [Nl P]. exists bs, (p ++ l). cbn [snd]. split; [|split; [exact P|split; [|reflexivity]]].
    - destruct I as (Hi & Hc & Ht & Hs & Hb & Hr). unfold inv, with_tags. cbn [u_inst u_created u_tags u_sync].
      split; [exact Hi|]. split; [exact Hc|]. split; [|split; [|split; assumption]].
      + rewrite Ht, built_app, <- app_assoc. reflexivity.
      + left. destruct p; [exact Nl|discriminate].
    - unfold added. cbn [map concat]. now rewrite <- !app_assoc. }
  assert (Lt : len (u_tags u) = len (concat bs) + len p).
  { destruct I as (_ & _ & -> & _). now rewrite len_app, built_all_length, built_length. }
  assert (Cu : u_created u = true) by apply I.
  assert (Ladd : forall l, a = Put l -> len (concat bs) + len p + len l < 2 ^ 16 /\ Forall (slot_ok ops usize) l).
  { intros l ->. unfold added in L, F. cbn [map concat] in L, F. rewrite !len_app in L. pose proof (len_nonneg (concat (map (fun a => match a with Put l => l | _ => [] end) rest))).
    rewrite !Forall_app in F. split; [lia|tauto]. }
  assert (Fp : Forall (slot_ok ops usize) p) by (rewrite !Forall_app in F; tauto).
  assert (Fa : Forall (slot_ok ops usize) (concat bs ++ p)) by (rewrite !Forall_app in *; tauto).
  assert (Lp : len (concat bs ++ p) < 2 ^ 16) by (rewrite !len_app in *; pose proof (len_nonneg (added (a :: rest))); lia).
  assert (Npos : forall l, Forall (slot_ok ops usize) l -> 0 <= need usize l).
  { induction 1 as [|x l Hx _ IH]; [cbn; lia|]. cbn [need fold_right]. fold (need usize l). destruct (resolve_ok ops usize x Hx) as [_ Hw]. lia. }
  assert (Np : need usize (concat bs ++ p) < 60000).
  { rewrite !need_app in *. assert (X := Npos (added (a :: rest)) ltac:(rewrite !Forall_app in F; tauto)). lia. }
  assert (LookCase : forall (A : Type) (f : Z -> bytes -> res A), a = Look ->
    exists r u' s' q' bs' p', read_with f ctl s otid q u = (r, u', s', q') /\ inv bs' p' u' s' /\
    paced (acceptable usize) rest p' /\ concat bs' ++ p' ++ added rest = concat bs ++ p ++ added (a :: rest) /\ u_exp u' = u_exp u).
  { intros A f ->. cbn [paced] in P. destruct P as [Pa P].
    change (added (Look :: rest)) with (added rest).
    destruct (concat bs ++ p) as [|x0 l0] eqn:E0.
    - apply app_eq_nil in E0 as [E0 ->]. eexists _, u, s, q, bs, []. rewrite E0. cbn [app]. split; [|auto].
      unfold read_with. rewrite Cu. cbn [negb]. destruct (u_tags u); [reflexivity|].
      rewrite E0, len_cons in Lt. change (len (@nil (tag * Z))) with 0 in Lt. pose proof (len_nonneg l). lia.
    - rewrite <- E0 in *.
      destruct (read_step f bs p u s q I Pa Fa Lp Np ltac:(rewrite E0; discriminate)) as (bs' & u' & s' & q' & it & extra & Ec & I' & _ & X & R & _).
      eexists _, u', s', q', bs', []. split; [exact R|]. split; [exact I'|]. split; [exact P|]. split; [|exact X].
      cbn [app]. rewrite Ec, <- app_assoc. reflexivity. }
  destruct D as [x|l| | |].
  - cbn [step]. unfold add_tag. rewrite Cu. cbn [negb]. destruct (Ladd [x] eq_refl) as [L1 F1]. inversion_clear F1 as [|? ? Fx _].
    change (len [x]) with 1 in L1. pose proof (len_nonneg (u_tags u)). rewrite Z.mod_small by lia. rewrite (slot_of_ok ops usize x _ Fx).
    destruct (PutCase [x] (Ok tt, with_tags u (u_tags u ++ [built1 usize (len (u_tags u) + 1) 0 false x]) false) eq_refl) as (bs' & p' & H').
    { cbn [built]. do 3 f_equal. f_equal. f_equal. lia. }
    eexists _, _, s, q, bs', p'. split; [reflexivity|exact H'].
  - cbn [step]. unfold add_tags. rewrite Cu. cbn [negb]. destruct (Ladd l eq_refl) as [L1 F1]. pose proof (len_nonneg (u_tags u)).
    rewrite (slots_of_ok ops usize l F1) by lia.
    destruct (PutCase l (Ok tt, with_tags u (u_tags u ++ built usize (len (u_tags u) + 1) 0 false l) false) eq_refl) as (bs' & p' & H').
    { do 3 f_equal. f_equal. lia. }
    eexists _, _, s, q, bs', p'. split; [reflexivity|exact H'].
  - cbn [step]. cbn [paced] in P. destruct P as (Ne & Pa & P).
    destruct (sync_step bs p u s q I Ne Pa Fp Lp) as (u' & s' & E & I' & _ & X).
    eexists _, u', s', _, (bs ++ [p]), []. split; [exact E|]. split; [exact I'|]. split; [exact P|]. split; [|exact X].
    rewrite concat_app. cbn [concat app]. rewrite app_nil_r, <- app_assoc. reflexivity.
  - destruct (LookCase _ decode_table eq_refl) as (r & u' & s' & q' & bs' & p' & R & H'). cbn [step]. unfold read_all. rewrite R.
    eexists _, u', s', q', bs', p'. split; [reflexivity|exact H'].
  - destruct (LookCase _ (fun _ raw => Ok raw) eq_refl) as (r & u' & s' & q' & bs' & p' & R & H'). cbn [step]. unfold read_all_raw. rewrite R.
    eexists _, u', s', q', bs', p'. split; [reflexivity|exact H'].
Qed.

Lemma acts_run h os : Forall2 does h os -> forall bs p u s q, inv bs p u s -> paced (acceptable usize) h p ->
  Forall (slot_ok ops usize) (concat bs ++ p ++ added h) -> len (concat bs ++ p ++ added h) < 2 ^ 16 ->
  need usize (concat bs ++ p ++ added h) < 60000 ->
  exists rs u' s' q' bs' p', run ctl (cl_run ops) usize otid os u s q = (rs, u', s', q') /\ inv bs' p' u' s' /\
    (p' = [] \/ acceptable usize p') /\ concat bs' ++ p' = concat bs ++ p ++ added h /\ u_exp u' = u_exp u.
Proof.
  induction 1 as [|a o h os D F2 IH]; intros bs p u s q I P F L N; cbn [run].
  - eexists _, u, s, q, bs, p. split; [reflexivity|]. split; [exact I|]. split; [exact P|]. split; [|reflexivity]. unfold added. cbn. now rewrite app_nil_r.
  - destruct (act_step a o bs p u s q h D I P F L N) as (r & u1 & s1 & q1 & bs1 & p1 & E & I1 & P1 & Ec & X1). rewrite E.
    rewrite <- Ec in F, L, N. destruct (IH bs1 p1 u1 s1 q1 I1 P1 F L N) as (rs & u2 & s2 & q2 & bs2 & p2 & E2 & I2 & P2 & Ec2 & X2). rewrite E2.
    eexists _, u2, s2, q2, bs2, p2. split; [reflexivity|]. split; [exact I2|]. split; [exact P2|]. split; [|congruence]. now rewrite Ec2, Ec.
Qed.
End life.

(** ** The result map *)
Lemma lookup_put {A} k (v : A) m k' : lookup k' (put k v m) = if bseq k' k then Some v else lookup k' m.
Proof.
  induction m as [|[k0 v0] m IH]; cbn [put lookup]; [destruct (bseq k' k); reflexivity|].
  destruct (bseq k k0) eqn:E.
  - apply bseq_spec in E. subst k0. cbn [lookup]. destruct (bseq k' k); reflexivity.
  - cbn [lookup]. rewrite IH. destruct (bseq k' k0) eqn:E0; [|reflexivity].
    apply bseq_spec in E0. subst k'. destruct (bseq k0 k) eqn:E1; [|reflexivity]. apply bseq_spec in E1. subst k0. now rewrite bseq_refl in E.
Qed.
Lemma lookup_store {A} (g : tag * Z -> A) l : forall acc n,
  lookup n (store g l acc) = match latest n l with Some x => Some (g x) | None => lookup n acc end.
Proof.
  induction l as [|x l IH]; intros acc n; cbn [store fold_left latest]; [reflexivity|].
  fold (store g l (put (text (fst x)) (g x) acc)). rewrite IH, lookup_put.
  destruct (latest n l); [reflexivity|]. destruct (bseq n (text (fst x))); reflexivity.
Qed.
Lemma put_nodup {A} k (v : A) m : NoDup (map fst m) -> NoDup (map fst (put k v m)).
Proof.
  induction m as [|[k' v'] m IH]; cbn [put map fst]; intros N; [constructor; [intros []|constructor]|].
  inversion_clear N as [|? ? N1 N2]. destruct (bseq k k') eqn:E.
  - apply bseq_spec in E. subst k'. cbn [map fst]. constructor; assumption.
  - cbn [map fst]. constructor; [|now apply IH]. intros I. apply N1.
    clear IH N1 N2. induction m as [|[k0 v0] m IH]; cbn [put map fst In] in *.
    + destruct I as [->|[]]. now rewrite bseq_refl in E.
    + destruct (bseq k k0) eqn:E0; cbn [map fst In] in I.
      * apply bseq_spec in E0. subst k0. exact I.
      * destruct I as [I|I]; [now left|right; now apply IH].
Qed.
Lemma store_nodup {A} (g : tag * Z -> A) l : forall acc, NoDup (map fst acc) -> NoDup (map fst (store g l acc)).
Proof. induction l as [|x l IH]; intros acc H; cbn [store fold_left]; [exact H|]. apply IH. now apply put_nodup. Qed.

Lemma decode_shown t raw v : shown t raw v -> decode_table t raw = Ok v.
Proof.
  intros [v' E N1 N2 N3|s pad Ht -> L]; unfold decode_table; change T_string with 255; change T_struct with 160.
  - destruct (Z.eqb_spec t 255); [congruence|]. destruct (Z.eqb_spec t 160); [congruence|]. cbn [orb].
    rewrite <- (app_nil_r raw). rewrite (read_value_encodes t v' raw [] E N1). reflexivity.
  - replace ((t =? 255) || (t =? 160)) with true by lia.
    assert (L4 : length (le 4 (len s)) = 4%nat) by apply le_length.
    pose proof (len_nonneg s). pose proof (len_nonneg pad).
    rewrite !len_app, le_len. change (Z.of_nat 4) with 4. destruct (Z.ltb_spec (4 + (len s + len pad)) 4); [lia|].
    assert (E4 : firstn 4 (le 4 (len s) ++ s ++ pad) = le 4 (len s) /\ skipn 4 (le 4 (len s) ++ s ++ pad) = s ++ pad) by (split; reflexivity).
    destruct E4 as [-> ->]. rewrite unle_le_small by (change (256 ^ Z.of_nat 4) with (2 ^ 32); lia).
    destruct (Z.ltb_spec (4 + (len s + len pad) - 4) (len s)); [lia|]. destruct (Z.ltb_spec 82 (len s)); [lia|].
    rewrite firstn_app. unfold len. rewrite Nat2Z.id, firstn_all, Nat.sub_diag. cbn [firstn]. now rewrite app_nil_r.
Qed.

(** ** Groups *)
Lemma bump_0 t : element t -> bump t 0 = t.
Proof.
  intros (_ & E). destruct t as [ms b]. unfold bump. cbn [t_members t_bit] in *. f_equal.
  destruct ms as [|m0 ms]; [now destruct E|]. set (d := {| m_name := []; m_subs := [] |}) in *.
  rewrite (app_removelast_last d (l := m0 :: ms)) at 3 by discriminate. f_equal. f_equal. set (m := last _ _) in *.
  destruct m as [n subs]. unfold bump_member. cbn [m_name m_subs] in *. f_equal. rewrite Z.add_0_r. symmetry. now apply app_removelast_last.
Qed.
Lemma members_names g : part_ok g -> Forall (fun x => valid_tag (fst x)) (members g) ->
  map (fun x => text (fst x)) (members g) = (if 1 <? g_count g then expand_array (text (g_tag g)) (g_count g) else [text (g_tag g)]) /\
  (exists r, members g = (g_tag g, g_type g) :: r) /\ Forall (fun x => snd x = g_type g) (members g) /\
  (forall value, match map value (members g) with [v] => v | vs => GList vs end = whole value g).
Proof.
  intros (C & El) V. unfold members, whole in *. destruct (Z.eqb_spec (g_count g) 1) as [E|E].
  - rewrite E. change (1 <? 1) with false. cbn [map fst]. repeat split; [now exists []|constructor; [reflexivity|constructor]].
  - replace (1 <? g_count g) with true by lia. assert (El' := El ltac:(lia)).
    assert (P : exists x r, parts g = (g_tag g, g_type g) :: x :: r).
    { unfold parts. replace (Z.to_nat (g_count g)) with (2 + (Z.to_nat (g_count g - 2)))%nat by lia. cbn [plus from map]. rewrite bump_0 by exact El'. eauto. }
    split; [|split; [|split]].
    + rewrite expand_elements; [|destruct P as (x & r & P); rewrite P in V; now inversion V|exact El'|exact C].
      unfold parts. rewrite map_map. reflexivity.
    + destruct P as (x & r & P). rewrite P. eauto.
    + unfold parts. apply Forall_map. apply Forall_forall. reflexivity.
    + intros value. destruct P as (x & r & P). rewrite P. reflexivity.
Qed.

Lemma put_new {A} k (v : A) m : ~ In k (map fst m) -> put k v m = m ++ [(k, v)].
Proof.
  induction m as [|[k' v'] m IH]; cbn [put map fst In app]; intros H; [reflexivity|].
  destruct (bseq k k') eqn:E; [apply bseq_spec in E; subst; tauto|]. f_equal. apply IH. tauto.
Qed.
Lemma fold_put_new {A B} (key : B -> bytes) (val : B -> A) l : forall acc, NoDup (map fst acc ++ map key l) ->
  fold_left (fun m x => put (key x) (val x) m) l acc = acc ++ map (fun x => (key x, val x)) l.
Proof.
  induction l as [|x l IH]; intros acc N; cbn [fold_left map]; [now rewrite app_nil_r|]. cbn [map] in N.
  assert (N' := N). apply NoDup_remove_2 in N'. rewrite put_new by (intros I; apply N'; apply in_or_app; now left).
  rewrite IH; [now rewrite <- app_assoc|]. rewrite map_app, <- app_assoc. exact N.
Qed.

Lemma need_perm usize a b : Permutation a b -> need usize a = need usize b.
Proof. induction 1; unfold need in *; cbn [fold_right]; lia. Qed.
Lemma add_len (es : list entry) : len (add_data es) = 5 + fold_right (fun e z => len (le 2 (fst e) ++ [len (snd e) / 2] ++ snd e) + z) 0 es.
Proof.
  unfold add_data. rewrite len_app. change (len [2; 0; 1; 1; len es]) with 5. f_equal. induction es as [|e es IH]; [reflexivity|].
  cbn [map concat fold_right]. now rewrite len_app, IH.
Qed.
Lemma acceptable_perm usize a b : Permutation a b -> acceptable usize a -> acceptable usize b.
Proof.
  intros P (L & A). unfold acceptable. split; [unfold len in *; now rewrite <- (Permutation_length P)|].
  rewrite add_len in *. apply (Permutation_map (slot_entry usize)) in P. revert A.
  enough (E : forall x y : list entry, Permutation x y -> fold_right (fun e z => len (le 2 (fst e) ++ [len (snd e) / 2] ++ snd e) + z) 0 x = fold_right (fun e z => len (le 2 (fst e) ++ [len (snd e) / 2] ++ snd e) + z) 0 y) by (rewrite (E _ _ P); trivial).
  clear. induction 1; cbn [fold_right]; lia.
Qed.

Section groups.
Context {S : Type}.
Variable ctl : controller S.
Variables (otid inst : Z) (rep : S -> list (list entry)) (mem : S -> bytes -> Z -> bytes).
Hypothesis dev : table_device ctl otid inst rep mem.
Variable ops : list cl_op.
Variable usize : bytes -> Z.

Lemma acts_then h os rest : Forall2 does h os -> forall bs p u s q, inv inst rep usize bs p u s -> paced (acceptable usize) (h ++ rest) p ->
  Forall (slot_ok ops usize) (concat bs ++ p ++ added (h ++ rest)) -> len (concat bs ++ p ++ added (h ++ rest)) < 2 ^ 16 ->
  need usize (concat bs ++ p ++ added (h ++ rest)) < 60000 ->
  exists rs u' s' q' bs' p', run ctl (cl_run ops) usize otid os u s q = (rs, u', s', q') /\ inv inst rep usize bs' p' u' s' /\
    paced (acceptable usize) rest p' /\ concat bs' ++ p' ++ added rest = concat bs ++ p ++ added (h ++ rest) /\ u_exp u' = u_exp u.
Proof.
  induction 1 as [|a o h os D F2 IH]; intros bs p u s q I P F L N; cbn [run].
  - eexists _, u, s, q, bs, p. split; [reflexivity|]. split; [exact I|]. split; [exact P|]. split; reflexivity.
  - change ((a :: h) ++ rest) with (a :: (h ++ rest)) in *.
    destruct (act_step ctl otid inst rep mem dev ops usize a o bs p u s q (h ++ rest) D I P F L N) as (r & u1 & s1 & q1 & bs1 & p1 & E & I1 & P1 & Ec & X1). rewrite E.
    rewrite <- Ec in F, L, N. destruct (IH bs1 p1 u1 s1 q1 I1 P1 F L N) as (rs & u2 & s2 & q2 & bs2 & p2 & E2 & I2 & P2 & Ec2 & X2). rewrite E2.
    eexists _, u2, s2, q2, bs2, p2. split; [reflexivity|]. split; [exact I2|]. split; [exact P2|]. split; [|congruence]. now rewrite Ec2, Ec.
Qed.

Lemma read_all_values value bs p u s q : inv inst rep usize bs p u s -> (p = [] \/ acceptable usize p) ->
  Forall (slot_ok ops usize) (concat bs ++ p) -> len (concat bs ++ p) < 2 ^ 16 -> need usize (concat bs ++ p) < 60000 -> concat bs ++ p <> [] ->
  (forall s x, In x (concat bs ++ p) -> shown (snd x) (mem s (encode (fst x)) (fst (slot_entry usize x))) (value s x)) ->
  exists u2 s2 q2, read_all ctl s otid q u = (Ok (store (value s2) (concat bs ++ p) []), u2, s2, q2) /\ u_exp u2 = u_exp u.
Proof.
  intros I Pa F L N Ne V.
  destruct (read_step ctl otid inst rep mem dev ops usize decode_table bs p u s q I Pa F L N Ne) as (bs' & u2 & s2 & q2 & it & extra & Ec' & I' & _ & X & R & C & U).
  rewrite <- Ec' in *. destruct dev as (M & _).
  assert (Rd : read_slots decode_table (built_all usize 1 1 bs') (1 - 1) it [] = Ok (store (value s2) (concat bs') [])).
  { eapply (read_batches_ok ops usize _ (mem s2)); [now apply M| |lia| |exact C|exact U].
    - assert (Nb : Forall (fun l => l <> []) bs') by apply I'. specialize (V s2). clear -F Nb V. induction bs' as [|l bs' IH]; [constructor|].
      cbn [concat] in F. apply Forall_app in F as [F1 F2]. inversion_clear Nb as [|? ? N1 N2]. constructor.
      + split; [exact N1|]. split; [exact F1|]. apply Forall_forall. intros x Ix.
        apply decode_shown. apply V. cbn [concat]. apply in_or_app. now left.
      + apply IH; [exact F2| |exact N2]. intros x Ix. apply V. cbn [concat]. apply in_or_app. now right.
    - assert (Y := batches_fewer bs' ltac:(apply I')). lia. }
  exists u2, s2, q2. split; [|exact X]. unfold read_all. rewrite R. change 0 with (1 - 1) at 1. rewrite Rd. reflexivity.
Qed.
End groups.

(** Collapsing. *)
Definition exp_of (g : part) : bytes * list bytes := (text (g_tag g), map (fun x => text (fst x)) (members g)).
Lemma collapse_ok (value : tag * Z -> gval) m gs : Forall (fun g => part_ok g /\ Forall (fun x => valid_tag (fst x)) (members g)) gs ->
  (forall g x, In g gs -> In x (members g) -> lookup (text (fst x)) m = Some (value x)) -> forall acc,
  collapse m (map exp_of gs) acc = Ok (fold_left (fun a g => put (text (g_tag g)) (whole value g) a) gs acc).
Proof.
  intros F. induction F as [|g gs [Pg Vg] F IH]; intros L acc; cbn [map collapse exp_of fold_left]; [reflexivity|].
  assert (E : lookup_all m (map (fun x => text (fst x)) (members g)) = Ok (map value (members g))).
  { assert (Lg := fun x => L g x (or_introl eq_refl)). clear -Lg. induction (members g) as [|x l IH]; cbn [map lookup_all]; [reflexivity|].
    rewrite (Lg x) by now left. rewrite IH by (intros y I; apply Lg; now right). reflexivity. }
  rewrite E. cbn [bind]. destruct (members_names g Pg Vg) as (_ & (r & Er) & _ & W). specialize (W value). rewrite <- W.
  assert (IH' := IH (fun g x I => L g x (or_intror I))). rewrite Er. cbn [map]. destruct (map value r); apply IH'.
Qed.
Lemma NoDup_app_remove_l {A} (l l' : list A) : NoDup (l ++ l') -> NoDup l'.
Proof. induction l as [|a l IH]; cbn [app]; intros N; [exact N|]. apply IH. now inversion N. Qed.
Lemma NoDup_app_remove_r {A} (l l' : list A) : NoDup (l ++ l') -> NoDup l.
Proof.
  induction l as [|a l IH]; cbn [app]; intros N; [constructor|]. inversion_clear N as [|? ? N1 N2]. constructor; [|now apply IH].
  intros I. apply N1. apply in_or_app. now left.
Qed.
