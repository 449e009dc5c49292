(** * Removing tags from a data table buffer: proofs *)
From Verif Require Import GoBase SegModel IoiModel IoiSpec IoiProof TypesModel ItemsModel ItemsSpec ItemsProof
  ReadModel ReadSpec ReadProof AttrModel AttrSpec AttrProof GroupModel GroupSpec GroupProof DataModel DataSpec DataProof DropSpec.

Lemma len_none A : len (@nil A) = 0.
Proof. reflexivity. Qed.
Lemma keep_app {A} (a b : list (option A)) : keep (a ++ b) = keep a ++ keep b.
Proof. unfold keep. now rewrite map_app, concat_app. Qed.
Lemma keep_some {A} (l : list A) : keep (map Some l) = l.
Proof. unfold keep. induction l as [|x l IH]; cbn; [reflexivity|]. now rewrite IH. Qed.
Lemma keep_cons {A} (o : option A) l : keep (o :: l) = match o with Some x => x :: keep l | None => keep l end.
Proof. destruct o; reflexivity. Qed.
Lemma keep_map {A B} (g : A -> B) l : keep (map (option_map g) l) = map g (keep l).
Proof. induction l as [|[x|] l IH]; cbn [map]; rewrite ?keep_cons; cbn [option_map]; rewrite ?keep_cons; cbn [map]; now rewrite ?IH. Qed.
Lemma wiped_cons {A} k (o : option A) l : wiped (S k) (o :: l) = o :: wiped k l.
Proof. reflexivity. Qed.
Lemma wiped_map {A B} (g : A -> B) k l : map (option_map g) (wiped k l) = wiped k (map (option_map g) l).
Proof. unfold wiped. now rewrite map_app, firstn_map, map_cons, skipn_map. Qed.
Lemma wipe_map {A B} (g : A -> B) bs : forall k, map (map (option_map g)) (wipe k bs) = wipe k (map (map (option_map g)) bs).
Proof.
  induction bs as [|l bs IH]; intros k; cbn [wipe map]; [reflexivity|]. rewrite map_length.
  destruct (k <? length l)%nat; cbn [map]; [now rewrite wiped_map|now rewrite IH].
Qed.
Lemma wiped_length {A} k (l : list (option A)) : (k < length l)%nat -> length (wiped k l) = length l.
Proof. intros H. unfold wiped. rewrite app_length, firstn_length. cbn [length]. rewrite skipn_length. lia. Qed.
Lemma wipe_concat_length {A} (bs : list (list (option A))) : forall k, length (concat (wipe k bs)) = length (concat bs).
Proof.
  induction bs as [|l bs IH]; intros k; cbn [wipe concat]; [reflexivity|].
  destruct (k <? length l)%nat eqn:E; cbn [concat]; rewrite !app_length.
  - rewrite wiped_length; [reflexivity|]. now apply Nat.ltb_lt.
  - now rewrite IH.
Qed.
Lemma wipe_length {A} (bs : list (list (option A))) : forall k, length (wipe k bs) = length bs.
Proof. induction bs as [|l bs IH]; intros k; cbn [wipe]; [reflexivity|]. destruct (_ <? _)%nat; cbn [length]; now rewrite ?IH. Qed.

Definition name_of (x : tag * Z) : bytes := text (fst x).

Section slots.
Variable ops : list cl_op.
Variable usize : bytes -> Z.
Notation built1 := (built1 usize).
Notation built := (built usize).
Notation slot_ok := (slot_ok ops usize).
Fixpoint alive (i bid : Z) (l : list (option (tag * Z))) : list btag :=
  match l with
  | [] => []
  | Some x :: r => built1 i bid true x :: alive (i + 1) bid r
  | None :: r => alive (i + 1) bid r
  end.
Fixpoint alive_all (i bid : Z) (bs : list (list (option (tag * Z)))) : list btag :=
  match bs with [] => [] | l :: r => alive i bid l ++ alive_all (i + len l) (bid + 1) r end.

Lemma alive_some l : forall i bid, alive i bid (map Some l) = built i bid true l.
Proof. induction l as [|x l IH]; intros i bid; cbn; [reflexivity|]. now rewrite IH. Qed.
Lemma alive_all_app a b : forall i bid, alive_all i bid (a ++ b) = alive_all i bid a ++ alive_all (i + len (concat a)) (bid + len a) b.
Proof.
  induction a as [|x a IH]; intros i bid; cbn [alive_all app concat].
  - rewrite !len_none, !Z.add_0_r. reflexivity.
  - rewrite IH, len_app, len_cons, <- app_assoc. do 3 f_equal; lia.
Qed.
Lemma alive_length l : forall i bid, len (alive i bid l) = len (keep l).
Proof. induction l as [|[x|] l IH]; intros i bid; cbn [alive]; rewrite ?keep_cons; [reflexivity| |]; rewrite ?len_cons, IH; reflexivity. Qed.
Lemma alive_all_length bs : forall i bid, len (alive_all i bid bs) = len (keep (concat bs)).
Proof. induction bs as [|l bs IH]; intros i bid; cbn [alive_all concat]; [reflexivity|]. now rewrite keep_app, !len_app, alive_length, IH. Qed.
Lemma alive_synced l : forall i bid, filter (fun b => negb (b_sync b)) (alive i bid l) = [].
Proof. induction l as [|[x|] l IH]; intros i bid; cbn [alive]; [reflexivity| |apply IH]. cbn. apply IH. Qed.
Lemma alive_all_synced bs : forall i bid, filter (fun b => negb (b_sync b)) (alive_all i bid bs) = [].
Proof. induction bs as [|l bs IH]; intros i bid; cbn [alive_all]; [reflexivity|]. now rewrite filter_app, alive_synced, IH. Qed.
Lemma synched_alive n l : forall i bid, map (synched n) (alive i bid l) = alive i bid l.
Proof. induction l as [|[x|] l IH]; intros i bid; cbn [alive]; [reflexivity| |apply IH]. cbn. now rewrite IH. Qed.
Lemma synched_alive_all n bs : forall i bid, map (synched n) (alive_all i bid bs) = alive_all i bid bs.
Proof. induction bs as [|l bs IH]; intros i bid; cbn [alive_all]; [reflexivity|]. now rewrite map_app, synched_alive, IH. Qed.
Lemma alive_ascending l b : forall i j bid, j <= i -> (forall k, k <= i + len l -> ascending k b) -> ascending j (alive i bid l ++ b).
Proof.
  induction l as [|[x|] l IH]; intros i j bid Hj H; cbn [alive app].
  - apply H. rewrite len_none. lia.
  - cbn [ascending DataProof.built1 b_index]. split; [exact Hj|]. apply IH; [lia|]. intros k Hk. apply H. rewrite len_cons. lia.
  - apply IH; [lia|]. intros k Hk. apply H. rewrite len_cons. lia.
Qed.
Lemma alive_all_ascending bs : forall i bid j, j <= i -> ascending j (alive_all i bid bs).
Proof.
  induction bs as [|l bs IH]; intros i bid j Hj; cbn [alive_all]; [exact I|].
  apply alive_ascending; [exact Hj|]. intros k Hk. now apply IH.
Qed.
Lemma by_index_alive bs : by_index (alive_all 1 1 bs) = alive_all 1 1 bs.
Proof. unfold by_index. rewrite (by_index_id _ [] 1); [reflexivity|now apply alive_all_ascending|constructor]. Qed.

(** ** Reading *)
Section read.
Context {A : Type}.
Variable f : Z -> bytes -> res A.
Variable mem : bytes -> Z -> bytes.
Variable g : tag * Z -> A.
Notation raw_of := (raw_of usize mem).
Hypothesis mem_len : forall p n, 0 <= n -> len (mem p n) = n.
Definition readable (x : tag * Z) : Prop := slot_ok x /\ f (snd x) (raw_of x) = Ok (g x).

Lemma read_one i bid x tail it acc rest : readable x -> cursor_ok it -> unread it = raw_of x ++ rest ->
  exists it', cursor_ok it' /\ unread it' = rest /\
    read_slots f (built1 i bid true x :: tail) bid it acc = read_slots f tail bid it' (put (text (fst x)) (g x) acc).
Proof.
  intros [F G] C U.
  destruct (read_batch ops usize f mem g mem_len bid [x] (Forall_cons _ F (Forall_nil _)) (Forall_cons _ G (Forall_nil _)) i it acc tail rest C) as (it' & C' & U' & R).
  - cbn [map concat]. rewrite app_nil_r. exact U.
  - exists it'. auto.
Qed.
Lemma read_alive bid l : Forall readable (keep l) ->
  forall i it acc tail rest, cursor_ok it -> unread it = concat (map raw_of (keep l)) ++ rest ->
  exists it', cursor_ok it' /\ unread it' = rest /\
    read_slots f (alive i bid l ++ tail) bid it acc = read_slots f tail bid it' (store g (keep l) acc).
Proof.
  induction l as [|[x|] l IH]; intros F i it acc tail rest C U.
  - exists it. repeat split; [apply C..|exact U].
  - rewrite keep_cons in *. inversion_clear F as [|? ? Fx F']. cbn [map concat] in U. rewrite <- app_assoc in U.
    cbn [alive app]. destruct (read_one i bid x (alive (i + 1) bid l ++ tail) it acc _ Fx C U) as (it1 & C1 & U1 & R1).
    destruct (IH F' (i + 1) it1 (put (text (fst x)) (g x) acc) tail rest C1 U1) as (it2 & C2 & U2 & R2).
    exists it2. split; [exact C2|]. split; [exact U2|]. rewrite R1. exact R2.
  - rewrite keep_cons in *. apply IH; assumption.
Qed.
Lemma alive_head l : forall i bid x r, keep l = x :: r -> exists j t, alive i bid l = built1 j bid true x :: t.
Proof.
  induction l as [|[y|] l IH]; intros i bid x r E; [discriminate| |]; rewrite keep_cons in E; cbn [alive].
  - injection E as -> _. eauto.
  - eauto.
Qed.
Lemma alive_none l : keep l = [] -> forall i bid, alive i bid l = [].
Proof. induction l as [|[y|] l IH]; intros E i bid; [reflexivity|discriminate|]. cbn [alive]. now apply IH. Qed.
Lemma read_left bs : Forall readable (keep (concat bs)) ->
  forall i n cur it acc rest, cur < n -> cursor_ok it ->
  unread it = layout_left mem n (map (map (option_map (slot_entry usize))) bs) ++ rest ->
  read_slots f (alive_all i n bs) cur it acc = Ok (store g (keep (concat bs)) acc).
Proof.
  induction bs as [|l bs IH]; intros F i n cur it acc rest Hc C U.
  - reflexivity.
  - cbn [concat] in *. rewrite keep_app in *. apply Forall_app in F as [F1 F2].
    cbn [alive_all map layout_left] in *. rewrite keep_map in U.
    destruct (keep l) as [|x xs] eqn:K.
    + rewrite (alive_none l K). cbn [app map] in *. apply (IH F2 _ (n + 1) cur it acc rest); [lia|exact C|exact U].
    + cbn [map] in U. rewrite <- !app_assoc in U.
      assert (L2 : length (le 2 n) = 2%nat) by apply le_length.
      assert (W : (2 <= length (unread it))%nat) by (rewrite U, app_length, L2; lia).
      destruct (unread_advance it 2 C W) as [C1 U1]. change (Z.of_nat 2) with 2 in *.
      rewrite U in U1. rewrite skipn_app, L2 in U1. rewrite skipn_all2 in U1 by lia. cbn [app Nat.sub skipn] in U1.
      assert (M : concat (map (fun e => mem (snd e) (fst e)) (slot_entry usize x :: map (slot_entry usize) xs)) = concat (map raw_of (keep l)))
        by (rewrite K; cbn [map]; now rewrite map_map).
      cbn [map] in M. cbn [map] in U1. rewrite M in U1. rewrite <- K in F1. rewrite <- K.
      destruct (read_alive n l F1 i (item_at it (it_pos it + 2)) acc (alive_all (i + len l) (n + 1) bs) _ C1 U1) as (it' & C' & U' & R).
      specialize (IH F2 (i + len l) (n + 1) n it' (store g (keep l) acc) rest ltac:(lia) C' U').
      unfold store in *. rewrite fold_left_app. rewrite <- IH, <- R.
      destruct (alive_head l i n x xs K) as (j & t & ->). cbn [app read_slots DataProof.built1 b_batch b_size b_type b_name].
      destruct (Z.eqb_spec n cur); [lia|]. rewrite Z.eqb_refl.
      rewrite item_uint_fits by (try lia; assumption). cbn [bind]. reflexivity.
Qed.
End read.

(** ** Removing *)
Lemma find_alive_none n l tail : forall i bid, ~ In n (map name_of (keep l)) ->
  find_tag n (alive i bid l ++ tail) = match find_tag n tail with Some (p, b, z) => Some (alive i bid l ++ p, b, z) | None => None end.
Proof.
  induction l as [|[x|] l IH]; intros i bid H; cbn [alive app].
  - destruct (find_tag n tail) as [[[p b] z]|]; reflexivity.
  - rewrite keep_cons in H. cbn [map In] in H. cbn [find_tag DataProof.built1 b_name]. 
    destruct (bseq (text (fst x)) n) eqn:E; [apply bseq_spec in E; exfalso; apply H; now left|].
    rewrite IH by tauto. destruct (find_tag n tail) as [[[p b] z]|]; reflexivity.
  - rewrite keep_cons in H. now apply IH.
Qed.
Lemma without_app n a b : ~ In n (map name_of a) -> without n (a ++ b) = a ++ without n b.
Proof.
  induction a as [|x a IH]; intros H; cbn [app without]; [reflexivity|]. cbn [map In] in H.
  destruct (bseq (text (fst x)) n) eqn:E; [apply bseq_spec in E; exfalso; apply H; now left|]. rewrite IH by tauto. reflexivity.
Qed.
Lemma without_in n a b : In n (map name_of a) -> without n (a ++ b) = without n a ++ b.
Proof.
  induction a as [|x a IH]; intros H; cbn [app without]; [destruct H|].
  destruct (bseq (text (fst x)) n) eqn:E; [reflexivity|]. cbn [map In] in H. destruct H as [H|H].
  - unfold name_of in H. rewrite <- H, bseq_refl in E. discriminate.
  - now rewrite IH.
Qed.
Lemma find_alive n l tail : forall i bid, In n (map name_of (keep l)) ->
  exists k x p z, nth_error l k = Some (Some x) /\ (k < length l)%nat /\
    find_tag n (alive i bid l ++ tail) = Some (p, built1 (i + Z.of_nat k) bid true x, z) /\
    p ++ z = alive i bid (wiped k l) ++ tail /\ keep (wiped k l) = without n (keep l).
Proof.
  induction l as [|[x|] l IH]; intros i bid H; rewrite ?keep_cons in H; [destruct H| |].
  - cbn [alive app find_tag DataProof.built1 b_name]. destruct (bseq (text (fst x)) n) eqn:E.
    + exists 0%nat, x, [], (alive (i + 1) bid l ++ tail). cbn [nth_error length]. rewrite Z.add_0_r.
      split; [reflexivity|]. split; [lia|]. split; [reflexivity|]. split; [reflexivity|].
      rewrite keep_cons. cbn [without]. rewrite E. reflexivity.
    + cbn [map In] in H. destruct H as [H|H]; [unfold name_of in H; rewrite <- H, bseq_refl in E; discriminate|].
      destruct (IH (i + 1) bid H) as (k & y & p & z & N & Lk & Fd & Pz & W). exists (S k), y, (built1 i bid true x :: p), z.
      cbn [nth_error length]. split; [exact N|]. split; [lia|]. rewrite Fd. split; [do 4 f_equal; lia|].
      rewrite wiped_cons. cbn [alive app]. split; [now rewrite Pz|]. rewrite !keep_cons. cbn [without]. rewrite E, W. reflexivity.
  - destruct (IH (i + 1) bid H) as (k & y & p & z & N & Lk & Fd & Pz & W). exists (S k), y, p, z.
    cbn [nth_error length alive]. split; [exact N|]. split; [lia|]. rewrite Fd. split; [do 4 f_equal; lia|].
    rewrite wiped_cons. cbn [alive]. split; [exact Pz|]. now rewrite !keep_cons.
Qed.
Lemma find_alive_all n bs tail : forall i bid, In n (map name_of (keep (concat bs))) ->
  exists k bid' x p z, nth_error (concat bs) k = Some (Some x) /\
    find_tag n (alive_all i bid bs ++ tail) = Some (p, built1 (i + Z.of_nat k) bid' true x, z) /\
    p ++ z = alive_all i bid (wipe k bs) ++ tail /\ keep (concat (wipe k bs)) = without n (keep (concat bs)).
Proof.
  induction bs as [|l bs IH]; intros i bid H; [destruct H|]. cbn [concat] in *. rewrite keep_app, map_app in *.
  destruct (in_dec (list_eq_dec Z.eq_dec) n (map name_of (keep l))) as [Y|No].
  - destruct (find_alive n l (alive_all (i + len l) (bid + 1) bs ++ tail) i bid Y) as (k & x & p & z & N & Lk & Fd & Pz & W).
    exists k, bid, x, p, z. cbn [alive_all]. rewrite <- app_assoc. rewrite nth_error_app1 by exact Lk. split; [exact N|]. split; [exact Fd|].
    cbn [wipe]. replace (k <? length l)%nat with true by (symmetry; now apply Nat.ltb_lt). cbn [alive_all concat].
    split.
    + rewrite Pz, <- app_assoc. do 2 f_equal. unfold len. now rewrite wiped_length.
    + rewrite keep_app, W, without_in by exact Y. reflexivity.
  - apply in_app_or in H as [H|H]; [tauto|].
    destruct (IH (i + len l) (bid + 1) H) as (k & bid' & x & p & z & N & Fd & Pz & W).
    exists (length l + k)%nat, bid', x, (alive i bid l ++ p), z. cbn [alive_all]. rewrite <- app_assoc, find_alive_none, Fd by exact No.
    rewrite nth_error_app2 by lia. replace (length l + k - length l)%nat with k by lia. split; [exact N|].
    split; [do 4 f_equal; unfold len; lia|]. cbn [wipe]. replace (length l + k <? length l)%nat with false by (symmetry; apply Nat.ltb_ge; lia).
    replace (length l + k - length l)%nat with k by lia. cbn [alive_all concat]. rewrite <- !app_assoc, Pz. split; [reflexivity|].
    now rewrite keep_app, W, without_app.
Qed.
End slots.

(** ** A buffer's life *)
Inductive ddoes : dact -> op -> Prop :=
| ddoes_act a o : does a o -> ddoes (Do a) o
| ddoes_drop n : ddoes (Drop n) (ORemove n).

Section life.
Context {S : Type}.
Variable ctl : controller S.
Variables (otid inst : Z) (rep : S -> list (list (option entry))) (mem : S -> bytes -> Z -> bytes).
Hypothesis dev : removing_device ctl otid inst rep mem.
Variable ops : list cl_op.
Variable usize : bytes -> Z.
Notation slot_ok := (slot_ok ops usize).
Notation entries := (map (map (option_map (slot_entry usize)))).

(** [bs]: the slots as the controller has them; [d]: something was removed. *)
Definition dinv (bs : list (list (option (tag * Z)))) (p : list (tag * Z)) (d : bool) (u : buf) (s : S) : Prop :=
  u_inst u = inst /\ u_created u = true /\
  u_tags u = alive_all usize 1 1 bs ++ built usize (1 + len (concat bs)) 0 false p /\
  (if u_sync u then p = [] else p <> [] \/ bs = []) /\
  Forall (fun l => l <> []) bs /\ rep s = entries bs /\
  (d = false -> bs = map (map Some) (map keep bs)) /\ Forall slot_ok (keep (concat bs)).

Lemma told_all (bs : list (list (option (tag * Z)))) : bs = map (map Some) (map keep bs) -> len (concat bs) = len (keep (concat bs)).
Proof.
  intros ->. unfold len. f_equal. induction bs as [|l bs IH]; cbn [map concat]; [reflexivity|].
  rewrite keep_app, !app_length, !keep_some. rewrite map_length. now rewrite IH.
Qed.
Lemma dsync bs p d u s q : dinv bs p d u s -> p <> [] -> acceptable usize p -> Forall slot_ok p ->
  len (concat bs) + len p < 2 ^ 16 ->
  exists u' s', sync_tags ctl s otid q u = (Ok tt, u', s', q + 1) /\ dinv (bs ++ [map Some p]) [] d u' s' /\ u_sync u' = true.
Proof.
  intros (Hi & Hc & Ht & Hs & Hb & Hr & Hd & Hk) Ne (L1 & L2) F Ht'. destruct dev as (_ & Dadd & _).
  pose proof (batches_fewer _ Hb).
  assert (Lp : 1 <= len p) by (destruct p as [|p0 pl]; [congruence|rewrite len_cons; pose proof (len_nonneg pl); lia]).
  assert (Lr : len (rep s) = len bs) by (rewrite Hr; unfold len; now rewrite map_length).
  assert (Ne' : map (slot_entry usize) p <> []) by (destruct p; [congruence|discriminate]).
  assert (Le' : len (map (slot_entry usize) p) < 256) by (unfold len in *; rewrite map_length; lia).
  assert (Fe : Forall entry_ok (map (slot_entry usize) p)) by (apply Forall_map; eapply Forall_impl; [|exact F]; intros x Hx; now apply (entry_of_slot ops)).
  destruct (Dadd s q (map (slot_entry usize) p) Ne' Le' Fe ltac:(lia)) as (pl & s' & E & R & Rs).
  unfold sync_tags. rewrite Hi.
  assert (Fr : filter (fun b => negb (b_sync b)) (u_tags u) = built usize (1 + len (concat bs)) 0 false p).
  { rewrite Ht, filter_app, alive_all_synced, fresh_pending. reflexivity. }
  rewrite Fr. rewrite (message_built ops) by assumption. change (table_path inst) with (buffer_path inst).
  rewrite (word_ok ctl s s' otid q _ _ _ 0 pl 0xCE (len (rep s) + 1) (buffer_path_len inst) L2) by (try assumption; try reflexivity; pose proof (len_nonneg (rep s)); lia).
  eexists _, s'. split; [reflexivity|]. split; [|reflexivity].
  unfold with_tags. split; [exact Hi|]. split; [exact Hc|]. split; [|split; [reflexivity|split; [|split; [|split]]]].
  - cbn [u_tags]. rewrite Ht, map_app, synched_alive_all, synched_pending. cbn [built]. rewrite app_nil_r, alive_all_app. cbn [alive_all].
    rewrite app_nil_r, Lr, alive_some. f_equal. f_equal; lia.
  - apply Forall_app. split; [exact Hb|]. repeat constructor. destruct p; [congruence|discriminate].
  - rewrite Rs, Hr, map_app. cbn [map]. f_equal. f_equal. rewrite !map_map. reflexivity.
  - intros Ed. rewrite !map_app, <- (Hd Ed). cbn [map]. now rewrite keep_some.
  - rewrite concat_app, keep_app. cbn [concat]. rewrite app_nil_r, keep_some. apply Forall_app. now split.
Qed.

Lemma need_keep bs : Forall slot_ok (keep (concat bs)) -> Forall (fun l => l <> []) bs ->
  total (map keep (entries bs)) <= need usize (keep (concat bs)) + 2 * len (concat bs).
Proof.
  intros F. induction 1 as [|l bs H _ IH]; [cbn; lia|]. cbn [map concat] in *. rewrite keep_app, need_app in *.
  apply Forall_app in F as [F1 F2]. unfold total. cbn [fold_right]. fold (total (map keep (entries bs))).
  rewrite keep_map, entry_total, len_app. assert (1 <= len l) by (destruct l as [|l0 ll]; [congruence|rewrite len_cons; pose proof (len_nonneg ll); lia]).
  specialize (IH F2). pose proof (len_nonneg (keep l)). lia.
Qed.

Definition room (bs : list (list (option (tag * Z)))) (p : list (tag * Z)) : Prop :=
  len (concat bs) + len p < 2 ^ 16 /\ need usize (keep (concat bs) ++ p) + 2 * len (concat bs) + 2 * len p < 60000.
Lemma dread {A} (f : Z -> bytes -> res A) bs p d u s q : dinv bs p d u s -> (p = [] \/ acceptable usize p) -> Forall slot_ok p -> room bs p ->
  keep (concat bs) ++ p <> [] ->
  exists bs' u' s' q' it extra, keep (concat bs') = keep (concat bs) ++ p /\ dinv bs' [] d u' s' /\ len (concat bs') = len (concat bs) + len p /\
    read_with f ctl s otid q u = (read_slots f (alive_all usize 1 1 bs') 0 it [], u', s', q') /\
    cursor_ok it /\ unread it = layout_left (mem s') 1 (entries bs') ++ extra.
Proof.
  intros I Hp F (Hl & Hn) Ne.
  assert (R : exists bs' u' s' q', keep (concat bs') = keep (concat bs) ++ p /\ dinv bs' [] d u' s' /\ len (concat bs') = len (concat bs) + len p /\
    (if u_sync u then (Ok tt, u, s, q) else sync_tags ctl s otid q u) = (Ok tt, u', s', q')).
  { destruct (u_sync u) eqn:Es.
    - exists bs, u, s, q. assert (p = []) by (destruct I as (_ & _ & _ & X & _); rewrite Es in X; exact X). subst p.
      rewrite app_nil_r in *. rewrite len_none, Z.add_0_r in *. auto.
    - assert (Np : p <> []).
      { destruct I as (_ & _ & _ & X & _). rewrite Es in X. destruct X as [X|X]; [exact X|]. subst bs. exact Ne. }
      destruct Hp as [Hp|Hp]; [congruence|].
      destruct (dsync bs p d u s q I Np Hp F Hl) as (u' & s' & E & I' & X). exists (bs ++ [map Some p]), u', s', (q + 1).
      rewrite concat_app. cbn [concat]. rewrite !app_nil_r, keep_app, keep_some, len_app.
      assert (len (map (@Some (tag * Z)) p) = len p) by (unfold len; now rewrite map_length).
      split; [reflexivity|]. split; [exact I'|]. split; [lia|exact E]. }
  destruct R as (bs' & u1 & s1 & q1 & Ec & I1 & R1 & R).
  assert (I1' := I1). destruct I1 as (Hi & Hc & Ht & Hs & Hb & Hr & Hd & Hk). destruct dev as (_ & _ & Dread & _).
  destruct (Dread s1 q1) as (pl & s2 & extra & E & Rp & Rs).
  { rewrite Hr. clear -Hk. induction bs' as [|l bs' IH]; cbn [map concat] in *; [constructor|]. rewrite keep_app in Hk. apply Forall_app in Hk as [F1 F2].
    constructor; [|now apply IH]. rewrite keep_map. apply Forall_map. eapply Forall_impl; [|exact F1]. intros x. apply entry_of_slot. }
  { rewrite Hr. pose proof (need_keep bs' Hk Hb) as X. rewrite Ec, R1 in X. lia. }
  destruct (generic_ok ctl s1 s2 otid q1 0x4C (buffer_path inst) [] 0 pl 0xCC _ (buffer_path_len inst) eq_refl E Rp ltac:(lia) eq_refl) as (it & G & C & U).
  exists bs', u1, s2, (q1 + 1), it, extra. split; [exact Ec|].
  split. { split; [exact Hi|]. split; [exact Hc|]. split; [exact Ht|]. split; [exact Hs|]. split; [exact Hb|]. split; [congruence|]. split; [exact Hd|exact Hk]. }
  split; [exact R1|]. split; [|split; [exact C|]].
  - unfold read_with. assert (Cu : u_created u = true) by apply I. rewrite Cu. cbn [negb].
    destruct (u_tags u) as [|t0 ts] eqn:Et.
    { exfalso. destruct I as (_ & _ & Ht0 & _). rewrite Et in Ht0. apply (f_equal len) in Ht0.
      rewrite len_app, alive_all_length, built_length, <- len_app in Ht0. change (len (@nil btag)) with 0 in Ht0.
      destruct (keep (concat bs) ++ p); [congruence|]. rewrite len_cons in Ht0. pose proof (len_nonneg l). lia. }
    rewrite R. rewrite Hi. change (table_path inst) with (buffer_path inst). rewrite G. rewrite Ht. cbn [built]. rewrite app_nil_r, by_index_alive. reflexivity.
  - rewrite U, <- Hr. reflexivity.
Qed.

Lemma ddrop bs p d u s q n : dinv bs p d u s -> In n (map name_of (keep (concat bs))) -> len (concat bs) < 2 ^ 16 ->
  exists u' s' k, remove_tag ctl s otid q u n = (Ok tt, u', s', q + 1) /\ dinv (wipe k bs) p true u' s' /\
    keep (concat (wipe k bs)) = without n (keep (concat bs)).
Proof.
  intros (Hi & Hc & Ht & Hs & Hb & Hr & Hd & Hk) Hin Hl. destruct dev as (_ & _ & _ & Ddrop).
  destruct (find_alive_all usize n bs (built usize (1 + len (concat bs)) 0 false p) 1 1 Hin) as (k & bid' & x & a & z & N & Fd & Pz & W).
  assert (Nr : nth_error (concat (rep s)) k = Some (Some (slot_entry usize x))).
  { rewrite Hr, <- concat_map. rewrite nth_error_map, N. reflexivity. }
  assert (Lk : Z.of_nat k < len (concat bs)) by (assert (nth_error (concat bs) k <> None) by congruence; apply nth_error_Some in H; unfold len; lia).
  destruct (Ddrop s q k _ ltac:(lia) Nr) as (pl & s' & dd & E & R & Rs).
  destruct (generic_ok ctl s s' otid q 0x4F (buffer_path inst) (le 2 (Z.of_nat k + 1)) 0 pl 0xCF dd (buffer_path_len inst) ltac:(rewrite le_len; lia) E R ltac:(lia) eq_refl) as (it & G & _).
  unfold remove_tag. rewrite Hc. cbn [negb]. rewrite Ht, Fd, Hi. change (table_path inst) with (buffer_path inst). cbn [DataProof.built1 b_index].
  replace (1 + Z.of_nat k) with (Z.of_nat k + 1) by lia. rewrite G.
  eexists _, s', k. split; [reflexivity|]. split; [|exact W].
  assert (Lw : len (concat (wipe k bs)) = len (concat bs)) by (unfold len; now rewrite wipe_concat_length).
  unfold dinv, with_tags. cbn [u_inst u_created u_tags u_sync]. split; [exact Hi|]. split; [exact Hc|]. split; [rewrite Lw; exact Pz|].
  split; [|split; [|split; [|split; [discriminate|]]]].
  - destruct (u_sync u); [exact Hs|]. destruct Hs as [Hs|Hs]; [now left|]. subst bs. destruct Hin.
  - clear -Hb N. revert k N. induction Hb as [|l bs Hl Hb IH]; intros k N; cbn [wipe]; [constructor|].
    destruct (k <? length l)%nat eqn:B; constructor; try assumption.
    + unfold wiped. destruct (firstn k l); discriminate.
    + apply IH. cbn [concat] in N. rewrite nth_error_app2 in N; [exact N|]. now apply Nat.ltb_ge.
  - rewrite Rs, Hr. symmetry. apply wipe_map.
  - rewrite W. clear -Hk. induction Hk as [|y l Hy Hk IH]; cbn [without]; [constructor|]. destruct (bseq _ _); [exact Hk|now constructor].
Qed.

(** What remains to be added. *)
Lemma dact_step a o bs p d u s q rest : ddoes a o -> dinv bs p d u s -> orderly (acceptable usize) (a :: rest) (keep (concat bs)) p d ->
  Forall slot_ok p -> Forall slot_ok (ever (a :: rest)) -> room bs (p ++ ever (a :: rest)) ->
  exists r u' s' q' bs' p' d', step ctl (cl_run ops) usize otid o u s q = (r, u', s', q') /\ dinv bs' p' d' u' s' /\
    orderly (acceptable usize) rest (keep (concat bs')) p' d' /\ Forall slot_ok p' /\ Forall slot_ok (ever rest) /\ room bs' (p' ++ ever rest) /\
    keep (concat bs') ++ p' = match a with Do (Put l) => (keep (concat bs) ++ p) ++ l | Drop n => without n (keep (concat bs) ++ p) | _ => keep (concat bs) ++ p end /\
    (match a with Drop _ => r = Ok tt | _ => True end).
Proof.
  intros D I P Fp Fe Rm.
  assert (Npos : forall l, Forall slot_ok l -> 0 <= need usize l).
  { induction 1 as [|x l Hx _ IH]; [cbn; lia|]. cbn [need fold_right]. fold (need usize l). destruct (resolve_ok ops usize x Hx) as [_ Hw]. lia. }
  assert (Cu : u_created u = true) by apply I.
  assert (Lt : d = false -> len (u_tags u) = len (concat bs) + len p).
  { intros Ed. destruct I as (_ & _ & -> & _ & _ & _ & Hd & _). rewrite len_app, alive_all_length, built_length. now rewrite <- told_all by auto. }
  destruct Rm as [Rm1 Rm2]. rewrite app_assoc, need_app in Rm2. rewrite !len_app in Rm1, Rm2.
  pose proof (Npos _ Fe) as Np. pose proof (len_nonneg (ever (a :: rest))) as Le.
  assert (Rb : room bs p) by (split; lia).
  assert (PutCase : forall l (x : res unit * buf), a = Do (Put l) -> x = (Ok tt, with_tags u (u_tags u ++ built usize (1 + len (concat bs) + len p) 0 false l) false) ->
    exists r u' s' q' bs' p' d', (let '(r, u1) := x in (r, u1, s, q)) = (r, u', s', q') /\ dinv bs' p' d' u' s' /\
    orderly (acceptable usize) rest (keep (concat bs')) p' d' /\ Forall slot_ok p' /\ Forall slot_ok (ever rest) /\ room bs' (p' ++ ever rest) /\
    keep (concat bs') ++ p' = (keep (concat bs) ++ p) ++ l /\ True).
  { intros l x -> ->. cbn [orderly] in P. destruct P as (Nl & Ed & P). unfold ever in Fe. cbn [map concat] in Fe. apply Forall_app in Fe as [Fl Fr].
    eexists _, _, s, q, bs, (p ++ l), d. split; [reflexivity|]. split; [|split; [exact P|split; [apply Forall_app; now split|split; [exact Fr|split; [|split; [now rewrite app_assoc|exact Logic.I]]]]]].
    - destruct I as (Hi & Hc & Ht & Hs & Hb & Hr & Hd & Hk). unfold dinv, with_tags. cbn [u_inst u_created u_tags u_sync].
      split; [exact Hi|]. split; [exact Hc|]. split; [|split; [|auto]].
      + rewrite Ht, built_app, <- app_assoc. reflexivity.
      + left. destruct p; [exact Nl|discriminate].
    - unfold room. change (ever (Do (Put l) :: rest)) with (l ++ ever rest) in Rm1, Rm2. rewrite !len_app, !need_app in *. lia. }
  assert (LookCase : forall (A : Type) (f : Z -> bytes -> res A), a = Do Look ->
    exists r u' s' q' bs' p', read_with f ctl s otid q u = (r, u', s', q') /\ dinv bs' p' d u' s' /\
    orderly (acceptable usize) rest (keep (concat bs')) p' d /\ Forall slot_ok p' /\ Forall slot_ok (ever rest) /\ room bs' (p' ++ ever rest) /\
    keep (concat bs') ++ p' = keep (concat bs) ++ p /\ True).
  { intros A f ->. cbn [orderly] in P. destruct P as [Pa P]. change (ever (Do Look :: rest)) with (ever rest) in *.
    destruct (keep (concat bs) ++ p) as [|x0 l0] eqn:E0.
    - apply app_eq_nil in E0 as [E0 ->]. eexists _, u, s, q, bs, []. rewrite E0 in *. cbn [app] in *. split; [|split; [exact I|split; [exact P|split; [constructor|split; [exact Fe|split; [|split; [reflexivity|exact Logic.I]]]]]]].
      + unfold read_with. rewrite Cu. cbn [negb]. destruct (u_tags u) as [|t0 ts] eqn:Et; [reflexivity|]. exfalso.
        destruct I as (_ & _ & Ht0 & _). rewrite Et in Ht0. apply (f_equal len) in Ht0.
        rewrite len_app, alive_all_length, built_length, E0, len_cons, !len_none in Ht0. pose proof (len_nonneg ts). lia.
      + unfold room. rewrite E0. cbn [app]. rewrite len_none in *. cbn [need fold_right] in Rm2. lia.
    - rewrite <- E0 in *.
      destruct (dread f bs p d u s q I Pa Fp Rb ltac:(rewrite E0; discriminate)) as (bs' & u' & s' & q' & it & extra & Ec & I' & Lc & R & _).
      eexists _, u', s', q', bs', []. split; [exact R|]. split; [exact I'|]. rewrite Ec, app_nil_r. split; [exact P|]. split; [constructor|]. split; [exact Fe|].
      split; [|now split]. cbn [app]. unfold room. rewrite Ec, Lc, need_app. lia. }
  destruct D as [a o D|n].
  - destruct D as [x|l| | |].
    + cbn [step]. unfold add_tag. rewrite Cu. cbn [negb]. assert (Ed : d = false) by apply P.
      change (ever (Do (Put [x]) :: rest)) with (x :: ever rest) in *. inversion_clear Fe as [|? ? Fx Fr]. rewrite len_cons in Rm1.
      pose proof (len_nonneg (u_tags u)). pose proof (len_nonneg (ever rest)). specialize (Lt Ed). rewrite Z.mod_small by lia. rewrite (slot_of_ok ops usize x _ Fx).
      apply (PutCase [x] (Ok tt, with_tags u (u_tags u ++ [built1 usize (len (u_tags u) + 1) 0 false x]) false) eq_refl).
      cbn [built]. do 3 f_equal. f_equal. f_equal. lia.
    + cbn [step]. unfold add_tags. rewrite Cu. cbn [negb]. assert (Ed : d = false) by apply P.
      change (ever (Do (Put l) :: rest)) with (l ++ ever rest) in *. apply Forall_app in Fe as [Fl Fr]. rewrite len_app in Rm1.
      pose proof (len_nonneg (u_tags u)). pose proof (len_nonneg (ever rest)). specialize (Lt Ed).
      rewrite (slots_of_ok ops usize l Fl) by lia.
      apply (PutCase l (Ok tt, with_tags u (u_tags u ++ built usize (len (u_tags u) + 1) 0 false l) false) eq_refl).
      do 3 f_equal. f_equal. lia.
    + cbn [step]. cbn [orderly] in P. destruct P as (Ne & Pa & P). change (ever (Do Send :: rest)) with (ever rest) in *.
      destruct (dsync bs p d u s q I Ne Pa Fp ltac:(apply Rb)) as (u' & s' & E & I' & _).
      assert (K : keep (concat (bs ++ [map Some p])) = keep (concat bs) ++ p) by (rewrite concat_app; cbn [concat]; now rewrite app_nil_r, keep_app, keep_some).
      eexists _, u', s', _, (bs ++ [map Some p]), [], d. split; [exact E|]. split; [exact I'|]. rewrite K, app_nil_r. split; [exact P|]. split; [constructor|].
      split; [exact Fe|]. split; [|now split]. unfold room. rewrite K. cbn [app]. rewrite concat_app. cbn [concat]. rewrite app_nil_r, len_app, need_app.
      assert (len (map (@Some (tag * Z)) p) = len p) by (unfold len; now rewrite map_length). lia.
    + destruct (LookCase _ decode_table eq_refl) as (r & u' & s' & q' & bs' & p' & R & H'). cbn [step]. unfold read_all. rewrite R.
      eexists _, u', s', q', bs', p', d. split; [reflexivity|exact H'].
    + destruct (LookCase _ (fun _ raw => Ok raw) eq_refl) as (r & u' & s' & q' & bs' & p' & R & H'). cbn [step]. unfold read_all_raw. rewrite R.
      eexists _, u', s', q', bs', p', d. split; [reflexivity|exact H'].
  - cbn [step]. cbn [orderly] in P. destruct P as (Hin & P). change (ever (Drop n :: rest)) with (ever rest) in *.
    destruct (ddrop bs p d u s q n I Hin ltac:(pose proof (len_nonneg p); lia)) as (u' & s' & k & E & I' & K).
    eexists _, u', s', _, (wipe k bs), p, true. split; [exact E|]. split; [exact I'|]. rewrite K. split; [exact P|]. split; [exact Fp|]. split; [exact Fe|].
    split; [|split; [symmetry; now apply without_in|reflexivity]].
    assert (Lw : len (concat (wipe k bs)) = len (concat bs)) by (unfold len; now rewrite wipe_concat_length).
    unfold room. rewrite Lw, K, !need_app in *. rewrite len_app.
    assert (W : need usize (without n (keep (concat bs))) <= need usize (keep (concat bs))).
    { assert (Hk : Forall slot_ok (keep (concat bs))) by apply I. clear -Hk Npos. induction Hk as [|x l Hx Hk IH]; [cbn; lia|].
      cbn [without]. destruct (resolve_ok ops usize x Hx) as [_ Hw]. unfold need in *. destruct (bseq _ _); cbn [fold_right]; lia. }
    lia.
Qed.

Lemma dacts_run h os : Forall2 ddoes h os -> forall bs p d u s q, dinv bs p d u s -> orderly (acceptable usize) h (keep (concat bs)) p d ->
  Forall slot_ok p -> Forall slot_ok (ever h) -> room bs (p ++ ever h) ->
  exists rs u' s' q' bs' p' d', run ctl (cl_run ops) usize otid os u s q = (rs, u', s', q') /\ dinv bs' p' d' u' s' /\
    (p' = [] \/ acceptable usize p') /\ Forall slot_ok p' /\ room bs' p' /\
    keep (concat bs') ++ p' = fold_left (fun l a => match a with Do (Put x) => l ++ x | Drop n => without n l | _ => l end) h (keep (concat bs) ++ p) /\
    Forall2 (fun a r => match a with Drop _ => r = Ok tt | _ => True end) h rs.
Proof.
  induction 1 as [|a o h os D F2 IH]; intros bs p d u s q I P Fp Fe Rm; cbn [run].
  - eexists [], u, s, q, bs, p, d. split; [reflexivity|]. split; [exact I|]. split; [exact P|]. split; [exact Fp|]. cbn in Rm. rewrite app_nil_r in Rm. split; [exact Rm|]. split; [reflexivity|constructor].
  - destruct (dact_step a o bs p d u s q h D I P Fp Fe Rm) as (r & u1 & s1 & q1 & bs1 & p1 & d1 & E & I1 & P1 & Fp1 & Fe1 & Rm1 & Ec & X1). rewrite E.
    destruct (IH bs1 p1 d1 u1 s1 q1 I1 P1 Fp1 Fe1 Rm1) as (rs & u2 & s2 & q2 & bs2 & p2 & d2 & E2 & I2 & P2 & Fp2 & Rm2 & Ec2 & X2). rewrite E2.
    eexists _, u2, s2, q2, bs2, p2, d2. split; [reflexivity|]. split; [exact I2|]. split; [exact P2|]. split; [exact Fp2|]. split; [exact Rm2|]. split; [|now constructor].
    rewrite Ec2, Ec. reflexivity.
Qed.
End life.
