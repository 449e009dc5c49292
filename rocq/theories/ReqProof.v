(** * Lemmas about the server reading and writing tags for a client *)
From Verif Require Import GoBase SegModel IoiModel IoiSpec IoiProof ItemsModel TypesModel ItemsSpec ItemsProof ReadModel ReadSpec ReadProof
  WriteModel WriteSpec BatchSpec EipModel EipSpec EipProof OpenModel TableModel ProvModel ProvSpec ProvProof SrvValModel SrvValSpec SrvValProof
  SrvModel SrvSpec SrvProof Prop_SrvVal ReqSpec LinkModel.

(** ** Values *)
Lemma see_ones h arr off n l : map VOne l = map (see 1 h) (elems h arr off n) -> elems h arr off n = map PV l.
Proof.
  generalize (elems h arr off n) as es. intros es. revert l. induction es as [|e es IH]; intros [|v l] E; try discriminate; [reflexivity|].
  cbn [map] in E. destruct e as [g|? ? ? ?]; cbn [see] in E; [|discriminate].
  cbn [map]. injection E as -> E. f_equal. now apply IH.
Qed.
Lemma number_kind k code : number_code k = Some code -> kind_cip k = code /\ k <> KString /\ code <> T_string /\ code <> T_struct /\ 0 <= code < 256.
Proof.
  destruct k as [|[] w|w|]; cbn [number_code]; try discriminate.
  - intro H. injection H as <-. repeat split; try discriminate; unfold T_string, T_struct; lia.
  - destruct w as [|[|[|[|[|[|[|[|[|w]]]]]]]]]; intro H; try discriminate; injection H as <-;
      (split; [reflexivity|]; repeat split; try discriminate; unfold T_string, T_struct; lia).
  - destruct w as [|[|[|[|[|[|[|[|[|w]]]]]]]]]; intro H; try discriminate; injection H as <-;
      (split; [reflexivity|]; repeat split; try discriminate; unfold T_string, T_struct; lia).
  - destruct w as [|[|[|[|[|[|[|[|[|w]]]]]]]]]; intro H; try discriminate; injection H as <-;
      (split; [reflexivity|]; repeat split; try discriminate; unfold T_string, T_struct; lia).
Qed.
Lemma praw_number k g : is_number k g -> praw (PV g) = number_data g.
Proof. destruct g; cbn [is_number]; intro H; try contradiction; reflexivity. Qed.
Lemma praws_number k l : Forall (is_number k) l -> map praw (map PV l) = map number_data l.
Proof. induction 1 as [|g l H F IH]; [reflexivity|]. cbn [map]. now rewrite IH, (praw_number k). Qed.
Lemma item_ser_number k g h : is_number k g -> item_ser h (PV g) = Ok (number_data g) /\ buffer_ser h (PV g) = Ok (number_data g).
Proof. destruct g; cbn [is_number]; intro H; try contradiction; split; reflexivity. Qed.
Lemma number_cip k g : is_number k g -> pval_cip (PV g) = kind_cip k.
Proof. destruct g; cbn [is_number]; intro H; try contradiction; subst k; reflexivity. Qed.
Lemma packer_wire s : string_packer s =
  [0xA0; 0x02; 0xCE; 0x0F] ++ le 4 (Z.min (len s) 82) ++ firstn 82 s ++ zeros (84 - length (firstn 82 s)).
Proof.
  unfold string_packer. do 2 f_equal.
  - f_equal. destruct (Z.ltb_spec 82 (len s)); lia.
  - rewrite fit_cut, <- app_assoc. f_equal. change [0; 0] with (zeros 2). unfold zeros. rewrite <- repeat_app. f_equal.
    rewrite firstn_length. lia.
Qed.

Lemma wire_many e L d : wire_view (VMany e L) d -> exists k code l, e = EK k /\ map VOne l = L /\
  number_code k = Some code /\ k <> KBool /\ Forall (is_number k) l /\ d = [code; 0] ++ concat (map number_data l).
Proof. intro W. inversion W; subst. do 3 eexists. split; [reflexivity|]. split; [reflexivity|]. eauto. Qed.

(** What a read hands to the reply. *)
Lemma payload_wire h v d : wire_view (see 2 h v) d ->
  exists ps, read_payload h v = Ok ps /\ concat ps = d.
Proof.
  intro W. unfold read_payload. destruct v as [g|e arr off n].
  - cbn [see] in W. inversion W as [k code g' N I E1 E2| |s E1 E2]; subst; clear W.
    + destruct (number_kind _ _ N) as (K & _ & NS & _). rewrite (number_cip k) by exact I. rewrite K.
      destruct (Z.eqb_spec code T_string); [contradiction|].
      destruct (item_ser_number k g h I) as [-> _]. cbn [bind]. eexists. split; [reflexivity|].
      cbn [concat]. now rewrite app_nil_r.
    + change (pval_cip (PV (GStr s)) =? T_string) with true. cbn iota. eexists. split; [reflexivity|].
      cbn [concat]. rewrite app_nil_r. apply packer_wire.
  - cbn [see] in W. apply wire_many in W as (k & code & l & -> & E2 & N & NB & F & ->).
    apply see_ones in E2. destruct (number_kind _ _ N) as (K & NSt & NS & _).
    assert (EC : pval_cip (PS (EK k) arr off n) = code).
    { cbn [pval_cip]. destruct k as [|s w|w|]; try congruence; cbn [go_to_cip fst]; exact K. }
    rewrite EC. destruct (Z.eqb_spec code T_string); [contradiction|].
    assert (ES : item_ser h (PS (EK k) arr off n) = Ok (concat (map praw (elems h arr off n)))).
    { cbn [item_ser]. destruct k; try congruence; reflexivity. }
    rewrite ES. cbn [bind]. eexists. split; [reflexivity|]. cbn [concat]. rewrite app_nil_r, E2, (praws_number k) by exact F. reflexivity.
Qed.
(** The same inside a multi-service reply. *)
Definition sub_body (h : list (list pval)) (v : pval) : res bytes :=
  if pval_cip v =? T_string then match v with PV (GStr x) => Ok (string_packer x) | _ => Err EMsg end
  else let* b := buffer_ser h v in Ok ([pval_cip v; 0] ++ b).
Lemma sub_wire h v d : wire_view (see 2 h v) d -> sub_body h v = Ok d.
Proof.
  intro W. unfold sub_body. destruct v as [g|e arr off n].
  - cbn [see] in W. inversion W as [k code g' N I E1 E2| |s E1 E2]; subst; clear W.
    + destruct (number_kind _ _ N) as (K & _ & NS & _). rewrite (number_cip k) by exact I. rewrite K.
      destruct (Z.eqb_spec code T_string); [contradiction|].
      destruct (item_ser_number k g h I) as [_ ->]. reflexivity.
    + change (pval_cip (PV (GStr s)) =? T_string) with true. cbn iota. now rewrite packer_wire.
  - cbn [see] in W. apply wire_many in W as (k & code & l & -> & E2 & N & NB & F & ->).
    apply see_ones in E2. destruct (number_kind _ _ N) as (K & NSt & NS & _).
    assert (EC : pval_cip (PS (EK k) arr off n) = code).
    { cbn [pval_cip]. destruct k as [|s w|w|]; try congruence; cbn [go_to_cip fst]; exact K. }
    rewrite EC. destruct (Z.eqb_spec code T_string); [contradiction|].
    assert (ES : buffer_ser h (PS (EK k) arr off n) = Ok (concat (map praw (elems h arr off n)))).
    { cbn [buffer_ser item_ser]. destruct k; try congruence; reflexivity. }
    rewrite ES. cbn [bind]. now rewrite E2, (praws_number k) by exact F.
Qed.
Lemma buffer_ser_calm h v : buffer_ser h v <> Panic /\ buffer_ser h v <> OutOfFuel.
Proof.
  destruct v as [g|[k|] ? ? ?]; [destruct g|destruct k|]; split; discriminate.
Qed.

Lemma sub_body_calm h v : sub_body h v <> Panic /\ sub_body h v <> OutOfFuel.
Proof.
  unfold sub_body. destruct (pval_cip v =? T_string).
  - destruct v as [g|? ? ? ?]; [destruct g|]; split; discriminate.
  - destruct (buffer_ser_calm h v). destruct (buffer_ser h v); cbn [bind]; split; congruence.
Qed.

(** ** The provider *)
Lemma tag_read_lower p t q : tag_read p (lower t) q = tag_read p t q.
Proof. unfold tag_read. now rewrite lower_idem. Qed.
Lemma tag_write_lower c p t v : tag_write c p (lower t) v = tag_write c p t v.
Proof. unfold tag_write. now rewrite lower_idem. Qed.
Lemma write_given_lower c p t v : write_given c p (lower t) v = write_given c p t v.
Proof. destruct v; cbn [write_given]; apply tag_write_lower. Qed.
Lemma elems_own h (l : list pval) : elems (h ++ [l]) (length h) 0 (length l) = l.
Proof. unfold elems. rewrite app_nth2, Nat.sub_diag by lia. cbn [nth skipn]. apply firstn_all. Qed.
Lemma write_given_calm c p t v p' r :
  match v with GiveOne g => not_nil g | GiveMany _ l => Forall not_nil l end ->
  write_given c p t v = (p', r) -> r <> Panic /\ r <> OutOfFuel.
Proof.
  intros N. assert (K : forall p0 x, x <> PV GNil ->
    (forall arr off n, x = PS EAny arr off n -> ~ In (PV GNil) (elems (pv_heap p0) arr off n)) ->
    tag_write c p0 t x = (p', r) -> r <> Panic /\ r <> OutOfFuel).
  { intros p0 x Nx Nl. unfold tag_write. destruct (parse_element_tag (lower t)) as [[b i] has]. destruct has.
    - destruct (mget (pv_data p0) b) as [[g|e arr off n]|]; try (intro H; injection H as <- <-; split; discriminate).
      destruct (_ || _); [intro H; injection H as <- <-; split; discriminate|].
      destruct (convert_safe c x e Nx). destruct (convert_elem c x e); intro H'; injection H' as <- <-; split; congruence.
    - destruct (mget (pv_data p0) b) as [[g|e arr off n]|];
        [intro H; injection H as <- <-; split; discriminate| |intro H; injection H as <- <-; split; discriminate].
      destruct x as [g|[k|] arr' off' n']; try (intro H; injection H as <- <-; split; discriminate).
      destruct (convert_all_safe c e (elems (pv_heap p0) arr' off' n') (Nl _ _ _ eq_refl)).
      destruct (convert_all c _ e); intro H'; injection H' as <- <-; split; congruence. }
  destruct v as [g|e l]; cbn [write_given]; apply K.
  - intro E. apply N. congruence.
  - intros; discriminate.
  - discriminate.
  - intros arr off n E. injection E as -> <- <- <-. cbn [pv_heap].
    replace (length l) with (length (map PV l)) by apply map_length. rewrite elems_own.
    intro I. apply in_map_iff in I as (g & E & I). rewrite Forall_forall in N. apply (N g I). congruence.
Qed.

(** ** One part of a multi-service request *)

(** Only provider [i] may differ. *)
Definition only_prov (i : nat) (w w' : world) : Prop :=
  w_h w' = w_h w /\ w_in w' = w_in w /\ w_sent w' = w_sent w /\
  sv_cm (w_srv w') = sv_cm (w_srv w) /\ sv_router (w_srv w') = sv_router (w_srv w) /\
  length (sv_provs (w_srv w')) = length (sv_provs (w_srv w)) /\
  (forall j, j <> i -> prov_at (w_srv w') j = prov_at (w_srv w) j).
Lemma only_prov_refl i w : only_prov i w w.
Proof. repeat split. Qed.
Lemma only_prov_trans i a b c : only_prov i a b -> only_prov i b c -> only_prov i a c.
Proof.
  intros (A1 & A2 & A3 & A4 & A5 & A6 & A7) (B1 & B2 & B3 & B4 & B5 & B6 & B7).
  split; [congruence|]. split; [congruence|]. split; [congruence|]. split; [congruence|]. split; [congruence|]. split; [congruence|].
  intros j N. rewrite B7, A7 by exact N. reflexivity.
Qed.
Lemma prov_at_set s i p : (i < length (sv_provs s))%nat -> prov_at (set_prov i p s) i = p.
Proof. intro L. unfold prov_at. cbn [set_prov sv_provs]. now apply nth_setn_same. Qed.
Lemma prov_at_other s i j p : j <> i -> prov_at (set_prov i p s) j = prov_at s j.
Proof.
  intro N. unfold prov_at. cbn [set_prov sv_provs].
  destruct (nth_error (sv_provs s) j) eqn:E.
  - rewrite (nth_error_nth _ _ prov_empty (eq_trans (setn_other _ _ _ _ _ N) E)). now rewrite (nth_error_nth _ _ _ E).
  - rewrite !nth_overflow; [reflexivity| |].
    + now apply nth_error_None.
    + rewrite setn_length. now apply nth_error_None.
Qed.
Lemma only_prov_set i w p : only_prov i w (World (set_prov i p (w_srv w)) (w_h w) (w_in w) (w_sent w)).
Proof.
  split; [reflexivity|]. split; [reflexivity|]. split; [reflexivity|]. split; [reflexivity|]. split; [reflexivity|].
  split; [cbn [w_srv set_prov sv_provs]; apply setn_length|]. intros j N. now apply prov_at_other.
Qed.

Lemma write_values_run i tag vs w : vs <> [] ->
  write_values i tag vs w =
  (let '(p, r) := write_given (sv_conv (w_srv w)) (prov_at (w_srv w) i) tag (as_given vs) in
   (r, World (set_prov i p (w_srv w)) (w_h w) (w_in w) (w_sent w))).
Proof.
  intro N. unfold write_values, as_given. unfold bindM at 1, ask. destruct vs as [|v [|v2 vs]]; [congruence| |].
  - destruct (write_given _ _ _ _) as [p [[]| | |]]; reflexivity.
  - destruct (write_given _ _ _ _) as [p [[]| | |]]; reflexivity.
Qed.
Lemma number_not_nil k v : is_number k v -> not_nil v.
Proof. destruct v; cbn [is_number]; intros H E; try contradiction; discriminate. Qed.
Lemma as_given_not_nil k l : Forall (is_number k) l ->
  match as_given l with GiveOne g => not_nil g | GiveMany _ l => Forall not_nil l end.
Proof.
  intro F. assert (G : Forall not_nil l) by (eapply Forall_impl; [|exact F]; apply number_not_nil).
  unfold as_given. destruct l as [|v [|v2 l]]; [constructor|now inversion G|exact G].
Qed.
Lemma write_values_spec i tag vs w (k : gokind) : vs <> [] -> Forall not_nil vs ->
  (i < length (sv_provs (w_srv w)))%nat -> separate (prov_at (w_srv w) i) ->
  match write_values i (lower tag) vs w with
  | (Ok _, w') => writes (shows (prov_at (w_srv w) i)) tag (as_given vs) (shows (prov_at (w_srv w') i)) /\
      separate (prov_at (w_srv w') i) /\ only_prov i w w'
  | (Err _, w') => (forall m', ~ writes (shows (prov_at (w_srv w) i)) tag (as_given vs) m') /\
      (forall k, shows (prov_at (w_srv w') i) k = shows (prov_at (w_srv w) i) k) /\
      separate (prov_at (w_srv w') i) /\ only_prov i w w'
  | _ => False
  end.
Proof.
  intros N F L S. rewrite write_values_run by exact N. rewrite write_given_lower.
  destruct (write_given _ _ _ _) as [p r] eqn:E.
  assert (G : match as_given vs with GiveOne g => not_nil g | GiveMany _ l => Forall not_nil l end).
  { unfold as_given. destruct vs as [|v [|v2 vs]]; [congruence|now inversion F|exact F]. }
  destruct (write_given_calm _ _ _ _ _ _ G E). destruct (write_given_spec _ _ _ _ _ _ S E) as [S' W].
  destruct r as [u|e| |]; try congruence; cbn [w_srv]; rewrite prov_at_set by exact L.
  - split; [exact W|]. split; [exact S'|apply only_prov_set].
  - destruct W as [W1 W2]. split; [exact W2|]. split; [exact W1|]. split; [exact S'|apply only_prov_set].
Qed.

Lemma text_no_bit t : t_bit t = None -> text {| t_members := t_members t; t_bit := None |} = text t.
Proof. destruct t as [m b]. cbn [t_bit t_members]. now intros ->. Qed.
Lemma addressed_path t rest : addressed t ->
  (match rest with [] => True | b :: _ => b <> 0x28 /\ b <> 0x29 /\ b <> 0x91 end) ->
  get_tag_from_path (encode t ++ rest) = Ok (lower (text t), rest).
Proof. intros (V & B & S) R. rewrite C02_lemma by assumption. now rewrite text_no_bit. Qed.
Lemma clear_rest n more : clear_count n ->
  match le 2 n ++ more with [] => True | b :: _ => b <> 0x28 /\ b <> 0x29 /\ b <> 0x91 end.
Proof. intros (_ & A & B & C). cbn [le app]. auto. Qed.
Lemma clear_sgn n : clear_count n -> sgn 16 (unle (le 2 n)) = n.
Proof. intros (A & _). rewrite unle_le_small by (cbn; lia). unfold sgn. change (2 ^ 16) with 65536. change (2 ^ (16 - 1)) with 32768. rewrite Z.mod_small by lia. destruct (Z.ltb_spec n 32768); lia. Qed.


Lemma bindM_ok {A B} (m : M A) (k : A -> M B) w a w1 : m w = (Ok a, w1) -> bindM m k w = k a w1.
Proof. intro E. unfold bindM. now rewrite E. Qed.
Lemma lift_ok {A B} (r : res A) (k : A -> M B) w a : r = Ok a -> bindM (lift r) k w = k a w.
Proof. intros ->. reflexivity. Qed.

Lemma sub_at pre b rest off w (k : bytes -> M bytes) : len pre = off + 8 -> b <> [] ->
  bindM (if len (pre ++ b ++ rest) <=? off + 8 then lift (Err EEof) else lift (slice_from (pre ++ b ++ rest) (off + 8))) k w =
  k (b ++ rest) w.
Proof.
  intros L N. rewrite !len_app. assert (1 <= len b) by (destruct b; [congruence|rewrite len_cons; pose proof (len_nonneg b); lia]).
  pose proof (len_nonneg rest). pose proof (len_nonneg pre).
  destruct (Z.leb_spec (len pre + (len b + len rest)) (off + 8)); [lia|].
  apply lift_ok. unfold slice_from. rewrite !len_app.
  assert (T : (0 <=? off + 8) && (off + 8 <=? len pre + (len b + len rest)) = true) by (apply andb_true_iff; lia).
  rewrite T. f_equal. replace (Z.to_nat (off + 8)) with (length pre) by (unfold len in L; lia). apply skipn_app_exact. reflexivity.
Qed.

Lemma svc_response svc : svc = 0x4C \/ svc = 0x52 \/ svc = 0x4D -> as_response svc = svc + 0x80.
Proof. intros [->|[->| ->]]; reflexivity. Qed.

Definition part_outcome (i : nat) (a : part) (w : world) (x : res bytes * world) : Prop :=
  match x with
  | (Ok r, w') => performs (shows (prov_at (w_srv w) i)) a r (shows (prov_at (w_srv w') i)) /\
      separate (prov_at (w_srv w') i) /\ only_prov i w w'
  | (Err _, w') => impossible (shows (prov_at (w_srv w) i)) a /\
      (forall k, shows (prov_at (w_srv w') i) k = shows (prov_at (w_srv w) i) k) /\ only_prov i w w'
  | _ => False
  end.
Lemma multi_sub_read i pre rest off w svc t n more :
  len pre = off + 8 -> part_ok (PRead svc t n more) ->
  separate (prov_at (w_srv w) i) ->
  part_outcome i (PRead svc t n more) w (multi_sub i (pre ++ part_bytes (PRead svc t n more) ++ rest) off w).
Proof.
  intros L (Hs & Ad & Cc) S. unfold multi_sub. rewrite sub_at by (exact L || discriminate).
  cbn [part_bytes]. rewrite <- !app_assoc. cbn [app].
  erewrite lift_ok by apply rd_cons1. cbv beta iota.
  erewrite lift_ok by apply rd_cons1. cbv beta iota zeta.
  replace (unle [svc]) with svc by (cbn [unle]; lia).
  assert (E1 : (svc =? svc_fragread) || (svc =? svc_read) = true) by (destruct Hs as [->| ->]; reflexivity).
  rewrite E1. erewrite lift_ok by (apply addressed_path; [exact Ad|now apply clear_rest]). cbv beta iota.
  erewrite lift_ok by (apply rd_app; apply le_length). cbv beta iota.
  rewrite clear_sgn by exact Cc. unfold bindM at 1, ask. rewrite tag_read_lower.
  pose proof (tag_read_spec (prov_at (w_srv w) i) (text t) n S (proj1 (proj1 Cc))) as R.
  destruct (tag_read (prov_at (w_srv w) i) (text t) n) as [v|e| |] eqn:E; try contradiction.
  - rewrite (lift_ok _ _ _ v eq_refl). set (h := pv_heap (prov_at (w_srv w) i)) in *.
    assert (U : forall v', reads (shows (prov_at (w_srv w) i)) (text t) n v' -> v' = see 2 h v).
    { intros v' R'. exact (reads_fun _ _ _ _ _ R' R). }
    assert (K : forall (m : M bytes), m = (match sub_body h v with
        | Ok b => ret ([as_response svc; 0; 0; 0] ++ b) | Err e => lift (Err e) | Panic => lift Panic | OutOfFuel => lift OutOfFuel end) ->
      part_outcome i (PRead svc t n more) w (m w)).
    { intros m ->. assert (NP : sub_body h v <> Panic /\ sub_body h v <> OutOfFuel).
      { apply sub_body_calm. }
      destruct NP. destruct (sub_body h v) as [b|er| |] eqn:Eb; try congruence; cbn [ret lift].
      - rewrite svc_response by (destruct Hs; auto). split; [|split; [exact S|apply only_prov_refl]].
        apply (pf_read _ _ _ _ _ _ _ _ R); [|reflexivity]. intros d W. rewrite (sub_wire h v d W) in Eb. congruence.
      - split; [|split; [reflexivity|apply only_prov_refl]]. intros v' d [R' W]. rewrite (U v' R') in W.
        rewrite (sub_wire h v d W) in Eb. discriminate. }
    apply K. unfold sub_body. destruct (pval_cip v =? T_string).
    + destruct v as [[]|]; reflexivity.
    + destruct (buffer_ser h v) as [b| | |]; cbn [bind]; try reflexivity.
  - unfold bindM, lift. split; [|split; [reflexivity|apply only_prov_refl]].
    intros v' d [R' _]. now apply (R v').
Qed.
Lemma multi_sub_write i pre rest off w svc t k code l :
  len pre = off + 8 -> part_ok (PWrite svc t k code l) ->
  (i < length (sv_provs (w_srv w)))%nat -> separate (prov_at (w_srv w) i) ->
  part_outcome i (PWrite svc t k code l) w (multi_sub i (pre ++ part_bytes (PWrite svc t k code l) ++ rest) off w).
Proof.
  intros L (-> & Ad & N & F & R & Hl) Li S. destruct (number_kind _ _ N) as (_ & _ & _ & _ & Bc).
  assert (NC : code <> 0x28 /\ code <> 0x29 /\ code <> 0x91).
  { destruct k as [|[] w'|w'|]; try discriminate; cbn [number_code] in N; try (injection N as <-; lia);
      destruct w' as [|[|[|[|[|[|[|[|[|w']]]]]]]]]; try discriminate; injection N as <-; lia. }
  unfold multi_sub. rewrite sub_at by (exact L || discriminate).
  cbn [part_bytes]. rewrite <- !app_assoc. cbn [app].
  erewrite lift_ok by apply rd_cons1. cbv beta iota.
  erewrite lift_ok by apply rd_cons1. cbv beta iota zeta.
  change (unle [0x4D]) with 0x4D. change ((0x4D =? svc_fragread) || (0x4D =? svc_read)) with false.
  change ((0x4D =? svc_write) || (0x4D =? svc_fragwrite)) with true. cbv iota.
  erewrite lift_ok by (apply addressed_path; [exact Ad|exact NC]). cbv beta iota.
  erewrite lift_ok by apply rd_cons1. cbv beta iota.
  erewrite lift_ok by apply rd_cons1. cbv beta iota.
  erewrite lift_ok by (apply rd_app; apply le_length). cbv beta iota.
  rewrite unle_le_small by (cbn; lia). replace (unle [code]) with code by (cbn [unle]; lia).
  replace (Z.to_nat (len l)) with (length l) by (unfold len; lia).
  assert (l <> []) by (intros ->; change (len (@nil gval)) with 0 in Hl; lia).
  assert (C9 : code <> 0xC9).
  { destruct l as [|v l]; [congruence|]. inversion F; subst. inversion R; subst.
    now destruct (number_encodes k v code) as (_ & C9 & _). }
  erewrite lift_ok by (apply read_values_encodes; [now apply (numbers_encode k)|exact C9]). cbv beta iota.
  assert (NN : Forall not_nil l) by (eapply Forall_impl; [|exact F]; apply number_not_nil).
  pose proof (write_values_spec i (text t) l w k H NN Li S) as W. unfold bindM.
  destruct (write_values i (lower (text t)) l w) as [[u|e| |] w']; try contradiction; cbn [ret].
  - destruct W as (W1 & W2 & W3). split; [|split; [exact W2|exact W3]]. now apply pf_write.
  - destruct W as (W1 & W2 & W3 & W4). split; [exact W1|]. split; [exact W2|exact W4].
Qed.
Lemma multi_sub_part i pre rest off w a :
  len pre = off + 8 -> part_ok a -> (i < length (sv_provs (w_srv w)))%nat -> separate (prov_at (w_srv w) i) ->
  part_outcome i a w (multi_sub i (pre ++ part_bytes a ++ rest) off w).
Proof. destruct a; intros; [now apply multi_sub_read|now apply multi_sub_write]. Qed.

Lemma multi_subs_parts i : forall parts pre start w,
  len pre = start + 8 -> Forall part_ok parts -> (i < length (sv_provs (w_srv w)))%nat -> separate (prov_at (w_srv w) i) ->
  match multi_subs i (pre ++ concat (map part_bytes parts)) (offsets start (map part_bytes parts)) w with
  | (Ok rs, w') => performs_all (shows (prov_at (w_srv w) i)) parts rs (shows (prov_at (w_srv w') i)) /\
      separate (prov_at (w_srv w') i) /\ only_prov i w w'
  | (Err _, w') => only_prov i w w' /\ exists done a left rs m,
      parts = done ++ a :: left /\ performs_all (shows (prov_at (w_srv w) i)) done rs m /\ impossible m a /\
      forall k, shows (prov_at (w_srv w') i) k = m k
  | _ => False
  end.
Proof.
  induction parts as [|a parts IH]; intros pre start w L F Li S; cbn [map offsets multi_subs concat].
  - cbn [ret]. split; [constructor|]. split; [exact S|apply only_prov_refl].
  - inversion F as [|? ? Fa Fl]; subst.
    pose proof (multi_sub_part i pre (concat (map part_bytes parts)) start w a L Fa Li S) as P.
    unfold bindM at 1. destruct (multi_sub _ _ _ w) as [[r|e| |] w1]; try contradiction.
    + destruct P as (P & S1 & O1).
      assert (L1 : len (pre ++ part_bytes a) = start + len (part_bytes a) + 8) by (rewrite len_app; lia).
      assert (Li1 : (i < length (sv_provs (w_srv w1)))%nat) by (destruct O1 as (_ & _ & _ & _ & _ & -> & _); exact Li).
      specialize (IH (pre ++ part_bytes a) (start + len (part_bytes a)) w1 L1 Fl Li1 S1).
      rewrite <- app_assoc in IH. unfold bindM.
      destruct (multi_subs _ _ _ w1) as [[rs|e| |] w2]; try contradiction; cbn [ret].
      * destruct IH as (I1 & I2 & I3). split; [econstructor; eassumption|]. split; [exact I2|eapply only_prov_trans; eassumption].
      * destruct IH as (O2 & dn & a' & lf & rs & m & -> & I1 & I2 & I3). split; [eapply only_prov_trans; eassumption|].
        exists (a :: dn), a', lf, (r :: rs), m. split; [reflexivity|]. split; [econstructor; eassumption|]. now split.
    + destruct P as (P1 & P2 & P3). split; [exact P3|]. exists [], a, parts, [], (shows (prov_at (w_srv w) i)).
      split; [reflexivity|]. split; [constructor|]. now split.
Qed.

(** ** Replies as frames *)
Lemma fold_item ps : forall id a, fold_left item_write ps (mk (id, a)) = mk (id, a ++ concat ps).
Proof.
  induction ps as [|p ps IH]; intros id a; cbn [fold_left concat]; [now rewrite app_nil_r|].
  unfold mk at 1. cbn [fst snd]. rewrite item_write_new, IH. now rewrite app_assoc.
Qed.
Lemma conn_items svc seq to st ext ps :
  conn_reply_items svc seq to st ext ps =
  map mk [(0xA1, le 4 to); (0xB1, le 2 seq ++ [as_response svc; 0; st; ext] ++ concat ps)].
Proof.
  unfold conn_reply_items. cbn [map]. do 2 f_equal. rewrite item_write_new, fold_item. now rewrite <- app_assoc.
Qed.
Lemma send_frame cmd l w : fits l -> len (zeros 6 ++ wire_list l) < 2 ^ 16 ->
  send cmd (serialize_items (map mk l)) w =
  (Ok tt, World (w_srv w) (w_h w) (w_in w)
            (w_sent w ++ [frame_bytes (Frame cmd (h_handle (w_h w)) 0 (h_context (w_h w)) (h_options (w_h w)) (zeros 6 ++ wire_list l))])).
Proof.
  intros F L. unfold send. rewrite serialize_mk by exact F. rewrite server_build.
  - unfold frame_of. cbn [concat]. now rewrite app_nil_r.
  - cbn [concat]. rewrite app_nil_r. exact L.
Qed.
Lemma fits_pair a b : len a < 2 ^ 16 -> len b < 2 ^ 16 -> fits [(0xA1, a); (0xB1, b)].
Proof.
  intros. split; [vm_compute; reflexivity|]. apply Forall_cons; [cbn [fst snd]; split; [lia|assumption]|].
  apply Forall_cons; [cbn [fst snd]; split; [lia|assumption]|constructor].
Qed.
Lemma wire_pair_len i a j b : len (wire_list [(i, a); (j, b)]) = 10 + len a + len b.
Proof. unfold wire_list, wire_item. cbn [map concat fst snd]. rewrite !len_app, !le_len. change (len (@nil Z)) with 0. lia. Qed.

(** ** Multi-service requests *)
Lemma jump_table_offsets rs : forall start, jump_table start rs = concat (map (le 2) (offsets start rs)).
Proof. induction rs as [|r rs IH]; intro start; cbn [jump_table offsets map concat]; [reflexivity|]. now rewrite IH. Qed.
Lemma offsets_bound l : forall start, Forall (fun o => start <= o <= start + len (concat l)) (offsets start l).
Proof.
  induction l as [|b l IH]; intro start; cbn [offsets concat]; [constructor|]. rewrite len_app.
  pose proof (len_nonneg b). pose proof (len_nonneg (concat l)). constructor; [lia|].
  eapply Forall_impl; [|apply IH]. cbv beta. intros; lia.
Qed.
Lemma read_offsets_table offs : Forall (fun o => 0 <= o < 32768) offs -> forall r,
  read_offsets (length offs) (concat (map (le 2) offs) ++ r) = Ok (offs, r).
Proof.
  induction 1 as [|o offs H F IH]; intro r; [reflexivity|]. cbn [length map concat read_offsets].
  rewrite <- app_assoc, rd_app by apply le_length. cbn [bind]. rewrite IH. cbn [bind].
  rewrite unle_le_small by (cbn; lia). unfold sgn. change (2 ^ 16) with 65536. change (2 ^ (16 - 1)) with 32768.
  rewrite Z.mod_small by lia. destruct (Z.ltb_spec o 32768); [reflexivity|lia].
Qed.
Lemma offsets_len start l : length (offsets start l) = length l.
Proof. revert start; induction l as [|b l IH]; intro start; cbn [offsets length]; [reflexivity|]. now rewrite IH. Qed.
Lemma table_len (offs : list Z) : len (concat (map (le 2) offs)) = 2 * len offs.
Proof. induction offs as [|o offs IH]; [reflexivity|]. cbn [map concat]. rewrite len_app, le_len, IH, len_cons. lia. Qed.
Lemma multi_body_len q services : len (multi_body q services) = 10 + 2 * len services + len (concat services).
Proof.
  unfold multi_body. rewrite !len_app, !le_len, table_len, !len_cons. unfold len at 2. rewrite offsets_len. change (len (@nil Z)) with 0. unfold len. lia.
Qed.
Lemma multi_reply_len q rs : len (multi_reply_body q rs) = 8 + 2 * len rs + len (concat rs).
Proof.
  unfold multi_reply_body. rewrite !len_app, !le_len, table_len, !len_cons. unfold len at 2. rewrite offsets_len. change (len (@nil Z)) with 0. unfold len. lia.
Qed.
Lemma performs_all_length m parts rs m' : performs_all m parts rs m' -> len rs = len parts.
Proof. induction 1; [reflexivity|]. rewrite !len_cons. lia. Qed.

Lemma connected_multi_spec otid q parts to i w :
  0 <= otid < 2 ^ 32 -> 0 <= q < 2 ^ 16 -> leads (w_srv w) otid i to -> separate (prov_at (w_srv w) i) ->
  Forall part_ok parts -> len (multi_body q (map part_bytes parts)) < 2 ^ 15 ->
  match connected_multi (le 4 otid) (multi_body q (map part_bytes parts)) w with
  | (Ok _, w') => exists rs w1,
      performs_all (shows (prov_at (w_srv w) i)) parts rs (shows (prov_at (w_srv w1) i)) /\
      separate (prov_at (w_srv w1) i) /\ only_prov i w w1 /\
      (Ok tt, w') = send 0x70 (serialize_items (map mk [(0xA1, le 4 to); (0xB1, multi_reply_body q rs)])) w1
  | (Err _, w') => only_prov i w w' /\ exists done a left rs m,
      parts = done ++ a :: left /\ performs_all (shows (prov_at (w_srv w) i)) done rs m /\ impossible m a /\
      forall k, shows (prov_at (w_srv w') i) k = m k
  | _ => False
  end.
Proof.
  intros Ho Hq (Li & cn & Ec & <- & Er) S F Lb.
  set (services := map part_bytes parts) in *. pose proof (multi_body_len q services) as ML. rewrite ML in Lb.
  pose proof (len_nonneg (concat services)). pose proof (len_nonneg services).
  assert (Hn : len services < 65536) by (unfold len in *; lia).
  unfold connected_multi. erewrite lift_ok by (rewrite <- (app_nil_r (le 4 otid)); apply rd_app; apply le_length). cbv beta iota.
  unfold bindM at 1, ask. rewrite unle_le_small by (cbn; lia).
  erewrite lift_ok by exact Ec. erewrite lift_ok by exact Er. cbv beta.
  unfold multi_body at 1. erewrite lift_ok by (apply rd_app; apply le_length). cbv beta iota. cbn [app].
  erewrite lift_ok by apply rd_cons1. cbv beta iota.
  erewrite lift_ok by apply rd_cons1. cbv beta iota.
  change (Z.to_nat ((unle [2] * 2) mod 256)) with 4%nat.
  change (0x20 :: 2 :: 0x24 :: 1 :: ?x) with ([0x20; 2; 0x24; 1] ++ x).
  erewrite lift_ok by (apply rd_app; reflexivity). cbv beta iota.
  erewrite lift_ok by (apply rd_app; apply le_length). cbv beta iota.
  rewrite (unle_le_small 2 (len services)) by (cbn; lia). rewrite (unle_le_small 2 q) by (cbn; lia).
  replace (Z.to_nat (len services)) with (length (offsets (2 + 2 * len services) services)) by (rewrite offsets_len; unfold len; lia).
  erewrite lift_ok.
  2:{ apply read_offsets_table. eapply Forall_impl; [|apply offsets_bound]. cbv beta. intros o Hb. lia. }
  cbv beta iota.
  assert (Eb : multi_body q services =
    (le 2 q ++ [0x0A; 2; 0x20; 0x02; 0x24; 0x01] ++ le 2 (len services) ++ concat (map (le 2) (offsets (2 + 2 * len services) services)))
    ++ concat services) by (unfold multi_body; rewrite <- !app_assoc; reflexivity).
  rewrite Eb. unfold services at 5 6.
  match goal with |- context [multi_subs i (?p ++ _) (offsets ?st _)] => pose proof (fun L => multi_subs_parts i parts p st w L F Li S) as P end.
  fold services in P. unfold bindM at 1.
  match type of P with ?A -> _ => assert (A) as HA end.
  { rewrite !len_app, !le_len, table_len, !len_cons. unfold len at 2. rewrite offsets_len. change (len (@nil Z)) with 0. unfold len. lia. }
  specialize (P HA). clear HA. fold services.
  destruct (multi_subs i _ _ w) as [[rs|e| |] w1]; try contradiction.
  - destruct P as (P1 & P2 & P3). unfold conn_reply.
    rewrite conn_items. set (x := send _ _ w1). assert (Ex : exists w2, x = (Ok tt, w2)) by (eexists; reflexivity).
    destruct Ex as (w2 & Ex). subst x. rewrite Ex. exists rs, w1. split; [exact P1|]. split; [exact P2|]. split; [exact P3|].
    rewrite <- Ex. unfold cmd_unitdata. do 4 f_equal. f_equal. f_equal. unfold multi_reply_body. f_equal. f_equal.
    pose proof (performs_all_length _ _ _ _ P1) as PL. assert (EL : len rs = len services) by (rewrite PL; unfold services; now rewrite len_map).
    cbn [app concat]. rewrite EL, jump_table_offsets. do 2 f_equal. do 3 f_equal. lia.
  - exact P.
Qed.

(** ** Single reads and writes *)
Lemma connected_read_ok svc otid q t n more to i v d w :
  svc = 0x4C \/ svc = 0x52 -> 0 <= otid < 2 ^ 32 -> 0 <= q < 2 ^ 16 -> leads (w_srv w) otid i to ->
  separate (prov_at (w_srv w) i) -> addressed t -> clear_count n ->
  ProvSpec.reads (shows (prov_at (w_srv w) i)) (text t) n v -> wire_view v d ->
  connected_read svc (le 4 otid) (le 2 q ++ [svc; len (encode t) / 2] ++ encode t ++ le 2 n ++ more) w =
  send 0x70 (serialize_items (map mk [(0xA1, le 4 to); (0xB1, le 2 q ++ [svc + 0x80; 0; 0; 0] ++ d)])) w.
Proof.
  intros Hs Ho Hq (Li & cn & Ec & <- & Er) S Ad Cc R W.
  unfold connected_read. unfold bindM at 1, ask.
  rewrite <- (app_nil_r (le 4 otid)), rd_app by apply le_length. cbn [or_send]. erewrite lift_ok by reflexivity. cbv beta iota.
  rewrite unle_le_small by (cbn; lia). rewrite Ec. cbn [or_send]. erewrite lift_ok by reflexivity. cbv beta iota.
  rewrite rd_app by apply le_length. cbn [or_send]. erewrite lift_ok by reflexivity. cbv beta iota.
  rewrite rd_app by reflexivity. cbn [or_send]. erewrite lift_ok by reflexivity. cbv beta iota.
  rewrite addressed_path by (exact Ad || now apply clear_rest). cbn [or_send]. erewrite lift_ok by reflexivity. cbv beta iota.
  rewrite rd_app by apply le_length. cbn [or_send]. erewrite lift_ok by reflexivity. cbv beta iota.
  rewrite Er. cbn [or_send]. erewrite lift_ok by reflexivity. cbv beta iota.
  rewrite clear_sgn by exact Cc. rewrite tag_read_lower.
  pose proof (tag_read_spec (prov_at (w_srv w) i) (text t) n S (proj1 (proj1 Cc))) as Q.
  destruct (tag_read (prov_at (w_srv w) i) (text t) n) as [x|e| |]; try contradiction.
  2: now elim (Q v). cbn [or_send]. erewrite lift_ok by reflexivity. cbv beta iota.
  rewrite (reads_fun _ _ _ _ _ R Q) in W. destruct (payload_wire _ _ _ W) as (ps & E & <-).
  erewrite lift_ok by exact E. unfold conn_reply. rewrite conn_items, (unle_le_small 2 q) by (cbn; lia).
  rewrite svc_response by (destruct Hs; auto). reflexivity.
Qed.
(** The tag is not there, or holds too little. *)
Lemma connected_read_missing svc otid q t n more to i w :
  svc = 0x4C \/ svc = 0x52 -> 0 <= otid < 2 ^ 32 -> 0 <= q < 2 ^ 16 -> leads (w_srv w) otid i to ->
  separate (prov_at (w_srv w) i) -> addressed t -> clear_count n ->
  (forall v, ~ ProvSpec.reads (shows (prov_at (w_srv w) i)) (text t) n v) ->
  exists e, connected_read svc (le 4 otid) (le 2 q ++ [svc; len (encode t) / 2] ++ encode t ++ le 2 n ++ more) w =
  (Err e, snd (send 0x70 (serialize_items (map mk [(0xA1, le 4 to); (0xB1, le 2 q ++ [svc + 0x80; 0; 0x28; 0])])) w)).
Proof.
  intros Hs Ho Hq (Li & cn & Ec & <- & Er) S Ad Cc R.
  unfold connected_read. unfold bindM at 1, ask.
  rewrite <- (app_nil_r (le 4 otid)), rd_app by apply le_length. cbn [or_send]. erewrite lift_ok by reflexivity. cbv beta iota.
  rewrite unle_le_small by (cbn; lia). rewrite Ec. cbn [or_send]. erewrite lift_ok by reflexivity. cbv beta iota.
  rewrite rd_app by apply le_length. cbn [or_send]. erewrite lift_ok by reflexivity. cbv beta iota.
  rewrite rd_app by reflexivity. cbn [or_send]. erewrite lift_ok by reflexivity. cbv beta iota.
  rewrite addressed_path by (exact Ad || now apply clear_rest). cbn [or_send]. erewrite lift_ok by reflexivity. cbv beta iota.
  rewrite rd_app by apply le_length. cbn [or_send]. erewrite lift_ok by reflexivity. cbv beta iota.
  rewrite Er. cbn [or_send]. erewrite lift_ok by reflexivity. cbv beta iota.
  rewrite clear_sgn by exact Cc. rewrite tag_read_lower.
  pose proof (tag_read_spec (prov_at (w_srv w) i) (text t) n S (proj1 (proj1 Cc))) as Q.
  destruct (tag_read (prov_at (w_srv w) i) (text t) n) as [x|e| |]; try contradiction; [now elim (R _ Q)|].
  exists e. cbn [or_send]. unfold conn_error. rewrite conn_items, (unle_le_small 2 q) by (cbn; lia).
  rewrite svc_response by (destruct Hs; auto). cbn [concat]. rewrite app_nil_r. reflexivity.
Qed.

Lemma unit_reply_run svc st ps w :
  unit_reply svc st ps w =
  send 0x70 (serialize_items (map mk [(0xA1, le 4 (h_to (w_h w))); (0xB1, (le 2 (h_seq (w_h w)) ++ [as_response svc; 0; st; 0]) ++ concat ps)])) w.
Proof.
  unfold unit_reply. unfold bindM at 1, ask.
  change (item_write (item_empty item_conndata) ?x) with (mk (0xB1, x)). rewrite fold_item. reflexivity.
Qed.
Lemma carries_not_nil v ty e d : carries v ty e d -> Forall not_nil (given_values v).
Proof.
  intros [k x code N I|k l code N Nb F L|s L|ss F L]; cbn [given_values].
  - constructor; [|constructor]. now apply (number_not_nil k).
  - eapply Forall_impl; [|exact F]. apply number_not_nil.
  - constructor; [discriminate|constructor].
  - apply Forall_map. apply Forall_forall. intros x _. discriminate.
Qed.
Lemma carries_first v ty e d : carries v ty e d -> exists b r, ty = b :: r /\ b <> 0x28 /\ b <> 0x29 /\ b <> 0x91.
Proof.
  assert (K : forall k code, number_code k = Some code -> code <> 0x28 /\ code <> 0x29 /\ code <> 0x91).
  { intros k code N. destruct k as [|[] w'|w'|]; try discriminate; cbn [number_code] in N; try (injection N as <-; lia);
      destruct w' as [|[|[|[|[|[|[|[|[|w']]]]]]]]]; try discriminate; injection N as <-; lia. }
  intros [k x code N I|k l code N Nb F L|s L|ss F L]; do 2 eexists; (split; [reflexivity|]); try (now apply (K k)); lia.
Qed.

(** The server has understood the values. *)
Lemma connected_write_parsed otid t b body vs left to i w :
  0 <= otid < 2 ^ 32 -> leads (w_srv w) otid i to ->
  separate (prov_at (w_srv w) i) -> addressed t -> b <> 0x28 /\ b <> 0x29 /\ b <> 0x91 ->
  parse_write_values (b :: body) = Ok (vs, left) -> Forall not_nil vs -> vs <> [] ->
  match connected_write (le 4 otid) ([len (encode t) / 2] ++ encode t ++ b :: body) w with
  | (Ok _, w') => exists w1,
      writes (shows (prov_at (w_srv w) i)) (text t) (as_given vs) (shows (prov_at (w_srv w1) i)) /\
      separate (prov_at (w_srv w1) i) /\ only_prov i w w1 /\
      (Ok tt, w') = send 0x70 (serialize_items (map mk [(0xA1, le 4 (h_to (w_h w))); (0xB1, le 2 (h_seq (w_h w)) ++ [0xCD; 0; 0; 0])])) w1
  | (Err _, w') => only_prov i w w' /\ separate (prov_at (w_srv w') i) /\
      (forall m, ~ writes (shows (prov_at (w_srv w) i)) (text t) (as_given vs) m) /\
      forall k, shows (prov_at (w_srv w') i) k = shows (prov_at (w_srv w) i) k
  | _ => False
  end.
Proof.
  intros Ho (Li & cn & Ec & <- & Er) S Ad Hb Ep Nn NE.
  unfold connected_write. cbn [app]. erewrite lift_ok by apply rd_cons1. cbv beta iota.
  erewrite lift_ok by (apply addressed_path; [exact Ad|exact Hb]).
  cbv beta iota. erewrite lift_ok by exact Ep. cbv beta iota.
  erewrite lift_ok by (rewrite <- (app_nil_r (le 4 otid)); apply rd_app; apply le_length). cbv beta iota.
  unfold bindM at 1, ask. rewrite unle_le_small by (cbn; lia).
  erewrite lift_ok by exact Ec. erewrite lift_ok by exact Er. cbv beta.
  pose proof (write_values_spec i (text t) vs w KBool NE Nn Li S) as W.
  unfold bindM. destruct (write_values i (lower (text t)) vs w) as [[u|er| |] w1]; try contradiction.
  - destruct W as (W1 & W2 & W3). rewrite unit_reply_run. cbn [concat]. rewrite app_nil_r.
    set (x := send _ _ w1). assert (Ex : exists w2, x = (Ok tt, w2)) by (eexists; reflexivity).
    destruct Ex as (w2 & Ex). subst x. rewrite Ex. exists w1. split; [exact W1|]. split; [exact W2|]. split; [exact W3|].
    rewrite <- Ex. destruct W3 as (-> & _). reflexivity.
  - destruct W as (W1 & W2 & W3 & W4). auto.
Qed.
(** It has not. *)
Lemma connected_write_refused otid t b body e w : addressed t -> b <> 0x28 /\ b <> 0x29 /\ b <> 0x91 ->
  parse_write_values (b :: body) = Err e ->
  connected_write (le 4 otid) ([len (encode t) / 2] ++ encode t ++ b :: body) w = (Err e, w).
Proof.
  intros Ad Hb Ep. unfold connected_write. cbn [app]. erewrite lift_ok by apply rd_cons1. cbv beta iota.
  erewrite lift_ok by (apply addressed_path; [exact Ad|exact Hb]). cbv beta iota. rewrite Ep. reflexivity.
Qed.

(** ** Over the wire *)
Definition receiving (s : server) (h : handler) (context : Z) : world :=
  World s (Handler (h_handle h) (h_options h) context (h_ot h) (h_to h) (h_seq h)) [] [].
Definition link_result (x : res unit * world) : res (Z * bytes) * (server * handler) :=
  (match fst x with
   | Panic => Err EMsg
   | OutOfFuel => OutOfFuel
   | _ => let* (h, d) := fst (recv_data (w_sent (snd x))) in Ok (eh_status h, d)
   end, (w_srv (snd x), w_h (snd x))).
Lemma link_run session context sh l : 0 <= session < 2 ^ 32 -> 0 <= context < 2 ^ 64 -> fits l ->
  len (zeros 6 ++ wire_list l) < 2 ^ 16 ->
  link session context sh (zeros 6 ++ wire_list l) = link_result (unit_items (map mk l) (receiving (fst sh) (snd sh) context)).
Proof.
  intros Hs Hc F L. unfold link, call.
  assert (FO : frame_ok (item_frame 0x70 session 0 context 0 (zeros 6) l)).
  { unfold item_frame. unfold frame_ok. cbn [f_command f_session f_status f_context f_options f_payload]. lia. }
  rewrite (serve_unit _ session 0 context 0 (zeros 6) l []); [|exact FO|exact F|reflexivity|].
  - unfold with_context, receiving. cbn [w_srv w_h w_sent]. destruct (unit_items _ _) as [r w]. reflexivity.
  - cbn [w_in]. rewrite app_nil_r. unfold cmd_unitdata. rewrite client_build by (cbn [concat]; rewrite app_nil_r; exact L).
    unfold frame_of, item_frame. cbn [concat]. now rewrite app_nil_r.
Qed.
Lemma recv_one h cmd l s inp : handler_ok (Handler (h_handle h) (h_options h) 0 0 0 0) -> 0 <= h_context h < 2 ^ 64 -> 0 <= cmd < 2 ^ 16 ->
  fits l -> len (zeros 6 ++ wire_list l) < 2 ^ 16 ->
  link_result (send cmd (serialize_items (map mk l)) (World s h inp [])) = (Ok (0, zeros 6 ++ wire_list l), (s, h)).
Proof.
  intros (H1 & H2) Hc Hm F L. cbn [h_handle h_options] in H1, H2. rewrite send_frame by assumption. unfold link_result. cbn [fst snd w_sent w_srv w_h app].
  set (f := Frame _ _ _ _ _ _).
  assert (FO : frame_ok f) by (unfold frame_ok, f; cbn [f_command f_session f_status f_context f_options f_payload]; lia).
  destruct (recv_frame f [] [frame_bytes f] FO) as (ps & -> & _); [reflexivity|]. cbn [fst bind header_part eh_status f f_status f_payload]. reflexivity.
Qed.
Lemma le2_wrap q : le 2 q = le 2 (q mod 65536).
Proof. symmetry. exact (le_mod 2 q). Qed.

Lemma unit_pair otid q svc x r w : 0 <= svc < 256 ->
  unit_items (map mk [(0xA1, le 4 otid); (0xB1, le 2 q ++ [svc; x] ++ r)]) w =
  (let d0 := le 4 otid in let d1 := le 2 q ++ [svc; x] ++ r in
   let w1 := World (w_srv w) (Handler (h_handle (w_h w)) (h_options (w_h w)) (h_context (w_h w)) (h_ot (w_h w)) (h_to (w_h w)) (q mod 65536)) (w_in w) (w_sent w) in
   if svc =? svc_write then connected_write d0 (x :: r) w1
      else if (svc =? svc_fragread) || (svc =? svc_read) then connected_read svc d0 d1 w1
      else if svc =? svc_multi then connected_multi d0 d1 w1
      else if svc =? svc_get_single then connected_get_attr d0 d1 w1
      else if svc =? svc_get_all then get_attribute_all (unit_reply svc_get_all) (x :: r) w1
      else if svc =? svc_list then connected_symbols d0 w1
      else unit_reply svc st_not_supported [] w1).
Proof.
  intro Hs. cbn [map]. unfold unit_items. rewrite !mk_data. cbn [snd].
  change (negb (it_id (mk (0xA1, le 4 otid)) =? item_connaddr)) with false. cbv iota.
  erewrite lift_ok by (rewrite <- (app_nil_r (le 4 otid)); apply rd_app; apply le_length). cbv beta.
  erewrite lift_ok by (apply rd_app; apply le_length). cbv beta iota.
  erewrite bindM_ok by reflexivity. cbn [app].
  erewrite lift_ok by apply rd_cons1. cbv beta iota zeta.
  replace (unle [svc]) with svc by (cbn [unle]; lia).
  rewrite (unle_le 2 q). change (2 ^ (8 * Z.of_nat 2)) with 65536.
  repeat match goal with |- (if ?b then _ else _) _ = _ => destruct b; [reflexivity|] end. reflexivity.
Qed.

(** A read of what the server can send. *)
Lemma link_read session context otid i sh q t n v type x d :
  linked session context otid i sh -> addressed t -> len (encode t) < 512 -> clear_count n ->
  ProvSpec.reads (behind i sh) (text t) n v -> wire_view v ([type; x] ++ d) -> len d < 65000 ->
  exists p sh1, link session context sh (read_request otid q (encode t) n) = (Ok (0, p), sh1) /\
    answer p 0 type d /\ linked session context otid i sh1 /\ fst sh1 = fst sh.
Proof.
  intros (Hs & Hc & Ho & Hh & (to & Ld) & S) Ad Lt Cc R W Ld'. pose proof (len_nonneg (encode t)). pose proof (len_nonneg d).
  unfold read_request. rewrite link_run; [|exact Hs|exact Hc| |].
  - rewrite unit_pair by lia. cbv zeta.
    change (0x4C =? svc_write) with false. change ((0x4C =? svc_fragread) || (0x4C =? svc_read)) with true. cbv iota.
    rewrite (le2_wrap q). rewrite <- (app_nil_r (le 2 n)).
    rewrite (connected_read_ok 0x4C otid (q mod 65536) t n [] to i v ([type; x] ++ d)); try assumption; try (now left).
    2: apply Z.mod_pos_bound; lia.
    unfold receiving. cbn [w_srv w_h w_in w_sent h_handle h_options h_context h_ot h_to h_seq].
    rewrite recv_one; [|exact Hh|exact Hc|lia| |].
    + eexists _, _. split; [reflexivity|]. split; [|split].
      * exists (zeros 6), (0xA1, le 4 to), 0xB1, (le 2 (q mod 65536)), 0xCC, 0, 0, x, [].
        split; [reflexivity|]. split; [apply le_length|]. split; [|now rewrite app_nil_r].
        apply fits_pair; [rewrite le_len; lia|]. rewrite !len_app, le_len, !len_cons. change (len (@nil Z)) with 0. lia.
      * split; [exact Hs|]. split; [exact Hc|]. split; [exact Ho|]. split; [exact Hh|]. split; [now exists to|exact S].
      * reflexivity.
    + apply fits_pair; [rewrite le_len; lia|]. rewrite !len_app, le_len, !len_cons. change (len (@nil Z)) with 0. lia.
    + rewrite len_app, wire_pair_len, !len_app, !le_len, !len_cons. change (len (zeros 6)) with 6. change (len (@nil Z)) with 0. lia.
  - apply fits_pair; [rewrite le_len; lia|]. rewrite !len_app, !le_len, !len_cons. change (len (@nil Z)) with 0. lia.
  - rewrite len_app, wire_pair_len, !len_app, !le_len, !len_cons. change (len (zeros 6)) with 6. change (len (@nil Z)) with 0. lia.
Qed.

(** A write. *)
Lemma leads_same s s' otid i to : leads s otid i to -> sv_cm s' = sv_cm s -> sv_router s' = sv_router s ->
  length (sv_provs s') = length (sv_provs s) -> leads s' otid i to.
Proof.
  intros (L & cn & E1 & E2 & E3) C R P. split; [now rewrite P|]. exists cn. unfold conn_by_ot, resolve in *. rewrite C, R. auto.
Qed.
Definition others_same (i : nat) (s s' : server) : Prop :=
  sv_cm s' = sv_cm s /\ sv_router s' = sv_router s /\ length (sv_provs s') = length (sv_provs s) /\
  (forall j, j <> i -> prov_at s' j = prov_at s j).
Lemma link_write_parsed session context otid i sh q t ty e d b body vs left :
  linked session context otid i sh -> addressed t -> len (encode t) < 512 ->
  ty ++ le 2 e ++ d = b :: body -> b <> 0x28 /\ b <> 0x29 /\ b <> 0x91 ->
  parse_write_values (b :: body) = Ok (vs, left) -> Forall not_nil vs -> vs <> [] ->
  len (ty ++ le 2 e ++ d) < 64000 ->
  exists r sh1, link session context sh (write_request otid q (write_service (encode t) ty e d)) = (r, sh1) /\
    linked session context otid i sh1 /\ others_same i (fst sh) (fst sh1) /\
    ((exists p, r = Ok (0, p) /\ write_answer p 0 /\
        writes (behind i sh) (text t) (as_given vs) (behind i sh1)) \/
     (exists er, r = Err er /\ (forall m, ~ writes (behind i sh) (text t) (as_given vs) m) /\
        forall k, behind i sh1 k = behind i sh k)).
Proof.
  intros (Hs & Hc & Ho & Hh & (to & Ld) & S) Ad Lt Et Hb Ep Nn NE Lb. pose proof (len_nonneg (encode t)).
  unfold write_request, write_service. rewrite link_run; [|exact Hs|exact Hc| |].
  - rewrite unit_pair by lia. cbv zeta. change (0x4D =? svc_write) with true. cbv iota.
    set (w0 := World _ _ _ _).
    pose proof (connected_write_parsed otid t b body vs left to i w0 Ho Ld S Ad Hb Ep Nn NE) as W.
    rewrite Et. change (len (encode t) / 2 :: encode t ++ b :: body) with ([len (encode t) / 2] ++ encode t ++ b :: body).
    destruct (connected_write _ _ w0) as [[u|er| |] w']; try contradiction.
    + destruct W as (w1 & W1 & W2 & W3 & W4). pose proof W3 as (E1 & E2 & E3 & E4 & E5 & E6 & E7).
      destruct u. rewrite W4. destruct w1 as [s1 h1 i1 o1]. cbn [w_srv w_h w_in w_sent w0 receiving] in *. subst h1 i1 o1.
      rewrite recv_one; [|exact Hh|exact Hc|lia| |].
      * eexists _, _. split; [reflexivity|]. split.
        { split; [exact Hs|]. split; [exact Hc|]. split; [exact Ho|]. split; [exact Hh|]. split; [|exact W2].
          exists to. now apply (leads_same _ _ _ _ _ Ld). }
        split; [split; [exact E4|]; split; [exact E5|]; split; [exact E6|exact E7]|].
        left. eexists. split; [reflexivity|]. split; [|exact W1].
        eexists (zeros 6), (0xA1, _), 0xB1, (le 2 (q mod 65536)), 0xCD, 0, 0, [], [], [].
        split; [reflexivity|]. split; [apply le_length|]. split; [|rewrite app_nil_r; reflexivity].
        apply fits_pair; [rewrite le_len; lia|]. vm_compute. reflexivity.
      * apply fits_pair; [rewrite le_len; lia|]. rewrite len_app, le_len. vm_compute. reflexivity.
      * rewrite len_app, wire_pair_len, len_app, !le_len. vm_compute. reflexivity.
    + destruct W as (O & S' & N & Sh). pose proof O as (E1 & E2 & E3 & E4 & E5 & E6 & E7).
      unfold link_result. cbn [fst snd]. rewrite E3. cbn [w0 receiving w_sent].
      change (fst (recv_data [])) with (@Err (eip_header * bytes) EEof). cbn [bind].
      eexists _, _. split; [reflexivity|]. split.
      * split; [exact Hs|]. split; [exact Hc|]. split; [exact Ho|]. split; [cbn [snd]; rewrite E1; exact Hh|]. split; [|exact S'].
        exists to. cbn [fst]. now apply (leads_same _ _ _ _ _ Ld).
      * split; [split; [exact E4|]; split; [exact E5|]; split; [exact E6|exact E7]|]. right. eexists. split; [reflexivity|]. split; [exact N|exact Sh].
  - apply fits_pair; [rewrite le_len; lia|]. rewrite !len_app, !le_len, !len_cons in *. change (len (@nil Z)) with 0. lia.
  - rewrite len_app, wire_pair_len, !len_app, !le_len, !len_cons in *. change (len (zeros 6)) with 6. change (len (@nil Z)) with 0. lia.
Qed.

Lemma link_write_refused session context otid i sh q t ty e d b body er :
  linked session context otid i sh -> addressed t -> len (encode t) < 512 ->
  ty ++ le 2 e ++ d = b :: body -> b <> 0x28 /\ b <> 0x29 /\ b <> 0x91 ->
  parse_write_values (b :: body) = Err er -> len (ty ++ le 2 e ++ d) < 64000 ->
  exists e1 sh1, link session context sh (write_request otid q (write_service (encode t) ty e d)) = (Err e1, sh1) /\
    linked session context otid i sh1 /\ fst sh1 = fst sh.
Proof.
  intros (Hs & Hc & Ho & Hh & (to & Ld) & S) Ad Lt Et Hb Ep Lb. pose proof (len_nonneg (encode t)).
  unfold write_request, write_service. rewrite link_run; [|exact Hs|exact Hc| |].
  - rewrite unit_pair by lia. cbv zeta. change (0x4D =? svc_write) with true. cbv iota. rewrite Et.
    change (len (encode t) / 2 :: encode t ++ b :: body) with ([len (encode t) / 2] ++ encode t ++ b :: body).
    rewrite (connected_write_refused otid t b body er _ Ad Hb Ep). unfold link_result, receiving. cbn [fst snd w_sent w_srv w_h].
    change (fst (recv_data [])) with (@Err (eip_header * bytes) EEof). cbn [bind].
    eexists _, _. split; [reflexivity|]. split; [|reflexivity].
    split; [exact Hs|]. split; [exact Hc|]. split; [exact Ho|]. split; [exact Hh|]. split; [now exists to|exact S].
  - apply fits_pair; [rewrite le_len; lia|]. rewrite !len_app, !le_len, !len_cons in *. change (len (@nil Z)) with 0. lia.
  - rewrite len_app, wire_pair_len, !len_app, !le_len, !len_cons in *. change (len (zeros 6)) with 6. change (len (@nil Z)) with 0. lia.
Qed.
Lemma link_write session context otid i sh q t v ty e d :
  linked session context otid i sh -> addressed t -> len (encode t) < 512 -> carries v ty e d ->
  Forall representable (given_values v) -> given_values v <> [] -> (forall l, v = WMany KString l -> len l <= 1) ->
  len (ty ++ le 2 e ++ d) < 64000 ->
  exists r sh1, link session context sh (write_request otid q (write_service (encode t) ty e d)) = (r, sh1) /\
    linked session context otid i sh1 /\ others_same i (fst sh) (fst sh1) /\
    ((exists p, r = Ok (0, p) /\ write_answer p 0 /\
        writes (behind i sh) (text t) (as_given (given_values v)) (behind i sh1)) \/
     (exists er, r = Err er /\ (forall m, ~ writes (behind i sh) (text t) (as_given (given_values v)) m) /\
        forall k, behind i sh1 k = behind i sh k)).
Proof.
  intros L Ad Lt C R NE Ns Lb.
  destruct (C43_values_partial v ty e d [] C R Ns) as (left & Ep & _). rewrite app_nil_r in Ep.
  destruct (carries_first v ty e d C) as (b & r & -> & Hb).
  exact (link_write_parsed session context otid i sh q t (b :: r) e d b (r ++ le 2 e ++ d) (given_values v) left L Ad Lt eq_refl Hb Ep (carries_not_nil _ _ _ _ C) NE Lb).
Qed.

(** ** Names *)
Lemma join_snoc c (L : list bytes) : exists P, forall x, join c (L ++ [x]) = P ++ x.
Proof.
  induction L as [|a L (P & IH)].
  - exists []. reflexivity.
  - exists (a ++ c :: P). intro x. destruct L as [|b L].
    + cbn [app join]. specialize (IH x). cbn [app join] in IH. destruct P as [|y P].
      * now rewrite <- app_assoc.
      * exfalso. apply (f_equal (@length Z)) in IH. cbn [length app] in IH. rewrite app_length in IH. lia.
    + change ((a :: b :: L) ++ [x]) with (a :: (b :: L) ++ [x]). cbn [join]. cbn [app]. cbn [app] in IH.
      rewrite IH. now rewrite <- app_assoc.
Qed.
Definition no_member : member := {| m_name := []; m_subs := [] |}.
Lemma text_split t : valid_tag t -> t_bit t = None -> exists P m,
  last (t_members t) no_member = m /\ valid_member m /\
  text t = P ++ member_text m /\ text (strip_subs t) = P ++ m_name m.
Proof.
  intros (NE & V & _) B. destruct (join_snoc 46 (map member_text (removelast (t_members t)))) as (P & HP).
  exists P, (last (t_members t) no_member). split; [reflexivity|].
  pose proof (app_removelast_last no_member NE) as E. split; [|split].
  - rewrite E in V. apply Forall_app in V as [_ V]. now inversion V.
  - rewrite text_members by exact B. rewrite E at 1. rewrite map_app. apply HP.
  - rewrite text_members by exact B. cbn [strip_subs t_members]. rewrite map_app. apply HP.
Qed.
Lemma last_map {A B} (f : A -> B) (l : list A) d : l <> [] -> last (map f l) (f d) = f (last l d).
Proof. induction l as [|a [|b l] IH]; intro N; [congruence|reflexivity|]. cbn [map last] in *. apply IH. discriminate. Qed.
Lemma name_char_not n c : Forall name_char n -> c = 91 \/ c = 93 -> ~ In c n.
Proof. intros F Hc I. rewrite Forall_forall in F. specialize (F c I). unfold name_char in F. lia. Qed.
Lemma atoi_no_comma ds i : atoi ds = (i, true) -> ~ In 44 ds.
Proof.
  intros H I. unfold atoi in H.
  assert (K : forall d, In 44 d -> forallb is_digit d = false).
  { intros d J. destruct (forallb is_digit d) eqn:E; [|reflexivity]. rewrite forallb_forall in E. now specialize (E 44 J). }
  set (nd := match ds with 45 :: r => (true, r) | 43 :: r => (false, r) | _ => (false, ds) end) in H.
  assert (J : In 44 (snd nd)).
  { subst nd. destruct ds as [|c r]; [destruct I|].
    destruct I as [->|I]; [now left|].
    destruct (Z.eq_dec c 45) as [->|N1]; [exact I|]. destruct (Z.eq_dec c 43) as [->|N2]; [exact I|].
    assert (E : (match c with 45 => (true, r) | 43 => (false, r) | _ => (false, c :: r) end) = (false, c :: r)).
    { destruct c as [|p|p]; try reflexivity. repeat (destruct p as [p|p|]; try reflexivity; try congruence). }
    rewrite E. now right. }
  destruct nd as [neg d]. cbn [snd] in J. destruct d; [destruct J|]. rewrite K in H by exact J. discriminate.
Qed.
Lemma split_last_bracket a b a' b' : a ++ 91 :: b = a' ++ 91 :: b' -> ~ In 91 b -> ~ In 91 b' -> a = a' /\ b = b'.
Proof.
  revert a'. induction a as [|x a IH]; intros [|x' a'] E N N'; cbn [app] in E.
  - split; congruence.
  - injection E as <- E. exfalso. apply N. rewrite E. apply in_or_app. right. now left.
  - injection E as -> E. exfalso. apply N'. rewrite <- E. apply in_or_app. right. now left.
  - injection E as <- E. destruct (IH _ E N N') as [-> ->]. now split.
Qed.
Lemma join_no_bracket subs : Forall (fun i => 0 <= i) subs -> ~ In 91 (join 44 (map dec subs)).
Proof.
  intros F I. assert (J : Forall (fun c => c <> 91) (join 44 (map dec subs))).
  { apply join_chars; [lia|]. apply Forall_map. eapply Forall_impl; [|exact F]. cbv beta. intros a Ha.
    eapply Forall_impl; [|apply dec_digits, Ha]. cbv beta. intros; lia. }
  rewrite Forall_forall in J. now apply (J 91 I).
Qed.
Lemma valid_subs m : valid_member m -> Forall (fun i => 0 <= i) (m_subs m).
Proof. intros (_ & F). eapply Forall_impl; [|exact F]. cbv beta. lia. Qed.

Lemma plain_text t : valid_tag t -> t_bit t = None -> length (last_subs t) <> 1%nat -> plain_name (text t).
Proof.
  intros V B N base i (ds & E & A). destruct (text_split t V B) as (P & m & Em & Vm & Et & _).
  unfold last_subs in N. fold no_member in N. rewrite Em in N. rewrite Et in E. unfold member_text in E. clear Et Em.
  pose proof (valid_subs m Vm) as Vs. destruct Vm as ((Ln & Fn & _) & _).
  destruct (m_subs m) as [|i1 [|i2 subs]] eqn:Es; [| |].
  - (* ends in a name character *)
    destruct (exists_last (l := m_name m)) as (n0 & c & Ec); [intro Z0; rewrite Z0 in Ln; change (len (@nil Z)) with 0 in Ln; lia|].
    rewrite Ec in *. change (base ++ 91 :: ds ++ [93]) with (base ++ (91 :: ds) ++ [93]) in E. rewrite !app_assoc in E.
    apply app_inj_tail in E as [_ ->]. apply (name_char_not _ 93 Fn); [auto|]. apply in_or_app. right. now left.
  - cbn [length] in N. lia.
  - set (J := join 44 (map dec (i1 :: i2 :: subs))) in *.
    assert (E' : (P ++ m_name m) ++ 91 :: J = base ++ 91 :: ds).
    { apply (app_inj_tail _ _ 93 93). rewrite <- !app_assoc. exact E. }
    apply split_last_bracket in E' as [_ <-].
    + apply (atoi_no_comma _ _ A). subst J. cbn [map join]. apply in_or_app. right. now left.
    + apply join_no_bracket. exact Vs.
    + now apply (atoi_no_bracket _ i).
Qed.
Lemma elem_text t i : valid_tag t -> t_bit t = None -> last_subs t = [i] -> elem_name (text t) (text (strip_subs t)) i.
Proof.
  intros V B N. destruct (text_split t V B) as (P & m & Em & Vm & Et & Es).
  unfold last_subs in N. fold no_member in N. rewrite Em in N. exists (dec i). split.
  - rewrite Et, Es. unfold member_text. rewrite N. cbn [map join]. now rewrite <- !app_assoc.
  - destruct Vm as (_ & F). rewrite N in F. inversion F as [|? ? Hi _]; subst. apply atoi_dec. unfold int_max. lia.
Qed.
Lemma last_subs_lower t : valid_tag t -> last_subs (lower_tag t) = last_subs t.
Proof.
  intros (NE & _). unfold last_subs. cbn [lower_tag t_members]. change {| m_name := []; m_subs := [] |} with (lower_member no_member) at 1.
  rewrite last_map by exact NE. reflexivity.
Qed.
Lemma strip_lower t : valid_tag t -> t_bit t = None -> lower (text (strip_subs t)) = text (strip_subs (lower_tag t)).
Proof.
  intros V B. rewrite lower_text.
  - f_equal. unfold strip_subs, lower_tag. cbn [t_members t_bit]. f_equal. rewrite map_app. f_equal.
    + clear. induction (t_members t) as [|a [|b l] IH]; [reflexivity|reflexivity|]. cbn [removelast map] in *. now rewrite IH.
    + cbn [map]. unfold lower_member at 1. cbn [m_name m_subs]. do 2 f_equal.
      change {| m_name := []; m_subs := [] |} with (lower_member no_member) at 2.
      rewrite last_map by apply V. reflexivity.
  - destruct V as (NE & F & Vb). pose proof (app_removelast_last no_member NE) as E. rewrite E in F. apply Forall_app in F as [F1 F2].
    split; [|split].
    + cbn [strip_subs t_members]. intro C. apply app_eq_nil in C as [_ C]. discriminate.
    + cbn [strip_subs t_members]. apply Forall_app. split; [exact F1|]. constructor; [|constructor].
      inversion F2 as [|? ? (Vn & _) _]; subst. split; [exact Vn|constructor].
    + exact Vb.
Qed.
Lemma plain_lower t : valid_tag t -> t_bit t = None -> length (last_subs t) <> 1%nat -> plain_name (lower (text t)).
Proof.
  intros V B N. rewrite lower_text by exact V. apply plain_text; [now apply valid_lower_tag|exact B|].
  now rewrite last_subs_lower.
Qed.
Lemma elem_lower t i : valid_tag t -> t_bit t = None -> last_subs t = [i] ->
  elem_name (lower (text t)) (lower (text (strip_subs t))) i.
Proof.
  intros V B N. rewrite lower_text, strip_lower by assumption. apply elem_text; [now apply valid_lower_tag|exact B|].
  now rewrite last_subs_lower.
Qed.
