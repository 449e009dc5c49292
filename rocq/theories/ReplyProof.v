(** * Lemmas: what replies say *)
From Verif Require Import GoBase SegModel IoiModel IoiProof ItemsModel ItemsSpec ItemsProof TypesModel WriteModel ReadModel ReadProof EipModel EipSpec EipProof
  OpenModel TableModel ProvModel ProvProof SrvValModel SrvModel SrvSpec SrvProof ReqSpec ReqProof BrowseProof RouteSpec RouteProof SendSpec SendProof ReplySpec.

(** Everything a handler sends satisfies [P]. *)
Definition says {A} (P : bytes -> Prop) (w : world) (x : res A * world) : Prop :=
  exists fs, w_sent (snd x) = w_sent w ++ fs /\ Forall P fs.
(** A step that sends nothing and leaves the handler alone. *)
Definition mute {A} (m : M A) : Prop := forall w, w_sent (snd (m w)) = w_sent w /\ w_h (snd (m w)) = w_h w.

Lemma says_nothing {A} P w (r : res A) v : w_sent v = w_sent w -> says P w (r, v).
Proof. intro E. exists []. split; [cbn [snd]; now rewrite E, app_nil_r|constructor]. Qed.
Lemma says_lift {A B} P w (r : res A) (k : A -> M B) : (forall a, r = Ok a -> says P w (k a w)) -> says P w (bindM (lift r) k w).
Proof. intro K. destruct r as [a|e| |]; [exact (K a eq_refl)| | |]; now apply says_nothing. Qed.
Lemma says_ask {A B} P w (f : world -> A) (k : A -> M B) : says P w (k (f w) w) -> says P w (bindM (ask f) k w).
Proof. auto. Qed.
Lemma says_mute {A B} P w (m : M A) (k : A -> M B) : mute m -> (forall a w', w_h w' = w_h w -> says P w' (k a w')) -> says P w (bindM m k w).
Proof.
  intros Q K. destruct (Q w) as [S H]. unfold bindM. destruct (m w) as [[a|e| |] w']; cbn [snd] in *; try (now apply says_nothing).
  destruct (K a w' H) as (fs & E & F). exists fs. split; [now rewrite E, S|exact F].
Qed.
Lemma says_or_send {A B} P w (r : res A) m (k : A -> M B) : says P w (m w) -> (forall a, r = Ok a -> says P w (k a w)) -> says P w (bindM (or_send r m) k w).
Proof.
  intros Q K. destruct r as [a|e| |]; [exact (K a eq_refl)| | |]; try (now apply says_nothing).
  unfold or_send, bindM. destruct Q as (fs & E & F). destruct (m w) as [[u|x| |] w'] eqn:Em; cbn [snd] in E; exists fs; split; exact E || exact F.
Qed.
Lemma says_or_reply {A} P w (r : res A) m (k : A -> M unit) : says P w (m w) -> (forall a, r = Ok a -> says P w (k a w)) -> says P w (or_reply r m k w).
Proof.
  intros Q K. destruct r as [a|e| |]; [exact (K a eq_refl)|exact Q| |]; now apply says_nothing.
Qed.
Lemma says_send (P : bytes -> Prop) w cmd part : P (server_msg_build (h_handle (w_h w)) (h_context (w_h w)) (h_options (w_h w)) cmd [part]) -> says P w (send cmd part w).
Proof. intro H. eexists [_]. split; [reflexivity|]. constructor; [exact H|constructor]. Qed.
Lemma says_then {A B} P w (m : M A) (k : A -> M B) : says P w (m w) -> (forall a, mute (k a)) -> says P w (bindM m k w).
Proof.
  intros (fs & E & F) Q. exists fs. split; [|exact F]. unfold bindM. destruct (m w) as [[a|e| |] w']; cbn [snd] in *; try exact E.
  destruct (Q a w') as [S _]. now rewrite S.
Qed.

Lemma mute_lift {A} (r : res A) : mute (lift r). Proof. intro w. auto. Qed.
Lemma mute_ask {A} (f : world -> A) : mute (ask f). Proof. intro w. auto. Qed.
Lemma mute_put f : mute (put_srv f). Proof. intro w. auto. Qed.
Lemma mute_ret {A} (a : A) : mute (ret a). Proof. intro w. auto. Qed.
Lemma mute_draw : mute draw. Proof. intro w. auto. Qed.
Lemma mute_bind {A B} (m : M A) (k : A -> M B) : mute m -> (forall a, mute (k a)) -> mute (bindM m k).
Proof.
  intros Q K w. destruct (Q w) as [S H]. unfold bindM. destruct (m w) as [[a|e| |] w']; cbn [snd] in *; auto.
  destruct (K a w') as [S' H']. split; congruence.
Qed.
Ltac mute :=
  repeat first [apply mute_lift | apply mute_ask | apply mute_put | apply mute_ret | apply mute_draw
    | apply mute_bind; [|intro] | match goal with
      | |- mute (let '(_, _) := ?x in _) => destruct x
      | |- mute (if ?b then _ else _) => destruct b
      | |- mute (match ?x with _ => _ end) => destruct x
      end].
Lemma mute_write i tag vs : mute (write_values i tag vs).
Proof. unfold write_values. mute. Qed.
Lemma mute_sub i d1 off : mute (multi_sub i d1 off).
Proof. unfold multi_sub, fail. repeat first [apply mute_write | progress mute]. Qed.
Lemma mute_subs i d1 offs : mute (multi_subs i d1 offs).
Proof. induction offs as [|o os IH]; cbn [multi_subs]; [apply mute_ret|]. apply mute_bind; [apply mute_sub|intro]. apply mute_bind; [exact IH|intro]. apply mute_ret. Qed.

(** The bytes of replies. *)
Lemma build_bytes handle context options cmd x y :
  exists hd l, server_msg_build handle context options cmd [serialize_items (map mk [x; y])] =
    (le 2 cmd ++ hd) ++ (le 2 (fst x) ++ le 2 (len (snd x) mod 65536) ++ snd x) ++ (le 2 (fst y) ++ le 2 l) ++ snd y /\ length hd = 30%nat.
Proof.
  unfold server_msg_build, serialize_items. cbn [fold_left map concat]. unfold item_bytes. rewrite !mk_data. rewrite app_nil_r.
  unfold header_bytes, server_header. cbn [eh_command eh_length eh_session eh_status eh_context eh_options].
  set (n := fold_left _ _ _ mod _) || set (n := (0 + _) mod _). 
  eexists (le 2 n ++ le 4 handle ++ le 4 0 ++ le 8 context ++ le 4 options ++ le 4 0 ++ le 2 0 ++ le 2 (len [mk x; mk y])), (len (snd y) mod 65536).
  split; [now rewrite <- !app_assoc|]. rewrite !app_length, !le_length. reflexivity.
Qed.
Lemma skip_all (a b : bytes) n : length a = n -> skipn n (a ++ b) = b.
Proof. intros <-. rewrite skipn_app, skipn_all, Nat.sub_diag. reflexivity. Qed.
Lemma first_all (a b : bytes) n : length a = n -> firstn n (a ++ b) = a.
Proof. intros <-. rewrite firstn_app, firstn_all, Nat.sub_diag, firstn_O. apply app_nil_r. Qed.
Lemma conn_says w to seq svc st ext ps : says (over_connection to seq svc) w
  (send 0x70 (serialize_items (map mk [(0xA1, le 4 to); (0xB1, le 2 seq ++ [as_response svc; 0; st; ext] ++ concat ps)])) w).
Proof.
  apply says_send. destruct (build_bytes (h_handle (w_h w)) (h_context (w_h w)) (h_options (w_h w)) 0x70 (0xA1, le 4 to) (0xB1, le 2 seq ++ [as_response svc; 0; st; ext] ++ concat ps)) as (hd & l & -> & L).
  cbn [fst snd]. assert (len (le 4 to) mod 65536 = 4) as -> by (unfold len; rewrite le_length; reflexivity).
  assert (L32 : length (le 2 0x70 ++ hd) = 32%nat) by (rewrite app_length, le_length, L; reflexivity).
  constructor.
  - rewrite <- !app_assoc. rewrite first_all by apply le_length. reflexivity.
  - rewrite skip_all by exact L32. rewrite first_all by (rewrite !app_length, !le_length; reflexivity). reflexivity.
  - rewrite (app_assoc (le 2 0x70 ++ hd)), (app_assoc (_ ++ _) (le 2 0xB1 ++ le 2 l)).
    rewrite skip_all by (rewrite !app_length, !le_length, L; reflexivity). apply first_all. apply le_length.
  - rewrite (app_assoc (le 2 0x70 ++ hd)), (app_assoc (_ ++ _) (le 2 0xB1 ++ le 2 l)), (app_assoc (_ ++ _) (le 2 seq)).
    rewrite skip_all by (rewrite !app_length, !le_length, L; reflexivity). reflexivity.
Qed.
Lemma unconn_says w svc d : says (unconnected_answer svc) w
  (send 0x6F (serialize_items (map mk [(0, []); (0xB2, as_response svc :: d)])) w).
Proof.
  apply says_send. destruct (build_bytes (h_handle (w_h w)) (h_context (w_h w)) (h_options (w_h w)) 0x6F (0, []) (0xB2, as_response svc :: d)) as (hd & l & -> & L).
  cbn [fst snd]. assert (L32 : length (le 2 0x6F ++ hd) = 32%nat) by (rewrite app_length, le_length, L; reflexivity).
  constructor.
  - rewrite <- !app_assoc. rewrite first_all by apply le_length. reflexivity.
  - rewrite skip_all by exact L32. rewrite first_all by (rewrite !app_length, !le_length; reflexivity). reflexivity.
  - rewrite (app_assoc (le 2 0x6F ++ hd)), (app_assoc (_ ++ _) (le 2 0xB2 ++ le 2 l)).
    rewrite skip_all by (rewrite !app_length, !le_length, L; reflexivity). reflexivity.
Qed.
Lemma conn_reply_says w svc seq to ps : says (over_connection to seq svc) w (conn_reply svc seq to ps w).
Proof. unfold conn_reply. rewrite conn_items. apply conn_says. Qed.
Lemma conn_error_says w svc seq to st : says (over_connection to seq svc) w (conn_error svc seq to st w).
Proof. unfold conn_error. rewrite conn_items. apply conn_says. Qed.
Lemma unit_reply_says w svc st ps : says (over_connection (h_to (w_h w)) (h_seq (w_h w)) svc) w (unit_reply svc st ps w).
Proof. rewrite unit_reply_run, <- app_assoc. apply conn_says. Qed.
Lemma unconn_reply_says w svc st ps : says (unconnected_answer svc) w (unconn_reply svc st ps w).
Proof. rewrite unconn_reply_run. apply unconn_says. Qed.

(** ** Connected requests *)
Lemma get_all_says P reply r w : (forall st ps, says P w (reply st ps w)) -> says P w (get_attribute_all reply r w).
Proof.
  intro R. unfold get_attribute_all. apply says_lift. intros [ps r1] _. apply says_lift. intros [path r2] _. apply says_ask.
  apply says_or_reply; [apply R|]. intros [c i] _. destruct (c =? obj_identity).
  - destruct (negb _); [apply R|]. apply says_lift. intros b _. apply R.
  - destruct (c =? 0x64); [|apply R]. destruct (negb _); [apply R|]. apply says_lift. intros b _. apply R.
Qed.
Lemma conn_of s ot to : listens s ot to -> exists cn, conn_by_ot s ot = Ok cn /\ sc_to cn = to.
Proof. intros (a & G & T). unfold conn_by_ot. rewrite G. eexists. split; [reflexivity|exact T]. Qed.
Lemma read_says svc ot to seq r w : 0 <= ot < 2 ^ 32 -> 0 <= seq < 2 ^ 16 -> listens (w_srv w) ot to ->
  says (over_connection to seq svc) w (connected_read svc (le 4 ot) (le 2 seq ++ r) w).
Proof.
  intros Ho Hq L. destruct (conn_of _ _ _ L) as (cn & C & T). unfold connected_read. apply says_ask.
  rewrite <- (app_nil_r (le 4 ot)), (rd_app 4) by apply le_length. cbn [or_send]. erewrite lift_ok by reflexivity. cbv beta iota zeta.
  rewrite unle_le_small by lia. rewrite C. cbn [or_send]. erewrite lift_ok by reflexivity. cbv beta iota zeta.
  rewrite (rd_app 2 (le 2 seq)) by apply le_length. cbn [or_send]. erewrite lift_ok by reflexivity. cbv beta iota zeta.
  rewrite unle_le_small by lia. rewrite T.
  apply says_or_send; [apply conn_error_says|]. intros [x r1] _.
  apply says_or_send; [apply conn_error_says|]. intros [tag r2] _.
  apply says_or_send; [apply conn_error_says|]. intros [n r3] _.
  apply says_or_send; [apply conn_error_says|]. intros i _.
  apply says_or_send; [apply conn_error_says|]. intros v _.
  apply says_lift. intros ps _. apply conn_reply_says.
Qed.
Lemma multi_says ot to seq r w : 0 <= ot < 2 ^ 32 -> 0 <= seq < 2 ^ 16 -> listens (w_srv w) ot to ->
  says (over_connection to seq 0x0A) w (connected_multi (le 4 ot) (le 2 seq ++ r) w).
Proof.
  intros Ho Hq L. destruct (conn_of _ _ _ L) as (cn & C & T). unfold connected_multi.
  rewrite <- (app_nil_r (le 4 ot)), (rd_app 4) by apply le_length. erewrite lift_ok by reflexivity. cbv beta iota zeta.
  apply says_ask. rewrite unle_le_small by lia. rewrite C. erewrite lift_ok by reflexivity. cbv beta iota zeta.
  apply says_lift. intros i _. rewrite (rd_app 2 (le 2 seq)) by apply le_length. erewrite lift_ok by reflexivity. cbv beta iota zeta.
  rewrite unle_le_small by lia. rewrite T.
  apply says_lift. intros [x r1] _. apply says_lift. intros [pl r2] _. apply says_lift. intros [y r3] _. apply says_lift. intros [n r4] _.
  apply says_lift. intros [offs r5] _. apply says_mute; [apply mute_subs|]. intros results w' _. apply conn_reply_says.
Qed.
Lemma get_attr_says ot to seq r w : 0 <= ot < 2 ^ 32 -> 0 <= seq < 2 ^ 16 -> listens (w_srv w) ot to ->
  says (over_connection to seq 0x52) w (connected_get_attr (le 4 ot) (le 2 seq ++ r) w).
Proof.
  intros Ho Hq L. destruct (conn_of _ _ _ L) as (cn & C & T). unfold connected_get_attr, fail.
  rewrite <- (app_nil_r (le 4 ot)), (rd_app 4) by apply le_length. erewrite lift_ok by reflexivity. cbv beta iota zeta.
  apply says_ask. rewrite unle_le_small by lia. rewrite C. erewrite lift_ok by reflexivity. cbv beta iota zeta.
  rewrite (rd_app 2 (le 2 seq)) by apply le_length. erewrite lift_ok by reflexivity. cbv beta iota zeta.
  rewrite unle_le_small by lia. rewrite T.
  apply says_lift. intros [x r1] _. apply says_lift. intros [ps r2] _. destruct (negb _); [now apply says_nothing|].
  apply says_lift. intros [c r3] _. apply says_lift. intros [i r4] _. destruct (_ || _); [now apply says_nothing|].
  apply says_lift. intros [a r5] _. destruct (zlookup _ _); [|now apply says_nothing]. apply says_lift. intros b _. apply conn_reply_says.
Qed.
Lemma write_says ot r w : says (over_connection (h_to (w_h w)) (h_seq (w_h w)) 0x4D) w (connected_write ot r w).
Proof.
  unfold connected_write. apply says_lift. intros [x r1] _. apply says_lift. intros [tag r2] _. apply says_lift. intros [vs r3] _.
  apply says_lift. intros [c r4] _. apply says_ask. apply says_lift. intros cn _. apply says_lift. intros i _.
  apply says_mute; [apply mute_write|]. intros _ w' <-. apply unit_reply_says.
Qed.
Lemma symbols_says d0 w : says (over_connection (h_to (w_h w)) (h_seq (w_h w)) 0x55) w (connected_symbols d0 w).
Proof.
  unfold connected_symbols. apply says_lift. intros [c r4] _. apply says_ask. apply says_lift. intros cn _. apply says_lift. intros i _.
  apply unit_reply_says.
Qed.

(** ** Unconnected requests *)
Ltac says_steps :=
  repeat first [apply unconn_reply_says | apply says_ask
    | apply says_lift; let a := fresh "a" in intros a _; try destruct a
    | apply says_or_reply; [apply unconn_reply_says|let a := fresh "a" in intros a _; try destruct a]
    | apply says_mute; [apply mute_write|intros ? ? _]
    | apply says_mute; [apply mute_put|intros ? ? _]
    | match goal with
      | |- says _ _ ((if ?b then _ else _) _) => destruct b
      | |- says _ _ ((let '(_, _) := ?x in _) _) => destruct x
      | |- says _ _ ((match ?x with _ => _ end) _) => destruct x
      end].
Lemma uwrite_says r w : says (unconnected_answer 0x4D) w (unconnected_write r w).
Proof. unfold unconnected_write. says_steps. Qed.
Lemma uread_says r w : says (unconnected_answer 0x4C) w (unconnected_read r w).
Proof. unfold unconnected_read. says_steps. Qed.
Lemma uget_says r w : says (unconnected_answer 0x0E) w (unconnected_get_attr r w).
Proof. unfold unconnected_get_attr. cbv zeta. says_steps. Qed.
Lemma uset_says r w : says (unconnected_answer 0x10) w (unconnected_set_attr r w).
Proof. unfold unconnected_set_attr. cbv zeta. says_steps. Qed.
Lemma says_put_h {B} P w f (k : unit -> M B) : (forall w', w_sent w' = w_sent w -> says P w' (k tt w')) -> says P w (bindM (put_h f) k w).
Proof. intro K. exact (K (World (w_srv w) (f (w_h w)) (w_in w) (w_sent w)) eq_refl). Qed.
Lemma open_says large svc r w : says (unconnected_answer svc) w (fwd_open large (svc :: r) w).
Proof.
  unfold fwd_open. cbv zeta. apply says_lift. intros [f r1] E.
  assert (nth 0 f 0 = svc) as ->.
  { apply rd_ok_inv in E as [E L]. destruct f as [|x f]; [destruct large; discriminate|]. cbn [app] in E. injection E as <- _. reflexivity. }
  apply says_lift. intros [p r2] _. destruct (_ <? _); [now apply says_nothing|].
  apply says_mute; [destruct (_ =? _); mute|]. intros to w1 _. apply says_mute; [destruct (_ =? _); mute|]. intros ot w2 _.
  apply says_put_h. intros w3 _.
  change (item_empty item_null) with (mk (0, [])). change (item_write (item_empty item_unconndata) ?x) with (mk (0xB2, x)).
  apply says_then; [|intros []; mute].
  apply (unconn_says w3 svc).
Qed.
Lemma close_says P d w : says P w (fwd_close d w).
Proof.
  assert (Q : mute (fwd_close d)) by (unfold fwd_close, fail; mute).
  destruct (Q w) as [S _]. destruct (fwd_close d w) as [r v]. now apply says_nothing.
Qed.
Lemma embedded_says svc r w : says (unconnected_answer svc) w (embedded svc r w).
Proof.
  unfold embedded. destruct (Z.eqb_spec svc svc_write) as [->|_]; [apply uwrite_says|].
  destruct (Z.eqb_spec svc svc_read) as [->|_]; [apply uread_says|].
  destruct (Z.eqb_spec svc svc_get_single) as [->|_]; [apply uget_says|].
  destruct (Z.eqb_spec svc svc_set_single) as [->|_]; [apply uset_says|].
  destruct (Z.eqb_spec svc svc_get_all) as [->|_]; [|apply unconn_reply_says].
  apply get_all_says. intros. apply unconn_reply_says.
Qed.
Lemma unconnected_says d svc w : asks_for d svc -> says (unconnected_answer svc) w (unconnected_data d w).
Proof.
  intros [s r N|ps path tick s r Lp Lt].
  - unfold unconnected_data. erewrite lift_ok by apply rd_cons1. cbv beta iota zeta. rewrite unle1.
    destruct (s =? svc_open); [apply open_says|]. destruct (s =? svc_large_open); [apply open_says|].
    destruct (s =? svc_forward_close); [apply close_says|].
    destruct (Z.eqb_spec s svc_get_all) as [->|_]; [apply get_all_says; intros; apply unconn_reply_says|].
    destruct (Z.eqb_spec s svc_get_single) as [->|_]; [apply uget_says|].
    destruct (Z.eqb_spec s svc_set_single) as [->|_]; [apply uset_says|].
    destruct (Z.eqb_spec s svc_unconn) as [E|_]; [contradiction|]. apply unconn_reply_says.
  - unfold unconnected_data. erewrite lift_ok by apply rd_cons1. cbv beta iota zeta. rewrite unle1.
    change (0x52 =? svc_open) with false. change (0x52 =? svc_large_open) with false. change (0x52 =? svc_forward_close) with false.
    change (0x52 =? svc_get_all) with false. change (0x52 =? svc_get_single) with false. change (0x52 =? svc_set_single) with false.
    change (0x52 =? svc_unconn) with true. cbv iota.
    erewrite lift_ok by apply rd_cons1. cbv beta iota zeta. rewrite unle1.
    rewrite rd_app by (rewrite Z.mul_comm, <- Lp; unfold len; lia). erewrite lift_ok by reflexivity. cbv beta iota zeta.
    destruct tick as [|t0 [|t1 [|t2 [|t3 [|]]]]]; try discriminate.
    change ([t0; t1; t2; t3] ++ s :: r) with ([t0; t1] ++ [t2; t3] ++ [s] ++ r).
    rewrite (rd_app 2) by reflexivity. erewrite lift_ok by reflexivity. cbv beta iota zeta.
    rewrite (rd_app 2) by reflexivity. erewrite lift_ok by reflexivity. cbv beta iota zeta.
    rewrite (rd_app 1) by reflexivity. erewrite lift_ok by reflexivity. cbv beta iota zeta. rewrite unle1. apply embedded_says.
Qed.
Lemma says_put_h0 {B} P w f (k : unit -> M B) :
  says P (World (w_srv w) (f (w_h w)) (w_in w) (w_sent w)) (k tt (World (w_srv w) (f (w_h w)) (w_in w) (w_sent w))) -> says P w (bindM (put_h f) k w).
Proof. auto. Qed.
(** What a forward open leaves. *)
Lemma draw_or n w : exists z w', (if n =? 0 then draw else ret n) w = (Ok z, w') /\ w_sent w' = w_sent w /\ w_h w' = w_h w /\ sv_cm (w_srv w') = sv_cm (w_srv w).
Proof. destruct (n =? 0); eexists; eexists; (split; [reflexivity|auto]). Qed.
Lemma open_run large svc r w v : fwd_open large (svc :: r) w = (Ok tt, v) ->
  exists f ot to d cn, w_sent v = w_sent w ++ [f] /\ h_ot (w_h v) = ot /\ h_to (w_h v) = to /\
    f = server_msg_build (h_handle (w_h v)) (h_context (w_h v)) (h_options (w_h v)) 0x6F
          [serialize_items (map mk [(0, []); (0xB2, [as_response svc; 0; 0; 0] ++ le 4 ot ++ le 4 to ++ d)])] /\
    nth_error (cm_heap (sv_cm (w_srv v))) (length (cm_heap (sv_cm (w_srv w)))) = Some cn /\ sc_to cn = to /\ sc_ot cn = ot.
Proof.
  unfold fwd_open. cbv zeta. unfold bindM at 1, lift at 1. destruct (rd _ (svc :: r)) as [[f r1]| | |] eqn:E; try discriminate.
  assert (nth 0 f 0 = svc) as ->.
  { apply rd_ok_inv in E as [E L]. destruct f as [|x f]; [destruct large; discriminate|]. cbn [app] in E. injection E as <- _. reflexivity. }
  unfold bindM at 1, lift at 1. destruct (rd _ r1) as [[p r2]| | |]; try discriminate.
  destruct (len p <? 2); [discriminate|].
  match goal with |- bindM (if ?n =? 0 then draw else ret _) _ _ = _ -> _ => destruct (draw_or n w) as (to & w1 & E1 & S1 & H1 & C1) end.
  unfold bindM at 1. rewrite E1.
  match goal with |- bindM (if ?n =? 0 then draw else ret _) _ _ = _ -> _ => destruct (draw_or n w1) as (ot & w2 & E2 & S2 & H2 & C2) end.
  unfold bindM at 1. rewrite E2.
  unfold bindM at 1, put_h. unfold bindM at 1, send. unfold bindM at 1, ask. unfold bindM at 1, put_srv at 1. cbv beta iota zeta. cbn [w_srv w_h w_in w_sent h_handle h_context h_options].
  change (item_empty item_null) with (mk (0, [])). change (item_write (item_empty item_unconndata) ?x) with (mk (0xB2, x)).
  set (cn := SConn _ _ _ _ _ _). set (bs := server_msg_build _ _ _ _ _).
  set (h := Handler _ _ _ _ _ _). set (s3 := set_cm _ _).
  intro Q.
  assert (G : w_sent v = w_sent w2 ++ [bs] /\ w_h v = h /\ sv_cm (w_srv v) = sv_cm s3).
  { destruct (negb large && _) eqn:G.
    - unfold bindM at 1, ask in Q. unfold bindM at 1, lift at 1 in Q. cbn [w_srv] in Q. destruct (resolve _ _); try discriminate.
      match type of Q with context [if ?b then lift Panic else _] => destruct b end; [discriminate|]. unfold put_srv in Q. injection Q as <-. auto.
    - unfold ret in Q. injection Q as <-. auto. }
  destruct G as (G1 & G2 & G3). exists bs, ot, to. eexists _, cn.
  split; [now rewrite G1, S2, S1|]. rewrite G2. split; [reflexivity|]. split; [reflexivity|]. split; [reflexivity|].
  split; [|split; reflexivity]. rewrite G3. unfold s3, set_cm. cbn [sv_cm]. rewrite C2, C1.
  unfold conn_add. cbn [cm_heap]. rewrite nth_error_app2 by lia. now rewrite Nat.sub_diag.
Qed.
