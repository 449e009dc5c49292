From Verif Require Import GoBase SegModel IoiModel IoiSpec IoiProof ItemsModel ItemsSpec ItemsProof TypesModel
  ReadModel ReadSpec ReadProof BatchModel BatchSpec.

(** The tagDesc for a wish; [ex] is the example value when it is not a structure. *)
Definition desc (ex : wish -> example) (w : wish) : tag_desc :=
  TagDesc (text (w_tag w)) (w_type w) (w_elems w)
    (match w_struct w with Some n => SFixed n | None => ex w end).
Definition wioi (w : wish) : ioi :=
  {| ioi_buf := encode (w_tag w);
     ioi_bit := match t_bit (w_tag w) with Some _ => true | None => false end;
     ioi_bitpos := match t_bit (w_tag w) with Some b => b | None => 0 end |}.

Lemma combine_map {A B C} (f : A -> B) (g : A -> C) l : combine (map f l) (map g l) = map (fun x => (f x, g x)) l.
Proof. induction l as [|x l IH]; [reflexivity|]. cbn [map combine]. now rewrite IH. Qed.

Lemma read_service_len w : len (read_service w) = 4 + len (encode (w_tag w)).
Proof. unfold read_service. rewrite !len_app, le_len, !len_cons, len_nil. lia. Qed.

Fixpoint subs_size (l : list wish) : Z := match l with [] => 0 | w :: r => 4 + len (encode (w_tag w)) + subs_size r end.
Lemma subs_size_nonneg l : 0 <= subs_size l.
Proof. induction l as [|w l IH]; cbn [subs_size]; [lia|]. pose proof (len_nonneg (encode (w_tag w))). lia. Qed.
Lemma subs_size_app a b : subs_size (a ++ b) = subs_size a + subs_size b.
Proof. induction a as [|w a IH]; cbn [subs_size app]; lia. Qed.
Lemma subs_size_concat l : len (concat (map read_service l)) = subs_size l.
Proof. induction l as [|w l IH]; [reflexivity|]. cbn [map concat subs_size]. rewrite len_app, read_service_len, IH. lia. Qed.
Lemma request_size_eq l : request_size l = 10 + 2 * len l + subs_size l.
Proof.
  unfold request_size. cut (fold_right (fun w n => 2 + 4 + len (encode (w_tag w)) + n) 0 l = 2 * len l + subs_size l); [lia|].
  induction l as [|w l IH]; [reflexivity|]. cbn [fold_right subs_size]. rewrite IH, len_cons. lia.
Qed.

Lemma offsets_length start l : length (offsets start l) = length l.
Proof. revert start; induction l as [|b l IH]; intro start; cbn [offsets length]; [reflexivity|]. now rewrite IH. Qed.
Lemma jump_offsets l : forall start, 0 <= start -> start + len (concat l) < 65536 ->
  jump_table start l = offsets start l.
Proof.
  induction l as [|b l IH]; intros start H0 H; [reflexivity|].
  cbn [jump_table offsets concat] in *. rewrite len_app in H.
  pose proof (len_nonneg b). pose proof (len_nonneg (concat l)).
  rewrite Z.mod_small by lia. rewrite IH by lia. reflexivity.
Qed.
Lemma concat_le_len (l : list Z) : len (concat (map (le 2) l)) = 2 * len l.
Proof. induction l as [|z l IH]; [reflexivity|]. cbn [map concat]. rewrite len_app, le_len, IH, len_cons. lia. Qed.

Lemma multi_body_len q l : len (multi_body q l) = 10 + 2 * len l + len (concat l).
Proof.
  unfold multi_body. rewrite !len_app, !le_len, concat_le_len.
  replace (len (offsets (2 + 2 * len l) l)) with (len l) by (unfold len; now rewrite offsets_length).
  rewrite !len_cons, len_nil. lia.
Qed.

Lemma multi_request_wire otid q l : len (multi_body q l) < 65536 ->
  multi_request_bytes otid q l = multi_request otid q l.
Proof.
  intro L. unfold multi_request_bytes, multi_request.
  rewrite multi_body_len in L. pose proof (len_nonneg l). pose proof (len_nonneg (concat l)).
  rewrite jump_offsets by lia. rewrite <- serialize_mk.
  - cbn [map]. f_equal.
  - split; [vm_compute; reflexivity|]. repeat constructor; cbn [fst snd]; rewrite ?le_len; try lia.
    rewrite multi_body_len. lia.
Qed.

(** ** Splitting *)
Lemma split_at_none cs l : forall acc i, acc + len (concat l) + 6 <= cs -> split_at cs acc l i = None.
Proof.
  induction l as [|b l IH]; intros acc i H; [reflexivity|].
  cbn [split_at concat] in *. rewrite len_app in H. pose proof (len_nonneg (concat l)).
  destruct (Z.ltb_spec cs (acc + len b + 6)); [lia|]. apply IH. lia.
Qed.

Lemma split_at_some cs l : forall acc i j, split_at cs acc l i = Some j ->
  (i <= j < i + length l)%nat /\ acc + len (concat (firstn (j - i) l)) + 6 <= Z.max cs (acc + 6) /\
  cs < acc + len (concat (firstn (S (j - i)) l)) + 6.
Proof.
  induction l as [|b l IH]; intros acc i j H; [discriminate|]. cbn [split_at] in H.
  destruct (Z.ltb_spec cs (acc + len b + 6)) as [L|L].
  - injection H as <-. rewrite Nat.sub_diag. cbn [firstn concat length]. rewrite app_nil_r, len_nil. lia.
  - destruct (IH _ _ _ H) as (R & A & B). cbn [length]. split; [lia|].
    replace (j - i)%nat with (S (j - S i)) by lia. cbn [firstn concat] in *. rewrite !len_app in *. lia.
Qed.
Lemma split_at_none_inv cs l : forall acc i, split_at cs acc l i = None -> l = [] \/ acc + len (concat l) + 6 <= cs.
Proof.
  induction l as [|b l IH]; intros acc i H; [now left|]. right. cbn [split_at] in H.
  destruct (Z.ltb_spec cs (acc + len b + 6)) as [L|L]; [discriminate|].
  destruct (IH _ _ H) as [-> | X]; cbn [concat]; rewrite len_app; [cbn; lia|lia].
Qed.

(** ** Replies *)
Lemma yields_app w t d v tail : yields w t d v -> yields w t (d ++ tail) v.
Proof.
  intro Y; destruct Y; rewrite <- !app_assoc.
  - now apply y_scalar.
  - now apply y_bit with (signed := signed).
  - now apply y_string.
  - now apply y_struct with (n := n).
  - now apply y_array.
  - now apply y_strings.
Qed.

Lemma decode_sub_header ti svc resv x r tail : 0 <= s_status r < 2 ^ 16 -> 0x80 <= svc < 0x100 ->
  decode_sub ti (sub_reply svc resv x r ++ tail) =
  match ti with
  | None => Panic
  | Some (t, i) =>
    if negb (s_status r =? 0) then Err (EStatus (s_status r)) else
    let ty := s_type r in let d := s_data r ++ tail in
    if td_elems t =? 1 then
      if (td_type t =? T_bool) && negb (ty =? T_bool) && ioi_bit i then
        let* (v, _) := read_value ty d in
        match get_bit ty v (ioi_bitpos i) with Ok b => Ok (GBool b) | _ => Ok GNil end
      else if td_type t =? T_string then
        let* (h, r) := rd 6 d in
        let* (s, _) := rd (Z.to_nat (unle (skipn 2 h))) r in Ok (GStr s)
      else if ty =? T_struct then
        let* (_, r) := rd 2 d in
        match td_struct t with
        | SNil => Ok (GBytes r)
        | SScalar k => let* (v, _) := read_value (kind_cip k) r in Ok v
        | SFixed n => let* (v, _) := rd n r in Ok (GStructV v)
        | SBad => Err EMsg
        end
      else let* (v, _) := read_value ty d in Ok v
    else if td_elems t <? 0 then Panic
    else if td_type t =? T_string then
      let* (l, _) := read_string_elems (Z.to_nat (td_elems t)) d in Ok (GList (map GStr l))
    else
      let* (vs, _) := read_values (Z.to_nat (td_elems t)) ty d in Ok (GList vs)
  end.
Proof.
  intros R S. unfold decode_sub.
  replace (sub_reply svc resv x r ++ tail)
    with (([svc; resv] ++ le 2 (s_status r) ++ [s_type r; x]) ++ s_data r ++ tail)
    by (unfold sub_reply; rewrite <- !app_assoc; reflexivity).
  rewrite rd_app by (rewrite !app_length, le_length; reflexivity). cbn [bind].
  assert (E : unle (firstn 2 (skipn 2 ([svc; resv] ++ le 2 (s_status r) ++ [s_type r; x]))) = s_status r).
  { rewrite skipn_app_exact by reflexivity. rewrite firstn_app_exact by apply le_length. now apply unle_le_small. }
  rewrite E. cbn [le app nth]. unfold is_response.
  assert (B : Z.testbit svc 7 = true).
  { rewrite Z.testbit_odd, Z.shiftr_div_pow2 by lia. change (2 ^ 7) with 128.
    replace (svc / 128) with 1 by lia. reflexivity. }
  rewrite B. reflexivity.
Qed.

Lemma decode_sub_yields ex w svc resv x r tail v :
  valid_tag (w_tag w) -> 0x80 <= svc < 0x100 -> s_status r = 0 -> yields w (s_type r) (s_data r) v ->
  decode_sub (Some (desc ex w, wioi w)) (sub_reply svc resv x r ++ tail) = Ok v.
Proof.
  intros V S St Y. rewrite decode_sub_header by lia. rewrite St. change (negb (0 =? 0)) with false. cbn iota zeta.
  apply (yields_app _ _ _ _ tail) in Y. generalize dependent (s_data r ++ tail). intros d Y.
  generalize dependent (s_type r). intros ty Y. cbn [desc td_elems td_type td_struct wioi ioi_bit ioi_bitpos].
  assert (NB : t_bit (w_tag w) = None \/ w_type w <> 193 ->
     (w_type w =? T_bool) && negb (ty =? T_bool) && match t_bit (w_tag w) with Some _ => true | None => false end = false).
  { intros [-> | N]; [apply andb_false_r|]. unfold T_bool. destruct (Z.eqb_spec (w_type w) 193); [congruence|reflexivity]. }
  destruct Y as [t v d rest E1 NT B En N9|n t sg wd z rest E1 ET B I R N1 N2 N|t s d handle rest E1 ET Sl H|n handle d rest E1 NT B W H Ld|t vs d rest Ln L2 NT E N9|t ss d handle rest Ln L2 ET Sl H].
  - rewrite E1, (NB B). change (1 =? 1) with true. cbn iota.
    unfold T_string, T_struct. destruct (Z.eqb_spec (w_type w) 255); [congruence|].
    destruct (Z.eqb_spec t 160); [now apply encodes_not_struct in En|].
    now rewrite (read_value_encodes _ _ _ _ En N9).
  - rewrite E1, ET, B. change (1 =? 1) with true. change (193 =? T_bool) with true.
    destruct (Z.eqb_spec t T_bool) as [->|_]; [discriminate|]. cbn [negb andb].
    rewrite (read_value_encodes _ _ _ _ (enc_int t sg wd z I R) N2). cbn [bind].
    destruct V as (_ & _ & V). rewrite B in V.
    rewrite (get_bit_testbit _ _ _ _ _ I R N1 N2) by (split; [apply V|exact N]). reflexivity.
  - rewrite E1, NB by (right; rewrite ET; discriminate). rewrite ET. change (1 =? 1) with true. change (255 =? T_string) with true. cbn iota.
    destruct Sl as (tl & pad & L & L82 & Lp & ->).
    replace (handle ++ (le 4 (len s) ++ s ++ tl ++ pad) ++ rest)
      with ((handle ++ le 4 (len s)) ++ s ++ tl ++ pad ++ rest) by (rewrite <- !app_assoc; reflexivity).
    rewrite rd_app by (rewrite app_length, le_length; lia). cbn [bind].
    rewrite skipn_app_exact by exact H. pose proof (len_nonneg s).
    rewrite unle_le_small by (change (256 ^ Z.of_nat 4) with (2 ^ 32); lia).
    rewrite rd_app by (unfold len; lia). reflexivity.
  - rewrite E1, (NB B). change (1 =? 1) with true. cbn iota. unfold T_string.
    destruct (Z.eqb_spec (w_type w) 255); [congruence|]. change (160 =? T_struct) with true. cbn iota.
    rewrite rd_app by exact H. cbn [bind]. rewrite W, rd_app by exact Ld. reflexivity.
  - rewrite <- Ln. destruct (Z.eqb_spec (len vs) 1); [lia|]. destruct (Z.ltb_spec (len vs) 0); [lia|].
    unfold T_string. destruct (Z.eqb_spec (w_type w) 255); [congruence|].
    unfold len. rewrite Nat2Z.id, (read_values_encodes _ _ _ E N9). reflexivity.
  - rewrite <- Ln. destruct (Z.eqb_spec (len ss) 1); [lia|]. destruct (Z.ltb_spec (len ss) 0); [lia|].
    rewrite ET. change (255 =? T_string) with true. cbn iota.
    destruct (read_slots _ _ Sl handle rest H) as [r' E]. unfold len. rewrite Nat2Z.id, E. reflexivity.
Qed.

Lemma read_u16s_table offs rest : Forall (fun o => 0 <= o < 65536) offs ->
  read_u16s (length offs) (concat (map (le 2) offs) ++ rest) = offs.
Proof.
  induction 1 as [|o offs H _ IH]; [reflexivity|].
  cbn [length read_u16s map concat]. rewrite <- app_assoc.
  rewrite firstn_app_exact, skipn_app_exact by apply le_length.
  rewrite IH, unle_le_small by exact H. reflexivity.
Qed.

Lemma Forall2_len {A B} (R : A -> B -> Prop) l m : Forall2 R l m -> length l = length m.
Proof. induction 1; cbn [length]; congruence. Qed.

Lemma Forall2_nth_l {A B} (R : A -> B -> Prop) l m : Forall2 R l m ->
  forall k d, (k < length l)%nat -> exists y, R (nth k l d) y.
Proof.
  induction 1 as [|x y l m H _ IH]; intros k d Hk; [cbn in Hk; lia|].
  destruct k as [|k]; [now exists y|]. cbn [nth]. apply IH. cbn [length] in Hk. lia.
Qed.

(** What a located sub-reply says about its offset. *)
Lemma locates_bound body off b : locates body off b -> (1 <= length b)%nat -> 6 + off + len b <= len body.
Proof.
  intros (O & tail & E) B. assert (L : length (skipn (Z.to_nat (6 + off)) body) = (length b + length tail)%nat)
    by (rewrite E; apply app_length).
  rewrite skipn_length in L. unfold len. lia.
Qed.
Lemma sub_reply_length svc resv x r : (6 <= length (sub_reply svc resv x r))%nat.
Proof. unfold sub_reply. rewrite !app_length, le_length. cbn [length]. lia. Qed.

Lemma is_sub_bound body off r : is_sub body off r -> len body < 65536 -> 0 <= off < 65536 - 10.
Proof.
  intros (svc & resv & x & _ & _ & L) B. pose proof (sub_reply_length svc resv x r).
  destruct (L) as [O _]. apply locates_bound in L; [|lia]. unfold len in L at 1. lia.
Qed.

(** The outcome of the loop is the sequence of the outcomes for located replies. *)
Fixpoint decode_each (tis : list (tag_desc * ioi)) (bs : list bytes) : res (list gval) :=
  match bs with
  | [] => Ok []
  | b :: r => let* v := decode_sub (hd_error tis) b in let* vs := decode_each (tl tis) r in Ok (v :: vs)
  end.

Lemma slice_located it off b tail : it_len it = len (it_data it) ->
  0 <= off -> len b + len tail = len (it_data it) - (6 + off) -> 0 <= len (it_data it) - (6 + off) ->
  skipn (Z.to_nat (6 + off)) (it_data it) = b ++ tail ->
  slice_off (item_bytes it) (off + 10) = Ok (b ++ tail).
Proof.
  intros Ln O L P E. unfold slice_off, slice_from, item_bytes.
  assert (LL : len (le 2 (it_id it) ++ le 2 (it_len it) ++ it_data it) = 4 + len (it_data it))
    by (rewrite !len_app, !le_len; lia).
  rewrite LL. replace ((0 <=? off + 10) && (off + 10 <=? 4 + len (it_data it))) with true by lia.
  rewrite app_assoc. replace (Z.to_nat (off + 10)) with (4 + Z.to_nat (6 + off))%nat by lia.
  rewrite <- skipn_skipn. rewrite skipn_app_exact by (rewrite app_length, !le_length; reflexivity).
  now rewrite E.
Qed.

Lemma decode_subs_located it offs subs : it_len it = len (it_data it) -> len (it_data it) < 65536 ->
  Forall2 (is_sub (it_data it)) offs subs -> forall tis,
  exists bs, decode_subs (item_bytes it) offs tis = decode_each tis bs /\
    Forall2 (fun r b => exists svc resv x tail, 0x80 <= svc < 0x100 /\ 0 <= s_status r < 2 ^ 16 /\
       b = sub_reply svc resv x r ++ tail) subs bs.
Proof.
  intros Ln L F. induction F as [|off r offs subs Hs _ IH]; intro tis.
  - exists []. split; [reflexivity|constructor].
  - destruct (IH (tl tis)) as (bs & E & Fb).
    pose proof (is_sub_bound _ _ _ Hs L) as Bd.
    destruct Hs as (svc & resv & x & S & St & Lo). destruct (Lo) as (O & tail & Es).
    exists ((sub_reply svc resv x r ++ tail) :: bs). split.
    + cbn [decode_subs decode_each]. rewrite Z.mod_small by lia.
      rewrite (slice_located it off (sub_reply svc resv x r) tail Ln O); [|..|exact Es].
      * cbn [bind]. rewrite E. reflexivity.
      * assert (X : length (skipn (Z.to_nat (6 + off)) (it_data it)) = length (sub_reply svc resv x r ++ tail)) by now rewrite Es.
        rewrite skipn_length, app_length in X. pose proof (sub_reply_length svc resv x r). unfold len. lia.
      * apply locates_bound in Lo; [|pose proof (sub_reply_length svc resv x r); lia].
        pose proof (len_nonneg (sub_reply svc resv x r)). lia.
    + constructor; [|exact Fb]. now exists svc, resv, x, tail.
Qed.

Lemma parse_multi_answer p subs tis : multi_answer p subs ->
  exists bs, parse_multi_reply p tis = decode_each tis bs /\
    Forall2 (fun r b => exists svc resv x tail, 0x80 <= svc < 0x100 /\ 0 <= s_status r < 2 ^ 16 /\
       b = sub_reply svc resv x r ++ tail) subs bs.
Proof.
  intros (pre & addr & id & sq & svc & resv & offs & blob & rest & H). cbv zeta in H.
  set (body := sq ++ [svc; resv] ++ le 2 0 ++ le 2 (len subs) ++ concat (map (le 2) offs) ++ blob) in H.
  destruct H as (Lp & Ls & F & F2 & ->).
  assert (Lb : len body < 65536).
  { destruct F as [_ F]. inversion F as [|? ? _ F']; subst. inversion F' as [|? ? X _]; subst. apply X. }
  unfold parse_multi_reply, reply_items. rewrite rd_app by exact Lp.
  rewrite read_items_wire by exact F. cbn [bind map].
  set (it := mk (id, body)).
  assert (Hd : it_data it = body) by reflexivity.
  assert (Hl : it_len it = len (it_data it)).
  { rewrite Hd. unfold it, mk, new_item, item_write. cbn [it_len it_data item_empty app fst snd].
    apply Z.mod_small. pose proof (len_nonneg body). lia. }
  rewrite Hd.
  assert (Ln : length offs = length subs) by (now apply Forall2_len in F2).
  assert (L8 : 8 <= len body).
  { unfold body. rewrite !len_app, !le_len, !len_cons, len_nil. unfold len at 1. rewrite Ls.
    pose proof (len_nonneg (concat (map (le 2) offs))). pose proof (len_nonneg blob). lia. }
  destruct (Z.ltb_spec (len body) 6); [lia|].
  destruct (Z.ltb_spec (len body) 8); [lia|].
  assert (E4 : skipn 4 body = le 2 0 ++ le 2 (len subs) ++ concat (map (le 2) offs) ++ blob).
  { unfold body. rewrite app_assoc. rewrite skipn_app_exact by (rewrite app_length, Ls; reflexivity). reflexivity. }
  assert (E6 : skipn 6 body = le 2 (len subs) ++ concat (map (le 2) offs) ++ blob).
  { change 6%nat with (4 + 2)%nat. rewrite <- skipn_skipn, E4. now rewrite skipn_app_exact by apply le_length. }
  assert (E8 : skipn 8 body = concat (map (le 2) offs) ++ blob).
  { change 8%nat with (6 + 2)%nat. rewrite <- skipn_skipn, E6. now rewrite skipn_app_exact by apply le_length. }
  rewrite E4, E6, E8. rewrite !firstn_app_exact by apply le_length.
  assert (Bl : 2 * len subs <= len body - 8).
  { unfold body. rewrite !len_app, !le_len, concat_le_len, !len_cons, len_nil. pose proof (len_nonneg blob).
    unfold len in *. rewrite Ln, Ls. lia. }
  rewrite (unle_le_small 2 (len subs)) by (change (256 ^ Z.of_nat 2) with 65536; pose proof (len_nonneg subs); lia).
  change (unle (le 2 0)) with 0. change (negb (0 =? 0)) with false. cbn iota.
  assert (Nn : Z.to_nat (len subs) = length offs) by (unfold len; lia). rewrite Nn.
  assert (Ro : Forall (fun o => 0 <= o < 65536) offs).
  { apply Forall_forall. intros o I. apply In_nth with (d := 0) in I as (k & Hk & <-).
    destruct (Forall2_nth_l _ _ _ F2 k 0 Hk) as [r Hr].
    pose proof (is_sub_bound _ _ _ Hr Lb). lia. }
  rewrite rd_app.
  2: { pose proof (concat_le_len offs) as X. unfold len in X. lia. }
  cbn [bind].
  pose proof (read_u16s_table offs [] Ro) as RT. rewrite app_nil_r in RT. rewrite RT.
  apply decode_subs_located; [exact Hl| now rewrite Hd | now rewrite Hd].
Qed.

Section ops.
Variable ops : list cl_op.
Variable ex : wish -> example.
Let ok (w : wish) : Prop := named ops (w_tag w).

Lemma new_ioi_wish w : ok w -> fst (new_ioi (cl_run ops) (td_name (desc ex w)) (td_type (desc ex w))) = Ok (wioi w).
Proof. intros (V & K & L). exact (C01_lemma ops (w_tag w) _ V K). Qed.

Lemma iois_of_wishes ws : Forall ok ws -> iois_of (cl_run ops) (map (desc ex) ws) = Ok (map wioi ws).
Proof.
  induction 1 as [|w ws H _ IH]; [reflexivity|].
  cbn [map iois_of]. rewrite new_ioi_wish by exact H. cbn [bind]. rewrite IH. reflexivity.
Qed.

Lemma sub_request_wish w : ok w -> sub_request (desc ex w, wioi w) = read_service w.
Proof. intros (V & K & L). unfold sub_request, read_service. cbn [fst snd]. rewrite path_size_ok by exact L. reflexivity. Qed.

Lemma subs_wishes ws : Forall ok ws ->
  map sub_request (combine (map (desc ex) ws) (map wioi ws)) = map read_service ws.
Proof.
  intro F. rewrite combine_map, map_map. apply map_ext_in. intros w I.
  apply sub_request_wish. rewrite Forall_forall in F. now apply F.
Qed.

Lemma decode_each_ok ws : Forall ok ws -> forall subs bs vs,
  Forall2 (fun r b => exists svc resv x tail, 0x80 <= svc < 0x100 /\ 0 <= s_status r < 2 ^ 16 /\
       b = sub_reply svc resv x r ++ tail) subs bs ->
  Forall2 (fun w rv => s_status (fst rv) = 0 /\ yields w (s_type (fst rv)) (s_data (fst rv)) (snd rv)) ws (combine subs vs) ->
  length vs = length subs ->
  decode_each (map (fun w => (desc ex w, wioi w)) ws) bs = Ok vs.
Proof.
  induction 1 as [|w ws Hw _ IH]; intros subs bs vs Fb Fy Lv.
  - inversion Fy as [E|]. destruct subs, vs; cbn in E, Lv; try discriminate.
    inversion Fb; subst. reflexivity.
  - destruct subs as [|r subs], vs as [|v vs]; cbn [combine] in Fy; try (inversion Fy; fail).
    inversion Fy as [|? ? ? ? (St & Y) Fy']; subst.
    inversion Fb as [|? b ? bs' (svc & resv & x & tail & Sv & Rs & ->) Fb']; subst.
    cbn [map decode_each hd_error tl]. cbn [fst snd] in *.
    rewrite (decode_sub_yields ex w svc resv x r tail v (proj1 Hw) Sv St Y). cbn [bind].
    rewrite (IH subs bs' vs Fb' Fy') by (cbn in Lv; lia). reflexivity.
Qed.

(** One message. *)
Lemma read_list_one {St} fuel (ctl : controller St) s s1 otid q cs ws subs vs p :
  Forall ok ws -> (ws = [] \/ subs_size ws + 6 <= cs) -> request_size ws < 65536 ->
  ctl s (multi_request otid q (map read_service ws)) = (Ok (0, p), s1) ->
  multi_answer p subs -> length vs = length subs ->
  Forall2 (fun w rv => s_status (fst rv) = 0 /\ yields w (s_type (fst rv)) (s_data (fst rv)) (snd rv)) ws (combine subs vs) ->
  read_list (S fuel) ctl (cl_run ops) s otid q cs (map (desc ex) ws) = (Ok vs, s1, q + 1).
Proof.
  intros F Sz Rq E A Lv Fy. cbn [read_list]. rewrite iois_of_wishes by exact F. rewrite subs_wishes by exact F.
  assert (SN : split_at cs 0 (map read_service ws) 0 = None).
  { destruct Sz as [-> | Sz]; [reflexivity|]. apply split_at_none. rewrite subs_size_concat. lia. }
  rewrite SN. rewrite multi_request_wire.
  2: { rewrite multi_body_len, subs_size_concat, len_map. rewrite request_size_eq in Rq. exact Rq. }
  rewrite E. change (negb (0 =? 0)) with false. cbn iota.
  rewrite combine_map. destruct (parse_multi_answer p subs (map (fun w => (desc ex w, wioi w)) ws) A) as (bs & Ep & Fb).
  rewrite Ep. rewrite (decode_each_ok ws F subs bs vs Fb Fy Lv). reflexivity.
Qed.

(** ** How many fit *)
Lemma count_fit_loop_spec cs ws : Forall ok ws -> forall i n b rs,
  n = Nat.max 1 i ->
  exists m, count_fit_loop (cl_run ops) cs (map (desc ex) ws) i n b rs = Ok m /\
    (m = n \/ ((i < m <= i + length ws)%nat /\
      10 + 2 * Z.max 1 (Z.of_nat m - 1) + b + subs_size (firstn (m - i) ws) < cs)).
Proof.
  induction 1 as [|w ws Hw F IH]; intros i n b rs Hn; cbn [map count_fit_loop].
  - exists n. split; [reflexivity|now left].
  - rewrite new_ioi_wish by exact Hw. cbn [bind]. cbv zeta. cbn [wioi ioi_buf].
    match goal with |- context [if ?c then _ else _] => destruct c eqn:C end.
    + exists n. split; [reflexivity|now left].
    + apply orb_false_iff in C as [C1 C2]. apply Z.leb_gt in C1.
      match goal with |- context [count_fit_loop _ _ _ _ _ ?b' ?rs'] =>
        destruct (IH (S i) (S i) b' rs' ltac:(lia)) as (m & E & M) end.
      exists m. split; [exact E|]. right.
      pose proof (len_nonneg (encode (w_tag w))).
      destruct M as [-> | (R & B)].
      * split; [cbn [length]; lia|]. replace (S i - i)%nat with 1%nat by lia. cbn [firstn subs_size].
        subst n. lia.
      * split; [cbn [length]; lia|]. replace (m - i)%nat with (S (m - S i)) by lia. cbn [firstn subs_size]. lia.
Qed.

Lemma count_fit_spec cs ws : Forall ok ws -> ws <> [] ->
  exists m, count_fit (cl_run ops) cs (map (desc ex) ws) = Ok m /\ (1 <= m <= length ws)%nat /\
    (m = 1%nat \/ request_size (firstn m ws) - 2 < cs).
Proof.
  intros F N. unfold count_fit.
  destruct (count_fit_loop_spec cs ws F 0 1 0 0) as (m & E & M); [reflexivity|].
  exists m. split; [exact E|]. destruct ws as [|w ws]; [congruence|].
  destruct M as [-> | (R & B)]; [split; [cbn [length]; lia|now left]|].
  split; [lia|]. right. rewrite request_size_eq. rewrite Nat.sub_0_r in B.
  unfold len. rewrite firstn_length. cbn [length] in *. lia.
Qed.

End ops.

Lemma Forall_firstn' {A} (P : A -> Prop) n l : Forall P l -> Forall P (firstn n l).
Proof. intro F. rewrite <- (firstn_skipn n l) in F. now apply Forall_app in F. Qed.
Lemma Forall_skipn' {A} (P : A -> Prop) n l : Forall P l -> Forall P (skipn n l).
Proof. intro F. rewrite <- (firstn_skipn n l) in F. now apply Forall_app in F. Qed.

Lemma combine_values (value : wish -> gval) l subs :
  Forall2 (fun w r => s_status r = 0 /\ yields w (s_type r) (s_data r) (value w)) l subs ->
  Forall2 (fun w rv => s_status (fst rv) = 0 /\ yields w (s_type (fst rv)) (s_data (fst rv)) (snd rv)) l
    (combine subs (map value l)).
Proof. induction 1; cbn [map combine]; constructor; auto. Qed.

Lemma bind_fuel {A B} (e : res A) (k : A -> res B) : e <> OutOfFuel -> (forall x, e = Ok x -> k x <> OutOfFuel) -> bind e k <> OutOfFuel.
Proof. intros H1 H2. destruct e; cbn [bind]; try discriminate; [now apply H2|congruence]. Qed.
Lemma rd_fuel n r : rd n r <> OutOfFuel.
Proof. unfold rd. repeat match goal with |- context [if ?c then _ else _] => destruct c end; discriminate. Qed.

Ltac fuel := repeat first
  [ discriminate | apply rd_fuel | apply read_value_safe | apply read_values_safe | apply get_bit_safe
  | apply bind_fuel; [|intros [? ?] ?] | apply bind_fuel; [|intros ? ?]
  | match goal with |- (if ?c then _ else _) <> _ => destruct c
                  | |- (match ?c with _ => _ end) <> _ => destruct c end ].

Lemma read_string_elems_fuel n : forall d, read_string_elems n d <> OutOfFuel.
Proof.
  induction n as [|n IH]; intro d; cbn [read_string_elems]; [discriminate|].
  apply bind_fuel; [unfold read_string_elem; cbv zeta; fuel|]. intros [? ?] _.
  apply bind_fuel; [apply IH|]. intros [? ?] _. discriminate.
Qed.
Lemma decode_sub_fuel ti b : decode_sub ti b <> OutOfFuel.
Proof.
  unfold decode_sub. apply bind_fuel; [apply rd_fuel|]. intros [h d] _. cbv zeta.
  destruct (negb (is_response (nth 0 h 0))); [discriminate|]. destruct ti as [[t i]|]; [|discriminate].
  destruct (negb _); [discriminate|]. destruct (td_elems t =? 1).
  - destruct (_ && _).
    + apply bind_fuel; [apply read_value_safe|]. intros [v r] _. destruct (get_bit _ _ _); discriminate.
    + fuel.
  - destruct (td_elems t <? 0); [discriminate|]. destruct (td_type t =? T_string).
    + apply bind_fuel; [apply read_string_elems_fuel|]. intros [? ?] _. discriminate.
    + fuel.
Qed.
Lemma decode_subs_fuel rb offs : forall tis, decode_subs rb offs tis <> OutOfFuel.
Proof.
  induction offs as [|o offs IH]; intro tis; cbn [decode_subs]; [discriminate|].
  apply bind_fuel; [unfold slice_off, slice_from; fuel|]. intros b _.
  apply bind_fuel; [apply decode_sub_fuel|]. intros v _. apply bind_fuel; [apply IH|]. discriminate.
Qed.
Lemma reply_items_fuel p : reply_items p <> OutOfFuel.
Proof.
  unfold reply_items. apply bind_fuel; [|intros [? ?] _; discriminate].
  apply read_items_safe.
Qed.
Lemma parse_multi_fuel p tis : parse_multi_reply p tis <> OutOfFuel.
Proof.
  unfold parse_multi_reply. apply bind_fuel; [apply reply_items_fuel|]. intros its _.
  destruct its as [|? [|it [|? ?]]]; try discriminate. cbv zeta.
  destruct (len _ <? 6); [discriminate|]. destruct (negb _); [discriminate|]. destruct (len _ <? 8); [discriminate|].
  apply bind_fuel; [apply rd_fuel|]. intros [? ?] _. apply decode_subs_fuel.
Qed.

(** A controller whose every exchange ends. *)
Definition always_answers {St} (ctl : controller St) : Prop := forall s req, fst (ctl s req) <> OutOfFuel.

Section batches.
Variable ops : list cl_op.
Variable ex : wish -> example.
Let ok (w : wish) : Prop := named ops (w_tag w).

Lemma wish_size w : ok w -> 4 <= 4 + len (encode (w_tag w)) < 516.
Proof. intros (_ & _ & L). pose proof (len_nonneg (encode (w_tag w))). lia. Qed.

Lemma gives_any {St} (ctl : controller St) otid bound all value :
  gives ctl otid bound all value -> gives_in (fun _ => True) ctl otid bound all value.
Proof. intros G s q a l b _ E N B. destruct (G s q a l b E N B) as (p & s1 & subs & H1 & H2 & H3). now exists p, s1, subs. Qed.

Lemma C21_lemma {St} (inv : St -> Prop) (ctl : controller St) otid cs value : cs < 65535 -> forall ws all,
  Forall ok ws -> Forall (fun w => 10 + len (encode (w_tag w)) <= cs) ws ->
  (exists a, all = a ++ ws) -> gives_in inv ctl otid (cs + 1) all value -> forall fuel s q,
  inv s -> (length ws < fuel)%nat ->
  exists s' q', read_batches fuel ctl (cl_run ops) s otid q cs (map (desc ex) ws) = (Ok (map value ws), s', q') /\ inv s'.
Proof.
  intros Hcs ws. induction ws as [ws IH] using (induction_ltof1 _ (@length _)).
  intros all F Fit [a Ea] G fuel s q Is Hf. unfold ltof in IH.
  destruct ws as [|w0 ws0]; [exists s, q; split; [destruct fuel; reflexivity|exact Is]|].
  set (ws := w0 :: ws0) in *.
  destruct fuel as [|fuel]; [lia|].
  destruct (count_fit_spec ops ex cs ws F) as (m & Ec & Rm & Sz); [discriminate|].
  assert (E0 : read_batches (Datatypes.S fuel) ctl (cl_run ops) s otid q cs (map (desc ex) ws) =
    match read_list fuel ctl (cl_run ops) s otid (q + 1) cs (firstn m (map (desc ex) ws)) with
    | (Ok r0, s1, q1) => match read_batches fuel ctl (cl_run ops) s1 otid q1 cs (skipn m (map (desc ex) ws)) with
                         | (Ok r1, s2, q2) => (Ok (r0 ++ r1), s2, q2) | e => e end
    | e => e end).
  { unfold ws at 1. cbn [map read_batches]. fold (map (desc ex) ws).
    change (desc ex w0 :: map (desc ex) ws0) with (map (desc ex) ws). rewrite Ec. reflexivity. }
  rewrite E0. clear E0.
  rewrite firstn_map, skipn_map.
  set (l := firstn m ws) in *. set (r := skipn m ws).
  assert (Hl : length l = m) by (unfold l; rewrite firstn_length; lia).
  assert (Hr : (length r < length ws)%nat) by (unfold r; rewrite skipn_length; lia).
  assert (Elr : ws = l ++ r) by (symmetry; apply firstn_skipn).
  assert (Fl : Forall ok l) by now apply Forall_firstn'.
  assert (Fr : Forall ok r) by now apply Forall_skipn'.
  assert (S1 : length l = 1%nat -> exists w, l = [w] /\ 10 + len (encode (w_tag w)) <= cs /\ ok w).
  { destruct l as [|w [|w' l']] eqn:El; try discriminate. intros _. exists w. split; [reflexivity|].
    rewrite Elr in Fit. cbn [app] in Fit. inversion Fit; subst. inversion Fl; subst. auto. }
  destruct (G s (q + 1) a l r Is) as (p & s1 & subs & E & I1 & A & Y).
  { now rewrite Ea, Elr. }
  { intro X. rewrite X in Hl. cbn in Hl. lia. }
  { destruct Sz as [-> | Sz]; [now right|]. left. lia. }
  destruct fuel as [|fuel]; [cbn [length] in *; lia|].
  rewrite (read_list_one ops ex fuel ctl s s1 otid (q + 1) cs l subs (map value l) p Fl); [|..|exact E|exact A| |].
  - destruct (IH r Hr all Fr (Forall_skipn' _ m ws Fit)) with (fuel := Datatypes.S fuel) (s := s1) (q := q + 1 + 1)
      as (s' & q' & E' & I'); [exists (a ++ l); now rewrite Ea, Elr, app_assoc|exact G|exact I1|lia|].
    rewrite E'. exists s', q'. rewrite Elr, map_app. split; [reflexivity|exact I'].
  - right. destruct Sz as [X | Sz].
    + rewrite X in Hl. destruct (S1 Hl) as (w & -> & Fw & _). cbn [subs_size]. lia.
    + rewrite request_size_eq in Sz. unfold len in Sz. rewrite Hl in Sz. lia.
  - destruct Sz as [X | Sz]; [|lia].
    rewrite X in Hl. destruct (S1 Hl) as (w & -> & _ & Ow). rewrite request_size_eq.
    pose proof (wish_size w Ow). cbn [subs_size]. change (len [w]) with 1. lia.
  - rewrite map_length. now apply Forall2_len in Y.
  - now apply combine_values.
Qed.

(** ** What is sent *)
Definition sent_ok (P : list wish -> Prop) (otid : Z) (log : list bytes) : Prop :=
  Forall (fun req => exists q l, Forall ok l /\ P l /\ req = multi_request otid q (map read_service l)) log.

Lemma parse_list_log {St} fuel (ctl : controller St) otid cs (P : list wish -> Prop) :
  (forall l, P l -> request_size l < 65536) -> P [] ->
  (forall l, subs_size l + 6 <= cs -> P l) ->
  forall ws s log q r s' log' q', Forall ok ws ->
  read_list fuel (asked ctl) (cl_run ops) (s, log) otid q cs (map (desc ex) ws) = (r, (s', log'), q') ->
  exists new, log' = log ++ new /\ sent_ok P otid new.
Proof.
  intros PB P0 PS. induction fuel as [|fuel IH]; intros ws s log q r s' log' q' F E.
  - injection E as <- <- <- <-. exists []. split; [now rewrite app_nil_r|constructor].
  - cbn [read_list] in E. rewrite iois_of_wishes, (subs_wishes ops ex) in E by exact F.
    destruct (split_at cs 0 (map read_service ws) 0) as [i|] eqn:Sp.
    + rewrite firstn_map, skipn_map in E.
      destruct (read_list fuel (asked ctl) (cl_run ops) (s, log) otid (q + 1) cs (map (desc ex) (firstn i ws))) as [[r0 [s1 log1]] q1] eqn:E0.
      destruct (IH _ _ _ _ _ _ _ _ (Forall_firstn' _ i ws F) E0) as (n0 & -> & S0).
      destruct r0 as [r0|e| |]; try (injection E as <- <- <- <-; now exists n0).
      destruct (read_list fuel (asked ctl) (cl_run ops) (s1, log ++ n0) otid q1 cs (map (desc ex) (skipn i ws))) as [[r1 [s2 log2]] q2] eqn:E1.
      destruct (IH _ _ _ _ _ _ _ _ (Forall_skipn' _ i ws F) E1) as (n1 & -> & S1).
      assert (log' = (log ++ n0) ++ n1) as -> by (destruct r1; now injection E).
      exists (n0 ++ n1). split; [now rewrite app_assoc|]. now apply Forall_app.
    + assert (Pw : P ws).
      { destruct (split_at_none_inv _ _ _ _ Sp) as [X|X].
        - destruct ws; [exact P0|discriminate].
        - apply PS. rewrite subs_size_concat in X. lia. }
      rewrite multi_request_wire in E.
      2: { rewrite multi_body_len, subs_size_concat, len_map. specialize (PB _ Pw). rewrite request_size_eq in PB. lia. }
      unfold asked in E at 1. cbn [fst snd] in E.
      destruct (ctl s (multi_request otid q (map read_service ws))) as [r0 s1].
      assert (log' = log ++ [multi_request otid q (map read_service ws)]) as ->.
      { destruct r0 as [[x p]|e| |]; [destruct (negb (x =? 0))|..]; now injection E. }
      exists [multi_request otid q (map read_service ws)]. split; [reflexivity|].
      constructor; [|constructor]. now exists q, ws.
Qed.

(** For a list that fits in one message, exactly that message is sent. *)
Lemma read_list_log_one {St} fuel (ctl : controller St) otid cs ws s log q r s' log' q' :
  Forall ok ws -> subs_size ws + 6 <= cs -> request_size ws < 65536 ->
  read_list fuel (asked ctl) (cl_run ops) (s, log) otid q cs (map (desc ex) ws) = (r, (s', log'), q') ->
  (log' = log \/ log' = log ++ [multi_request otid q (map read_service ws)]).
Proof.
  intros F Sz B E. destruct fuel as [|fuel]; [injection E as <- <- <- <-; now left|].
  cbn [read_list] in E. rewrite iois_of_wishes, (subs_wishes ops ex) in E by exact F.
  rewrite split_at_none in E by (rewrite subs_size_concat; lia).
  rewrite multi_request_wire in E by (rewrite multi_body_len, subs_size_concat, len_map; rewrite request_size_eq in B; lia).
  unfold asked in E. cbn [fst snd] in E. right.
  destruct (ctl s (multi_request otid q (map read_service ws))) as [r0 s1].
  destruct r0 as [[x p]|e| |]; [destruct (negb (x =? 0))|..]; now injection E.
Qed.

Lemma batches_log {St} (ctl : controller St) otid cs : cs < 65535 -> forall fuel ws,
  Forall ok ws -> Forall (fun w => 16 + len (encode (w_tag w)) <= cs) ws ->
  forall s log q r s' log' q',
  read_batches fuel (asked ctl) (cl_run ops) (s, log) otid q cs (map (desc ex) ws) = (r, (s', log'), q') ->
  exists new, log' = log ++ new /\
    sent_ok (fun l => l <> [] /\ (exists a b, ws = a ++ l ++ b) /\ (request_size l <= cs \/ request_size l - 2 < cs)) otid new.
Proof.
  intros Hcs fuel. induction fuel as [|fuel IH]; intros ws F Fit s log q r s' log' q' E.
  - exists []. split; [|constructor]. rewrite app_nil_r. destruct ws; now injection E.
  - destruct ws as [|w0 ws0]; [exists []; split; [rewrite app_nil_r; now injection E|constructor]|].
    set (ws := w0 :: ws0) in *.
    destruct (count_fit_spec ops ex cs ws F) as (m & Ec & Rm & Sz); [discriminate|].
    unfold ws in E. cbn [map read_batches] in E. change (desc ex w0 :: map (desc ex) ws0) with (map (desc ex) ws) in E.
    rewrite Ec in E. rewrite firstn_map, skipn_map in E.
    assert (Elr : ws = firstn m ws ++ skipn m ws) by (symmetry; apply firstn_skipn).
    assert (Hl : length (firstn m ws) = m) by (rewrite firstn_length; lia).
    set (l := firstn m ws) in *. set (rr := skipn m ws) in *.
    assert (Rq : request_size l <= cs \/ request_size l - 2 < cs).
    { destruct Sz as [X|X]; [left|now right]. destruct l as [|w [|? ?]]; cbn [length] in Hl; try lia.
      rewrite Elr in Fit. cbn [app] in Fit. inversion Fit; subst. rewrite request_size_eq. cbn [subs_size].
      change (len [w]) with 1. lia. }
    assert (Sl : subs_size l + 6 <= cs).
    { rewrite request_size_eq in Rq. pose proof (len_nonneg l). lia. }
    destruct (read_list fuel (asked ctl) (cl_run ops) (s, log) otid (q + 1) cs (map (desc ex) l)) as [[r0 [s1 log1]] q1] eqn:E0.
    assert (Fl : Forall ok l) by (now apply Forall_firstn').
    apply (read_list_log_one _ _ _ _ _ _ _ _ _ _ _ _ Fl) in E0; [|exact Sl|lia].
    set (P := fun l => l <> [] /\ (exists a b, ws = a ++ l ++ b) /\ (request_size l <= cs \/ request_size l - 2 < cs)).
    assert (exists n0, log1 = log ++ n0 /\ sent_ok P otid n0) as (n0 & -> & S0).
    { destruct E0 as [-> | ->]; [exists []; split; [now rewrite app_nil_r|constructor]|].
      eexists. split; [reflexivity|]. constructor; [|constructor]. exists (q + 1), l.
      split; [now apply Forall_firstn'|]. split; [|reflexivity]. split; [intro X; rewrite X in Hl; cbn in Hl; lia|].
      split; [|exact Rq]. exists [], rr. exact Elr. }
    destruct r0 as [r0|e| |]; try (injection E as <- <- <- <-; now exists n0).
    destruct (read_batches fuel (asked ctl) (cl_run ops) (s1, log ++ n0) otid q1 cs (map (desc ex) rr)) as [[r1 [s2 log2]] q2] eqn:E1.
    destruct (IH rr (Forall_skipn' _ m ws F) (Forall_skipn' _ m ws Fit) _ _ _ _ _ _ _ E1) as (n1 & -> & S1).
    assert (log' = (log ++ n0) ++ n1) as -> by (destruct r1; now injection E).
    exists (n0 ++ n1). split; [now rewrite app_assoc|]. apply Forall_app. split; [exact S0|].
    eapply Forall_impl; [|exact S1]. intros req (q0 & l0 & Fo & (N & (a & b & Eab) & Rz) & ->).
    exists q0, l0. split; [exact Fo|]. split; [|reflexivity]. split; [exact N|]. split; [|exact Rz].
    exists (l ++ a), b. rewrite Elr. fold rr. rewrite Eab, app_assoc. reflexivity.
Qed.

(** ** Termination *)

Lemma read_list_ends {St} (ctl : controller St) otid cs : always_answers ctl -> forall fuel ws,
  Forall ok ws -> Forall (fun w => 10 + len (encode (w_tag w)) <= cs) ws -> (length ws < fuel)%nat ->
  forall s q, fst (fst (read_list fuel ctl (cl_run ops) s otid q cs (map (desc ex) ws))) <> OutOfFuel.
Proof.
  intros A fuel. induction fuel as [|fuel IH]; intros ws F Fit Hf s q; [lia|].
  cbn [read_list]. rewrite iois_of_wishes, (subs_wishes ops ex) by exact F.
  destruct (split_at cs 0 (map read_service ws) 0) as [i|] eqn:Sp.
  - destruct (split_at_some _ _ _ _ _ Sp) as (R & _ & B). rewrite map_length in R. rewrite Nat.sub_0_r in B.
    assert (1 <= i)%nat.
    { destruct i as [|i]; [|lia]. destruct ws as [|w ws]; [discriminate|]. cbn [map firstn concat] in B.
      rewrite app_nil_r, read_service_len in B. inversion Fit; subst. lia. }
    rewrite firstn_map, skipn_map.
    assert (H0 := IH (firstn i ws) (Forall_firstn' _ i ws F) (Forall_firstn' _ i ws Fit) ltac:(rewrite firstn_length; lia) s (q + 1)).
    destruct (read_list fuel ctl (cl_run ops) s otid (q + 1) cs (map (desc ex) (firstn i ws))) as [[[r0|e| |] s1] q1]; try exact H0.
    assert (H1 := IH (skipn i ws) (Forall_skipn' _ i ws F) (Forall_skipn' _ i ws Fit) ltac:(rewrite skipn_length; lia) s1 q1).
    destruct (read_list fuel ctl (cl_run ops) s1 otid q1 cs (map (desc ex) (skipn i ws))) as [[[r1|e| |] s2] q2]; try exact H1. discriminate.
  - specialize (A s (multi_request_bytes otid q (map read_service ws))).
    destruct (ctl s (multi_request_bytes otid q (map read_service ws))) as [[[x p]|e| |] s1]; cbn [fst] in *; try discriminate; try congruence.
    destruct (negb (x =? 0)); [discriminate|]. cbn [fst]. apply parse_multi_fuel.
Qed.

Lemma read_batches_ends {St} (ctl : controller St) otid cs : always_answers ctl -> forall fuel ws,
  Forall ok ws -> Forall (fun w => 10 + len (encode (w_tag w)) <= cs) ws -> (length ws + 1 < fuel)%nat ->
  forall s q, fst (fst (read_batches fuel ctl (cl_run ops) s otid q cs (map (desc ex) ws))) <> OutOfFuel.
Proof.
  intros A fuel. induction fuel as [|fuel IH]; intros ws F Fit Hf s q; [lia|].
  destruct ws as [|w0 ws0]; [discriminate|]. set (ws := w0 :: ws0) in *.
  destruct (count_fit_spec ops ex cs ws F) as (m & Ec & Rm & Sz); [discriminate|].
  unfold ws at 1. cbn [map read_batches]. change (desc ex w0 :: map (desc ex) ws0) with (map (desc ex) ws).
  rewrite Ec, firstn_map, skipn_map.
  assert (H0 := read_list_ends ctl otid cs A fuel (firstn m ws) (Forall_firstn' _ m ws F) (Forall_firstn' _ m ws Fit) ltac:(rewrite firstn_length; lia) s (q + 1)).
  destruct (read_list fuel ctl (cl_run ops) s otid (q + 1) cs (map (desc ex) (firstn m ws))) as [[[r0|e| |] s1] q1]; try exact H0.
  assert (H1 := IH (skipn m ws) (Forall_skipn' _ m ws F) (Forall_skipn' _ m ws Fit) ltac:(rewrite skipn_length; lia) s1 q1).
  destruct (read_batches fuel ctl (cl_run ops) s1 otid q1 cs (map (desc ex) (skipn m ws))) as [[[r1|e| |] s2] q2]; try exact H1. discriminate.
Qed.

(** An unfittable first tag: for ever. *)
Lemma read_list_stuck {St} (ctl : controller St) otid cs w ws p :
  Forall ok (w :: ws) -> cs < 10 + len (encode (w_tag w)) ->
  (forall s q, exists s1, ctl s (multi_request otid q []) = (Ok (0, p), s1)) -> multi_answer p [] ->
  forall fuel s q, fst (fst (read_list fuel ctl (cl_run ops) s otid q cs (map (desc ex) (w :: ws)))) = OutOfFuel.
Proof.
  intros F B C A fuel. induction fuel as [|fuel IH]; intros s q; [reflexivity|].
  cbn [read_list]. rewrite iois_of_wishes, (subs_wishes ops ex) by exact F.
  assert (split_at cs 0 (map read_service (w :: ws)) 0 = Some 0%nat) as ->.
  { cbn [map split_at]. rewrite read_service_len. destruct (Z.ltb_spec cs (0 + (4 + len (encode (w_tag w))) + 6)); [reflexivity|lia]. }
  cbn [firstn skipn]. destruct fuel as [|fuel]; [reflexivity|].
  destruct (C s (q + 1)) as [s1 E].
  assert (E1 : read_list (Datatypes.S fuel) ctl (cl_run ops) s otid (q + 1) cs (map (desc ex) []) = (Ok [], s1, q + 1 + 1)).
  { apply (read_list_one ops ex fuel ctl s s1 otid (q + 1) cs [] [] [] p (Forall_nil _));
    first [now left | exact E | exact A | reflexivity | constructor]. }
  change (map (desc ex) []) with (@nil tag_desc) in E1. rewrite E1.
  specialize (IH s1 (q + 1 + 1)).
  destruct (read_list (Datatypes.S fuel) ctl (cl_run ops) s1 otid (q + 1 + 1) cs (map (desc ex) (w :: ws))) as [[[r1|e| |] s2] q2]; cbn [fst] in *; congruence.
Qed.
End batches.

(** ** readList on its own *)
Section lists.
Variable ops : list cl_op.
Variable ex : wish -> example.
Let ok (w : wish) : Prop := named ops (w_tag w).

Lemma read_list_all {St} (inv : St -> Prop) (ctl : controller St) otid cs bound value all : cs <= 40000 ->
  10 + cs + cs / 2 <= bound -> gives_in inv ctl otid bound all value -> forall fuel ws,
  Forall ok ws -> Forall (fun w => 10 + len (encode (w_tag w)) <= cs) ws ->
  (exists a b, all = a ++ ws ++ b) -> ws <> [] -> (length ws < fuel)%nat -> forall s q, inv s ->
  exists s' q', read_list fuel ctl (cl_run ops) s otid q cs (map (desc ex) ws) = (Ok (map value ws), s', q') /\ inv s'.
Proof.
  intros Hcs Hb G fuel. induction fuel as [|fuel IH]; intros ws F Fit (a & b & Ea) Ne Hf s q Is; [lia|].
  destruct (split_at cs 0 (map read_service ws) 0) as [i|] eqn:Sp.
  - destruct (split_at_some _ _ _ _ _ Sp) as (R & _ & B). rewrite map_length in R. rewrite Nat.sub_0_r in B.
    assert (1 <= i)%nat.
    { destruct i as [|i]; [|lia]. destruct ws as [|w ws]; [discriminate|]. cbn [map firstn concat] in B.
      rewrite app_nil_r, read_service_len in B. inversion Fit; subst. lia. }
    cbn [read_list]. rewrite iois_of_wishes, (subs_wishes ops ex), Sp by exact F. rewrite firstn_map, skipn_map.
    assert (Elr : ws = firstn i ws ++ skipn i ws) by (symmetry; apply firstn_skipn).
    destruct (IH (firstn i ws) (Forall_firstn' _ i ws F) (Forall_firstn' _ i ws Fit)) with (s := s) (q := q + 1)
      as (s1 & q1 & E1 & I1).
    { exists a, (skipn i ws ++ b). rewrite Ea, Elr at 1. now rewrite <- app_assoc. }
    { intro X. apply (f_equal (@length _)) in X. rewrite firstn_length in X. cbn [length] in X. lia. }
    { rewrite firstn_length; lia. }
    { exact Is. }
    rewrite E1.
    destruct (IH (skipn i ws) (Forall_skipn' _ i ws F) (Forall_skipn' _ i ws Fit)) with (s := s1) (q := q1)
      as (s2 & q2 & E2 & I2).
    { exists (a ++ firstn i ws), b. rewrite Ea, Elr at 1. now rewrite <- !app_assoc. }
    { intro X. apply (f_equal (@length _)) in X. rewrite skipn_length in X. cbn [length] in X. lia. }
    { rewrite skipn_length; lia. }
    { exact I1. }
    rewrite E2. exists s2, q2. rewrite <- map_app, <- Elr. split; [reflexivity|exact I2].
  - destruct (split_at_none_inv _ _ _ _ Sp) as [X|X]; [destruct ws; [congruence|discriminate]|].
    rewrite subs_size_concat in X.
    assert (Rq : request_size ws < 65536 /\ request_size ws <= bound).
    { rewrite request_size_eq. assert (4 * len ws <= subs_size ws); [|lia].
      clear. induction ws as [|w ws IH]; [cbn; lia|]. cbn [subs_size]. rewrite len_cons.
      pose proof (len_nonneg (encode (w_tag w))). lia. }
    destruct (G s q a ws b Is Ea Ne) as (p & s1 & subs & E & I1 & A & Y); [left; lia|].
    exists s1, (q + 1). split; [|exact I1]. apply (read_list_one ops ex fuel ctl s s1 otid q cs ws subs (map value ws) p F); [right; lia|apply Rq|exact E|exact A| |].
    + rewrite map_length. now apply Forall2_len in Y.
    + now apply combine_values.
Qed.

(** A sub-reply with an error status. *)
Lemma decode_each_error ws : Forall ok ws -> forall subs bs k w r,
  Forall2 (fun r b => exists svc resv x tail, 0x80 <= svc < 0x100 /\ 0 <= s_status r < 2 ^ 16 /\
       b = sub_reply svc resv x r ++ tail) subs bs ->
  nth_error ws k = Some w -> nth_error subs k = Some r -> s_status r <> 0 ->
  forall vs, decode_each (map (fun w => (desc ex w, wioi w)) ws) bs <> Ok vs.
Proof.
  induction 1 as [|w0 ws Hw F IH]; intros subs bs k w r Fb Ew Er N vs X; [destruct k; discriminate|].
  destruct Fb as [|r0 b subs bs (svc & resv & x & tail & Sv & Rs & ->) Fb]; [destruct k; discriminate|].
  cbn [map decode_each hd_error tl] in X. destruct k as [|k].
  - injection Ew as <-. injection Er as <-.
    rewrite decode_sub_header in X by assumption.
    destruct (Z.eqb_spec (s_status r0) 0); [congruence|]. cbn [negb bind] in X. discriminate.
  - cbn [nth_error] in *.
    destruct (decode_sub _ _) as [v| | |]; cbn [bind] in X; try discriminate.
    destruct (decode_each _ bs) as [v1| | |] eqn:E; cbn [bind] in X; try discriminate.
    eapply (IH subs bs k w r Fb Ew Er N). exact E.
Qed.

Lemma decode_each_first_error ws1 w ws2 : Forall ok ws1 -> forall subs1 r subs2 vs bs,
  Forall2 (fun r b => exists svc resv x tail, 0x80 <= svc < 0x100 /\ 0 <= s_status r < 2 ^ 16 /\
       b = sub_reply svc resv x r ++ tail) (subs1 ++ r :: subs2) bs ->
  Forall2 (fun w rv => s_status (fst rv) = 0 /\ yields w (s_type (fst rv)) (s_data (fst rv)) (snd rv)) ws1 (combine subs1 vs) ->
  length vs = length subs1 -> s_status r <> 0 ->
  decode_each (map (fun w => (desc ex w, wioi w)) (ws1 ++ w :: ws2)) bs = Err (EStatus (s_status r)).
Proof.
  induction 1 as [|w0 ws1 Hw F IH]; intros subs1 r subs2 vs bs Fb Y Lv N.
  - destruct subs1 as [|? subs1].
    2: { destruct vs; [discriminate|]. inversion Y. }
    cbn [app] in Fb. inversion Fb as [|? b ? bs' (svc & resv & x & tail & Sv & Rs & ->) Fb']; subst.
    cbn [app map decode_each hd_error tl]. rewrite decode_sub_header by assumption.
    destruct (Z.eqb_spec (s_status r) 0); [congruence|]. reflexivity.
  - destruct subs1 as [|r0 subs1], vs as [|v vs]; cbn [combine] in Y; try (inversion Y; fail).
    inversion Y as [|? ? ? ? (St & Yv) Y']; subst. cbn [app] in Fb.
    inversion Fb as [|? b ? bs' (svc & resv & x & tail & Sv & Rs & ->) Fb']; subst.
    cbn [app map decode_each hd_error tl]. cbn [fst snd] in *.
    rewrite (decode_sub_yields ex w0 svc resv x r0 tail v (proj1 Hw) Sv St Yv). cbn [bind].
    rewrite (IH subs1 r subs2 vs bs' Fb' Y') by (first [exact N|cbn in Lv; lia]). reflexivity.
Qed.

Lemma read_list_sends {St} fuel (ctl : controller St) s s1 otid q cs ws p :
  Forall ok ws -> (ws = [] \/ subs_size ws + 6 <= cs) -> request_size ws < 65536 ->
  ctl s (multi_request otid q (map read_service ws)) = (Ok (0, p), s1) ->
  read_list (S fuel) ctl (cl_run ops) s otid q cs (map (desc ex) ws) =
  (parse_multi_reply p (map (fun w => (desc ex w, wioi w)) ws), s1, q + 1).
Proof.
  intros F Sz Rq E. cbn [read_list]. rewrite iois_of_wishes by exact F. rewrite (subs_wishes ops) by exact F.
  assert (SN : split_at cs 0 (map read_service ws) 0 = None).
  { destruct Sz as [-> | Sz]; [reflexivity|]. apply split_at_none. rewrite subs_size_concat. lia. }
  rewrite SN. rewrite multi_request_wire.
  2: { rewrite multi_body_len, subs_size_concat, len_map. rewrite request_size_eq in Rq. exact Rq. }
  rewrite E. change (negb (0 =? 0)) with false. cbn iota. now rewrite combine_map.
Qed.
End lists.

(** ** ReadMulti *)
Definition tags_of (l : list (bytes * nat * field)) : list bytes := map (fun x => fst (fst x)) l.

Lemma tagged_app a b : forall i, tagged (a ++ b) i = tagged a i ++ tagged b (i + length a).
Proof.
  induction a as [|f a IH]; intro i; cbn [tagged app length]; [now rewrite Nat.add_0_r|].
  rewrite IH. replace (S i + length a)%nat with (i + S (length a))%nat by lia.
  destruct (f_tag f) as [t|]; [|reflexivity]. destruct (length t =? 0)%nat; reflexivity.
Qed.

Lemma tag_map_fold l t : forall acc, ~ In t (tags_of l) ->
  fold_left (fun acc (x : bytes * nat * field) => if bseq (fst (fst x)) t then Some (snd (fst x)) else acc) l acc = acc.
Proof.
  induction l as [|x l IH]; intros acc N; [reflexivity|]. cbn [fold_left tags_of map] in *.
  destruct (bseq (fst (fst x)) t) eqn:E; [apply bseq_spec in E; exfalso; apply N; now left|].
  apply IH. intro I. apply N. now right.
Qed.
Lemma tag_map_find a t i f b : ~ In t (tags_of b) -> tag_map (a ++ (t, i, f) :: b) t = Some i.
Proof.
  intro N. unfold tag_map. rewrite fold_left_app. cbn [fold_left fst snd]. rewrite bseq_refl. now apply tag_map_fold.
Qed.

(** Field [f] takes the value [v] as it is. *)
Definition accepts (f : field) (v : gval) : Prop :=
  match f_type f, v with
  | FScalar KString, GStr _ => True
  | FScalar k, _ => kind_of v = k /\ k <> KString
  | FAny, v => v <> GNil
  | FStruct n, GStructV l => length l = n
  | FSlice k, GList vs => exists old, f_val f = GList old /\ length old = length vs /\
                                      Forall (fun v => match k with KString => exists s, v = GStr s | _ => kind_of v = k end) vs
  | _, _ => False
  end.
Lemma kind_fits k v : kind_of v = k -> k <> KString -> fits_type (FScalar k) v = true.
Proof.
  intros <- N. destruct v; cbn [kind_of fits_type has_kind] in *; try congruence; try reflexivity.
  - now rewrite Bool.eqb_reflx, Nat.eqb_refl.
  - apply Nat.eqb_refl.
Qed.
Lemma set_slice_all k vs : Forall (fun v => match k with KString => exists s, v = GStr s | _ => kind_of v = k end) vs ->
  forall old, length old = length vs -> set_slice k old vs = Ok vs.
Proof.
  induction 1 as [|v vs H F IH]; intros [|o old] L; try discriminate; [reflexivity|].
  cbn [set_slice]. assert (fits_type (FScalar k) v = true) as ->.
  { destruct k; try (apply kind_fits; [exact H|discriminate]). destruct H as [s ->]. reflexivity. }
  rewrite IH by (cbn in L; lia). reflexivity.
Qed.
Lemma set_field_ok f v : accepts f v -> set_field f v = Ok (Field (f_tag f) (f_type f) v).
Proof.
  unfold accepts, set_field. destruct (f_type f) as [k|k| |n] eqn:T; intro A.
  - assert (fits_type (FScalar k) v = true) as Fi.
    { destruct k; try (apply kind_fits; apply A). destruct v; try (destruct A; congruence). reflexivity. }
    now rewrite Fi.
  - destruct v; try contradiction. destruct A as (old & -> & L & F). rewrite (set_slice_all _ _ F _ L). now destruct old.
  - destruct v; try congruence; reflexivity.
  - destruct v; try contradiction. cbn [fits_type]. now rewrite A, Nat.eqb_refl.
Qed.
Lemma set_nth_app a f b v f' : set_field f v = Ok f' -> set_nth (a ++ f :: b) (length a) v = Ok (a ++ f' :: b).
Proof.
  intro E. induction a as [|x a IH]; cbn [app length set_nth]; [now rewrite E|]. now rewrite IH.
Qed.

(** The struct after the values have been stored. *)
Fixpoint filled (fs : list field) (vs : list gval) : list field :=
  match fs with
  | [] => []
  | f :: r => match f_tag f, vs with
              | Some t, v :: vr => if (length t =? 0)%nat then f :: filled r vs
                                   else Field (f_tag f) (f_type f) v :: filled r vr
              | _, _ => f :: filled r vs
              end
  end.

Lemma NoDup_app_r {A} (a b : list A) : NoDup (a ++ b) -> NoDup b.
Proof. induction a as [|x a IH]; intro N; [exact N|]. inversion N; auto. Qed.

Lemma unpack_filled fs : forall pre pre' vs all, length pre' = length pre ->
  all = tagged (pre ++ fs) 0 -> NoDup (tags_of all) ->
  Forall2 (fun x v => accepts (snd x) v) (tagged fs (length pre)) vs ->
  unpack_results all (tags_of (tagged fs (length pre))) vs (pre' ++ fs) = Ok (pre' ++ filled fs vs).
Proof.
  induction fs as [|f fs IH]; intros pre pre' vs all L Ea ND F2.
  - cbn [tagged tags_of map unpack_results filled]. inversion F2. reflexivity.
  - specialize (IH (pre ++ [f])). rewrite app_length in IH. cbn [length] in IH.
    rewrite Nat.add_1_r in IH.
    assert (Skip : forall (g : field) vs0, Forall2 (fun x v => accepts (snd x) v) (tagged fs (S (length pre))) vs0 ->
      unpack_results all (tags_of (tagged fs (S (length pre)))) vs0 (pre' ++ g :: fs) = Ok (pre' ++ g :: filled fs vs0)).
    { intros g vs0 F0. specialize (IH (pre' ++ [g]) vs0 all).
      rewrite <- !app_assoc in IH. cbn [app] in IH. apply IH; auto.
      rewrite !app_length. cbn [length]. lia. }
    cbn [tagged filled] in *. destruct (f_tag f) as [t|] eqn:Tg; [|destruct vs; now apply Skip].
    destruct (length t =? 0)%nat eqn:Le; [destruct vs; now apply Skip|].
    inversion F2 as [|? v ? vr Ac F2']; subst vs. cbn [snd] in Ac.
    cbn [tags_of map fst unpack_results].
    assert (all = tagged pre 0 ++ (t, length pre, f) :: tagged fs (S (length pre))) as Ea'.
    { rewrite Ea, tagged_app. cbn [tagged]. rewrite Tg, Le. reflexivity. }
    assert (TM : tag_map all t = Some (length pre)).
    { rewrite Ea'. apply tag_map_find. rewrite Ea' in ND. unfold tags_of in ND. rewrite map_app in ND.
      apply NoDup_app_r in ND. cbn [map fst] in ND. now inversion ND. }
    rewrite TM. rewrite <- L. rewrite (set_nth_app _ _ _ _ _ (set_field_ok f v Ac)). cbn [bind].
    rewrite Tg. fold (tags_of (tagged fs (S (length pre')))). rewrite L. now apply Skip.
Qed.
