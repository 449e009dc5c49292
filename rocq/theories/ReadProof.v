From Verif Require Import GoBase SegModel IoiModel IoiSpec IoiProof ItemsModel ItemsSpec ItemsProof TypesModel
  ReadModel ReadSpec.

(** ** Requests *)
Lemma mk_data x : it_data (mk x) = snd x. Proof. reflexivity. Qed.
Lemma item_write_new id a b : item_write (new_item id a) b = mk (id, a ++ b).
Proof. reflexivity. Qed.
(** The setting of most theorems: a client after any history, a tag name that is
    not in its tag list, with a path of at most 255 words.  (Tags of the list are
    addressed by number, C01.) *)
Definition named (ops : list cl_op) (tg : tag) : Prop :=
  valid_tag tg /\ lookup (lower (text tg)) (cl_known (cl_run ops)) = None /\ len (encode tg) < 512.

Lemma path_size_ok path : len path < 512 -> path_size_byte path = len path / 2.
Proof. intro H. unfold path_size_byte. pose proof (len_nonneg path). rewrite Z.mod_small; lia. Qed.

Lemma path_request_wire otid q svc path tail : len path < 512 -> len tail < 65000 ->
  path_request otid q svc path tail =
  zeros 6 ++ wire_list [(0xA1, le 4 otid); (0xB1, le 2 q ++ [svc; len path / 2] ++ path ++ tail)].
Proof.
  intros H T. unfold path_request. rewrite path_size_ok by exact H.
  rewrite <- serialize_mk.
  - cbn [map]. rewrite item_write_new, <- app_assoc. reflexivity.
  - split; [vm_compute; reflexivity|]. repeat constructor; cbn [fst snd]; rewrite ?le_len; try lia.
    rewrite !len_app, le_len, !len_cons, len_nil. lia.
Qed.

Lemma read_req_wire otid q path e : len path < 512 ->
  path_request otid q svc_read path (le 2 e) = read_request otid q path e.
Proof. intro H. rewrite path_request_wire; [reflexivity|exact H|rewrite le_len; lia]. Qed.
Lemma frag_req_wire otid q path e off : len path < 512 ->
  path_request otid q svc_fragread path (le 2 e ++ le 4 off) = frag_request otid q path e off.
Proof. intro H. rewrite path_request_wire; [reflexivity|exact H|rewrite len_app, !le_len; lia]. Qed.

(** ** Replies *)
Lemma length6 {A} (l : list A) : length l = 6%nat -> exists a b c d e f, l = [a;b;c;d;e;f].
Proof. destruct l as [|a [|b [|c [|d [|e [|f [|]]]]]]]; try discriminate. repeat eexists. Qed.
Lemma length2 {A} (l : list A) : length l = 2%nat -> exists a b, l = [a;b].
Proof. destruct l as [|a [|b [|]]]; try discriminate. repeat eexists. Qed.

Lemma parse_answer payload st t d : answer payload st t d ->
  parse_read_hdr payload = Ok {| rh_status := st; rh_type := t; rh_data := d |}.
Proof.
  intros (pre & addr & id & q & svc & resv & ext & x & rest & L & Q & F & ->).
  unfold parse_read_hdr, reply_items. rewrite rd_app by exact L.
  rewrite read_items_wire by exact F. cbn [bind map].
  rewrite mk_data. cbn [snd].
  destruct (length2 q Q) as (a & b & ->).
  change (([a; b] ++ [svc; resv; st; ext; t; x] ++ d)) with ([a; b; svc; resv; st; ext; t; x] ++ d).
  rewrite rd_app by reflexivity. reflexivity.
Qed.

Lemma plain_answer_ok q st t d : len d < 60000 -> answer (plain_answer q st t d) st t d.
Proof.
  intro L. unfold answer, plain_answer.
  exists (zeros 6), (0xA1, [1;2;3;4]), 0xB1, (le 2 q), 0xCC, 0, 0, 0, [].
  split; [reflexivity|]. split; [apply le_length|]. split.
  - split; [vm_compute; reflexivity|]. repeat constructor; cbn [fst snd]; try (vm_compute; congruence).
    rewrite !len_app, le_len, !len_cons, len_nil. lia.
  - now rewrite app_nil_r.
Qed.

(** Whatever parses is an answer. *)
Lemma parse_answer_inv payload h : bytes_ok payload -> parse_read_hdr payload = Ok h ->
  answer payload (rh_status h) (rh_type h) (rh_data h).
Proof.
  intro B. unfold parse_read_hdr, reply_items.
  destruct (rd 6 payload) as [[pre r]| | |] eqn:R.
  2-4: cbn; discriminate.
  destruct (rd_ok_inv _ _ _ _ R) as [-> L]. apply bytes_ok_app in B. destruct B as [_ B].
  destruct (read_items r) as [[its rest]| | |] eqn:E; cbn [bind]; try discriminate.
  apply read_items_sound in E; [|exact B]. destruct E as [-> F].
  destruct its as [|i0 [|i1 [|]]]; try discriminate.
  destruct (rd 8 (it_data i1)) as [[hd d]| | |] eqn:R8; cbn [bind]; try discriminate.
  intro E8; injection E8 as <-. cbn [rh_status rh_type rh_data].
  destruct (rd_ok_inv _ _ _ _ R8) as [D L8].
  destruct hd as [|a [|b [|c [|e [|f [|g [|hh [|k [|]]]]]]]]]; try discriminate.
  cbn [nth]. unfold contents in *. cbn [map] in *. rewrite D in *.
  exists pre, (it_id i0, it_data i0), (it_id i1), [a; b], c, e, g, k, rest.
  repeat split; auto; apply F.
Qed.

(** ** Values *)
Lemma le_unle_range signed w z : (0 < w)%nat -> in_range signed w z ->
  (if (signed : bool) then sgn (8 * Z.of_nat w) (unle (le w z)) else unle (le w z)) = z.
Proof.
  intros W R. rewrite unle_le. destruct signed; cbn [in_range] in R; unfold in_range in R.
  - rewrite sgn_mod by lia. apply sgn_id; [lia|exact R].
  - apply Z.mod_small. exact R.
Qed.

Lemma read_int_le signed w z r : (0 < w)%nat -> in_range signed w z ->
  read_int signed w (le w z ++ r) = Ok (GInt signed w z, r).
Proof.
  intros W R. unfold read_int. rewrite rd_app by apply le_length. cbn [bind].
  now rewrite le_unle_range.
Qed.

Lemma int_type_cases t s w : int_type t = Some (s, w) ->
  In (t, s, w) [(0xC2, true, 1%nat); (0xC3, true, 2%nat); (0xC4, true, 4%nat); (0xC5, true, 8%nat);
    (0xC6, false, 1%nat); (0xC7, false, 2%nat); (0xC8, false, 4%nat); (0xC9, false, 8%nat);
    (0xD1, false, 1%nat); (0xD2, false, 2%nat); (0xD3, false, 4%nat); (0xD4, false, 8%nat)].
Proof.
  unfold int_type. intro H.
  destruct t as [|p|p]; try discriminate.
  do 8 (destruct p as [p|p|]; try discriminate); injection H as <- <-; cbn [In]; tauto.
Qed.

Ltac int_cases H := apply int_type_cases in H; cbn [In] in H;
  repeat match type of H with
         | _ \/ _ => destruct H as [H|H]
         | (_, _, _) = (_, _, _) => injection H as <- <- <-
         | False => destruct H
         end.

Lemma read_value_encodes t v d r : encodes t v d -> t <> 0xC9 ->
  read_value t (d ++ r) = Ok (v, r).
Proof.
  intros E N. destruct E as [x|t s w z I R|b R|b R].
  - unfold read_value. cbn -[unle]. cbn [unle]. now rewrite Z.mul_0_r, Z.add_0_r.
  - int_cases I; try congruence; unfold read_value; cbn -[read_int le];
      (apply read_int_le; [lia|exact R]).
  - unfold read_value; cbn -[rd le bind]. rewrite rd_app by apply le_length. cbn [bind].
    rewrite unle_le_small by exact R. reflexivity.
  - unfold read_value; cbn -[rd le bind]. rewrite rd_app by apply le_length. cbn [bind].
    rewrite unle_le_small by exact R. reflexivity.
Qed.

Lemma encodes_length t v d : encodes t v d -> (1 <= length d <= 8)%nat.
Proof.
  intros [x|t' s w z I R|b R|b R]; rewrite ?le_length; try (cbn; lia).
  int_cases I; lia.
Qed.

Lemma read_values_encodes t vs d : encodes_all t vs d -> t <> 0xC9 -> forall r,
  read_values (length vs) t (d ++ r) = Ok (vs, r).
Proof.
  intros E N. induction E as [|v d vs ds E Es IH]; intro r; [reflexivity|].
  cbn [length read_values]. rewrite <- app_assoc.
  rewrite (read_value_encodes _ _ _ _ E N). cbn [bind]. rewrite IH. reflexivity.
Qed.

Lemma land_pow2 z p : 0 <= p -> (Z.land z (2 ^ p) =? 0) = negb (Z.testbit z p).
Proof.
  intro P. destruct (Z.eqb_spec (Z.land z (2 ^ p)) 0) as [E|E].
  - assert (B : Z.testbit (Z.land z (2 ^ p)) p = false) by (rewrite E; apply Z.bits_0).
    rewrite Z.land_spec, Z.pow2_bits_true, andb_true_r in B by lia. now rewrite B.
  - destruct (Z.testbit z p) eqn:B; [reflexivity|]. exfalso. apply E.
    apply Z.bits_inj'. intros n Hn. rewrite Z.land_spec, Z.bits_0.
    destruct (Z.eq_dec n p) as [->|D]; [now rewrite B|].
    rewrite Z.pow2_bits_false by lia. apply andb_false_r.
Qed.

Lemma land_neg_pow2 z p : 0 <= p -> - 2 ^ p <= z < 2 ^ p ->
  (Z.land z (- 2 ^ p) =? 0) = negb (Z.testbit z p).
Proof.
  intros P R. assert (X : - 2 ^ p = Z.lnot (Z.ones p)).
  { unfold Z.lnot. rewrite Z.ones_equiv. lia. }
  rewrite X, <- Z.ldiff_land, Z.ldiff_ones_r, Z.shiftr_div_pow2, Z.shiftl_mul_pow2 by lia.
  rewrite Z.testbit_odd, Z.shiftr_div_pow2 by lia.
  assert (0 < 2 ^ p) by lia.
  destruct (Z.neg_nonneg_cases z) as [N|N].
  - assert (D : z / 2 ^ p = -1).
    { symmetry. apply Z.div_unique with (r := z + 2 ^ p); lia. }
    rewrite D. change (Z.odd (-1)) with true. destruct (Z.eqb_spec (-1 * 2 ^ p) 0); [lia|reflexivity].
  - rewrite Z.div_small by lia. reflexivity.
Qed.

Lemma bit_of_testbit s w z n : (0 < w)%nat -> in_range s w z -> 0 <= n < 8 * Z.of_nat w ->
  bit_of s w (GInt s w z) n = Ok (Z.testbit z n).
Proof.
  intros W R N. unfold bit_of.
  replace ((0 <=? n) && (n <? 8 * Z.of_nat w)) with true by lia.
  rewrite eqb_reflx, Nat.eqb_refl. cbn [andb]. f_equal.
  set (b := 8 * Z.of_nat w) in *.
  assert (Pb : 2 ^ b = 2 * 2 ^ (b - 1)).
  { replace b with (1 + (b - 1)) at 1 by lia. rewrite Z.pow_add_r by lia. reflexivity. }
  assert (Pn : 0 < 2 ^ n <= 2 ^ (b - 1)) by (split; [lia|apply Z.pow_le_mono_r; lia]).
  destruct s; unfold in_range in R; fold b in R.
  - unfold sgn. rewrite Z.mod_small by lia.
    destruct (Z.ltb_spec (2 ^ n) (2 ^ (b - 1))) as [L|L].
    + rewrite land_pow2 by lia. apply negb_involutive.
    + assert (En : n = b - 1).
      { destruct (Z_lt_le_dec n (b - 1)) as [C|C]; [|lia].
        pose proof (Z.pow_lt_mono_r 2 n (b - 1) ltac:(lia) ltac:(lia) ltac:(lia)). lia. }
      rewrite En. replace (2 ^ (b - 1) - 2 ^ b) with (- 2 ^ (b - 1)) by lia.
      rewrite land_neg_pow2 by lia. apply negb_involutive.
  - rewrite Z.mod_small by lia. rewrite land_pow2 by lia. apply negb_involutive.
Qed.

Lemma get_bit_testbit t s w z n : int_type t = Some (s, w) -> in_range s w z -> t <> 0xC2 -> t <> 0xC9 ->
  0 <= n < 8 * Z.of_nat w -> get_bit t (GInt s w z) n = Ok (Z.testbit z n).
Proof.
  intros I R N1 N2 N. int_cases I; try congruence; unfold get_bit; cbn -[bit_of];
    (apply bit_of_testbit; [lia|exact R|exact N]).
Qed.

(** ** Strings *)
Lemma read_slots ss ds : string_slots ss ds -> forall pre r, length pre = 2%nat ->
  exists r', read_string_elems (length ss) (pre ++ ds ++ r) = Ok (ss, r').
Proof.
  induction 1 as [|s d ss ds (tail & pad & L & L82 & Lp & ->) Hs IH]; intros pre r P.
  - now exists (pre ++ r).
  - cbn [length read_string_elems]. unfold read_string_elem.
    assert (U : 0 <= len s < 2 ^ 32) by (pose proof (len_nonneg s); lia).
    replace (pre ++ ((le 4 (len s) ++ s ++ tail ++ pad) ++ ds) ++ r)
      with ((pre ++ le 4 (len s)) ++ (s ++ tail) ++ pad ++ ds ++ r) by (rewrite <- !app_assoc; reflexivity).
    rewrite rd_app by (rewrite app_length, le_length; lia). cbn [bind].
    rewrite rd_app by exact L82. cbn [bind]. rewrite skipn_app_exact by exact P.
    rewrite unle_le_small by exact U.
    destruct (Z.ltb_spec 82 (len s)); [lia|]. cbn [bind].
    destruct (IH pad r Lp) as [r' E]. rewrite E. cbn [bind].
    rewrite firstn_app_exact by (unfold len; lia). now exists r'.
Qed.

(** ** One exchange *)
Lemma read_single_done {S} fuel (ctl : controller S) c s s1 otid q tag dtype e i x p t d :
  fst (new_ioi c tag dtype) = Ok i -> len (ioi_buf i) < 512 ->
  ctl s (read_request otid q (ioi_buf i) e) = (Ok (x, p), s1) -> answer p 0 t d ->
  read_single fuel ctl c s otid q tag dtype e = (decode_read i dtype e t d, s1, q + 1).
Proof.
  intros I L E A. unfold read_single. rewrite I. unfold read_single_ioi.
  rewrite read_req_wire by exact L. rewrite E. rewrite (parse_answer _ _ _ _ A). reflexivity.
Qed.

Lemma read_single_status {S} fuel (ctl : controller S) c s s1 otid q tag dtype e i x p st t d :
  fst (new_ioi c tag dtype) = Ok i -> len (ioi_buf i) < 512 ->
  ctl s (read_request otid q (ioi_buf i) e) = (Ok (x, p), s1) -> answer p st t d -> st <> 0 -> st <> 6 ->
  read_single fuel ctl c s otid q tag dtype e = (Err (EStatus st), s1, q + 1).
Proof.
  intros I L E A N0 N6. unfold read_single. rewrite I. unfold read_single_ioi.
  rewrite read_req_wire by exact L. rewrite E. rewrite (parse_answer _ _ _ _ A).
  cbn [rh_status rh_type rh_data]. unfold st_partial.
  destruct (Z.eqb_spec st 6); [congruence|]. destruct (Z.eqb_spec st 0); [congruence|]. reflexivity.
Qed.

Lemma encodes_not_struct t v d : encodes t v d -> t <> 0xA0.
Proof. intros [x|t' s w z I R|b R|b R]; try discriminate. int_cases I; discriminate. Qed.

Lemma decode_scalar i dtype t v d rest : encodes t v d -> t <> 0xC9 -> ioi_bit i = false ->
  decode_read i dtype 1 t (d ++ rest) = Ok v.
Proof.
  intros E N B. unfold decode_read. unfold T_struct.
  destruct (Z.eqb_spec t 0xA0) as [C|_]; [now apply encodes_not_struct in E|].
  rewrite B, andb_false_r. change (1 =? 1) with true. cbn iota.
  now rewrite (read_value_encodes _ _ _ _ E N).
Qed.

Lemma decode_bit i t s w z rest n : int_type t = Some (s, w) -> in_range s w z ->
  t <> 0xC2 -> t <> 0xC9 -> 0 <= n < 8 * Z.of_nat w ->
  ioi_bit i = true -> ioi_bitpos i = n ->
  decode_read i T_bool 1 t (le w z ++ rest) = Ok (GBool (Z.testbit z n)).
Proof.
  intros I R N1 N2 N B P. pose proof (enc_int t s w z I R) as E.
  unfold decode_read, T_struct.
  destruct (Z.eqb_spec t 0xA0) as [C|_]; [now apply encodes_not_struct in E|].
  change (1 =? 1) with true. change (T_bool =? T_bool) with true. rewrite B, P.
  destruct (Z.eqb_spec t T_bool) as [C|_]; [subst; discriminate|]. cbn [negb andb].
  rewrite (read_value_encodes _ _ _ _ E N2). cbn [bind].
  rewrite (get_bit_testbit _ _ _ _ _ I R N1 N2 N). reflexivity.
Qed.

Lemma encodes_all_struct t vs d : encodes_all t vs d -> vs <> [] -> t <> 0xA0.
Proof. intros [|v d' vs' ds E _] N; [congruence|]. now apply encodes_not_struct in E. Qed.

Lemma decode_list i dtype t vs d rest : encodes_all t vs d -> t <> 0xC9 -> vs <> [] -> length vs <> 1%nat ->
  decode_read i dtype (len vs) t (d ++ rest) = Ok (GList vs).
Proof.
  intros E N NE N1. unfold decode_read, T_struct.
  destruct (Z.eqb_spec t 0xA0) as [C|_]; [now apply encodes_all_struct in E|].
  destruct (Z.eqb_spec (len vs) 1); [unfold len in *; lia|].
  unfold len. rewrite Nat2Z.id. rewrite (read_values_encodes _ _ _ E N). reflexivity.
Qed.

Lemma decode_string i s d crc rest : string_slot s d -> length crc = 2%nat ->
  decode_read i T_string 1 0xA0 (crc ++ d ++ rest) = Ok (GBytes s).
Proof.
  intros (tail & pad & L & L82 & Lp & ->) C. unfold decode_read.
  change (160 =? T_struct) with true. change (T_string =? T_string) with true. change (1 =? 1) with true. cbn iota.
  replace (crc ++ (le 4 (len s) ++ s ++ tail ++ pad) ++ rest)
    with ((crc ++ le 4 (len s)) ++ s ++ tail ++ pad ++ rest) by (rewrite <- !app_assoc; reflexivity).
  rewrite rd_app by (rewrite app_length, le_length; lia). cbn [bind].
  rewrite skipn_app_exact by exact C. pose proof (len_nonneg s).
  rewrite unle_le_small by (change (256 ^ Z.of_nat 4) with (2 ^ 32); lia).
  rewrite rd_app by (unfold len; lia). reflexivity.
Qed.

Lemma decode_strings i ss d crc rest : string_slots ss d -> length crc = 2%nat -> length ss <> 1%nat ->
  decode_read i T_string (len ss) 0xA0 (crc ++ d ++ rest) = Ok (GList (map GBytes ss)).
Proof.
  intros H C N. unfold decode_read.
  change (160 =? T_struct) with true. change (T_string =? T_string) with true. cbn iota.
  destruct (Z.eqb_spec (len ss) 1); [unfold len in *; lia|].
  destruct (read_slots _ _ H crc rest C) as [r' E]. unfold len. rewrite Nat2Z.id, E. reflexivity.
Qed.

Lemma decode_struct i dtype e d handle : dtype <> 0xFF -> length handle = 2%nat ->
  decode_read i dtype e 0xA0 (handle ++ d) = Ok (GBytes d).
Proof.
  intros N H. unfold decode_read. change (160 =? T_struct) with true. cbn iota.
  unfold T_string. destruct (Z.eqb_spec dtype 0xFF); [congruence|].
  rewrite rd_app by exact H. reflexivity.
Qed.

(** ** Typed reads *)
Lemma gokind_dec (a b : gokind) : {a = b} + {a <> b}.
Proof. decide equality; solve [apply Nat.eq_dec | apply Bool.bool_dec]. Qed.

Lemma has_kind_iff t v d k : encodes t v d -> k <> KString -> has_kind k v = true <-> k = kind_of v.
Proof.
  intros E N. destruct E; destruct k; cbn [has_kind kind_of]; split; intro H'; try congruence.
  all: try (apply andb_true_iff in H' as [A B]; apply eqb_prop in A; apply Nat.eqb_eq in B; congruence).
  all: try (apply Nat.eqb_eq in H'; congruence).
  all: inversion H'; subst; rewrite ?eqb_reflx, ?Nat.eqb_refl; reflexivity.
Qed.

Lemma cast_scalar_encodes t v d k : encodes t v d ->
  cast_scalar k (Ok v) = if gokind_dec k (kind_of v) then Ok v else Err EMsg.
Proof.
  intro E. unfold cast_scalar. cbn [bind].
  destruct (gokind_dec k (kind_of v)) as [D|D].
  - assert (N : k <> KString) by (rewrite D; destruct E; discriminate).
    pose proof (proj2 (has_kind_iff _ _ _ _ E N) D) as Hk. destruct k; try congruence; rewrite Hk; reflexivity.
  - assert (X : k <> KString -> (if has_kind k v then Ok v else Err EMsg) = Err EMsg).
    { intro NS. destruct (has_kind k v) eqn:H; [|reflexivity].
      apply (has_kind_iff _ _ _ _ E NS) in H. congruence. }
    destruct k; try (apply X; discriminate). destruct E; reflexivity.
Qed.

Lemma cast_all_encodes t vs d k : encodes_all t vs d -> Forall (fun v => kind_of v = k) vs ->
  cast_all k vs = Ok vs.
Proof.
  induction 1 as [|v d vs ds E Es IH]; intro F; [reflexivity|].
  inversion F as [|? ? F1 F2]; subst. specialize (IH F2). cbn [cast_all].
  assert (N : kind_of v <> KString) by (destruct E; discriminate).
  assert (Hk : has_kind (kind_of v) v = true) by (now apply (has_kind_iff _ _ _ _ E N)).
  destruct (kind_of v) eqn:K; try congruence; rewrite Hk, IH; reflexivity.
Qed.

Lemma cast_all_mixed t vs d k : encodes_all t vs d -> ~ Forall (fun v => kind_of v = k) vs ->
  cast_all k vs = Err EMsg.
Proof.
  induction 1 as [|v d vs ds E Es IH]; intro F; [exfalso; apply F; constructor|].
  cbn [cast_all].
  destruct (gokind_dec (kind_of v) k) as [D|D].
  - assert (F' : ~ Forall (fun v => kind_of v = k) vs) by (intro X; apply F; now constructor).
    specialize (IH F').
    assert (N : k <> KString) by (subst; destruct E; discriminate).
    assert (Hk : has_kind k v = true) by (apply (has_kind_iff _ _ _ _ E N); congruence).
    destruct k; try congruence; rewrite Hk, IH; reflexivity.
  - assert (X : k <> KString -> has_kind k v = false).
    { intro NS. destruct (has_kind k v) eqn:H; [|reflexivity].
      apply (has_kind_iff _ _ _ _ E NS) in H. congruence. }
    destruct k; try (rewrite X by discriminate; reflexivity). destruct E; reflexivity.
Qed.

Lemma cast_all_strings ss : cast_all KString (map GBytes ss) = Ok (map GStr ss).
Proof. induction ss as [|s ss IH]; [reflexivity|]. cbn [map cast_all]. rewrite IH. reflexivity. Qed.

(** ** Fragments *)
Definition head20 (L otid : Z) : bytes :=
  zeros 6 ++ le 2 2 ++ le 2 0xA1 ++ le 2 4 ++ le 4 otid ++ le 2 0xB1 ++ le 2 L.
Lemma wire2 otid d : zeros 6 ++ wire_list [(0xA1, le 4 otid); (0xB1, d)] = head20 (len d) otid ++ d.
Proof.
  unfold wire_list, head20, wire_item. cbn [map concat fst snd]. rewrite le_len.
  change (len [(161, le 4 otid); (177, d)]) with 2. rewrite app_nil_r, <- !app_assoc. reflexivity.
Qed.

Lemma read_request_mod otid q path e : read_request otid (q mod 65536) path e = read_request otid q path e.
Proof. unfold read_request. now rewrite (le_mod 2 q : le 2 (q mod 65536) = le 2 q). Qed.
Lemma frag_request_mod otid q path e off :
  frag_request otid (q mod 65536) path e off = frag_request otid q path e off.
Proof. unfold frag_request. now rewrite (le_mod 2 q : le 2 (q mod 65536) = le 2 q). Qed.

Lemma req_seq otid d q rest : d = le 2 q ++ rest ->
  unle (firstn 2 (skipn 20 (zeros 6 ++ wire_list [(0xA1, le 4 otid); (0xB1, d)]))) = q mod 65536.
Proof.
  intros ->. rewrite wire2. rewrite skipn_app_exact by reflexivity.
  rewrite firstn_app_exact by apply le_length. exact (unle_le 2 q).
Qed.

Lemma bseq_length_neq a b : length a <> length b -> bseq a b = false.
Proof. intro H. destruct (bseq a b) eqn:E; [|reflexivity]. apply bseq_spec in E. congruence. Qed.

Lemma holder_read otid path e t mem chunks q :
  tag_holder otid path e t mem chunks (read_request otid q path e) =
  (Ok (0, fst (serve_from mem t (q mod 65536) 0 chunks)), snd (serve_from mem t (q mod 65536) 0 chunks)).
Proof.
  unfold tag_holder.
  assert (Q : unle (firstn 2 (skipn 20 (read_request otid q path e))) = q mod 65536)
    by (unfold read_request; eapply req_seq; reflexivity).
  rewrite Q, read_request_mod, bseq_refl. now destruct (serve_from _ _ _ _ _).
Qed.

Lemma holder_frag otid path e t mem chunks q off : 0 <= off < 2 ^ 32 ->
  tag_holder otid path e t mem chunks (frag_request otid q path e off) =
  (Ok (0, fst (serve_from mem t (q mod 65536) (Z.to_nat off) chunks)),
   snd (serve_from mem t (q mod 65536) (Z.to_nat off) chunks)).
Proof.
  intro R. unfold tag_holder.
  assert (Q : unle (firstn 2 (skipn 20 (frag_request otid q path e off))) = q mod 65536)
    by (unfold frag_request; eapply req_seq; reflexivity).
  rewrite Q.
  assert (O : unle (skipn (26 + length path) (frag_request otid q path e off)) = off).
  { unfold frag_request. rewrite wire2.
    match goal with |- context [head20 ?L otid] => generalize (head20 L otid) (eq_refl : length (head20 L otid) = 20%nat) end.
    intros h Hh.
    replace (h ++ le 2 q ++ [82; len path / 2] ++ path ++ le 2 e ++ le 4 off)
      with ((h ++ le 2 q ++ [82; len path / 2] ++ path ++ le 2 e) ++ le 4 off) by (rewrite <- !app_assoc; reflexivity).
    rewrite skipn_app_exact by (rewrite !app_length, !le_length, Hh; cbn [length]; lia).
    now apply unle_le_small. }
  rewrite O, read_request_mod, frag_request_mod, bseq_refl.
  rewrite bseq_length_neq; [now destruct (serve_from _ _ _ _ _)|].
  unfold frag_request, read_request. rewrite !wire2, !app_length, !le_length. unfold head20.
  rewrite !app_length, !le_length. cbn [length]. lia.
Qed.

Lemma firstn_more {A} n k (l : list A) : firstn n l ++ firstn k (skipn n l) = firstn (n + k) l.
Proof.
  revert l; induction n as [|n IH]; intro l; [reflexivity|].
  destruct l as [|x l]; [now rewrite !firstn_nil|]. cbn [firstn skipn app Nat.add]. now rewrite IH.
Qed.

Definition small_chunks (chunks : list nat) : Prop := Forall (fun k => (Z.of_nat k < 60000)) chunks.

Lemma serve_answer mem t q off chunks : small_chunks chunks ->
  let k := fst (next_chunk chunks) in
  answer (fst (serve_from mem t q off chunks)) (if (off + k <? length mem)%nat then 6 else 0) t
         (firstn k (skipn off mem)) /\
  snd (serve_from mem t q off chunks) = snd (next_chunk chunks) /\ small_chunks (snd (next_chunk chunks)).
Proof.
  intro H. unfold serve_from. destruct (next_chunk chunks) as [k r] eqn:N. cbn [fst snd].
  assert (K : Z.of_nat k < 60000 /\ small_chunks r).
  { destruct chunks as [|k0 r0]; cbn in N; injection N as <- <-; [split; [lia|constructor]|].
    inversion H; subst. now split. }
  split; [|now split]. apply plain_answer_ok.
  pose proof (firstn_le_length k (skipn off mem)). unfold len. lia.
Qed.

Lemma fragmented_all otid path e t mem : len path < 512 -> len mem < 2 ^ 32 ->
  forall fuel chunks q n, small_chunks chunks -> (n <= length mem)%nat ->
  (length chunks + (length mem - n) < fuel)%nat ->
  fst (fst (read_fragmented fuel (tag_holder otid path e t mem) chunks otid q path e (firstn n mem))) = Ok mem.
Proof.
  intros P M. induction fuel as [|fuel IH]; intros chunks q n C N F; [lia|].
  cbn [read_fragmented]. rewrite frag_req_wire by exact P.
  assert (Ln : len (firstn n mem) = Z.of_nat n) by (unfold len; rewrite firstn_length; lia).
  rewrite Ln. rewrite holder_frag by (unfold len in M; lia). rewrite Nat2Z.id.
  destruct (serve_answer mem t (q mod 65536) n chunks C) as (A & E & C').
  rewrite (parse_answer _ _ _ _ A), E. cbn [rh_status rh_data]. rewrite firstn_more.
  set (k := fst (next_chunk chunks)) in *. unfold st_partial.
  destruct (Nat.ltb_spec (n + k) (length mem)) as [L|L].
  - change (6 =? 0) with false. change (6 =? 6) with true. cbn iota.
    apply IH; [exact C'|lia|]. destruct chunks as [|k0 r]; cbn [next_chunk fst snd length] in *; lia.
  - change (0 =? 0) with true. cbn [fst]. now rewrite firstn_all2.
Qed.

Lemma C18_ioi c tag dtype i fuel otid q e t mem chunks :
  fst (new_ioi c tag dtype) = Ok i -> len (ioi_buf i) < 512 -> len mem < 2 ^ 32 -> t <> 0xA0 ->
  small_chunks chunks -> (length chunks + length mem < fuel)%nat ->
  fst (fst (read_single fuel (tag_holder otid (ioi_buf i) e t mem) c chunks otid q tag dtype e)) =
  decode_read i dtype e t mem.
Proof.
  intros I L M T C F. unfold read_single. rewrite I. unfold read_single_ioi.
  rewrite read_req_wire by exact L. rewrite holder_read.
  destruct (serve_answer mem t (q mod 65536) 0 chunks C) as (A & E & C').
  rewrite (parse_answer _ _ _ _ A), E. cbn [rh_status rh_data rh_type]. rewrite skipn_O.
  set (k := fst (next_chunk chunks)) in *. unfold st_partial, T_struct. cbn [Nat.add] in *.
  destruct (Nat.ltb_spec k (length mem)) as [Lk|Lk].
  - change (6 =? 6) with true. cbn iota. destruct (Z.eqb_spec t 0xA0); [congruence|].
    assert (F' : (length (snd (next_chunk chunks)) + (length mem - k) < fuel)%nat).
    { subst k. destruct chunks as [|k0 r]; cbn [next_chunk fst snd length] in *; lia. }
    pose proof (fragmented_all otid (ioi_buf i) e t mem L M fuel (snd (next_chunk chunks)) (q + 1) k C'
                  ltac:(lia) F') as X.
    destruct (read_fragmented _ _ _ _ _ _ _ _) as [[r s2] q2]. cbn [fst] in X. subst r. reflexivity.
  - change (0 =? 6) with false. change (0 =? 0) with true. cbn [negb fst]. rewrite firstn_all2 by lia. reflexivity.
Qed.

(** ** Every controller (C19, C20) *)
Definition good_reply (r : res (Z * bytes)) (a : Z * Z * bytes) : Prop :=
  exists x p, r = Ok (x, p) /\ answer p (fst (fst a)) (snd (fst a)) (snd a).

Definition sends_bytes {S} (ctl : controller S) : Prop :=
  forall s req x p s1, ctl s req = (Ok (x, p), s1) -> bytes_ok p.

Lemma fragmented_log {S} (ctl : controller S) : sends_bytes ctl ->
  forall fuel s log otid q path e acc m s' log' q',
  read_fragmented fuel (logged ctl) (s, log) otid q path e acc = (Ok m, (s', log'), q') ->
  exists new answers, log' = log ++ new /\ Forall2 good_reply new answers /\
    (exists n, map (fun a => fst (fst a)) answers = repeat 6 n ++ [0]) /\
    m = acc ++ concat (map snd answers).
Proof.
  intro B. induction fuel as [|fuel IH]; intros s log otid q path e acc m s' log' q' H; [discriminate|].
  cbn [read_fragmented] in H. unfold logged at 1 in H. cbn [fst snd] in H.
  destruct (ctl s _) as [[[x p]| | |] s1] eqn:E; try discriminate.
  destruct (parse_read_hdr p) as [h| | |] eqn:P; try discriminate.
  pose proof (parse_answer_inv p h (B _ _ _ _ _ E) P) as A.
  destruct (Z.eqb_spec (rh_status h) 0) as [Z0|Z0].
  - injection H as <- <- <- <-.
    exists [Ok (x, p)], [(0, rh_type h, rh_data h)]. split; [reflexivity|]. split.
    + repeat constructor. exists x, p. split; [reflexivity|]. cbn [fst snd]. now rewrite <- Z0.
    + split; [now exists 0%nat|]. cbn [map concat snd]. now rewrite app_nil_r.
  - unfold st_partial in H. destruct (Z.eqb_spec (rh_status h) 6) as [Z6|Z6]; [|discriminate].
    destruct (IH _ _ _ _ _ _ _ _ _ _ _ H) as (new & answers & -> & F & [n En] & ->).
    exists (Ok (x, p) :: new), ((6, rh_type h, rh_data h) :: answers).
    split; [now rewrite <- app_assoc|]. split.
    + constructor; [|exact F]. exists x, p. split; [reflexivity|]. cbn [fst snd]. now rewrite <- Z6.
    + split; [exists (Datatypes.S n); cbn [map fst repeat app]; now rewrite En|].
      cbn [map concat snd]. now rewrite app_assoc.
Qed.

Lemma C19_ioi {S} (ctl : controller S) c tag dtype fuel s otid q e v s' log q' :
  sends_bytes ctl ->
  read_single fuel (logged ctl) c (s, []) otid q tag dtype e = (Ok v, (s', log), q') ->
  exists i answers, fst (new_ioi c tag dtype) = Ok i /\ Forall2 good_reply log answers /\
    (exists n, map (fun a => fst (fst a)) answers = repeat 6 n ++ [0]) /\
    decode_read i dtype e (snd (fst (hd (0, 0, []) answers))) (concat (map snd answers)) = Ok v.
Proof.
  intros B H. unfold read_single in H. destruct (fst (new_ioi c tag dtype)) as [i| | |]; try discriminate.
  unfold read_single_ioi in H. unfold logged at 1 in H. cbn [fst snd] in H.
  destruct (ctl s _) as [[[x p]| | |] s1] eqn:E; try discriminate.
  destruct (parse_read_hdr p) as [h| | |] eqn:P; try discriminate.
  pose proof (parse_answer_inv p h (B _ _ _ _ _ E) P) as A.
  exists i. unfold st_partial in H. destruct (Z.eqb_spec (rh_status h) 6) as [Z6|Z6].
  - destruct (rh_type h =? T_struct); [discriminate|].
    destruct (read_fragmented fuel (logged ctl) _ _ _ _ _ _) as [[[m| | |] [s2 l2]] q2] eqn:Fr; try discriminate.
    injection H as D <- <- <-.
    destruct (fragmented_log ctl B _ _ _ _ _ _ _ _ _ _ _ _ Fr) as (new & answers & -> & F & [n En] & ->).
    exists ((6, rh_type h, rh_data h) :: answers). split; [reflexivity|]. cbn [app].
    split; [constructor; [|exact F]|].
    + exists x, p. split; [reflexivity|]. cbn [fst snd]. now rewrite <- Z6.
    + split; [exists (Datatypes.S n); cbn [map fst repeat app]; now rewrite En|]. exact D.
  - destruct (Z.eqb_spec (rh_status h) 0) as [Z0|Z0]; [|discriminate]. cbn [negb] in H.
    injection H as D <- <- <-. exists [(0, rh_type h, rh_data h)]. split; [reflexivity|].
    cbn [app]. split; [repeat constructor; exists x, p; split; [reflexivity|]; cbn [fst snd]; now rewrite <- Z0|].
    split; [now exists 0%nat|]. cbn [hd fst snd map concat]. now rewrite app_nil_r.
Qed.

Lemma read_value_safe t r : read_value t r <> Panic /\ read_value t r <> OutOfFuel.
Proof.
  assert (I : forall s w, read_int s w r <> Panic /\ read_int s w r <> OutOfFuel).
  { intros s w. unfold read_int. pose proof (rd_no_panic w r). pose proof (rd_no_fuel w r).
    destruct (rd w r) as [[? ?]| | |]; cbn [bind]; split; congruence. }
  assert (R : forall n (f : bytes -> gval), let x := (let* (d, r') := rd n r in Ok (f d, r')) in x <> Panic /\ x <> OutOfFuel).
  { intros n f. cbv zeta. pose proof (rd_no_panic n r). pose proof (rd_no_fuel n r).
    destruct (rd n r) as [[? ?]| | |]; cbn [bind]; split; congruence. }
  unfold read_value. repeat (destruct (_ =? _); [first [apply I | apply R | split; discriminate]|]).
  split; discriminate.
Qed.
Lemma read_values_safe n t : forall r, read_values n t r <> Panic /\ read_values n t r <> OutOfFuel.
Proof.
  induction n as [|n IH]; intro r; cbn [read_values]; [split; discriminate|].
  destruct (read_value_safe t r). destruct (read_value t r) as [[v r1]| | |]; cbn [bind]; try (split; congruence).
  destruct (IH r1). destruct (read_values n t r1) as [[vs r2]| | |]; cbn [bind]; split; congruence.
Qed.
Lemma bit_of_safe s w v p : bit_of s w v p <> Panic /\ bit_of s w v p <> OutOfFuel.
Proof.
  unfold bit_of. destruct (_ && _); [|split; discriminate]. destruct v; try (split; discriminate).
  destruct (_ && _); split; discriminate.
Qed.
Lemma get_bit_safe t v p : get_bit t v p <> Panic /\ get_bit t v p <> OutOfFuel.
Proof.
  unfold get_bit.
  repeat (destruct (t =? _); [first [apply bit_of_safe | split; discriminate |
     destruct (p =? 0); [destruct v|]; split; discriminate]|]).
  split; discriminate.
Qed.

(** Decoding panics only on a string array. *)
Lemma decode_read_safe i dtype e t d : (t <> 0xA0 \/ dtype <> 0xFF \/ e = 1) ->
  decode_read i dtype e t d <> Panic /\ decode_read i dtype e t d <> OutOfFuel.
Proof.
  intro H. unfold decode_read, T_struct, T_string.
  destruct (Z.eqb_spec t 0xA0) as [T|T].
  - destruct (Z.eqb_spec dtype 0xFF) as [D|D].
    + assert (e = 1) as -> by tauto. change (1 =? 1) with true. cbn iota.
      pose proof (rd_no_panic 6 d). pose proof (rd_no_fuel 6 d).
      destruct (rd 6 d) as [[h r]| | |]; cbn [bind]; try (split; congruence).
      pose proof (rd_no_panic (Z.to_nat (unle (skipn 2 h))) r). pose proof (rd_no_fuel (Z.to_nat (unle (skipn 2 h))) r).
      destruct (rd _ r) as [[s r']| | |]; cbn [bind]; split; congruence.
    + pose proof (rd_no_panic 2 d). pose proof (rd_no_fuel 2 d).
      destruct (rd 2 d) as [[h r]| | |]; cbn [bind]; split; congruence.
  - destruct (e =? 1).
    + destruct (read_value_safe t d). destruct (_ && _ && _);
        destruct (read_value t d) as [[v r]| | |]; cbn [bind]; try (split; congruence).
      destruct (get_bit_safe t v (ioi_bitpos i)). destruct (get_bit t v (ioi_bitpos i)); cbn [bind]; split; congruence.
    + destruct (read_values_safe (Z.to_nat e) t d).
      destruct (read_values _ _ _) as [[v r]| | |]; cbn [bind]; split; congruence.
Qed.

Lemma read_items_safe r : read_items r <> Panic /\ read_items r <> OutOfFuel.
Proof.
  assert (N : forall n r0, read_items_n n r0 <> Panic /\ read_items_n n r0 <> OutOfFuel).
  { clear r. induction n as [|n IH]; intro r; cbn [read_items_n]; [split; discriminate|].
    pose proof (rd_no_panic 4 r). pose proof (rd_no_fuel 4 r).
    destruct (rd 4 r) as [[h r1]| | |]; cbn [bind]; try (split; congruence).
    pose proof (rd_no_panic (Z.to_nat (unle (skipn 2 h))) r1). pose proof (rd_no_fuel (Z.to_nat (unle (skipn 2 h))) r1).
    destruct (rd _ r1) as [[d r2]| | |]; cbn [bind]; try (split; congruence).
    destruct (IH r2). destruct (read_items_n n r2) as [[? ?]| | |]; cbn [bind]; split; congruence. }
  unfold read_items. pose proof (rd_no_panic 2 r). pose proof (rd_no_fuel 2 r).
    destruct (rd 2 r) as [[c r1]| | |]; cbn [bind]; try (split; congruence). apply N.
Qed.

Lemma parse_read_hdr_safe p : parse_read_hdr p <> Panic /\ parse_read_hdr p <> OutOfFuel.
Proof.
  unfold parse_read_hdr, reply_items.
  match goal with |- context [read_items ?r] => destruct (read_items_safe r); destruct (read_items r) as [[its rest]| | |] end;
    cbn [bind]; try (split; congruence).
  destruct its as [|? [|i1 [|]]]; try (split; discriminate).
  pose proof (rd_no_panic 8 (it_data i1)). pose proof (rd_no_fuel 8 (it_data i1)).
  destruct (rd 8 (it_data i1)) as [[h d]| | |]; cbn [bind]; split; congruence.
Qed.

(** Termination when the controller gives up partial answers. *)
Definition returns {S} (ctl : controller S) : Prop :=
  forall s req, fst (ctl s req) <> OutOfFuel /\ fst (ctl s req) <> Panic.
Definition partial_shrinks {S} (ctl : controller S) (m : S -> nat) : Prop :=
  forall s req s1 x p t d, ctl s req = (Ok (x, p), s1) -> answer p 6 t d -> (m s1 < m s)%nat.

Lemma fragmented_ends {S} (ctl : controller S) m : sends_bytes ctl -> returns ctl -> partial_shrinks ctl m ->
  forall fuel s otid q path e acc, (m s < fuel)%nat ->
  let r := fst (fst (read_fragmented fuel ctl s otid q path e acc)) in r <> OutOfFuel /\ r <> Panic.
Proof.
  intros B R H. induction fuel as [|fuel IH]; intros s otid q path e acc F; [lia|].
  cbn [read_fragmented]. pose proof (R s (path_request otid q svc_fragread path (le 2 e ++ le 4 (len acc)))) as Rs.
  destruct (ctl s _) as [[[x p]| | |] s1] eqn:E; cbn [fst] in *; try (split; discriminate); try tauto.
  destruct (parse_read_hdr_safe p). destruct (parse_read_hdr p) as [h| | |] eqn:P; cbn [fst]; try (split; congruence).
  destruct (Z.eqb_spec (rh_status h) 0); [split; discriminate|]. unfold st_partial.
  destruct (Z.eqb_spec (rh_status h) 6) as [Z6|]; [|split; discriminate].
  apply IH. pose proof (parse_answer_inv p h (B _ _ _ _ _ E) P) as A. rewrite Z6 in A.
  pose proof (H _ _ _ _ _ _ _ E A). lia.
Qed.

Lemma C20_ioi {S} (ctl : controller S) m c tag dtype fuel s otid q e :
  sends_bytes ctl -> returns ctl -> partial_shrinks ctl m -> (m s <= fuel)%nat ->
  fst (new_ioi c tag dtype) <> OutOfFuel ->
  (dtype <> 0xFF \/ e = 1) ->
  fst (fst (read_single fuel ctl c s otid q tag dtype e)) <> OutOfFuel /\
  (fst (new_ioi c tag dtype) <> Panic -> fst (fst (read_single fuel ctl c s otid q tag dtype e)) <> Panic).
Proof.
  intros B R H F N D. unfold read_single.
  destruct (fst (new_ioi c tag dtype)) as [i| | |]; cbn [fst]; try (split; congruence).
  unfold read_single_ioi. pose proof (R s (path_request otid q svc_read (ioi_buf i) (le 2 e))) as Rs.
  destruct (ctl s _) as [[[x p]| | |] s1] eqn:E; cbn [fst] in *; try (split; try intros _; (discriminate || tauto)); try tauto; try (split; [|intros _]; discriminate).
  destruct (parse_read_hdr_safe p). destruct (parse_read_hdr p) as [h| | |] eqn:P; cbn [fst]; try (split; congruence).
  assert (DS : forall t d, decode_read i dtype e t d <> Panic /\ decode_read i dtype e t d <> OutOfFuel)
    by (intros t d; apply decode_read_safe; tauto).
  unfold st_partial. destruct (Z.eqb_spec (rh_status h) 6) as [Z6|].
  - destruct (rh_type h =? T_struct); [split; discriminate|].
    pose proof (parse_answer_inv p h (B _ _ _ _ _ E) P) as A. rewrite Z6 in A.
    pose proof (H _ _ _ _ _ _ _ E A) as M.
    pose proof (fragmented_ends ctl m B R H fuel s1 otid (q + 1) (ioi_buf i) e (rh_data h) ltac:(lia)) as X.
    destruct (read_fragmented fuel ctl s1 _ _ _ _ _) as [[[mm| | |] s2] q2]; cbn [fst] in *; try (split; discriminate); try tauto.
    destruct (DS (rh_type h) mm). split; [assumption|]. now intros _.
  - destruct (rh_status h =? 0); cbn [negb fst]; [|split; discriminate].
    destruct (DS (rh_type h) (rh_data h)). split; [assumption|]. now intros _.
Qed.

(** A controller that always says there is more. *)
Definition endless : controller unit := fun s _ => (Ok (0, plain_answer 0 6 0xC4 [1]), s).
Lemma endless_fragmented fuel : forall otid q path e acc,
  fst (fst (read_fragmented fuel endless tt otid q path e acc)) = OutOfFuel.
Proof.
  induction fuel as [|fuel IH]; intros; [reflexivity|].
  cbn [read_fragmented]. unfold endless at 1.
  rewrite (parse_answer _ 6 0xC4 [1]) by (apply plain_answer_ok; cbn; lia).
  cbn [rh_status rh_data]. unfold st_partial. change (6 =? 0) with false. change (6 =? 6) with true. cbn iota.
  apply IH.
Qed.
Lemma endless_read fuel c otid q tag dtype e i : fst (new_ioi c tag dtype) = Ok i ->
  fst (fst (read_single fuel endless c tt otid q tag dtype e)) = OutOfFuel.
Proof.
  intro I. unfold read_single. rewrite I. unfold read_single_ioi. unfold endless at 1.
  rewrite (parse_answer _ 6 0xC4 [1]) by (apply plain_answer_ok; cbn; lia).
  cbn [rh_status rh_data rh_type]. unfold st_partial. change (6 =? 6) with true.
  change (0xC4 =? T_struct) with false. cbn iota.
  pose proof (endless_fragmented fuel otid (q + 1) (ioi_buf i) e [1]) as X.
  destruct (read_fragmented fuel endless tt otid (q + 1) (ioi_buf i) e [1]) as [[[m| | |] s2] q2]; cbn [fst] in *; congruence.
Qed.

(** ** Bool arrays (C29) *)
Lemma word_bits_length w : length (word_bits w) = 32%nat.
Proof. reflexivity. Qed.
Lemma word_bits_nth w i : (i < 32)%nat -> nth i (word_bits w) false = Z.testbit w (Z.of_nat i).
Proof.
  intro H. unfold word_bits. set (f := fun i => negb (Z.land w (2 ^ Z.of_nat i) =? 0)).
  rewrite nth_indep with (d' := f 0%nat) by (rewrite map_length, seq_length; lia).
  rewrite map_nth, seq_nth by lia. subst f. cbn [Nat.add]. cbv beta. rewrite land_pow2 by lia. apply negb_involutive.
Qed.
Lemma words_bits_nth (ws : list Z) : forall i, (i < 32 * length ws)%nat ->
  nth i (concat (map word_bits ws)) false = Z.testbit (nth (i / 32) ws 0) (Z.of_nat (i mod 32)).
Proof.
  induction ws as [|w ws IH]; intros i H; [cbn in H; lia|].
  cbn [map concat]. destruct (Nat.lt_ge_cases i 32) as [L|L].
  - rewrite app_nth1 by (rewrite word_bits_length; lia).
    rewrite Nat.div_small, Nat.mod_small by lia. now apply word_bits_nth.
  - rewrite app_nth2 by (rewrite word_bits_length; lia). rewrite word_bits_length.
    rewrite IH by (cbn [length] in H; lia).
    pose proof (Nat.div_add (i - 32) 1 32 ltac:(lia)) as D. pose proof (Nat.mod_add (i - 32) 1 32 ltac:(lia)) as M.
    replace ((i - 32) + 1 * 32)%nat with i in D, M by lia. rewrite D, M, Nat.add_1_r. reflexivity.
Qed.
Lemma words_bits_length (ws : list Z) : length (concat (map word_bits ws)) = (32 * length ws)%nat.
Proof. induction ws as [|w ws IH]; [reflexivity|]. cbn [map concat length]. rewrite app_length, word_bits_length, IH. lia. Qed.

(** One element never comes back as a list. *)
Definition not_list (r : res gval) : Prop := forall vs, r <> Ok (GList vs).
Lemma read_value_not_list t r : not_list (let* (v, _) := read_value t r in Ok v).
Proof.
  intros vs. unfold read_value, read_int.
  repeat (destruct (t =? _); [cbn [bind]; try discriminate; destruct (rd _ r) as [[? ?]| | |]; cbn [bind]; discriminate|]).
  discriminate.
Qed.
Lemma decode_one_not_list i dtype t d : not_list (decode_read i dtype 1 t d).
Proof.
  intros vs. unfold decode_read. change (1 =? 1) with true. cbn iota.
  destruct (t =? T_struct).
  - destruct (dtype =? T_string); destruct (rd _ d) as [[? ?]| | |]; cbn [bind]; try discriminate.
    destruct (rd _ _) as [[? ?]| | |]; cbn [bind]; discriminate.
  - destruct (_ && _ && _).
    + destruct (read_value t d) as [[v r]| | |]; cbn [bind]; try discriminate.
      destruct (get_bit _ _ _); cbn [bind]; discriminate.
    + apply read_value_not_list.
Qed.
Lemma read_one_not_list {S} (ctl : controller S) fuel c s otid q tg dtype :
  not_list (fst (fst (read_single fuel ctl c s otid q tg dtype 1))).
Proof.
  intro vs. unfold read_single. destruct (fst (new_ioi _ _ _)) as [i| | |]; try discriminate.
  unfold read_single_ioi. destruct (ctl s _) as [[[x p]| | |] s1]; try discriminate.
  destruct (parse_read_hdr p) as [h| | |]; try discriminate.
  destruct (rh_status h =? st_partial).
  - destruct (_ =? _); [discriminate|]. destruct (read_fragmented _ _ _ _ _ _ _ _) as [[[m| | |] s2] q2]; try discriminate.
    apply decode_one_not_list.
  - destruct (rh_status h =? 0); [|discriminate]. apply decode_one_not_list.
Qed.
