(** * Lemmas about class 1 I/O *)
From Verif Require Import GoBase IoiModel IoiProof ItemsModel ItemsSpec ItemsProof AttrModel AttrProof TableModel TableSpec TableProof PackTypes PackModel PackSpec PackProof PackRead ProvModel ProvProof SrvModel IoModel IoSpec.

(** ** Unpacking into a variable *)
Lemma bits_into_spec olds : forall r cnt bp acc, Forall is_vbool olds ->
  match unpack_bits (length olds) r cnt bp acc with
  | Ok (l, r', cnt', bp', acc') => bits_into olds r cnt bp acc = (l, Ok (r', cnt', bp', acc'))
  | Err e => exists l, bits_into olds r cnt bp acc = (l, Err e) /\ length l = length olds /\ Forall is_vbool l
  | _ => False
  end.
Proof.
  induction olds as [|o olds IH]; intros r cnt bp acc F; [reflexivity|]. inversion F as [|? ? F1 F2]; subst.
  cbn [length unpack_bits bits_into].
  destruct (match bp with
            | O => match r with [] => Err EEof | b :: r' => Ok ((b, cnt + 1), r') end
            | _ => Ok ((acc, cnt), r) end) as [[[x cnt1] r1]|e| |] eqn:E1.
  - cbn [bind fst snd].
    match goal with |- context [unpack_bits _ ?a ?b ?c ?d] => specialize (IH a b c d F2); destruct (unpack_bits (length olds) a b c d) as [[[[[l r2] cnt2] bp2] acc2]|e| |] end; cbn [bind]; try contradiction.
    + rewrite IH. reflexivity.
    + destruct IH as (l & -> & L & Fl). eexists. split; [reflexivity|]. split; [cbn [length]; lia|]. constructor; [now eexists|exact Fl].
  - cbn [bind]. exists (o :: olds). split; [reflexivity|]. split; [reflexivity|]. now constructor.
  - destruct bp; [destruct r|]; discriminate.
  - destruct bp; [destruct r|]; discriminate.
Qed.

Lemma bit_field_type np t : bit_field np t = true -> match t with TBool => True | TArr _ TBool => True | _ => False end.
Proof. unfold bit_field. intros H. destruct np; [discriminate|]. cbn in H. destruct t; try discriminate; auto. destruct t; try discriminate; auto. Qed.
Lemma old_bits t o : match t with TBool => True | TArr _ TBool => True | _ => False end -> has_type t o ->
  Forall is_vbool match o with VArr l => l | _ => [o] end /\ length match o with VArr l => l | _ => [o] end = match t with TArr n _ => n | _ => 1%nat end.
Proof.
  intros H T. destruct t; try contradiction.
  - destruct o; try contradiction. split; [repeat constructor; now eexists|reflexivity].
  - destruct t; try contradiction. destruct o; try contradiction. cbn [has_type] in T. destruct T as [L F]. split; [|exact L].
    eapply Forall_impl; [|exact F]. intros x Hx. destruct x; try contradiction. now eexists.
Qed.
Lemma unpack_into_spec :
  (forall t old r, match t with TStruct _ _ => True | _ => False end -> go_type t -> has_type t old -> bytes_ok r ->
     match unpack t r with
     | Ok (v, n, rest) => unpack_into t old r = (v, Ok (n, rest))
     | Err e => exists v, unpack_into t old r = (v, Err e) /\ has_type t v
     | _ => False
     end) /\
  (forall fs olds r cnt bp acc, go_fields fs -> fields_have fs olds -> bytes_ok r ->
     match unpack_fields fs r cnt bp acc with
     | Ok ((vs, n), rest) => fields_into fs olds r cnt bp acc = (vs, Ok (n, rest))
     | Err e => exists vs, fields_into fs olds r cnt bp acc = (vs, Err e) /\ fields_have fs vs
     | _ => False
     end).
Proof.
  apply gty_mut; try (intros; contradiction).
  - intros name fs IH old r _ G H B. destruct old; try contradiction. cbn [unpack unpack_into].
    specialize (IH vs r 0 0%nat 0 G H B). destruct (unpack_fields fs r 0 0 0) as [[[vs1 n] rest]|e| |]; cbn [bind fst snd]; try contradiction.
    + rewrite IH. reflexivity.
    + destruct IH as (vs1 & -> & H1). eexists. split; [reflexivity|exact H1].
  - intros olds r cnt bp acc _ H B. destruct olds; [|contradiction]. reflexivity.
  - intros np t IHt fs IHf olds r cnt bp acc [Gt Gf] H B. destruct olds as [|o os]; [contradiction|]. destruct H as [H1 H2].
    cbn [unpack_fields fields_into]. destruct (bit_field np t) eqn:Eb.
    + pose proof (bit_field_type _ _ Eb) as Bt. destruct (old_bits t o Bt H1) as [F L]. rewrite <- L.
      pose proof (bits_into_spec _ r cnt bp acc F) as S.
      destruct (unpack_bits _ r cnt bp acc) as [[[[[l r1] cnt1] bp1] acc1]|e| |] eqn:E1; cbn [bind]; try contradiction.
      * rewrite S. destruct (bits_ok _ _ _ _ _ _ _ _ _ _ B E1) as (A1 & A2 & A3).
        specialize (IHf os r1 cnt1 bp1 acc1 Gf H2 A1). destruct (unpack_fields fs r1 cnt1 bp1 acc1) as [[[vs1 n] rest]|e| |]; cbn [bind fst snd]; try contradiction.
        -- rewrite IHf. reflexivity.
        -- destruct IHf as (vs1 & -> & Hv). eexists. split; [reflexivity|]. split; [|exact Hv]. apply bits_typed; [exact Bt|congruence|exact A3].
      * destruct S as (l & -> & Ll & Fl). eexists. split; [reflexivity|]. split; [|exact H2]. apply bits_typed; [exact Bt|congruence|exact Fl].
    + destruct (read_some (pad_len cnt (cip_align t)) r) as [r1|e| |] eqn:Er; cbn [bind].
      2: { eexists. split; [reflexivity|]. now split. }
      2,3: destruct (pad_len _ _); [discriminate|]; destruct r; discriminate.
      pose proof (read_some_ok _ _ _ B Er) as B1.
      assert (V : match (match t with
          | TStruct _ _ => let* (y, r2) := unpack t r1 in Ok (y, r2)
          | _ => let* (v0, r2) := raw_read t r1 in Ok (v0, go_size t, r2)
          end) with
          | Ok ((v, n), r2) => (match t with
              | TStruct _ _ => unpack_into t o r1
              | _ => match raw_read t r1 with
                     | Ok (v, r2) => (v, Ok (go_size t, r2))
                     | Err e => (o, Err e)
                     | Panic => (o, Panic)
                     | OutOfFuel => (o, OutOfFuel)
                     end
              end) = (v, Ok (n, r2)) /\ has_type t v /\ bytes_ok r2
          | Err e => exists v, (match t with
              | TStruct _ _ => unpack_into t o r1
              | _ => match raw_read t r1 with
                     | Ok (v, r2) => (v, Ok (go_size t, r2))
                     | Err e => (o, Err e)
                     | Panic => (o, Panic)
                     | OutOfFuel => (o, OutOfFuel)
                     end
              end) = (v, Err e) /\ has_type t v
          | _ => False
          end).
      { clear IHf. destruct t;
          try (match goal with |- context [raw_read ?w ?x] => destruct (raw_read w x) as [[d r3]|e| |] eqn:Erd end; cbn [bind];
               [split; [reflexivity|]; exact (raw_read_typed _ _ _ _ Gt B1 Erd)|eexists; split; [reflexivity|exact H1]|
                unfold raw_read in Erd; match type of Erd with context [rd ?w ?x] => destruct (rd w x) as [[? ?]| | |] eqn:E9 end; try discriminate; destruct (rd_no_panic _ _ E9)|
                unfold raw_read in Erd; match type of Erd with context [rd ?w ?x] => destruct (rd w x) as [[? ?]| | |] eqn:E9 end; try discriminate; destruct (rd_no_fuel _ _ E9)]).
        specialize (IHt o r1 I Gt H1 B1). destruct (unpack _ r1) as [[[v n] r2]|e| |] eqn:Eu; cbn [bind]; try contradiction.
        - split; [exact IHt|]. exact (proj1 unpack_typed _ _ _ _ _ Gt B1 Eu).
        - exact IHt. }
      destruct (match t with
          | TStruct _ _ => let* (y, r2) := unpack t r1 in Ok (y, r2)
          | _ => let* (v0, r2) := raw_read t r1 in Ok (v0, go_size t, r2)
          end) as [[[v n] r2]|e| |] eqn:Ev; cbn [bind fst snd]; try contradiction.
      * destruct V as (-> & Hv & B2).
        specialize (IHf os r2 (cnt + Z.of_nat (pad_len cnt (cip_align t)) + n) 0%nat acc Gf H2 B2).
        destruct (unpack_fields fs r2 _ 0 acc) as [[[vs1 n1] rest]|e| |]; cbn [bind fst snd]; try contradiction.
        -- rewrite IHf. reflexivity.
        -- destruct IHf as (vs1 & -> & Hv1). eexists. split; [reflexivity|]. now split.
      * destruct V as (v & -> & Hv). eexists. split; [reflexivity|]. now split.
Qed.

(** ** Items of a datagram *)
Lemma mk_cursor x : cursor_ok (mk x).
Proof. unfold cursor_ok. change (it_pos (mk x)) with 0. change (it_data (mk x)) with (snd x). pose proof (len_nonneg (snd x)). lia. Qed.
Lemma mk_unread x : unread (mk x) = snd x.
Proof. reflexivity. Qed.
Lemma mk_id x : it_id (mk x) = fst x.
Proof. reflexivity. Qed.
Lemma mk_len x : len (snd x) < 2 ^ 16 -> it_len (mk x) = len (snd x).
Proof. intros H. unfold mk, new_item, item_write, item_empty. cbn [it_len app it_data]. apply Z.mod_small. pose proof (len_nonneg (snd x)). lia. Qed.
Lemma item_des_short it w : cursor_ok it -> (0 < w)%nat -> (length (unread it) < w)%nat -> exists e it', item_des w it = (Err e, it').
Proof.
  intros H H0 Hw. unfold item_des. destruct w as [|w]; [lia|].
  destruct (Z.leb_spec (len (it_data it)) (it_pos it)); [now eexists; eexists|].
  rewrite slice_from_ok by exact H. destruct (Nat.leb_spec (S w) (length (unread it))); [lia|]. now eexists; eexists.
Qed.
Lemma payload_cases a id d : bytes_ok d -> len d < 2 ^ 16 ->
  match io_payload [a; mk (id, d)] with
  | Ok p => id = item_conndata /\ 6 <= len d /\ p = skipn 6 d
  | Err _ => id <> item_conndata \/ len d < 6
  | _ => False
  end.
Proof.
  intros B L. unfold io_payload. rewrite mk_id. cbn [fst]. destruct (Z.eqb_spec id item_conndata) as [->|N]; cbn [negb]; [|now left].
  set (x := (item_conndata, d)). pose proof (mk_cursor x) as C. pose proof (mk_unread x) as U. cbn [snd] in U. change (snd x) with d in U.
  destruct (Z.lt_ge_cases (len d) 4) as [Lt|Ge].
  { destruct (item_des_short (mk x) 4 C) as (e & it' & E); [lia|rewrite U; unfold len in Lt; lia|]. rewrite E. cbn [bind]. right. lia. }
  rewrite item_des_fits by (try exact C; rewrite ?U; unfold len in Ge; lia). cbn [bind].
  destruct (unread_advance (mk x) 4 C) as [C1 U1]; [rewrite U; unfold len in Ge; lia|]. rewrite U in U1.
  set (it1 := item_at (mk x) _) in *.
  destruct (Z.lt_ge_cases (len d) 6) as [Lt|Ge6].
  { destruct (item_des_short it1 2 C1) as (e & it' & E); [lia|rewrite U1, skipn_length; unfold len in Lt; lia|]. rewrite E. cbn [bind]. now right. }
  rewrite item_des_fits by (try exact C1; rewrite ?U1, ?skipn_length; unfold len in Ge6; lia). cbn [bind].
  destruct (unread_advance it1 2 C1) as [C2 U2]; [rewrite U1, skipn_length; unfold len in Ge6; lia|]. rewrite U1, skipn_skipn in U2. change (4 + 2)%nat with 6%nat in U2.
  set (it2 := item_at it1 _) in *.
  assert (Ln : it_len it2 = len d) by (unfold it2, it1; cbn [item_at it_len]; apply (mk_len x); exact L).
  rewrite Ln. rewrite Z.mod_small by (change 65536 with (2 ^ 16); lia).
  assert (Lu : length (unread it2) = Z.to_nat (len d - 6)) by (rewrite U2, skipn_length; unfold len; lia).
  destruct (Z.to_nat (len d - 6)) as [|w] eqn:Ew.
  - cbn [item_des fst]. split; [reflexivity|]. split; [lia|]. rewrite <- U2. symmetry. now apply length_zero_iff_nil.
  - rewrite item_des_fits by (try exact C2; lia). cbn [fst]. split; [reflexivity|]. split; [lia|].
    rewrite firstn_all2 by lia. exact U2.
Qed.

Lemma io_write_ok e a id d : endpoint_ok e -> bytes_ok d -> len d < 2 ^ 16 ->
  let '(e', x) := io_write e [a; mk (id, d)] in
  endpoint_ok e' /\ same_in e e' /\ match x with Panic | OutOfFuel => False | _ => True end.
Proof.
  intros H B L. pose proof (payload_cases a id d B L) as P. unfold io_write. destruct e as [|tin tout vin vout|tin tout vin chs].
  - split; [exact I|]. split; exact I.
  - cbn [endpoint_ok] in H. destruct H as (H1 & H2 & H3 & H4). destruct (io_payload _) as [p|er| |]; try contradiction.
    2: { split; [cbn [endpoint_ok]; tauto|]. split; [cbn; tauto|exact I]. }
    destruct P as (_ & _ & ->). unfold struct_type in H2. destruct tout; try contradiction.
    assert (Bs : bytes_ok (skipn 6 d)) by (rewrite <- (firstn_skipn 6 d) in B; now apply bytes_ok_app in B).
    pose proof (proj1 unpack_into_spec (TStruct name fs) vout (skipn 6 d) I H2 H4 Bs) as S.
    destruct (unpack _ _) as [[[v n] rest]|er| |] eqn:E; try contradiction.
    + rewrite S. split; [|split; [cbn; tauto|exact I]]. cbn [endpoint_ok]. split; [exact H1|]. split; [exact H2|]. split; [exact H3|].
      exact (proj1 (proj1 unpack_typed _ _ _ _ _ H2 Bs E)).
    + destruct S as (v & -> & Hv). split; [|split; [cbn; tauto|exact I]]. cbn [endpoint_ok]. tauto.
  - cbn [endpoint_ok] in H. destruct H as (H1 & H2 & H3 & H4). destruct (io_payload _) as [p|er| |]; try contradiction; cbn [bind].
    2: { split; [cbn [endpoint_ok]; tauto|]. split; [cbn; tauto|exact I]. }
    destruct P as (_ & _ & ->). unfold struct_type in H2. destruct tout; try contradiction.
    assert (Bs : bytes_ok (skipn 6 d)) by (rewrite <- (firstn_skipn 6 d) in B; now apply bytes_ok_app in B).
    destruct (unpack _ _) as [[[v n] rest]|er| |] eqn:E.
    + pose proof (proj1 (proj1 unpack_typed _ _ _ _ _ H2 Bs E)) as Tv.
      assert (S : Forall (fun c => Forall (has_type (TStruct name fs)) (ch_got c)) (fst (send_all v chs)) /\ match snd (send_all v chs) with Panic | OutOfFuel => False | _ => True end).
      { clear - H4 Tv. induction chs as [|c r IH]; [split; [constructor|exact I]|]. inversion H4; subst. cbn [send_all]. destruct (ch_waiting c); [now split|].
        destruct (send_all v r) as [r1 x]. cbn [fst snd] in *. destruct (IH H2) as [I1 I2]. split; [|exact I2]. constructor; [|exact I1]. cbn [ch_got]. apply Forall_app. split; [assumption|]. constructor; [exact Tv|constructor]. }
      destruct (send_all v chs) as [chs1 x]. cbn [fst snd] in S. destruct S as [S1 S2]. split; [cbn [endpoint_ok]; tauto|]. split; [cbn; tauto|]. destruct x; auto.
    + split; [cbn [endpoint_ok]; tauto|]. split; [cbn; tauto|exact I].
    + exfalso. destruct (proj1 unpack_safe (TStruct name fs) (skipn 6 d) I) as [[x Ex]|[x Ex]]; rewrite Ex in E; discriminate.
    + exfalso. destruct (proj1 unpack_safe (TStruct name fs) (skipn 6 d) I) as [[x Ex]|[x Ex]]; rewrite Ex in E; discriminate.
Qed.

Lemma udp_items_cases d : bytes_ok d ->
  match udp_items d with
  | Ok its => exists id0 d0 id1 d1 rest, its = [mk (id0, d0); mk (id1, d1)] /\ fits [(id0, d0); (id1, d1)] /\ bytes_ok d0 /\ bytes_ok d1 /\
      len d < 4096 /\ d ++ zeros (4096 - length d) = wire_list [(id0, d0); (id1, d1)] ++ rest
  | Err _ => True
  | _ => False
  end.
Proof.
  intros B. unfold udp_items. destruct (len d =? 0) eqn:E0; cbn [orb]; [exact I|]. destruct (4096 <=? len d) eqn:E1; [exact I|].
  assert (B2 : bytes_ok (d ++ zeros (4096 - length d))) by (apply bytes_ok_app; split; [exact B|apply bytes_ok_zeros]).
  pose proof (C11_lemma _ B2) as C. destruct (read_items _) as [[its rest]|e| |] eqn:E; try contradiction; cbn [bind]; [|exact I].
  destruct (Z.eqb_spec (len its) 2) as [E2|]; cbn [negb]; [|exact I].
  destruct (read_items_sound _ _ _ B2 E) as [W F]. rewrite W, (read_items_wire _ _ F) in E. injection E as E.
  destruct its as [|i0 [|i1 [|? its]]]; try (exfalso; unfold len in E2; cbn [length] in E2; lia).
  cbn [contents map] in *. rewrite <- E.
  exists (it_id i0), (it_data i0), (it_id i1), (it_data i1), rest. split; [reflexivity|]. split; [exact F|].
  rewrite W in B2. apply bytes_ok_app in B2 as [B2 _]. unfold wire_list in B2. cbn [map concat wire_item fst snd] in B2. unfold wire_item in B2. cbn [fst snd] in B2.
  rewrite !bytes_ok_app in B2. split; [tauto|]. split; [tauto|]. split; [lia|exact W].
Qed.

Lemma target_cases s id0 d0 x : TableProof.good (sv_cm s) -> bytes_ok d0 ->
  match udp_target s [mk (id0, d0); x] with
  | Ok i => id0 = 0x8002 /\ 8 <= len d0 /\
      exists a c, nth_error (cm_heap (sv_cm s)) a = Some c /\ sc_open c = true /\ sc_ot c = unle (firstn 4 d0) /\ lookup (sc_path c) (sv_router s) = Some i
  | Err _ => True
  | _ => False
  end.
Proof.
  intros G B. unfold udp_target. cbn [nth]. rewrite mk_id. cbn [fst]. destruct (Z.eqb_spec id0 item_seqaddr) as [->|]; cbn [negb]; [|exact I].
  pose proof (mk_cursor (item_seqaddr, d0)) as C. pose proof (mk_unread (item_seqaddr, d0)) as U. cbn [snd] in U.
  destruct (Z.lt_ge_cases (len d0) 8) as [Lt|Ge].
  { destruct (item_des_short (mk (item_seqaddr, d0)) 8 C) as (e & it' & E); [lia|rewrite U; unfold len in Lt; lia|]. rewrite E. exact I. }
  rewrite item_des_fits by (try exact C; rewrite ?U; unfold len in Ge; lia). cbn [fst bind]. rewrite U, firstn_firstn. change (Nat.min 4 8) with 4%nat.
  unfold conn_by_ot. pose proof (get_live (sv_cm s) (KeyOT (unle (firstn 4 d0))) G) as L. unfold conn_get.
  destruct (find_conn _ _ _ 0) as [[j a]|]; cbn [bind]; [|exact I]. destruct L as (c & Hn & Ho & Hk). rewrite (conn_at_nth _ _ _ Hn).
  unfold resolve. destruct (lookup (sc_path c) (sv_router s)) as [i|] eqn:El; [|exact I].
  split; [reflexivity|]. split; [exact Ge|]. exists a, c. cbn in Hk. auto.
Qed.
Lemma target_hit s d0 x i a c : TableProof.good (sv_cm s) -> 8 <= len d0 ->
  nth_error (cm_heap (sv_cm s)) a = Some c -> sc_open c = true -> sc_ot c = unle (firstn 4 d0) ->
  (forall b, live (cm_heap (sv_cm s)) (KeyOT (unle (firstn 4 d0))) b -> b = a) -> lookup (sc_path c) (sv_router s) = Some i ->
  udp_target s [mk (0x8002, d0); x] = Ok i.
Proof.
  intros G Ge Hn Ho Hk Hu El. unfold udp_target. cbn [nth]. rewrite mk_id. cbn [fst]. change (32770 =? item_seqaddr) with true. cbn [negb].
  pose proof (mk_cursor (0x8002, d0)) as C. pose proof (mk_unread (0x8002, d0)) as U. cbn [snd] in U.
  rewrite item_des_fits by (try exact C; rewrite ?U; unfold len in Ge; lia). cbn [fst bind]. rewrite U, firstn_firstn. change (Nat.min 4 8) with 4%nat.
  unfold conn_by_ot. pose proof (get_live (sv_cm s) (KeyOT (unle (firstn 4 d0))) G) as L. unfold conn_get.
  destruct (find_conn _ _ _ 0) as [[j b]|]; cbn [bind].
  - rewrite (Hu b L), (conn_at_nth _ _ _ Hn). unfold resolve. rewrite El. reflexivity.
  - exfalso. apply (L a). exists c. auto.
Qed.

(** ** Opening and closing *)
Definition conf (s s' : server) : Prop := sv_router s' = sv_router s /\ sv_rand s' = sv_rand s.
Inductive opens (s : server) (x : res unit * world) : Prop :=
| op_none : conf s (w_srv (snd x)) -> sv_cm (w_srv (snd x)) = sv_cm s -> sv_io (w_srv (snd x)) = sv_io s -> opens s x
| op_one c : conf s (w_srv (snd x)) -> sc_open c = true -> sv_cm (w_srv (snd x)) = conn_add (sv_cm s) c -> sv_io (w_srv (snd x)) = sv_io s -> opens s x
| op_io c i : fst x = Ok tt -> conf s (w_srv (snd x)) -> sc_open c = true -> sv_cm (w_srv (snd x)) = conn_add (sv_cm s) c -> lookup (sc_path c) (sv_router s) = Some i ->
    sv_io (w_srv (snd x)) = sv_io s ++ [length (cm_heap (sv_cm s))] -> opens s x.
Lemma fwd_open_effect large d w : opens (w_srv w) (fwd_open large d w).
Proof.
  unfold fwd_open. unfold bindM at 1, lift at 1.
  destruct (rd _ d) as [[f r]| | |]; try (apply op_none; [split|..]; reflexivity).
  unfold bindM at 1, lift at 1. destruct (rd _ r) as [[fp r2]| | |]; try (apply op_none; [split|..]; reflexivity).
  destruct (len fp <? 2); [apply op_none; [split|..]; reflexivity|].
  assert (Dw : forall x w, exists y w', (if x =? 0 then draw else ret x) w = (Ok y, w') /\ conf (w_srv w) (w_srv w') /\ sv_cm (w_srv w') = sv_cm (w_srv w) /\ sv_io (w_srv w') = sv_io (w_srv w)).
  { intros x w0. destruct (x =? 0); eexists; eexists; (split; [reflexivity|]); repeat split. }
  unfold bindM at 1. match goal with |- context [(if ?x =? 0 then draw else ret ?x) w] => destruct (Dw x w) as (y1 & w1 & -> & [K1 K1r] & K2 & K3) end.
  unfold bindM at 1. match goal with |- context [(if ?x =? 0 then draw else ret ?x) w1] => destruct (Dw x w1) as (y2 & w2 & -> & [K4 K4r] & K5 & K6) end.
  unfold bindM at 1, put_h at 1. unfold bindM at 1, send at 1. unfold bindM at 1, ask at 1. unfold bindM at 1, put_srv at 1. cbn [w_srv w_h w_in w_sent].
  match goal with |- context [conn_add _ ?c0] => set (c := c0) end.
  set (P := firstn 2 fp) in *.
  destruct (negb large && _); [|apply (op_one _ _ c); cbn [snd w_srv set_cm sv_router sv_rand sv_cm sv_io]; unfold ret; cbn [snd w_srv set_cm sv_router sv_rand sv_cm sv_io]; [split; cbn; congruence|reflexivity|congruence|congruence]].
  unfold bindM at 1, ask at 1. unfold bindM at 1, lift at 1. cbn [w_srv]. unfold resolve. cbn [set_cm sv_router].
  destruct (lookup P _) as [i|] eqn:El.
  - destruct (_ =? 0).
    + apply (op_one _ _ c); unfold lift; cbn [snd w_srv set_cm sv_router sv_rand sv_cm sv_io]; [split; cbn; congruence|reflexivity|congruence|congruence].
    + apply (op_io _ _ c i); unfold put_srv; cbn [fst snd w_srv set_cm add_io sv_router sv_rand sv_cm sv_io]; [reflexivity|split; cbn; congruence|reflexivity|congruence| |congruence].
      change (sc_path c) with P. rewrite <- K1, <- K4. exact El.
  - apply (op_one _ _ c); cbn [snd w_srv set_cm sv_router sv_rand sv_cm sv_io]; [split; cbn; congruence|reflexivity|congruence|congruence].
Qed.
Inductive shuts (s s' : server) : Prop :=
| sh_none : s' = s -> shuts s s'
| sh_one k m : s' = set_cm m s -> conn_close (sv_cm s) k = (m, true) -> shuts s s'.
Lemma fwd_close_effect d w : shuts (w_srv w) (w_srv (snd (fwd_close d w))) /\ match fst (fwd_close d w) with Panic | OutOfFuel => False | _ => True end.
Proof.
  unfold fwd_close, bindM, lift, ask, put_srv, ret.
  destruct (rd 17 d) as [[f r]|e| |] eqn:E; [|split; [now apply sh_none|exact I]|destruct (rd_no_panic _ _ E)|destruct (rd_no_fuel _ _ E)].
  set (k := KeyID _). destruct (conn_close (sv_cm (w_srv w)) k) as [m ok] eqn:Ec.
  destruct ok; cbn [negb]; [|split; [now apply sh_none|exact I]].
  match goal with |- context [rd ?n r] => destruct (rd n r) as [[p r2]|e| |] eqn:E2 end; [| |destruct (rd_no_panic _ _ E2)|destruct (rd_no_fuel _ _ E2)];
    (split; [apply (sh_one _ _ k m); [reflexivity|exact Ec]|exact I]).
Qed.

(** ** What holds of every reachable state *)
Definition grows (h h' : list sconn) : Prop := forall a c, nth_error h a = Some c ->
  exists c', nth_error h' a = Some c' /\ sc_to c' = sc_to c /\ sc_ot c' = sc_ot c /\ sc_path c' = sc_path c /\ (sc_open c = false -> sc_open c' = false).
Definition numbered (to : Z) (tin : gty) (msgs : list bytes) : Prop := forall j m, nth_error msgs j = Some m ->
  exists v, has_type tin v /\ m = io_message to (Z.of_nat j + 1) (le 2 (Z.of_nat j + 1) ++ fst (pack tin v)).
Definition loop_ok (s : iosite) (l : ioloop) : Prop :=
  exists c, nth_error (made s) (lp_conn l) = Some c /\ lp_to l = sc_to c /\ routed s (sc_path c) (lp_end l) /\ (lp_run l = false -> sc_open c = false) /\
  match input_type (end_at s (lp_end l)) with
  | None => sent_for (lp_conn l) s = []
  | Some tin => (lp_run l = true -> lp_seq l = len (sent_for (lp_conn l) s) mod 2 ^ 32) /\ numbered (sc_to c) tin (sent_for (lp_conn l) s)
  end.
(** The provider as it was set up, with the input set last. *)
Definition input_now (i : nat) (evs : list ioevent) (e0 : endpoint) : endpoint :=
  match input_value e0 with Some v => set_in (last_set i evs v) e0 | None => e0 end.
Record inv (s0 : iosite) (evs : list ioevent) (s : iosite) : Prop := Inv {
  iv_good : TableProof.good (sv_cm (is_srv s));
  iv_router : sv_router (is_srv s) = sv_router (is_srv s0);
  iv_len : length (is_ends s) = length (is_ends s0);
  iv_ok : Forall endpoint_ok (is_ends s);
  iv_types : forall i, input_type (end_at s i) = input_type (end_at s0 i);
  iv_ends : is_down s = false -> forall i, same_in (input_now i evs (end_at s0 i)) (end_at s i);
  iv_io : map lp_conn (is_loops s) = sv_io (is_srv s);
  iv_nodup : NoDup (sv_io (is_srv s));
  iv_loops : Forall (loop_ok s) (is_loops s);
  iv_sent : forall a, ~ In a (sv_io (is_srv s)) -> sent_for a s = [] }.

Lemma last_set_app i l1 : forall l2 v, last_set i (l1 ++ l2) v = last_set i l2 (last_set i l1 v).
Proof. induction l1 as [|ev l1 IH]; intros l2 v; [reflexivity|]. destruct ev; cbn [app last_set]; apply IH. Qed.
Lemma last_set_other i evs ev v : (forall x, ev <> EvSet i x) -> last_set i (evs ++ [ev]) v = last_set i evs v.
Proof.
  intros H. rewrite last_set_app. destruct ev; try reflexivity. cbn [last_set]. destruct (Nat.eqb_spec i0 i) as [->|]; [|reflexivity]. now destruct (H v0).
Qed.
Lemma input_now_other i evs ev e0 : (forall x, ev <> EvSet i x) -> input_now i (evs ++ [ev]) e0 = input_now i evs e0.
Proof. intros H. unfold input_now. destruct (input_value e0); [|reflexivity]. now rewrite last_set_other. Qed.
Lemma same_in_refl e : same_in e e.
Proof. destruct e; cbn; auto. Qed.
Lemma same_in_trans a b c : same_in a b -> same_in b c -> same_in a c.
Proof. destruct a, b, c; cbn; try tauto; intuition congruence. Qed.
Lemma set_in_self e v : input_value e = Some v -> set_in v e = e.
Proof. destruct e; cbn; intros H; try discriminate; injection H as ->; reflexivity. Qed.
Lemma grows_refl h : grows h h.
Proof. intros a c H. exists c. auto 6. Qed.
Lemma grows_add h x : grows h (h ++ [x]).
Proof. intros a c H. exists c. rewrite nth_error_app1 by (apply nth_error_Some; congruence). auto 6. Qed.
Lemma grows_close m k m' : TableProof.good m -> conn_close m k = (m', true) -> TableProof.good m' /\ grows (cm_heap m) (cm_heap m').
Proof.
  intros G E. pose proof (step_refines m (OpClose k) G) as [G' T]. cbn [cman_step] in G', T. rewrite E in G', T. cbn [fst snd] in G', T.
  split; [exact G'|]. inversion T; subst. match goal with H : closes _ _ _ |- _ => destruct H as (L & O & c & H1 & H2 & H3) end. intros b c' Hb.
  destruct (Nat.eq_dec b a) as [->|N].
  - assert (c' = c) by congruence; subst. eexists. split; [exact H3|]. cbn. auto.
  - exists c'. rewrite O by exact N. auto 6.
Qed.
Lemma good_add m c : TableProof.good m -> sc_open c = true -> TableProof.good (conn_add m c).
Proof.
  intros G O. destruct c as [id ot to rpi path o]; cbn in O; subst. exact (proj1 (step_refines m (OpAdd id ot to rpi path) G)).
Qed.

Lemma NoDup_app_one {A} (l : list A) x : NoDup l -> ~ In x l -> NoDup (l ++ [x]).
Proof.
  induction l as [|y l IH]; intros H N; cbn [app]; [constructor; [intros []|constructor]|]. inversion H; subst. constructor.
  - intros Hin. apply in_app_or in Hin as [Hin|[->|[]]]; [contradiction|]. apply N. now left.
  - apply IH; [assumption|]. intros Hin. apply N. now right.
Qed.
Lemma srv_inv s0 evs ev s srv' loops' down' :
  inv s0 evs s -> (forall i x, ev <> EvSet i x) ->
  TableProof.good (sv_cm srv') -> sv_router srv' = sv_router (is_srv s) -> grows (made s) (cm_heap (sv_cm srv')) ->
  (sv_io srv' = sv_io (is_srv s) /\ loops' = is_loops s \/
   exists c i, sv_io srv' = sv_io (is_srv s) ++ [length (made s)] /\ loops' = is_loops s ++ [IoLoop (length (made s)) (sc_to c) i 0 true] /\
     nth_error (cm_heap (sv_cm srv')) (length (made s)) = Some c /\ lookup (sc_path c) (sv_router (is_srv s)) = Some i) ->
  (down' = false -> is_down s = false) ->
  inv s0 (evs ++ [ev]) (IoSite srv' (is_ends s) loops' (is_sent s) down').
Proof.
  intros V N G R Gr D Dn. destruct V as [V1 V2 V3 V4 V4t V5 V6 V7 V8 V9].
  set (s' := IoSite srv' (is_ends s) loops' (is_sent s) down').
  assert (Fr : forall a, In a (sv_io (is_srv s)) -> (a < length (made s))%nat).
  { intros a Ha. rewrite <- V6 in Ha. apply in_map_iff in Ha as (l & <- & Hl). rewrite Forall_forall in V8. destruct (V8 l Hl) as (c & Hc & _).
    apply nth_error_Some. congruence. }
  assert (Old : forall l, loop_ok s l -> loop_ok s' l).
  { intros l (c & H1 & H2 & H3 & H4 & H5). destruct (Gr _ _ H1) as (c' & C1 & C2 & C3 & C4 & C5). exists c'. split; [exact C1|]. split; [congruence|].
    split; [unfold routed in *; cbn; rewrite R, C4; exact H3|]. split; [auto|]. change (end_at s' (lp_end l)) with (end_at s (lp_end l)). change (sent_for (lp_conn l) s') with (sent_for (lp_conn l) s).
    rewrite C2. exact H5. }
  constructor; cbn [s' is_srv is_ends is_loops is_sent is_down]; try assumption.
  - congruence.
  - intros Hd i. rewrite input_now_other by auto. exact (V5 (Dn Hd) i).
  - destruct D as [[-> ->]|(c & i & -> & -> & _)]; [exact V6|]. rewrite map_app, V6. reflexivity.
  - destruct D as [[-> _]|(c & i & -> & _)]; [exact V7|]. apply NoDup_app_one; [exact V7|]. intros Hin. apply Fr in Hin. lia.
  - destruct D as [[_ ->]|(c & i & _ & -> & Hn & Hl)].
    + eapply Forall_impl; [|exact V8]. exact Old.
    + apply Forall_app. split; [eapply Forall_impl; [|exact V8]; exact Old|]. constructor; [|constructor].
      exists c. cbn [lp_conn lp_to lp_end lp_run lp_seq]. split; [exact Hn|]. split; [reflexivity|]. split; [unfold routed; cbn; rewrite R; exact Hl|].
      split; [discriminate|]. change (sent_for (length (made s)) s') with (sent_for (length (made s)) s).
      rewrite V9 by (intros Hin; apply Fr in Hin; lia). destruct (input_type _); [|reflexivity]. split; [reflexivity|]. intros j m Hj. destruct j; discriminate.
  - intros a Ha. apply V9. intros Hin. apply Ha. destruct D as [[-> _]|(c & i & -> & _)]; [exact Hin|]. apply in_or_app. now left.
Qed.
Lemma open_inv s0 evs large d s : inv s0 evs s -> is_down s = false -> inv s0 (evs ++ [EvOpen large d]) (io_step s (EvOpen large d)).
Proof.
  intros V Hd. unfold io_step. rewrite Hd. unfold with_srv. pose proof (fwd_open_effect large d (World (is_srv s) handler_new [] [])) as E. cbn [w_srv] in E.
  destruct (fwd_open large d _) as [r w]. destruct E as [[R _] C I|c [R _] O C I|c i Er [R _] O C L I]; cbn [fst snd] in *.
  - rewrite I, skipn_all.
    assert (X : forall dn, inv s0 (evs ++ [EvOpen large d]) (IoSite (w_srv w) (is_ends s) (is_loops s) (is_sent s) dn)).
    { intros dn. apply srv_inv; try assumption; try discriminate; try (rewrite C); [exact (iv_good _ _ _ V)|apply grows_refl|now left|auto]. }
    destruct r; apply X.
  - rewrite I, skipn_all.
    assert (X : forall dn, inv s0 (evs ++ [EvOpen large d]) (IoSite (w_srv w) (is_ends s) (is_loops s) (is_sent s) dn)).
    { intros dn. apply srv_inv; try assumption; try discriminate; try (rewrite C); [apply good_add; [exact (iv_good _ _ _ V)|exact O]|apply grows_add|now left|auto]. }
    destruct r; apply X.
  - subst r. rewrite I, skipn_app, skipn_all, Nat.sub_diag. cbn [skipn app].
    assert (Hn : nth_error (cm_heap (sv_cm (w_srv w))) (length (made s)) = Some c) by (rewrite C; cbn [conn_add cm_heap]; unfold made; rewrite nth_error_app2, Nat.sub_diag by lia; reflexivity).
    fold (made s) in I |- *. rewrite (conn_at_nth _ _ _ Hn). unfold resolve. rewrite R, L.
    apply srv_inv; try assumption; try discriminate; [rewrite C; apply good_add; [exact (iv_good _ _ _ V)|exact O]|rewrite C; apply grows_add| |auto].
    right. exists c, i. auto.
Qed.
Lemma close_inv s0 evs d s : inv s0 evs s -> is_down s = false -> inv s0 (evs ++ [EvClose d]) (io_step s (EvClose d)) /\ is_down (io_step s (EvClose d)) = false.
Proof.
  intros V Hd. unfold io_step. rewrite Hd. unfold with_srv. pose proof (fwd_close_effect d (World (is_srv s) handler_new [] [])) as [E P]. cbn [w_srv] in E.
  destruct (fwd_close d _) as [r w]. cbn [fst snd] in *.
  assert (I : sv_io (w_srv w) = sv_io (is_srv s)) by (destruct E as [->|k m -> _]; reflexivity).
  rewrite I, skipn_all.
  assert (X : inv s0 (evs ++ [EvClose d]) (IoSite (w_srv w) (is_ends s) (is_loops s) (is_sent s) (is_down s))).
  { destruct E as [->|k m -> Ec].
    - apply srv_inv; try assumption; try discriminate; [exact (iv_good _ _ _ V)|reflexivity|apply grows_refl|now left|auto].
    - destruct (grows_close _ _ _ (iv_good _ _ _ V) Ec) as [G Gr].
      apply srv_inv; try assumption; try discriminate; first [reflexivity|now left|auto]. }
  destruct r; try contradiction; (split; [exact X|exact Hd]).
Qed.

(** The endpoints change, nothing else. *)
Lemma end_at_ok s i : Forall endpoint_ok (is_ends s) -> endpoint_ok (end_at s i).
Proof.
  intros F. unfold end_at. destruct (nth_in_or_default i (is_ends s) EndTags) as [H| ->]; [|exact I]. rewrite Forall_forall in F. auto.
Qed.
Lemma end_at_set s i e j : end_at (set_end i e s) j = if (j =? i)%nat && (i <? length (is_ends s))%nat then e else end_at s j.
Proof.
  unfold end_at, set_end. cbn [is_ends]. destruct (Nat.eqb_spec j i) as [->|N]; cbn [andb].
  - destruct (Nat.ltb_spec i (length (is_ends s))); [now apply nth_setn_same|]. rewrite !nth_overflow; [reflexivity|lia|rewrite setn_length; lia].
  - pose proof (setn_other _ (is_ends s) i e j N) as E. destruct (nth_error (is_ends s) j) eqn:E1.
    + rewrite (nth_error_nth _ _ _ E). symmetry. now apply nth_error_nth.
    + apply nth_error_None in E, E1. rewrite !nth_overflow by assumption. reflexivity.
Qed.
Lemma setn_ok (P : endpoint -> Prop) l : forall i e, Forall P l -> P e -> Forall P (setn l i e).
Proof. induction l as [|x l IH]; intros [|i] e F H; cbn [setn]; inversion F; subst; constructor; auto. Qed.
Lemma same_in_type a b : same_in a b -> input_type b = input_type a /\ input_value b = input_value a.
Proof. destruct a, b; cbn; try tauto; intuition congruence. Qed.
Lemma end_inv s0 evs ev s i e : inv s0 evs s -> is_down s = false -> endpoint_ok e -> input_type e = input_type (end_at s i) ->
  (forall j, (j < length (is_ends s))%nat -> same_in (input_now j (evs ++ [ev]) (end_at s0 j)) (if (j =? i)%nat then e else end_at s j)) ->
  inv s0 (evs ++ [ev]) (set_end i e s).
Proof.
  intros V Hd Oe Te Hj. destruct V as [V1 V2 V3 V4 V4t V5 V6 V7 V8 V9].
  assert (Ty : forall j, input_type (end_at (set_end i e s) j) = input_type (end_at s j)).
  { intros j. rewrite end_at_set. destruct (Nat.eqb_spec j i) as [->|]; cbn [andb]; [|reflexivity]. destruct (_ <? _)%nat; [exact Te|reflexivity]. }
  constructor; try assumption.
  - cbn [set_end is_ends]. now rewrite setn_length.
  - cbn [set_end is_ends]. now apply setn_ok.
  - intros j. rewrite Ty. apply V4t.
  - intros _ j. destruct (Nat.lt_ge_cases j (length (is_ends s))) as [Lt|Ge].
    + pose proof (Hj j Lt) as Hx. rewrite end_at_set. destruct (j =? i)%nat eqn:Ej; cbn [andb]; [|exact Hx].
      apply Nat.eqb_eq in Ej. subst j. destruct (Nat.ltb_spec i (length (is_ends s))); [exact Hx|lia].
    + assert (E1 : end_at s0 j = EndTags) by (unfold end_at; apply nth_overflow; lia).
      assert (E2 : end_at (set_end i e s) j = EndTags) by (unfold end_at; apply nth_overflow; cbn [set_end is_ends]; rewrite setn_length; lia).
      rewrite E1, E2. exact I.
  - eapply Forall_impl; [|exact V8]. intros l (c & H1 & H2 & H3 & H4 & H5). exists c. split; [exact H1|]. split; [exact H2|]. split; [exact H3|]. split; [exact H4|].
    rewrite Ty. exact H5.
Qed.

Lemma keep_inv s0 evs ev s i e : inv s0 evs s -> is_down s = false -> (forall j x, ev <> EvSet j x) -> endpoint_ok e -> same_in (end_at s i) e ->
  inv s0 (evs ++ [ev]) (set_end i e s).
Proof.
  intros V Hd N Oe S. apply end_inv; [exact V|exact Hd|exact Oe|exact (proj1 (same_in_type _ _ S))|].
  intros j Hj. rewrite input_now_other by auto. pose proof (iv_ends _ _ _ V Hd j) as X. destruct (j =? i)%nat eqn:Ej; [|exact X].
  apply Nat.eqb_eq in Ej. subst j. exact (same_in_trans _ _ _ X S).
Qed.
Lemma same_inv s0 evs ev s : inv s0 evs s -> is_down s = false -> (forall j x, ev <> EvSet j x) -> inv s0 (evs ++ [ev]) s.
Proof.
  intros V Hd N. destruct V as [V1 V2 V3 V4 V4t V5 V6 V7 V8 V9]. constructor; try assumption. intros _ i. rewrite input_now_other by auto. auto.
Qed.
Lemma down_inv s0 evs ev s : inv s0 evs s -> is_down s = true -> inv s0 (evs ++ [ev]) s.
Proof. intros V Hd. destruct V as [V1 V2 V3 V4 V4t V5 V6 V7 V8 V9]. constructor; try assumption. intros H. congruence. Qed.

(** ** One datagram *)
Lemma firstn_repeat {A} (x : A) k : forall n, firstn k (repeat x n) = repeat x (Nat.min k n).
Proof. induction k as [|k IH]; intros [|n]; cbn [firstn repeat Nat.min]; try reflexivity. now rewrite IH. Qed.
Lemma address d id0 d0 id1 d1 rest : len d < 4096 -> fits [(id0, d0); (id1, d1)] -> 8 <= len d0 ->
  d ++ zeros (4096 - length d) = wire_list [(id0, d0); (id1, d1)] ++ rest -> unle (firstn 4 d0) = addressed d.
Proof.
  intros L F L0 W. unfold addressed. f_equal.
  assert (P : firstn 10 (d ++ zeros 10) = firstn 10 (d ++ zeros (4096 - length d))).
  { rewrite !firstn_app. f_equal. unfold len in L. unfold zeros. rewrite !firstn_repeat. f_equal. lia. }
  rewrite (firstn_skipn_comm 4 6 (d ++ zeros 10)). change (6 + 4)%nat with 10%nat. rewrite P, W.
  unfold wire_list, wire_item. cbn [map concat fst snd].
  change (le 2 (len [(id0, d0); (id1, d1)])) with (le 2 2). rewrite <- !app_assoc.
  set (l2 := le 2 (len d0)). assert (H2 : length l2 = 2%nat) by apply le_length.
  set (l1 := le 2 id0). assert (H1 : length l1 = 2%nat) by apply le_length.
  set (l0 := le 2 2). assert (H0 : length l0 = 2%nat) by apply le_length.
  rewrite (firstn_app 10 l0), H0. rewrite (firstn_all2 l0) by lia. cbn [Nat.sub].
  rewrite (firstn_app 8 l1), H1. rewrite (firstn_all2 l1) by lia. cbn [Nat.sub].
  rewrite (firstn_app 6 l2), H2. rewrite (firstn_all2 l2) by lia. cbn [Nat.sub].
  rewrite (firstn_app 4 d0). replace (4 - length d0)%nat with 0%nat by (unfold len in L0; lia). cbn [firstn]. rewrite app_nil_r.
  rewrite !app_assoc. rewrite skipn_app_exact by (rewrite !app_length; lia). reflexivity.
Qed.
Lemma datagram_cases s0 evs s d : inv s0 evs s -> bytes_ok d ->
  datagram s d = s \/
  exists a c i e', live (made s) (KeyOT (addressed d)) a /\ nth_error (made s) a = Some c /\ routed s (sc_path c) i /\
    endpoint_ok e' /\ same_in (end_at s i) e' /\ datagram s d = set_end i e' s /\
    exists id0 d0 id1 d1 rest, d ++ zeros (4096 - length d) = wire_list [(id0, d0); (id1, d1)] ++ rest /\ bytes_ok d1 /\ len d1 < 2 ^ 16 /\
      e' = fst (io_write (end_at s i) [mk (id0, d0); mk (id1, d1)]).
Proof.
  intros V B. unfold datagram. pose proof (udp_items_cases d B) as U. destruct (udp_items d) as [its|e| |]; try contradiction; cbn [bind]; [|now left].
  destruct U as (id0 & d0 & id1 & d1 & rest & -> & F & B0 & B1 & Ld & W).
  pose proof (target_cases (is_srv s) id0 d0 (mk (id1, d1)) (iv_good _ _ _ V) B0) as T.
  destruct (udp_target (is_srv s) _) as [i|e| |]; try contradiction; cbn [bind]; [|now left].
  destruct T as (-> & L8 & a & c & Hn & Ho & Hk & Hr). right.
  assert (L1 : len d1 < 2 ^ 16) by (destruct F as [_ F]; inversion F as [|? ? _ F2]; inversion F2; subst; cbn [snd] in *; tauto).
  pose proof (io_write_ok (end_at s i) (mk (0x8002, d0)) id1 d1 (end_at_ok s i (iv_ok _ _ _ V)) B1 L1) as X.
  destruct (io_write (end_at s i) _) as [e' x] eqn:Ew. destruct X as (X1 & X2 & X3).
  exists a, c, i, e'. rewrite <- (address d _ _ _ _ _ Ld F L8 W). split; [exists c; cbn; auto|]. split; [exact Hn|]. split; [exact Hr|]. split; [exact X1|]. split; [exact X2|].
  split; [destruct x; try contradiction; reflexivity|]. exists 0x8002, d0, id1, d1, rest. rewrite Ew. auto.
Qed.

(** ** One tick *)
Lemma io_frame_message to seq dat : io_frame to seq dat = io_message to seq (le 2 seq ++ dat).
Proof.
  unfold io_frame, serialize_items, io_message, wire_list.
  change (le 4 0 ++ le 2 0 ++ ?x) with (zeros 6 ++ x). rewrite skipn_app_exact by reflexivity.
  unfold item_bytes, item_write, item_empty, wire_item. cbn [map concat it_id it_len it_data app fst snd]. change 65536 with (256 ^ Z.of_nat 2). rewrite !le_mod. reflexivity.
Qed.
Lemma seq_le w n : (w <= 4)%nat -> le w ((n mod 2 ^ 32 + 1) mod 2 ^ 32) = le w (n + 1).
Proof.
  intros H. rewrite Zplus_mod_idemp_l. rewrite <- (le_mod w ((n + 1) mod _)), <- (le_mod w (n + 1)). f_equal.
  replace (2 ^ 32) with (256 ^ Z.of_nat w * 256 ^ (4 - Z.of_nat w)).
  - rewrite Z.rem_mul_r by (first [apply Z.pow_nonzero; lia|apply Z.pow_pos_nonneg; lia]).
    rewrite <- Zplus_mod_idemp_r, Z.mul_comm, Z_mod_mult, Z.add_0_r. apply Zmod_mod.
  - rewrite <- Z.pow_add_r by lia. replace (Z.of_nat w + (4 - Z.of_nat w)) with 4 by lia. reflexivity.
Qed.
Lemma message_seq to n dat : io_frame to ((n mod 2 ^ 32 + 1) mod 2 ^ 32) dat = io_message to (n + 1) (le 2 (n + 1) ++ dat).
Proof. rewrite io_frame_message. unfold io_message. rewrite !seq_le by lia. reflexivity. Qed.
Lemma tick_at_split s a ls :
  (~ In a (map lp_conn ls) /\ tick_at s a ls = (ls, [])) \/
  exists l1 l l2, ls = l1 ++ l :: l2 /\ lp_conn l = a /\ tick_at s a ls = if lp_run l then (l1 ++ fst (tick_loop s l) :: l2, snd (tick_loop s l)) else (ls, []).
Proof.
  induction ls as [|l ls IH]; [left; split; [intros []|reflexivity]|]. cbn [tick_at map]. destruct (Nat.eqb_spec (lp_conn l) a) as [E|N].
  - right. exists [], l, ls. split; [reflexivity|]. split; [exact E|]. cbn [app]. destruct (lp_run l); [|reflexivity]. now destruct (tick_loop s l).
  - destruct IH as [[H1 H2]|(l1 & x & l2 & -> & H2 & H3)].
    + left. split; [intros [E|E]; contradiction|]. now rewrite H2.
    + right. exists (l :: l1), x, l2. split; [reflexivity|]. split; [exact H2|]. rewrite H3. destruct (lp_run x); reflexivity.
Qed.
Lemma sent_for_app a s srv ends loops down out : sent_for a (IoSite srv ends loops (is_sent s ++ out) down) = sent_for a s ++ map snd (filter (fun x => fst x =? a)%nat out).
Proof. unfold sent_for. cbn [is_sent]. now rewrite filter_app, map_app. Qed.

Lemma tick_inv s0 evs s a : inv s0 evs s -> is_down s = false ->
  inv s0 (evs ++ [EvTick a]) (io_step s (EvTick a)) /\
  is_srv (io_step s (EvTick a)) = is_srv s /\ is_ends (io_step s (EvTick a)) = is_ends s /\ is_down (io_step s (EvTick a)) = false /\
  ((is_sent (io_step s (EvTick a)) = is_sent s /\
    forall c i, producing s a -> nth_error (made s) a = Some c -> sc_open c = true -> routed s (sc_path c) i -> input_type (end_at s i) = None) \/
   exists c i tin v, producing s a /\ nth_error (made s) a = Some c /\ sc_open c = true /\ routed s (sc_path c) i /\
     input_type (end_at s i) = Some tin /\ input_value (end_at s i) = Some v /\
     is_sent (io_step s (EvTick a)) = is_sent s ++ [(a, io_message (sc_to c) (len (sent_for a s) + 1) (le 2 (len (sent_for a s) + 1) ++ fst (pack tin v)))]).
Proof.
  intros V Hd. unfold io_step. rewrite Hd. destruct (tick_at_split s a (is_loops s)) as [[Hn ->]|(l1 & l & l2 & El & Ea & ->)].
  { split; [|split; [reflexivity|]; split; [reflexivity|]; split; [reflexivity|]; left; cbn [is_sent]; split; [apply app_nil_r|]].
    - rewrite app_nil_r. pose proof (same_inv s0 evs (EvTick a) s V Hd ltac:(discriminate)) as X. destruct s; cbn in *. subst. exact X.
    - intros c i P. exfalso. apply Hn. rewrite (iv_io _ _ _ V). exact P. }
  pose proof V as [V1 V2 V3 V4 V4t V5 V6 V7 V8 V9].
  assert (Lo : loop_ok s l) by (rewrite El in V8; apply Forall_app in V8 as [_ V8]; now inversion V8).
  destruct Lo as (c & H1 & H2 & H3 & H4 & H5). rewrite Ea in *.
  assert (Pa : producing s a) by (unfold producing; rewrite <- V6, El; apply in_map_iff; exists l; split; [exact Ea|apply in_or_app; right; now left]).
  destruct (lp_run l) eqn:Er.
  2: { split; [|split; [reflexivity|]; split; [reflexivity|]; split; [reflexivity|]; left; cbn [is_sent]; split; [apply app_nil_r|]].
    - rewrite app_nil_r. pose proof (same_inv s0 evs (EvTick a) s V Hd ltac:(discriminate)) as X. destruct s; cbn in *. subst. exact X.
    - intros c' i _ Hc Ho. rewrite H1 in Hc. injection Hc as <-. rewrite H4 in Ho by reflexivity. discriminate. }
  assert (Nd : ~ In a (map lp_conn l1) /\ ~ In a (map lp_conn l2)).
  { rewrite <- V6, El, map_app in V7. cbn [map] in V7. rewrite Ea in V7. apply NoDup_remove_2 in V7. split; intros Hin; apply V7, in_or_app; auto. }
  assert (Eo : forall e v, input_value e = Some v -> exists tin, input_type e = Some tin /\ io_read e = Ok (fst (pack tin v))).
  { intros e v Hv. destruct e; cbn in Hv |- *; try discriminate; injection Hv as ->; eexists; (split; [reflexivity|reflexivity]). }
  assert (Fo : forall s' m, is_srv s' = is_srv s -> is_ends s' = is_ends s -> (is_sent s' = is_sent s \/ is_sent s' = is_sent s ++ [(a, m)]) -> Forall (loop_ok s') (l1 ++ l2)).
  { intros s' m E1 E2 E3. rewrite El in V8. assert (F : Forall (loop_ok s) (l1 ++ l2)) by (apply Forall_app in V8 as [F1 F2]; inversion F2; apply Forall_app; now split).
    rewrite Forall_forall in F |- *. intros x Hx. destruct (F x Hx) as (cx & X1 & X2 & X3 & X4 & X5). exists cx. unfold made, routed, end_at in *. rewrite E1, E2.
    assert (Sx : sent_for (lp_conn x) s' = sent_for (lp_conn x) s).
    { unfold sent_for. destruct E3 as [->| ->]; [reflexivity|]. rewrite filter_app, map_app. cbn [filter fst].
      destruct (Nat.eqb_spec a (lp_conn x)) as [Eq|]; [|cbn; apply app_nil_r]. exfalso. apply in_app_or in Hx as [Hx|Hx]; [apply (proj1 Nd)|apply (proj2 Nd)]; rewrite Eq; now apply in_map. }
    rewrite Sx. auto. }
  unfold tick_loop. rewrite Ea. rewrite (conn_at_nth _ _ _ H1 : conn_at (cm_heap (sv_cm (is_srv s))) a = c).
  assert (Mk : forall l' out, lp_conn l' = a -> (out = [] \/ exists m, out = [(a, m)]) ->
     loop_ok (IoSite (is_srv s) (is_ends s) (l1 ++ l' :: l2) (is_sent s ++ out) false) l' ->
     inv s0 (evs ++ [EvTick a]) (IoSite (is_srv s) (is_ends s) (l1 ++ l' :: l2) (is_sent s ++ out) false)).
  { intros l' out El' Ho Hl'. constructor; cbn [is_srv is_ends is_loops is_sent is_down]; try assumption.
    - intros _ i. rewrite input_now_other by discriminate. exact (V5 Hd i).
    - rewrite <- V6, El, !map_app. cbn [map]. congruence.
    - assert (F : Forall (loop_ok (IoSite (is_srv s) (is_ends s) (l1 ++ l' :: l2) (is_sent s ++ out) false)) (l1 ++ l2)).
      { destruct Ho as [->|[m ->]]; [apply (Fo _ []); try reflexivity; left; apply app_nil_r|apply (Fo _ m); try reflexivity; now right]. }
      apply Forall_app in F as [F1 F2]. apply Forall_app. split; [exact F1|]. constructor; assumption.
    - intros b Hb. rewrite sent_for_app, (V9 b Hb). destruct Ho as [->|[m ->]]; [reflexivity|]. cbn [filter fst]. destruct (Nat.eqb_spec a b) as [->|]; [contradiction|reflexivity]. }
  destruct (sc_open c) eqn:Eopen; cbn [negb fst snd].
  2: { split; [|split; [reflexivity|]; split; [reflexivity|]; split; [reflexivity|]; left; cbn [is_sent]; split; [apply app_nil_r|]].
    - apply Mk; [reflexivity|now left|]. exists c. cbn [lp_conn lp_to lp_end lp_run lp_seq]. split; [exact H1|]. split; [exact H2|]. split; [exact H3|]. split; [auto|].
      rewrite sent_for_app. cbn [filter map]. rewrite (app_nil_r (sent_for a s)). change (end_at _ (lp_end l)) with (end_at s (lp_end l)). destruct (input_type _); [|exact H5]. split; [discriminate|]. exact (proj2 H5).
    - intros c' i _ Hc Ho. rewrite H1 in Hc. injection Hc as <-. congruence. }
  destruct (input_value (end_at s (lp_end l))) as [v|] eqn:Ev.
  - destruct (Eo _ _ Ev) as (tin & Et & Eio). rewrite Eio. cbn [fst snd]. rewrite Et in H5. destruct H5 as [Hs Hnum]. specialize (Hs eq_refl).
    rewrite Hs, H2, message_seq. set (m := io_message _ _ _).
    split; [|split; [reflexivity|]; split; [reflexivity|]; split; [reflexivity|]; right; exists c, (lp_end l), tin, v; auto 10].
    apply Mk; [reflexivity|right; now eexists|]. exists c. cbn [lp_conn lp_to lp_end lp_run lp_seq]. split; [exact H1|]. split; [reflexivity|]. split; [exact H3|]. split; [discriminate|].
    rewrite sent_for_app. cbn [filter fst]. rewrite Nat.eqb_refl. cbn [map snd]. change (end_at _ (lp_end l)) with (end_at s (lp_end l)). rewrite Et. split.
    + intros _. rewrite len_app, Zplus_mod_idemp_l. reflexivity.
    + intros j x Hj. destruct (Nat.lt_ge_cases j (length (sent_for a s))) as [Lt|Ge].
      * rewrite nth_error_app1 in Hj by exact Lt. auto.
      * rewrite nth_error_app2 in Hj by exact Ge. destruct (j - length (sent_for a s))%nat as [|k] eqn:Ek; [|destruct k; discriminate]. cbn in Hj. injection Hj as <-.
        assert (j = length (sent_for a s)) by lia. subst j. exists v. split; [|reflexivity].
        pose proof (end_at_ok s (lp_end l) V4) as Ok0. destruct (end_at s (lp_end l)); cbn in Ev, Et; try discriminate; injection Ev as ->; injection Et as ->; cbn [endpoint_ok] in Ok0; tauto.
  - assert (Et : input_type (end_at s (lp_end l)) = None) by (destruct (end_at s (lp_end l)); cbn in *; congruence).
    assert (Eio : io_read (end_at s (lp_end l)) = Err EMsg) by (destruct (end_at s (lp_end l)); cbn in *; congruence).
    rewrite Eio. cbn [fst snd]. rewrite Et in H5.
    split; [|split; [reflexivity|]; split; [reflexivity|]; split; [reflexivity|]; left; cbn [is_sent]; split; [apply app_nil_r|]].
    + apply Mk; [reflexivity|now left|]. exists c. cbn [lp_conn lp_to lp_end lp_run lp_seq]. split; [exact H1|]. split; [exact H2|]. split; [exact H3|]. split; [discriminate|].
      rewrite sent_for_app. cbn [filter map]. rewrite (app_nil_r (sent_for a s)). change (end_at _ (lp_end l)) with (end_at s (lp_end l)). rewrite Et. exact H5.
    + intros c' i _ Hc _ Hr. rewrite H1 in Hc. injection Hc as <-. unfold routed in *. rewrite H3 in Hr. injection Hr as <-. exact Et.
Qed.

(** ** Any event, any history *)
Lemma begin_inv s : begins s -> inv s [] s.
Proof.
  intros (H1 & H2 & H3 & H4 & H5 & H6 & H7). constructor; try reflexivity; try assumption.
  - rewrite H1. exact good_init.
  - intros _ i. unfold input_now. destruct (input_value _) eqn:E; [|apply same_in_refl]. cbn [last_set]. rewrite set_in_self by exact E. apply same_in_refl.
  - rewrite H2, H3. reflexivity.
  - rewrite H2. constructor.
  - rewrite H3. constructor.
  - intros a _. unfold sent_for. rewrite H4. reflexivity.
Qed.
Lemma io_step_down s ev : is_down s = true -> io_step s ev = s.
Proof. intros H. unfold io_step. now rewrite H. Qed.
Lemma add_channel_ok e : endpoint_ok e -> endpoint_ok (add_channel e) /\ same_in e (add_channel e).
Proof.
  destruct e; cbn; auto. intros (H1 & H2 & H3 & H4). split; [|auto]. split; [exact H1|]. split; [exact H2|]. split; [exact H3|].
  apply Forall_app. split; [exact H4|]. repeat constructor.
Qed.
Lemma setn_Forall {A} (P : A -> Prop) l : forall i e, Forall P l -> P e -> Forall P (setn l i e).
Proof. induction l as [|x l IH]; intros [|i] e F H; cbn [setn]; inversion F; subst; constructor; auto. Qed.
Lemma wait_at_ok j e : endpoint_ok e -> endpoint_ok (wait_at j e) /\ same_in e (wait_at j e).
Proof.
  destruct e; cbn [wait_at]; try (intros; split; [assumption|apply same_in_refl]). intros H. destruct (nth_error chs j) as [c|] eqn:E; [|split; [exact H|apply same_in_refl]].
  destruct H as (H1 & H2 & H3 & H4). split; [|cbn; auto]. split; [exact H1|]. split; [exact H2|]. split; [exact H3|].
  apply setn_Forall; [exact H4|]. cbn [ch_got]. apply nth_error_In in E. rewrite Forall_forall in H4. exact (H4 c E).
Qed.
Lemma datagram_inv s0 evs d s : inv s0 evs s -> is_down s = false -> bytes_ok d -> inv s0 (evs ++ [EvDatagram d]) (datagram s d) /\ rest_same s (datagram s d).
Proof.
  intros V Hd B. destruct (datagram_cases s0 evs s d V B) as [->|(a & c & i & e' & _ & _ & _ & E1 & E2 & -> & _)].
  - split; [apply same_inv; [assumption|assumption|discriminate]|]. repeat split.
  - split; [apply keep_inv; [assumption|assumption|discriminate|assumption|assumption]|]. repeat split.
Qed.
Lemma step_inv s0 evs ev s : inv s0 evs s -> allowed (is_ends s0) ev -> inv s0 (evs ++ [ev]) (io_step s ev).
Proof.
  intros V A. destruct (is_down s) eqn:Hd; [rewrite io_step_down by exact Hd; now apply down_inv|].
  destruct ev.
  - now apply open_inv.
  - now apply close_inv.
  - unfold io_step. rewrite Hd. apply same_inv; [assumption|assumption|discriminate].
  - unfold io_step. rewrite Hd. now apply datagram_inv.
  - now apply tick_inv.
  - unfold io_step. rewrite Hd. pose proof (end_at_ok s i (iv_ok _ _ _ V)) as Ok0.
    apply end_inv; [exact V|exact Hd| |destruct (end_at s i); reflexivity|].
    + pose proof (iv_types _ _ _ V i) as T. assert (Hv : forall t, input_type (end_at s i) = Some t -> has_type t v).
      { intros t Ht. rewrite T in Ht. cbn in A. destruct (nth_error (is_ends s0) i) as [e0|] eqn:E0.
        - apply (A e0 t eq_refl). unfold end_at in Ht. now rewrite (nth_error_nth _ _ _ E0) in Ht.
        - apply nth_error_None in E0. unfold end_at in Ht. rewrite nth_overflow in Ht by exact E0. discriminate. }
      destruct (end_at s i); cbn [set_in endpoint_ok] in *; auto; destruct Ok0 as (A1 & A2 & A3 & A4); (split; [exact A1|]; split; [exact A2|]; split; [now apply Hv|exact A4]).
    + intros j Hj. pose proof (iv_ends _ _ _ V Hd j) as X. unfold input_now in *. destruct (input_value (end_at s0 j)) as [v0|] eqn:E0.
      * rewrite last_set_app. cbn [last_set]. destruct (Nat.eqb_spec j i) as [->|N].
        -- rewrite Nat.eqb_refl. destruct (end_at s0 i), (end_at s i); cbn in X |- *; tauto.
        -- destruct (Nat.eqb_spec i j) as [->|]; [contradiction|exact X].
      * destruct (Nat.eqb_spec j i) as [->|N]; [|exact X]. destruct (end_at s0 i), (end_at s i); cbn in X, E0 |- *; try discriminate; tauto.
  - unfold io_step. rewrite Hd. destruct (add_channel_ok _ (end_at_ok s i (iv_ok _ _ _ V))). apply keep_inv; try assumption. discriminate.
  - unfold io_step. rewrite Hd. destruct (wait_at_ok j _ (end_at_ok s i (iv_ok _ _ _ V))). apply keep_inv; try assumption. discriminate.
Qed.
Lemma io_run_app s l1 l2 : io_run s (l1 ++ l2) = io_run (io_run s l1) l2.
Proof. apply fold_left_app. Qed.
Lemma reached_inv s0 evs s : reached s0 evs s -> inv s0 evs s.
Proof.
  intros (Bg & Al & ->). revert Al. induction evs as [|ev evs IH] using rev_ind; intros Al; [now apply begin_inv|].
  apply Forall_app in Al as [A1 A2]. inversion A2; subst. rewrite io_run_app. apply step_inv; [now apply IH|assumption].
Qed.
Lemma reached_step s0 evs s ev : reached s0 evs s -> allowed (is_ends s0) ev -> reached s0 (evs ++ [ev]) (io_step s ev).
Proof.
  intros (Bg & Al & ->) A. split; [exact Bg|]. split; [apply Forall_app; split; [exact Al|constructor; [exact A|constructor]]|]. now rewrite io_run_app.
Qed.
Lemma step_grows s0 evs s ev : inv s0 evs s -> bytes_ok (match ev with EvDatagram d => d | _ => [] end) -> grows (made s) (made (io_step s ev)).
Proof.
  intros V B. destruct (is_down s) eqn:Hd; [rewrite io_step_down by exact Hd; apply grows_refl|].
  unfold io_step. rewrite Hd. destruct ev; try apply grows_refl.
  - pose proof (fwd_open_effect large d (World (is_srv s) handler_new [] [])) as E. cbn [w_srv] in E. unfold with_srv.
    destruct (fwd_open large d _) as [r w]. cbn [fst snd] in E.
    assert (G : grows (made s) (cm_heap (sv_cm (w_srv w)))) by (destruct E as [_ C _|c _ _ C _|c i _ _ _ C _ _]; cbn [snd] in C; rewrite C; [apply grows_refl|apply grows_add|apply grows_add]).
    destruct r; try exact G. destruct (skipn _ _); [exact G|]. destruct (resolve _ _); exact G.
  - pose proof (fwd_close_effect d (World (is_srv s) handler_new [] [])) as [E P]. cbn [w_srv] in E. unfold with_srv.
    destruct (fwd_close d _) as [r w]. cbn [fst snd] in E.
    assert (G : grows (made s) (cm_heap (sv_cm (w_srv w)))).
    { destruct E as [->|k m -> Ec]; [apply grows_refl|]. exact (proj2 (grows_close _ _ _ (iv_good _ _ _ V) Ec)). }
    destruct r; try exact G. destruct (skipn _ _); [exact G|]. destruct (resolve _ _); exact G.
  - destruct (datagram_inv s0 evs d s V Hd B) as [_ (E & _)]. unfold made. rewrite E. apply grows_refl.
  - destruct (tick_at s a (is_loops s)) as [ls out]. apply grows_refl.
Qed.
Lemma sent_step s0 evs s ev : inv s0 evs s -> bytes_ok (match ev with EvDatagram d => d | _ => [] end) -> (forall a, ev <> EvTick a) -> is_sent (io_step s ev) = is_sent s.
Proof.
  intros V B N. destruct (is_down s) eqn:Hd; [now rewrite io_step_down by exact Hd|]. unfold io_step. rewrite Hd. destruct ev; try reflexivity; unfold with_srv.
  - destruct (fwd_open large d _) as [r w]. destruct r; try reflexivity. destruct (skipn _ _); [reflexivity|]. destruct (resolve _ _); reflexivity.
  - destruct (fwd_close d _) as [r w]. destruct r; try reflexivity. destruct (skipn _ _); [reflexivity|]. destruct (resolve _ _); reflexivity.
  - destruct (datagram_inv s0 evs d s V Hd B) as [_ (_ & _ & E & _)]. exact E.
  - now destruct (N a).
Qed.

(** ** A message that arrives *)
Lemma deliver s0 evs s ot seq data a c i : inv s0 evs s -> is_down s = false -> 0 <= ot < 2 ^ 32 -> bytes_ok data -> len (io_message ot seq data) < 4096 ->
  only s ot a -> nth_error (made s) a = Some c -> routed s (sc_path c) i ->
  datagram s (io_message ot seq data) = set_end i (fst (io_write (end_at s i) [mk (0x8002, le 4 ot ++ le 4 seq); mk (0xB1, data)])) s /\ len data < 2 ^ 16.
Proof.
  intros V Hd Ro B L [(c' & H1 & H2 & H3) U] H4 R. assert (c' = c) by (unfold made in *; congruence). subst c'.
  assert (Lm : len (io_message ot seq data) = 18 + len data).
  { unfold io_message, wire_list, wire_item. cbn [map concat fst snd]. rewrite ?len_app, ?le_len, ?len_app, ?le_len. change (len (@nil Z)) with 0. lia. }
  assert (Ld : len data < 2 ^ 16) by lia. split; [|exact Ld].
  set (l := [(0x8002, le 4 ot ++ le 4 seq); (0xB1, data)]).
  assert (F : fits l). { split; [vm_compute; reflexivity|]. pose proof (len_nonneg data). constructor; [|constructor; [|constructor]]; cbn [fst snd]; rewrite ?len_app, ?le_len; lia. }
  assert (Hu : udp_items (io_message ot seq data) = Ok (map mk l)).
  { unfold udp_items. pose proof (len_nonneg data). destruct (Z.eqb_spec (len (io_message ot seq data)) 0); [lia|]. destruct (Z.leb_spec 4096 (len (io_message ot seq data))); [lia|]. cbn [orb].
    unfold io_message. fold l. rewrite (read_items_wire l _ F). cbn [bind]. reflexivity. }
  unfold datagram. rewrite Hu. cbn [bind map l]. unfold l. cbn [map].
  assert (Ek : unle (firstn 4 (le 4 ot ++ le 4 seq)) = ot).
  { rewrite firstn_app_exact by (now rewrite le_length). apply unle_le_small. lia. }
  rewrite (target_hit (is_srv s) (le 4 ot ++ le 4 seq) _ i a c (iv_good _ _ _ V)); try assumption.
  - cbn [bind]. pose proof (io_write_ok (end_at s i) (mk (0x8002, le 4 ot ++ le 4 seq)) 0xB1 data (end_at_ok s i (iv_ok _ _ _ V)) B Ld) as X.
    destruct (io_write (end_at s i) _) as [e x]. destruct X as (_ & _ & X). cbn [fst]. destruct x; try contradiction; reflexivity.
  - rewrite len_app, !le_len. lia.
  - rewrite Ek. exact H3.
  - rewrite Ek. exact U.
Qed.
Lemma payload_six x six d : bytes_ok (six ++ d) -> len six = 6 -> len (six ++ d) < 2 ^ 16 -> io_payload [x; mk (0xB1, six ++ d)] = Ok d.
Proof.
  intros B L Ld. pose proof (payload_cases x 0xB1 (six ++ d) B Ld) as P. pose proof (len_nonneg d). destruct (io_payload _) as [p|e| |]; try contradiction.
  - destruct P as (_ & _ & ->). f_equal. apply skipn_app_exact. unfold len in L. lia.
  - destruct P as [P|P]; [now destruct P|]. rewrite len_app in P. lia.
Qed.
Lemma set_end_replaced s i e e0 : nth_error (is_ends s) i = Some e0 -> replaced i e (is_ends s) (is_ends (set_end i e s)).
Proof.
  intros H. assert (L : (i < length (is_ends s))%nat) by (apply nth_error_Some; congruence). cbn [set_end is_ends].
  split; [apply setn_length|]. split; [now apply setn_same|]. intros j N. now apply setn_other.
Qed.
Lemma send_all_waiting v chs : forall k c, nth_error chs k = Some c -> (forall j x, (j <= k)%nat -> nth_error chs j = Some x -> ch_waiting x <> 0%nat) ->
  nth_error (fst (send_all v chs)) k = Some (Channel (ch_waiting c - 1) (ch_got c ++ [v])).
Proof.
  induction chs as [|x chs IH]; intros k c Hk W; [destruct k; discriminate|]. cbn [send_all]. pose proof (W 0%nat x ltac:(lia) eq_refl) as Wx.
  destruct (ch_waiting x) as [|n] eqn:En; [contradiction|]. destruct (send_all v chs) as [r1 y] eqn:Es. cbn [fst] in *.
  destruct k as [|k]; cbn [nth_error] in *.
  - injection Hk as ->. rewrite En. f_equal. f_equal. lia.
  - apply (IH k c Hk). intros j z Hj. apply (W (Datatypes.S j)). lia.
Qed.
Lemma sub_snoc {A} (l m : list A) x : sub l m -> sub (l ++ [x]) (m ++ [x]).
Proof. induction 1; cbn [app]; constructor; try assumption. constructor. Qed.
Lemma sub_more {A} (l m : list A) x : sub l m -> sub l (m ++ [x]).
Proof. induction 1; cbn [app]; constructor; try assumption. constructor. Qed.
Lemma sub_empty {A} (m : list A) : sub [] m.
Proof. induction m; constructor; assumption. Qed.
Lemma send_all_sub v vs chs : Forall (fun c => sub (ch_got c) vs) chs -> Forall (fun c => sub (ch_got c) (vs ++ [v])) (fst (send_all v chs)).
Proof.
  induction chs as [|c r IH]; intros F; [constructor|]. inversion F; subst. cbn [send_all].
  assert (Fr : Forall (fun c => sub (ch_got c) (vs ++ [v])) (c :: r)) by (eapply Forall_impl; [|exact F]; intros x Hx; now apply sub_more).
  destruct (ch_waiting c); [exact Fr|]. specialize (IH H2). destruct (send_all v r) as [r1 y]. cbn [fst] in *. constructor; [|exact IH]. cbn [ch_got]. now apply sub_snoc.
Qed.
