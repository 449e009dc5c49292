(** * Lemmas: a request over a connection and in an Unconnected Send *)
From Verif Require Import GoBase SegModel IoiModel IoiProof ItemsModel ItemsSpec ItemsProof TypesModel WriteModel ReadModel ReadProof EipModel EipSpec EipProof
  OpenModel TableModel ProvModel ProvProof SrvValModel SrvModel SrvSpec SrvProof ReqSpec ReqProof BrowseProof RouteSpec RouteProof SendSpec.

Lemma path_alone p : tag_path p -> forall s, exists g : res bytes, forall r k, stops r -> (length p < k)%nat ->
  get_tag_fuel k s (p ++ r) = let* t := g in Ok (t, r).
Proof.
  induction 1 as [|i p P IH|x lo hi p P IH|n pad p L Lp P IH]; intro s.
  - exists (Ok s). intros r [|k] S K; [cbn in K; lia|]. rewrite app_nil_l, (get_tag_stop k s r S). reflexivity.
  - destruct (add_index s (unle [i])) as [s'|e| |] eqn:A.
    { destruct (IH s') as [g G]. exists g. intros r [|k] S K; [lia|]. cbn [length] in K.
      cbn [app get_tag_fuel]. change (40 =? 40) with true. cbv iota. change (i :: p ++ r) with ([i] ++ p ++ r). rewrite rd_app by reflexivity.
      cbn [bind]. rewrite A. cbn [bind]. apply G; [exact S|lia]. }
    1: exists (Err e). 2: exists Panic. 3: exists OutOfFuel.
    all: intros r [|k] S K; [lia|]; cbn [app get_tag_fuel]; change (40 =? 40) with true; cbv iota;
      change (i :: p ++ r) with ([i] ++ p ++ r); rewrite rd_app by reflexivity; cbn [bind]; rewrite A; reflexivity.
  - destruct (add_index s (unle [lo; hi])) as [s'|e| |] eqn:A.
    { destruct (IH s') as [g G]. exists g. intros r [|k] S K; [lia|]. cbn [length] in K.
      cbn [app get_tag_fuel]. change (41 =? 40) with false. change (41 =? 41) with true. cbv iota.
      change (x :: lo :: hi :: p ++ r) with ([x] ++ [lo; hi] ++ p ++ r). rewrite rd_app by reflexivity.
      cbn [bind]. rewrite rd_app by reflexivity. cbn [bind]. rewrite A. cbn [bind]. apply G; [exact S|lia]. }
    1: exists (Err e). 2: exists Panic. 3: exists OutOfFuel.
    all: intros r [|k] S K; [lia|]; cbn [app get_tag_fuel]; change (41 =? 40) with false; change (41 =? 41) with true; cbv iota;
      change (x :: lo :: hi :: p ++ r) with ([x] ++ [lo; hi] ++ p ++ r); rewrite rd_app by reflexivity; cbn [bind];
      rewrite rd_app by reflexivity; cbn [bind]; rewrite A; reflexivity.
  - destruct (IH (match s with [] => n | _ => s ++ [c_dot] ++ n end)) as [g G]. exists g. intros r [|k] S K; [lia|].
    cbn [length] in K. rewrite !app_length in K. cbn [app get_tag_fuel]. change (145 =? 40) with false. change (145 =? 41) with false. change (145 =? 145) with true. cbv iota.
    assert (E : get_ascii_part (len n :: (n ++ pad ++ p) ++ r) = Ok (n, p ++ r)).
    { unfold get_ascii_part. change (len n :: (n ++ pad ++ p) ++ r) with ([len n] ++ (n ++ pad ++ p) ++ r). rewrite rd_app by reflexivity. cbn [bind].
      rewrite unle1, <- !app_assoc. rewrite rd_app by (unfold len; lia). cbn [bind].
      pose proof (Z.mod_pos_bound (len n) 2 eq_refl).
      destruct (Z.eqb_spec (len n mod 2) 1) as [O|O].
      - rewrite rd_app by (unfold len in Lp |- *; unfold len in O; lia). reflexivity.
      - assert (pad = []) as -> by (destruct pad; [reflexivity|rewrite len_cons in Lp; pose proof (len_nonneg pad); lia]). reflexivity. }
    rewrite E. cbn [bind]. apply G; [exact S|lia].
Qed.
Lemma path_parse p : tag_path p -> exists g : res bytes, forall r, stops r -> get_tag_from_path (p ++ r) = let* t := g in Ok (t, r).
Proof.
  intro P. destruct (path_alone p P []) as [g G]. exists g. intros r S. apply G; [exact S|]. rewrite app_length. lia.
Qed.

Lemma rd_exact {A} n x r (k : bytes -> res A) : length x = n ->
  (let* (d, r') := rd n (x ++ r) in let* v := k d in Ok (v, r')) = (let* (v, _) := (let* (d, r') := rd n x in let* v := k d in Ok (v, r')) in Ok (v, r)).
Proof.
  intro L. rewrite rd_app by exact L. replace (rd n x) with (rd n (x ++ [])) by (now rewrite app_nil_r). rewrite rd_app by exact L.
  cbn [bind]. destruct (k x); reflexivity.
Qed.
Lemma value_exact t z x r : number_size t = Some z -> len x = z ->
  read_value t (x ++ r) = let* (v, _) := read_value t x in Ok (v, r).
Proof.
  intros N L.
  assert (I : forall s n, Z.of_nat n = z -> read_int s n (x ++ r) = let* (v, _) := read_int s n x in Ok (v, r)).
  { intros s n E. unfold read_int. rewrite rd_app by (unfold len in L; lia).
    replace (rd n x) with (rd n (x ++ [])) by (now rewrite app_nil_r). rewrite rd_app by (unfold len in L; lia). reflexivity. }
  assert (R : forall n (f : bytes -> gval), Z.of_nat n = z -> (let* (d, r') := rd n (x ++ r) in Ok (f d, r')) = let* (v, _) := (let* (d, r') := rd n x in Ok (f d, r')) in Ok (v, r)).
  { intros n f E. rewrite rd_app by (unfold len in L; lia).
    replace (rd n x) with (rd n (x ++ [])) by (now rewrite app_nil_r). rewrite rd_app by (unfold len in L; lia). reflexivity. }
  unfold read_value.
  repeat (match goal with |- (if t =? ?c then _ else _) = _ => destruct (Z.eqb_spec t c) as [->|_] end;
    [first [reflexivity | vm_compute in N; injection N as <-; (apply I || apply R); reflexivity | vm_compute in N; discriminate]|]).
  reflexivity.
Qed.
Lemma values_exact t z n : number_size t = Some z -> forall x r, len x = Z.of_nat n * z ->
  read_values n t (x ++ r) = let* (vs, _) := read_values n t x in Ok (vs, r).
Proof.
  intro N. assert (0 <= z).
  { unfold number_size in N. repeat (destruct (existsb _ _); [injection N as <-; lia|]). discriminate. }
  induction n as [|n IH]; intros x r L.
  - assert (x = []) as -> by (destruct x; [reflexivity|rewrite len_cons in L; pose proof (len_nonneg x); lia]). reflexivity.
  - rewrite <- (firstn_skipn (Z.to_nat z) x). set (a := firstn _ _). set (b := skipn _ _).
    assert (La : len a = z) by (unfold a, len in *; rewrite firstn_length; lia).
    assert (Lb : len b = Z.of_nat n * z) by (unfold b, len in *; rewrite skipn_length; lia).
    cbn [read_values]. rewrite <- app_assoc, (value_exact t z a (b ++ r) N La), (value_exact t z a b N La).
    destruct (read_value t a) as [[v q]| | |]; cbn [bind]; try reflexivity.
    rewrite (IH b r Lb). destruct (read_values n t b) as [[vs q']| | |]; reflexivity.
Qed.
Lemma strings_exact n : forall x r, len x = Z.of_nat n * 86 ->
  parse_strings n (x ++ r) = let* (vs, _) := parse_strings n x in Ok (vs, r).
Proof.
  induction n as [|n IH]; intros x r L.
  - assert (x = []) as -> by (destruct x; [reflexivity|rewrite len_cons in L; pose proof (len_nonneg x); lia]). reflexivity.
  - rewrite <- (firstn_skipn 4 x), <- (firstn_skipn 82 (skipn 4 x)). set (a := firstn 4 x). set (b := firstn 82 _). set (c := skipn 82 _).
    assert (La : length a = 4%nat) by (unfold a, len in *; rewrite firstn_length; lia).
    assert (Lb : length b = 82%nat) by (unfold b, len in *; rewrite firstn_length, skipn_length; lia).
    assert (Lc : len c = Z.of_nat n * 86) by (unfold c, len in *; rewrite !skipn_length; lia).
    cbn [parse_strings]. unfold parse_string. rewrite <- !app_assoc, !(rd_app 4) by exact La. cbn [bind]. rewrite !(rd_app 82) by exact Lb. cbn [bind].
    rewrite (IH c r Lc). destruct (parse_strings n c) as [[vs q]| | |]; reflexivity.
Qed.
Lemma write_exact t info n z vals r : value_size t = Some z -> length n = 2%nat -> 0 <= unle n -> len vals = unle n * z ->
  parse_write_values (t :: len info :: info ++ n ++ vals ++ r) =
  let* (vs, _) := parse_write_values (t :: len info :: info ++ n ++ vals) in Ok (vs, r).
Proof.
  intros V Ln N0 L. unfold parse_write_values.
  change (t :: len info :: info ++ n ++ vals ++ r) with ([t] ++ [len info] ++ info ++ n ++ vals ++ r).
  change (t :: len info :: info ++ n ++ vals) with ([t] ++ [len info] ++ info ++ n ++ vals).
  rewrite !(rd_app 1) by reflexivity. cbn [bind]. rewrite !(rd_app 1) by reflexivity. cbn [bind]. rewrite !unle1.
  rewrite !(rd_app (Z.to_nat (len info))) by (unfold len; lia). cbn [bind]. rewrite !(rd_app 2) by exact Ln. cbn [bind].
  unfold value_size in V. change T_struct with 0xA0. destruct (t =? 0xA0).
  - injection V as <-. destruct (_ =? _); [|reflexivity]. apply strings_exact. rewrite Z2Nat.id by exact N0. exact L.
  - apply (values_exact t z); [exact V|]. rewrite Z2Nat.id by exact N0. exact L.
Qed.

Lemma send_run cmd x y w : exists hd, length hd = (40 + length (snd x))%nat /\
  send cmd (serialize_items (map mk [x; y])) w = (Ok tt, World (w_srv w) (w_h w) (w_in w) (w_sent w ++ [hd ++ snd y])).
Proof.
  unfold send, server_msg_build, serialize_items. cbn [fold_left map concat]. unfold item_bytes. rewrite !mk_data. cbn [snd]. rewrite app_nil_r.
  set (h := header_bytes _).
  exists (h ++ le 4 0 ++ le 2 0 ++ le 2 (len [mk x; mk y]) ++ (le 2 (it_id (mk x)) ++ le 2 (it_len (mk x)) ++ snd x) ++ le 2 (it_id (mk y)) ++ le 2 (it_len (mk y))).
  split.
  - rewrite !app_length, !le_length. assert (length h = 24%nat) as -> by (unfold h, header_bytes; rewrite !app_length, !le_length; reflexivity). lia.
  - now rewrite <- !app_assoc.
Qed.
Lemma write_values_same i tag vs s : exists r s', forall w, w_srv w = s -> write_values i tag vs w = (r, World s' (w_h w) (w_in w) (w_sent w)).
Proof.
  destruct vs as [|v vs].
  - exists Panic, s. intros w E. unfold write_values, bindM, ask, lift. rewrite <- E. now destruct w.
  - destruct (write_given (sv_conv s) (prov_at s i) tag (as_given (v :: vs))) as [p r] eqn:E. exists r, (set_prov i p s).
    intros w W. rewrite write_values_run by discriminate. now rewrite W, E.
Qed.

(** How two handlers of the same request compare: over a connection ([c]) and
    unconnected ([u]). *)
Definition same_way (sent : list bytes) (c u : res unit * world) : Prop :=
  fst u = fst c /\ w_srv (snd u) = w_srv (snd c) /\ w_in (snd u) = w_in (snd c) /\
  (fst c = Ok tt -> exists h1 h2 body, length h1 = 46%nat /\ length h2 = 40%nat /\
     w_sent (snd c) = sent ++ [h1 ++ body] /\ w_sent (snd u) = sent ++ [h2 ++ body]) /\
  (fst c <> Ok tt -> w_sent (snd u) = sent).

Lemma unconn_reply_run svc st ps w :
  unconn_reply svc st ps w = send 0x6F (serialize_items (map mk [(0, []); (0xB2, [as_response svc; 0; st; 0] ++ concat ps)])) w.
Proof.
  unfold unconn_reply. change (item_write (item_empty item_unconndata) ?x) with (mk (0xB2, x)). rewrite fold_item. reflexivity.
Qed.
Lemma replies_same svc seq to ps w1 w2 sent : w_srv w2 = w_srv w1 -> w_in w2 = w_in w1 -> w_sent w1 = sent -> w_sent w2 = sent ->
  same_way sent (send 0x70 (serialize_items (map mk [(0xA1, le 4 to); (0xB1, le 2 seq ++ [as_response svc; 0; 0; 0] ++ concat ps)])) w1)
    (unconn_reply svc 0 ps w2).
Proof.
  intros S I O1 O2. rewrite unconn_reply_run.
  destruct (send_run 0x70 (0xA1, le 4 to) (0xB1, le 2 seq ++ [as_response svc; 0; 0; 0] ++ concat ps) w1) as (h1 & L1 & ->).
  destruct (send_run 0x6F (0, []) (0xB2, [as_response svc; 0; 0; 0] ++ concat ps) w2) as (h2 & L2 & ->).
  cbn [snd length] in *. rewrite le_length in L1. rewrite O1, O2.
  repeat split; cbn [fst snd w_srv w_in w_sent]; try assumption; [|congruence].
  intros _. exists (h1 ++ le 2 seq), h2, ([as_response svc; 0; 0; 0] ++ concat ps). rewrite app_length, le_length.
  split; [lia|]. split; [lia|]. now rewrite <- app_assoc.
Qed.

Lemma route_words (route : bytes) : Z.even (len route) = true -> len route < 512 ->
  Z.to_nat ((2 * unle [len route / 2; 0]) mod 65536) = length route.
Proof.
  intros E L. apply Z.even_spec in E as [k K]. pose proof (len_nonneg route).
  assert (unle [len route / 2; 0] = k) as -> by (unfold unle; fold unle; cbn [unle]; rewrite K, Z.mul_comm, Z.div_mul by lia; lia).
  rewrite Z.mod_small by lia. unfold len in K. lia.
Qed.


Definition told (m : M unit) : Prop := forall w, exists x, m w = (Ok tt, World (w_srv w) (w_h w) (w_in w) (w_sent w ++ [x])).
Lemma conn_error_told svc seq to st : told (conn_error svc seq to st).
Proof. intro w. unfold conn_error, send. eexists. reflexivity. Qed.
(** Two worlds that differ in the handler only. *)
Definition paired (sent : list bytes) (w1 w2 : world) : Prop :=
  w_srv w2 = w_srv w1 /\ w_in w2 = w_in w1 /\ w_sent w1 = sent /\ w_sent w2 = sent.
Lemma step_told {A B C} sent (g : res A) (f1 : A -> B) (f2 : A -> C) m k1 k2 w1 w2 : told m -> paired sent w1 w2 ->
  (forall x, g = Ok x -> same_way sent (k1 (f1 x) w1) (k2 (f2 x) w2)) ->
  same_way sent (bindM (or_send (let* t := g in Ok (f1 t)) m) k1 w1) (bindM (lift (let* t := g in Ok (f2 t))) k2 w2).
Proof.
  intros T (S & I & O1 & O2) K. destruct g as [x|e| |]; cbn [bind].
  - exact (K x eq_refl).
  - destruct (T w1) as [y Y]. unfold or_send, bindM, lift. rewrite Y. repeat split; cbn [fst snd w_srv w_in w_sent]; congruence.
  - repeat split; cbn; congruence.
  - repeat split; cbn; congruence.
Qed.
Lemma step_told1 {A} sent (g : res A) m k1 k2 w1 w2 : told m -> paired sent w1 w2 ->
  (forall x, g = Ok x -> same_way sent (k1 x w1) (k2 x w2)) ->
  same_way sent (bindM (or_send g m) k1 w1) (bindM (lift g) k2 w2).
Proof.
  intros T P K. assert (E : g = let* t := g in Ok ((fun t => t) t)) by (now destruct g).
  rewrite E. now apply step_told.
Qed.
Lemma step {A B C} sent (g : res A) (f1 : A -> B) (f2 : A -> C) k1 k2 w1 w2 : paired sent w1 w2 ->
  (forall x, g = Ok x -> same_way sent (k1 (f1 x) w1) (k2 (f2 x) w2)) ->
  same_way sent (bindM (lift (let* t := g in Ok (f1 t))) k1 w1) (bindM (lift (let* t := g in Ok (f2 t))) k2 w2).
Proof.
  intros (S & I & O1 & O2) K. destruct g as [x|e| |]; cbn [bind]; [exact (K x eq_refl)| | |]; repeat split; cbn; congruence.
Qed.
Lemma step1 {A} sent (g : res A) k1 k2 w1 w2 : paired sent w1 w2 ->
  (forall x, g = Ok x -> same_way sent (k1 x w1) (k2 x w2)) ->
  same_way sent (bindM (lift g) k1 w1) (bindM (lift g) k2 w2).
Proof.
  intros P K. assert (E : g = let* t := g in Ok ((fun t => t) t)) by (now destruct g). rewrite E. now apply step.
Qed.

Lemma ask_run {B} w (k : server -> M B) : bindM (ask w_srv) k w = k (w_srv w) w.
Proof. reflexivity. Qed.
Lemma rd_whole (x : bytes) : rd (length x) x = Ok (x, []).
Proof. rewrite <- (app_nil_r x) at 2. now apply rd_app. Qed.
Lemma read_same sent p lo hi l ot route w1 w2 a : tag_path p -> stops [lo] -> 0 <= ot < 2 ^ 32 -> connected_to (w_srv w1) ot route ->
  Z.even (len route) = true -> len route < 512 -> paired sent w1 w2 -> length a = 2%nat ->
  same_way sent (connected_read 0x4C (le 4 ot) (a ++ [0x4C; l] ++ p ++ [lo; hi]) w1)
    (unconnected_read ([l] ++ p ++ [lo; hi] ++ [len route / 2; 0] ++ route) w2).
Proof.
  intros P S Ho (ad & G & R) Ev Lr Pw La. destruct (path_parse p P) as [g T].
  unfold connected_read, unconnected_read. unfold bindM at 1, ask at 1.
  rewrite <- (app_nil_r (le 4 ot)), (rd_app 4) by apply le_length. cbn [or_send]. erewrite lift_ok by reflexivity. cbv beta iota zeta.
  rewrite unle_le_small by lia. unfold conn_by_ot. rewrite G. cbn [or_send]. erewrite lift_ok by reflexivity. cbv beta iota zeta. rewrite R.
  rewrite (rd_app 2 a) by exact La. cbn [or_send]. erewrite lift_ok by reflexivity. cbv beta iota zeta.
  rewrite (rd_app 2 [0x4C; l]) by reflexivity. cbn [or_send]. erewrite lift_ok by reflexivity. cbv beta iota zeta.
  rewrite (rd_app 1 [l]) by reflexivity. erewrite (lift_ok _ _ w2) by reflexivity. cbv beta iota zeta.
  rewrite (T [lo; hi]) by exact S. rewrite (T ([lo; hi] ++ _)) by exact S.
  apply (step_told sent g (fun t => (t, [lo; hi])) (fun t => (t, [lo; hi] ++ [len route / 2; 0] ++ route))); [apply conn_error_told|exact Pw|].
  intros tag _. cbv beta iota zeta.
  rewrite <- (app_nil_r [lo; hi]) at 1. rewrite !(rd_app 2 [lo; hi]) by reflexivity. cbn [or_send]. erewrite lift_ok by reflexivity. erewrite (lift_ok _ _ w2) by reflexivity. cbv beta iota zeta.
  rewrite (rd_app 2 [len route / 2; 0]) by reflexivity. erewrite (lift_ok _ _ w2) by reflexivity. cbv beta iota zeta.
  rewrite route_words by assumption. rewrite (rd_whole route). erewrite (lift_ok _ _ w2) by reflexivity. cbv beta iota zeta.
  rewrite (ask_run w2). destruct Pw as (Ps & Pi & P1 & P2). rewrite Ps.
  assert (Pw : paired sent w1 w2) by (unfold paired; auto).
  apply step_told1; [apply conn_error_told|exact Pw|]. intros i _.
  apply step_told1; [apply conn_error_told|exact Pw|]. intros v _.
  apply step1; [exact Pw|]. intros ps _.
  unfold conn_reply. rewrite conn_items. now apply replies_same.
Qed.

Lemma write_same sent p t info n z vals l ot route w1 w2 : tag_path p -> value_size t = Some z -> length n = 2%nat -> 0 <= unle n ->
  len vals = unle n * z -> 0 <= ot < 2 ^ 32 -> connected_to (w_srv w1) ot route ->
  Z.even (len route) = true -> len route < 512 -> paired sent w1 w2 ->
  same_way sent (connected_write (le 4 ot) ([l] ++ p ++ t :: len info :: info ++ n ++ vals) w1)
    (unconnected_write ([l] ++ p ++ t :: len info :: info ++ n ++ vals ++ [len route / 2; 0] ++ route) w2).
Proof.
  intros P V Ln N0 Lv Ho (ad & G & R) Ev Lr Pw. destruct (path_parse p P) as [g T].
  assert (S : forall r, stops (t :: r)).
  { intro r. cbn. unfold value_size, number_size in V. destruct (Z.eqb_spec t 0xA0) as [->|_]; [lia|]. cbn [existsb] in V.
    repeat split; intros ->; cbn in V; discriminate. }
  unfold connected_write, unconnected_write.
  rewrite !(rd_app 1 [l]) by reflexivity. erewrite (lift_ok _ _ w1) by reflexivity. erewrite (lift_ok _ _ w2) by reflexivity. cbv beta iota zeta.
  rewrite !T by apply S.
  apply (step sent g (fun tg => (tg, t :: len info :: info ++ n ++ vals)) (fun tg => (tg, t :: len info :: info ++ n ++ vals ++ [len route / 2; 0] ++ route))); [exact Pw|].
  intros tag _. cbv beta iota zeta.
  rewrite (write_exact t info n z vals _ V Ln N0 Lv).
  rewrite <- (app_nil_r vals) at 1. rewrite (write_exact t info n z vals [] V Ln N0 Lv).
  set (pw := parse_write_values _).
  assert (E : forall r : bytes, (let* (vs, _) := pw in Ok (vs, r)) = (let* vs := (let* (vs, _) := pw in Ok vs) in Ok ((fun vs => (vs, r)) vs))) by (intro r; now destruct pw as [[]| | |]).
  rewrite !E. apply step; [exact Pw|]. intros vs _. cbv beta iota zeta.
  rewrite <- (app_nil_r (le 4 ot)), (rd_app 4) by apply le_length. erewrite (lift_ok _ _ w1) by reflexivity. cbv beta iota zeta.
  rewrite unle_le_small by lia.
  rewrite (rd_app 2 [len route / 2; 0]) by reflexivity. erewrite (lift_ok _ _ w2) by reflexivity. cbv beta iota zeta.
  rewrite route_words by assumption. rewrite (rd_whole route). erewrite (lift_ok _ _ w2) by reflexivity. cbv beta iota zeta.
  rewrite (ask_run w1). unfold conn_by_ot. rewrite G. erewrite (lift_ok _ _ w1) by reflexivity. cbv beta iota zeta. rewrite R.
  rewrite (ask_run w2). destruct Pw as (Ps & Pi & P1 & P2). rewrite Ps.
  assert (Pw : paired sent w1 w2) by (unfold paired; auto).
  apply step1; [exact Pw|]. intros i _.
  destruct (write_values_same i tag vs (w_srv w1)) as (r & s' & W).
  unfold bindM at 1 2. rewrite (W w1 eq_refl), (W w2 Ps). cbn match. destruct r as [u|e| |]; try (repeat split; cbn; congruence).
  rewrite unit_reply_run, <- app_assoc. cbn [w_h]. apply replies_same; cbn [w_srv w_in w_sent]; auto.
Qed.

(** After a request of odd length. *)
Definition fails_quietly (w : world) (u : res unit * world) : Prop :=
  fst u <> Ok tt /\ w_srv (snd u) = w_srv w /\ w_sent (snd u) = w_sent w /\ w_in (snd u) = w_in w.
Lemma quiet_step {A} (g : res A) k w : (forall x, g = Ok x -> fails_quietly w (k x w)) -> fails_quietly w (bindM (lift g) k w).
Proof.
  intro K. destruct g as [x|e| |]; [exact (K x eq_refl)| | |]; repeat split; cbn; discriminate.
Qed.
Lemma rd_lacks n r x : (length r < n)%nat -> rd n r <> Ok x.
Proof. intros L E. destruct x as [a b]. apply rd_ok_inv in E as [-> La]. rewrite app_length in L. lia. Qed.
Lemma odd_lacks (route : bytes) : 0 < len route < 256 -> Z.even (len route) = true ->
  (length (0%Z :: route) < Z.to_nat ((2 * unle [0; len route / 2]) mod 65536)%Z)%nat.
Proof.
  intros L E. apply Z.even_spec in E as [k K].
  assert (H : len route / 2 = k) by (rewrite K, Z.mul_comm; apply Z.div_mul; lia).
  assert (unle [0; len route / 2] = 256 * k) as -> by (cbn [unle]; lia).
  rewrite Z.mod_small by lia. cbn [length]. unfold len in *. lia.
Qed.
Lemma quiet_rd n x r (k : bytes * bytes -> M unit) w : length x = n -> fails_quietly w (k (x, r) w) -> fails_quietly w (bindM (lift (rd n (x ++ r))) k w).
Proof. intros L K. rewrite rd_app by exact L. exact K. Qed.
Lemma read_odd p lo hi l route w : tag_path p -> stops [lo] -> 0 < len route < 256 -> Z.even (len route) = true ->
  fails_quietly w (unconnected_read ([l] ++ p ++ [lo; hi] ++ [0; len route / 2] ++ 0 :: route) w).
Proof.
  intros P S L E. destruct (path_parse p P) as [g T]. unfold unconnected_read.
  apply (quiet_rd 1 [l]); [reflexivity|]. cbv beta iota. rewrite T by exact S.
  apply quiet_step. intros [tag r] X. destruct g as [t0|e0| |]; cbn [bind] in X; try discriminate.
  assert (r = [lo; hi] ++ [0; len route / 2] ++ 0 :: route) as -> by (inversion X; reflexivity). cbv beta iota.
  apply (quiet_rd 2 [lo; hi]); [reflexivity|]. cbv beta iota.
  apply (quiet_rd 2 [0; len route / 2]); [reflexivity|]. cbv beta iota.
  apply quiet_step. intros x Y. exfalso. revert Y. apply rd_lacks. now apply odd_lacks.
Qed.
Lemma write_odd p t info n z vals l route w : tag_path p -> value_size t = Some z -> length n = 2%nat -> 0 <= unle n ->
  len vals = unle n * z -> 0 < len route < 256 -> Z.even (len route) = true ->
  fails_quietly w (unconnected_write ([l] ++ p ++ t :: len info :: info ++ n ++ vals ++ [0; len route / 2] ++ 0 :: route) w).
Proof.
  intros P V Ln N0 Lv L E. destruct (path_parse p P) as [g T]. unfold unconnected_write.
  assert (S : forall r, stops (t :: r)).
  { intro r. cbn. unfold value_size, number_size in V. destruct (Z.eqb_spec t 0xA0) as [->|_]; [lia|]. cbn [existsb] in V.
    repeat split; intros ->; cbn in V; discriminate. }
  apply (quiet_rd 1 [l]); [reflexivity|]. cbv beta iota. rewrite T by apply S.
  apply quiet_step. intros [tag r] X. destruct g as [t0|e0| |]; cbn [bind] in X; try discriminate.
  assert (r = t :: len info :: info ++ n ++ vals ++ [0; len route / 2] ++ 0 :: route) as -> by (inversion X; reflexivity). cbv beta iota.
  rewrite (write_exact t info n z vals _ V Ln N0 Lv). apply quiet_step. intros [vs r] Y.
  destruct (parse_write_values _) as [[vs' q]| | |]; cbn [bind] in Y; try discriminate.
  assert (r = [0; len route / 2] ++ 0 :: route) as -> by (inversion Y; reflexivity). cbv beta iota.
  apply (quiet_rd 2 [0; len route / 2]); [reflexivity|]. cbv beta iota.
  apply quiet_step. intros x Z. exfalso. revert Z. apply rd_lacks. now apply odd_lacks.
Qed.
Lemma carried_data tick m route svc r w : m = svc :: r -> length tick = 2%nat ->
  unconnected_data (unconnected_send tick m route) w =
  embedded svc (r ++ (if Z.odd (len m) then [0] else []) ++ [len route / 2; 0] ++ route) w.
Proof.
  intros Em' Lt. unfold unconnected_send. unfold unconnected_data.
  change ([0x52; 2; 0x20; 6; 0x24; 1] ++ ?x) with ([0x52] ++ [2] ++ [0x20; 6; 0x24; 1] ++ x).
  rewrite (rd_app 1 [0x52]) by reflexivity. erewrite lift_ok by reflexivity. cbv beta iota zeta.
  change (unle [0x52] =? svc_open) with false. change (unle [0x52] =? svc_large_open) with false. change (unle [0x52] =? svc_forward_close) with false.
  change (unle [0x52] =? svc_get_all) with false. change (unle [0x52] =? svc_get_single) with false. change (unle [0x52] =? svc_set_single) with false.
  change (unle [0x52] =? svc_unconn) with true. cbv iota.
  rewrite (rd_app 1 [2]) by reflexivity. erewrite lift_ok by reflexivity. cbv beta iota zeta.
  change (Z.to_nat ((unle [2] * 2) mod 256)) with 4%nat. rewrite (rd_app 4) by reflexivity. erewrite lift_ok by reflexivity. cbv beta iota zeta.
  rewrite (rd_app 2 tick) by exact Lt. erewrite lift_ok by reflexivity. cbv beta iota zeta.
  rewrite (rd_app 2 (le 2 _)) by apply le_length. erewrite lift_ok by reflexivity. cbv beta iota zeta.
  rewrite Em' at 1. change ((svc :: r) ++ ?x) with ([svc] ++ r ++ x). rewrite (rd_app 1 [svc]) by reflexivity. erewrite lift_ok by reflexivity. cbv beta iota zeta.
  now rewrite unle1.
Qed.

Lemma item_sizes session status context options six l cmd : frame_ok (item_frame cmd session status context options six l) ->
  forall x, In x l -> len (snd x) < 2 ^ 16.
Proof.
  intros (_ & _ & _ & _ & _ & L) x I. cbn [item_frame f_payload] in L. rewrite len_app in L. pose proof (len_nonneg six).
  unfold wire_list in L. rewrite len_app in L. pose proof (len_nonneg (le 2 (len l))).
  assert (len (snd x) <= len (concat (map wire_item l))); [|lia].
  clear - I. induction l as [|y l IH]; [destruct I|]. cbn [map concat]. rewrite len_app. pose proof (len_nonneg (concat (map wire_item l))).
  destruct I as [->|I].
  - unfold wire_item at 1. rewrite !len_app. pose proof (len_nonneg (le 2 (fst x))). pose proof (len_nonneg (le 2 (len (snd x)))). lia.
  - specialize (IH I). pose proof (len_nonneg (wire_item y)). lia.
Qed.
