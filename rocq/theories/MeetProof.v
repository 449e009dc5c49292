(** * Lemmas about clients connecting to the built-in server *)
From Verif Require Import GoBase SegModel IoiModel IoiSpec IoiProof ItemsModel TypesModel ItemsSpec ItemsProof ReadModel ReadSpec ReadProof WriteModel WriteSpec
  EipModel EipSpec EipProof OpenModel OpenSpec OpenProof TableModel TableSpec TableProof SrvValModel ProvModel ProvSpec ProvProof SrvModel SrvSpec SrvProof ReqSpec LinkModel ReqProof BrowseProof
  MeetModel MeetSpec.

Definition served_result (session cmd : Z) (x : res unit * world) : res (eip_header * bytes) * (server * handler * Z) :=
  let sh1 := (w_srv (snd x), w_h (snd x)) in
  match fst x with
  | Panic => (Err EMsg, (sh1, session))
  | OutOfFuel => (OutOfFuel, (sh1, session))
  | _ => match fst (recv_data (w_sent (snd x))) with
         | Ok (h, d) => (Ok (h, d), (sh1, if cmd =? cmd_register then eh_session h else session))
         | Err e => (Err e, (sh1, session))
         | Panic => (Panic, (sh1, session))
         | OutOfFuel => (OutOfFuel, (sh1, session))
         end
  end.
Lemma served_rr session context sh l : 0 <= session < 2 ^ 32 -> 0 <= context < 2 ^ 64 -> fits l ->
  len (zeros 6 ++ wire_list l) < 2 ^ 16 ->
  served context (sh, session) cmd_rrdata (zeros 6 ++ wire_list l) =
  served_result session cmd_rrdata (rr_items (map mk l) (receiving (fst sh) (snd sh) context)).
Proof.
  intros Hs Hc F L. unfold served.
  assert (FO : frame_ok (item_frame 0x6F session 0 context 0 (zeros 6) l)).
  { unfold item_frame. unfold frame_ok. cbn [f_command f_session f_status f_context f_options f_payload]. lia. }
  rewrite (serve_rr _ session 0 context 0 (zeros 6) l []); [|exact FO|exact F|reflexivity|].
  - unfold with_context, receiving. cbn [w_srv w_h w_sent]. destruct (rr_items _ _) as [r w]. reflexivity.
  - cbn [w_in]. rewrite app_nil_r. rewrite client_build by (cbn [concat]; rewrite app_nil_r; exact L).
    unfold frame_of, item_frame. cbn [concat]. now rewrite app_nil_r.
Qed.
Lemma unconnected_wire msg : unconnected msg = zeros 6 ++ wire_list [(0, []); (0xB2, msg)].
Proof. unfold unconnected, wire_list. cbn [map concat]. unfold wire_item. cbn [fst snd]. rewrite !app_nil_r. reflexivity. Qed.

(** What one frame sent is to the client. *)
Lemma recv_sent f : frame_ok f -> fst (recv_data [frame_bytes f]) = Ok (header_part f, f_payload f).
Proof. intros FO. destruct (recv_frame f [] [frame_bytes f] FO) as (ps & -> & _); [reflexivity|]. reflexivity. Qed.

(** ** Registering *)
Lemma served_register context sh session : 0 <= session < 2 ^ 32 -> 0 <= context < 2 ^ 64 -> (forall n, 0 <= sv_rand (fst sh) n < 2 ^ 32) ->
  exists hd d s1 h1, served context (sh, session) cmd_register [1; 0; 0; 0] = (Ok (hd, d), ((s1, h1), eh_session hd)) /\
    0 <= eh_session hd < 2 ^ 32 /\ handler_ok h1 /\ same_tags (fst sh) s1 /\ sv_cm s1 = sv_cm (fst sh) /\ (forall n, 0 <= sv_rand s1 n < 2 ^ 32) /\
    (session <> 0 -> eh_session hd = session).
Proof.
  intros Hs Hc Hr. unfold served. rewrite client_build by (cbn; lia). unfold frame_of. cbn [concat app].
  set (f := {| f_command := cmd_register; f_session := session; f_status := 0; f_context := context; f_options := 0; f_payload := [1; 0; 0; 0] |}).
  assert (FO : frame_ok f) by (unfold frame_ok, f; cbn [f_command f_session f_status f_context f_options f_payload]; change (len [1; 0; 0; 0]) with 4; unfold cmd_register; lia).
  destruct (SrvProof.frame_split f FO) as (hb & Ef & Lh & Hcm & Hx & Hse & Hop).
  rewrite (serve_one_ok _ hb [1; 0; 0; 0]) by (apply take_app; [exact Ef|exact Lh]).
  unfold dispatch. rewrite Hcm. cbn [f f_command]. change (cmd_register =? cmd_register) with true. cbn iota.
  unfold SrvModel.register_session. rewrite (bindM_ok _ _ _ [1; 0; 0; 0] (fed (with_context {| w_srv := fst sh; w_h := snd sh; w_in := frame_bytes f; w_sent := [] |} (eh_context (header_of hb)) [1; 0; 0; 0]) [])) by (apply take_app; reflexivity).
  rewrite Hse, Hop, Hx. cbn [f f_session f_options f_context].
  set (g := fun handle => Frame cmd_register handle 0 context 0 [1; 0; 0; 0]).
  assert (G : forall handle, 0 <= handle < 2 ^ 32 -> fst (recv_data [frame_bytes (g handle)]) = Ok (header_part (g handle), [1; 0; 0; 0])).
  { intros handle Hh. rewrite recv_sent; [reflexivity|]. unfold frame_ok, g. cbn [f_command f_session f_status f_context f_options f_payload]. change (len [1; 0; 0; 0]) with 4. unfold cmd_register. lia. }
  destruct (Z.eqb_spec session 0) as [->|Ns].
  - unfold bindM, draw, put_h, send, fed, with_context. cbn [w_srv w_h w_in w_sent h_handle h_context h_options app].
    rewrite server_build by (cbn; lia). unfold frame_of. cbn [concat app].
    change {| f_command := cmd_register; f_session := sv_rand (fst sh) (sv_drawn (fst sh)); f_status := 0; f_context := context; f_options := 0; f_payload := [1; 0; 0; 0] |} with (g (sv_rand (fst sh) (sv_drawn (fst sh)))).
    rewrite G by apply Hr. eexists _, _, _, _. split; [reflexivity|]. cbn [header_part g f_session eh_session]. split; [apply Hr|].
    split; [split; cbn [h_handle h_options]; [apply Hr|lia]|]. split; [now repeat split|]. split; [reflexivity|]. split; [exact Hr|congruence].
  - unfold bindM, ret, put_h, send, fed, with_context. cbn [w_srv w_h w_in w_sent h_handle h_context h_options app].
    rewrite server_build by (cbn; lia). unfold frame_of. cbn [concat app].
    change {| f_command := cmd_register; f_session := session; f_status := 0; f_context := context; f_options := 0; f_payload := [1; 0; 0; 0] |} with (g session).
    rewrite G by exact Hs. eexists _, _, _, _. split; [reflexivity|]. cbn [header_part g f_session eh_session]. split; [exact Hs|].
    split; [split; cbn [h_handle h_options]; [exact Hs|lia]|]. split; [now repeat split|]. split; [reflexivity|]. split; [exact Hr|reflexivity].
Qed.

(** ** Opening *)
Definition picked (s : server) (z : Z) (n : nat) : Z := if z =? 0 then sv_rand s n else z.
Lemma draw_run z w : (if z =? 0 then draw else ret z) w =
  (Ok (picked (w_srv w) z (sv_drawn (w_srv w))),
   World (let s := w_srv w in Server (sv_cm s) (sv_router s) (sv_provs s) (sv_attrs s) (sv_rand s) (if (z =? 0)%Z then S (sv_drawn s) else sv_drawn s) (sv_io s) (sv_conv s) (sv_ip s) (sv_port s))
     (w_h w) (w_in w) (w_sent w)).
Proof.
  unfold picked. destruct (z =? 0); unfold draw, ret.
  - reflexivity.
  - destruct w as [[] ? ? ?]. reflexivity.
Qed.


Lemma fwd_open_run o w : 2 <= 2 * o_words o <= len (o_path o) -> 0 <= o_words o < 128 -> 0 <= o_ot o < 2 ^ 32 -> 0 <= o_to o < 2 ^ 32 -> 0 <= o_serial o < 2 ^ 16 ->
  exists ot to rpi svc rest s2, fwd_open (o_large o) (open_message o) w =
    (Ok tt, World s2 (Handler (h_handle (w_h w)) (h_options (w_h w)) (h_context (w_h w)) ot to (h_seq (w_h w))) (w_in w)
       (w_sent w ++ [server_msg_build (h_handle (w_h w)) (h_context (w_h w)) (h_options (w_h w)) cmd_rrdata
          [serialize_items (map mk [(0, []); (0xB2, [svc; 0; 0; 0] ++ le 4 ot ++ rest)])]])) /\
    len rest = 22 /\
    (o_ot o <> 0 -> ot = o_ot o) /\ (ot = o_ot o \/ exists n, ot = sv_rand (w_srv w) n) /\
    same_tags (w_srv w) s2 /\ sv_rand s2 = sv_rand (w_srv w) /\ sv_io s2 = sv_io (w_srv w) /\
    sv_cm s2 = conn_add (sv_cm (w_srv w)) (SConn (o_serial o) ot to rpi (firstn 2 (o_path o)) true).
Proof.
  intros Hw Hw1 Hot Hto Hse. unfold fwd_open.
  set (n := (if o_large o then 4 else 2)%nat).
  set (f := [if o_large o then 0x5B else 0x54; 2; 0x20; 6; 0x24; 1; o_tick o; o_ticks o] ++ le 4 (o_ot o) ++ le 4 (o_to o) ++
    le 2 (o_serial o) ++ le 2 (o_vendor o) ++ le 4 (o_orig o) ++ le 4 (o_mult o) ++
    le 4 (o_rpi o) ++ le n (o_word o) ++ le 4 (o_rpi o) ++ le n (o_word o) ++ [0xA3; o_words o]).
  assert (Em : open_message o = f ++ o_path o).
  { unfold open_message, f. fold n. rewrite <- !app_assoc. reflexivity. }
  rewrite Em.
  assert (Lf : length f = (38 + 2 * n)%nat) by (unfold f; rewrite !app_length, !le_length; cbn [length]; lia).
  rewrite (lift_ok _ _ _ (f, o_path o)) by (now apply rd_app). cbv beta iota zeta.
  assert (F8 : firstn 4 (skipn 8 f) = le 4 (o_ot o)) by reflexivity.
  assert (F12 : firstn 4 (skipn 12 f) = le 4 (o_to o)) by reflexivity.
  assert (F16 : firstn 2 (skipn 16 f) = le 2 (o_serial o)) by reflexivity.
  assert (Ft : firstn 1 (skipn (36 + 2 * n) f) = [0xA3]) by (unfold f, n; destruct (o_large o); reflexivity).
  assert (Fc : firstn 1 (skipn (37 + 2 * n) f) = [o_words o]) by (unfold f, n; destruct (o_large o); reflexivity).
  rewrite F8, F12, F16, Ft, Fc. rewrite !unle_le_small by (change (256 ^ Z.of_nat 4) with (2 ^ 32); change (256 ^ Z.of_nat 2) with (2 ^ 16); lia).
  change (unle [0xA3]) with 0xA3. replace (unle [o_words o]) with (o_words o) by (cbn [unle]; lia).
  rewrite Z.mod_small by lia.
  rewrite (lift_ok _ _ _ (firstn (Z.to_nat (o_words o * 2)) (o_path o), skipn (Z.to_nat (o_words o * 2)) (o_path o))).
  2:{ rewrite <- (firstn_skipn (Z.to_nat (o_words o * 2)) (o_path o)) at 1. apply rd_app. rewrite firstn_length. unfold len in Hw. lia. }
  cbv beta iota.
  assert (Lp : len (firstn (Z.to_nat (o_words o * 2)) (o_path o)) = o_words o * 2) by (unfold len in *; rewrite firstn_length; lia).
  destruct (Z.ltb_spec (len (firstn (Z.to_nat (o_words o * 2)) (o_path o))) 2) as [X|_]; [lia|].
  rewrite firstn_firstn. replace (Nat.min 2 (Z.to_nat (o_words o * 2))) with 2%nat by lia.
  unfold bindM at 1. rewrite draw_run. cbn iota.
  unfold bindM at 1. rewrite draw_run. cbn iota. cbn [w_srv w_h w_in w_sent sv_drawn sv_cm sv_router sv_provs sv_attrs sv_rand sv_io sv_conv sv_ip sv_port].
  set (to := picked _ (o_to o) _). set (ot := picked _ (o_ot o) _).
  generalize (firstn 2 (skipn 18 f)) as vendor. intro vendor. generalize (firstn 4 (skipn 20 f)) as orig. intro orig.
  generalize (firstn 4 (skipn 28 f)) as r1. intro r1. generalize (firstn 4 (skipn (32 + n) f)) as r2. intro r2.
  generalize (as_response (nth 0 f 0)) as svc. intro svc. clear F8 F12 F16 Ft Fc Em Lf. clearbody f.
  change (0xA3 =? 1) with false. rewrite andb_false_r.
  unfold bindM, put_h, send, ask, put_srv, ret. cbn [w_srv w_h w_in w_sent h_handle h_options h_context h_seq].
  exists ot, to, (unle r2), svc, (le 4 to ++ le 2 (o_serial o) ++ le 2 (unle vendor) ++ le 4 (unle orig) ++ le 4 (unle r1) ++ le 4 (unle r2) ++ [0; 0]).
  eexists. split; [reflexivity|]. split; [rewrite !len_app, !le_len; reflexivity|].
  split; [intro N; unfold ot, picked; destruct (Z.eqb_spec (o_ot o) 0); [congruence|reflexivity]|].
  split; [unfold ot, picked; destruct (o_ot o =? 0); [right; eexists; reflexivity|now left]|].
  split; [now repeat split|]. split; [reflexivity|]. split; reflexivity.
Qed.

Lemma open_message_head o : open_message o = (if o_large o then 0x5B else 0x54) :: skipn 1 (open_message o).
Proof. reflexivity. Qed.
Lemma unconnected_open o w : unconnected_data (open_message o) w = fwd_open (o_large o) (open_message o) w.
Proof.
  rewrite open_message_head. unfold unconnected_data. rewrite (lift_ok _ _ _ ([if o_large o then 0x5B else 0x54], skipn 1 (open_message o))) by apply rd_cons1.
  cbn iota. destruct (o_large o); reflexivity.
Qed.
Lemma open_message_len o : len (open_message o) = (if o_large o then 46 else 42) + len (o_path o).
Proof. unfold open_message. rewrite !len_app, !le_len, !len_cons. change (len (@nil Z)) with 0. destruct (o_large o); lia. Qed.

Lemma served_open context sh session o : 0 <= session < 2 ^ 32 -> 0 <= context < 2 ^ 64 -> handler_ok (snd sh) -> (forall n, 0 <= sv_rand (fst sh) n < 2 ^ 32) ->
  2 <= 2 * o_words o <= len (o_path o) -> 0 <= o_words o < 128 -> len (o_path o) < 1000 -> 0 <= o_ot o < 2 ^ 32 -> 0 <= o_to o < 2 ^ 32 -> 0 <= o_serial o < 2 ^ 16 ->
  exists hd d ot to rpi s2 h2, served context (sh, session) cmd_rrdata (unconnected (open_message o)) = (Ok (hd, d), ((s2, h2), session)) /\
    eh_status hd = 0 /\ grants d ot /\ handler_ok h2 /\ 
    (o_ot o <> 0 -> ot = o_ot o) /\ same_tags (fst sh) s2 /\ sv_rand s2 = sv_rand (fst sh) /\
    sv_cm s2 = conn_add (sv_cm (fst sh)) (SConn (o_serial o) ot to rpi (firstn 2 (o_path o)) true).
Proof.
  intros Hs Hc (Hh1 & Hh2) Hr Hw Hw1 Hl Hot Hto Hse.
  rewrite unconnected_wire.
  assert (Lm : len (open_message o) < 2000) by (rewrite open_message_len; destruct (o_large o); lia).
  rewrite served_rr; [|exact Hs|exact Hc|apply fits_rr; lia|rewrite wire_rr_len; lia].
  rewrite rr_unconnected, unconnected_open.
  destruct (fwd_open_run o (receiving (fst sh) (snd sh) context) Hw Hw1 Hot Hto Hse) as (ot & to & rpi & svc & rest & s2 & -> & L22 & Ho1 & Ho2 & St & Sr & _ & Sc).
  unfold served_result. cbn [fst snd w_srv w_h w_sent w_in]. unfold receiving. cbn [w_h w_sent w_srv w_in h_handle h_options h_context h_seq]. rewrite app_nil_l.
  set (body := [svc; 0; 0; 0] ++ le 4 ot ++ rest).
  assert (Lb : len body = 30) by (unfold body; rewrite !len_app, le_len, L22; reflexivity).
  rewrite serialize_mk by (apply fits_rr; change (len body < 2 ^ 16); lia).
  rewrite server_build.
  2:{ cbn [concat]. rewrite app_nil_r, wire_rr_len. lia. }
  set (g := frame_of _ _ _ _ _).
  assert (FO : frame_ok g).
  { unfold frame_ok, g, frame_of. cbn [f_command f_session f_status f_context f_options f_payload concat]. rewrite app_nil_r, wire_rr_len. unfold cmd_rrdata. lia. }
  rewrite (recv_sent g FO). change (cmd_rrdata =? cmd_register) with false. cbn iota.
  assert (Hoi : 0 <= ot < 2 ^ 32) by (destruct Ho2 as [->|(n & ->)]; [exact Hot|apply Hr]).
  exists (header_part g), (f_payload g), ot, to, rpi, s2. eexists. split; [reflexivity|]. split; [reflexivity|].
  split; [|split; [split; [exact Hh1|exact Hh2]|split; [exact Ho1|split; [exact St|split; [exact Sr|exact Sc]]]]].
  exists (zeros 6), (0, []), (0xB2, body), [], [], svc, 0, 0, [], rest.
  split; [unfold g, frame_of; cbn [f_payload concat]; now rewrite !app_nil_r|]. split; [reflexivity|]. split; [apply fits_rr; lia|].
  split; [reflexivity|]. split; [reflexivity|]. split; [lia|exact Hoi].
Qed.

(** ** Closing *)
Lemma close_message_wire c : close_payload c = unconnected (close_message (s_serial c) (s_vendor c) (s_orig c) ((len (session_path c) / 2) mod 256) (session_path c)).
Proof. unfold close_payload. rewrite OpenProof.payload_wire. unfold close_message. rewrite <- !app_assoc. reflexivity. Qed.
Lemma fwd_close_run serial vendor orig words path w : 0 <= serial < 2 ^ 16 -> exists r,
  fwd_close (close_message serial vendor orig words path) w =
  (r, if snd (conn_close (sv_cm (w_srv w)) (KeyID serial))
      then World (set_cm (fst (conn_close (sv_cm (w_srv w)) (KeyID serial))) (w_srv w)) (w_h w) (w_in w) (w_sent w) else w) /\
  r <> Panic /\ r <> OutOfFuel.
Proof.
  intro Hs. unfold fwd_close.
  set (f := [0x4E; 2; 0x20; 6; 0x24; 1; 0x0A; 0x0E] ++ le 2 serial ++ le 2 vendor ++ le 4 orig ++ [words]).
  assert (Em : close_message serial vendor orig words path = f ++ 0 :: path).
  { unfold close_message, f. rewrite <- !app_assoc. reflexivity. }
  rewrite Em. rewrite (lift_ok _ _ _ (f, 0 :: path)) by (now apply rd_app). cbv beta iota.
  assert (F8 : firstn 2 (skipn 8 f) = le 2 serial) by reflexivity. rewrite F8, unle_le_small by (cbn; lia).
  unfold bindM at 1. unfold ask. cbv beta iota.
  destruct (conn_close (sv_cm (w_srv w)) (KeyID serial)) as [m ok]. cbn [fst snd]. destruct ok; cbn [negb].
  - unfold bindM, put_srv, lift. cbv beta iota.
    pose proof (rd_no_panic (Z.to_nat (nth 1 f 0 * 2 mod 256)) (0 :: path)) as P1. pose proof (rd_no_fuel (Z.to_nat (nth 1 f 0 * 2 mod 256)) (0 :: path)) as P2.
    destruct (rd _ _) as [[? ?]|e| |]; [| |congruence|congruence]; (eexists; split; [reflexivity|split; discriminate]).
  - eexists. split; [reflexivity|split; discriminate].
Qed.
Lemma unconnected_close serial vendor orig words path w :
  unconnected_data (close_message serial vendor orig words path) w = fwd_close (close_message serial vendor orig words path) w.
Proof. reflexivity. Qed.
Lemma close_message_len serial vendor orig words path : len (close_message serial vendor orig words path) = 18 + len path.
Proof. unfold close_message. rewrite !len_app, !le_len, !len_cons. change (len (@nil Z)) with 0. lia. Qed.

Lemma session_path_len c : len (session_path c) = len (s_route c) + 4.
Proof. unfold session_path. rewrite !len_app. reflexivity. Qed.

Lemma disconnect_run context sh session c : 0 <= session < 2 ^ 32 -> 0 <= context < 2 ^ 64 -> 0 <= s_serial c < 2 ^ 16 -> len (s_route c) < 60000 ->
  disconnect (served context) (sh, session) c =
  (Ok tt, ((if snd (conn_close (sv_cm (fst sh)) (KeyID (s_serial c)))
            then set_cm (fst (conn_close (sv_cm (fst sh)) (KeyID (s_serial c)))) (fst sh) else fst sh,
            w_h (receiving (fst sh) (snd sh) context)), session)).
Proof.
  intros Hs Hc Hse Hl. unfold disconnect. rewrite close_message_wire, unconnected_wire.
  set (msg := close_message _ _ _ _ _).
  assert (Lm : len msg < 60100) by (unfold msg; rewrite close_message_len, session_path_len; lia).
  rewrite served_rr; [|exact Hs|exact Hc|apply fits_rr; lia|rewrite wire_rr_len; lia].
  rewrite rr_unconnected. unfold msg. rewrite unconnected_close.
  destruct (fwd_close_run (s_serial c) (s_vendor c) (s_orig c) ((len (session_path c) / 2) mod 256) (session_path c) (receiving (fst sh) (snd sh) context) Hse) as (r & -> & P1 & P2).
  unfold served_result. cbn [fst snd]. destruct r; try congruence; destruct (snd _); cbn [w_srv w_h w_sent receiving]; reflexivity.
Qed.

(** ** The table *)
Lemma reached_good m : reached m -> good m.
Proof. intros (os & <-). apply run_refines. apply good_init. Qed.
Lemma run_app os1 : forall m os2, fst (cman_run m (os1 ++ os2)) = fst (cman_run (fst (cman_run m os1)) os2).
Proof.
  induction os1 as [|o os1 IH]; intros m os2; [reflexivity|]. cbn [app cman_run]. destruct (cman_step m o) as [m1 r].
  pose proof (IH m1 os2) as E. destruct (cman_run m1 (os1 ++ os2)) as [m2 rs]. destruct (cman_run m1 os1) as [m3 rs3]. exact E.
Qed.
Lemma reached_step m o : reached m -> reached (fst (cman_step m o)).
Proof.
  intros (os & <-). exists (os ++ [o]). rewrite run_app. cbn [cman_run]. destruct (cman_step _ o) as [m1 r]. reflexivity.
Qed.
Lemma reached_add m id ot to rpi path : reached m -> reached (conn_add m (SConn id ot to rpi path true)).
Proof. intro R. exact (reached_step m (OpAdd id ot to rpi path) R). Qed.
Lemma reached_close m k : reached m -> reached (fst (conn_close m k)).
Proof. intro R. pose proof (reached_step m (OpClose k) R) as X. cbn [cman_step] in X. destruct (conn_close m k). exact X. Qed.

Lemma get_live' m k a : good m -> conn_get m k = Some a -> live (cm_heap m) k a.
Proof. intros G E. pose proof (get_live m k G) as L. unfold conn_get in E. destruct (find_conn _ _ _ _) as [[j b]|]; [|discriminate]. injection E as <-. exact L. Qed.
Lemma get_none m k : good m -> (forall a, ~ live (cm_heap m) k a) -> conn_get m k = None.
Proof. intros G N. destruct (conn_get m k) as [a|] eqn:E; [|reflexivity]. destruct (N a). now apply get_live'. Qed.
Lemma get_only m k a : good m -> live (cm_heap m) k a -> (forall b, live (cm_heap m) k b -> b = a) -> conn_get m k = Some a.
Proof.
  intros G L O. pose proof (get_live m k G) as X. unfold conn_get. destruct (find_conn _ _ _ _) as [[j b]|].
  - now rewrite (O b X).
  - destruct (X a L).
Qed.
(** A connection made later does not take the place of an earlier one. *)
Lemma find_add h k c : forall t i, (forall a, In a t -> (a < length h)%nat) -> forall j a, find_conn h k t i = Some (j, a) ->
  find_conn (h ++ [c]) k (t ++ [length h]) i = Some (j, a) /\ conn_at (h ++ [c]) a = conn_at h a.
Proof.
  induction t as [|x t IH]; intros i B j a E; [discriminate|]. cbn [find_conn app] in *.
  assert (X : conn_at (h ++ [c]) x = conn_at h x) by (unfold conn_at; apply app_nth1, B; now left).
  rewrite X. destruct (key_hit k (conn_at h x)).
  - injection E as <- <-. split; [reflexivity|exact X].
  - apply IH; [intros b Hb; apply B; now right|exact E].
Qed.
Lemma good_bound m : good m -> forall a, In a (cm_table m) -> (a < length (cm_heap m))%nat.
Proof. intros (_ & G) a I. apply G in I as (c & E & _). apply nth_error_Some. congruence. Qed.
Lemma get_add m k c a : good m -> conn_get m k = Some a -> conn_get (conn_add m c) k = Some a /\ conn_at (cm_heap (conn_add m c)) a = conn_at (cm_heap m) a.
Proof.
  intros G E. unfold conn_get in *. destruct (find_conn (cm_heap m) k (cm_table m) 0) as [[j b]|] eqn:F; [|discriminate]. injection E as <-.
  destruct (find_add _ k c _ _ (good_bound m G) _ _ F) as (F1 & F2). unfold conn_add. cbn [cm_heap cm_table]. rewrite F1. split; [reflexivity|exact F2].
Qed.
Lemma get_add_new m k c : good (conn_add m c) -> sc_open c = true -> carries k c -> (forall a, ~ live (cm_heap m) k a) ->
  conn_get (conn_add m c) k = Some (length (cm_heap m)) /\ conn_at (cm_heap (conn_add m c)) (length (cm_heap m)) = c.
Proof.
  intros G O C N.
  assert (Nth : nth_error (cm_heap (conn_add m c)) (length (cm_heap m)) = Some c).
  { unfold conn_add. cbn [cm_heap]. rewrite nth_error_app2, Nat.sub_diag by lia. reflexivity. }
  split; [|now apply conn_at_nth].
  apply get_only; [exact G|exists c; auto|].
  intros b (c0 & E0 & O0 & C0). unfold conn_add in E0. cbn [cm_heap] in E0.
  destruct (Nat.lt_ge_cases b (length (cm_heap m))) as [Hl|Hl].
  - rewrite nth_error_app1 in E0 by exact Hl. destruct (N b). exists c0. auto.
  - assert (b < length (cm_heap m ++ [c]))%nat by (apply nth_error_Some; congruence). rewrite app_length in H. cbn [length] in H. lia.
Qed.

(** ** Other clients *)
Lemma resolve_tags s s' p : same_tags s s' -> resolve s' p = resolve s p.
Proof. intros (_ & R & _). unfold resolve. now rewrite R. Qed.
Lemma prov_tags s s' i : same_tags s s' -> prov_at s' i = prov_at s i.
Proof. intros (R & _). unfold prov_at. now rewrite R. Qed.
Lemma linked_added s s' c h session context otid i : good (sv_cm s) -> same_tags s s' -> sv_cm s' = conn_add (sv_cm s) c ->
  linked session context otid i (s, h) -> linked session context otid i (s', h).
Proof.
  intros G T E (A1 & A2 & A3 & A4 & (to & Li & cn & B1 & B2 & B3) & A6). cbn [fst snd] in *.
  split; [exact A1|]. split; [exact A2|]. split; [exact A3|]. split; [exact A4|]. cbn [fst snd].
  split; [|rewrite (prov_tags s s' i T); exact A6].
  exists to. split; [destruct T as (-> & _); exact Li|]. exists cn. rewrite (resolve_tags s s' _ T). split; [|split; assumption].
  unfold conn_by_ot in *. destruct (conn_get (sv_cm s) (KeyOT otid)) as [a|] eqn:Eg; [|discriminate].
  destruct (get_add _ _ c _ G Eg) as (X1 & X2). rewrite E, X1, X2. exact B1.
Qed.
Lemma linked_closed s s' a b h session context otid i : good (sv_cm s) -> good (sv_cm s') -> same_tags s s' -> closes (cm_heap (sv_cm s)) a (cm_heap (sv_cm s')) ->
  live (cm_heap (sv_cm s)) (KeyOT otid) b -> (forall x, live (cm_heap (sv_cm s)) (KeyOT otid) x -> x = b) -> b <> a ->
  linked session context otid i (s, h) -> linked session context otid i (s', h).
Proof.
  intros G G' T (Cl & Co & cl & Ca1 & Ca2 & Ca3) Lb Ob Nb (A1 & A2 & A3 & A4 & (to & Li & cn & B1 & B2 & B3) & A6). cbn [fst snd] in *.
  split; [exact A1|]. split; [exact A2|]. split; [exact A3|]. split; [exact A4|]. cbn [fst snd].
  split; [|rewrite (prov_tags s s' i T); exact A6].
  exists to. split; [destruct T as (-> & _); exact Li|]. exists cn. rewrite (resolve_tags s s' _ T). split; [|split; assumption].
  unfold conn_by_ot in *. rewrite (get_only _ _ b G Lb Ob) in B1.
  destruct Lb as (c1 & N1 & O1 & K1).
  assert (L' : live (cm_heap (sv_cm s')) (KeyOT otid) b) by (exists c1; rewrite (Co b Nb); auto).
  rewrite (get_only _ _ b G' L').
  - rewrite (conn_at_nth _ _ _ (eq_trans (Co b Nb) N1)). rewrite (conn_at_nth _ _ _ N1) in B1. exact B1.
  - intros x (c2 & N2 & O2 & K2). destruct (Nat.eq_dec x a) as [->|Nx].
    + rewrite Ca3 in N2. assert (sc_open c2 = false) by (injection N2 as <-; reflexivity). congruence.
    + rewrite (Co x Nx) in N2. apply Ob. exists c2. auto.
Qed.
