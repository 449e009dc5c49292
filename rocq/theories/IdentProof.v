(** * Lemmas about identities and services *)
From Verif Require Import GoBase TypesModel ItemsModel ItemsSpec ItemsProof EipModel EipSpec EipProof OpenModel SrvModel SrvProof LinkModel ReqSpec ReqProof IdentModel IdentSpec.

Lemma unbe2 z : u16 z -> unbe (be2 z) = z.
Proof. intro H. unfold u16 in H. unfold unbe, be2. cbn [rev app unle]. lia. Qed.
Lemma unbe4 z : u32 z -> unbe (be4 z) = z.
Proof. intro H. unfold u32 in H. unfold unbe, be4, be2. cbn [rev app unle]. lia. Qed.
Lemma be2_length z : length (be2 z) = 2%nat. Proof. reflexivity. Qed.
Lemma be4_length z : length (be4 z) = 4%nat. Proof. reflexivity. Qed.

Lemma parse_item i rest : ident_ok i -> parse_identity (ident_item i ++ rest) = Ok i.
Proof.
  intros (H1 & H2 & H3 & H4 & H5 & H6 & H7 & H8 & H9 & H10 & H11 & H12 & H13 & H14). unfold u16, u32 in H1, H7, H8, H9, H10, H11, H12.
  unfold parse_identity, ident_item. rewrite <- !app_assoc.
  rewrite rd_app by apply le_length. cbn [bind].
  rewrite (app_assoc (be4 (id_zero0 i))), (app_assoc (be4 (id_address i))), (app_assoc (be2 (id_port i))), (app_assoc (be2 (id_family i))).
  rewrite rd_app by reflexivity. cbn [bind].
  do 5 (rewrite rd_app by apply le_length; cbn [bind]).
  rewrite rd_app by apply le_length. cbn [bind app].
  rewrite rd_cons1. cbn [bind]. replace (unle [len (id_name i)]) with (len (id_name i)) by (cbn [unle]; lia).
  rewrite rd_app by (unfold len; lia). cbn [bind app]. rewrite rd_cons1. cbn [bind].
  replace (unle [id_state i]) with (id_state i) by (cbn [unle]; lia).
  rewrite !unle_le_small by (cbn; lia).
  change (firstn 2 (be2 (id_family i) ++ be2 (id_port i) ++ be4 (id_address i) ++ be4 (id_zero0 i) ++ be4 (id_zero1 i))) with (be2 (id_family i)).
  change (firstn 2 (skipn 2 (be2 (id_family i) ++ be2 (id_port i) ++ be4 (id_address i) ++ be4 (id_zero0 i) ++ be4 (id_zero1 i)))) with (be2 (id_port i)).
  change (firstn 4 (skipn 4 (be2 (id_family i) ++ be2 (id_port i) ++ be4 (id_address i) ++ be4 (id_zero0 i) ++ be4 (id_zero1 i)))) with (be4 (id_address i)).
  change (firstn 4 (skipn 8 (be2 (id_family i) ++ be2 (id_port i) ++ be4 (id_address i) ++ be4 (id_zero0 i) ++ be4 (id_zero1 i)))) with (be4 (id_zero0 i)).
  change (firstn 4 (skipn 12 (be2 (id_family i) ++ be2 (id_port i) ++ be4 (id_address i) ++ be4 (id_zero0 i) ++ be4 (id_zero1 i)))) with (be4 (id_zero1 i)).
  rewrite !unbe2, !unbe4 by assumption. now destruct i.
Qed.
Lemma ident_item_len i : len (ident_item i) = 34 + len (id_name i).
Proof.
  unfold ident_item. rewrite !len_app, !le_len. change (len [len (id_name i)]) with 1. change (len [id_state i]) with 1.
  change (len (be2 (id_family i))) with 2. change (len (be2 (id_port i))) with 2.
  change (len (be4 (id_address i))) with 4. change (len (be4 (id_zero0 i))) with 4. change (len (be4 (id_zero1 i))) with 4. lia.
Qed.

Definition u (z : Z) : Z := z mod 2 ^ 16.
Lemma u_same z : int16 z -> same16 z (u z).
Proof. intro H. unfold int16 in H. unfold same16, u. lia. Qed.
Lemma u_u16 z : u16 (u z). Proof. unfold u16, u. lia. Qed.
Lemma le2_u z : le 2 (u z) = le 2 z. Proof. exact (le_mod 2 z). Qed.
(** What the server sends. *)
Definition ident_of (a : attributes) (p1 p2 p3 p4 port : Z) : ident :=
  Ident 1 2 port (p1 * 2 ^ 24 + p2 * 2 ^ 16 + p3 * 2 ^ 8 + p4) 0 0 (u (at_vendor a)) (u (at_device a)) (u (at_code a)) (u (at_revision a))
    (u (at_status a)) (at_serial a) (firstn 255 (at_name a)) 0xFF.
Lemma identity_attrs_ok m a : typed m a -> identity_attrs m =
  Ok (le 2 (at_vendor a) ++ le 2 (at_device a) ++ le 2 (at_code a) ++ le 2 (at_revision a) ++ le 2 (at_status a) ++ le 4 (at_serial a) ++
      [len (firstn 255 (at_name a))] ++ firstn 255 (at_name a)).
Proof.
  intros (E1 & E2 & E3 & E4 & E5 & E6 & E7). unfold identity_attrs, attr_int16, attr_uint32, attr_string.
  now rewrite E1, E2, E3, E4, E5, E6, E7.
Qed.
Lemma identity_body_ok m a p1 p2 p3 p4 port : holds m a -> Forall byte_ok [p1; p2; p3; p4] -> u16 port ->
  identity_body m [p1; p2; p3; p4] port = Ok (ident_item (ident_of a p1 p2 p3 p4 port)).
Proof.
  intros H B P. unfold identity_body. rewrite (identity_attrs_ok m a (proj1 H)). cbn [bind]. f_equal. unfold ident_item, ident_of.
  cbn [id_version id_family id_port id_address id_zero0 id_zero1 id_vendor id_device id_code id_revision id_status id_serial id_name id_state].
  rewrite !le2_u. inversion B as [|? ? B1 B']; subst. inversion B' as [|? ? B2 B'']; subst. inversion B'' as [|? ? B3 B3']; subst. inversion B3' as [|? ? B4 _]; subst.
  unfold byte_ok in *. rewrite <- !app_assoc.
  assert (E : be4 (p1 * 2 ^ 24 + p2 * 2 ^ 16 + p3 * 2 ^ 8 + p4) = [p1; p2; p3; p4]).
  { unfold be4, be2. cbn [app]. repeat f_equal; lia. }
  rewrite E. reflexivity.
Qed.
Lemma ident_of_ok m a p1 p2 p3 p4 port : holds m a -> Forall byte_ok [p1; p2; p3; p4] -> u16 port -> ident_ok (ident_of a p1 p2 p3 p4 port).
Proof.
  intros H B P. inversion B as [|? ? B1 B']; subst. inversion B' as [|? ? B2 B'']; subst. inversion B'' as [|? ? B3 B3']; subst. inversion B3' as [|? ? B4 _]; subst.
  unfold byte_ok in *. destruct H as (_ & _ & _ & _ & _ & _ & S).
  unfold ident_ok, ident_of. cbn [id_version id_family id_port id_address id_zero0 id_zero1 id_vendor id_device id_code id_revision id_status id_serial id_name id_state].
  assert (len (firstn 255 (at_name a)) <= 255) by (unfold len; rewrite firstn_length; lia).
  pose proof (u_u16 (at_vendor a)). pose proof (u_u16 (at_device a)). pose proof (u_u16 (at_code a)). pose proof (u_u16 (at_revision a)). pose proof (u_u16 (at_status a)).
  unfold u16, u32 in *. lia.
Qed.
Lemma identity_reply_ok i rest : ident_ok i -> identity_reply (identity_frame (ident_item i) ++ rest) = Ok i.
Proof.
  intro H. unfold identity_reply. change (identity_frame (ident_item i)) with (le 2 (len [(0x0C, ident_item i)]) ++ le 2 0x0C ++ le 2 (len (ident_item i)) ++ ident_item i).
  assert (E : le 2 (len [(0x0C, ident_item i)]) ++ le 2 0x0C ++ le 2 (len (ident_item i)) ++ ident_item i = wire_list [(0x0C, ident_item i)]).
  { unfold wire_list, wire_item. cbn [map concat fst snd]. now rewrite app_nil_r. }
  rewrite E. pose proof (ident_item_len i) as L. destruct H as (H1 & H2 & H3 & H4 & H5 & H6 & H7 & H8 & H9 & H10 & H11 & H12 & H13 & H14) eqn:EH.
  rewrite read_items_wire.
  - cbn [bind map]. change (it_data (mk (0x0C, ident_item i))) with (ident_item i). rewrite <- (app_nil_r (ident_item i)). now apply parse_item.
  - split; [vm_compute; reflexivity|]. apply Forall_cons; [|constructor]. cbn [fst snd]. lia.
Qed.

(** A request without data. *)
Lemma call_run session context cmd sh : 0 <= session < 2 ^ 32 -> 0 <= context < 2 ^ 64 -> 0 <= cmd < 2 ^ 16 ->
  exists hb, eh_command (header_of hb) = cmd /\ eh_context (header_of hb) = context /\
  call session context cmd [] sh = link_result (dispatch hb (receiving (fst sh) (snd sh) context)).
Proof.
  intros Hs Hc Hm. unfold call. rewrite client_build by (cbn; lia). unfold frame_of. cbn [concat].
  set (f := Frame cmd session 0 context 0 []).
  assert (FO : frame_ok f) by (unfold frame_ok, f; cbn [f_command f_session f_status f_context f_options f_payload]; change (len (@nil Z)) with 0; lia).
  destruct (SrvProof.frame_split f FO) as (hb & Ef & Lh & Hcm & Hx & _ & _). exists hb. split; [exact Hcm|]. split; [exact Hx|].
  change {| f_command := cmd; f_session := session; f_status := 0; f_context := context; f_options := 0; f_payload := [] |} with f.
  rewrite (serve_one_ok _ hb (@nil Z)) by (apply take_app; [exact Ef|exact Lh]).
  rewrite Hx. unfold with_context, receiving. cbn [w_srv w_h w_sent f f_context]. destruct (dispatch hb _) as [r w]. reflexivity.
Qed.
(** A reply whose data is not a list of items behind six bytes. *)
Lemma recv_raw h cmd p s inp : handler_ok h -> 0 <= h_context h < 2 ^ 64 -> 0 <= cmd < 2 ^ 16 -> len p < 2 ^ 16 ->
  link_result (send cmd p (World s h inp [])) = (Ok (0, p), (s, h)).
Proof.
  intros (H1 & H2) Hc Hm L. unfold send. cbn [w_h w_srv w_in w_sent app]. rewrite server_build by (cbn [concat]; rewrite app_nil_r; exact L).
  unfold frame_of. cbn [concat]. rewrite app_nil_r. set (f := {| f_command := cmd; f_session := _; f_status := _; f_context := _; f_options := _; f_payload := _ |}).
  unfold link_result. cbn [fst snd w_sent w_srv w_h].
  assert (FO : frame_ok f) by (unfold frame_ok, f; cbn [f_command f_session f_status f_context f_options f_payload]; lia).
  destruct (recv_frame f [] [frame_bytes f] FO) as (ps & -> & _); [reflexivity|]. reflexivity.
Qed.

Lemma trim_zeros_app l : trim_zeros (l ++ [0]) = trim_zeros l.
Proof. induction l as [|x l IH]; [reflexivity|]. cbn [app trim_zeros]. now rewrite IH. Qed.
Lemma trim_zeros_pad l n : trim_zeros (l ++ zeros n) = trim_zeros l.
Proof.
  induction n as [|n IH]; [cbn; now rewrite app_nil_r|]. replace (zeros (S n)) with (zeros n ++ [0]).
  - now rewrite app_assoc, trim_zeros_app.
  - unfold zeros. change [0] with (repeat 0 1). rewrite <- repeat_app. f_equal. lia.
Qed.
Lemma trim_zeros_id l : (forall n, l <> n ++ [0]) -> trim_zeros l = l.
Proof.
  induction l as [|x l IH]; intro H; [reflexivity|]. cbn [trim_zeros]. destruct l as [|y l].
  - cbn [trim_zeros]. destruct (Z.eqb_spec x 0) as [->|]; [now elim (H [])|reflexivity].
  - rewrite IH; [reflexivity|]. intros n E. apply (H (x :: n)). cbn [app]. now rewrite E.
Qed.
Lemma parse_service_item s rest : service_ok s -> parse_service (service_item s ++ rest) = Ok s.
Proof.
  intros (H1 & H2 & H3 & H4). unfold u16 in *. unfold parse_service, service_item. rewrite <- !app_assoc.
  rewrite rd_app by apply le_length. cbn [bind]. rewrite rd_app by apply le_length. cbn [bind].
  rewrite (app_assoc (sv_name s)). rewrite rd_app by (rewrite app_length; unfold zeros; rewrite repeat_length; unfold len in H3; lia). cbn [bind].
  rewrite !unle_le_small by (cbn; lia). rewrite trim_zeros_pad, trim_zeros_id by exact H4. now destruct s.
Qed.
Lemma identity_attrs_err m : (forall a, ~ typed m a) -> exists e, identity_attrs m = Err e.
Proof.
  intro N. unfold identity_attrs, attr_int16, attr_uint32, attr_string.
  repeat (match goal with |- context [match zlookup ?k m with _ => _ end] =>
    let E := fresh "E" in destruct (zlookup k m) as [[| [|] [|[|[|[|[|]]]]] ? | | | | | | |]|] eqn:E; cbn [bind]; try (now exists EMsg) end).
  exfalso. eapply (N (Attributes _ _ _ _ _ _ _)). unfold typed. cbn [at_vendor at_device at_code at_revision at_status at_serial at_name].
  split; [eassumption|]. split; [eassumption|]. split; [eassumption|]. split; [eassumption|]. split; [eassumption|]. split; [eassumption|eassumption].
Qed.
