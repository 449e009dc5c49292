(** * C48, C69: the identity and the services a device lists *)
From Verif Require Import GoBase IoiModel ItemsModel TypesModel ItemsSpec ItemsProof EipModel EipSpec OpenModel TableModel ProvModel ProvSpec SrvModel SrvSpec
  SrvProof Prop_Srv LinkModel ReqSpec ReqProof IdentModel IdentSpec IdentProof.

(** ** C48 *)

(** Built-in server: every value of every attribute, every name, address, port. *)
Theorem C48_identity : forall session context sh a p1 p2 p3 p4 port,
  0 <= session < 2 ^ 32 -> 0 <= context < 2 ^ 64 -> handler_ok (snd sh) ->
  holds (sv_attrs (fst sh)) a -> sv_ip (fst sh) = [p1; p2; p3; p4] -> Forall byte_ok [p1; p2; p3; p4] ->
  sv_port (fst sh) = port -> u16 port ->
  exists i h1, client_identity session context sh = (Ok i, (fst sh, h1)) /\ identifies a p1 p2 p3 p4 port i.
Proof.
  intros session context sh a p1 p2 p3 p4 port Hs Hc Hh H Ei B Ep P.
  destruct (call_run session context cmd_listidentity sh Hs Hc ltac:(cbv; split; [discriminate|reflexivity])) as (hb & Hcm & Hx & E).
  exists (ident_of a p1 p2 p3 p4 port), (w_h (receiving (fst sh) (snd sh) context)).
  pose proof (ident_of_ok _ _ _ _ _ _ _ H B P) as Ok. pose proof (ident_item_len (ident_of a p1 p2 p3 p4 port)) as L.
  split.
  - unfold client_identity. rewrite E. unfold dispatch. rewrite Hcm. cbv zeta.
    change (cmd_listidentity =? cmd_register) with false. change (cmd_listidentity =? cmd_rrdata) with false.
    change (cmd_listidentity =? cmd_unitdata) with false. change (cmd_listidentity =? cmd_listservices) with false. rewrite Z.eqb_refl. cbv iota.
    unfold list_identity. unfold bindM at 1, ask. cbn [w_srv receiving]. rewrite Ei, Ep.
    erewrite lift_ok by (apply identity_body_ok; [exact H|exact B|exact P]). cbv beta. unfold receiving.
    rewrite recv_raw.
    + cbn [bind]. rewrite <- (app_nil_r (identity_frame _)). rewrite identity_reply_ok by exact Ok. reflexivity.
    + destruct Hh as [Hh1 Hh2]. split; assumption.
    + exact Hc.
    + cbv. split; [discriminate|reflexivity].
    + unfold identity_frame. rewrite !len_app, !le_len, L. cbn [ident_of id_name].
      assert (len (firstn 255 (at_name a)) <= 255) by (unfold len; rewrite firstn_length; lia). lia.
  - destruct H as (_ & H1 & H2 & H3 & H4 & H5 & H6). unfold identifies, ident_of.
    cbn [id_version id_family id_port id_address id_zero0 id_zero1 id_vendor id_device id_code id_revision id_status id_serial id_name id_state].
    repeat (split; [reflexivity|]). repeat (split; [now apply u_same|]). repeat (split; [reflexivity|]). reflexivity.
Qed.
Print Assumptions C48_identity.
Definition odd_server : server :=
  Server cman_init [] [] [(1, GInt true 2 (-2)); (2, GInt true 2 0x0E); (3, GInt true 2 1); (4, GInt true 2 (-32768)); (5, GInt true 2 0x3060);
    (6, GInt false 4 4294967295); (7, GStr (repeat 65 300))] (fun _ => 77) 0 [] (sv_conv demo_server) [192; 168; 1; 250] 44818.
Example ex_C48 : exists a, holds (sv_attrs odd_server) a /\ len (at_name a) = 300 /\
  exists i h1, client_identity 5 9 (odd_server, handler_new) = (Ok i, (odd_server, h1)) /\ id_vendor i = 65534 /\ id_address i = 0xC0A801FA /\
    id_name i = repeat 65 255.
Proof.
  exists (Attributes (-2) 0x0E 1 (-32768) 0x3060 4294967295 (repeat 65 300)).
  split; [|split; [reflexivity|eexists; eexists; split; [vm_compute; reflexivity|]; split; [|split]; vm_compute; reflexivity]].
  split; [repeat (split; [reflexivity|]); reflexivity|]. unfold int16. cbn. lia.
Qed.

(** An attribute missing or of another type: the server gives up on the request,
    and the client gets an error. *)
Theorem C48_missing : forall session context sh, 0 <= session < 2 ^ 32 -> 0 <= context < 2 ^ 64 ->
  (forall a, ~ typed (sv_attrs (fst sh)) a) ->
  exists e h1, client_identity session context sh = (Err e, (fst sh, h1)).
Proof.
  intros session context sh Hs Hc N.
  destruct (call_run session context cmd_listidentity sh Hs Hc ltac:(cbv; split; [discriminate|reflexivity])) as (hb & Hcm & Hx & E).
  destruct (identity_attrs_err _ N) as (e & Ee).
  unfold client_identity. rewrite E. unfold dispatch. rewrite Hcm. cbv zeta.
  change (cmd_listidentity =? cmd_register) with false. change (cmd_listidentity =? cmd_rrdata) with false.
  change (cmd_listidentity =? cmd_unitdata) with false. change (cmd_listidentity =? cmd_listservices) with false. rewrite Z.eqb_refl. cbv iota.
  unfold list_identity. unfold bindM at 1, ask. cbn [w_srv receiving]. unfold identity_body. rewrite Ee. cbn [bind].
  unfold bindM, lift, link_result. cbn [fst snd w_sent w_srv w_h receiving]. eexists. eexists. reflexivity.
Qed.
Print Assumptions C48_missing.
Example ex_C48_missing : forall a, ~ typed [(1, GInt true 2 7); (2, GInt true 4 7)] a.
Proof. intros a (_ & E & _). discriminate. Qed.

(** Any device: the first identity listed, whatever else there is. *)
Theorem C48_device : forall i id more rest, ident_ok i -> fits ((id, ident_item i) :: more) ->
  identity_reply (wire_list ((id, ident_item i) :: more) ++ rest) = Ok i.
Proof.
  intros i id more rest H F. unfold identity_reply. rewrite read_items_wire by exact F. cbn [bind map].
  change (it_data (mk (id, ident_item i))) with (ident_item i). rewrite <- (app_nil_r (ident_item i)). now apply parse_item.
Qed.
Print Assumptions C48_device.
Example ex_C48_device : let i := Ident 1 2 44818 0xC0A801FA 0 0 1 14 166 0x0B20 0x3060 0xDEADBEEF (str "1756-L83E/B") 3 in
  ident_ok i /\ fits [(0x0C, ident_item i); (0x0C, ident_item i)].
Proof.
  cbv zeta. split; [unfold ident_ok, u16, u32; cbn; lia|]. split; [vm_compute; reflexivity|].
  repeat (apply Forall_cons; [vm_compute; repeat split; discriminate || reflexivity|]). constructor.
Qed.

(** ** C69

    Full statement: ListServices returns the services of the device.  Proved for
    what devices send ([C69_device_partial]); of the built-in server it is false:
    the call fails whatever its state ([C69_server_refuted]). *)
Theorem C69_device_partial : forall l rest, Forall (fun x => service_ok (snd x)) l ->
  fits (map (fun x => (fst x, service_item (snd x))) l) ->
  services_reply (wire_list (map (fun x => (fst x, service_item (snd x))) l) ++ rest) = Ok (map snd l).
Proof.
  intros l rest O F. unfold services_reply. rewrite read_items_wire by exact F. cbn [bind]. clear F.
  induction O as [|[id s] l H _ IH]; [reflexivity|]. cbn [map parse_services fst snd] in *.
  change (it_data (mk (id, service_item s))) with (service_item s). rewrite <- (app_nil_r (service_item s)), parse_service_item by exact H.
  cbn [bind]. rewrite IH. reflexivity.
Qed.
Print Assumptions C69_device_partial.
Example ex_C69_device : let s := Service 1 0x0120 (str "Communications") in service_ok s /\ fits [(0x100, service_item s)].
Proof.
  cbv zeta. split.
  - split; [unfold u16; cbn; lia|]. split; [unfold u16; cbn; lia|]. split; [vm_compute; discriminate|]. intros n E. cbn [sv_name] in E.
    assert (L : last (str "Communications") 0 = 0) by (rewrite E; apply last_last). vm_compute in L. discriminate.
  - split; [vm_compute; reflexivity|]. apply Forall_cons; [vm_compute; repeat split; discriminate || reflexivity|constructor].
Qed.
Lemma C69_server : forall session context sh, 0 <= session < 2 ^ 32 -> 0 <= context < 2 ^ 64 -> handler_ok (snd sh) ->
  exists h1, client_services session context sh = (Err EShort, (fst sh, h1)).
Proof.
  intros session context sh Hs Hc Hh.
  destruct (call_run session context cmd_listservices sh Hs Hc ltac:(cbv; split; [discriminate|reflexivity])) as (hb & Hcm & Hx & E).
  exists (w_h (receiving (fst sh) (snd sh) context)). unfold client_services. rewrite E. unfold dispatch. rewrite Hcm. cbv zeta.
  change (cmd_listservices =? cmd_register) with false. change (cmd_listservices =? cmd_rrdata) with false.
  change (cmd_listservices =? cmd_unitdata) with false. rewrite Z.eqb_refl. cbv iota.
  unfold list_services, receiving. rewrite recv_raw; [reflexivity|destruct Hh as [Hh1 Hh2]; split; assumption|exact Hc|cbv; split; [discriminate|reflexivity]|vm_compute; reflexivity].
Qed.
(** The server gives the length of its 20-byte item as 10. *)
Theorem C69_server_refuted : exists sh, handler_ok (snd sh) /\ forall session context, 0 <= session < 2 ^ 32 -> 0 <= context < 2 ^ 64 ->
  exists e, fst (client_services session context sh) = Err e.
Proof.
  exists (demo_server, handler_new). split; [split; cbn; lia|]. intros session context Hs Hc.
  destruct (C69_server session context (demo_server, handler_new) Hs Hc) as (h1 & ->); [split; cbn; lia|]. now exists EShort.
Qed.
Print Assumptions C69_server_refuted.
