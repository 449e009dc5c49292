(** * C39: frames *)
From Verif Require Import GoBase EipModel EipSpec EipProof.

(** A message somebody sends: the client (session, context) or the server
    (handle, context, options). *)
Inductive sent :=
| ByClient (session context cmd : Z) (parts : list bytes)
| ByServer (handle context options cmd : Z) (parts : list bytes).
Definition sent_bytes (m : sent) : bytes :=
  match m with
  | ByClient s c cmd ps => send_msg_build s c cmd ps
  | ByServer h c o cmd ps => server_msg_build h c o cmd ps
  end.
Definition sent_frame (m : sent) : frame :=
  match m with
  | ByClient s c cmd ps => Frame cmd s 0 c 0 (concat ps)
  | ByServer h c o cmd ps => Frame cmd h 0 c o (concat ps)
  end.

(** [n] frames received one after the other. *)
Fixpoint recv_n (n : nat) (ps : pieces) : res (list (eip_header * bytes)) * pieces :=
  match n with
  | O => (Ok [], ps)
  | S k => match recv_data ps with
           | (Ok m, ps1) => let '(r, ps2) := recv_n k ps1 in
                            (match r with Ok l => Ok (m :: l) | e => e end, ps2)
           | (Err e, ps1) => (Err e, ps1)
           | (Panic, ps1) => (Panic, ps1)
           | (OutOfFuel, ps1) => (OutOfFuel, ps1)
           end
  end.

Definition received (f : frame) : eip_header * bytes :=
  ({| eh_command := f_command f; eh_length := len (f_payload f); eh_session := f_session f; eh_status := f_status f;
      eh_context := f_context f; eh_options := f_options f |}, f_payload f).

(** Any sequence of messages of at most 65535 bytes of parts each, sent by either
    side, cut into any pieces and followed by anything, is received as the same
    headers and payloads in the same order, and nothing of what follows is taken. *)
Theorem C39_frames_partial : forall ms tail ps,
  Forall (fun m => frame_ok (sent_frame m)) ms ->
  concat ps = concat (map sent_bytes ms) ++ tail ->
  exists ps', recv_n (List.length ms) ps = (Ok (map (fun m => received (sent_frame m)) ms), ps') /\ concat ps' = tail.
Proof.
  induction ms as [|m ms IH]; intros tail ps F E.
  - exists ps. now split.
  - inversion F as [|? ? Fm Fms]. subst. cbn [map concat] in E. rewrite <- app_assoc in E.
    assert (Em : sent_bytes m = frame_bytes (sent_frame m)).
    { destruct Fm as (_ & _ & _ & _ & _ & Hl).
      destruct m as [s c cmd parts|h c o cmd parts]; cbn [sent_bytes sent_frame f_payload] in *.
      - rewrite client_build by lia. reflexivity.
      - rewrite server_build by lia. reflexivity. }
    rewrite Em in E. destruct (recv_frame _ _ _ Fm E) as (ps1 & R & E1).
    destruct (IH tail ps1 Fms E1) as (ps2 & R2 & E2).
    exists ps2. split; [|exact E2]. cbn [List.length recv_n]. rewrite R, R2. reflexivity.
Qed.

(** A frame that has not arrived completely is an error, never a short payload. *)
Theorem C39_incomplete : forall m ps rest,
  frame_ok (sent_frame m) -> sent_bytes m = concat ps ++ rest -> rest <> [] ->
  exists e ps', recv_data ps = (Err e, ps').
Proof.
  intros m ps rest F E Hr.
  assert (Em : sent_bytes m = frame_bytes (sent_frame m)).
  { destruct F as (_ & _ & _ & _ & _ & Hl).
    destruct m as [s c cmd parts|h c o cmd parts]; cbn [sent_bytes sent_frame f_payload] in *.
    - rewrite client_build by lia. reflexivity.
    - rewrite server_build by lia. reflexivity. }
  rewrite Em in E. set (f := sent_frame m) in *. clearbody f. rewrite frame_split in E. unfold recv_data.
  assert (Hrest : (0 < List.length rest)%nat) by (destruct rest; [congruence|cbn; lia]).
  destruct (Nat.leb_spec 24 (List.length (concat ps))) as [H24|H24].
  2:{ rewrite (read_full_short 24 ps []) by exact H24. destruct ([] ++ concat ps); eauto. }
  destruct (read_full_ok 24 ps [] (firstn 24 (concat ps)) (skipn 24 (concat ps))) as (ps1 & E1 & E1').
  { now rewrite firstn_skipn. } { rewrite firstn_length. lia. }
  rewrite E1. change ([] ++ firstn 24 (concat ps)) with (firstn 24 (concat ps)).
  assert (Hh : firstn 24 (concat ps) = header_bytes (header_part f)).
  { assert (X : firstn 24 (header_bytes (header_part f) ++ f_payload f) = firstn 24 (concat ps ++ rest)) by now rewrite E.
    rewrite (firstn_app_exact (header_bytes _)) in X by apply header_bytes_length.
    rewrite firstn_app in X. replace (24 - List.length (concat ps))%nat with O in X by lia.
    change (firstn 0 rest) with (@nil Z) in X. rewrite app_nil_r in X. congruence. }
  rewrite Hh, header_of_bytes.
  2,3,4,5,6,7: destruct F as (Hc & Hs & Hst & Hcx & Ho & Hl); pose proof (len_nonneg (f_payload f)); cbn; lia.
  cbv zeta. change (eh_length (header_part f)) with (len (f_payload f)).
  assert (Hlen : List.length (f_payload f) = (List.length (concat ps1) + List.length rest)%nat).
  { rewrite E1', skipn_length. assert (X := f_equal (@List.length Z) E). rewrite !app_length in X.
    rewrite header_bytes_length in X. lia. }
  destruct (Z.ltb_spec 0 (len (f_payload f))) as [Hp|Hp]; [|unfold len in Hp; lia].
  rewrite (read_full_short _ ps1 []) by (unfold len; lia). destruct ([] ++ concat ps1); eauto.
Qed.

(** However the socket takes the bytes, a successful send puts the whole frame on
    the wire, and a failed one a prefix of it. *)
Theorem C39_sent_whole : forall ws b r out, send_data b ws = (r, out) ->
  exists rest, b = out ++ rest /\ (r = Ok tt -> rest = []) /\ r <> Panic.
Proof.
  induction ws as [|w ws IH]; intros b r out H; destruct b as [|x b].
  - injection H as <- <-. exists []. repeat split. discriminate.
  - injection H as <- <-. exists (x :: b). repeat split; discriminate.
  - destruct w; injection H as <- <-; exists []; repeat split; discriminate.
  - change (match w with
            | None => (Err EMsg, [])
            | Some n => let '(r, out) := send_data (skipn n (x :: b)) ws in (r, firstn n (x :: b) ++ out)
            end = (r, out)) in H.
    destruct w as [n|].
    + destruct (send_data (skipn n (x :: b)) ws) as [r1 o1] eqn:E1. apply pair_equal_spec in H as [<- <-].
      destruct (IH _ _ _ E1) as (rest & Er & K). exists rest. split; [|exact K].
      rewrite <- app_assoc, <- Er. now rewrite firstn_skipn.
    + injection H as <- <-. exists (x :: b). repeat split; discriminate.
Qed.

Definition ex_msgs : list sent :=
  [ByClient 7 99 0x6F [[1; 2; 3]; []; [4]]; ByServer 7 99 3 0x70 []; ByClient 7 99 0x70 [[5]]].
Example ex_C39 : Forall (fun m => frame_ok (sent_frame m)) ex_msgs /\
  exists ps, concat ps = concat (map sent_bytes ex_msgs) ++ [9; 9] /\ len ps = 40 /\
    fst (recv_n 3 ps) = Ok (map (fun m => received (sent_frame m)) ex_msgs).
Proof.
  split.
  - repeat (apply Forall_cons; [repeat split; cbn; lia|]). constructor.
  - exists (map (fun x => [x]) (firstn 39 (concat (map sent_bytes ex_msgs))) ++ [skipn 39 (concat (map sent_bytes ex_msgs)) ++ [9; 9]]).
    repeat split; vm_compute; reflexivity.
Qed.
Example ex_C39_incomplete : frame_ok (sent_frame (ByClient 7 99 0x6F [[1; 2; 3]])) /\
  sent_bytes (ByClient 7 99 0x6F [[1; 2; 3]]) = concat [firstn 20 (sent_bytes (ByClient 7 99 0x6F [[1; 2; 3]])); [0;0;0;0;1;2]] ++ [3].
Proof. split; [repeat split; cbn; lia|vm_compute; reflexivity]. Qed.
Example ex_C39_sent : send_data [1; 2; 3; 4; 5] [Some 2%nat; Some 0%nat; Some 3%nat] = (Ok tt, [1; 2; 3; 4; 5]).
Proof. reflexivity. Qed.

(** Parts of 65536 bytes or more are announced modulo 65536: the receiver takes
    an empty message and reads on in the middle of the data. *)
Theorem C39_long_refuted : exists parts, len (concat parts) = 65536 /\
  exists h ps', recv_data [send_msg_build 7 99 0x70 parts] = (Ok (h, []), ps') /\ concat ps' = concat parts.
Proof.
  exists [repeat 1 (Z.to_nat 65536)].
  assert (L : len (concat [repeat 1 (Z.to_nat 65536)]) = 65536).
  { cbn [concat]. rewrite app_nil_r, len_repeat. lia. }
  split; [exact L|]. set (parts := [repeat 1 (Z.to_nat 65536)]) in *. clearbody parts.
  unfold send_msg_build. rewrite fold_len, fold_app, Z.add_0_l, L.
  change (client_header 7 99 0x70 65536) with (client_header 7 99 0x70 0).
  unfold recv_data. set (data := concat parts). set (hb := header_bytes (client_header 7 99 0x70 0)).
  assert (Hc : concat [hb ++ data] = hb ++ data) by (cbn [concat]; apply app_nil_r).
  destruct (read_full_ok 24 [hb ++ data] [] hb data Hc (header_bytes_length _)) as (ps1 & E & E').
  rewrite E. cbv zeta. change ([] ++ hb) with hb.
  replace (header_of hb) with (client_header 7 99 0x70 0) by (vm_compute; reflexivity).
  change (0 <? eh_length (client_header 7 99 0x70 0)) with false. cbv iota.
  eexists _, ps1. split; [reflexivity|exact E'].
Qed.

Print Assumptions C39_frames_partial.
Print Assumptions C39_incomplete.
Print Assumptions C39_sent_whole.
Print Assumptions C39_long_refuted.
