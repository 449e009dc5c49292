(** * Lemmas about frames and sockets *)
From Verif Require Import GoBase EipModel EipSpec.

Lemma fold_len (parts : list bytes) : forall n, fold_left (fun n p => n + len p) parts n = n + len (concat parts).
Proof.
  induction parts as [|p r IH]; intro n; cbn [fold_left concat].
  - change (len (@nil Z)) with 0. lia.
  - rewrite IH, len_app. lia.
Qed.

Lemma fold_app (parts : list bytes) : forall b, fold_left (fun b p => b ++ p) parts b = b ++ concat parts.
Proof.
  induction parts as [|p r IH]; intro b; cbn [fold_left concat].
  - now rewrite app_nil_r.
  - now rewrite IH, app_assoc.
Qed.

(** The frame of a list of parts. *)
Definition frame_of (cmd session context options : Z) (parts : list bytes) : frame :=
  {| f_command := cmd; f_session := session; f_status := 0; f_context := context;
     f_options := options; f_payload := concat parts |}.

Lemma client_build session context cmd parts : len (concat parts) < 65536 ->
  send_msg_build session context cmd parts = frame_bytes (frame_of cmd session context 0 parts).
Proof.
  intros H. unfold send_msg_build. rewrite fold_len, fold_app.
  unfold header_bytes, client_header, frame_bytes, frame_of.
  cbn [eh_command eh_length eh_session eh_status eh_context eh_options
       f_command f_session f_status f_context f_options f_payload].
  rewrite Z.add_0_l. rewrite Z.mod_small by (pose proof (len_nonneg (concat parts)); lia).
  now rewrite <- !app_assoc.
Qed.

Lemma server_build handle context options cmd parts : len (concat parts) < 65536 ->
  server_msg_build handle context options cmd parts = frame_bytes (frame_of cmd handle context options parts).
Proof.
  intros H. unfold server_msg_build. rewrite fold_len, fold_app.
  unfold header_bytes, server_header, frame_bytes, frame_of.
  cbn [eh_command eh_length eh_session eh_status eh_context eh_options
       f_command f_session f_status f_context f_options f_payload].
  rewrite Z.add_0_l. rewrite Z.mod_small by (pose proof (len_nonneg (concat parts)); lia).
  now rewrite <- !app_assoc.
Qed.

(** Reading does not depend on how the stream is cut into pieces. *)
Lemma read_full_ok n : forall ps acc a b, concat ps = a ++ b -> List.length a = n ->
  exists ps', read_full n acc ps = (Ok (acc ++ a), ps') /\ concat ps' = b.
Proof.
  intros ps. revert n. induction ps as [|p rest IH]; intros n acc a b E L.
  - cbn [concat] in E. destruct a; [|discriminate]. destruct b; [|discriminate].
    cbn in L. subst n. exists []. rewrite app_nil_r. split; reflexivity.
  - cbn [read_full]. destruct n as [|n].
    + destruct a; [|discriminate]. exists (p :: rest). rewrite app_nil_r. split; [reflexivity|exact E].
    + destruct (Nat.leb_spec (List.length p) (S n)) as [Hle|Hgt].
      * cbn [concat] in E.
        assert (Ea : a = p ++ skipn (List.length p) a).
        { rewrite <- (firstn_skipn (List.length p) a) at 1. f_equal.
          assert (X : firstn (List.length p) (p ++ concat rest) = firstn (List.length p) (a ++ b)) by now rewrite E.
          rewrite firstn_app_exact in X by reflexivity.
          rewrite firstn_app in X. replace (List.length p - List.length a)%nat with O in X by lia.
          change (firstn 0 b) with (@nil Z) in X. rewrite app_nil_r in X. now symmetry. }
        destruct (IH (S n - List.length p)%nat (acc ++ p) (skipn (List.length p) a) b) as (ps' & E1 & E2).
        -- rewrite Ea in E. rewrite <- app_assoc in E. now apply app_inv_head in E.
        -- rewrite skipn_length. lia.
        -- exists ps'. split; [|exact E2]. rewrite E1. rewrite <- app_assoc, <- Ea. reflexivity.
      * exists (skipn (S n) p :: rest). cbn [concat] in E |- *.
        assert (Ea : firstn (S n) p = a).
        { assert (X : firstn (S n) (p ++ concat rest) = firstn (S n) (a ++ b)) by now rewrite E.
          rewrite firstn_app in X. replace (S n - List.length p)%nat with O in X by lia.
          change (firstn 0 (concat rest)) with (@nil Z) in X. rewrite app_nil_r in X.
          now rewrite (firstn_app_exact a b) in X. }
        split; [now rewrite Ea|].
        assert (X : skipn (S n) (p ++ concat rest) = skipn (S n) (a ++ b)) by now rewrite E.
        rewrite skipn_app in X. replace (S n - List.length p)%nat with O in X by lia.
        change (skipn 0 (concat rest)) with (concat rest) in X.
        now rewrite (skipn_app_exact a b) in X.
Qed.

(** Too little data is an error, not a short value. *)
Lemma read_full_short n : forall ps acc, (List.length (concat ps) < n)%nat ->
  read_full n acc ps = (match acc ++ concat ps with [] => Err EEof | _ => Err EShort end, []).
Proof.
  intros ps. revert n. induction ps as [|p rest IH]; intros n acc L; cbn [concat] in *.
  - destruct n; [inversion L|]. rewrite app_nil_r. reflexivity.
  - rewrite app_length in L. cbn [read_full]. destruct n as [|n]; [lia|].
    destruct (Nat.leb_spec (List.length p) (S n)) as [Hle|Hgt]; [|lia].
    rewrite IH by lia. now rewrite app_assoc.
Qed.

(** On bytes: read_full is [rd]. *)
Lemma read_full_rd n ps :
  match rd n (concat ps) with
  | Ok (a, b) => exists ps', read_full n [] ps = (Ok a, ps') /\ concat ps' = b
  | Err e => read_full n [] ps = (Err e, [])
  | _ => False
  end.
Proof.
  unfold rd. destruct (Nat.leb_spec n (List.length (concat ps))) as [H|H].
  - destruct (read_full_ok n ps [] (firstn n (concat ps)) (skipn n (concat ps))) as (ps' & E & E').
    + now rewrite firstn_skipn.
    + rewrite firstn_length. lia.
    + exists ps'. now split.
  - rewrite (read_full_short n ps [] H). destruct (concat ps); reflexivity.
Qed.

Definition header_part (f : frame) : eip_header :=
  {| eh_command := f_command f; eh_length := len (f_payload f); eh_session := f_session f;
     eh_status := f_status f; eh_context := f_context f; eh_options := f_options f |}.

Lemma header_of_bytes h :
  0 <= eh_command h < 2 ^ 16 -> 0 <= eh_length h < 2 ^ 16 -> 0 <= eh_session h < 2 ^ 32 ->
  0 <= eh_status h < 2 ^ 32 -> 0 <= eh_context h < 2 ^ 64 -> 0 <= eh_options h < 2 ^ 32 ->
  header_of (header_bytes h) = h.
Proof.
  destruct h as [c l s st cx o].
  cbn [eh_command eh_length eh_session eh_status eh_context eh_options].
  intros Hc Hl Hs Hst Hcx Ho.
  unfold header_of, header_bytes. cbn [eh_command eh_length eh_session eh_status eh_context eh_options].
  f_equal.
  - rewrite firstn_app_exact by apply le_length. now apply unle_le_small.
  - rewrite (skipn_app_exact (le 2 c)) by apply le_length.
    rewrite firstn_app_exact by apply le_length. now apply unle_le_small.
  - rewrite !app_assoc. rewrite <- (app_assoc _ (le 4 s)), <- (app_assoc _ (le 4 s ++ _)), <- (app_assoc _ ((le 4 s ++ _) ++ _)).
    rewrite (skipn_app_exact (le 2 c ++ le 2 l)) by (rewrite app_length, !le_length; reflexivity).
    rewrite <- !app_assoc. rewrite firstn_app_exact by apply le_length. now apply unle_le_small.
  - rewrite (app_assoc (le 2 c)), (app_assoc (le 2 c ++ le 2 l)).
    rewrite (skipn_app_exact ((le 2 c ++ le 2 l) ++ le 4 s)) by (rewrite !app_length, !le_length; reflexivity).
    rewrite firstn_app_exact by apply le_length. now apply unle_le_small.
  - rewrite (app_assoc (le 2 c)), (app_assoc (le 2 c ++ le 2 l)), (app_assoc ((le 2 c ++ le 2 l) ++ le 4 s)).
    rewrite (skipn_app_exact (((le 2 c ++ le 2 l) ++ le 4 s) ++ le 4 st)) by (rewrite !app_length, !le_length; reflexivity).
    rewrite firstn_app_exact by apply le_length. now apply unle_le_small.
  - rewrite (app_assoc (le 2 c)), (app_assoc (le 2 c ++ le 2 l)), (app_assoc ((le 2 c ++ le 2 l) ++ le 4 s)),
            (app_assoc (((le 2 c ++ le 2 l) ++ le 4 s) ++ le 4 st)).
    rewrite (skipn_app_exact ((((le 2 c ++ le 2 l) ++ le 4 s) ++ le 4 st) ++ le 8 cx)) by (rewrite !app_length, !le_length; reflexivity).
    rewrite <- (app_nil_r (le 4 o)) at 1. rewrite firstn_app_exact by apply le_length. now apply unle_le_small.
Qed.

Lemma header_bytes_length h : List.length (header_bytes h) = 24%nat.
Proof. unfold header_bytes. rewrite !app_length, !le_length. reflexivity. Qed.

Lemma frame_split f : frame_bytes f = header_bytes (header_part f) ++ f_payload f.
Proof.
  unfold frame_bytes, header_bytes, header_part.
  cbn [eh_command eh_length eh_session eh_status eh_context eh_options]. now rewrite <- !app_assoc.
Qed.

Lemma recv_frame f tail ps : frame_ok f -> concat ps = frame_bytes f ++ tail ->
  exists ps', recv_data ps = (Ok (header_part f, f_payload f), ps') /\ concat ps' = tail.
Proof.
  intros (Hc & Hs & Hst & Hcx & Ho & Hl) E. rewrite frame_split, <- app_assoc in E.
  unfold recv_data.
  destruct (read_full_ok 24 ps [] _ _ E (header_bytes_length _)) as (ps1 & E1 & E1').
  rewrite E1. change ([] ++ header_bytes (header_part f)) with (header_bytes (header_part f)).
  assert (Hh : header_of (header_bytes (header_part f)) = header_part f).
  { pose proof (len_nonneg (f_payload f)). apply header_of_bytes; cbn; lia. }
  rewrite Hh. cbv zeta. change (eh_length (header_part f)) with (len (f_payload f)).
  destruct (Z.ltb_spec 0 (len (f_payload f))) as [Hp|Hp].
  - destruct (read_full_ok (Z.to_nat (len (f_payload f))) ps1 [] _ _ E1') as (ps2 & E2 & E2').
    { unfold len. lia. }
    rewrite E2. exists ps2. now split.
  - assert (f_payload f = []) as En.
    { destruct (f_payload f); [reflexivity|]. rewrite len_cons in Hp. pose proof (len_nonneg l). lia. }
    exists ps1. rewrite En in *. now split.
Qed.
