(** * Lemmas about the server's value encodings *)
From Verif Require Import GoBase IoiSpec ItemsModel TypesModel ItemsSpec ReadModel ReadSpec ReadProof WriteModel WriteSpec SrvValModel SrvValSpec.

Lemma packer_length s : length (string_packer s) = 92%nat.
Proof. unfold string_packer. rewrite !app_length, le_length, fit_length. reflexivity. Qed.

Lemma fit_cut n (l : bytes) : fit n l = firstn n l ++ zeros (n - length (firstn n l)).
Proof. unfold fit. rewrite firstn_length. do 2 f_equal. lia. Qed.

Lemma packer_slot s : exists d, string_packer s = [0xA0; 0x02; 0xCE; 0x0F] ++ d /\ string_slot (firstn 82 s) d.
Proof.
  exists (le 4 (if 82 <? len s then 82 else len s) ++ fit 82 s ++ [0; 0]). split; [reflexivity|].
  exists (zeros (82 - length (firstn 82 s))), [0; 0].
  assert (L : len (firstn 82 s) = if 82 <? len s then 82 else len s).
  { unfold len. rewrite firstn_length. destruct (Z.ltb_spec 82 (Z.of_nat (length s))); lia. }
  rewrite <- L. split; [rewrite L; destruct (Z.ltb_spec 82 (len s)); lia|].
  split; [rewrite <- fit_cut; apply fit_length|]. split; [reflexivity|].
  rewrite fit_cut, <- app_assoc. reflexivity.
Qed.

Lemma number_encodes k v code : number_code k = Some code -> is_number k v -> representable v ->
  encodes code v (number_data v) /\ code <> 0xC9 /\ 0 <= code < 256 /\ code <> 0xA0.
Proof.
  intros N I R.
  destruct v as [b|s w z|w bits|x|x|x|x|x|]; cbn [is_number] in I; try contradiction; subst k; cbn [representable number_data] in *.
  - injection N as <-. split; [|lia]. destruct b; [apply (enc_bool 1)|apply (enc_bool 0)].
  - assert (H : int_type code = Some (s, w) /\ code <> 0xC9 /\ 0 <= code < 256 /\ code <> 0xA0).
    { unfold number_code in N. destruct s;
        (destruct w as [|[|[|[|[|[|[|[|[|w]]]]]]]]]; try discriminate; injection N as <-; (split; [reflexivity|lia])). }
    destruct H as (H & H2). split; [|exact H2]. now apply enc_int.
  - unfold number_code in N. destruct w as [|[|[|[|[|[|[|[|[|w]]]]]]]]]; try discriminate; injection N as <-; (split; [|lia]).
    + apply enc_real. exact R.
    + apply enc_lreal. exact R.
Qed.
Lemma numbers_encode k l code : number_code k = Some code -> Forall (is_number k) l -> Forall representable l ->
  encodes_all code l (concat (map number_data l)).
Proof.
  intros N H R. induction H as [|v l Hv H IH]; cbn [map concat]; [constructor|].
  inversion R; subst. constructor; [|now apply IH]. now apply (number_encodes k).
Qed.

Lemma parse_head t n r : 0 <= t < 256 -> 0 <= n < 65536 -> t <> T_struct ->
  parse_write_values ([t; 0] ++ le 2 n ++ r) = read_values (Z.to_nat n) t r.
Proof.
  intros Ht Hn Ns. unfold parse_write_values. cbn [app]. rewrite rd_cons1. cbn [bind]. rewrite rd_cons1. cbn [bind].
  change (Z.to_nat (unle [0])) with O. change (rd 0 (le 2 n ++ r)) with (@Ok (bytes * bytes) ([], le 2 n ++ r)). cbn [bind].
  rewrite rd_app by apply le_length. cbn [bind]. rewrite unle_le_small by (cbn; lia).
  replace (unle [t]) with t by (cbn [unle]; lia). destruct (Z.eqb_spec t T_struct); [contradiction|]. reflexivity.
Qed.
Lemma parse_head_string n r : 0 <= n < 65536 ->
  parse_write_values ([0xA0; 0x02; 0xCE; 0x0F] ++ le 2 n ++ r) = parse_strings (Z.to_nat n) r.
Proof.
  intros Hn. unfold parse_write_values. cbn [app]. rewrite rd_cons1. cbn [bind]. rewrite rd_cons1. cbn [bind].
  change (Z.to_nat (unle [2])) with 2%nat. change (0xCE :: 0x0F :: le 2 n ++ r) with ([0xCE; 0x0F] ++ le 2 n ++ r).
  rewrite (rd_app 2 [0xCE; 0x0F]) by reflexivity. cbn [bind]. rewrite rd_app by apply le_length. cbn [bind].
  rewrite unle_le_small by (cbn; lia). reflexivity.
Qed.
Lemma parse_string_data s r : len s <= 82 ->
  parse_string (string_data s ++ r) = Ok (GStr s, zeros 2 ++ r).
Proof.
  intros L. unfold parse_string, string_data. rewrite <- !app_assoc, rd_app by apply le_length. cbn [bind].
  assert (Ln : (length s <= 82)%nat) by (unfold len in L; lia).
  replace (84 - length s)%nat with ((82 - length s) + 2)%nat by lia.
  assert (Zs : zeros ((82 - length s) + 2) = zeros (82 - length s) ++ zeros 2) by (unfold zeros; apply repeat_app).
  rewrite Zs, <- app_assoc, (app_assoc s), rd_app by (rewrite app_length; unfold zeros; rewrite repeat_length; lia).
  cbn [bind]. rewrite unle_le_small by (pose proof (len_nonneg s); change (256 ^ Z.of_nat 4) with 4294967296; lia).
  destruct (Z.ltb_spec 82 (len s)); [lia|].
  unfold len. rewrite Nat2Z.id, firstn_app, Nat.sub_diag, firstn_all, firstn_O, app_nil_r. reflexivity.
Qed.
