(** * C42, C43: values between the client and the built-in server *)
From Verif Require Import GoBase IoiModel IoiSpec ItemsModel TypesModel ItemsSpec ReadModel ReadSpec ReadProof WriteModel WriteSpec
  SrvValModel SrvValSpec SrvValProof Prop_Read.

(** ** C42 *)

(** Every string is answered with one slot of 92 bytes: type segment of the
    STRING structure, length min(len, 82), that many characters of the string,
    zeros. *)
Theorem C42_slot : forall s,
  length (string_packer s) = 92%nat /\
  string_packer s = [0xA0; 0x02; 0xCE; 0x0F] ++ le 4 (Z.min (len s) 82) ++
                    firstn 82 s ++ zeros (84 - length (firstn 82 s)).
Proof.
  intros s. split; [apply packer_length|]. unfold string_packer. do 2 f_equal.
  - f_equal. destruct (Z.ltb_spec 82 (len s)); lia.
  - rewrite fit_cut, <- app_assoc. f_equal. change [0; 0] with (zeros 2). unfold zeros. rewrite <- repeat_app. f_equal.
    rewrite firstn_length. lia.
Qed.
Print Assumptions C42_slot.
Example ex_C42_slot : string_packer (str "ab") = [0xA0; 2; 0xCE; 0x0F; 2; 0; 0; 0; 97; 98] ++ zeros 82.
Proof. reflexivity. Qed.

(** A client that is answered with it gets that prefix: the type byte and the byte
    after it are the first two bytes of the slot. *)
Theorem C42_client_reads : forall S (ctl : controller S) fuel ops s0 s1 otid q tg s,
  named ops tg -> answers_with ctl s0 otid q (encode tg) 1 0 0xA0 (skipn 2 (string_packer s)) s1 ->
  client_read fuel ctl (cl_run ops) s0 otid q (text tg) KString = (Ok (GStr (firstn 82 s)), s1, q + 1).
Proof.
  intros S ctl fuel ops s0 s1 otid q tg s N A. destruct (packer_slot s) as (d & E & Sl).
  rewrite E in A. change (skipn 2 ([0xA0; 0x02; 0xCE; 0x0F] ++ d)) with ([0xCE; 0x0F] ++ d) in A.
  apply (C17_string S ctl fuel ops s0 s1 otid q tg (firstn 82 s) d [0xCE; 0x0F] [] N Sl eq_refl).
  now rewrite app_nil_r.
Qed.
Print Assumptions C42_client_reads.
Example ex_C42_client : exists (ctl : controller unit), answers_with ctl tt 7 1 (encode (ex_tag None)) 1 0 0xA0 (skipn 2 (string_packer (str "hello"))) tt /\
  client_read 9 ctl (cl_run []) tt 7 1 (str "Speed[3]") KString = (Ok (GStr (str "hello")), tt, 2).
Proof.
  exists (fun s _ => (Ok (0, plain_answer 1 0 0xA0 (skipn 2 (string_packer (str "hello")))), s)). split.
  - exists 0. eexists. split; [reflexivity|]. apply plain_answer_ok. vm_compute. reflexivity.
  - vm_compute. reflexivity.
Qed.
(** An array of two strings, answered with two such slots, makes the client
    panic: it expects no type segment in front of the second element. *)
Theorem C42_array_refuted : exists ss, map (firstn 82) ss = ss /\
  client_read_slice 9 (fun (s : unit) _ => (Ok (0, plain_answer 1 0 0xA0 (skipn 2 (concat (map string_packer ss)))), s))
    (cl_run []) tt 7 1 (str "names") KString (len ss) = (Panic, tt, 2).
Proof. exists [str "ab"; str "cd"]. split; vm_compute; reflexivity. Qed.
Print Assumptions C42_array_refuted.

(** ** C43 *)

(** The type, count and data the client sends for a value (C58) are parsed into
    the values it was given: numbers, bools, arrays of numbers, strings of up to
    82 characters. *)
Theorem C43_values_partial : forall v ty e d rest,
  carries v ty e d -> Forall representable (given_values v) ->
  (forall l, v = WMany KString l -> len l <= 1) ->
  exists left, parse_write_values (ty ++ le 2 e ++ d ++ rest) = Ok (given_values v, left) /\
    (left = rest \/ left = zeros 2 ++ rest).
Proof.
  intros v ty e d rest C R Ns. destruct C as [k v code N I|k l code N Nb F L|s L|ss F L]; cbn [given_values] in *.
  - inversion R; subst. destruct (number_encodes k v code N I) as (E & N9 & B & NA); [assumption|].
    exists rest. split; [|now left]. rewrite parse_head by (assumption || lia). change (Z.to_nat 1) with 1%nat.
    cbn [read_values]. rewrite (read_value_encodes _ _ _ _ E N9). reflexivity.
  - destruct l as [|x l].
    + exists rest. split; [|now left]. change (len []) with 0.
      assert (B : 0 <= code < 256 /\ code <> 0xA0).
      { unfold number_code in N. destruct k as [|[] w|w|]; try discriminate;
          try (destruct w as [|[|[|[|[|[|[|[|[|w]]]]]]]]]; try discriminate; injection N as <-; lia). injection N as <-; lia. }
      rewrite parse_head by (try apply B; lia). reflexivity.
    + assert (B : encodes_all code (x :: l) (concat (map number_data (x :: l)))) by (apply (numbers_encode k); assumption).
      inversion F; inversion R; subst. destruct (number_encodes k x code) as (E & N9 & Bc & NA); [assumption..|].
      exists rest. split; [|now left]. pose proof (len_nonneg (x :: l)).
      rewrite parse_head by (assumption || lia). unfold len. rewrite Nat2Z.id. apply (read_values_encodes _ _ _ B N9).
  - exists (zeros 2 ++ rest). split; [|now right]. rewrite parse_head_string by lia. change (Z.to_nat 1) with 1%nat.
    cbn [parse_strings]. rewrite parse_string_data by exact L. reflexivity.
  - pose proof (len_nonneg ss). specialize (Ns _ eq_refl). unfold len in Ns. rewrite map_length in Ns.
    rewrite parse_head_string by lia. destruct ss as [|s [|s2 ss]].
    + exists rest. split; [reflexivity|now left].
    + exists (zeros 2 ++ rest). split; [|now right]. inversion F; subst. change (Z.to_nat (len [s])) with 1%nat.
      cbn [parse_strings map concat]. rewrite app_nil_r, parse_string_data by assumption. reflexivity.
    + cbn [length] in Ns. lia.
Qed.
Print Assumptions C43_values_partial.
Example ex_C43 : carries (WMany (KInt true 2) [GInt true 2 5; GInt true 2 (-1)]) [0xC3; 0] 2 [5; 0; 255; 255] /\
  Forall representable [GInt true 2 5; GInt true 2 (-1)] /\
  parse_write_values ([0xC3; 0] ++ le 2 2 ++ [5; 0; 255; 255] ++ [9]) = Ok ([GInt true 2 5; GInt true 2 (-1)], [9]).
Proof.
  split.
  - apply (c_many (KInt true 2) [GInt true 2 5; GInt true 2 (-1)] 0xC3); [reflexivity|discriminate| |vm_compute; reflexivity].
    apply Forall_cons; [reflexivity|]. apply Forall_cons; [reflexivity|constructor].
  - split; [|vm_compute; reflexivity]. apply Forall_cons; [cbn; lia|]. apply Forall_cons; [cbn; lia|constructor].
Qed.

(** The full statement fails.  In an array of strings the second element is read
    two bytes early: *)
Theorem C43_strings_refuted : exists ss d vs left,
  carries (WMany KString (map GStr ss)) [0xA0; 0x02; 0xCE; 0x0F] (len ss) d /\
  parse_write_values ([0xA0; 0x02; 0xCE; 0x0F] ++ le 2 (len ss) ++ d) = Ok (vs, left) /\
  vs <> map GStr ss.
Proof.
  exists [str "ab"; str "cd"], (concat (map string_data [str "ab"; str "cd"])).
  eexists _, _. split.
  - apply (c_strings [str "ab"; str "cd"]); [|vm_compute; reflexivity].
    apply Forall_cons; [vm_compute; discriminate|]. apply Forall_cons; [vm_compute; discriminate|constructor].
  - split; [vm_compute; reflexivity|]. discriminate.
Qed.
Print Assumptions C43_strings_refuted.
(** a string of more than 82 characters is cut without an error, *)
Theorem C43_long_string_refuted : exists s d vs left,
  item_value (WOne (GStr s)) = Ok d /\ parse_write_values (write_footer T_string 1 ++ d) = Ok (vs, left) /\ vs <> [GStr s].
Proof.
  exists (repeat 97 83). eexists _, _, _. split; [vm_compute; reflexivity|]. split; [vm_compute; reflexivity|]. discriminate.
Qed.
Print Assumptions C43_long_string_refuted.
(** and a slice of bools is refused. *)
Theorem C43_bools_refuted : exists l d,
  item_value (WMany KBool l) = Ok d /\ parse_write_values (write_footer (wvalue_type (WMany KBool l)) (len l) ++ d) = Err EMsg.
Proof. exists [GBool true; GBool false], [1; 0]. split; vm_compute; reflexivity. Qed.
Print Assumptions C43_bools_refuted.
