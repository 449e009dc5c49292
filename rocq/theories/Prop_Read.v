(** * Properties C06, C17-C20, C29: reading one tag *)
From Verif Require Import GoBase IoiModel IoiSpec IoiProof ItemsModel ItemsSpec TypesModel
  ReadModel ReadSpec ReadProof.

Definition answers_with {St} (ctl : St -> bytes -> res (Z * bytes) * St) (s : St)
    (otid q : Z) (path : bytes) (e status type : Z) (data : bytes) (s1 : St) : Prop :=
  exists x p, ctl s (read_request otid q path e) = (Ok (x, p), s1) /\ answer p status type data.

(** A tag for the examples: name and bit. *)
Definition ex_tag (b : option Z) : tag :=
  {| t_members := [{| m_name := str "Speed"; m_subs := [3] |}]; t_bit := b |}.
Lemma ex_named b : (match b with None => True | Some n => 0 <= n <= 31 end) -> named [] (ex_tag b).
Proof.
  intro H. split; [|split; [reflexivity|vm_compute; reflexivity]].
  split; [discriminate|]. split; [|exact H].
  apply (proj1 (proj2 (valid_tagb_sound (ex_tag None) eq_refl))).
Qed.
(** A controller that always gives the same reply, and one that remembers what
    it was asked. *)
Definition fixed (status type : Z) (d : bytes) : controller (list bytes) :=
  fun s req => (Ok (0, plain_answer 1 status type d), s ++ [req]).
Lemma fixed_answers status t d s otid q path e : len d < 60000 ->
  answers_with (fixed status t d) s otid q path e status t d (s ++ [read_request otid q path e]).
Proof. intro L. exists 0, (plain_answer 1 status t d). split; [reflexivity|now apply plain_answer_ok]. Qed.

(** C06.  Bit n of every integer type except SINT and ULINT. *)
Theorem C06_bit_reads_partial : forall S (ctl : controller S) fuel ops s0 s1 otid q tg n t signed w z rest,
  named ops tg -> t_bit tg = Some n ->
  int_type t = Some (signed, w) -> in_range signed w z -> t <> 0xC2 -> t <> 0xC9 ->
  n < 8 * Z.of_nat w ->
  answers_with ctl s0 otid q (encode tg) 1 0 t (le w z ++ rest) s1 ->
  client_read fuel ctl (cl_run ops) s0 otid q (text tg) KBool = (Ok (GBool (Z.testbit z n)), s1, q + 1).
Proof.
  intros S ctl fuel ops s0 s1 otid q tg n t signed w z rest (V & K & L) B I R N1 N2 N (x & p & E & A).
  pose proof (C01_lemma ops tg T_bool V K) as New. rewrite B in New.
  unfold client_read. rewrite (read_single_done _ _ _ _ _ _ _ _ _ _ _ _ _ _ _ New L E A).
  destruct V as (_ & _ & V). rewrite B in V.
  change (kind_cip KBool) with T_bool. rewrite (decode_bit _ t signed w z rest n); auto. split; [apply V|exact N].
Qed.
Print Assumptions C06_bit_reads_partial.
Example ex_C06 : named [] (ex_tag (Some 15)) /\ in_range true 2 (-3) /\
  client_read 0 (fixed 0 0xC3 (le 2 (-3))) (cl_run []) [] 7 1 (text (ex_tag (Some 15))) KBool
  = (Ok (GBool true), [read_request 7 1 (encode (ex_tag (Some 15))) 1], 2).
Proof.
  split; [apply ex_named; lia|]. split; [unfold in_range; lia|]. vm_compute. reflexivity.
Qed.

(** The full statement fails in three ways.  A SINT's bits cannot be read: *)
Theorem C06_sint_bits_fail : forall n z, 0 <= n < 8 -> in_range true 1 z ->
  exists tg (ctl : controller unit),
    named [] tg /\ t_bit tg = Some n /\ answers_with ctl tt 7 1 (encode tg) 1 0 0xC2 (le 1 z) tt /\
    is_err (fst (fst (client_read 0 ctl (cl_run []) tt 7 1 (text tg) KBool))) = true.
Proof.
  intros n z N R. exists (ex_tag (Some n)), (fun s _ => (Ok (0, plain_answer 1 0 0xC2 (le 1 z)), s)).
  assert (N31 : 0 <= n <= 31) by lia. pose proof (ex_named (Some n) N31) as Nm. split; [exact Nm|]. split; [reflexivity|].
  assert (An : answer (plain_answer 1 0 0xC2 (le 1 z)) 0 0xC2 (le 1 z)) by (apply plain_answer_ok; rewrite le_len; lia).
  split; [exists 0; eexists; split; [reflexivity|exact An]|].
  destruct Nm as (V & K & L). pose proof (C01_lemma [] _ T_bool V K) as New.
  unfold client_read. erewrite read_single_done; [|exact New|exact L|reflexivity|exact An].
  cbn [fst]. rewrite <- (app_nil_r (le 1 z)). unfold decode_read. cbn -[le read_value cast_scalar get_bit].
  rewrite (read_value_encodes 0xC2 _ _ _ (enc_int 0xC2 true 1 z eq_refl R)) by discriminate.
  cbn [bind]. unfold get_bit, bit_of. cbn -[Z.leb Z.ltb cast_scalar].
  replace ((0 <=? n) && (n <? 8)) with true by lia. reflexivity.
Qed.
Print Assumptions C06_sint_bits_fail.
Theorem C06_sint_bits_refuted : exists tg (ctl : controller unit),
    named [] tg /\ t_bit tg = Some 3 /\ answers_with ctl tt 7 1 (encode tg) 1 0 0xC2 (le 1 10) tt /\
    is_err (fst (fst (client_read 0 ctl (cl_run []) tt 7 1 (text tg) KBool))) = true.
Proof. apply C06_sint_bits_fail; unfold in_range; lia. Qed.
Print Assumptions C06_sint_bits_refuted.

(** a bit the type does not have reads as false, without an error; and *)
Theorem C06_missing_bit_refuted : exists tg (ctl : controller unit),
  named [] tg /\ text tg = str "Speed[3].20" /\
  answers_with ctl tt 7 1 (encode tg) 1 0 0xC3 (le 2 (-1)) tt /\
  fst (fst (client_read 0 ctl (cl_run []) tt 7 1 (text tg) KBool)) = Ok (GBool false).
Proof.
  exists (ex_tag (Some 20)), (fun s _ => (Ok (0, plain_answer 1 0 0xC3 (le 2 (-1))), s)).
  split; [apply ex_named; lia|]. split; [reflexivity|]. split; [|vm_compute; reflexivity].
  exists 0. eexists. split; [reflexivity|]. apply plain_answer_ok. vm_compute. reflexivity.
Qed.
Print Assumptions C06_missing_bit_refuted.

(** bit 40 of a LINT is requested as a member called "40". *)
Theorem C06_bit_above_31_refuted : exists v,
  let lint := tag_holder 7 (encode (ex_tag None)) 1 0xC5 (le 8 v) in
  fst (fst (client_read 9 lint (cl_run []) [] 7 1 (str "Speed[3]") (KInt true 8))) = Ok (GInt true 8 v) /\
  fst (fst (client_read 9 lint (cl_run []) [] 7 1 (str "Speed[3].31") KBool)) = Ok (GBool false) /\
  fst (fst (client_read 9 lint (cl_run []) [] 7 1 (str "Speed[3].40") KBool)) = Err (EStatus 5).
Proof. exists (2 ^ 40). vm_compute. repeat split. Qed.
Print Assumptions C06_bit_above_31_refuted.

(** C17.  A scalar of every type but ULINT, read into any Go type: the value if
    the Go type is the one for the CIP type, an error otherwise. *)
Theorem C17_scalar_partial : forall S (ctl : controller S) fuel ops s0 s1 otid q tg t v d rest k,
  named ops tg -> t_bit tg = None -> encodes t v d -> t <> 0xC9 ->
  answers_with ctl s0 otid q (encode tg) 1 0 t (d ++ rest) s1 ->
  (kind_of v = k -> client_read fuel ctl (cl_run ops) s0 otid q (text tg) k = (Ok v, s1, q + 1)) /\
  (kind_of v <> k -> exists e, client_read fuel ctl (cl_run ops) s0 otid q (text tg) k = (Err e, s1, q + 1)).
Proof.
  intros S ctl fuel ops s0 s1 otid q tg t v d rest k (V & K & L) B E N (x & p & C & A).
  pose proof (C01_lemma ops tg (kind_cip k) V K) as New. rewrite B in New.
  unfold client_read. rewrite (read_single_done _ _ _ _ _ _ _ _ _ _ _ _ _ _ _ New L C A).
  rewrite (decode_scalar _ _ _ _ _ _ E N) by reflexivity. rewrite (cast_scalar_encodes _ _ _ _ E).
  split; intro H; destruct (gokind_dec k (kind_of v)); try congruence. now exists EMsg.
Qed.
Print Assumptions C17_scalar_partial.
Example ex_C17_scalar : encodes 0xC4 (GInt true 4 (-100000)) (le 4 (-100000)) /\
  named [] (ex_tag None) /\
  answers_with (fixed 0 0xC4 (le 4 (-100000) ++ [9])) [] 7 1 (encode (ex_tag None)) 1 0 0xC4
    (le 4 (-100000) ++ [9]) [read_request 7 1 (encode (ex_tag None)) 1].
Proof.
  split; [apply enc_int; [reflexivity|unfold in_range; lia]|]. split; [apply ex_named; exact I|].
  apply (fixed_answers 0 0xC4 _ []). vm_compute. reflexivity.
Qed.

(** Read_single with any declared type returns the same scalar. *)
Theorem C17_read_single_partial : forall S (ctl : controller S) fuel ops s0 s1 otid q tg t v d rest dtype,
  named ops tg -> t_bit tg = None -> encodes t v d -> t <> 0xC9 ->
  answers_with ctl s0 otid q (encode tg) 1 0 t (d ++ rest) s1 ->
  read_single fuel ctl (cl_run ops) s0 otid q (text tg) dtype 1 = (Ok v, s1, q + 1).
Proof.
  intros S ctl fuel ops s0 s1 otid q tg t v d rest dtype (V & K & L) B E N (x & p & C & A).
  pose proof (C01_lemma ops tg dtype V K) as New. rewrite B in New.
  rewrite (read_single_done _ _ _ _ _ _ _ _ _ _ _ _ _ _ _ New L C A).
  now rewrite (decode_scalar _ _ _ _ _ _ E N) by reflexivity.
Qed.
Print Assumptions C17_read_single_partial.

(** Arrays of two or more scalars. *)
Theorem C17_array_partial : forall S (ctl : controller S) fuel ops s0 s1 otid q tg t vs d rest k,
  named ops tg -> encodes_all t vs d -> t <> 0xC9 -> 2 <= len vs < 65536 ->
  answers_with ctl s0 otid q (encode tg) (len vs) 0 t (d ++ rest) s1 ->
  (Forall (fun v => kind_of v = k) vs ->
   client_read_slice fuel ctl (cl_run ops) s0 otid q (text tg) k (len vs) = (Ok vs, s1, q + 1)) /\
  (~ Forall (fun v => kind_of v = k) vs -> exists e,
   client_read_slice fuel ctl (cl_run ops) s0 otid q (text tg) k (len vs) = (Err e, s1, q + 1)).
Proof.
  intros S ctl fuel ops s0 s1 otid q tg t vs d rest k (V & K & L) E N Ln (x & p & C & A).
  pose proof (C01_lemma ops tg (kind_cip k) V K) as New.
  unfold client_read_slice. rewrite Z.mod_small by lia.
  destruct (Z.eqb_spec (len vs) 0); [lia|].
  rewrite (read_single_done _ _ _ _ _ _ _ _ _ _ _ _ _ _ _ New L C A).
  rewrite decode_list; [|exact E|exact N|intros ->; cbn in Ln; lia|unfold len in Ln; lia].
  unfold cast_array. destruct (Z.eqb_spec (len vs) 0); [lia|]. cbn [bind]. rewrite Z.eqb_refl.
  split; intro H.
  - rewrite (cast_all_encodes _ _ _ _ E H). reflexivity.
  - rewrite (cast_all_mixed _ _ _ _ E H). now exists EMsg.
Qed.
Print Assumptions C17_array_partial.
Example ex_C17_array :
  encodes_all 0xC3 [GInt true 2 (-2); GInt true 2 500] (le 2 (-2) ++ le 2 500 ++ []) /\
  fst (fst (client_read_slice 0 (fixed 0 0xC3 (le 2 (-2) ++ le 2 500)) (cl_run []) [] 7 1
    (text (ex_tag None)) (KInt true 2) 2)) = Ok [GInt true 2 (-2); GInt true 2 500].
Proof.
  split; [|vm_compute; reflexivity].
  repeat constructor; unfold in_range; cbn; lia.
Qed.

(** Strings and arrays of strings (structure type 0xA0, two handle bytes). *)
Theorem C17_string : forall S (ctl : controller S) fuel ops s0 s1 otid q tg sv d handle rest,
  named ops tg -> string_slot sv d -> length handle = 2%nat ->
  answers_with ctl s0 otid q (encode tg) 1 0 0xA0 (handle ++ d ++ rest) s1 ->
  client_read fuel ctl (cl_run ops) s0 otid q (text tg) KString = (Ok (GStr sv), s1, q + 1).
Proof.
  intros S ctl fuel ops s0 s1 otid q tg sv d handle rest (V & K & L) E H (x & p & C & A).
  pose proof (C01_lemma ops tg (kind_cip KString) V K) as New.
  unfold client_read. rewrite (read_single_done _ _ _ _ _ _ _ _ _ _ _ _ _ _ _ New L C A).
  change (kind_cip KString) with T_string. rewrite (decode_string _ _ _ _ _ E H). reflexivity.
Qed.
Print Assumptions C17_string.
Example ex_C17_string : string_slot (str "hello") (le 4 5 ++ str "hello" ++ zeros 77 ++ [0; 0]).
Proof. exists (zeros 77), [0; 0]. repeat split. vm_compute. discriminate. Qed.

Theorem C17_strings : forall S (ctl : controller S) fuel ops s0 s1 otid q tg ss d handle rest,
  named ops tg -> string_slots ss d -> length handle = 2%nat -> 2 <= len ss < 65536 ->
  answers_with ctl s0 otid q (encode tg) (len ss) 0 0xA0 (handle ++ d ++ rest) s1 ->
  client_read_slice fuel ctl (cl_run ops) s0 otid q (text tg) KString (len ss) = (Ok (map GStr ss), s1, q + 1).
Proof.
  intros S ctl fuel ops s0 s1 otid q tg ss d handle rest (V & K & L) E H Ln (x & p & C & A).
  pose proof (C01_lemma ops tg (kind_cip KString) V K) as New.
  unfold client_read_slice. rewrite Z.mod_small by lia. destruct (Z.eqb_spec (len ss) 0); [lia|].
  rewrite (read_single_done _ _ _ _ _ _ _ _ _ _ _ _ _ _ _ New L C A).
  change (kind_cip KString) with T_string. rewrite decode_strings; [|exact E|exact H|unfold len in Ln; lia].
  unfold cast_array. destruct (Z.eqb_spec (len ss) 0); [lia|]. cbn [bind].
  rewrite cast_all_strings, Z.eqb_refl. reflexivity.
Qed.
Print Assumptions C17_strings.
Example ex_C17_strings :
  string_slots [str "a"; str "bc"] ((le 4 1 ++ str "a" ++ zeros 81 ++ [7; 7]) ++ (le 4 2 ++ str "bc" ++ zeros 80 ++ [0; 0]) ++ []).
Proof.
  repeat constructor.
  - exists (zeros 81), [7; 7]. repeat split. vm_compute. discriminate.
  - exists (zeros 80), [0; 0]. repeat split. vm_compute. discriminate.
Qed.

(** The bytes of a structure after its handle. *)
Theorem C17_structure_bytes : forall S (ctl : controller S) fuel ops s0 s1 otid q tg d handle e,
  named ops tg -> length handle = 2%nat ->
  answers_with ctl s0 otid q (encode tg) e 0 0xA0 (handle ++ d) s1 ->
  read_single fuel ctl (cl_run ops) s0 otid q (text tg) 0xA0 e = (Ok (GBytes d), s1, q + 1).
Proof.
  intros S ctl fuel ops s0 s1 otid q tg d handle e (V & K & L) H (x & p & C & A).
  pose proof (C01_lemma ops tg 0xA0 V K) as New.
  rewrite (read_single_done _ _ _ _ _ _ _ _ _ _ _ _ _ _ _ New L C A).
  rewrite decode_struct; [reflexivity|discriminate|exact H].
Qed.
Print Assumptions C17_structure_bytes.
Example ex_C17_structure : fst (fst (read_single 0 (fixed 0 0xA0 [0x34; 0x12; 1; 2; 3]) (cl_run []) [] 7 1
  (text (ex_tag None)) 0xA0 1)) = Ok (GBytes [1; 2; 3]).
Proof. vm_compute. reflexivity. Qed.

(** Any status but success and partial transfer is returned as an error, for
    every way of reading. *)
Theorem C17_status_is_error : forall S (ctl : controller S) fuel ops s0 s1 otid q tg st t d,
  named ops tg -> st <> 0 -> st <> 6 ->
  (forall e, answers_with ctl s0 otid q (encode tg) e st t d s1) ->
  (forall dtype e, read_single fuel ctl (cl_run ops) s0 otid q (text tg) dtype e = (Err (EStatus st), s1, q + 1)) /\
  (forall k, client_read fuel ctl (cl_run ops) s0 otid q (text tg) k = (Err (EStatus st), s1, q + 1)) /\
  (forall k n, n mod 65536 <> 0 ->
   client_read_slice fuel ctl (cl_run ops) s0 otid q (text tg) k n = (Err (EStatus st), s1, q + 1)).
Proof.
  intros S ctl fuel ops s0 s1 otid q tg st t d (V & K & L) N0 N6 C.
  assert (R : forall dtype e, read_single fuel ctl (cl_run ops) s0 otid q (text tg) dtype e = (Err (EStatus st), s1, q + 1)).
  { intros dtype e. destruct (C e) as (x & p & Ce & A). pose proof (C01_lemma ops tg dtype V K) as New.
    now rewrite (read_single_status _ _ _ _ _ _ _ _ _ _ _ _ _ _ _ _ New L Ce A N0 N6). }
  split; [exact R|]. split.
  - intro k. unfold client_read. rewrite R. reflexivity.
  - intros k n Hn. unfold client_read_slice. destruct (Z.eqb_spec (n mod 65536) 0); [congruence|].
    rewrite R. unfold cast_array. destruct (Z.eqb_spec (n mod 65536) 0); [congruence|]. reflexivity.
Qed.
Print Assumptions C17_status_is_error.
Example ex_C17_status : named [] (ex_tag None) /\ forall e,
  answers_with (fun (s : unit) _ => (Ok (0, plain_answer 1 5 0 []), s)) tt 7 1 (encode (ex_tag None)) e 5 0 [] tt.
Proof.
  split; [apply ex_named; exact I|]. intro e. exists 0, (plain_answer 1 5 0 []).
  split; [reflexivity|]. apply plain_answer_ok. vm_compute. reflexivity.
Qed.

(** What is missing: a ULINT that the controller returns is not readable at all, *)
Theorem C17_ulint_refuted : exists (ctl : controller unit) v d,
  encodes 0xC9 v d /\ answers_with ctl tt 7 1 (encode (ex_tag None)) 1 0 0xC9 d tt /\
  forall dtype, is_err (fst (fst (read_single 0 ctl (cl_run []) tt 7 1 (text (ex_tag None)) dtype 1))) = true.
Proof.
  exists (fun s _ => (Ok (0, plain_answer 1 0 0xC9 (le 8 77)), s)), (GInt false 8 77), (le 8 77).
  split; [apply enc_int; [reflexivity|unfold in_range; lia]|].
  assert (An : answer (plain_answer 1 0 0xC9 (le 8 77)) 0 0xC9 (le 8 77)) by (apply plain_answer_ok; vm_compute; reflexivity).
  split; [exists 0; eexists; split; [reflexivity|exact An]|].
  intro dtype. destruct (ex_named None I) as (V & K & L). pose proof (C01_lemma [] _ dtype V K) as New.
  erewrite read_single_done; [|exact New|exact L|reflexivity|exact An].
  cbn [fst]. unfold decode_read. change (201 =? T_struct) with false. change (1 =? 1) with true. cbn iota.
  change (read_value 201 (le 8 77)) with (@Err (gval * bytes) EMsg).
  destruct ((dtype =? T_bool) && negb (201 =? T_bool) && _); reflexivity.
Qed.
Print Assumptions C17_ulint_refuted.

(** a slice of one element never receives its value, *)
Theorem C17_one_element_slice_fails : forall S (ctl : controller S) fuel c s otid q tg k l,
  fst (fst (client_read_slice fuel ctl c s otid q tg k 1)) <> Ok l.
Proof.
  intros. unfold client_read_slice. change (1 mod 65536) with 1. change (1 =? 0) with false. cbn iota.
  pose proof (read_one_not_list ctl fuel c s otid q tg (kind_cip k)) as X.
  destruct (read_single fuel ctl c s otid q tg (kind_cip k) 1) as [[r s2] q2]. cbn [fst] in *.
  destruct r as [v| | |]; try discriminate.
  destruct v as [| | | | | |vs| |]; try discriminate. now specialize (X vs).
Qed.
Print Assumptions C17_one_element_slice_fails.
Theorem C17_one_element_slice_refuted : exists (ctl : controller unit) v d,
  encodes 0xC4 v d /\ answers_with ctl tt 7 1 (encode (ex_tag None)) 1 0 0xC4 d tt /\
  fst (fst (client_read_slice 0 ctl (cl_run []) tt 7 1 (text (ex_tag None)) (KInt true 4) 1)) = Err EMsg.
Proof.
  exists (fun s _ => (Ok (0, plain_answer 1 0 0xC4 (le 4 77)), s)), (GInt true 4 77), (le 4 77).
  split; [apply enc_int; [reflexivity|unfold in_range; lia]|].
  split; [|vm_compute; reflexivity].
  exists 0. eexists. split; [reflexivity|]. apply plain_answer_ok. vm_compute. reflexivity.
Qed.
Print Assumptions C17_one_element_slice_refuted.

(** and an empty slice panics before anything is sent. *)
Theorem C17_empty_slice_panics : forall S (ctl : controller S) fuel c s otid q tg k,
  client_read_slice fuel ctl c s otid q tg k 0 = (Panic, s, q).
Proof. reflexivity. Qed.
Print Assumptions C17_empty_slice_panics.

(** C18.  However the controller splits the tag, the read gives what one reply
    with all of it would have given: the list of elements, or the one element. *)
Theorem C18_fragments_reassembled : forall ops tg otid q t vs mem chunks dtype fuel,
  named ops tg -> encodes_all t vs mem -> t <> 0xC9 -> 2 <= len vs -> len mem < 2 ^ 32 ->
  Forall (fun k => Z.of_nat k < 60000) chunks -> (length chunks + length mem < fuel)%nat ->
  fst (fst (read_single fuel (tag_holder otid (encode tg) (len vs) t mem) (cl_run ops) chunks
              otid q (text tg) dtype (len vs))) = Ok (GList vs).
Proof.
  intros ops tg otid q t vs mem chunks dtype fuel (V & K & L) E N Ln M C F.
  pose proof (C01_lemma ops tg dtype V K) as New.
  assert (NE : vs <> []) by (intros ->; cbn in Ln; lia).
  pose proof (C18_ioi _ _ _ _ fuel otid q (len vs) t mem chunks New L M (encodes_all_struct _ _ _ E NE) C F) as X.
  cbn [ioi_buf] in X. etransitivity; [exact X|]. rewrite <- (app_nil_r mem).
  apply decode_list; [exact E|exact N|exact NE|unfold len in Ln; lia].
Qed.
Print Assumptions C18_fragments_reassembled.
Example ex_C18 : let vs := [GInt true 4 1; GInt true 4 (-2); GInt true 4 3] in
  let mem := le 4 1 ++ le 4 (-2) ++ le 4 3 ++ [] in
  encodes_all 0xC4 vs mem /\
  fst (fst (read_single 20 (tag_holder 7 (encode (ex_tag None)) 3 0xC4 mem) (cl_run []) [3; 0; 6]%nat
    7 1 (text (ex_tag None)) 0xC4 3)) = Ok (GList vs) /\
  (* the controller's first answer is a partial one *)
  answer (fst (serve_from mem 0xC4 1 0 [3; 0; 6]%nat)) 6 0xC4 [1; 0; 0].
Proof.
  cbv zeta. split; [repeat constructor; unfold in_range; cbn; lia|]. split; [vm_compute; reflexivity|].
  apply (plain_answer_ok 1 6 0xC4 [1; 0; 0]). vm_compute. reflexivity.
Qed.

(** Structures (so strings) too large for one reply are refused, not garbled. *)
Theorem C18_structures_refused : forall S (ctl : controller S) fuel ops s0 s1 otid q tg d dtype e,
  named ops tg -> answers_with ctl s0 otid q (encode tg) e 6 0xA0 d s1 ->
  read_single fuel ctl (cl_run ops) s0 otid q (text tg) dtype e = (Err EMsg, s1, q + 1).
Proof.
  intros S ctl fuel ops s0 s1 otid q tg d dtype e (V & K & L) (x & p & C & A).
  pose proof (C01_lemma ops tg dtype V K) as New. unfold read_single. rewrite New. unfold read_single_ioi.
  rewrite read_req_wire by exact L. cbn [ioi_buf]. rewrite C. rewrite (parse_answer _ _ _ _ A). reflexivity.
Qed.
Print Assumptions C18_structures_refused.
Example ex_C18_structures : answers_with (fixed 6 0xA0 [1]) [] 7 1 (encode (ex_tag None)) 1 6 0xA0 [1]
  [read_request 7 1 (encode (ex_tag None)) 1].
Proof. apply (fixed_answers 6 0xA0 [1] []). vm_compute. reflexivity. Qed.

(** C19.  Whatever the controller does, a read that returns a value has received
    partial-transfer replies followed by one success, and its value is made from
    all of their data. *)
Theorem C19_fragment_errors_surface : forall S (ctl : controller S) c fuel s otid q tg dtype e v s' log q',
  (forall s req x p s1, ctl s req = (Ok (x, p), s1) -> bytes_ok p) ->
  read_single fuel (logged ctl) c (s, []) otid q tg dtype e = (Ok v, (s', log), q') ->
  exists answers : list (Z * Z * bytes),
    Forall2 (fun r a => exists x p, r = Ok (x, p) /\ answer p (fst (fst a)) (snd (fst a)) (snd a)) log answers /\
    (exists n, map (fun a => fst (fst a)) answers = repeat 6 n ++ [0]) /\
    (forall t vs rest, t = snd (fst (hd (0, 0, []) answers)) -> t <> 0xC9 -> len vs = e -> 2 <= len vs ->
       encodes_all t vs rest -> concat (map snd answers) = rest -> v = GList vs).
Proof.
  intros S ctl c fuel s otid q tg dtype e v s' log q' B H.
  destruct (C19_ioi ctl c tg dtype fuel s otid q e v s' log q' B H) as (i & answers & _ & F & St & D).
  exists answers. split; [exact F|]. split; [exact St|].
  intros t vs rest Et N Ln L2 E Er. rewrite <- Et, Er in D.
  assert (NE : vs <> []) by (intros ->; cbn in L2; lia).
  rewrite <- Ln, <- (app_nil_r rest) in D. rewrite decode_list in D; [congruence|exact E|exact N|exact NE|].
  unfold len in L2. lia.
Qed.
Print Assumptions C19_fragment_errors_surface.
(** A controller that fails at the second fragment. *)
Example ex_C19 : let ctl := (fun (s : nat) (_ : bytes) =>
      (Ok (0, plain_answer 1 (if (s <? 2)%nat then 6 else 7) 0xC4 [1; 0; 0; 0]), Datatypes.S s)) in
  fst (fst (read_single 9 (logged ctl) (cl_run []) (0%nat, []) 7 1 (text (ex_tag None)) 0xC4 3)) = Err (EStatus 7) /\
  (let ctl2 := (fun (s : nat) (_ : bytes) =>
      (Ok (0, plain_answer 1 (if (s <? 2)%nat then 6 else 0) 0xC4 [1; 0; 0; 0]), Datatypes.S s)) in
   is_ok (fst (fst (read_single 9 (logged ctl2) (cl_run []) (0%nat, []) 7 1 (text (ex_tag None)) 0xC4 3))) = true).
Proof. vm_compute. split; reflexivity. Qed.

(** C20.  Not so: a controller that always answers "more to come" keeps the
    client asking for ever, whatever bound is put on the number of requests. *)
Theorem C20_fragmented_read_ends_refuted : exists ctl : controller unit,
  forall fuel ops tg otid q dtype e, named ops tg ->
  fst (fst (read_single fuel ctl (cl_run ops) tt otid q (text tg) dtype e)) = OutOfFuel.
Proof.
  exists endless. intros fuel ops tg otid q dtype e (V & K & L).
  apply (endless_read _ _ _ _ _ _ _ _ (C01_lemma ops tg dtype V K)).
Qed.
Print Assumptions C20_fragmented_read_ends_refuted.

(** It returns (and does not panic) when partial answers cannot go on for ever,
    strings arrays apart. *)
Theorem C20_fragmented_read_ends_partial : forall S (ctl : controller S) (m : S -> nat) ops tg fuel s otid q dtype e,
  named ops tg ->
  (forall s req x p s1, ctl s req = (Ok (x, p), s1) -> bytes_ok p) ->
  (forall s req, fst (ctl s req) <> OutOfFuel /\ fst (ctl s req) <> Panic) ->
  (forall s req s1 x p t d, ctl s req = (Ok (x, p), s1) -> answer p 6 t d -> (m s1 < m s)%nat) ->
  (dtype <> 0xFF \/ e = 1) -> (m s <= fuel)%nat ->
  exists r, fst (fst (read_single fuel ctl (cl_run ops) s otid q (text tg) dtype e)) = r /\
    r <> OutOfFuel /\ r <> Panic.
Proof.
  intros S ctl m ops tg fuel s otid q dtype e (V & K & L) B R H D F.
  pose proof (C01_lemma ops tg dtype V K) as New.
  destruct (C20_ioi ctl m (cl_run ops) (text tg) dtype fuel s otid q e B R H F) as [X Y];
    [rewrite New; discriminate|exact D|].
  eexists. split; [reflexivity|]. split; [exact X|]. apply Y. rewrite New. discriminate.
Qed.
Print Assumptions C20_fragmented_read_ends_partial.
Lemma plain_ok q st t d : byte_ok st -> byte_ok t -> bytes_ok d -> bytes_ok (plain_answer q st t d).
Proof.
  intros Hs Ht Hd. unfold plain_answer, wire_list, wire_item. cbn [map concat fst snd].
  repeat (apply bytes_ok_app; split); try apply le_ok; try apply bytes_ok_zeros; try exact Hd.
  all: repeat first [apply Forall_nil | apply Forall_cons]; unfold byte_ok in *; try lia.
Qed.
Example ex_C20 : let ctl := (fun (s : nat) (_ : bytes) =>
      (Ok (0, plain_answer 1 (match s with O => 0 | _ => 6 end) 0xC4 [1; 0; 0; 0]), Nat.pred s)) in
  named [] (ex_tag None) /\
  (forall s req x p s1, ctl s req = (Ok (x, p), s1) -> bytes_ok p) /\
  (forall s req s1 x p t d, ctl s req = (Ok (x, p), s1) -> answer p 6 t d -> (s1 < s)%nat) /\
  fst (fst (read_single 3 ctl (cl_run []) 2%nat 7 1 (text (ex_tag None)) 0xC4 2)) = Ok (GList [GInt true 4 1; GInt true 4 1]).
Proof.
  cbv zeta. split; [apply ex_named; exact I|]. split; [|split].
  - intros s req x p s1 E. injection E as <- <- <-. apply plain_ok; [destruct s|..]; try (unfold byte_ok; lia).
    repeat constructor; unfold byte_ok; lia.
  - intros s req s1 x p t d E A. injection E as <- <- <-. destruct s; [|cbn; lia].
    apply parse_answer in A. rewrite (parse_answer _ 0 0xC4 [1;0;0;0]) in A; [discriminate|].
    apply plain_answer_ok. vm_compute. reflexivity.
  - vm_compute. reflexivity.
Qed.

(** C29.  32 n flags from n words, low bit first (n = 1 included; for n >= 2 as an
    array).  The controller may give DWORD or UDINT. *)
Theorem C29_bool_array : forall S (ctl : controller S) fuel ops s0 s1 otid q tg t ws rest,
  named ops tg -> t_bit tg = None -> (t = 0xD3 \/ t = 0xC8) ->
  Forall (fun w => 0 <= w < 2 ^ 32) ws -> 1 <= len ws < 65536 ->
  answers_with ctl s0 otid q (encode tg) (len ws) 0 t (concat (map (le 4) ws) ++ rest) s1 ->
  exists bits, client_read_bools fuel ctl (cl_run ops) s0 otid q (text tg) (32 * len ws) = (Ok bits, s1, q + 1) /\
    len bits = 32 * len ws /\
    forall i, (i < 32 * length ws)%nat ->
      nth i bits false = Z.testbit (nth (i / 32) ws 0) (Z.of_nat (i mod 32)).
Proof.
  intros S ctl fuel ops s0 s1 otid q tg t ws rest Nm B T W Ln An.
  set (vs := map (fun w => GInt false 4 w) ws).
  assert (E : encodes_all t vs (concat (map (le 4) ws))).
  { clear -T W. induction W as [|w ws Hw _ IH]; [constructor|].
    cbn [map concat]. constructor; [|exact IH]. apply enc_int; [|exact Hw]. now destruct T as [-> | ->]. }
  assert (N9 : t <> 0xC9) by (destruct T; subst; discriminate).
  exists (concat (map word_bits ws)).
  assert (Hlen : len (concat (map word_bits ws)) = 32 * len ws) by (unfold len; rewrite words_bits_length; lia).
  split; [|split; [exact Hlen|apply words_bits_nth]].
  unfold client_read_bools. replace (32 * len ws / 32) with (len ws) by lia.
  replace (len ws * 32 =? 32 * len ws) with true by lia. cbn [negb].
  destruct (Z.eqb_spec (len ws) 1) as [L1|L1].
  - destruct ws as [|w [|]]; try (cbn in L1; lia). rewrite L1 in An. cbn [map concat] in An.
    rewrite app_nil_r in An.
    assert (Ew : encodes t (GInt false 4 w) (le 4 w)).
    { apply enc_int; [now destruct T as [-> | ->]|]. now inversion W. }
    destruct (C17_scalar_partial S ctl fuel ops s0 s1 otid q tg t _ _ rest (KInt false 4) Nm B Ew N9 An) as [X _].
    rewrite X by reflexivity. cbn [map concat]. rewrite app_nil_r. reflexivity.
  - assert (Lv : len vs = len ws) by (unfold vs; apply len_map).
    rewrite <- Lv in An. destruct (C17_array_partial S ctl fuel ops s0 s1 otid q tg t vs _ rest (KInt false 4) Nm E N9
      ltac:(lia) An) as [X _].
    rewrite <- Lv. rewrite X.
    + unfold vs. rewrite map_map. reflexivity.
    + unfold vs. apply Forall_map. apply Forall_forall. reflexivity.
Qed.
Print Assumptions C29_bool_array.
Example ex_C29 : exists bits, fst (fst (client_read_bools 0 (fixed 0 0xD3 (le 4 (2 ^ 31 + 1) ++ le 4 2)) (cl_run []) [] 7 1
    (text (ex_tag None)) 64)) = Ok bits /\
  map (fun i => nth i bits false) [0; 1; 31; 32; 33]%nat = [true; false; true; false; true].
Proof. eexists. split; [vm_compute; reflexivity|]. vm_compute. reflexivity. Qed.

(** Lengths that are not a multiple of 32 are refused before anything is sent. *)
Theorem C29_bad_length_refused : forall S (ctl : controller S) fuel c s otid q tg n,
  n mod 32 <> 0 -> exists e, client_read_bools fuel ctl c s otid q tg n = (Err e, s, q).
Proof.
  intros. unfold client_read_bools. destruct (Z.eqb_spec (n / 32 * 32) n); [lia|]. now exists EMsg.
Qed.
Print Assumptions C29_bad_length_refused.
Example ex_C29_bad : 33 mod 32 <> 0. Proof. discriminate. Qed.
