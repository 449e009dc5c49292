(** * C116: where I/O data goes *)
From Verif Require Import GoBase IoiProof AddrModel.

(** The texts of IP addresses, as far as they matter: IPv4 has digits and dots... *)
Definition v4_text (a b c d : Z) : bytes := dec a ++ str "." ++ dec b ++ str "." ++ dec c ++ str "." ++ dec d.
(** ... IPv6 hexadecimal digits up to its first colon. *)
Definition hex_digit (c : Z) : Prop := 48 <= c <= 57 \/ 97 <= c <= 102.
Definition v6_text (host : bytes) : Prop := exists group rest, host = group ++ 58 :: rest /\ Forall hex_digit group.

Lemma colon_in s : has_colon s = true <-> In 58 s.
Proof.
  unfold has_colon. rewrite existsb_exists. split; [intros (x & I & E); apply Z.eqb_eq in E; now subst|intros I; exists 58; split; [exact I|reflexivity]].
Qed.
Lemma exists_in c s : existsb (Z.eqb c) s = true <-> In c s.
Proof. rewrite existsb_exists. split; [intros (x & I & E); apply Z.eqb_eq in E; now subst|intros I; exists c; split; [exact I|apply Z.eqb_refl]]. Qed.
Lemma not_exists c s : ~ In c s -> existsb (Z.eqb c) s = false.
Proof. intros N. destruct (existsb (Z.eqb c) s) eqn:E; [|reflexivity]. now apply exists_in in E. Qed.
Lemma at_last_none c s : ~ In c s -> at_last c s = None.
Proof.
  induction s as [|x s IH]; intros N; [reflexivity|]. cbn [at_last]. rewrite IH by (intros I; apply N; now right).
  destruct (Z.eqb_spec x c); [exfalso; apply N; now left|reflexivity].
Qed.
Lemma at_last_app c a b : ~ In c b -> at_last c (a ++ c :: b) = Some (a, b).
Proof.
  intros N. induction a as [|x a IH]; cbn [app at_last].
  - now rewrite (at_last_none c b N), Z.eqb_refl.
  - now rewrite IH.
Qed.
Lemma v4_chars a b c d x : 0 <= a -> 0 <= b -> 0 <= c -> 0 <= d -> In x (v4_text a b c d) -> 46 <= x <= 57.
Proof.
  intros A B C D I. unfold v4_text in I.
  assert (Dg : forall z, 0 <= z -> In x (dec z) -> 46 <= x <= 57).
  { intros z Z0 H. pose proof (dec_digits z Z0) as F. rewrite Forall_forall in F. specialize (F x H). lia. }
  rewrite !in_app_iff in I. change (str ".") with [46] in I. cbn [In] in I.
  destruct I as [I|[I|[I|[I|[I|[I|I]]]]]]; try (destruct I as [<-|[]]; lia);
    [apply (Dg a A I)|apply (Dg b B I)|apply (Dg c C I)|apply (Dg d D I)].
Qed.

(** ** C116

    Full statement: the data of a cyclic connection goes to the address its Forward
    Open came from, UDP port 2222.  Proved for IPv4. *)
Theorem C116_v4_partial : forall a b c d port, 0 <= a -> 0 <= b -> 0 <= c -> 0 <= d -> 0 <= port ->
  io_target (v4_text a b c d) port = Ok (v4_text a b c d, str "2222").
Proof.
  intros a b c d port A B C D P. set (h := v4_text a b c d).
  assert (V : forall x, In x h -> 46 <= x <= 57) by (intros x; now apply v4_chars).
  assert (N : forall x, ~ (46 <= x <= 57) -> ~ In x h) by (intros x X I; now apply V in I).
  unfold io_target, remote_addr, join_host_port. unfold has_colon. rewrite (not_exists 58 h) by (apply N; lia).
  unfold io_addr. change (str ":" ++ dec port) with (58 :: dec port). rewrite split_app_sep by (apply N; lia). cbn [hd].
  unfold split_host_port. change (str ":2222") with (58 :: str "2222").
  rewrite at_last_app by (cbn; lia). unfold has_colon. rewrite !not_exists by (apply N; lia).
  destruct h as [|x h'] eqn:E; [reflexivity|]. cbn [app orb].
  assert (X : 46 <= x <= 57) by (apply V; now left). destruct x as [|x|x]; try lia.
  do 7 (try (destruct x as [x|x|]; try lia; try reflexivity)).
Qed.
Print Assumptions C116_v4_partial.
Example ex_C116_v4 : v4_text 192 168 2 10 = str "192.168.2.10" /\ remote_addr (v4_text 192 168 2 10) 44818 = str "192.168.2.10:44818" /\
  io_addr (remote_addr (v4_text 192 168 2 10) 44818) = str "192.168.2.10:2222".
Proof. repeat split; reflexivity. Qed.

(** With IPv6, whatever the address, there is no data at all: the address is cut
    inside the brackets, dialling fails and the goroutine ends; the Forward Open
    has been answered as a success before. *)
Theorem C116_v6_fails : forall host port, v6_text host -> io_target host port = Err EMsg.
Proof.
  intros host port (g & rest & -> & G).
  assert (N : forall x, ~ hex_digit x -> ~ In x g) by (intros x X I; rewrite Forall_forall in G; now apply X, G).
  unfold io_target, remote_addr, join_host_port. replace (has_colon (g ++ 58 :: rest)) with true by (symmetry; apply colon_in, in_elt).
  unfold io_addr. replace (str "[" ++ (g ++ 58 :: rest) ++ str "]:" ++ dec port) with ((91 :: g) ++ 58 :: (rest ++ str "]:" ++ dec port)) by (cbn [app]; rewrite <- app_assoc; reflexivity).
  rewrite split_app_sep. 2:{ intros [X|I]; [discriminate|]. revert I. apply N. unfold hex_digit. lia. }
  cbn [hd]. unfold split_host_port. change (str ":2222") with (58 :: str "2222"). rewrite at_last_app by (cbn; lia). cbn [app].
  rewrite split_none; [reflexivity|]. intros [X|I]; [discriminate|]. apply in_app_iff in I as [I|I]; [|cbn in I; lia].
  revert I. apply N. unfold hex_digit. lia.
Qed.
Print Assumptions C116_v6_fails.
Example ex_C116_v6 : v6_text (str "fe80::1%eth0") /\ v6_text (str "::1") /\ remote_addr (str "::1") 50000 = str "[::1]:50000" /\
  io_addr (remote_addr (str "::1") 50000) = str "[:2222".
Proof.
  split; [exists (str "fe80"), (str ":1%eth0"); split; [reflexivity|repeat constructor; unfold hex_digit; cbn; lia]|].
  split; [exists [], (str ":1"); split; [reflexivity|constructor]|]. split; reflexivity.
Qed.
Theorem C116_refuted : exists host port, v6_text host /\ forall p, io_target host port <> Ok (host, p).
Proof.
  exists (str "::1"), 50000. assert (V : v6_text (str "::1")) by apply ex_C116_v6. split; [exact V|].
  intros p. rewrite (C116_v6_fails _ 50000 V). discriminate.
Qed.
Print Assumptions C116_refuted.
