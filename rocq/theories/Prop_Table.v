(* C40: the server's connection table. *)
From Coq Require Import List Bool ZArith Lia.
From Verif Require Import GoBase TableModel TableSpec TableProof.
Import ListNotations.
Local Open Scope Z_scope.

(* For every sequence of opens, lookups and closes: every answer the manager
   gives and every Open flag it leaves are those of a history in which a close
   shuts exactly one open connection with that number, a lookup finds an open
   connection with that number exactly when there is one, and nothing else
   changes. *)
Theorem C40_table : forall os m rs,
  cman_run cman_init os = (m, rs) ->
  trun [] os (cm_heap m) rs.
Proof.
  intros os m rs H. pose proof (run_refines os cman_init good_init) as [_ Hr].
  rewrite H in Hr. exact Hr.
Qed.
Print Assumptions C40_table.

(* Among lookups after any history: a connection is found exactly when one
   with that number is open, by any of the three numbers. *)
Theorem C40_lookup : forall os m rs k,
  cman_run cman_init os = (m, rs) ->
  (conn_get m k <> None <-> exists a, live (cm_heap m) k a) /\
  (forall a, conn_get m k = Some a -> live (cm_heap m) k a).
Proof.
  intros os m rs k H. pose proof (run_refines os cman_init good_init) as [Hg _].
  rewrite H in Hg. cbn [fst] in Hg. pose proof (get_live m k Hg) as Hl.
  unfold conn_get. destruct (find_conn (cm_heap m) k (cm_table m) 0) as [[j a]|].
  - split; [split; [intros _; exists a; exact Hl|discriminate]|].
    intros b Hb. assert (a = b) as <- by congruence. exact Hl.
  - split; [split; [congruence|intros (a & Ha); destruct (Hl a Ha)]|discriminate].
Qed.
Print Assumptions C40_lookup.

(* When connections are closed by serial number, as the server does (server.go
   L558), one is found exactly when more were opened than closed. *)
Theorem C40_count : forall os m rs v,
  cman_run cman_init os = (m, rs) -> Forall by_id os ->
  (conn_get m (KeyID v) <> None <-> (shut_count v os rs < opened v os)%nat).
Proof.
  intros os m rs v H Hid.
  destruct (C40_lookup os m rs (KeyID v) H) as [-> _].
  rewrite <- alive_live.
  pose proof (trun_count v os _ _ _ (C40_table os m rs H) Hid) as Hc.
  cbn [alive] in Hc. lia.
Qed.
Print Assumptions C40_count.

Definition c40_ops : list cop :=
  [ OpAdd 7 100 200 10000 [1; 0]; OpAdd 8 101 201 10000 [1; 1];
    OpAdd 9 102 202 10000 [1; 2]; OpAdd 7 103 203 10000 [1; 0];
    OpClose (KeyID 7); OpGet (KeyOT 103); OpGet (KeyID 7); OpClose (KeyTO 202);
    OpClose (KeyID 9); OpGet (KeyID 8); OpClose (KeyID 7); OpGet (KeyID 7) ].

(* Two connections share serial number 7: the first close shuts the older one
   and the other three stay reachable. *)
Example ex_C40 :
  snd (cman_run cman_init c40_ops) =
    [OutAdd 0; OutAdd 1; OutAdd 2; OutAdd 3; OutClose true; OutGet (Some 3%nat);
     OutGet (Some 3%nat); OutClose true; OutClose false; OutGet (Some 1%nat);
     OutClose true; OutGet None] /\
  map sc_open (cm_heap (fst (cman_run cman_init c40_ops))) =
    [false; true; false; false].
Proof. split; vm_compute; reflexivity. Qed.

Example ex_C40_count :
  Forall by_id (firstn 7 c40_ops) /\
  opened 7 (firstn 7 c40_ops) = 2%nat /\
  shut_count 7 (firstn 7 c40_ops) (snd (cman_run cman_init (firstn 7 c40_ops))) = 1%nat.
Proof.
  split; [|split; vm_compute; reflexivity].
  vm_compute. repeat (apply Forall_cons; [exact I|]). constructor.
Qed.
