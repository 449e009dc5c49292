(** * C108: one client used by several goroutines *)
From Verif Require Import GoBase IoiModel ConnModel ShareModel ShareSpec ShareProof.

(** In every interleaving of lookups, listings and buffers being set up, a lookup
    returns what a client that never looked up anything before would make of the
    name, with the tag list and firmware of some moment during the call. *)
Theorem C108_answer : forall n before s t p d ms s' p' d' r rest,
  share_run (share0 n) before = Some s -> nth_error (tb_jobs s) t = Some (Want p d) ->
  share_run s ms = Some s' -> back_to t s' = back_to t s ++ (p', d', r) :: rest ->
  p' = p /\ d' = d /\
  exists a b s1, ms = a ++ b /\ share_run s a = Some s1 /\ r = fresh s1 p d.
Proof.
  intros n before s t p d ms s' p' d' r rest R E H B.
  destruct (answers ms s t (Want p d) p d p' d' r rest s' (inv_run before _ _ (inv0 n) R) E False (conj eq_refl eq_refl) H B)
    as (A1 & A2 & [[]|A3]).
  split; [exact A1|split; [exact A2|exact A3]].
Qed.
Print Assumptions C108_answer.

(** Nobody waits for ever for the lock: while a goroutine is in a call, some
    goroutine can go on, whatever the controller answers about its firmware. *)
Theorem C108_goes_on : forall n ms s t, share_run (share0 n) ms = Some s -> busy s t -> can_go s.
Proof. exact progress. Qed.
Print Assumptions C108_goes_on.

(** As long as nobody lists tags, no two goroutines meet in a map.  Missing: the
    listings, of the program or of the keep-alive. *)
Theorem C108_no_clash_partial : forall n ms s, no_listing ms -> share_run (share0 n) ms = Some s -> ~ clash s.
Proof. exact no_clash. Qed.
Print Assumptions C108_no_clash_partial.

(** Nor when one goroutine lists, no buffer is set up, and the controller's firmware
    is so old that lookups leave the tag list alone. *)
Theorem C108_one_listing_partial : forall n l ms s, one_listing l ms -> share_run (share0 n) ms = Some s -> ~ clash s.
Proof. exact one_clash. Qed.
Print Assumptions C108_one_listing_partial.

Definition name_a : bytes := [65].
Definition dint_tag : known_tag := {| kt_type := 0xC4; kt_instance := 7; kt_parent := None |}.
Definition low_a : bytes := [97].
Definition t_dint := 0xC4.
Definition v32 := 32.
Definition v20 := 20.
Definition one_tag : list (bytes * known_tag) := [(low_a, dint_tag)].

(** A read while another goroutine, such as the keep-alive, lists the tags. *)
Definition read_and_list : list (nat * smove) :=
  [(1, SCall (Listing one_tag)); (0, SCall (Want name_a t_dint)); (0, SGo); (0, SFirm v32); (1, SGo)]%nat.
Theorem C108_refuted : exists n ms s, share_run (share0 n) ms = Some s /\ clash s.
Proof.
  exists 2%nat, read_and_list. eexists. split; [vm_compute; reflexivity|].
  exists 0%nat, 1%nat. eexists _, _, TKnown, false, true. repeat split; try reflexivity. discriminate.
Qed.
Print Assumptions C108_refuted.
(** Two listings. *)
Theorem C108_listings_refuted : exists n ms s,
  (forall t m, In (t, m) ms -> match m with SCall (Listing _) | SGo => True | _ => False end) /\
  share_run (share0 n) ms = Some s /\ clash s.
Proof.
  exists 2%nat, [(0, SCall (Listing one_tag)); (1, SCall (Listing one_tag)); (0, SGo); (1, SGo)]%nat.
  eexists. split; [|split; [vm_compute; reflexivity|]].
  - intros t m H. repeat (destruct H as [H|H]; [injection H as <- <-; exact I|]). destruct H.
  - exists 0%nat, 1%nat. eexists _, _, TKnown, true, true. repeat split; try reflexivity. discriminate.
Qed.
Print Assumptions C108_listings_refuted.
(** A tag is added to a buffer during a listing, whatever the firmware. *)
Theorem C108_buffer_refuted : exists n l ms s,
  (forall t m, In (t, m) ms -> match m with SCall (Listing _) => t = l | SCall (Size _) | SGo => True | _ => False end) /\
  share_run (share0 n) ms = Some s /\ clash s.
Proof.
  exists 2%nat, 0%nat, [(0, SCall (Listing one_tag)); (1, SCall (Size low_a)); (0, SGo); (1, SGo)]%nat.
  eexists. split; [|split; [vm_compute; reflexivity|]].
  - intros t m H. repeat (destruct H as [H|H]; [injection H as <- <-; exact I || reflexivity|]). destruct H.
  - exists 0%nat, 1%nat. eexists _, _, TKnown, true, false. repeat split; try reflexivity. discriminate.
Qed.
Print Assumptions C108_buffer_refuted.

(** Two goroutines look up A at the same time, one of them has to wait; both get the
    encoding, the second from the cache. *)
Definition two_lookups : list (nat * smove) :=
  [(0, SCall (Want name_a t_dint)); (1, SCall (Want name_a t_dint)); (0, SGo); (0, SFirm v20); (0, SGo); (0, SGo); (0, SGo);
   (1, SGo); (1, SGo); (1, SGo); (1, SGo)]%nat.
Example ex_C108 :
  no_listing two_lookups /\ one_listing 5 two_lookups /\
  (exists s, share_run (share0 2) two_lookups = Some s /\
     tb_back s = [(0%nat, (name_a, 0xC4, Ok {| ioi_buf := [0x91; 1; 97; 0]; ioi_bit := false; ioi_bitpos := 0 |}));
                  (1%nat, (name_a, 0xC4, Ok {| ioi_buf := [0x91; 1; 97; 0]; ioi_bit := false; ioi_bitpos := 0 |}))] /\
     length (tb_cache s) = 1%nat) /\
  (* the second cannot get in while the first is in there *)
  (exists s, share_run (share0 2) (firstn 3 two_lookups) = Some s /\ busy s 1 /\ share_move s 1 SGo = None /\ can_go s) /\
  (* a lookup around a listing: the tag is known by number at the moment it is looked up *)
  (exists s s', share_run (share0 2) [(0, SCall (Want name_a t_dint))]%nat = Some s /\
     share_run s [(1, SCall (Listing one_tag)); (1, SGo); (1, SGo); (0, SGo); (0, SFirm v32); (0, SGo); (0, SGo)]%nat = Some s' /\
     back_to 0 s' = back_to 0 s ++ [(name_a, 0xC4, Ok {| ioi_buf := [0x20; 0x6B; 0x24; 7]; ioi_bit := false; ioi_bitpos := 0 |})] /\
     fresh s name_a 0xC4 <> Ok {| ioi_buf := [0x20; 0x6B; 0x24; 7]; ioi_bit := false; ioi_bitpos := 0 |}).
Proof.
  split; [|split; [|split; [|split]]].
  - intros t m H. repeat (destruct H as [H|H]; [injection H as <- <-; exact I|]). destruct H.
  - intros t m H. repeat (destruct H as [H|H]; [injection H as <- <-; first [exact I | apply Z.leb_le; reflexivity]|]). destruct H.
  - eexists. split; [vm_compute; reflexivity|split; reflexivity].
  - eexists. split; [vm_compute; reflexivity|split; [|split; [reflexivity|]]].
    + eexists. split; [reflexivity|discriminate].
    + exists 0%nat, (SFirm 0). eexists. split; [reflexivity|exact I].
  - eexists _, _. split; [vm_compute; reflexivity|split; [vm_compute; reflexivity|split; [reflexivity|vm_compute; discriminate]]].
Qed.
