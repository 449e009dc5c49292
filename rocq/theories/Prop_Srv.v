(** * C45, C46: the built-in server *)
From Verif Require Import GoBase IoiModel ItemsModel TypesModel ItemsSpec EipModel EipSpec OpenModel TableModel ProvModel ProvSpec SrvModel SrvSpec SrvProof.

(** ** C45

    Full statement: no bytes received on any connection bring the server down.
    It is false (the [_refuted] theorems).  Proved: the server goes down only if
    some connection receives one of the frames [crash_frame] lists: writes of no
    elements, reads of 32768 elements or more, paths that begin with an index,
    offsets below -8 in a multi-service request, Forward Open with an empty path,
    class 1 Forward Open with a requested packet interval of zero.  Missing: those
    frames, providers other than MapTagProvider and tags holding nil. *)

(** Whatever the order in which the connections are served, and whatever the
    program around the server writes meanwhile. *)
Theorem C45_no_crash_partial : forall s es,
  tame (si_srv s) -> si_down s = false -> Forall tame_happening es ->
  (forall p, In p (si_peers s) -> bytes_ok (pe_in p) /\ ~ contains (pe_in p) crash_frame) ->
  si_down (happens s es) = false.
Proof.
  intros s es T D F P. destruct (si_down (happens s es)) eqn:E; [exfalso|reflexivity].
  assert (TS : tame_site s).
  { split; [exact T|]. intros k p I _. apply nth_error_In in I. now apply P. }
  destruct (happens_safe es s TS D F E) as (k & p & I & _ & C). apply nth_error_In in I. now apply (P p).
Qed.
Print Assumptions C45_no_crash_partial.

(** Serving one connection ends, however the bytes look: with an error (the
    connection is closed) or at one of those frames. *)
Theorem C45_serve_ends_partial : forall w, bytes_ok (w_in w) -> tame (w_srv w) ->
  exists r w', serve (S (length (w_in w))) w = (r, w') /\
    ((exists e, r = Err e /\ tame (w_srv w')) \/ (r = Panic /\ contains (w_in w) crash_frame)).
Proof.
  intros w B T. pose proof (serve_ends (S (length (w_in w))) w (Nat.lt_succ_diag_r _) B T) as H.
  destruct (serve _ w) as [[[]|e| |] w']; try contradiction.
  - exists (Err e), w'. split; [reflexivity|]. left. eauto.
  - exists Panic, w'. split; [reflexivity|]. right. auto.
Qed.
Print Assumptions C45_serve_ends_partial.

(** A server as NewServer makes it, with one endpoint holding a number and an
    array; a client has connection 5 open. *)
Definition demo_prov : prov :=
  Prov [(str "speed", PV (GInt true 4 7)); (str "arr", PS (EK (KInt true 2)) 0 0 3)]
       [[PV (GInt true 2 1); PV (GInt true 2 2); PV (GInt true 2 3)]].
Definition demo_attrs : list (Z * gval) :=
  [(1, GInt true 2 0x1776); (2, GInt true 2 0x0E); (3, GInt true 2 1); (4, GInt true 2 0x1412); (5, GInt true 2 0x3060);
   (6, GInt false 4 42); (7, GStr (str "Gologix"))].
Definition demo_server : server :=
  Server (conn_add cman_init (SConn 1 5 6 1000 [1; 0] true)) [([1; 0], 0%nat)] [demo_prov] demo_attrs
    (fun _ => 77) 0 [] (Conv (fun _ z => z) (fun _ _ => 0) (fun _ => [])) [127; 0; 0; 1] 44818.
Definition demo_site (streams : list bytes) : site :=
  Site demo_server (map (fun s => Peer handler_new s [] true) streams) false.
(** Requests. *)
Definition frame_for (cmd : Z) (payload : bytes) : bytes := frame_bytes (Frame cmd 77 0 0x123456789 0 payload).
Definition connected (d : bytes) : bytes := frame_for 0x70 (zeros 6 ++ wire_list [(0xA1, le 4 5); (0xB1, le 2 9 ++ d)]).
Definition unconnected (d : bytes) : bytes := frame_for 0x6F (zeros 6 ++ wire_list [(0, []); (0xB2, d)]).
Definition speed_path : bytes := [0x91; 5; 115; 112; 101; 101; 100; 0].
Definition arr_path : bytes := [0x91; 3; 97; 114; 114; 0].

Lemma demo_tame : tame demo_server.
Proof.
  split.
  - intros p [<-|[]]. split; [|split].
    + intros k v. cbn [pv_data demo_prov mget]. destruct (bseq _ k); [intro E; injection E as <-; discriminate|].
      destruct (bseq _ k); [intro E; injection E as <-; discriminate|discriminate].
    + intros l [<-|[]] [E|[E|[E|[]]]]; discriminate.
    + intros k e a o n. cbn [pv_data demo_prov mget]. destruct (bseq _ k); [discriminate|].
      destruct (bseq _ k); [|discriminate]. intro E. injection E as <- <- <- <-. cbn. lia.
  - intros k [E|[E|[E|[E|[E|[E|[E|[]]]]]]]]; discriminate.
Qed.
Lemma bytes_okb (l : bytes) : forallb (fun x => (0 <=? x) && (x <? 256)) l = true -> bytes_ok l.
Proof. rewrite forallb_forall. intro H. apply Forall_forall. intros x I. specialize (H x I). unfold byte_ok. lia. Qed.

(** The frames below do bring it down, whatever else it is doing. *)
Theorem C45_write_nothing_refuted : exists f, bytes_ok f /\ f = connected ([0x4D; 4] ++ speed_path ++ [0xC4; 0; 0; 0]) /\
  si_down (happens (demo_site [f]) [Turn 0]) = true.
Proof. eexists. split; [|split; [reflexivity|vm_compute; reflexivity]]. apply bytes_okb. vm_compute. reflexivity. Qed.
Print Assumptions C45_write_nothing_refuted.
Theorem C45_read_many_refuted : exists f, bytes_ok f /\ f = connected ([0x4C; 3] ++ arr_path ++ [0; 0x80]) /\
  si_down (happens (demo_site [f]) [Turn 0]) = true.
Proof. eexists. split; [|split; [reflexivity|vm_compute; reflexivity]]. apply bytes_okb. vm_compute. reflexivity. Qed.
Print Assumptions C45_read_many_refuted.
Theorem C45_index_first_refuted : exists f, bytes_ok f /\ f = connected ([0x4C; 1] ++ [0x28; 0] ++ [1; 0]) /\
  si_down (happens (demo_site [f]) [Turn 0]) = true.
Proof. eexists. split; [|split; [reflexivity|vm_compute; reflexivity]]. apply bytes_okb. vm_compute. reflexivity. Qed.
Print Assumptions C45_index_first_refuted.
Theorem C45_multi_offset_refuted : exists f, bytes_ok f /\ f = connected [0x0A; 2; 0x20; 2; 0x24; 1; 1; 0; 0; 0x80] /\
  si_down (happens (demo_site [f]) [Turn 0]) = true.
Proof. eexists. split; [|split; [reflexivity|vm_compute; reflexivity]]. apply bytes_okb. vm_compute. reflexivity. Qed.
Print Assumptions C45_multi_offset_refuted.
(** No connection is needed for the next ones. *)
Theorem C45_open_refuted : exists f, bytes_ok f /\ f = unconnected (0x54 :: zeros 41) /\
  si_down (happens (demo_site [f]) [Turn 0]) = true.
Proof. eexists. split; [|split; [reflexivity|vm_compute; reflexivity]]. apply bytes_okb. vm_compute. reflexivity. Qed.
Print Assumptions C45_open_refuted.
Theorem C45_io_interval_refuted : exists f, bytes_ok f /\ f = unconnected (0x54 :: zeros 39 ++ [1; 1; 1; 0]) /\
  si_down (happens (demo_site [f]) [Turn 0]) = true.
Proof. eexists. split; [|split; [reflexivity|vm_compute; reflexivity]]. apply bytes_okb. vm_compute. reflexivity. Qed.
Print Assumptions C45_io_interval_refuted.
Theorem C45_embedded_refuted : exists f, bytes_ok f /\
  f = unconnected ([0x52; 2; 0x20; 6; 0x24; 1; 5; 10; 14; 0; 0x4D; 4] ++ speed_path ++ [0xC4; 0; 0; 0; 1; 0; 1; 0]) /\
  si_down (happens (demo_site [f]) [Turn 0]) = true.
Proof. eexists. split; [|split; [reflexivity|vm_compute; reflexivity]]. apply bytes_okb. vm_compute. reflexivity. Qed.
Print Assumptions C45_embedded_refuted.
(** So does a tag holding nil, once it is read. *)
Theorem C45_nil_tag_refuted : exists f, bytes_ok f /\ f = connected ([0x4C; 4] ++ speed_path ++ [1; 0]) /\
  si_down (happens (demo_site [f]) [Host 0 (str "speed") (GiveOne GNil); Turn 0]) = true.
Proof. eexists. split; [|split; [reflexivity|vm_compute; reflexivity]]. apply bytes_okb. vm_compute. reflexivity. Qed.
Print Assumptions C45_nil_tag_refuted.

(** Two clients at work, one sending rubbish, and the program writing: nothing
    happens to the server. *)
Definition good_read : bytes := connected ([0x4C; 4] ++ speed_path ++ [1; 0]).
Definition good_write : bytes := connected ([0x4D; 4] ++ speed_path ++ [0xC4; 0; 1; 0; 9; 0; 0; 0]).
Definition rubbish : bytes := frame_for 0x70 [1; 2; 3; 4; 5; 6; 200; 0; 1].
Definition busy : list happening := [Turn 0; Turn 1; Host 0 (str "other") (GiveOne (GBool true)); Turn 0; Turn 1; Turn 7].
Lemma no_crash_frame_short s : (length s < 40)%nat -> ~ contains s crash_frame.
Proof.
  intros L (a & f & b & -> & C). rewrite !app_length in L.
  assert (H : (40 <= length f)%nat).
  { destruct C as [hdr six x id d L1 _ L2 _|hdr six id x h d L1 _ L2 _ _|hdr six id x d L1 _ L2 _];
      rewrite !app_length, L1, L2; unfold wire_list, wire_item; cbn [map concat fst snd]; rewrite !app_length, !le_length; cbn [length]; lia. }
  lia.
Qed.
Example ex_C45 : tame demo_server /\ Forall tame_happening busy /\
  (forall p, In p (si_peers (demo_site [rubbish; firstn 39 good_read])) -> bytes_ok (pe_in p) /\ ~ contains (pe_in p) crash_frame) /\
  si_down (happens (demo_site [rubbish; firstn 39 good_read]) busy) = false /\
  map pe_open (si_peers (happens (demo_site [rubbish; firstn 39 good_read]) busy)) = [false; false].
Proof.
  split; [exact demo_tame|]. split.
  { repeat (apply Forall_cons; [cbn; try exact I; discriminate|]). constructor. }
  split; [|split; vm_compute; reflexivity].
  intros p [<-|[<-|[]]]; (split; [apply bytes_okb; vm_compute; reflexivity|apply no_crash_frame_short; vm_compute; lia]).
Qed.
Example ex_C45_work : si_down (happens (demo_site [good_write ++ good_read; good_read]) [Turn 1; Turn 0; Turn 0]) = false /\
  map (fun p => length (pe_sent p)) (si_peers (happens (demo_site [good_write ++ good_read; good_read]) [Turn 1; Turn 0; Turn 0])) = [2; 1]%nat.
Proof. split; vm_compute; reflexivity. Qed.

(** ** C46

    Full statement: every complete request the server accepts (its handler
    reports no error) is answered exactly once, with the request's sender context
    and the session's handle.  Missing: the requests [unanswered] lists. *)

(** One turn of a connection, from any state: at most one frame is sent, with the
    sender context of the frame at the head of the stream and the connection's
    session handle; exactly one if the handler reports no error and the request
    is not one of the unanswered kinds. *)
Theorem C46_one_reply_partial : forall w, bytes_ok (w_in w) ->
  let r := fst (serve_one w) in let w' := snd (serve_one w) in
  exists fs, w_sent w' = w_sent w ++ fs /\ (length fs <= 1)%nat /\
    (forall f, In f fs -> context_of f = context_of (w_in w) /\ session_of f = le 4 (h_handle (w_h w'))) /\
    (r = Ok tt -> ~ unanswered (w_in w) -> length fs = 1%nat).
Proof.
  intros w B. cbv zeta. destruct (serve_one_replies w B) as (fs & S & L & C & O & _).
  exists fs. auto.
Qed.
Print Assumptions C46_one_reply_partial.
(** The session handle only changes when a session is registered. *)
Theorem C46_handle_kept : forall w, bytes_ok (w_in w) -> firstn 2 (w_in w) <> [0x65; 0] ->
  h_handle (w_h (snd (serve_one w))) = h_handle (w_h w).
Proof. intros w B N. destruct (serve_one_replies w B) as (fs & _ & _ & _ & _ & H). auto. Qed.
Print Assumptions C46_handle_kept.

Example ex_C46 : let w := World demo_server (Handler 77 0 0 5 6 0) (good_read ++ good_write) [] in
  bytes_ok (w_in w) /\ fst (serve_one w) = Ok tt /\
  context_of (w_in w) = [0x89; 0x67; 0x45; 0x23; 1; 0; 0; 0] /\ w_in (snd (serve_one w)) = good_write /\
  w_sent (snd (serve_one w)) =
    [frame_bytes (Frame 0x70 77 0 0x123456789 0
       (zeros 6 ++ wire_list [(0xA1, le 4 6); (0xB1, le 2 9 ++ [0xCC; 0; 0; 0; 0xC4; 0; 7; 0; 0; 0])]))].
Proof. cbv zeta. split; [apply bytes_okb; vm_compute; reflexivity|]. split; [|split; [|split]]; vm_compute; reflexivity. Qed.
Example ex_C46_answered : ~ unanswered good_read.
Proof.
  assert (C : firstn 2 good_read = [0x70; 0]) by reflexivity.
  intro U. generalize dependent good_read. intros g C U.
  destruct U as [f N|hdr six x y i d r L1 F L6 _ _ _|hdr six x y d r L1 F L6].
  - apply N. rewrite C. right; right; left. reflexivity.
  - rewrite firstn_app in C. replace (2 - length hdr)%nat with O in C by lia.
    rewrite firstn_O, app_nil_r, F in C. discriminate C.
  - rewrite firstn_app in C. replace (2 - length hdr)%nat with O in C by lia.
    rewrite firstn_O, app_nil_r, F in C. discriminate C.
Qed.

(** Closing a connection is never answered: a client waiting for the reply (its
    own Disconnect does) runs into its timeout. *)
Theorem C46_close_unanswered_refuted : exists f w', bytes_ok f /\
  f = unconnected ([0x4E; 2; 0x20; 6; 0x24; 1; 10; 14; 1; 0; 0; 0; 0; 0; 0; 0; 2; 1; 0; 1; 0]) /\
  serve_one (World demo_server handler_new f []) = (Ok tt, w') /\ w_in w' = [] /\ w_sent w' = [].
Proof.
  eexists _, _. split; [|split; [reflexivity|split; [vm_compute; reflexivity|split; reflexivity]]].
  apply bytes_okb. vm_compute. reflexivity.
Qed.
Print Assumptions C46_close_unanswered_refuted.
(** A command the server does not know is not answered either, and its data stays
    in the stream and is taken for the next header. *)
Theorem C46_unknown_command_refuted : exists f w' w'', bytes_ok f /\ f = frame_for 0x66 (zeros 24) /\
  serve_one (World demo_server handler_new (f ++ good_read) []) = (Ok tt, w') /\ w_sent w' = [] /\
  serve_one w' = (Ok tt, w'') /\ w_in w'' = good_read /\ w_sent w'' = [].
Proof.
  eexists _, _, _. split; [|split; [reflexivity|split; [vm_compute; reflexivity|split; [reflexivity|split; [vm_compute; reflexivity|]]]]].
  - apply bytes_okb. vm_compute. reflexivity.
  - split; vm_compute; reflexivity.
Qed.
Print Assumptions C46_unknown_command_refuted.

(** ** C39 with the server as the reading peer

    The server does not look at the length in the header.  It takes exactly the
    frame when the data is as long as the command calls for, which it is in
    everything the client sends, ... *)
Theorem C39_server_takes_frame_partial : forall w f rest w',
  tame (w_srv w) -> frame_ok f -> bytes_ok (frame_bytes f) -> whole_request f -> w_in w = frame_bytes f ++ rest ->
  serve_one w = (Ok tt, w') -> w_in w' = rest.
Proof. intros w f rest w' T FO B W I. exact (serve_takes_frame w f rest T FO B I W w'). Qed.
Print Assumptions C39_server_takes_frame_partial.
Example ex_C39_server : let f := Frame 0x70 77 0 5 0 (zeros 6 ++ wire_list [(0xA1, le 4 5); (0xB1, le 2 9 ++ [0x4C; 4] ++ speed_path ++ [1; 0])]) in
  frame_ok f /\ bytes_ok (frame_bytes f) /\ whole_request f /\
  exists w', serve_one (World demo_server handler_new (frame_bytes f ++ [1; 2; 3]) []) = (Ok tt, w') /\ w_in w' = [1; 2; 3].
Proof.
  cbv zeta. split; [unfold frame_ok; cbn; lia|]. split; [apply bytes_okb; vm_compute; reflexivity|]. split.
  - apply wr_items; [now left|reflexivity|]. split; [vm_compute; reflexivity|].
    repeat (apply Forall_cons; [split; [cbn; lia|vm_compute; reflexivity]|]). constructor.
  - eexists. split; vm_compute; reflexivity.
Qed.
(** ... and not otherwise: what follows the last item is taken for the next
    header. *)
Theorem C39_server_ignores_length_refuted : exists f w', frame_ok f /\ bytes_ok (frame_bytes f) /\
  serve_one (World demo_server handler_new (frame_bytes f ++ good_read) []) = (Ok tt, w') /\
  w_in w' = [1; 2; 3] ++ good_read.
Proof.
  exists (Frame 0x70 77 0 5 0 (zeros 6 ++ wire_list [(0xA1, le 4 5); (0xB1, le 2 9 ++ [0x4C; 4] ++ speed_path ++ [1; 0])] ++ [1; 2; 3])).
  eexists. split; [unfold frame_ok; cbn; lia|]. split; [apply bytes_okb; vm_compute; reflexivity|].
  split; vm_compute; reflexivity.
Qed.
Print Assumptions C39_server_ignores_length_refuted.
