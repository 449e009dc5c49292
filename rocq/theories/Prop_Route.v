(** * C103: requests act on the tags of their route *)
From Verif Require Import GoBase IoiModel ItemsModel TypesModel ItemsSpec EipModel EipSpec OpenModel TableModel ProvModel ProvProof ProvSpec SrvModel SrvSpec
  SrvProof Prop_Srv RouteSpec RouteProof.

(** ** C103

    Full statement: a request is served by the provider registered for its route:
    the route the connection was opened with, or the route an Unconnected Send
    carries.  It reads and changes the tags of no other provider.

    Proved of every frame and state: what the server answers, and what becomes of
    the connection, does not depend on the tags of providers the frame is not
    meant for, and those are left as they are ([C103_frame]); and so for whole
    courses of events on all connections, whatever the program writes to other
    providers ([C103_course]).  [meant_for] has the exceptions to the full
    statement, both false of the code: attribute requests are for the tags at
    route 1,0 whatever route they carry ([C103_attribute_refuted]), and a
    connection's route is cut to its first hop ([C103_hops_refuted]). *)
Theorem C103_frame : forall J s t h f sent, bytes_ok f -> alike J s t -> (forall j, meant_for s f j -> J j) ->
  let '(r, v) := serve_one (World s h f sent) in
  let '(r', v') := serve_one (World t h f sent) in
  r' = r /\ w_sent v' = w_sent v /\ w_in v' = w_in v /\ w_h v' = w_h v /\ alike J (w_srv v) (w_srv v') /\ untouched J s (w_srv v).
Proof.
  intros J s t h f sent B A H.
  assert (L : like J (World s h f sent) (World t h f sent)) by (constructor; auto).
  pose proof (both_serve_one J (World s h f sent) (World t h f sent) B L H) as (E & L' & K & _).
  destruct (serve_one (World s h f sent)) as [r v], (serve_one (World t h f sent)) as [r' v']. cbn [fst snd] in *.
  destruct L' as [S Hh I O]. auto 8.
Qed.
Print Assumptions C103_frame.

Record site_alike (J : nat -> Prop) (s t : site) : Prop := SiteAlike {
  sa_srv : alike J (si_srv s) (si_srv t); sa_peers : si_peers t = si_peers s; sa_down : si_down t = si_down s }.
Definition clean (s : site) : Prop := forall p, In p (si_peers s) -> bytes_ok (pe_in p).
Lemma in_setn {A} (l : list A) i x y : In y (setn l i x) -> y = x \/ In y l.
Proof.
  revert i. induction l as [|z l IH]; intros [|i]; cbn [setn In]; auto.
  - intros [->|H]; auto.
  - intros [->|H]; auto. destruct (IH i H); auto.
Qed.
Lemma host_alike J s t i tag v : alike J s t ->
  alike J (set_prov i (fst (write_given (sv_conv s) (prov_at s i) tag v)) s) (set_prov i (fst (write_given (sv_conv t) (prov_at t i) tag v)) t).
Proof.
  intros S. pose proof (al_provs _ _ _ S) as P. pose proof (alike_prov J s t i S) as Q. rewrite (al_conv _ _ _ S).
  destruct S. constructor; cbn; try assumption. intros j Jj. destruct (Nat.eq_dec j i) as [->|N].
  - rewrite (Q Jj). apply setn_alike; auto.
  - rewrite !setn_other by exact N. now apply P.
Qed.
Lemma host_aside J s i tag v : ~ J i -> alike J s (set_prov i (fst (write_given (sv_conv s) (prov_at s i) tag v)) s).
Proof.
  intros N. constructor; try reflexivity. intros j Jj. cbn. apply setn_other. now intros ->.
Qed.
Lemma alike_sym J s t : alike J s t -> alike J t s.
Proof. intros []. constructor; auto. intros j Jj. symmetry. auto. Qed.
Lemma alike_trans J s t u : alike J s t -> alike J t u -> alike J s u.
Proof.
  intros A B. pose proof (al_provs _ _ _ A) as P. pose proof (al_provs _ _ _ B) as Q. destruct A, B. constructor; try congruence.
  intros j Jj. rewrite Q by exact Jj. auto.
Qed.
Lemma happen_host s i tag v : si_down s = false ->
  happen s (Host i tag v) = Site (set_prov i (fst (write_given (sv_conv (si_srv s)) (prov_at (si_srv s) i) tag v)) (si_srv s)) (si_peers s) false.
Proof. intro D. unfold happen. rewrite D. now destruct (write_given _ _ _ _). Qed.
Lemma happen_down s e : si_down s = true -> happen s e = s.
Proof. intro D. unfold happen. now rewrite D. Qed.

Lemma happen_alike J s t e : clean s -> site_alike J s t ->
  (forall k p, e = Turn k -> nth_error (si_peers s) k = Some p -> forall j, meant_for (si_srv s) (pe_in p) j -> J j) ->
  site_alike J (happen s e) (happen t e) /\ clean (happen s e).
Proof.
  intros C A H. pose proof A as [S P D]. destruct (si_down s) eqn:Ds.
  { rewrite !happen_down by congruence. auto. }
  destruct e as [k|i tag v].
  2:{ rewrite !happen_host by congruence. split; [|exact C]. constructor; cbn [si_srv si_peers si_down]; auto. now apply host_alike. }
  unfold happen. rewrite D, Ds, P. destruct (nth_error (si_peers s) k) as [p|] eqn:E; [|auto].
  destruct (pe_open p) eqn:O; cbn [negb]; [|auto].
  assert (B : bytes_ok (pe_in p)) by (apply C; eapply nth_error_In; eassumption).
  assert (L : like J (World (si_srv s) (pe_h p) (pe_in p) (pe_sent p)) (World (si_srv t) (pe_h p) (pe_in p) (pe_sent p))) by (constructor; auto).
  pose proof (both_serve_one J (World (si_srv s) (pe_h p) (pe_in p) (pe_sent p)) (World (si_srv t) (pe_h p) (pe_in p) (pe_sent p)) B L (H k p eq_refl E)) as (Er & L' & _ & Kb).
  destruct (serve_one (World (si_srv s) _ _ _)) as [r v], (serve_one (World (si_srv t) _ _ _)) as [r' v']. cbn [fst snd w_in] in *. subst r'.
  destruct L' as [Sv Hh Iv Ov].
  assert (Cl : forall b x d, clean (Site x (setn (si_peers s) k (Peer (w_h v) (w_in v) (w_sent v) b)) d)).
  { intros b x d q Q. cbn [si_peers] in Q. apply in_setn in Q as [->|Q]; [cbn [pe_in]; auto|now apply C]. }
  destruct r as [u|x| |]; (split; [|apply Cl]); constructor; cbn [si_srv si_peers si_down]; congruence || auto.
Qed.
Theorem C103_course : forall J l m, same_but J l m -> forall s t, site_alike J s t ->
  (forall p, In p (si_peers s) -> bytes_ok (pe_in p)) -> keeps_to J s l ->
  si_peers (happens t m) = si_peers (happens s l) /\ si_down (happens t m) = si_down (happens s l) /\
  forall j, J j -> nth_error (sv_provs (si_srv (happens t m))) j = nth_error (sv_provs (si_srv (happens s l))) j.
Proof.
  intros J l m B. induction B as [|e l m B IH|i tag v l m N B IH|i tag v l m N B IH]; intros s t A C K.
  - destruct A as [S P D]. split; [exact P|]. split; [exact D|]. apply (al_provs _ _ _ S).
  - destruct K as [K1 K2]. change (happens s (e :: l)) with (happens (happen s e) l). change (happens t (e :: m)) with (happens (happen t e) m).
    destruct (happen_alike J s t e C A) as [A' C'].
    { intros k p -> E. exact (K1 p E). }
    now apply IH.
  - destruct K as [_ K2]. change (happens s (Host i tag v :: l)) with (happens (happen s (Host i tag v)) l).
    destruct (si_down s) eqn:D; [rewrite happen_down in * by exact D; now apply IH|].
    rewrite happen_host in * by exact D. apply IH; [|exact C|exact K2].
    destruct A as [S P Dt]. constructor; cbn [si_srv si_peers si_down]; [|exact P|congruence].
    eapply alike_trans; [apply alike_sym; now apply host_aside|exact S].
  - change (happens t (Host i tag v :: m)) with (happens (happen t (Host i tag v)) m).
    destruct A as [S P Dt]. destruct (si_down t) eqn:D; [rewrite happen_down by exact D; apply IH; try assumption; constructor; congruence || assumption|].
    rewrite happen_host by exact D. apply IH; [|exact C|exact K].
    constructor; cbn [si_srv si_peers si_down]; [|exact P|congruence].
    eapply alike_trans; [exact S|now apply host_aside].
Qed.
Print Assumptions C103_course.

(** Two providers: what a client of route 1,0 does and sees has nothing to do with
    the tags at 1,1. *)
Definition other_prov (n : Z) : prov := Prov [(str "speed", PV (GInt true 4 n))] [].
Definition two_server (routes : list (bytes * nat)) (n : Z) : server :=
  Server (conn_add cman_init (SConn 1 5 6 1000 [1; 0] true)) routes [demo_prov; other_prov n] demo_attrs
    (fun _ => 77) 0 [] (Conv (fun _ z => z) (fun _ _ => 0) (fun _ => [])) [127; 0; 0; 1] 44818.
Definition two_site (n : Z) (streams : list bytes) : site :=
  Site (two_server [([1; 0], 0%nat); ([1; 1], 1%nat)] n) (map (fun s => Peer handler_new s [] true) streams) false.
Definition wrapped (msg route : bytes) : bytes :=
  unconnected ([0x52; 2; 0x20; 6; 0x24; 1; 5; 10] ++ le 2 (len msg) ++ msg ++ le 2 (len route / 2) ++ route).

(** A Set Attribute Single sent to route 1,1 changes the tags at route 1,0. *)
Definition set_first : bytes := [0x10; 3; 0x20; 0xC8; 0x24; 1; 0x30; 1; 0xC4; 0; 1; 0; 99; 0; 0; 0].
Definition speeds (s : site) : list (option pval) := map (fun p => mget (pv_data p) (str "speed")) (sv_provs (si_srv s)).
Definition first_tags (s : site) : list (option pval) := map (fun p => mget (pv_data p) (str "arr")) (sv_provs (si_srv s)).
Theorem C103_attribute_refuted : exists f s, bytes_ok f /\ f = wrapped set_first [1; 1] /\ s = two_site 9 [f] /\
  registered (si_srv s) [1; 0] 0 /\ registered (si_srv s) [1; 1] 1 /\
  nth_error (sv_provs (si_srv (happens s [Turn 0]))) 1 = nth_error (sv_provs (si_srv s)) 1 /\
  first_tags s = [Some (PS (EK (KInt true 2)) 0 0 3); None] /\
  first_tags (happens s [Turn 0]) = [Some (PV (GInt true 4 99)); None].
Proof.
  eexists; eexists. split; [|split; [reflexivity|split; [reflexivity|]]].
  - apply bytes_okb. vm_compute. reflexivity.
  - repeat split; vm_compute; reflexivity.
Qed.
Print Assumptions C103_attribute_refuted.

(** A connection opened along 1,0,1,1 works on the tags at 1,0, though others are
    registered for its route. *)
Definition opening (route : bytes) : bytes :=
  unconnected ([0x54; 2; 0x20; 6; 0x24; 1; 5; 10] ++ le 4 0 ++ le 4 40 ++ le 2 41 ++ le 2 42 ++ le 4 43 ++ le 4 0 ++ le 4 1000 ++ le 2 500 ++
    le 4 1000 ++ le 2 500 ++ [0xA3; len route / 2 + 2] ++ route ++ [0x20; 2; 0x24; 1]).
Definition over (ot : Z) (d : bytes) : bytes := frame_for 0x70 (zeros 6 ++ wire_list [(0xA1, le 4 ot); (0xB1, le 2 9 ++ d)]).
Definition write_speed : bytes := [0x4D; 4] ++ speed_path ++ [0xC4; 0; 1; 0; 33; 0; 0; 0].
Theorem C103_hops_refuted : exists s, s = Site (two_server [([1; 0], 0%nat); ([1; 0; 1; 1], 1%nat)] 9)
    [Peer handler_new (opening [1; 0; 1; 1] ++ over 77 write_speed) [] true] false /\
  registered (si_srv s) [1; 0; 1; 1] 1 /\
  speeds s = [Some (PV (GInt true 4 7)); Some (PV (GInt true 4 9))] /\
  speeds (happens s [Turn 0; Turn 0]) = [Some (PV (GInt true 4 33)); Some (PV (GInt true 4 9))].
Proof. eexists. split; [reflexivity|]. repeat split; vm_compute; reflexivity. Qed.
Print Assumptions C103_hops_refuted.

(** The requests of the theorems: over connection 5, and carrying route 1,1. *)
Definition read_speed : bytes := [0x4C; 4] ++ speed_path ++ [1; 0].
Definition route_10 (j : nat) : Prop := j = 0%nat.
Lemma meant_unit s f j : firstn 2 f = [0x70; 0] -> meant_for s f j ->
  exists route, connected_to s (unle (firstn 4 (skipn 36 f))) route /\ registered s route j.
Proof.
  assert (T : forall hdr r : bytes, length hdr = 24%nat -> firstn 2 (hdr ++ r) = firstn 2 hdr).
  { intros hdr r L. rewrite firstn_app, L. change (2 - 24)%nat with O. apply app_nil_r. }
  intros E M. destruct M as [hdr six a a' i d r route j Lh F Ls La C R|hdr six x a a' d r route j Lh F Ls La C R|hdr six x y d r route j Lh F Ls C R|hdr six x y d r j Lh F Ls C R].
  2-4: rewrite T, F in E by exact Lh; discriminate.
  exists route. split; [|exact R].
  assert (X : firstn 4 (skipn 36 (hdr ++ six ++ wire_list [(0xA1, a ++ a'); (i, d)] ++ r)) = a); [|now rewrite X].
  unfold wire_list, wire_item. cbn [map concat fst snd]. set (c := len [(0xA1, a ++ a'); (i, d)]).
  rewrite <- !app_assoc. set (z := a' ++ _).
  replace (hdr ++ six ++ le 2 c ++ le 2 0xA1 ++ le 2 (len (a ++ a')) ++ a ++ z)
    with ((hdr ++ six ++ le 2 c ++ le 2 0xA1 ++ le 2 (len (a ++ a'))) ++ a ++ z) by (now rewrite <- !app_assoc).
  rewrite skipn_app_exact by (rewrite !app_length, !le_length; lia). now apply firstn_app_exact.
Qed.
Lemma only_10 n streams f j : firstn 2 f = [0x70; 0] -> firstn 4 (skipn 36 f) = [5; 0; 0; 0] -> meant_for (si_srv (two_site n streams)) f j -> route_10 j.
Proof.
  intros E A M. destruct (meant_unit _ _ _ E M) as (route & (a & G & P) & R). rewrite A in G. vm_compute in G. injection G as <-.
  vm_compute in P. subst route. vm_compute in R. unfold route_10. congruence.
Qed.
(** The program changes the other tags in one course of events only. *)
Definition course (n : Z) : list happening := [Host 1 (str "speed") (GiveOne (GInt true 4 n)); Turn 0; Host 0 (str "other") (GiveOne (GBool true))].
Example ex_C103_course : same_but route_10 (course 1) (course 2) /\ keeps_to route_10 (two_site 9 [good_read]) (course 1) /\
  site_alike route_10 (two_site 9 [good_read]) (two_site 10 [good_read]) /\
  si_peers (happens (two_site 10 [good_read]) (course 2)) = si_peers (happens (two_site 9 [good_read]) (course 1)) /\
  speeds (happens (two_site 10 [good_read]) (course 2)) <> speeds (happens (two_site 9 [good_read]) (course 1)).
Proof.
  split; [|split; [|split; [|split; [vm_compute; reflexivity|vm_compute; discriminate]]]].
  - apply sb_left; [discriminate|]. apply sb_right; [discriminate|]. repeat constructor.
  - cbn [course keeps_to]. split; [exact I|]. split; [|split; exact I].
    intros p E j M. change (happen (two_site 9 [good_read]) (Host 1 (str "speed") (GiveOne (GInt true 4 1)))) with (two_site 1 [good_read]) in *.
    injection E as <-. revert M. apply only_10; vm_compute; reflexivity.
  - constructor; try reflexivity. constructor; try reflexivity. intros j ->. reflexivity.
Qed.
Example ex_C103 :
  (forall n, alike route_10 (si_srv (two_site 9 [good_read])) (si_srv (two_site n [good_read]))) /\
  meant_for (si_srv (two_site 9 [])) good_read 0 /\
  meant_for (si_srv (two_site 9 [])) (wrapped read_speed [1; 1]) 1 /\
  map (fun p => length (pe_sent p)) (si_peers (happens (two_site 9 [good_write ++ good_read; wrapped read_speed [1; 1]]) [Turn 0; Turn 1; Turn 0])) = [2; 1]%nat /\
  speeds (happens (two_site 9 [good_write ++ good_read; wrapped write_speed [1; 1]]) [Turn 0; Turn 1; Turn 0]) =
    [Some (PV (GInt true 4 9)); Some (PV (GInt true 4 33))].
Proof.
  split; [|split; [|split; [|split; vm_compute; reflexivity]]].
  - intro n. constructor; try reflexivity. intros j ->. reflexivity.
  - change good_read with (firstn 24 good_read ++ zeros 6 ++ wire_list [(0xA1, le 4 5 ++ []); (0xB1, le 2 9 ++ read_speed)] ++ []).
    apply (mf_unit _ (firstn 24 good_read) (zeros 6) (le 4 5) [] 0xB1 _ [] [1; 0] 0); try reflexivity.
    exists 0%nat. split; reflexivity.
  - change (wrapped read_speed [1; 1]) with (firstn 24 (wrapped read_speed [1; 1]) ++ zeros 6 ++
      wire_list [(0, []); (0xB2, [0x52; 2; 0x20; 6; 0x24; 1; 5; 10; 12; 0] ++ read_speed ++ le 2 1 ++ [1; 1] ++ [])] ++ []).
    apply (mf_send _ _ (zeros 6) 0 [] _ [] [1; 1] 1); try reflexivity.
    apply (ca 2 [0x20; 6; 0x24; 1] [5; 10; 12; 0] read_speed 1 [1; 1] []); try reflexivity; [|lia].
    change read_speed with (0x4C :: 4 :: speed_path ++ [1; 0]). constructor; [|reflexivity].
    change speed_path with (0x91 :: len (str "speed") :: str "speed" ++ [0] ++ []). constructor; [vm_compute; reflexivity|reflexivity|constructor].
Qed.
